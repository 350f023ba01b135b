(** Properties of the outcome calculations of the analyzer: C30-C33, C56 and C57. *)
From Coq Require Import Reals ZArith Lia Lra String List Bool Arith Sorted.
From Verif Require Import Lib_Sum M_Base M_AdstockHill M_Equations M_Transformers M_Aggregate
  S_Aggregate S_Adstock S_Media M_Analyzer S_Analyzer P_Analyzer P_AnalyzerIO.
Import ListNotations.
Local Open Scope R_scope.

(** *** A concrete model: two geos, two periods (three of media), two media channels, a channel
    with reach and frequency, and one non-media treatment. *)
Definition ex_media : T3 := mkT3 2 3 2 (fun g t c => INR (g + t + c)).
Definition ex_reach : T3 := mkT3 2 3 1 (fun g t _ => INR (g + t)).
Definition ex_freq : T3 := mkT3 2 3 1 (fun _ t _ => 1 + INR t).
Definition ex_price : T3 := mkT3 2 2 1 (fun g t _ => 5 + INR g + INR t).
Definition ex_factor : media_transformer := mkMediaTr (fun _ => 1) (fun _ _ => 2).
Definition ex_model : model :=
  mkModel (mkCtx 3 2 2 false) ["a"; "b"]%string ["2024-01-01"; "2024-01-08"]%string (fun _ => 1)
    (mkT2 2 2 (fun g t => INR (g + 2 * t)))
    (mkData (Some ex_media) (Some ex_reach) (Some ex_freq) None None None (Some ex_price) None
       (Some (mkT2 2 2 (fun _ _ => 3))))
    (DOne Geometric) (DOne Binomial) (DOne Geometric) (DOne Geometric)
    (SOne Hill) (SOne Hill) (SOne Hill) (SOne Hill)
    (Some ex_factor) (Some ex_factor) None None None None None false.
Definition ex_params (n : nat) : chan_params := mkParams n (fun _ => 1/2) (fun _ => 1) (fun _ => 1).
Definition ex_draw : draw :=
  mkDraw (fun _ => 1) (fun _ => 2) (ex_params 2) (ex_params 1) (ex_params 0) (ex_params 0)
    (fun _ c => 1 + INR c) (fun _ _ => 1) (fun _ _ => 0) (fun _ _ => 0) (fun _ _ => 0) (fun _ _ => 2).
Definition ex_options (f0 : R) (media_times : option (list bool)) : options :=
  mkOptions f0 1 (Some ["b"]%string) None media_times true false true false true true None.

Lemma ex_well_formed : well_formed ex_model.
Proof.
  constructor; cbn; auto; try lia; try (split; reflexivity).
  - left. discriminate.
  - unfold kind_ok, decay_ok, sat_ok, recognised. cbn. repeat split; (discriminate || tauto).
Qed.
Lemma ex_params_ok : forall n, params_ok (ex_params n).
Proof. intros n c _. cbn. lra. Qed.
Lemma ex_request : forall f0 mt, 0 <= f0 < 1 -> (mt = None \/ exists a b c, mt = Some [a; b; c]) ->
  valid_request ex_model (ex_options f0 mt) 1 [ex_draw; ex_draw].
Proof.
  intros f0 mt Hf Hmt. constructor; cbn; auto; try lia; try discriminate.
  - assert (D : draw_ok ex_model ex_draw).
    { unfold draw_ok. cbn.
      refine (conj _ (conj _ (conj _ (conj _ (conj _ (conj _ (conj _ _)))))));
        try congruence; apply ex_params_ok. }
    constructor; [exact D|]. constructor; [exact D|]. constructor.
  - intros l E. destruct Hmt as [->|(a & b & c & ->)]; [discriminate|]. injection E as <-. reflexivity.
Qed.
Lemma ex_baseline : is_baseline_value ex_model None 0 5.
Proof.
  unfold is_baseline_value, per_capita, non_media_factor. cbn. split.
  - left. lra.
  - intros v H. repeat (destruct H as [<-|H]; [lra|]). contradiction.
Qed.

(** ** C30: expected outcome = baseline outcome + the incremental outcomes of all channels, in
    every cell of every draw. *)
Theorem C30_outcome_decomposition : forall x o bs draws,
  well_formed x -> valid_request x o bs draws ->
  o_scaling_factor0 o = 0 -> o_scaling_factor1 o = 1 ->
  (forall t, executed (o_media_selected_times o) t = true) ->
  exists I E Eb,
    incremental_outcome x no_data o bs draws = Ok I /\
    expected_outcome x no_data (o_selected_geos o) (o_selected_times o) (o_aggregate_geos o)
      (o_aggregate_times o) (o_inverse o) (o_use_kpi o) bs draws = Ok E /\
    baseline_expected_outcome x (o_baseline_values o) (o_selected_geos o) (o_selected_times o)
      (o_aggregate_geos o) (o_aggregate_times o) (o_inverse o) (o_use_kpi o) bs draws = Ok Eb /\
    length I = length draws /\ length E = length draws /\ length Eb = length draws /\
    forall k z, (k < length draws)%nat ->
      shape (nth k Eb z) = shape (nth k E z) /\
      exists C, shape (nth k I z) = shape (nth k E z) ++ [C] /\
      forall pos, valid_position pos (shape (nth k E z)) ->
        at_ (nth k E z) pos
        = at_ (nth k Eb z) pos + rsum C (fun c => at_ (nth k I z) (pos ++ [c])).
Proof. exact decomposition_total. Qed.
Print Assumptions C30_outcome_decomposition.

Example C30_example : well_formed ex_model /\
  valid_request ex_model (ex_options 0 None) 1 [ex_draw; ex_draw] /\
  (forall t, executed (o_media_selected_times (ex_options 0 None)) t = true).
Proof.
  split; [exact ex_well_formed|]. split; [|reflexivity].
  apply ex_request; [lra|left; reflexivity].
Qed.

(** ** C31: the incremental outcomes add up to the difference between two scenarios, also when
    the second one (all media zero) is not evaluated. *)
Theorem C31_total_is_scenario_difference : forall x o b bs draws,
  well_formed x -> valid_request x o bs draws ->
  (forall c, (c < n_chans (d_non_media (x_data x)))%nat ->
     is_baseline_value x (o_baseline_values o) c (b c)) ->
  exists I E1 E0,
    incremental_outcome x no_data o bs draws = Ok I /\
    expected_outcome x
      (scenario x (o_scaling_factor1 o) (o_media_selected_times o) (o_by_reach o) None)
      (o_selected_geos o) (o_selected_times o) (o_aggregate_geos o) (o_aggregate_times o)
      (o_inverse o) (o_use_kpi o) bs draws = Ok E1 /\
    expected_outcome x
      (scenario x (o_scaling_factor0 o) (o_media_selected_times o) (o_by_reach o) (held_at x b))
      (o_selected_geos o) (o_selected_times o) (o_aggregate_geos o) (o_aggregate_times o)
      (o_inverse o) (o_use_kpi o) bs draws = Ok E0 /\
    length I = length draws /\ length E1 = length draws /\ length E0 = length draws /\
    forall k z, (k < length draws)%nat ->
      shape (nth k E0 z) = shape (nth k E1 z) /\
      exists C, shape (nth k I z) = shape (nth k E1 z) ++ [C] /\
      forall pos, valid_position pos (shape (nth k E1 z)) ->
        rsum C (fun c => at_ (nth k I z) (pos ++ [c])) = at_ (nth k E1 z) pos - at_ (nth k E0 z) pos.
Proof. exact difference_total. Qed.
Print Assumptions C31_total_is_scenario_difference.

(** The extra "All Channels" entry of the summaries is that total. *)
Theorem C31_reported_total : forall y lead n, shape y = lead ++ [n] ->
  exists z, with_total y = Ok z /\ shape z = lead ++ [S n] /\
    forall pos, (forall c, (c < n)%nat -> at_ z (pos ++ [c]) = at_ y (pos ++ [c])) /\
      at_ z (pos ++ [n]) = rsum n (fun c => at_ y (pos ++ [c])).
Proof. exact with_total_spec. Qed.
Print Assumptions C31_reported_total.

Example C31_example :
  (* evaluated *)
  valid_request ex_model (ex_options (1/2) (Some [true; false; true])) 1 [ex_draw; ex_draw] /\
  (* skipped *)
  valid_request ex_model (ex_options 0 None) 1 [ex_draw; ex_draw] /\
  (forall c, (c < n_chans (d_non_media (x_data ex_model)))%nat ->
     is_baseline_value ex_model None c ((fun _ => 5) c)).
Proof.
  split; [apply ex_request; [lra|right; repeat eexists]|].
  split; [apply ex_request; [lra|left; reflexivity]|].
  intros c Hc. cbn in Hc. replace c with 0%nat by lia. exact ex_baseline.
Qed.

(** ** C32: batches *)
Theorem C32_incremental_batch_size : forall x nd o bs bs' draws,
  (0 < bs)%Z -> (0 < bs')%Z -> draws <> [] ->
  incremental_outcome x nd o bs draws = incremental_outcome x nd o bs' draws.
Proof. exact incremental_batches. Qed.
Print Assumptions C32_incremental_batch_size.

Theorem C32_expected_batch_size : forall x nd gs ts ag at' inv uk bs bs' draws,
  (0 < bs)%Z -> (0 < bs')%Z -> draws <> [] ->
  expected_outcome x nd gs ts ag at' inv uk bs draws = expected_outcome x nd gs ts ag at' inv uk bs' draws.
Proof. exact expected_batches. Qed.
Print Assumptions C32_expected_batch_size.

(** Result [k] is the one of draw [k] alone. *)
Theorem C32_each_draw_alone : forall x nd o bs bs' draws I k w0 z,
  (0 < bs')%Z -> incremental_outcome x nd o bs draws = Ok I -> (k < length draws)%nat ->
  incremental_outcome x nd o bs' [nth k draws w0] = Ok [nth k I z].
Proof. exact incremental_single. Qed.
Print Assumptions C32_each_draw_alone.

Theorem C32_each_expected_draw_alone : forall x nd gs ts ag at' inv uk bs bs' draws E k w0 z,
  (0 < bs')%Z -> expected_outcome x nd gs ts ag at' inv uk bs draws = Ok E -> (k < length draws)%nat ->
  expected_outcome x nd gs ts ag at' inv uk bs' [nth k draws w0] = Ok [nth k E z].
Proof. exact expected_single. Qed.
Print Assumptions C32_each_expected_draw_alone.

(** No result for a batch size of zero or less. *)
Theorem C32_positive_batch_size : forall x nd o bs draws I,
  incremental_outcome x nd o bs draws = Ok I -> (0 < bs)%Z.
Proof. exact batch_size_positive. Qed.
Print Assumptions C32_positive_batch_size.

Example C32_example : exists I, incremental_outcome ex_model no_data (ex_options 0 None) 1 [ex_draw; ex_draw] = Ok I
  /\ length I = 2%nat.
Proof.
  assert (H0 : 0 <= 0 < 1) by lra.
  destruct (decomposition_total ex_model (ex_options 0 None) 1 [ex_draw; ex_draw] ex_well_formed
    (ex_request 0 None H0 (or_introl eq_refl)) eq_refl eq_refl (fun _ => eq_refl)) as (I & E & Eb & HI & _ & _ & L & _).
  exists I. split; [exact HI|exact L].
Qed.

(** ** C33: selection and aggregation *)

(** The selected geos, resp. dates, and only they, in the order of the data; unknown ones are
    rejected. *)
Theorem C33_selected_geos : forall geo s g, resolve_geo_indices geo (Some s) = Ok (Some g) ->
  StronglySorted lt g /\ (forall a, In a s -> In a geo) /\
  forall i d, In i g <-> (i < length geo)%nat /\ In (nth i geo d) s.
Proof. exact selected_geos_lemma. Qed.
Print Assumptions C33_selected_geos.

Theorem C33_selected_times : forall time n l ti, resolve_time_indices time n (Some (TDates l)) = Ok (Some ti) ->
  StronglySorted lt ti /\ (forall a, In a l -> In a time) /\
  forall i d, In i ti <-> (i < length time)%nat /\ In (nth i time d) l.
Proof. exact selected_times_lemma. Qed.
Print Assumptions C33_selected_times.

(** The aggregated result is the sum of the cells of the result that is not aggregated. *)
Theorem C33_aggregated_is_sum : forall k G NT T C x lead gi ti flex,
  shape x = lead ++ [G; T; C] -> In C (allowed_channel_dim k) ->
  in_range G gi -> in_range T ti -> (flex = false -> T = NT) ->
  exists each all,
    filter_and_aggregate k G NT x gi ti false false flex true = Ok each /\
    filter_and_aggregate k G NT x gi ti true true flex true = Ok all /\
    shape each = lead ++ [length (selection G gi); length (selection T ti); C] /\
    shape all = lead ++ [C] /\
    forall l c, length l = length lead ->
      at_ all (l ++ [c])
      = rsum (length (selection G gi)) (fun i => rsum (length (selection T ti)) (fun j =>
          at_ each (l ++ [i; j; c]))).
Proof. exact aggregation_lemma. Qed.
Print Assumptions C33_aggregated_is_sum.

(** Every cell holds what was asked for, whichever dimensions are aggregated. *)
Theorem C33_cells : forall k G NT T C x lead gi ti ag at' flex media,
  shape x = lead ++ [G; T; C] -> In C (allowed_channel_dim k) ->
  in_range G gi -> in_range T ti ->
  (if flex : bool then media = true else T = NT) ->
  exists out, filter_and_aggregate k G NT x gi ti ag at' flex media = Ok out /\
    shape out = lead ++ dimension G gi ag ++ dimension T ti at' ++ [C] /\
    forall l i j c, length l = length lead ->
      (ag = false -> (i < length (selection G gi))%nat) ->
      (at' = false -> (j < length (selection T ti))%nat) ->
      at_ out (l ++ position ag i ++ position at' j ++ [c])
      = cell G T gi ti ag at' (fun g t => at_ x (l ++ [g; t; c])) i j.
Proof. exact P_Aggregate.filter_media_lemma. Qed.
Print Assumptions C33_cells.

(** The same without a channel dimension, provided the leading dimension cannot be mistaken
    for one of (geo, time, channel). *)
Theorem C33_cells_without_channels : forall k G NT T x lead gi ti ag at' flex media,
  shape x = lead ++ [G; T] ->
  in_range G gi -> in_range T ti ->
  (if flex : bool then media = false
   else T = NT /\ forall c, In c (allowed_channel_dim k) -> last_dims 3 (shape x) <> [G; T; c]) ->
  exists out, filter_and_aggregate k G NT x gi ti ag at' flex media = Ok out /\
    shape out = lead ++ dimension G gi ag ++ dimension T ti at' /\
    forall l i j, length l = length lead ->
      (ag = false -> (i < length (selection G gi))%nat) ->
      (at' = false -> (j < length (selection T ti))%nat) ->
      at_ out (l ++ position ag i ++ position at' j)
      = cell G T gi ti ag at' (fun g t => at_ x (l ++ [g; t])) i j.
Proof. exact P_Aggregate.filter_no_media_lemma. Qed.
Print Assumptions C33_cells_without_channels.

(** Disjoint selections of geos add up. *)
Theorem C33_disjoint_geos_add : forall k n_times geo x C s1 s2 g1 g2 g12 ti at' T y1 y2 y12,
  shape x = [length geo; T; C] ->
  (forall g, In g s1 -> ~ In g s2) ->
  resolve_geo_indices geo (Some s1) = Ok g1 -> resolve_geo_indices geo (Some s2) = Ok g2 ->
  resolve_geo_indices geo (Some (s1 ++ s2)) = Ok g12 ->
  filter_and_aggregate k (length geo) n_times x g1 ti true at' true true = Ok y1 ->
  filter_and_aggregate k (length geo) n_times x g2 ti true at' true true = Ok y2 ->
  filter_and_aggregate k (length geo) n_times x g12 ti true at' true true = Ok y12 ->
  shape y1 = shape y12 /\ shape y2 = shape y12 /\
  forall pos, valid_position pos (shape y12) -> at_ y12 pos = at_ y1 pos + at_ y2 pos.
Proof. exact disjoint_lemma. Qed.
Print Assumptions C33_disjoint_geos_add.

(** Channel dimensions accepted: those of paid media, of paid reach and frequency, of both, of all
    channels with an effect, each with or without a column for the total. *)
Theorem C33_channel_dims : forall k C, In C (allowed_channel_dim k) <->
  exists n, (n = n_media k \/ n = n_rf k \/ n = n_media k + n_rf k \/
             n = n_media k + n_rf k + n_non_media k + n_organic_media k + n_organic_rf k)%nat /\
            (C = n \/ C = S n).
Proof.
  intros k C. unfold allowed_channel_dim, allowed_n_channels. rewrite in_app_iff, in_map_iff. split.
  - intros [H|(n & <- & H)].
    + exists C. split; [|left; reflexivity]. destruct H as [<-|[<-|[<-|[<-|[]]]]]; auto.
    + exists n. split; [|right; reflexivity]. destruct H as [<-|[<-|[<-|[<-|[]]]]]; auto.
  - intros (n & H & [-> | ->]); [left|right; exists n; split; [reflexivity|]];
      destruct H as [->|[->|[->| ->]]]; cbn; auto.
Qed.
Print Assumptions C33_channel_dims.

Example C33_example :
  resolve_geo_indices ["a"; "b"; "c"]%string (Some ["c"; "a"]%string) = Ok (Some [0; 2]%nat) /\
  resolve_geo_indices ["a"; "b"; "c"]%string (Some ["z"]%string) = Err ValueError /\
  resolve_time_indices ["s"; "t"]%string 2 (Some (TDates ["t"]%string)) = Ok (Some [1]%nat) /\
  resolve_time_indices ["s"; "t"]%string 2 (Some (TBools [true; false])) = Ok (Some [0]%nat) /\
  In 4%nat (allowed_channel_dim (mkCounts 2 1 1 0 0)) /\ in_range 3 (Some [0; 2]%nat).
Proof.
  split; [reflexivity|]. split; [reflexivity|]. split; [reflexivity|]. split; [reflexivity|].
  split; [cbn; tauto|]. repeat constructor.
Qed.

(** Without that proviso the claim fails: two draws of an outcome by two geos and two periods,
    in a model with two media channels, are read as two geos by two periods by two channels.
    The "total" of draw 0 then adds up both draws of geo 0. *)
Theorem C33_ambiguous_shape_refuted : exists k x out,
  shape x = [2; 2; 2]%nat /\
  filter_and_aggregate k 2 2 x None None true true false false = Ok out /\
  shape out = [2%nat] /\
  at_ out [0%nat] = 2 /\
  rsum 2 (fun g => rsum 2 (fun t => at_ x [0%nat; g; t])) = 4.
Proof.
  exists (mkCounts 2 0 0 0 0),
    (mkTensor [2; 2; 2]%nat (fun i => match i with 0%nat :: _ => 1 | _ => 0 end)).
  eexists. split; [reflexivity|]. split; [reflexivity|]. split; [reflexivity|].
  cbn. split; ring.
Qed.
Print Assumptions C33_ambiguous_shape_refuted.

(** An empty list of times is accepted, and selects nothing. *)
Theorem C33_empty_times_selects_nothing : forall time n,
  resolve_time_indices time n (Some (TDates [])) = Ok (Some []) /\
  resolve_time_indices time n (Some (TBools [])) = Ok (Some []) /\
  forall G T gi f i, cell G T gi (Some []) false true f i 0 = 0.
Proof.
  intros time n. split; [|split].
  - cbn. f_equal. f_equal. unfold positions.
    assert (H : forall s, filter (fun p : nat * string => mem (snd p) []) (combine (seq s (length time)) time) = []).
    { induction time as [|a l IH]; intros s; [reflexivity|]. cbn. apply IH. }
    rewrite H. reflexivity.
  - reflexivity.
  - intros. unfold cell, total. cbn. ring.
Qed.
Print Assumptions C33_empty_times_selects_nothing.

(** ** C57: the incremental outcome of one channel is the difference between the expected
    outcomes of two data sets that differ in that channel only. *)
Theorem C57_channel_is_scenario_difference : forall x o bs draws ch bv,
  well_formed x -> valid_request x o bs draws -> is_channel x ch ->
  (forall c, ch = ChNonMedia c -> is_baseline_value x (o_baseline_values o) c bv) ->
  exists I E1 E0,
    incremental_outcome x no_data o bs draws = Ok I /\
    expected_outcome x
      (treatment x ch (o_scaling_factor1 o) (o_media_selected_times o) (o_by_reach o) None)
      (o_selected_geos o) (o_selected_times o) (o_aggregate_geos o) (o_aggregate_times o)
      (o_inverse o) (o_use_kpi o) bs draws = Ok E1 /\
    expected_outcome x
      (treatment x ch (o_scaling_factor0 o) (o_media_selected_times o) (o_by_reach o) (Some bv))
      (o_selected_geos o) (o_selected_times o) (o_aggregate_geos o) (o_aggregate_times o)
      (o_inverse o) (o_use_kpi o) bs draws = Ok E0 /\
    length I = length draws /\ length E1 = length draws /\ length E0 = length draws /\
    forall k z, (k < length draws)%nat ->
      shape (nth k E0 z) = shape (nth k E1 z) /\
      (exists C, (channel_index x ch < C)%nat /\ shape (nth k I z) = shape (nth k E1 z) ++ [C]) /\
      forall pos, valid_position pos (shape (nth k E1 z)) ->
        at_ (nth k I z) (pos ++ [channel_index x ch]) = at_ (nth k E1 z) pos - at_ (nth k E0 z) pos.
Proof. exact channel_total. Qed.
Print Assumptions C57_channel_is_scenario_difference.

Example C57_example :
  valid_request ex_model (ex_options (1/2) (Some [true; false; true])) 1 [ex_draw; ex_draw] /\
  is_channel ex_model (ChMedia 1) /\ channel_index ex_model (ChMedia 1) = 1%nat /\
  is_channel ex_model (ChRf 0) /\ channel_index ex_model (ChRf 0) = 2%nat /\
  is_channel ex_model (ChNonMedia 0) /\ channel_index ex_model (ChNonMedia 0) = 3%nat /\
  is_baseline_value ex_model None 0 5.
Proof.
  split; [apply ex_request; [lra|right; repeat eexists]|].
  cbn. repeat (split; [lia|]). exact ex_baseline.
Qed.

(** ** C56: non-media treatments *)
Theorem C56_non_media_ignores_media_scaling : forall x o o' bs draws c bv,
  well_formed x -> valid_request x o bs draws -> valid_request x o' bs draws ->
  o_selected_geos o = o_selected_geos o' -> o_selected_times o = o_selected_times o' ->
  o_aggregate_geos o = o_aggregate_geos o' -> o_aggregate_times o = o_aggregate_times o' ->
  o_inverse o = o_inverse o' -> o_use_kpi o = o_use_kpi o' ->
  o_baseline_values o = o_baseline_values o' ->
  (c < n_chans (d_non_media (x_data x)))%nat ->
  is_baseline_value x (o_baseline_values o) c bv ->
  exists I I', incremental_outcome x no_data o bs draws = Ok I /\
    incremental_outcome x no_data o' bs draws = Ok I' /\
    forall k z lead C, (k < length draws)%nat -> shape (nth k I z) = lead ++ [C] ->
      shape (nth k I' z) = lead ++ [C] /\
      forall pos, valid_position pos lead ->
        at_ (nth k I z) (pos ++ [channel_index x (ChNonMedia c)])
        = at_ (nth k I' z) (pos ++ [channel_index x (ChNonMedia c)]).
Proof. exact non_media_independent. Qed.
Print Assumptions C56_non_media_ignores_media_scaling.

(** With the smallest value as baseline and non-negative coefficients, the incremental outcome
    of a non-media treatment is never negative. *)
Theorem C56_non_media_sign : forall x o bs draws c bv,
  well_formed x -> valid_request x o bs draws ->
  (c < n_chans (d_non_media (x_data x)))%nat ->
  is_baseline_value x (o_baseline_values o) c bv ->
  (forall v, In v (per_capita x c) -> bv <= v) ->
  (forall g, 0 <= x_population x g) ->
  (forall r g t, d_revenue_per_kpi (x_data x) = Some r -> 0 <= val2 r g t) ->
  exists I, incremental_outcome x no_data o bs draws = Ok I /\
    forall k w0 z lead C, (k < length draws)%nat -> shape (nth k I z) = lead ++ [C] ->
      (forall g, 0 <= w_gamma_gn (nth k draws w0) g c) ->
      forall pos, valid_position pos lead ->
        0 <= at_ (nth k I z) (pos ++ [channel_index x (ChNonMedia c)]).
Proof. exact non_media_sign. Qed.
Print Assumptions C56_non_media_sign.

Example C56_example :
  valid_request ex_model (ex_options 0 None) 1 [ex_draw; ex_draw] /\
  valid_request ex_model (ex_options (1/2) (Some [true; false; true])) 1 [ex_draw; ex_draw] /\
  is_baseline_value ex_model None 0 5 /\ (forall v, In v (per_capita ex_model 0) -> 5 <= v) /\
  (forall g, 0 <= w_gamma_gn ex_draw g 0).
Proof.
  split; [apply ex_request; [lra|left; reflexivity]|].
  split; [apply ex_request; [lra|right; repeat eexists]|].
  split; [exact ex_baseline|]. split; [exact (proj2 ex_baseline)|]. intros g. cbn. lra.
Qed.
