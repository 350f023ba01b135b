(** C88: the tables behind the transformation plots. *)
From Coq Require Import String Reals ZArith List Bool Arith Lia Lra.
From Verif Require Import Lib_Sum Lib_Pow M_Base M_AdstockHill M_Equations M_Transformers M_Aggregate M_Analyzer M_Stats
  M_CurveTables S_Adstock S_Stats S_Transformers S_CurveTables P_Stats P_CurveTables P_CurveTables2 P_CurveTables3.
Import ListNotations.
Local Open Scope R_scope.

(** A model with one channel, a prior and a posterior of one draw each. *)
Definition ex_decay_draw (a : R) : draw :=
  mkDraw (fun _ => 0) (fun _ => 0) (mkParams 1 (fun _ => a) (fun _ => 1) (fun _ => 1))
     (mkParams 0 (fun _ => a) (fun _ => 1) (fun _ => 1)) (mkParams 0 (fun _ => a) (fun _ => 1) (fun _ => 1))
     (mkParams 0 (fun _ => a) (fun _ => 1) (fun _ => 1))
     (fun _ _ => 1) (fun _ _ => 1) (fun _ _ => 1) (fun _ _ => 1) (fun _ _ => 1) (fun _ _ => 1).
Definition ex_decay_model (n : nat) (max_lag : Z) (d : decay) (a : R) : curve_model :=
  mkCurveModel
    (mkModel (mkCtx n n max_lag false) ["a"]%string [] (fun _ => 1) (mkT2 1 n (fun _ _ => 1))
      (mkData (Some (mkT3 1 n 1 (fun _ _ _ => 1))) None None None None None None None None)
      (DOne d) (DOne d) (DOne d) (DOne d)
      (SOne Hill) (SOne Hill) (SOne Hill) (SOne Hill) None None None None None None None false)
    (fun k => match k with KMedia => ["tv"]%string | _ => [] end)
    (Some [ex_decay_draw a]) (Some [ex_decay_draw a]).
Lemma ex_decay_fitted : forall n m d a, (0 < n)%nat -> (0 <= m)%Z -> recognised d -> 0 <= a <= 1 ->
  fitted_curves (ex_decay_model n m d a) /\ has_channels (ex_decay_model n m d a).
Proof.
  intros n m d a Hn Hm Hd Ha. split; [|exists KMedia; cbn; lia].
  split; [exists [ex_decay_draw a]; split; [reflexivity|discriminate]|].
  split; [exists [ex_decay_draw a]; split; [reflexivity|discriminate]|].
  split; [exact Hm|]. split; [exact Hn|]. split; [intros []; reflexivity|].
  split; [cbn; repeat constructor; intros []|].
  split; [intros []; cbn; intros; unfold decay_ok; cbn; try lia; exact Hd|].
  intros [] w' [] c; cbn [draws_of cm_posterior cm_prior ex_decay_model In]; intros [<-|[]]; cbn; lra.
Qed.

(** *** Adstock decay *)
(** The table can be made exactly when the largest lag is at most 1000 periods. *)
Theorem C88_decay_runs : forall f level, fitted_curves f -> has_channels f -> 0 <= level <= 1 ->
  ((exists rows, adstock_decay f level = Ok rows) <-> (ctx_max_lag (x_cx (cm_x f)) <= 1000)%Z).
Proof. exact decay_runs_lemma. Qed.
Print Assumptions C88_decay_runs.

(** Beyond that, the number of steps by period is rounded down to zero and divided by. *)
Theorem C88_long_lag_refuted : exists f level, fitted_curves f /\ has_channels f /\ 0 <= level <= 1 /\
  adstock_decay f level = Err ZeroDivisionError.
Proof.
  destruct (ex_decay_fitted 5 1001 Geometric (1 / 2)) as [Hf Hc]; [lia|lia|unfold recognised; cbn; auto|lra|].
  exists (ex_decay_model 5 1001 Geometric (1 / 2)), (9 / 10). split; [exact Hf|]. split; [exact Hc|]. split; [lra|].
  apply long_lag_lemma; [exact Hf|]. cbn. lia.
Qed.
Print Assumptions C88_long_lag_refuted.

(** Every row is one of a channel, a time and a distribution; within the window of the adstock
    average its statistics are those of the share that is left by the channel's own decay
    function, and "is_int_time_unit" marks the whole periods. *)
Theorem C88_decay_rows : forall f level rows, fitted_curves f -> adstock_decay f level = Ok rows ->
  forall r, In r rows ->
  exists k c d, is_channel f k c (dr_channel r) /\
    assigned_decay (kind_decay k (cm_x f)) (kind_channels k (cm_x f)) c = Some d /\
    0 <= dr_time r < INR (drawn_periods f) /\
    (dr_is_int r = true <-> exists n : nat, dr_time r = INR n) /\
    (dr_time r < INR (model_window f) ->
     exists s, dr_stats r = Some s /\
       central_tendency_and_ci level
         (map (fun w => left_after d (p_alpha (kind_params k w) c) (model_window f) (dr_time r))
            (draws_of f (dr_posterior r))) = Ok s).
Proof. exact decay_rows_lemma. Qed.
Print Assumptions C88_decay_rows.

(** At every whole lag that is drawn, the table has the weight of that lag in the adstock average
    of the model, relative to the weight of lag zero. *)
Theorem C88_decay_lags : forall f level rows k c name d post j, fitted_curves f -> adstock_decay f level = Ok rows ->
  is_channel f k c name ->
  assigned_decay (kind_decay k (cm_x f)) (kind_channels k (cm_x f)) c = Some d ->
  (j < drawn_periods f)%nat -> (j < model_window f)%nat ->
  exists s, In (mkDecayRow name (INR j) post (Some s) true) rows /\
    central_tendency_and_ci level
      (map (fun w => documented_weight d (p_alpha (kind_params k w) c) (model_window f) j /
                     documented_weight d (p_alpha (kind_params k w) c) (model_window f) 0)
         (draws_of f post)) = Ok s.
Proof. exact decay_lags_lemma. Qed.
Print Assumptions C88_decay_lags.

(** With more media periods than lags, every curve starts at 1, never rises and stays in [0, 1]. *)
Theorem C88_decay_shape : forall f level rows, fitted_curves f -> adstock_decay f level = Ok rows ->
  (Z.to_nat (ctx_max_lag (x_cx (cm_x f))) < ctx_n_media_times (x_cx (cm_x f)))%nat ->
  forall r, In r rows ->
  exists s, dr_stats r = Some s /\
    (dr_time r = 0 -> all_equal s 1) /\
    0 <= st_mean s <= 1 /\ 0 <= st_lo s <= 1 /\ 0 <= st_hi s <= 1 /\
    (forall r' s', In r' rows -> dr_channel r' = dr_channel r -> dr_posterior r' = dr_posterior r ->
       dr_stats r' = Some s' -> dr_time r <= dr_time r' ->
       st_mean s' <= st_mean s /\ st_lo s' <= st_lo s /\ st_hi s' <= st_hi s).
Proof. exact decay_shape_lemma. Qed.
Print Assumptions C88_decay_shape.

(** Refuted: "the table shows the effect up to the largest lag".  The largest lag itself is left
    out although the model gives it weight. *)
Theorem C88_last_lag_refuted : exists f level rows, fitted_curves f /\ adstock_decay f level = Ok rows /\
  ctx_max_lag (x_cx (cm_x f)) = 1%Z /\
  (forall w, In w (draws_of f true) ->
     0 < documented_weight Geometric (p_alpha (kind_params KMedia w) 0%nat) (model_window f) 1) /\
  (forall r, In r rows -> dr_time r <> 1).
Proof.
  destruct (ex_decay_fitted 5 1 Geometric (1 / 2)) as [Hf Hc]; [lia|lia|unfold recognised; cbn; auto|lra|].
  destruct (proj2 (C88_decay_runs _ (9 / 10) Hf Hc ltac:(lra)) ltac:(cbn; lia)) as [rows H].
  exists (ex_decay_model 5 1 Geometric (1 / 2)), (9 / 10), rows. split; [exact Hf|]. split; [exact H|]. split; [reflexivity|]. split.
  - intros w [<-|[]]. replace (model_window (ex_decay_model 5 1 Geometric (1 / 2))) with 2%nat by reflexivity.
    unfold documented_weight, documented_decay. cbn. apply Rmult_lt_0_compat; [lra|apply Rinv_0_lt_compat; lra].
  - intros r Hr E. pose proof (no_last_lag _ _ _ r Hf H Hr ltac:(cbn; lia)) as L. rewrite E in L. change (1 < INR 1) in L. cbn [INR] in L. lra.
Qed.
Print Assumptions C88_last_lag_refuted.

(** Refuted: "effects are never negative".  With more lags than media periods, a binomial decay
    is drawn past the end of its window. *)
Theorem C88_beyond_data_refuted : exists f level rows r s, fitted_curves f /\ adstock_decay f level = Ok rows /\
  In r rows /\ dr_stats r = Some s /\ st_mean s < 0.
Proof.
  destruct (ex_decay_fitted 1 2 Binomial (1 / 2)) as [Hf Hc]; [lia|lia|unfold recognised; cbn; auto|lra|].
  destruct (proj2 (C88_decay_runs _ (9 / 10) Hf Hc ltac:(lra)) ltac:(cbn; lia)) as [rows H].
  destruct (table_rows _ _ _ Hf H) as [lags [HL [b [Hb HR]]]].
  destruct (Hb KMedia 0%nat ltac:(cbn; lia)) as [d [Hd [_ Bd]]]. cbn in Hd. assert (d = Binomial) by congruence. subst d.
  cbn [is_binomial] in Bd.
  destruct (summarise_runs (9 / 10) [Some (- (4 / 5))] ltac:(discriminate) ltac:(lra)) as [o Eo].
  assert (EV : decay_at true (1 / 2) 1 (9 / 5) = Some (- (4 / 5))).
  { unfold decay_at, map_alpha_for_binomial_decay, float_power. cbn [INR].
    destruct (Req_EM_T (1 / 2) 0) as [E|E]; [lra|]. destruct (Rlt_dec (1 - 9 / 5 / 1) 0) as [L|L]; [|lra].
    replace (1 / (1 / 2) - 1) with 1 by field.
    assert (IP : Int_part 1 = 1%Z).
    { unfold Int_part. rewrite <- (tech_up 1 2); [reflexivity|cbn; lra|cbn; lra]. }
    rewrite IP. destruct (Req_EM_T 1 (IZR 1)) as [Q|Q]; [|exfalso; apply Q; reflexivity].
    f_equal. unfold powerRZ. change (Pos.to_nat 1) with 1%nat. cbn [pow]. field. }
  assert (exists s, o = Some s /\ st_mean s < 0) as [s [-> Hs]].
  { unfold summarise_draws in Eo. cbn [map forallb is_some andb] in Eo.
    destruct (central_tendency_and_ci (9 / 10) [- (4 / 5)]) as [s|] eqn:ES; [|discriminate]. cbn [rbind] in Eo.
    exists s. split; [congruence|]. destruct (one_draw _ _ _ ES) as [-> _]. lra. }
  exists (ex_decay_model 1 2 Binomial (1 / 2)), (9 / 10), rows, (mkDecayRow "tv" (9 / 5) true (Some s) (is_integer (9 / 5))), s.
  split; [exact Hf|]. split; [exact H|]. split; [|split; [reflexivity|exact Hs]].
  apply HR. exists KMedia, 0%nat. split; [split; [cbn; lia|reflexivity]|]. split.
  - cbn [dr_time]. unfold lag_range, steps_per_period in HL. cbn in HL. injection HL as <-.
    do 9 right. left. unfold DEFAULT_STEPS. field.
  - split; [reflexivity|]. cbn [dr_posterior dr_time dr_stats]. rewrite Bd. change (summarise_draws (9 / 10) [decay_at true (1 / 2) 1 (9 / 5)] = Ok (Some s)). rewrite EV. exact Eo.
Qed.
Print Assumptions C88_beyond_data_refuted.

(** *** Hill curves *)
(** The tables can be made for every fitted model, level and positive number of bins. *)
Theorem C88_hill_runs : forall f level n_bins, hill_request f -> 0 <= level <= 1 -> (0 < n_bins)%nat ->
  exists t, hill_curves f level n_bins = Ok t.
Proof. exact hill_runs_lemma. Qed.
Print Assumptions C88_hill_runs.

Lemma request_data : forall f k c name, hill_request f -> is_channel f k c name ->
  exists y, curve_data f k y /\ kind_data k (cm_x f) = Some y.
Proof.
  intros f k c name (_ & _ & _ & HK & _) [Hc _]. destruct (HK k) as [[E _]|[y Hy]].
  - unfold kind_channels in Hc. rewrite E in Hc. cbn in Hc. lia.
  - exists y. split; [exact Hy|]. exact (proj1 Hy).
Qed.
Lemma request_lengths : forall f, hill_request f -> forall k, length (cm_names f k) = kind_channels k (cm_x f).
Proof.
  intros f (_ & _ & _ & HK & _) k. unfold kind_channels. destruct (HK k) as [[-> ->]|[y Hy]]; [reflexivity|].
  destruct Hy as (E & _ & _ & _ & _ & L & _). rewrite E. exact L.
Qed.

(** The rows of a channel are, for both distributions, 500 points from zero to the largest value
    on the channel's axis (media by capita, or frequency); each has the statistics of the Hill
    function at that value, in the unit of the model (the median of the media by capita). *)
Theorem C88_hill_rows : forall f level n_bins curves hists, hill_request f ->
  hill_curves f level n_bins = Ok (curves, hists) ->
  forall k y c name m u, kind_data k (cm_x f) = Some y -> is_channel f k c name ->
  is_max (axis_values f k y c) m -> is_unit f k y c u ->
  forall r, (In r curves /\ hl_channel r = name) <->
    hl_channel r = name /\ exists s, (s < 500)%nat /\ hl_media_units r = INR s / 499 * m /\
      central_tendency_and_ci level
        (map (fun w => hill (p_ec (kind_params k w) c) (p_slope (kind_params k w) c) (INR s / 499 * m / u))
           (draws_of f (hl_posterior r))) = Ok (hl_stats r).
Proof.
  intros f level n_bins curves hists Hq H k y c name m u Hy Hc Hm Hu.
  destruct (request_data f k c name Hq Hc) as [y' [Hd E]]. assert (y' = y) by congruence. subst y'.
  pose proof (request_lengths f Hq) as HL. destruct Hq as (_ & _ & ND & _).
  exact (hill_table_lemma f level n_bins curves hists k y H Hd ND HL c name m u Hc Hm Hu).
Qed.
Print Assumptions C88_hill_rows.

(** Every curve starts at zero, never falls along its axis and stays in [0, 1]. *)
Theorem C88_hill_shape : forall f level n_bins curves hists, hill_request f ->
  hill_curves f level n_bins = Ok (curves, hists) ->
  forall k y c name m, kind_data k (cm_x f) = Some y -> hill_draws_ok f k -> is_channel f k c name ->
  is_max (axis_values f k y c) m ->
  forall r, In r curves -> hl_channel r = name ->
    0 <= hl_media_units r <= m /\
    (hl_media_units r = 0 -> all_equal (hl_stats r) 0) /\
    0 <= st_mean (hl_stats r) <= 1 /\ 0 <= st_lo (hl_stats r) <= 1 /\ 0 <= st_hi (hl_stats r) <= 1 /\
    (forall r', In r' curves -> hl_channel r' = name -> hl_posterior r' = hl_posterior r ->
       hl_media_units r <= hl_media_units r' ->
       st_mean (hl_stats r) <= st_mean (hl_stats r') /\ st_lo (hl_stats r) <= st_lo (hl_stats r') /\
       st_hi (hl_stats r) <= st_hi (hl_stats r')).
Proof.
  intros f level n_bins curves hists Hq H k y c name m Hy Hh Hc Hm.
  destruct (request_data f k c name Hq Hc) as [y' [Hd E]]. assert (y' = y) by congruence. subst y'.
  pose proof (request_lengths f Hq) as HL. destruct Hq as (_ & _ & ND & _).
  exact (hill_shape_lemma f level n_bins curves hists k y H Hd Hh ND HL c name m Hc Hm).
Qed.
Print Assumptions C88_hill_shape.

(** The histogram of a channel: bins of equal width from the least to the largest value on the
    axis (half a unit to each side if these are equal); "count_histogram" is the share of the
    values in a bin divided by the width of the bin; the bins hold every value; the largest
    scaled count is 1. *)
Theorem C88_histogram : forall f level n_bins curves hists, hill_request f ->
  hill_curves f level n_bins = Ok (curves, hists) ->
  forall k y c name m m', kind_data k (cm_x f) = Some y -> is_channel f k c name ->
  is_min (axis_values f k y c) m -> is_max (axis_values f k y c) m' ->
  exists edge density : nat -> R, exists top,
    (0 < n_bins)%nat /\
    (if Req_EM_T m m' then edge 0%nat = m - 1 / 2 /\ edge n_bins = m + 1 / 2 else edge 0%nat = m /\ edge n_bins = m') /\
    (forall i, edge (S i) - edge i = (edge n_bins - edge 0%nat) / INR n_bins) /\
    (forall i, (i < n_bins)%nat ->
       density i * (edge (S i) - edge i) * INR (length (axis_values f k y c)) =
       INR (number_in (axis_values f k y c) (edge i) (edge (S i)) (Nat.eqb i (n_bins - 1)))) /\
    rsum n_bins (fun i => density i * (edge (S i) - edge i)) = 1 /\
    is_max (map density (seq 0 n_bins)) top /\ 0 < top /\
    (forall r, (In r hists /\ hr_channel r = name) <->
       exists i, (i < n_bins)%nat /\ r = mkHistRow name k (density i / top) (density i) (edge i) (edge (S i))).
Proof.
  intros f level n_bins curves hists Hq H k y c name m m' Hy Hc Hm Hm'.
  destruct (request_data f k c name Hq Hc) as [y' [Hd E]]. assert (y' = y) by congruence. subst y'.
  destruct Hq as (_ & _ & ND & _).
  exact (histogram_lemma f level n_bins curves hists k y H Hd ND c name m m' Hc Hm Hm').
Qed.
Print Assumptions C88_histogram.

(** A model with one channel with reach and frequency, whose frequencies are 0 and 2, and no
    saturation. *)
Definition ex_hill_draw : draw :=
  let p n := mkParams n (fun _ => 0) (fun _ => 1) (fun _ => 1) in
  mkDraw (fun _ => 0) (fun _ => 0) (p 0%nat) (p 1%nat) (p 0%nat) (p 0%nat)
     (fun _ _ => 1) (fun _ _ => 1) (fun _ _ => 1) (fun _ _ => 1) (fun _ _ => 1) (fun _ _ => 1).
Definition ex_frequency : T3 := mkT3 1 2 1 (fun _ t _ => 2 * INR t).
Definition ex_reach : T3 := mkT3 1 2 1 (fun _ _ _ => 1).
Definition ex_hill_model : curve_model :=
  mkCurveModel
    (mkModel (mkCtx 2 2 0 false) ["a"]%string [] (fun _ => 1) (mkT2 1 2 (fun _ _ => 1))
      (mkData None (Some ex_reach) (Some ex_frequency) None None None None None None)
      (DOne Geometric) (DOne Geometric) (DOne Geometric) (DOne Geometric)
      (SOne NoSat) (SOne NoSat) (SOne NoSat) (SOne NoSat) None None None None None None None false)
    (fun k => match k with KRf => ["tv"]%string | _ => [] end)
    (Some [ex_hill_draw]) (Some [ex_hill_draw]).
Lemma ex_hill_request : hill_request ex_hill_model /\ hill_draws_ok ex_hill_model KRf.
Proof.
  split.
  - split; [exists [ex_hill_draw]; split; [reflexivity|discriminate]|].
    split; [exists [ex_hill_draw]; split; [reflexivity|discriminate]|].
    split; [cbn; repeat constructor; intros []|]. split.
    + intros k. destruct k; try (left; split; reflexivity). right. exists ex_frequency.
      split; [reflexivity|]. cbn [geos times chans ex_frequency]. split; [lia|]. split; [lia|]. split; [lia|].
      split. { intros g t c _ _ _. cbn [val ex_frequency]. pose proof (pos_INR t). lra. }
      split; [reflexivity|]. split; [|exact Logic.I]. intros g _. cbn. lra.
    + intros [] w k [<-|[]]; destruct k; reflexivity.
  - intros [] w c [<-|[]]; cbn; lra.
Qed.
Lemma ex_axis : axis_values ex_hill_model KRf ex_frequency 0 = [0; 2].
Proof. unfold axis_values, channel_values. cbn. f_equal; [lra|]. f_equal. lra. Qed.
Lemma ex_max : is_max [0; 2] 2.
Proof. split; [right; left; reflexivity|]. intros v [<-|[<-|[]]]; lra. Qed.
Lemma ex_min : is_min [0; 2] 0.
Proof. split; [left; reflexivity|]. intros v [<-|[<-|[]]]; lra. Qed.

(** Refuted: "the table shows the transformation the model uses".  A channel without saturation
    is drawn with a Hill curve. *)
Theorem C88_unsaturated_refuted : exists f level n_bins curves hists r z, hill_request f /\
  hill_curves f level n_bins = Ok (curves, hists) /\ x_sat_rf (cm_x f) = SOne NoSat /\
  In r curves /\ hl_media_units r = 2 /\ st_mean (hl_stats r) = 2 / 3 /\
  (forall w, In w (draws_of f (hl_posterior r)) ->
     adstock_hill_rf (x_cx (cm_x f)) ex_reach ex_frequency (w_rf w) (x_decay_rf (cm_x f)) (x_sat_rf (cm_x f)) None = Ok z) /\
  val ex_frequency 0 1 0 = 2 /\ val ex_reach 0 1 0 = 1 /\ val z 0 1 0 = 2.
Proof.
  destruct ex_hill_request as [Hq Hh].
  destruct (C88_hill_runs _ (9 / 10) 1 Hq ltac:(lra) ltac:(lia)) as [[curves hists] H].
  assert (Hc : is_channel ex_hill_model KRf 0 "tv") by (split; [cbn; lia|reflexivity]).
  assert (Hm : is_max (axis_values ex_hill_model KRf ex_frequency 0) 2) by (rewrite ex_axis; exact ex_max).
  destruct (central_runs (9 / 10) [hill 1 1 (INR 499 / 499 * 2 / 1)] ltac:(discriminate) ltac:(lra)) as [s Es].
  assert (HV : hill 1 1 (INR 499 / 499 * 2 / 1) = 2 / 3).
  { rewrite <- num_steps. unfold hill. replace (INR (HILL_NUM_STEPS - 1)) with (INR 499) by reflexivity.
    assert (P : INR 499 <> 0) by (apply not_0_INR; discriminate).
    replace (INR 499 / INR 499 * 2 / 1) with 2 by (field; exact P).
    assert (R1 : forall v, 0 <= v -> rpow v 1 = v) by (intros v Hv; change 1 with (INR 1); rewrite rpow_INR by exact Hv; cbn [pow]; lra). rewrite !R1 by lra. lra. }
  destruct (one_draw _ _ _ Es) as [EM _]. rewrite HV in EM.
  destruct (adstock_hill_rf (x_cx (cm_x ex_hill_model)) ex_reach ex_frequency (w_rf ex_hill_draw) (x_decay_rf (cm_x ex_hill_model)) (x_sat_rf (cm_x ex_hill_model)) None) as [z|e] eqn:EZ;
    [|exfalso; cbn in EZ; discriminate].
  exists ex_hill_model, (9 / 10), 1%nat, curves, hists, (mkHillRow "tv" true s 2), z.
  split; [exact Hq|]. split; [exact H|]. split; [reflexivity|]. split.
  { apply (proj2 (C88_hill_rows _ _ _ _ _ Hq H KRf ex_frequency 0%nat "tv"%string 2 1 eq_refl Hc Hm eq_refl
      (mkHillRow "tv" true s 2))). split; [reflexivity|]. exists 499%nat. split; [lia|]. split.
    - cbn [hl_media_units]. rewrite <- num_steps. replace (INR (HILL_NUM_STEPS - 1)) with (INR 499) by reflexivity.
      assert (P : INR 499 <> 0) by (apply not_0_INR; discriminate). field. exact P.
    - exact Es. }
  split; [reflexivity|]. split; [exact EM|]. split.
  { intros w [<-|[]]. exact EZ. }
  split; [cbn; lra|]. split; [reflexivity|].
  cbn in EZ. injection EZ as <-. cbn. assert (SW : single_weight Geometric 0 1 0 = 1). { unfold single_weight. cbn. rewrite ?rpow_0_r. field. } rewrite SW. lra.
Qed.
Print Assumptions C88_unsaturated_refuted.

(** Refuted: "count_histogram holds counts". *)
Theorem C88_count_refuted : exists f level n_bins curves hists r, hill_request f /\
  hill_curves f level n_bins = Ok (curves, hists) /\ In r hists /\
  axis_values f KRf ex_frequency 0 = [0; 2] /\ hr_channel r = "tv"%string /\
  hr_start r = 0 /\ hr_end r = 2 /\ hr_count r = 1 / 2.
Proof.
  destruct ex_hill_request as [Hq Hh].
  destruct (C88_hill_runs _ (9 / 10) 1 Hq ltac:(lra) ltac:(lia)) as [[curves hists] H].
  assert (Hc : is_channel ex_hill_model KRf 0 "tv") by (split; [cbn; lia|reflexivity]).
  assert (Hm : is_max (axis_values ex_hill_model KRf ex_frequency 0) 2) by (rewrite ex_axis; exact ex_max).
  assert (Hn : is_min (axis_values ex_hill_model KRf ex_frequency 0) 0) by (rewrite ex_axis; exact ex_min).
  destruct (C88_histogram _ _ _ _ _ Hq H KRf ex_frequency 0%nat "tv"%string 0 2 eq_refl Hc Hn Hm)
    as (edge & density & top & _ & HE & _ & _ & HA & _ & _ & HR).
  destruct (Req_EM_T 0 2) as [Q|_]; [lra|]. destruct HE as [E0 E1].
  exists ex_hill_model, (9 / 10), 1%nat, curves, hists, (mkHistRow "tv" KRf (density 0%nat / top) (density 0%nat) (edge 0%nat) (edge 1%nat)).
  split; [exact Hq|]. split; [exact H|]. split.
  { apply (proj2 (HR _)). exists 0%nat. split; [lia|reflexivity]. }
  split; [exact ex_axis|]. split; [reflexivity|]. cbn [hr_start hr_end hr_count]. split; [exact E0|]. split; [exact E1|].
  cbn [rsum] in HA. rewrite E0, E1 in HA. lra.
Qed.
Print Assumptions C88_count_refuted.

(** The hypotheses above are met: fitted models with decay windows that fit the data, and with
    Hill parameters that can be drawn. *)
Example C88_decay_example : fitted_curves (ex_decay_model 5 3 Binomial (1 / 2)) /\
  has_channels (ex_decay_model 5 3 Binomial (1 / 2)) /\
  (exists rows, adstock_decay (ex_decay_model 5 3 Binomial (1 / 2)) (9 / 10) = Ok rows) /\
  model_window (ex_decay_model 5 3 Binomial (1 / 2)) = 4%nat /\ drawn_periods (ex_decay_model 5 3 Binomial (1 / 2)) = 3%nat.
Proof.
  destruct (ex_decay_fitted 5 3 Binomial (1 / 2)) as [Hf Hc]; [lia|lia|unfold recognised; cbn; auto|lra|].
  split; [exact Hf|]. split; [exact Hc|]. split; [|split; reflexivity].
  apply C88_decay_runs; [exact Hf|exact Hc|lra|cbn; lia].
Qed.
Example C88_hill_example : hill_request ex_hill_model /\ hill_draws_ok ex_hill_model KRf /\
  (exists t, hill_curves ex_hill_model (9 / 10) 25 = Ok t) /\
  is_max (axis_values ex_hill_model KRf ex_frequency 0) 2 /\ is_unit ex_hill_model KRf ex_frequency 0 1.
Proof.
  destruct ex_hill_request as [Hq Hh]. split; [exact Hq|]. split; [exact Hh|].
  split; [apply C88_hill_runs; [exact Hq|lra|lia]|]. split; [rewrite ex_axis; exact ex_max|reflexivity].
Qed.
