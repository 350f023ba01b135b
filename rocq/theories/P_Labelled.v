(** Proofs about labelled incremental outcomes. *)
From Coq Require Import String Reals ZArith List Bool Arith Lia.
From Verif Require Import Lib_Sum M_Base M_AdstockHill M_Equations M_Transformers M_Aggregate S_Aggregate S_Adstock S_Media
  S_Analyzer M_Analyzer S_Predictor S_Paid P_AnalyzerIO P_Predictor P_Paid M_Summary S_Summary.
From Verif Require Import M_ArgBuilder M_ChannelMaps M_Labelled S_Labelled.
Import ListNotations.
Local Open Scope list_scope.

Lemma mem_dec : forall s l, M_Aggregate.mem s l = if in_dec string_dec s l then true else false.
Proof.
  intros s l. unfold M_Aggregate.mem. destruct (in_dec string_dec s l) as [I|I].
  - apply existsb_exists. exists s. split; [exact I|apply String.eqb_refl].
  - apply not_true_iff_false. intros H. apply existsb_exists in H. destruct H as [t [H E]]. apply String.eqb_eq in E.
    subst. exact (I H).
Qed.
Lemma map_nth_seq : forall A (l : list A) d, map (fun i => nth i l d) (seq 0 (length l)) = l.
Proof.
  intros A l d. apply (nth_ext _ _ d d); [rewrite map_length, seq_length; reflexivity|].
  intros n H. rewrite map_length, seq_length in H. rewrite (nth_indep _ d (nth 0 l d)) by (rewrite map_length, seq_length; exact H).
  rewrite (map_nth (fun i => nth i l d) (seq 0 (length l)) 0%nat n). rewrite seq_nth by exact H. reflexivity.
Qed.
Lemma filter_map_comm : forall A B (f : A -> B) p l, filter p (map f l) = map f (filter (fun a => p (f a)) l).
Proof. induction l as [|a l IH]; cbn; [reflexivity|]. destruct (p (f a)); cbn; rewrite IH; reflexivity. Qed.
Lemma filter_positions : forall A (l : list A) d (p : A -> bool),
  filter p l = map (fun i => nth i l d) (filter (fun i => p (nth i l d)) (seq 0 (length l))).
Proof. intros A l d p. rewrite <- (map_nth_seq A l d) at 1. apply filter_map_comm. Qed.

Lemma select_positions : forall A (l : list A) mask d, length mask = length l ->
  select l mask = map (fun i => nth i l d) (filter (fun i => nth i mask false) (seq 0 (length l))).
Proof.
  intros A l mask d H. unfold select.
  assert (E : combine l mask = map (fun i => (nth i l d, nth i mask false)) (seq 0 (length l))).
  { apply (nth_ext _ _ (d, false) (d, false)).
    - rewrite combine_length, map_length, seq_length. lia.
    - intros n Hn. rewrite combine_length in Hn. rewrite combine_nth by (symmetry; exact H).
      rewrite (nth_indep _ (d, false) ((fun i => (nth i l d, nth i mask false)) 0%nat)) by (rewrite map_length, seq_length; lia).
      rewrite (map_nth (fun i => (nth i l d, nth i mask false)) (seq 0 (length l)) 0%nat n), seq_nth by lia. reflexivity. }
  rewrite E, filter_map_comm, map_map. reflexivity.
Qed.

Lemma filter_none : forall r, filter (fun i => nth i (@nil bool) false) r = [].
Proof. induction r as [|i r IH]; [reflexivity|]. cbn [filter]. replace (nth i (@nil bool) false) with false by (destruct i; reflexivity). exact IH. Qed.

Lemma geo_labels : forall x o, xr_geo x o = if o_aggregate_geos o then None else Some (geo_names x (o_selected_geos o)).
Proof.
  intros x o. unfold xr_geo. destruct (o_aggregate_geos o); [reflexivity|]. f_equal. unfold geo_names, chosen_geos, x_n_geos.
  destruct (o_selected_geos o) as [s|]; [|symmetry; apply map_nth_seq].
  rewrite (filter_positions _ (x_geo x) ""%string). f_equal. apply filter_ext. intros i. apply mem_dec.
Qed.

Lemma time_labels : forall x o shp, well_formed x -> times_ok x (o_selected_times o) ->
  nth (if o_aggregate_geos o then 0 else 1)%nat shp 0%nat = length (chosen_times x (o_selected_times o)) ->
  xr_time x o shp = if o_aggregate_times o then None else Some (period_names x (o_selected_times o)).
Proof.
  intros x o shp W Ht E. unfold xr_time. destruct (o_aggregate_times o); [reflexivity|]. cbv zeta. rewrite E.
  unfold period_names. pose proof (wf_time x W) as WT.
  destruct (o_selected_times o) as [[l|l]|] eqn:ES; cbn [chosen_times] in *.
  - assert (EF : filter (fun t => M_Aggregate.mem t l) (x_time x) = map (fun t => nth t (x_time x) ""%string)
       (filter (fun i => if in_dec string_dec (nth i (x_time x) ""%string) l then true else false) (seq 0 (x_n_times x)))).
    { rewrite (filter_positions _ (x_time x) ""%string), WT. f_equal. apply filter_ext. intros i. apply mem_dec. }
    rewrite EF, map_length, Nat.eqb_refl. reflexivity.
  - destruct l as [|b l].
    + assert (EN : filter (fun i => nth i (@nil bool) false) (seq 0 (x_n_times x)) = []).
      { apply filter_none. }
      rewrite EN. reflexivity.
    + destruct Ht as [Q|Ht]; [discriminate|]. rewrite WT, <- Ht, Nat.eqb_refl, Ht.
      f_equal. rewrite (select_positions _ (x_time x) (b :: l) ""%string) by congruence. rewrite WT. reflexivity.
  - rewrite seq_length, WT, Nat.eqb_refl. f_equal. rewrite <- WT. symmetry. apply map_nth_seq.
Qed.

Lemma fits_length : forall l y, fits_names l y -> length (listed l) = n_chans y.
Proof. intros [l|] [y|] H; cbn in *; try contradiction; auto. Qed.

Lemma paid_names : forall x d, well_formed x -> names_ok x d ->
  all_paid (nd_channels d) = Ok (listed (cn_media (nd_channels d)) ++ listed (cn_rf (nd_channels d))).
Proof.
  intros x d W (N1 & N2 & _). unfold all_paid. destruct (wf_paid x W) as [P|P].
  - destruct (cn_media (nd_channels d)) as [a|]; [|destruct (d_media (x_data x)); [contradiction|congruence]].
    destruct (cn_rf (nd_channels d)); cbn [listed]; [reflexivity|rewrite app_nil_r; reflexivity].
  - destruct (cn_rf (nd_channels d)) as [b|]; [|destruct (d_reach (x_data x)); [contradiction|congruence]].
    destruct (cn_media (nd_channels d)); reflexivity.
Qed.
Lemma all_names : forall x d, well_formed x -> names_ok x d ->
  get_all_channels d = Ok ((listed (cn_media (nd_channels d)) ++ listed (cn_rf (nd_channels d)))
    ++ listed (cn_organic_media (nd_channels d)) ++ listed (cn_organic_rf (nd_channels d)) ++ listed (nd_non_media d)).
Proof. intros x d W N. unfold get_all_channels. rewrite (paid_names x d W N). reflexivity. Qed.

Lemma name_lookup : forall x d ch, well_formed x -> names_ok x d -> is_channel x ch ->
  exists name, channel_name d ch = Some name /\
    nth_error ((listed (cn_media (nd_channels d)) ++ listed (cn_rf (nd_channels d)))
      ++ listed (cn_organic_media (nd_channels d)) ++ listed (cn_organic_rf (nd_channels d)) ++ listed (nd_non_media d))
      (channel_index x ch) = Some name.
Proof.
  intros x d ch W (N1 & N2 & N3 & N4 & N5) H. apply fits_length in N1, N2, N3, N4, N5.
  rewrite <- !app_assoc.
  destruct ch as [c|c|c|c|c]; cbn [is_channel channel_index channel_name] in *; rewrite <- ?N1, <- ?N2, <- ?N3, <- ?N4, <- ?N5 in *.
  - destruct (nth_error (listed (cn_media (nd_channels d))) c) as [s|] eqn:E; [|apply nth_error_None in E; lia].
    exists s. split; [reflexivity|]. rewrite nth_error_app1 by lia. exact E.
  - destruct (nth_error (listed (cn_rf (nd_channels d))) c) as [s|] eqn:E; [|apply nth_error_None in E; lia].
    exists s. split; [reflexivity|]. rewrite nth_error_app2 by lia. rewrite nth_error_app1 by lia.
    rewrite <- E. f_equal. lia.
  - destruct (nth_error (listed (cn_organic_media (nd_channels d))) c) as [s|] eqn:E; [|apply nth_error_None in E; lia].
    exists s. split; [reflexivity|]. do 2 rewrite nth_error_app2 by lia. rewrite nth_error_app1 by lia.
    rewrite <- E. f_equal. lia.
  - destruct (nth_error (listed (cn_organic_rf (nd_channels d))) c) as [s|] eqn:E; [|apply nth_error_None in E; lia].
    exists s. split; [reflexivity|]. do 3 rewrite nth_error_app2 by lia. rewrite nth_error_app1 by lia.
    rewrite <- E. f_equal. lia.
  - destruct (nth_error (listed (nd_non_media d)) c) as [s|] eqn:E; [|apply nth_error_None in E; lia].
    exists s. split; [reflexivity|]. do 4 rewrite nth_error_app2 by lia. rewrite <- E. f_equal. lia.
Qed.

Lemma shape_eqb_refl : forall s, M_Budget.shape_eqb s s = true.
Proof. intros s. unfold M_Budget.shape_eqb. destruct (list_eq_dec Nat.eq_dec s s); [reflexivity|congruence]. Qed.

(** The labels fit an array of the documented shape. *)
Lemma xr_runs : forall x d nd nt o bs draws I C channels, well_formed x -> times_ok x (o_selected_times o) ->
  incremental_outcome x nd o bs draws = Ok I -> I <> [] ->
  shape (nth 0 I (mkTensor [] (fun _ => 0%R))) =
    (if o_aggregate_geos o then [] else [length (chosen_geos x (o_selected_geos o))])
    ++ (if o_aggregate_times o then [] else [length (chosen_times x (o_selected_times o))]) ++ [C] ->
  (if o_include_non_paid o then get_all_channels d else all_paid (nd_channels d)) = Ok channels ->
  length channels = C ->
  incremental_outcome_xr x d nd nt o bs draws =
    Ok (mkLabelled ((if o_aggregate_geos o then [] else ["geo"%string]) ++ (if o_aggregate_times o then [] else ["time"%string]) ++ ["channel"%string])
         (if o_aggregate_geos o then None else Some (geo_names x (o_selected_geos o)))
         (if o_aggregate_times o then None else Some (period_names x (o_selected_times o))) channels I).
Proof.
  intros x d nd nt o bs draws I C channels W Ht HI Hne HS HC HL. unfold incremental_outcome_xr. rewrite HI. cbn [rbind].
  destruct I as [|y I]; [congruence|]. cbn [nth] in HS. rewrite HC. cbn [rbind]. rewrite (geo_labels x o).
  assert (ET : xr_time x o (shape y) = if o_aggregate_times o then None else Some (period_names x (o_selected_times o))).
  { destruct (o_aggregate_times o) eqn:EA; [unfold xr_time; rewrite EA; reflexivity|].
    rewrite (time_labels x o (shape y) W Ht); [rewrite EA; reflexivity|]. rewrite HS. destruct (o_aggregate_geos o); reflexivity. }
  rewrite ET.
  assert (EF : sizes_fit o (shape y) (if o_aggregate_geos o then None else Some (geo_names x (o_selected_geos o)))
      (if o_aggregate_times o then None else Some (period_names x (o_selected_times o))) channels = true).
  { unfold sizes_fit. rewrite HS, HL. unfold geo_names, period_names.
    destruct (o_aggregate_geos o), (o_aggregate_times o); rewrite ?map_length; apply shape_eqb_refl. }
  rewrite EF. cbn [negb raise_if]. reflexivity.
Qed.
