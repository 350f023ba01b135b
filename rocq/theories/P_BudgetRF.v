(** Proofs about the media data behind a spend, and about the stabilised grid. *)
From Coq Require Import Reals ZArith QArith List Bool Arith Lia Lra.
From Verif Require Import Lib_Sum Lib_Pow M_Base M_AdstockHill M_Equations S_Adstock S_Media P_Media
  M_Budget S_Budget P_Budget.
Import ListNotations.
Local Open Scope R_scope.

Lemma flighting_lemma : forall (spend hist : nat -> R) media cost c,
  hist c <> 0 ->
  rsum (geos media) (fun g => rsum (times media) (fun t => cost g t * val media g t c)) = hist c ->
  rsum (geos media) (fun g => rsum (times media) (fun t =>
    cost g t * val (scaled_media spend hist media) g t c)) = spend c.
Proof.
  intros spend hist media cost c Hh Hs. unfold scaled_media; cbn [val].
  rewrite dnn by exact Hh.
  rewrite (rsum_ext _ _ (fun g => spend c / hist c *
     rsum (times media) (fun t => cost g t * val media g t c))).
  - rewrite rsum_scal, Hs. field. exact Hh.
  - intros g _. rewrite <- rsum_scal. apply rsum_ext. intros t _. ring.
Qed.

Lemma dataset_impressions_lemma : forall spend hist opt reach frequency g t c,
  match opt with Some o => o c <> 0 | None => True end ->
  val (fst (dataset_rf spend hist opt reach frequency)) g t c *
  val (snd (dataset_rf spend hist opt reach frequency)) g t c =
  divide_no_nan (spend c) (hist c) * (val reach g t c * val frequency g t c).
Proof.
  intros spend hist opt reach frequency g t c Ho. unfold dataset_rf; cbn [fst snd val].
  set (k := divide_no_nan (spend c) (hist c)).
  set (i := k * (val reach g t c * val frequency g t c)).
  set (fr := match opt with Some o => o c | None => val frequency g t c end).
  assert (Hc : fr <> 0 \/ i = 0).
  { unfold fr. destruct opt as [o|]; [left; exact Ho|].
    destruct (Req_EM_T (val frequency g t c) 0) as [E|E]; [right; unfold i; rewrite E; ring|left; exact E]. }
  destruct (Req_EM_T i 0) as [Hi|Hi].
  - rewrite Hi. replace (divide_no_nan 0 fr) with 0; [rewrite dnn0; ring|].
    unfold divide_no_nan. destruct (Req_EM_T fr 0); [reflexivity|]. unfold Rdiv; ring.
  - destruct Hc as [Hc|Hc]; [|contradiction]. rewrite (dnn i fr) by exact Hc.
    assert (i / fr <> 0). { unfold Rdiv. apply Rmult_integral_contrapositive_currified; [exact Hi|].
      apply Rinv_neq_0_compat; exact Hc. }
    rewrite dnn by assumption. field. split; assumption.
Qed.

Lemma dataset_cost_lemma : forall spend hist opt reach frequency cost c,
  match opt with Some o => o c <> 0 | None => True end ->
  hist c <> 0 ->
  rsum (geos reach) (fun g => rsum (times reach) (fun t =>
     cost g t * (val reach g t c * val frequency g t c))) = hist c ->
  rsum (geos reach) (fun g => rsum (times reach) (fun t =>
    cost g t * (val (fst (dataset_rf spend hist opt reach frequency)) g t c *
                val (snd (dataset_rf spend hist opt reach frequency)) g t c))) = spend c.
Proof.
  intros spend hist opt reach frequency cost c Ho Hh Hs.
  rewrite (rsum_ext _ _ (fun g => spend c / hist c *
     rsum (times reach) (fun t => cost g t * (val reach g t c * val frequency g t c)))).
  - rewrite rsum_scal, Hs. field. exact Hh.
  - intros g _. rewrite <- rsum_scal. apply rsum_ext. intros t _.
    rewrite dataset_impressions_lemma by exact Ho. rewrite dnn by exact Hh. ring.
Qed.

(** Cell by cell, both constructions give the same saturated reach. *)
Lemma rf_cell_same : forall spend hist opt reach frequency h g t c,
  h 0 = 0 ->
  val (fst (dataset_rf spend hist opt reach frequency)) g t c *
    h (val (snd (dataset_rf spend hist opt reach frequency)) g t c) =
  val (fst (grid_rf spend hist opt reach frequency)) g t c *
    h (val (snd (grid_rf spend hist opt reach frequency)) g t c).
Proof.
  intros spend hist opt reach frequency h g t c Hh.
  unfold dataset_rf, grid_rf; cbv zeta.
  destruct opt as [o|]; cbn [fst snd val]; set (k := divide_no_nan (spend c) (hist c)).
  - rewrite Rmult_1_l. replace (k * val reach g t c * val frequency g t c)
      with (k * (val reach g t c * val frequency g t c)) by ring.
    set (i := k * (val reach g t c * val frequency g t c)).
    destruct (Req_EM_T (o c) 0) as [E|E]; [rewrite E, !dnn0; ring|].
    rewrite (dnn i) by exact E.
    destruct (Req_EM_T i 0) as [Hi|Hi]; [rewrite Hi; unfold Rdiv; rewrite !Rmult_0_l; reflexivity|].
    assert (i / o c <> 0). { unfold Rdiv. apply Rmult_integral_contrapositive_currified; [exact Hi|].
      apply Rinv_neq_0_compat; exact E. }
    rewrite dnn by assumption. replace (i / (i / o c)) with (o c) by (field; split; assumption). ring.
  - destruct (Req_EM_T (val frequency g t c) 0) as [E|E].
    + rewrite E, Hh, dnn0. ring.
    + rewrite (dnn _ _ E).
      destruct (Req_EM_T (k * val reach g t c) 0) as [Hi|Hi].
      * rewrite Hi. replace (k * (val reach g t c * val frequency g t c)) with 0
          by (rewrite <- Rmult_assoc, Hi; ring). unfold Rdiv; ring.
      * replace (k * (val reach g t c * val frequency g t c) / val frequency g t c)
          with (k * val reach g t c) by (field; exact E).
        rewrite dnn by exact Hi.
        replace (k * (val reach g t c * val frequency g t c) / (k * val reach g t c))
          with (val frequency g t c); [reflexivity|].
        field. split; intros Z; apply Hi; rewrite Z; ring.
Qed.

Lemma rf_freq_nonneg : forall spend hist opt reach frequency g t c,
  (forall o, opt = Some o -> 0 <= o c) -> 0 <= val frequency g t c ->
  0 <= val (snd (dataset_rf spend hist opt reach frequency)) g t c /\
  0 <= val (snd (grid_rf spend hist opt reach frequency)) g t c.
Proof.
  intros spend hist opt reach frequency g t c Ho Hf. split.
  - unfold dataset_rf; cbn [snd val].
    set (k := divide_no_nan (spend c) (hist c)).
    set (i := k * (val reach g t c * val frequency g t c)).
    assert (Hfr : 0 <= match opt with Some o => o c | None => val frequency g t c end).
    { destruct opt; auto. }
    revert Hfr. generalize (match opt with Some o => o c | None => val frequency g t c end).
    intros fr Hfr. destruct (Req_EM_T fr 0) as [E|E].
    { rewrite E, dnn0, dnn0. lra. }
    rewrite (dnn i fr) by exact E.
    destruct (Req_EM_T (i / fr) 0) as [E1|E1]; [rewrite E1, dnn0; lra|].
    rewrite dnn by exact E1.
    assert (i <> 0) by (intros Z; apply E1; rewrite Z; unfold Rdiv; ring).
    replace (i / (i / fr)) with fr; [exact Hfr|]. field. split; assumption.
  - unfold grid_rf. destruct opt as [o|]; cbn [snd val]; [|exact Hf].
    rewrite Rmult_1_l. apply Ho; reflexivity.
Qed.

Lemma documented_sat_zero : forall s ec slope, saturate s ec slope 0 = 0.
Proof.
  intros [] ec slope; cbn [saturate]; try reflexivity.
  unfold documented_hill. destruct (Req_EM_T 0 0); [reflexivity|contradiction].
Qed.

Lemma lagged_average_ext : forall W w x y t, (forall u, x u = y u) ->
  lagged_average W w x t = lagged_average W w y t.
Proof.
  intros W w x y t H. unfold lagged_average, past.
  apply rsum_ext. intros i _. destruct (Nat.leb i t); [rewrite H|]; reflexivity.
Qed.

Lemma rf_response_same_lemma : forall cx spend hist opt reach frequency p df sa n_out,
  rf_args_ok cx reach frequency p df sa n_out ->
  (forall o c, opt = Some o -> (c < chans reach)%nat -> 0 <= o c) ->
  exists o1 o2,
    adstock_hill_rf cx (fst (dataset_rf spend hist opt reach frequency))
      (snd (dataset_rf spend hist opt reach frequency)) p df sa (Some n_out) = Ok o1 /\
    adstock_hill_rf cx (fst (grid_rf spend hist opt reach frequency))
      (snd (grid_rf spend hist opt reach frequency)) p df sa (Some n_out) = Ok o2 /\
    T3_eq o1 o2.
Proof.
  intros cx spend hist opt reach frequency p df sa n_out [H1 [H2 [[Sg [St Sc]] [H3 [H4 [H5 [H6 H7]]]]]]] Ho.
  assert (Hd : forall g t c, (t < times reach)%nat -> (c < chans reach)%nat ->
     0 <= val (snd (dataset_rf spend hist opt reach frequency)) g t c /\
     0 <= val (snd (grid_rf spend hist opt reach frequency)) g t c).
  { intros g t c Ht Hc. apply rf_freq_nonneg; [intros o E; exact (Ho o c E Hc)|exact (H7 g t c Ht Hc)]. }
  assert (Hrs : geos (fst (grid_rf spend hist opt reach frequency)) = geos reach /\
                times (fst (grid_rf spend hist opt reach frequency)) = times reach /\
                chans (fst (grid_rf spend hist opt reach frequency)) = chans reach)
    by (unfold grid_rf; destruct opt; cbn; auto).
  assert (Hfs : geos (snd (grid_rf spend hist opt reach frequency)) = geos reach /\
                times (snd (grid_rf spend hist opt reach frequency)) = times reach /\
                chans (snd (grid_rf spend hist opt reach frequency)) = chans reach)
    by (unfold grid_rf; destruct opt; cbn; auto).
  destruct Hrs as [R1 [R2 R3]]. destruct Hfs as [F1 [F2 F3]].
  destruct (adstock_hill_rf_lemma cx (fst (dataset_rf spend hist opt reach frequency))
     (snd (dataset_rf spend hist opt reach frequency)) p df sa n_out) as [o1 [E1 [G1 [T1 [C1 V1]]]]];
    try assumption; try reflexivity.
  { intros g t c Ht Hc. exact (proj1 (Hd g t c Ht Hc)). }
  destruct (adstock_hill_rf_lemma cx (fst (grid_rf spend hist opt reach frequency))
     (snd (grid_rf spend hist opt reach frequency)) p df sa n_out) as [o2 [E2 [G2 [T2 [C2 V2]]]]];
    rewrite ?R1, ?R2, ?R3 in *; try assumption; try congruence.
  { intros g t c Ht Hc. exact (proj2 (Hd g t c Ht Hc)). }
  exists o1, o2. split; [exact E1|]. split; [exact E2|].
  cbn [fst dataset_rf geos times chans] in G1, C1.
  assert (HT : times o1 = times o2) by lia.
  unfold T3_eq. split; [congruence|]. split; [exact HT|]. split; [congruence|].
  intros g t c Hg Ht Hc.
  assert (Hc' : (c < chans reach)%nat) by (rewrite <- C1; exact Hc).
  destruct (V1 g t c Ht) as [d [s [A1 [_ [A2 [_ A3]]]]]]; [exact Hc'|].
  assert (Ht2 : (t < times o2)%nat) by (rewrite <- HT; exact Ht).
  destruct (V2 g t c Ht2 Hc') as [d' [s' [B1 [_ [B2 [_ B3]]]]]].
  assert (A1' : assigned_decay df (chans reach) c = Some d) by exact A1.
  assert (A2' : assigned_sat sa (chans reach) c = Some s) by exact A2.
  assert (d' = d) by congruence. assert (s' = s) by congruence. subst d' s'.
  rewrite A3, B3. cbv zeta. rewrite HT.
  change (times (fst (dataset_rf spend hist opt reach frequency))) with (times reach).
  apply lagged_average_ext. intros u.
  apply (rf_cell_same spend hist opt reach frequency (saturate s (p_ec p c) (p_slope p c)) g u c).
  apply documented_sat_zero.
Qed.
