(** Labels of the geos in the summary tables, and the unused optimal frequency. *)
From Coq Require Import Reals ZArith Lia Lra String List Bool Arith Permutation.
From Verif Require Import Lib_Sum M_Base M_AdstockHill M_Equations M_Transformers M_Aggregate
  S_Aggregate S_Adstock S_Media S_Analyzer M_Analyzer S_Predictor P_Aggregate P_Analyzer P_AnalyzerIO
  P_Predictor S_Paid P_Paid P_PaidMono M_Stats S_Stats P_Stats M_Summary S_Roi P_Roi S_Summary P_Summary.
Import ListNotations.
Local Open Scope R_scope.

Lemma map_nth_filter : forall (P : string -> bool) names,
  map (fun i => nth i names ""%string) (filter (fun i => P (nth i names ""%string)) (seq 0 (length names)))
  = filter P names.
Proof.
  intros P names. induction names as [|a names IH]; [reflexivity|]. cbn [length seq filter].
  rewrite <- seq_shift.
  assert (E : filter (fun i => P (nth i (a :: names) ""%string)) (map S (seq 0 (length names)))
              = map S (filter (fun i => P (nth i names ""%string)) (seq 0 (length names)))).
  { generalize (seq 0 (length names)). intros l. induction l as [|i l IHl]; [reflexivity|]. cbn [map filter].
    rewrite IHl. cbn [nth]. destruct (P (nth i names ""%string)); reflexivity. }
  change (nth 0 (a :: names) ""%string) with a.
  destruct (P a) eqn:Pa; cbn [map]; rewrite E, map_map; cbn [nth]; rewrite IH; reflexivity.
Qed.

Lemma subsequence_in : forall l m, subsequence l m -> forall g, In g l -> In g m.
Proof. intros l m H. induction H; cbn; intros g Hg; [exact Hg|right; auto|destruct Hg; [left; assumption|right; auto]]. Qed.

Lemma subsequence_filter : forall l m, subsequence l m -> NoDup m ->
  filter (fun g => if in_dec string_dec g l then true else false) m = l.
Proof.
  intros l m H. induction H as [|a l m H IH|a l m H IH]; intros Hn; [reflexivity| |].
  - apply NoDup_cons_iff in Hn. destruct Hn as [Ha Hn]. cbn [filter].
    destruct (in_dec string_dec a l) as [C|_]; [exfalso; apply Ha; exact (subsequence_in _ _ H a C)|]. apply IH. exact Hn.
  - apply NoDup_cons_iff in Hn. destruct Hn as [Ha Hn]. cbn [filter].
    destruct (in_dec string_dec a (a :: l)) as [_|C]; [|exfalso; apply C; left; reflexivity]. f_equal.
    etransitivity; [|exact (IH Hn)]. apply filter_ext_in. intros g Hg.
    destruct (in_dec string_dec g (a :: l)) as [C|C], (in_dec string_dec g l) as [D|D]; try reflexivity.
    + destruct C as [->|C]; contradiction.
    + exfalso. apply C. right. exact D.
Qed.

Lemma labels_in_order : forall x gs, NoDup (x_geo x) -> in_data_order x gs -> geo_labels x gs = geo_names x gs.
Proof.
  intros x [l|] Hn Ho; unfold geo_names, chosen_geos, geo_labels.
  - cbn in Ho. symmetry. etransitivity; [|exact (subsequence_filter l (x_geo x) Ho Hn)].
    exact (map_nth_filter (fun g => if in_dec string_dec g l then true else false) (x_geo x)).
  - unfold x_n_geos. rewrite map_nth_seq. reflexivity.
Qed.

(** In another order the labels are wrong. *)
Lemma names_in_order : forall x gs, subsequence (geo_names x gs) (x_geo x).
Proof.
  intros x gs.
  assert (G : forall P (m : list string), subsequence (filter P m) m).
  { intros P m. induction m as [|a m IH]; [constructor|]. cbn. destruct (P a); constructor; exact IH. }
  destruct gs as [l|]; unfold geo_names, chosen_geos.
  - unfold x_n_geos. rewrite (map_nth_filter (fun g => if in_dec string_dec g l then true else false)). apply G.
  - unfold x_n_geos. rewrite map_nth_seq. clear. induction (x_geo x); constructor; assumption.
Qed.
Lemma labels_out_of_order : forall x gs, geo_labels x gs = geo_names x gs -> in_data_order x gs.
Proof.
  intros x [l|] H; [|exact Logic.I]. cbn. cbn [geo_labels] in H. rewrite H. apply names_in_order.
Qed.

(** The frequency argument is used for the impressions only. *)
Lemma frequency_unused : forall f nd br inc gs ts ag at' q q' uk level bs np bl s s',
  summary_metrics f nd br inc gs ts ag at' q uk level bs np bl = Ok s ->
  summary_metrics f nd br inc gs ts ag at' q' uk level bs np bl = Ok s' ->
  sm_incremental s = sm_incremental s' /\ sm_contribution s = sm_contribution s' /\
  sm_spend s = sm_spend s' /\ sm_roi s = sm_roi s' /\ sm_mroi s = sm_mroi s' /\ sm_cpik s = sm_cpik s'.
Proof.
  intros f nd br inc gs ts ag at' q q' uk level bs np bl s s' H H'.
  unfold summary_metrics in H, H'. cbv zeta in H, H'.
  inv_rbind H i0 Hi0. inv_rbind H i1 Hi1. inv_rbind H' i0' Hi0'. inv_rbind H' i1' Hi1'.
  clear Hi0 Hi1 Hi0' Hi1'.
  inv_rbind H a1 Ha1. rewrite Ha1 in H'. cbn [rbind] in H'.
  inv_rbind H a2 Ha2. rewrite Ha2 in H'. cbn [rbind] in H'.
  inv_rbind H a3 Ha3. rewrite Ha3 in H'. cbn [rbind] in H'.
  inv_rbind H a4 Ha4. rewrite Ha4 in H'. cbn [rbind] in H'.
  inv_rbind H a5 Ha5. rewrite Ha5 in H'. cbn [rbind] in H'.
  apply raise_if_inv in H. destruct H as [_ H]. apply raise_if_inv in H'. destruct H' as [_ H'].
  inv_rbind H a6 Ha6. rewrite Ha6 in H'. cbn [rbind] in H'.
  inv_rbind H a7 Ha7. inv_rbind H' a7' Ha7'.
  inv_rbind H a8 Ha8. rewrite Ha8 in H'. cbn [rbind] in H'.
  destruct np.
  - assert (E : s = mkSummary (sm_geo s) (sm_time s) (sm_channel s) (sm_shape s) a6 a8 (sm_effectiveness s) None None None None None None None None) by (apply (f_equal (fun r => match r with Ok v => v | _ => s end)) in H; rewrite <- H; reflexivity).
    assert (E' : s' = mkSummary (sm_geo s') (sm_time s') (sm_channel s') (sm_shape s') a6 a8 (sm_effectiveness s') None None None None None None None None) by (apply (f_equal (fun r => match r with Ok v => v | _ => s' end)) in H'; rewrite <- H'; reflexivity).
    rewrite E, E'. cbn. auto 10.
  - inv_rbind H a9 Ha9. rewrite Ha9 in H'. cbn [rbind] in H'.
    inv_rbind H b1 Hb1. rewrite Hb1 in H'. cbn [rbind] in H'.
    inv_rbind H b2 Hb2. rewrite Hb2 in H'. cbn [rbind] in H'.
    inv_rbind H b3 Hb3. rewrite Hb3 in H'. cbn [rbind] in H'.
    inv_rbind H b4 Hb4. rewrite Hb4 in H'. cbn [rbind] in H'.
    apply raise_if_inv in H. destruct H as [_ H]. apply raise_if_inv in H'. destruct H' as [_ H'].
    destruct at'.
    + inv_rbind H y1 Hc1. rewrite Hc1 in H'. cbn [rbind] in H'.
      inv_rbind H y2 Hc2. rewrite Hc2 in H'. cbn [rbind] in H'.
      inv_rbind H y3 Hc3. rewrite Hc3 in H'. cbn [rbind] in H'.
      inv_rbind H y4 Hc4. rewrite Hc4 in H'. cbn [rbind] in H'.
      inv_rbind H y5 Hc5. rewrite Hc5 in H'. cbn [rbind] in H'.
      inversion H. inversion H'. cbn. auto 10.
    + inversion H. inversion H'. cbn. auto 10.
Qed.
