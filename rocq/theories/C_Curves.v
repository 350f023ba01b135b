(** Properties C35 and C37: response curves and optimal frequencies. *)
From Coq Require Import Reals ZArith Lia Lra String List Bool Arith.
From Verif Require Import Lib_Sum M_Base M_AdstockHill M_Equations M_Transformers M_Aggregate
  S_Aggregate S_Adstock S_Media S_Analyzer M_Analyzer P_Analyzer P_AnalyzerIO S_Predictor P_Predictor S_Paid P_PaidMono C_Analyzer C_Predictor C_Paid
  M_Stats S_Stats P_Stats M_Summary S_Roi P_Roi C_Roi S_Summary C_Summary M_Curves S_Curves P_Curves P_Frequency.
Import ListNotations.
Local Open Scope R_scope.

(** ** C35: response curves *)
Lemma default_multipliers_list : default_multipliers = multipliers_used None.
Proof.
  unfold default_multipliers, multipliers_used. cbn [seq map]. repeat (apply f_equal2; [cbn [INR]; lra|]). reflexivity.
Qed.
Lemma multipliers_default : forall f nd o post gs ts br opt uk level bs,
  response_curves f nd o post gs ts br opt uk level bs
  = response_curves f nd (Some (multipliers_used o)) post gs ts br opt uk level bs.
Proof. intros. destruct o; [reflexivity|]. rewrite <- default_multipliers_list. reflexivity. Qed.

(** At every multiplier of the list the spend axis holds that multiple of the spend of the
    selection, and the outcome axis the mean and the interval over the draws of the outcome of
    that multiple of the media against none. *)
Theorem C35_curves : forall f post flat nd gs ts multipliers level bs by_reach use_kpi,
  curve_request f post flat nd gs ts (multipliers_used multipliers) level bs ->
  exists cv, response_curves f nd multipliers post gs ts by_reach false use_kpi level bs = Ok cv /\
  curves_of f (nt_data nd) (spend_used f (nt_spend nd)) post gs ts by_reach use_kpi level
    (multipliers_used multipliers) cv.
Proof.
  intros f post flat nd gs ts o level bs br uk V. rewrite multipliers_default.
  exact (plain_lemma f post flat nd gs ts (multipliers_used o) level bs br uk V).
Qed.
Print Assumptions C35_curves.

(** With [use_optimal_frequency] the same holds for the data with reach and frequency replaced:
    the impressions of every RF channel at the frequency that [optimal_freq] finds best for the
    posterior (the first frequency of its default grid with the largest mean ROI), whichever
    distribution the curves are for. *)
Theorem C35_optimal_frequency : forall f post flat nd gs ts multipliers level bs by_reach use_kpi imp,
  curve_request f post flat nd gs ts (multipliers_used multipliers) level bs ->
  impressions_curve (f_x f) (nt_data nd) imp ->
  frequency_request f (curve_rf f nd imp) imp (curve_grid f) gs ts (9 / 10) ->
  exists o cv, response_curves f nd multipliers post gs ts by_reach true use_kpi level bs = Ok cv /\
  optimal_frequencies f (curve_rf f nd imp) imp (curve_grid f) true use_kpi gs ts (9 / 10) o /\
  curves_of f (with_frequency (nt_data nd) imp (fun c => nth c (of_frequency o) 0)) (spend_used f (nt_spend nd))
    post gs ts by_reach use_kpi level (multipliers_used multipliers) cv.
Proof.
  intros f post flat nd gs ts o level bs br uk imp V I F. rewrite multipliers_default.
  exact (optimal_curves_lemma f post flat nd gs ts (multipliers_used o) level bs br uk imp V I F).
Qed.
Print Assumptions C35_optimal_frequency.

(** Every curve passes through the origin, for all inputs. *)
Theorem C35_zero : forall f nd multipliers post gs ts by_reach opt use_kpi level bs cv i c,
  response_curves f nd multipliers post gs ts by_reach opt use_kpi level bs = Ok cv ->
  (i < length (multipliers_used multipliers))%nat -> nth i (multipliers_used multipliers) 0 = 0 ->
  nth i (cv_spend cv) (fun _ => 0) c = 0 /\
  nth i (cv_outcome cv) (fun _ => None) c = Some (mkPoint 0 0 0).
Proof.
  intros f nd o post gs ts br opt uk level bs cv i c H Hi Hz. rewrite multipliers_default in H.
  set (ms := multipliers_used o) in *. unfold response_curves in H. cbv zeta in H.
  inv_rbind H rf Hrf. inv_rbind H out Ho. inv_rbind H t Ht. inv_rbind H u Hu.
  assert (cv = mkCurves ms (f_paid_names f) (map (fun m c => m * u c) ms) out) by congruence. subst cv.
  cbn [cv_spend cv_outcome]. split.
  - rewrite (nth_indep (map (fun m c => m * u c) ms) (fun _ => 0) ((fun m c => m * u c) 0)) by (rewrite map_length; exact Hi).
    rewrite (map_nth (fun m c => m * u c)). rewrite Hz. ring.
  - pose proof (proj2 (mapM_each _ _ _ _ _ Ho) i 0 (fun _ => None) Hi) as E. cbv beta in E. rewrite Hz in E.
    destruct (Req_EM_T 0 0) as [_|N]; [|congruence].
    assert (E' : nth i out (fun _ => None) = (fun _ => Some zero_point)) by congruence. rewrite E'. reflexivity.
Qed.
Print Assumptions C35_zero.

(** A larger multiplier gives no smaller mean, lower end and upper end of the outcome, when the
    coefficients and the values of a unit of KPI are not negative; and no smaller spend when the
    spend is not negative.  For the data of the user and for those at any frequencies. *)
Lemma change_mono : forall x d w ch uk br m m' gs ts,
  well_formed x -> paid_data_ok x d -> draw_ok x w -> paid_nonneg x d -> transformers_ok x -> is_paid x ch ->
  (forall g, 0 <= coefficient w ch g) -> (forall g t, 0 <= outcome_per_unit (paid_model x d) true uk g t) ->
  0 <= m <= m' ->
  outcome_change x d w ch uk br 0 m (chosen_geos x gs) (chosen_times x ts)
  <= outcome_change x d w ch uk br 0 m' (chosen_geos x gs) (chosen_times x ts).
Proof.
  intros x d w ch uk br m m' gs ts W D Dw N T Hc Hb Ho Hm. unfold outcome_change, total.
  apply Rminus_le.
  match goal with |- lsum (map ?F _) - lsum (map ?G _) <= 0 => set (A := F); set (B := G) end.
  assert (L : forall l, (forall g, In g l -> A g <= B g) -> lsum (map A l) <= lsum (map B l)).
  { induction l as [|a l IH]; intros H; cbn [map lsum]; [lra|].
    pose proof (H a (or_introl eq_refl)). pose proof (IH (fun g Hg => H g (or_intror Hg))). lra. }
  pose proof (L (chosen_geos x gs)) as L'. apply Rle_minus. apply L'. intros g _. unfold A, B. clear L L' A B.
  assert (TT : forall t, In t (chosen_times x ts) -> (t < x_n_times x)%nat).
  { intros t Htl. unfold chosen_times in Htl. destruct ts as [[l|l]|].
    - apply filter_In in Htl. destruct Htl as [Htl _]. apply in_seq in Htl. lia.
    - apply filter_In in Htl. destruct Htl as [Htl _]. apply in_seq in Htl. lia.
    - apply in_seq in Htl. lia. }
  revert TT. generalize (chosen_times x ts). induction l as [|t l IH]; intros TT; cbn [map lsum]; [lra|].
  pose proof (IH (fun u Hu => TT u (or_intror Hu))).
  pose proof (paid_term_mono x d w ch m m' None br g t W D Dw N T Hc (TT t (or_introl eq_refl)) (Hb g) Hm).
  specialize (Ho g t).
  assert (outcome_per_unit (paid_model x d) true uk g t * (paid_term x d w ch m None br g t - paid_term x d w ch 0 None br g t)
     <= outcome_per_unit (paid_model x d) true uk g t * (paid_term x d w ch m' None br g t - paid_term x d w ch 0 None br g t)).
  { apply Rmult_le_compat_l; [exact Ho|lra]. }
  lra.
Qed.

Theorem C35_monotone : forall f post flat nd gs ts multipliers level bs by_reach use_kpi d cv i j ch p p',
  curve_request f post flat nd gs ts (multipliers_used multipliers) level bs ->
  curves_of f d (spend_used f (nt_spend nd)) post gs ts by_reach use_kpi level (multipliers_used multipliers) cv ->
  paid_data_ok (f_x f) d -> paid_nonneg (f_x f) d -> is_paid (f_x f) ch ->
  (forall w g, In w (f_draws f post) -> 0 <= coefficient w ch g) ->
  (forall g t, 0 <= outcome_per_unit (paid_model (f_x f) d) true use_kpi g t) ->
  (i < length (multipliers_used multipliers))%nat -> (j < length (multipliers_used multipliers))%nat ->
  nth i (multipliers_used multipliers) 0 <= nth j (multipliers_used multipliers) 0 ->
  nth i (cv_outcome cv) (fun _ => None) (channel_index (f_x f) ch) = Some p ->
  nth j (cv_outcome cv) (fun _ => None) (channel_index (f_x f) ch) = Some p' ->
  point_le p p' /\
  (0 <= channel_spend (spend_used f (nt_spend nd)) ch (chosen_geos (f_x f) gs) (chosen_times (f_x f) ts) ->
   nth i (cv_spend cv) (fun _ => 0) (channel_index (f_x f) ch)
   <= nth j (cv_spend cv) (fun _ => 0) (channel_index (f_x f) ch)).
Proof.
  intros f post flat nd gs ts o level bs br uk d cv i j ch p p' V C D N Hc Hb Ho Hi Hj Hm Ep Ep'.
  set (ms := multipliers_used o) in *.
  destruct C as (_ & _ & _ & _ & C). destruct (C i ch Hi Hc) as (S1 & q1 & E1 & P1). destruct (C j ch Hj Hc) as (S2 & q2 & E2 & P2).
  assert (q1 = p) by congruence. assert (q2 = p') by congruence. subst q1 q2.
  destruct V as [Wm Tr Dr Ne Ba _ _ Sp Hg Ht Mu Lv]. rewrite Forall_forall in Mu, Dr.
  split.
  - refine (point_mono level _ _ p p' Lv _ _ P1 P2).
    + destruct (f_draws f post); [congruence|discriminate].
    + unfold dominated. revert Dr Hb. generalize (f_draws f post). induction l as [|w l IH]; intros Dr Hb; cbn [map]; constructor.
      * apply change_mono; auto. { apply Dr. left. reflexivity. } { intros g. apply Hb. left. reflexivity. }
        split; [apply Mu; apply nth_In; exact Hi|exact Hm].
      * apply IH; [intros v Hv; apply Dr; right; exact Hv|intros v g Hv; apply Hb; right; exact Hv].
  - intros Hs. rewrite S1, S2. apply Rmult_le_compat_r; assumption.
Qed.
Print Assumptions C35_monotone.

(** A list with a negative multiplier is refused, whatever the other arguments. *)
Theorem C35_negative_refused : forall f nd ms post gs ts by_reach opt use_kpi level bs cv m,
  In m ms -> m < 0 -> response_curves f nd (Some ms) post gs ts by_reach opt use_kpi level bs <> Ok cv.
Proof.
  intros f nd ms post gs ts br opt uk level bs cv m Hin Hm H. unfold response_curves in H. cbv zeta in H.
  inv_rbind H rf Hrf. inv_rbind H out Ho.
  destruct (In_nth ms m 0 Hin) as (i & Hi & Ei).
  pose proof (proj2 (mapM_each _ _ _ _ _ Ho) i 0 (fun _ => None) Hi) as E. cbv beta in E. rewrite Ei in E.
  destruct (Req_EM_T m 0) as [Z|_]; [lra|]. inv_rbind E q HI.
  unfold incremental_outcome in HI. cbv zeta in HI. inv_rbind HI u1 H1. inv_rbind HI u2 H2.
  unfold validate_scaling, roi_options in H2. cbn [o_scaling_factor1 o_scaling_factor0] in H2.
  destruct (Rlt_dec m 0) as [_|Z]; [discriminate|lra].
Qed.
Print Assumptions C35_negative_refused.

(** Refuted: the spend axis is the spend within the selection.  Spend given per channel is not
    split over periods, so the outcome of one period is plotted against the spend of both. *)
Lemma ex_curve_request : forall post flat nd gs ts ms, paid_data_ok ex_rich (nt_data nd) ->
  paid_nonneg ex_rich (nt_data nd) -> spend_ok flat ex_fitted (spend_used ex_fitted (nt_spend nd)) ->
  geos_ok ex_rich gs -> times_ok ex_rich ts -> Forall (fun m => 0 <= m) ms ->
  curve_request ex_fitted post flat nd gs ts ms (9 / 10) 10.
Proof.
  destruct C58_example as (W & D & _ & _ & _ & T & _).
  intros post flat nd gs ts ms H1 H2 H3 H4 H5 H6. constructor; auto; try lia; try lra.
  - destruct post; unfold f_draws, f_prior, f_posterior, ex_fitted;
    repeat (apply Forall_cons; [exact D|]); apply Forall_nil.
  - destruct post; discriminate.
Qed.
Lemma ex_multipliers : Forall (fun m => 0 <= m) (multipliers_used None).
Proof. unfold multipliers_used. repeat (apply Forall_cons; [lra|]). apply Forall_nil. Qed.

Theorem C35_spend_within_selection_refuted : exists f nd ts all one,
  response_curves f nd None true None None true false false (9 / 10) 10 = Ok all /\
  response_curves f nd None true None ts true false false (9 / 10) 10 = Ok one /\
  length (chosen_times (f_x f) None) = 2%nat /\ length (chosen_times (f_x f) ts) = 1%nat /\
  nth 5 (cv_spend all) (fun _ => 0) 0%nat = 10 /\ nth 5 (cv_spend one) (fun _ => 0) 0%nat = 10.
Proof.
  destruct C58_paid_example as (P1 & P2 & _).
  assert (S : spend_ok true ex_fitted (spend_used ex_fitted (nt_spend ex_flat_spend))) by (split; cbn; auto).
  pose proof (C35_curves ex_fitted true true ex_flat_spend None None None (9/10) 10 true false) as A.
  pose proof (C35_curves ex_fitted true true ex_flat_spend None (Some (TBools [false; true])) None (9/10) 10 true false) as B.
  destruct A as (all & HA & _ & _ & _ & _ & CA). { apply ex_curve_request; auto; cbn; auto. apply ex_multipliers. }
  destruct B as (one & HB & _ & _ & _ & _ & CB). { apply ex_curve_request; auto; cbn; auto. apply ex_multipliers. }
  exists ex_fitted, ex_flat_spend, (Some (TBools [false; true])), all, one.
  refine (conj HA (conj HB (conj eq_refl (conj eq_refl _)))).
  assert (I5 : (5 < length (multipliers_used None))%nat) by (cbn; lia).
  assert (Pd : is_paid (f_x ex_fitted) (ChMedia 0)) by (cbn; lia).
  destruct (CA 5%nat (ChMedia 0) I5 Pd) as [SA _]. destruct (CB 5%nat (ChMedia 0) I5 Pd) as [SB _].
  split.
  - etransitivity; [exact SA|]. cbn. lra.
  - etransitivity; [exact SB|]. cbn. lra.
Qed.
Print Assumptions C35_spend_within_selection_refuted.

(** ** C37: optimal frequencies *)

(** For every grid of positive frequencies: the table of ROI by frequency; for each channel the
    first frequency of the grid with the largest mean ROI; and the metrics at these frequencies,
    all for unchanged impressions and spend. *)
Theorem C37_optimal_frequency : forall f nd imp grid max_frequency use_posterior use_kpi gs ts level,
  frequency_request f nd imp grid gs ts level ->
  exists o, optimal_freq f nd max_frequency (Some grid) use_posterior use_kpi gs ts level = Ok o /\
    optimal_frequencies f nd imp grid use_posterior use_kpi gs ts level o.
Proof.
  intros f nd imp grid mf post uk gs ts level V.
  exact (optimal_lemma f nd imp grid post uk gs ts level V mf (Some grid) (or_introl eq_refl)).
Qed.
Print Assumptions C37_optimal_frequency.

(** Without a grid: the frequencies 1, 1.1, 1.2, ... below the given maximum, or below the
    largest historical frequency. *)
Lemma default_grid_spec : forall M q, In q (default_grid M) <-> exists i, q = 1 + INR i / 10 /\ q < M.
Proof.
  intros M q. unfold default_grid. rewrite in_map_iff. set (z := (- Int_part (- ((M - 1) * 10)%R))%Z).
  destruct (base_Int_part (- ((M - 1) * 10))) as [B1 B2].
  assert (Z1 : (M - 1) * 10 <= IZR z) by (unfold z; rewrite opp_IZR; lra).
  assert (Z2 : IZR z < (M - 1) * 10 + 1) by (unfold z; rewrite opp_IZR; lra).
  assert (K : forall i, In i (seq 0 (Z.to_nat z)) <-> 1 + INR i / 10 < M).
  { intros i. rewrite in_seq. rewrite INR_IZR_INZ. split.
    - intros [_ H]. assert (Hz : (Z.of_nat i <= z - 1)%Z) by lia. apply IZR_le in Hz. rewrite minus_IZR in Hz. lra.
    - intros H. split; [lia|]. assert (Hz : (Z.of_nat i < z)%Z) by (apply lt_IZR; lra). lia. }
  split.
  - intros (i & E & Hi). exists i. apply K in Hi. split; [auto|rewrite <- E; exact Hi].
  - intros (i & E & H). exists i. split; [auto|]. apply K. rewrite <- E. exact H.
Qed.
Definition largest (y : T3) (M : R) : Prop :=
  (forall g t c, (g < geos y)%nat -> (t < times y)%nat -> (c < chans y)%nat -> val y g t c <= M) /\
  exists g t c, (g < geos y)%nat /\ (t < times y)%nat /\ (c < chans y)%nat /\ val y g t c = M.
Lemma max3_largest : forall y, (0 < geos y)%nat -> (0 < times y)%nat -> (0 < chans y)%nat -> largest y (max3 y).
Proof.
  intros y Hg Ht Hc. unfold max3.
  set (l := flat_map (fun g => flat_map (fun t => map (fun c => val y g t c) (seq 0 (chans y))) (seq 0 (times y))) (seq 0 (geos y))).
  assert (M : forall v, In v l <-> exists g t c, (g < geos y)%nat /\ (t < times y)%nat /\ (c < chans y)%nat /\ val y g t c = v).
  { intros v. unfold l. rewrite in_flat_map. split.
    - intros (g & Ig & H). apply in_flat_map in H. destruct H as (t & It & H). apply in_map_iff in H.
      destruct H as (c & E & Ic). apply in_seq in Ig, It, Ic. exists g, t, c. repeat split; auto; lia.
    - intros (g & t & c & H1 & H2 & H3 & E). exists g. split; [apply in_seq; lia|]. apply in_flat_map. exists t.
      split; [apply in_seq; lia|]. apply in_map_iff. exists c. split; [exact E|apply in_seq; lia]. }
  assert (Nn : l <> []).
  { intros E. assert (In (val y 0%nat 0%nat 0%nat) l) by (apply M; exists 0%nat, 0%nat, 0%nat; auto). rewrite E in H. destruct H. }
  destruct l as [|a r]; [congruence|]. cbn [list_max]. destruct (fold_max_spec r a) as [F1 F2]. split.
  - intros g t c H1 H2 H3. assert (I : In (val y g t c) (a :: r)) by (apply M; exists g, t, c; auto). exact (F2 _ I).
  - apply M. exact F1.
Qed.

Theorem C37_default_grid : forall f nd imp y M max_frequency use_posterior use_kpi gs ts level,
  d_frequency (x_data (f_x f)) = Some y ->
  match max_frequency with Some v => v <> 0 /\ M = v | None => largest y M end -> 1 < M ->
  (forall grid, grid <> [] -> Forall (fun q => 0 < q) grid -> frequency_request f nd imp grid gs ts level) ->
  exists o, optimal_freq f nd max_frequency None use_posterior use_kpi gs ts level = Ok o /\
    (forall q, In q (of_grid o) <-> exists i, q = 1 + INR i / 10 /\ q < M) /\
    optimal_frequencies f nd imp (of_grid o) use_posterior use_kpi gs ts level o.
Proof.
  intros f nd imp y M mf post uk gs ts level Ey HM H1 V.
  set (g := default_grid M).
  assert (Gs : forall q, In q g <-> exists i, q = 1 + INR i / 10 /\ q < M) by exact (default_grid_spec M).
  assert (G1 : In 1 g). { apply Gs. exists 0%nat. cbn [INR]. split; lra. }
  assert (F : frequency_request f nd imp g gs ts level).
  { apply V; [intros E; rewrite E in G1; destruct G1|]. apply Forall_forall. intros q Hq. apply Gs in Hq.
    destruct Hq as (i & -> & _). pose proof (pos_INR i). lra. }
  destruct (optimal_lemma f nd imp g post uk gs ts level F mf None) as (o & Ho & O).
  { right. split; [reflexivity|]. exists y. split; [exact Ey|]. unfold g. f_equal.
    destruct mf as [v|].
    - destruct HM as [Nz ->]. destruct (Req_EM_T v 0); [congruence|reflexivity].
    - destruct HM as [U (a & b & c & Ha & Hb & Hc & E)].
      destruct (max3_largest y) as [U' (a' & b' & c' & Ha' & Hb' & Hc' & E')]; try lia.
      apply Rle_antisym; [rewrite <- E; auto|rewrite <- E'; auto]. }
  exists o. split; [exact Ho|]. rewrite (oq_grid _ _ _ _ _ _ _ _ _ _ O). split; [exact Gs|exact O].
Qed.
Print Assumptions C37_default_grid.

(** The frequency is chosen for the distribution asked for, but independently of the confidence
    level: the choice depends on the means only. *)
Lemma frequency_determined : forall f nd imp grid post uk gs ts level level' o o',
  optimal_frequencies f nd imp grid post uk gs ts level o ->
  optimal_frequencies f nd imp grid post uk gs ts level' o' -> of_frequency o = of_frequency o'.
Proof.
  intros f nd imp grid post uk gs ts level level' o o' O O'.
  destruct (oq_lengths _ _ _ _ _ _ _ _ _ _ O) as [_ L]. destruct (oq_lengths _ _ _ _ _ _ _ _ _ _ O') as [_ L'].
  apply (nth_ext _ _ 0 0); [congruence|]. intros c Hc. rewrite L in Hc.
  destruct (oq_best _ _ _ _ _ _ _ _ _ _ O c Hc) as (i & Hi & -> & A & B).
  destruct (oq_best _ _ _ _ _ _ _ _ _ _ O' c Hc) as (j & Hj & -> & A' & B').
  destruct (Nat.lt_trichotomy i j) as [H|[->|H]]; [|reflexivity|].
  - specialize (B' i H). specialize (A j Hj). lra.
  - specialize (B j H). specialize (A' i Hi). lra.
Qed.

(** Refuted: the confidence level is that of the intervals returned.  It has no effect on the
    intervals of the metrics at the optimal frequency, which are always 90% intervals. *)
Theorem C37_confidence_level_refuted : forall f nd imp grid max_frequency post uk gs ts level level' o o',
  frequency_request f nd imp grid gs ts level -> frequency_request f nd imp grid gs ts level' ->
  optimal_freq f nd max_frequency (Some grid) post uk gs ts level = Ok o ->
  optimal_freq f nd max_frequency (Some grid) post uk gs ts level' = Ok o' ->
  of_frequency o = of_frequency o' /\ of_outcome o = of_outcome o' /\ of_effectiveness o = of_effectiveness o' /\
  of_optimized_roi o = of_optimized_roi o' /\ of_mroi_by_reach o = of_mroi_by_reach o' /\
  of_mroi_by_frequency o = of_mroi_by_frequency o' /\ of_cpik o = of_cpik o'.
Proof.
  intros f nd imp grid mf post uk gs ts level level' o o' V V' H H'.
  destruct (C37_optimal_frequency f nd imp grid mf post uk gs ts level V) as (o1 & H1 & O1).
  destruct (C37_optimal_frequency f nd imp grid mf post uk gs ts level' V') as (o2 & H2 & O2).
  assert (o1 = o) by congruence. assert (o2 = o') by congruence. subst o1 o2. clear H1 H2.
  pose proof (frequency_determined _ _ _ _ _ _ _ _ _ _ _ _ O1 O2) as E.
  unfold optimal_freq in H, H'. cbv zeta in H, H'.
  apply raise_if_inv in H. destruct H as [_ H]. apply raise_if_inv in H'. destruct H' as [_ H'].
  inv_rbind H mg Hmg. inv_rbind H idx Hidx. inv_rbind H s1 Hs1. inv_rbind H s2 Hs2.
  inv_rbind H' mg' Hmg'. inv_rbind H' idx' Hidx'. inv_rbind H' s1' Hs1'. inv_rbind H' s2' Hs2'.
  set (b := map (fun i => nth i grid 0) idx) in *. set (b' := map (fun i => nth i grid 0) idx') in *.
  assert (Eb : of_frequency o = b) by (assert (X := f_equal (fun r => match r with Ok v => of_frequency v | Err _ => b end) H); symmetry; exact X).
  assert (Eb' : of_frequency o' = b') by (assert (X := f_equal (fun r => match r with Ok v => of_frequency v | Err _ => b' end) H'); symmetry; exact X).
  assert (EE : b = b') by congruence. rewrite <- EE in *.
  assert (s1 = s1') by congruence. assert (s2 = s2') by congruence. subst s1' s2'.
  match type of H with Ok ?v = Ok o => assert (o = v) by congruence end.
  match type of H' with Ok ?v = Ok o' => assert (o' = v) by congruence end.
  subst o o'. cbn [of_frequency of_outcome of_effectiveness of_optimized_roi of_mroi_by_reach of_mroi_by_frequency of_cpik].
  repeat split; reflexivity.
Qed.
Print Assumptions C37_confidence_level_refuted.

(** Spend given per channel, which the ROI calculation accepts, is never accepted here. *)
Theorem C37_flat_spend_rejected : forall f nd n u max_frequency freq_grid post uk gs ts level o,
  rn_spend nd = Some (Spend1 n u) ->
  optimal_freq f nd max_frequency freq_grid post uk gs ts level <> Ok o.
Proof.
  intros f nd n u mf fg post uk gs ts level o Hs H.
  unfold optimal_freq in H. cbv zeta in H.
  apply raise_if_inv in H. destruct H as [Hn H].
  inv_rbind H mg Hmg. inv_rbind H idx Hidx. inv_rbind H s1 Hs1. clear H.
  unfold summary_metrics in Hs1. cbv zeta in Hs1.
  inv_rbind Hs1 a1 H1. inv_rbind Hs1 a2 H2. inv_rbind Hs1 a3 H3. inv_rbind Hs1 a4 H4. inv_rbind Hs1 a5 H5.
  inv_rbind Hs1 a6 H6. inv_rbind Hs1 a7 H7. apply raise_if_inv in Hs1. destruct Hs1 as [_ Hs1].
  inv_rbind Hs1 a8 H8. inv_rbind Hs1 a9 H9. inv_rbind Hs1 a10 H10. inv_rbind Hs1 st Hst. inv_rbind Hs1 y Hy. clear Hs1.
  unfold total_spend, fill_spend, at_optimal in Hst. cbn [nt_spend s_media s_rf] in Hst. rewrite Hs in Hst. cbn [orelse] in Hst.
  apply Nat.eqb_neq in Hn. unfold n_chans in Hn. destruct (d_reach (x_data (f_x f))) as [r|]; [|congruence].
  destruct (d_media (x_data (f_x f))) as [md|].
  - match type of Hst with match ?E with _ => _ end = _ => destruct E as [[v w|z]|] end.
    + cbn [append_spend rbind] in Hst. assert (E : st = Some (Spend1 (v + n) (fun c => if (c <? v)%nat then w c else u (c - v)%nat))) by congruence.
      rewrite E in Hy. discriminate.
    + discriminate.
    + assert (E : st = Some (Spend1 n u)) by congruence. rewrite E in Hy. discriminate.
  - assert (E : st = Some (Spend1 n u)) by congruence. rewrite E in Hy. discriminate.
Qed.
Print Assumptions C37_flat_spend_rejected.

(** ** Concrete cases: a model with every kind of treatment, a selection of geos and periods. *)
Definition ex_impressions : T3 := mkT3 2 3 1 (fun g t _ => INR (g + t) * (1 + INR t)).
Lemma ex_frequency_request : forall nd grid level,
  (rn_impressions nd = None \/ rn_impressions nd = Some ex_impressions) -> 
  (rn_spend nd = None \/ rn_spend nd = Some (ex_spend3 1)) -> 
  (rn_revenue nd = None \/ rn_revenue nd = d_revenue_per_kpi (x_data ex_rich)) ->
  grid <> [] -> Forall (fun q => 0 < q) grid -> -1 <= level <= 1 ->
  frequency_request ex_fitted nd ex_impressions grid (Some ["b"]%string) (Some (TBools [false; true])) level.
Proof.
  destruct C58_example as (W & D & _ & _ & N & T & _). destruct N as (N1 & N2 & N3 & N4).
  intros nd grid level Hi Hs Hr Hg Hp Hl. constructor; auto; try lia.
  - intros []; unfold f_draws, f_prior, f_posterior, ex_fitted;
    repeat (apply Forall_cons; [exact D|]); apply Forall_nil.
  - intros []; discriminate.
  - destruct Hi as [-> | ->]; cbn; [|reflexivity]. exists ex_reach, ex_freq. repeat split.
  - unfold fits, same_shape. cbn. auto.
  - cbn. intros g t c _ _. apply Rmult_le_pos; [apply pos_INR|pose proof (pos_INR t); lra].
  - split; cbn; auto.
  - destruct Hs as [E | E]; rewrite E; split; cbn; auto.
  - cbn. apply Forall_cons; [cbn; auto|apply Forall_nil].
  - cbn. auto.
  - cbn. repeat constructor; cbn; intuition congruence.
  - intros l E. assert (l = ["b"%string]) by congruence. subst. repeat constructor. cbn. tauto.
  - intros c Hc. destruct Hs as [E | E]; rewrite E; unfold channel_spend, kind_spend, spend_used, given_spend, total; cbn;
    pose proof (pos_INR c); destruct c; cbn in *; try lra; try lia.
Qed.

Example C37_example :
  frequency_request ex_fitted (mkRf None None None no_data) ex_impressions [1; 2; 4]
    (Some ["b"]%string) (Some (TBools [false; true])) (1 / 2) /\
  largest ex_freq 3.
Proof.
  split.
  - apply ex_frequency_request; cbn; auto; try discriminate; try lra.
    repeat (apply Forall_cons; [lra|]). apply Forall_nil.
  - split.
    + cbn. intros g t c _ Ht _. destruct t as [|[|[|]]]; cbn in *; try lra; try lia.
    + exists 0%nat, 2%nat, 0%nat. cbn. repeat split; try lia; try lra.
Qed.

Lemma ex_curve_grid : curve_grid ex_fitted <> [] /\ Forall (fun q => 0 < q) (curve_grid ex_fitted).
Proof.
  assert (M : max3 ex_freq = 3).
  { destruct (max3_largest ex_freq) as [U (a & b & c & Ha & Hb & Hc & E)]; try (cbn; lia).
    destruct C37_example as [_ [U' (a' & b' & c' & Ha' & Hb' & Hc' & E')]].
    apply Rle_antisym; [rewrite <- E; auto|rewrite <- E'; auto]. }
  change (curve_grid ex_fitted) with (default_grid (max3 ex_freq)). rewrite M. split.
  - intros E. assert (I : In 1 (default_grid 3)). { apply default_grid_spec. exists 0%nat. cbn [INR]. lra. } rewrite E in I. destruct I.
  - apply Forall_forall. intros q Hq. apply default_grid_spec in Hq. destruct Hq as (i & -> & _). pose proof (pos_INR i). lra.
Qed.

(** New media, the historical reach and frequency at their optimum. *)
Example C35_example :
  curve_request ex_fitted true false ex_summary_data (Some ["b"]%string) (Some (TBools [false; true]))
    (multipliers_used None) (9 / 10) 10 /\
  impressions_curve ex_rich (nt_data ex_summary_data) ex_impressions /\
  frequency_request ex_fitted (curve_rf ex_fitted ex_summary_data ex_impressions) ex_impressions
    (curve_grid ex_fitted) (Some ["b"]%string) (Some (TBools [false; true])) (9 / 10) /\
  (forall w g, In w (f_draws ex_fitted true) -> 0 <= coefficient w (ChRf 0) g) /\
  (forall g t, 0 <= outcome_per_unit (paid_model ex_rich (nt_data ex_summary_data)) true true g t).
Proof.
  destruct ex_curve_grid as [G1 G2].
  pose proof (ex_summary_request (Some ["b"]%string) (Some (TBools [false; true]))) as S.
  assert (S' : summary_request ex_fitted ex_summary_data (Some ["b"]%string) (Some (TBools [false; true])) (9/10) 10).
  { apply S.
    - apply Forall_cons; [cbn; auto|apply Forall_nil].
    - cbn. auto.
    - intros l E. assert (l = ["b"%string]) by congruence. subst. repeat constructor. cbn. tauto. }
  split; [|split; [|split; [|split]]].
  - apply ex_curve_request; try apply S'. exact ex_multipliers.
  - exists ex_reach, ex_freq. repeat split.
  - apply ex_frequency_request; auto; try lra; cbn; auto.
  - intros w g Hw. cbn in Hw. destruct Hw as [<- |[]]; cbn; lra.
  - intros g t. unfold outcome_per_unit. apply Rmult_le_pos.
    + apply Rmult_le_pos; [apply sqrt_pos|]. cbn. pose proof (pos_INR g). lra.
    + cbn. lra.
Qed.
