(** Proofs about one run of the reach and frequency optimization. *)
From Coq Require Import ZArith QArith Qround Qabs String List Bool Arith Sorted Lia Lqa.
From Verif Require Import Lib_QSum M_Base M_Opt P_Opt M_BudgetSpec S_BudgetSpec P_BudgetSpec M_MarketingSpec S_MarketingSpec P_MarketingSpec P_MarketingSpec2 M_RfSpec S_RfSpec P_RfSpec.
Import ListNotations.
Local Open Scope string_scope.
Local Open Scope list_scope.

Lemma filter_not_all : forall lo hi l mn mx, In mn l -> In mx l -> (forall d, In d l -> (mn <= d)%Z) -> (forall d, In d l -> (d <= mx)%Z) -> In lo l -> In hi l ->
  Z.eqb lo mn && Z.eqb hi mx = false -> filter (fun d => Z.leb lo d && Z.leb d hi) l <> l.
Proof.
  intros lo hi l mn mx I1 I2 L1 L2 J1 J2 E F. assert (A : forall d, In d l -> Z.leb lo d && Z.leb d hi = true).
  { intros d D. rewrite <- F in D. apply filter_In in D. exact (proj2 D). }
  pose proof (A mn I1) as B. pose proof (A mx I2) as C. apply andb_true_iff in B, C. rewrite !Z.leb_le in B, C. specialize (L1 lo J1). specialize (L2 hi J2).
  assert (X : lo = mn) by lia. assert (Y : hi = mx) by lia. subst. rewrite !Z.eqb_refl in E. discriminate.
Qed.
Lemma expand_some : forall all s e l, expand_days all s e = Ok (Some l) -> l <> all.
Proof.
  intros all s e l H. destruct all as [|a r]; [ destruct s, e; discriminate | ].
  destruct (min_day_spec r a) as [I1 L1]. destruct (max_day_spec r a) as [I2 L2]. unfold expand_days in H.
  destruct s as [sv|], e as [ev|]; [ | | | discriminate ].
  - apply rbind_inv in H. destruct H as [lo [H1 H]]. apply rbind_inv in H. destruct H as [hi [H2 H]].
    apply raise_inv in H1. destruct H1 as [M1 H1]. injection H1 as <-. apply raise_inv in H2. destruct H2 as [M2 H2]. injection H2 as <-. apply raise_inv in H. destruct H as [C H].
    apply negb_false_iff in M1, M2. apply day_in_spec in M1. apply day_in_spec in M2.
    destruct (_ && _) eqn:E in H; [ discriminate | ]. injection H as <-. exact (filter_not_all _ _ _ _ _ I1 I2 L1 L2 M1 M2 E).
  - apply rbind_inv in H. destruct H as [lo [H1 H]]. cbn [rbind] in H. apply raise_inv in H1. destruct H1 as [M1 H1]. injection H1 as <-. apply raise_inv in H. destruct H as [C H].
    apply negb_false_iff in M1. apply day_in_spec in M1.
    destruct (_ && _) eqn:E in H; [ discriminate | ]. injection H as <-. exact (filter_not_all _ _ _ _ _ I1 I2 L1 L2 M1 I2 E).
  - cbn [rbind] in H. apply rbind_inv in H. destruct H as [hi [H2 H]]. apply raise_inv in H2. destruct H2 as [M2 H2]. injection H2 as <-. apply raise_inv in H. destruct H as [C H].
    apply negb_false_iff in M2. apply day_in_spec in M2.
    destruct (_ && _) eqn:E in H; [ discriminate | ]. injection H as <-. exact (filter_not_all _ _ _ _ _ I1 I2 L1 L2 I1 M2 E).
Qed.
Lemma first_least : forall l a d, StronglySorted Z.lt l -> hd_error l = Some a -> In d l -> (a <= d)%Z.
Proof.
  intros [|b r] a d S H D; [ discriminate | ]. injection H as <-. inversion S as [|b' r' S' F]; subst. rewrite Forall_forall in F.
  destruct D as [<-|D]; [ lia | specialize (F d D); lia ].
Qed.
Lemma last_greatest : forall l b d, StronglySorted Z.lt l -> hd_error (rev l) = Some b -> In d l -> (d <= b)%Z.
Proof.
  intros l b d S. induction S as [|a r S IH F]; intros H D; [ destruct D | ]. cbn [rev] in H. rewrite Forall_forall in F.
  destruct (rev r) as [|z q] eqn:R.
  - cbn [app hd_error] in H. injection H as <-. apply (f_equal (@rev Z)) in R. rewrite rev_involutive in R. cbn [rev] in R. subst r. destruct D as [<-|[]]. lia.
  - cbn [app hd_error] in H. injection H as <-. assert (Z' : In z r) by (apply in_rev; rewrite R; left; reflexivity).
    destruct D as [<-|D]; [ specialize (F z Z'); lia | exact (IH eq_refl D) ].
Qed.
Lemma total_fold : forall (l : list (string * Q)), (qtotal l == S_BudgetSpec.qtotal (map snd l))%Q.
Proof.
  intros l. unfold qtotal, S_BudgetSpec.qtotal. assert (G : forall a, (fold_left (fun a e => a + snd e) l a == a + fold_right Qplus 0 (map snd l))%Q).
  { induction l as [|e r IH]; intros a; cbn [fold_left map fold_right]; [ lra | ]. rewrite IH. lra. }
  rewrite G. lra.
Qed.
Lemma forall2_nth_lt : forall (A B : Type) (P : A -> B -> Prop) l m i x, Forall2 P l m -> nth_error l i = Some x -> exists y, nth_error m i = Some y /\ P x y.
Proof.
  intros A B P l m i x F. revert i. induction F as [|a b l m H F IH]; intros [|i] N; cbn [nth_error] in *; try discriminate.
  - injection N as <-. exists b. auto.
  - exact (IH i N).
Qed.
Lemma numbered_at : forall (l : list string) s i c, nth_error l i = Some c -> nth_error (combine (seq s (length l)) l) i = Some ((s + i)%nat, c).
Proof.
  induction l as [|a l IH]; intros s [|i] c H; cbn [length seq combine nth_error] in *; try discriminate.
  - injection H as <-. rewrite Nat.add_0_r. reflexivity.
  - rewrite (IH (S s) i c H). f_equal. f_equal. lia.
Qed.
Lemma numbered_snd : forall (l : list string) s, map snd (combine (seq s (length l)) l) = l.
Proof. induction l as [|a l IH]; intros s; cbn [length seq combine map snd]; [ reflexivity | rewrite IH; reflexivity ]. Qed.
Lemma forall2_same : forall (A B : Type) (P Q : A -> B -> Prop) l m, (forall x y, In x l -> P x y -> Q x y) -> Forall2 P l m -> Forall2 Q l m.
Proof. intros A B P Q l m H F. induction F as [|x y l m E F IH]; constructor; [ apply H; [ left; reflexivity | exact E ] | apply IH; intros; apply H; [ right; assumption | assumption ] ]. Qed.
Lemma quot_floor : forall x : Q, (0 <= x)%Q -> (inject_Z (Z.quot (Qnum x) (Zpos (Qden x))) <= x /\ x < inject_Z (Z.quot (Qnum x) (Zpos (Qden x))) + 1)%Q.
Proof.
  intros [n d] H. unfold Qle in H. cbn [Qnum Qden] in *. assert (N : (0 <= n)%Z) by lia.
  rewrite Z.quot_div_nonneg by lia. change (n / Z.pos d)%Z with (Qfloor (n # d)). apply floor_bounds.
Qed.

Section Rf.
Variable channels : list string.
Variable model_coords : coords.
Variables kpi_only revenue_type : bool.
Variables geos_n times_n : nat.
Variables frequency reach : nat -> nat -> nat -> Q.
Variable roi_at : option (list Z) -> bool -> Q -> Q -> string -> summary oq.
Variable metrics_at : option (list Z) -> bool -> Q -> list Q -> string -> metrics oq.
Variable curve_at : option (list Z) -> bool -> list Q -> string -> list (Q * Q).
Variable spend_of : option (list Z) -> list (string * Q).
Hypothesis Cal : calendar model_coords.
Hypothesis Some_channels : channels <> [].
Notation run := (run_rf channels model_coords kpi_only revenue_type geos_n times_n frequency reach roi_at metrics_at curve_at spend_of).
Notation Chosen := (chosen channels model_coords kpi_only revenue_type geos_n times_n frequency roi_at spend_of).
Notation Told := (rf_told channels model_coords kpi_only revenue_type geos_n times_n frequency reach roi_at metrics_at curve_at spend_of).
Notation Largest := (largest channels geos_n times_n frequency).
Notation HMax := (historical_max channels geos_n times_n frequency).

Lemma all_in : forall x, In x (all_frequencies channels geos_n times_n frequency) <-> exists g t c, (g < geos_n)%nat /\ (t < times_n)%nat /\ (c < length channels)%nat /\ x = frequency g t c.
Proof.
  intros x. unfold all_frequencies. split.
  - intros H. apply in_flat_map in H. destruct H as [g [G H]]. apply in_flat_map in H. destruct H as [t [T H]]. apply in_map_iff in H. destruct H as [c [<- C]].
    apply in_seq in G, T, C. exists g, t, c. repeat split; lia.
  - intros [g [t [c [G [T [C ->]]]]]]. apply in_flat_map. exists g. split; [ apply in_seq; lia | ]. apply in_flat_map. exists t. split; [ apply in_seq; lia | ].
    apply in_map_iff. exists c. split; [ reflexivity | apply in_seq; lia ].
Qed.
Lemma hmax_largest : forall m, HMax = Ok m -> Largest m.
Proof.
  intros m H. apply qmax_spec in H. destruct H as [A B]. split; [ apply all_in; exact A | ]. intros g t c G T C. apply B. apply all_in. exists g, t, c. auto.
Qed.
Lemma largest_hmax : forall m, Largest m -> exists n, HMax = Ok n /\ (n == m)%Q.
Proof.
  intros m [A B]. pose proof A as A'. apply all_in in A'. destruct (qmax_ok _ _ A') as [n N]. exists n. split; [ exact N | ].
  pose proof (hmax_largest n N) as [[g [t [c [G [T [C E]]]]]] D]. destruct A as [g' [t' [c' [G' [T' [C' E']]]]]].
  specialize (B g t c G T C). specialize (D g' t' c' G' T' C'). rewrite <- E in B. rewrite <- E' in D. lra.
Qed.
Lemma limit_upper : forall s m, upper channels geos_n times_n frequency s = Ok m -> limit channels geos_n times_n frequency s m.
Proof.
  intros s m H. unfold upper in H. unfold limit. destruct (q_max s) as [x|].
  - destruct (Qeq_bool x 0) eqn:E.
    + right. split; [ right; exists x; split; [ reflexivity | apply Qeq_bool_eq; exact E ] | apply hmax_largest; exact H ].
    + injection H as ->. left. split; [ reflexivity | apply Qeq_bool_neq; exact E ].
  - right. split; [ left; reflexivity | apply hmax_largest; exact H ].
Qed.
Lemma upper_limit : forall s m, limit channels geos_n times_n frequency s m -> exists n, upper channels geos_n times_n frequency s = Ok n /\ (n == m)%Q.
Proof.
  intros s m [[E N]|[O L]]; unfold upper.
  - rewrite E. destruct (Qeq_bool m 0) eqn:Z; [ apply Qeq_bool_eq in Z; contradiction | ]. exists m. split; [ reflexivity | lra ].
  - destruct O as [->|[z [-> Z]]]; [ apply largest_hmax; exact L | ]. apply Qeq_bool_iff in Z. rewrite Z. apply largest_hmax; exact L.
Qed.
Lemma enumerated_rf : forall s x, enumerated model_coords (q_start s) (q_end s) = Ok x -> rf_selects model_coords s x.
Proof using Cal.
  intros s x H. pose proof (enumerated_inv _ _ _ _ Cal H) as [A [B [C D]]]. split; [ exact A | ]. exists (listed (tc_dates model_coords) x). split; [ exact B | ].
  destruct x as [l|]; cbn [listed]; [ right | left; split; reflexivity ]. split; [ | reflexivity ].
  unfold enumerated, closed_interval in H. exact (expand_some _ _ _ _ H).
Qed.
Lemma rf_enumerated : forall s x, rf_selects model_coords s x -> enumerated model_coords (q_start s) (q_end s) = Ok x.
Proof using Cal.
  intros s x [A [l [B D]]]. destruct (enumerated_ok _ _ _ A) as [y Y]. rewrite Y. f_equal. apply enumerated_rf in Y. destruct Y as [_ [m [C E]]].
  assert (L : l = m).
  { apply (sorted_unique _ Z.lt); [ intros; lia | exact (proj1 B) | exact (proj1 C) | ]. intros d. rewrite (proj2 B), (proj2 C). reflexivity. }
  subst m. destruct D as [[D1 D2]|[D1 D2]], E as [[E1 E2]|[E1 E2]]; try contradiction; congruence.
Qed.
Lemma open_ok : forall s, on_calendar model_coords (q_start s) (q_end s) -> exists a b, open_interval model_coords s = Ok (a, b) /\ starts model_coords s a /\ ends model_coords s b /\ (a <= b)%Z.
Proof using Cal.
  intros s [A [B C]]. destruct Cal as [N [S P]]. unfold open_interval, starts, ends.
  assert (E1 : exists f, hd_error (tc_dates model_coords) = Some f /\ match tc_dates model_coords with a :: _ => Ok a | [] => Err IndexError end = Ok f /\ In f (tc_dates model_coords)).
  { destruct (tc_dates model_coords) as [|f r]; [ contradiction | ]. exists f. repeat split. left. reflexivity. }
  assert (E2 : exists b, hd_error (rev (tc_dates model_coords)) = Some b /\ match rev (tc_dates model_coords) with b :: _ => Ok (b + tc_days model_coords)%Z | [] => Err IndexError end = Ok (b + tc_days model_coords)%Z).
  { destruct (rev (tc_dates model_coords)) as [|f r] eqn:R; [ | exists f; repeat split ]. apply (f_equal (@rev Z)) in R. rewrite rev_involutive in R. cbn [rev] in R. contradiction. }
  destruct E1 as [f [F1 [F2 F3]]]. destruct E2 as [z [Z1 Z2]]. rewrite F2, Z2.
  destruct (q_start s) as [x|], (q_end s) as [y|]; cbn [rbind].
  - exists x, y. repeat split. specialize (C x y eq_refl eq_refl). lia.
  - exists x, (z + tc_days model_coords)%Z. repeat split; [ rewrite Z1; f_equal; lia | ]. pose proof (last_greatest _ _ _ S Z1 (A x eq_refl)). lia.
  - exists f, y. repeat split; [ exact F1 | ]. pose proof (first_least _ _ _ S F1 (B y eq_refl)). lia.
  - exists f, (z + tc_days model_coords)%Z. repeat split; [ exact F1 | rewrite Z1; f_equal; lia | ]. pose proof (last_greatest _ _ _ S Z1 F3). lia.
Qed.

(** The optimum. *)
Notation Optimal := (optimal_freq channels kpi_only revenue_type roi_at metrics_at).
Lemma kpi_counts : forall revenue, counts_kpi kpi_only revenue_type revenue (use_kpi kpi_only revenue_type (negb revenue)).
Proof. intros [|]; reflexivity. Qed.
Lemma optimal_inv : forall times k level grid o, StronglySorted Qlt grid -> Optimal times k level grid = Ok o ->
  let kpi := use_kpi kpi_only revenue_type k in
  Forall2 (fun c => best_frequency (fun f => m_mean (roi_at times kpi level f c)) grid) channels (op_best o) /\
  o = mkOptimum grid (op_best o) (fun f c => roi_at times kpi level f c) (fun c => metrics_at times kpi (9 # 10) (op_best o) c) level (negb kpi).
Proof.
  intros times k level grid o S H kpi. unfold optimal_freq in H. fold kpi in H. apply raise_inv in H. destruct H as [_ H]. apply rbind_inv in H. destruct H as [best [B H]]. injection H as <-.
  cbn [op_best]. split; [ | reflexivity ]. apply mapR_ok in B. revert B. apply forall2_same. intros c f _ E. apply best_spec; [ exact S | exact E ].
Qed.
Lemma optimal_ok : forall times k level grid best, StronglySorted Qlt grid ->
  Forall2 (fun c => best_frequency (fun f => m_mean (roi_at times (use_kpi kpi_only revenue_type k) level f c)) grid) channels best ->
  Optimal times k level grid = Ok (mkOptimum grid best (fun f c => roi_at times (use_kpi kpi_only revenue_type k) level f c) (fun c => metrics_at times (use_kpi kpi_only revenue_type k) (9 # 10) best c) level (negb (use_kpi kpi_only revenue_type k))).
Proof using Some_channels.
  intros times k level grid best S F. unfold optimal_freq. replace (match channels with [] => true | _ :: _ => false end) with false by (destruct channels; [ contradiction | reflexivity ]).
  cbn [raise_if]. assert (M : mapR (fun c => best_of (map (fun f => (f, m_mean (roi_at times (use_kpi kpi_only revenue_type k) level f c))) grid)) channels = Ok best).
  { apply mapR_ok. revert F. apply forall2_same. intros c f _ E. apply (best_ok (fun f => m_mean (roi_at times (use_kpi kpi_only revenue_type k) level f c))); [ exact S | exact E ]. }
  rewrite M. reflexivity.
Qed.

(** Spend. *)
Notation Data := (spend_data channels spend_of).
Definition share_told (times : option (list Z)) (x : Q) (y : oq) : Prop :=
  ((all_spend spend_of times == 0)%Q /\ y = None) \/ exists z, y = Some z /\ ~ (all_spend spend_of times == 0)%Q /\ (z * all_spend spend_of times == 100 * x)%Q.
Lemma data_inv : forall times sp, Data times = Ok sp -> Forall2 (fun c e => dget (spend_of times) c = Some (fst e) /\ share_told times (fst e) (snd e)) channels sp.
Proof.
  intros times sp H. apply mapR_ok in H. revert H. apply forall2_same. intros c e _ E. destruct (dget (spend_of times) c) as [x|]; [ | discriminate ].
  injection E as <-. cbn [fst snd]. split; [ reflexivity | ]. unfold share_told, all_spend. pose proof (total_fold (spend_of times)) as T.
  destruct (Qeq_bool (qtotal (spend_of times)) 0) eqn:Z.
  - left. split; [ rewrite <- T; apply Qeq_bool_eq; exact Z | reflexivity ].
  - right. apply Qeq_bool_neq in Z. eexists. split; [ reflexivity | ]. split; [ rewrite <- T; exact Z | ]. rewrite <- T. field. exact Z.
Qed.
Lemma data_ok : forall times, (forall c, In c channels -> In c (map fst (spend_of times))) -> exists sp, Data times = Ok sp.
Proof.
  intros times H. apply mapR_total. intros c C. destruct (dget_some _ _ _ (H c C)) as [x ->]. eexists; reflexivity.
Qed.

(** Reach. *)
Lemma reach_value : forall i f n, (0 < f)%Q -> reach_at geos_n times_n frequency reach i f = Ok n ->
  (0 <= impressions geos_n times_n frequency reach i)%Q ->
  (inject_Z n * f <= impressions geos_n times_n frequency reach i /\ impressions geos_n times_n frequency reach i < (inject_Z n + 1) * f)%Q.
Proof.
  intros i f n F H I. unfold reach_at in H. destruct (Qeq_bool f 0) eqn:Z; [ discriminate | ]. injection H as <-.
  set (x := qsum geos_n _). assert (E : (x * f == impressions geos_n times_n frequency reach i)%Q).
  { unfold x, impressions. rewrite (Qmult_comm _ f), <- qsum_scal. apply qsum_ext. intros g _. rewrite <- qsum_scal. apply qsum_ext. intros t _. field. lra. }
  assert (X : (0 <= x)%Q) by (apply (Qmult_le_r _ _ f F); rewrite E; lra).
  destruct (quot_floor x X) as [A B]. rewrite <- E. split; [ apply Qmult_le_r | apply Qmult_lt_r ]; assumption.
Qed.
Lemma reach_pos : forall i f, (0 < f)%Q -> exists n, reach_at geos_n times_n frequency reach i f = Ok n.
Proof. intros i f F. unfold reach_at. destruct (Qeq_bool f 0) eqn:Z; [ apply Qeq_bool_eq in Z; lra | eexists; reflexivity ]. Qed.
Lemma reach_zero : forall i f n, reach_at geos_n times_n frequency reach i f = Ok n -> ~ (f == 0)%Q.
Proof. intros i f n H E. unfold reach_at in H. apply Qeq_bool_iff in E. rewrite E in H. discriminate. Qed.

Lemma round_nonneg : forall x, (0 <= x)%Q -> exists k, round1 x = (k # 10) /\ (0 <= k)%Z.
Proof.
  intros x H. exists (rint (x * 10)). split; [ reflexivity | ]. rewrite <- (rint_int 0). apply rint_mono. change (inject_Z 0) with 0%Q. lra.
Qed.

Theorem run_inv : forall s r, valid_rf s -> run s = Ok r -> Told s r.
Proof using Cal Some_channels.
  intros s r V H. unfold run_rf in H. apply rbind_inv in H. destruct H as [times [T H]]. apply rbind_inv in H. destruct H as [m [M H]].
  apply rbind_inv in H. destruct H as [o [O H]]. apply rbind_inv in H. destruct H as [curves [C H]]. apply rbind_inv in H. destruct H as [sp [D H]].
  apply rbind_inv in H. destruct H as [[a b] [I H]]. apply rbind_inv in H. destruct H as [[] [W H]]. cbn [fst snd] in *.
  unfold rf_to_result in H. apply rbind_inv in H. destruct H as [p [P H]]. apply rbind_inv in H. destruct H as [g [G H]]. injection H as <-.
  unfold rf_proto in P. cbn [q_start q_end q_tag q_min q_max q_revenue] in P. injection P as <-.
  set (lo := round1 (q_min s)) in *. set (hi := round1 m) in *. set (kpi := use_kpi kpi_only revenue_type (negb (q_revenue s))) in *.
  destruct (round1_nearest (q_min s)) as [ka [Ea _]]. destruct (round1_nearest m) as [kb [Eb _]]. fold lo in Ea. fold hi in Eb.
  assert (Gr : tenths (fun f => lo <= f <= hi)%Q (frequency_grid lo hi)) by (rewrite Ea, Eb; apply grid_tenths).
  destruct (optimal_inv _ _ _ _ _ (proj1 Gr) O) as [Bst Oeq]. fold kpi in Bst, Oeq.
  unfold response_curves in C. apply rbind_inv in C. destruct C as [top [Tp C]]. apply rbind_inv in C. destruct C as [o2 [O2 C]]. injection C as <-.
  pose proof (default_tenths top) as Dt. destruct (optimal_inv _ _ _ _ _ (proj1 Dt) O2) as [Bst2 _]. fold kpi in Bst2.
  unfold rf_grid_of in G. apply rbind_inv in G. destruct G as [rows [Rw G]]. injection G as <-. apply mapR_ok in Rw.
  assert (Cells : forall i c, nth_error channels i = Some c -> exists row, nth_error rows i = Some (c, row) /\
    Forall2 (fun f x => exists n, reach_at geos_n times_n frequency reach i f = Ok n /\ x = mkRfCell (to_estimate (roi_at times kpi (q_level s) f c) (q_level s)) n f) (frequency_grid lo hi) row).
  { intros i c N. apply (numbered_at _ 0) in N. cbn [Nat.add] in N. destruct (forall2_nth_lt _ _ _ _ _ _ _ Rw N) as [y [Y Q]]. cbn [fst snd] in Q.
    apply rbind_inv in Q. destruct Q as [cells [Q1 Q2]]. injection Q2 as <-. exists cells. split; [ exact Y | ]. apply mapR_ok in Q1. rewrite Oeq in Q1. cbn [op_grid op_roi] in Q1.
    revert Q1. apply forall2_same. intros f x _ X. apply rbind_inv in X. destruct X as [n [X1 X2]]. injection X2 as <-. exists n. split; [ exact X1 | reflexivity ]. }
  assert (Lo : (0 < lo)%Q).
  { destruct channels as [|c0 cs] eqn:Ec; [ contradiction | ]. destruct (Cells 0%nat c0 eq_refl) as [row [_ Q]].
    destruct (forall2_nth_lt _ _ _ _ _ 0%nat c0 Bst eq_refl) as [f [_ [Fi _]]].
    destruct (round_nonneg (q_min s)) as [k [K1 K2]]; [ exact (proj1 (proj2 (proj2 (proj2 V)))) | ]. fold lo in K1.
    assert (L : In lo (frequency_grid lo hi)). { apply (proj2 Gr). split; [ exists k; exact K1 | ]. apply (proj2 Gr) in Fi. lra. }
    apply In_nth_error in L. destruct L as [j J]. destruct (forall2_nth_lt _ _ _ _ _ _ _ Q J) as [x [_ [n [Hn _]]]]. apply reach_zero in Hn.
    rewrite K1 in *. change 0%Q with (0 # 10)%Q || idtac. assert (k <> 0%Z) by (intros ->; apply Hn; reflexivity). unfold Qlt. cbn [Qnum Qden]. lia. }
  exists times, kpi, lo, hi, (frequency_grid lo hi), (op_best o), (op_best o2).
  pose proof (enumerated_rf _ _ T) as Sel. destruct (open_ok s (proj1 Sel)) as [a' [b' [I' [S1 [S2 _]]]]]. rewrite I' in I. injection I as -> ->.
  pose proof (data_inv _ _ D) as Sp.
  split; [ constructor | ].
  - exact Sel.
  - apply kpi_counts.
  - apply round1_nearest.
  - exists m. split; [ apply limit_upper; exact M | apply round1_nearest ].
  - exact Gr.
  - exact Lo.
  - exact Bst.
  - exists top, (default_grid top). split; [ apply hmax_largest; exact Tp | ]. split; [ exact Dt | exact Bst2 ].
  - intros c Hc. apply In_nth_error in Hc. destruct Hc as [i Hc]. destruct (forall2_nth_lt _ _ _ _ _ _ _ Sp Hc) as [e [_ [E _]]]. apply dget_in in E. apply in_map_iff. exists (c, fst e). auto.
  - cbn [z_name z_group z_spec z_frequencies z_analysis z_grid p_start p_end p_tag p_revenue p_constraints w_start w_end w_media rf_analysis_of y_name y_step y_cells q_name q_group q_grid_name q_level].
    split; [ reflexivity | ]. split; [ reflexivity | ]. split; [ exact S1 | ]. split; [ exact S2 | ]. split; [ reflexivity | ]. split; [ reflexivity | ]. split; [ reflexivity | ].
    split; [ reflexivity | ]. split; [ reflexivity | ]. split; [ reflexivity | ]. split; [ | split; [ reflexivity | split; [ reflexivity | split ] ] ].
    + clear - Sp Oeq. rewrite Oeq. clear Oeq. generalize (op_best o). intros best. generalize dependent sp. generalize channels. intros cs sp Sp.
      induction Sp as [|c e cs sp [E1 E2] Sp IH]; [ constructor | ]. cbn [combine map]. constructor; [ | exact IH ]. split; [ reflexivity | ]. split; [ exact E1 | ]. split; [ exact E2 | ]. split; [ reflexivity | ].
      eexists. split; [ reflexivity | ]. split; [ reflexivity | ]. repeat split; reflexivity.
    + transitivity (map snd (combine (seq 0 (length channels)) channels)); [ | apply numbered_snd ]. clear - Rw. induction Rw as [|ic row l rows E Rw IH]; [ reflexivity | ]. cbn [map]. rewrite IH. f_equal.
      apply rbind_inv in E. destruct E as [cells [_ E]]. injection E as <-. reflexivity.
    + intros i c row N Rn. destruct (Cells i c N) as [row' [R1 R2]]. rewrite Rn in R1. injection R1 as <-. revert R2. apply forall2_same. intros f x F [n [Hn ->]].
      split; [ reflexivity | ]. split; [ repeat split | ]. apply reach_value; [ | exact Hn ]. apply (proj2 Gr) in F. lra.
Qed.

Theorem run_ok : forall s times kpi lo hi grid best curve, valid_rf s -> Chosen s times kpi lo hi grid best curve -> exists r, run s = Ok r.
Proof using Cal Some_channels.
  intros s times kpi lo hi grid best curve V [C1 C2 C3 [m [C4 C4']] C5 C6 C7 [top [below [C8 [C9 C10]]]] C11]. unfold run_rf.
  rewrite (rf_enumerated _ _ C1). cbn [rbind]. destruct (upper_limit _ _ C4) as [n [U Un]]. rewrite U. cbn [rbind].
  apply nearest_unique in C3. apply nearest_unique in C4'. rewrite (round1_comp _ _ Un), <- C3, <- C4'.
  destruct (round1_nearest (q_min s)) as [ka [Ea _]]. destruct (round1_nearest m) as [kb [Eb _]]. rewrite <- C3 in Ea. rewrite <- C4' in Eb.
  assert (Gr : tenths (fun f => lo <= f <= hi)%Q (frequency_grid lo hi)) by (rewrite Ea, Eb; apply grid_tenths).
  rewrite (tenths_unique _ _ _ Gr C5).
  assert (K : kpi = use_kpi kpi_only revenue_type (negb (q_revenue s))) by (unfold counts_kpi in C2; rewrite C2; destruct (q_revenue s); reflexivity).
  rewrite K in C7, C10. rewrite (optimal_ok _ _ _ _ _ (proj1 C5) C7). cbn [rbind].
  unfold response_curves. destruct (largest_hmax _ C8) as [top' [Tp Te]]. rewrite Tp. cbn [rbind].
  assert (Bl : default_grid top' = below).
  { apply (tenths_unique (fun f => 1 <= f /\ f < top)%Q); [ | exact C9 ]. destruct (default_tenths top') as [D1 D2]. split; [ exact D1 | ]. intros f. rewrite D2. rewrite Te. reflexivity. }
  rewrite Bl. rewrite (optimal_ok _ _ _ _ _ (proj1 C9) C10). cbn [rbind op_best]. destruct (data_ok times C11) as [sp Sp]. rewrite Sp. cbn [rbind].
  destruct (open_ok s (proj1 C1)) as [a [b [I [S1 [S2 L]]]]]. rewrite I. cbn [rbind fst snd].
  assert (Lh : (lo <= hi)%Q).
  { destruct channels as [|c0 cs]; [ contradiction | ]. inversion C7 as [|c f cs' fs [F _] _]; subst. apply (proj2 C5) in F. lra. }
  destruct V as [V1 [V2 [V3 [V4 [V5 V6]]]]].
  rewrite (proj2 (proj1 (validate_rf_lemma _))); [ cbn [rbind] | ].
  2:{ split; [ exact V1 | ]. split; [ exact V2 | ]. split; [ exact V3 | ]. cbn [q_min q_max q_start q_end]. split; [ lra | ]. split; [ intros y Y; injection Y as <-; exact Lh | intros x y X Y; injection X as <-; injection Y as <-; exact L ]. }
  unfold rf_to_result, rf_proto. cbn [q_start q_end rbind]. unfold rf_grid_of. cbn [op_grid op_roi q_level].
  match goal with |- context [mapR ?f ?l] => destruct (mapR_total _ _ f l) as [rows ->] end; [ | cbn [rbind]; eexists; reflexivity ].
  intros [i c] _. cbn [fst snd]. match goal with |- context [mapR ?f grid] => destruct (mapR_total _ _ f grid) as [cells ->] end; [ | cbn [rbind]; eexists; reflexivity ].
  intros f F. apply (proj2 C5) in F. destruct (reach_pos i f ltac:(lra)) as [z ->]. cbn [rbind]. eexists; reflexivity.
Qed.
End Rf.
