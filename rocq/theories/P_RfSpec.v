(** Proofs about rounding to tenths, frequency grids and the search for the best frequency. *)
From Coq Require Import ZArith QArith Qround Qabs String List Bool Arith Sorted Lia Lqa.
From Verif Require Import Lib_QSum M_Base M_Opt P_Opt M_BudgetSpec S_BudgetSpec P_BudgetSpec M_MarketingSpec S_MarketingSpec P_MarketingSpec M_RfSpec S_RfSpec.
Import ListNotations.
Local Open Scope string_scope.
Local Open Scope list_scope.

Lemma tenth_scale : forall k, (inject_Z k == (k # 10) * 10)%Q.
Proof. intros k. unfold Qeq, inject_Z. cbn [Qnum Qden Qmult]. lia. Qed.
Lemma rint_tie : forall x, (inject_Z (rint x) - x == 1 # 2 \/ x - inject_Z (rint x) == 1 # 2)%Q -> Z.Even (rint x).
Proof.
  intros x H. unfold rint in *. destruct (floor_bounds x) as [H1 H2].
  destruct (Qcompare_spec (x - inject_Z (Qfloor x)) (1 # 2)) as [C|C|C].
  - destruct (Z.even (Qfloor x)) eqn:E; [ apply Z.even_spec; exact E | ].
    apply Z.even_spec. rewrite Z.add_1_r, Z.even_succ, <- Z.negb_even, E. reflexivity.
  - exfalso. destruct H as [H|H]; lra.
  - exfalso. rewrite inject_Z_plus in H. change (inject_Z 1) with 1%Q in H. destruct H as [H|H]; lra.
Qed.
Lemma abs_bound : forall x b, (Qabs x <= b <-> x <= b /\ - x <= b)%Q.
Proof. intros x b. rewrite Qabs_Qle_condition. split; intros [A B]; split; lra. Qed.
Lemma abs_tie : forall x b, (0 < b -> Qabs x == b -> x == b \/ - x == b)%Q.
Proof. intros x b B. apply Qabs_case; intros C E; [ left | right ]; exact E. Qed.

Lemma round1_nearest : forall x, nearest_tenth x (round1 x).
Proof.
  intros x. exists (rint (x * 10)). split; [ reflexivity | ]. unfold round1.
  destruct (rint_error (x * 10)) as [A B]. pose proof (tenth_scale (rint (x * 10))) as T. split.
  - apply abs_bound. split; lra.
  - intros E. apply rint_tie. destruct (abs_tie _ (1 # 20) ltac:(lra) E) as [D|D]; [ right | left ]; lra.
Qed.
Lemma nearest_unique : forall x y, nearest_tenth x y -> y = round1 x.
Proof.
  intros x y [k [-> [A E]]]. destruct (round1_nearest x) as [r [R [B F]]]. rewrite R in *. f_equal.
  pose proof (tenth_scale k) as T. pose proof (tenth_scale r) as U. apply abs_bound in A, B. destruct A as [A1 A2], B as [B1 B2].
  assert (D : (k - r <= 1 /\ r - k <= 1)%Z).
  { split; apply inject_le; unfold Z.sub; rewrite inject_Z_plus, inject_Z_opp; change (inject_Z 1) with 1%Q; lra. }
  destruct (Z.eq_dec k r) as [|N]; [ assumption | exfalso ].
  assert (Kr : (k = r + 1 \/ r = k + 1)%Z) by lia.
  assert (P : (Qabs (x - (k # 10)) == 1 # 20)%Q /\ (Qabs (x - (r # 10)) == 1 # 20)%Q).
  { destruct Kr as [->| ->]; rewrite inject_Z_plus in *; change (inject_Z 1) with 1%Q in *; split; apply Qabs_case; intros; lra. }
  destruct P as [P1 P2]. destruct (E P1) as [u Hu], (F P2) as [v Hv]. lia.
Qed.
Lemma round1_comp : forall x y, (x == y)%Q -> round1 x = round1 y.
Proof. intros x y E. unfold round1. f_equal. apply rint_comp. rewrite E. reflexivity. Qed.
Lemma round1_tenth : forall k q, (q == (k # 10))%Q -> round1 q = (k # 10).
Proof. intros k q E. unfold round1. f_equal. rewrite <- (rint_int k) at 1. apply rint_comp. rewrite E. symmetry. apply tenth_scale. Qed.

Lemma tenth_le : forall a b, ((a # 10) <= (b # 10))%Q <-> (a <= b)%Z.
Proof. intros. unfold Qle. cbn [Qnum Qden]. lia. Qed.
Lemma tenth_lt : forall a b, ((a # 10) < (b # 10))%Q <-> (a < b)%Z.
Proof. intros. unfold Qlt. cbn [Qnum Qden]. lia. Qed.

(** [i < ceiling q]. *)
Lemma below_ceiling : forall i q, (i < Z.to_nat (Qceiling q))%nat <-> (inject_Z (Z.of_nat i) < q)%Q.
Proof.
  intros i q. unfold Qceiling. destruct (floor_bounds (- q)) as [A B]. split; intros H.
  - assert (K : (Z.of_nat i + 1 <= - Qfloor (- q))%Z) by lia. apply inject_le in K. rewrite inject_Z_plus, inject_Z_opp in K. change (inject_Z 1) with 1%Q in K. lra.
  - assert (K : (Z.of_nat i < - Qfloor (- q))%Z); [ | lia ]. apply inject_lt. rewrite inject_Z_opp. lra.
Qed.
Definition run_of (a : Z) (n : nat) : list Q := map (fun i => (a + Z.of_nat i # 10)) (seq 0 n).
Lemma run_in : forall a n f, In f (run_of a n) <-> exists k, f = (k # 10) /\ (a <= k < a + Z.of_nat n)%Z.
Proof.
  intros a n f. unfold run_of. rewrite in_map_iff. split.
  - intros [i [<- I]]. apply in_seq in I. exists (a + Z.of_nat i)%Z. split; [ reflexivity | lia ].
  - intros [k [-> K]]. exists (Z.to_nat (k - a)). split; [ f_equal; lia | apply in_seq; lia ].
Qed.
Lemma run_sorted : forall n a s, StronglySorted Qlt (map (fun i => (a + Z.of_nat i # 10)) (seq s n)).
Proof.
  induction n as [|n IH]; intros a s; cbn [seq map]; constructor; [ apply IH | ].
  apply Forall_forall. intros f F. apply in_map_iff in F. destruct F as [i [<- I]]. apply in_seq in I. apply tenth_lt. lia.
Qed.
Lemma grid_run : forall a b, frequency_grid (a # 10) (b # 10) = run_of a (Z.to_nat (b - a + 1)).
Proof.
  intros a b. unfold frequency_grid, arange, run_of. rewrite map_map.
  replace (Z.to_nat (Qceiling (((b # 10) + (1 # 1000000) - (a # 10)) / (1 # 10)))) with (Z.to_nat (b - a + 1)).
  - apply map_ext. intros i. apply round1_tenth. unfold Qeq. cbn [Qnum Qden Qplus]. lia.
  - f_equal. unfold Qceiling. enough (E : Qfloor (- (((b # 10) + (1 # 1000000) - (a # 10)) / (1 # 10))) = (- (b - a + 1))%Z) by lia.
    assert (V : (((b # 10) + (1 # 1000000) - (a # 10)) / (1 # 10) == inject_Z b - inject_Z a + (1 # 100000))%Q).
    { rewrite (tenth_scale a), (tenth_scale b). field. }
    apply floor_unique; rewrite inject_Z_opp, inject_Z_plus; unfold Z.sub; rewrite inject_Z_plus, inject_Z_opp; change (inject_Z 1) with 1%Q; rewrite V; lra.
Qed.
Lemma grid_tenths : forall a b, tenths (fun f => (a # 10) <= f <= (b # 10))%Q (frequency_grid (a # 10) (b # 10)).
Proof.
  intros a b. rewrite grid_run. split; [ apply run_sorted | ]. intros f. rewrite run_in. split.
  - intros [k [-> K]]. split; [ exists k; reflexivity | ]. rewrite !tenth_le. lia.
  - intros [[k ->] K]. rewrite !tenth_le in K. exists k. split; [ reflexivity | lia ].
Qed.
Lemma default_tenths : forall top, tenths (fun f => 1 <= f /\ f < top)%Q (default_grid top).
Proof.
  intros top. unfold default_grid, arange.
  rewrite (map_ext (fun i => (1 + (Z.of_nat i # 10))%Q) (fun i => (10 + Z.of_nat i # 10))); [ | intros i; unfold Qplus; cbn [Qnum Qden]; f_equal; lia ].
  change (tenths (fun f => 1 <= f /\ f < top)%Q (run_of 10 (Z.to_nat (Qceiling ((top - 1) / (1 # 10)))))).
  split; [ apply run_sorted | ]. intros f. rewrite run_in. split.
  - intros [k [-> K]]. split; [ exists k; reflexivity | ]. assert (L : (Z.to_nat (k - 10) < Z.to_nat (Qceiling ((top - 1) / (1 # 10))))%nat) by lia.
    apply below_ceiling in L. rewrite Z2Nat.id in L by lia. unfold Z.sub in L. rewrite inject_Z_plus in L. change (inject_Z (- (10))) with (- (10))%Q in L.
    rewrite (tenth_scale k) in L. assert (V : ((top - 1) / (1 # 10) == (top - 1) * 10)%Q) by field. rewrite V in L.
    split; [ unfold Qle; cbn [Qnum Qden]; lia | lra ].
  - intros [[k ->] [A B]]. exists k. split; [ reflexivity | ]. assert (K : (10 <= k)%Z) by (unfold Qle in A; cbn [Qnum Qden] in A; lia).
    enough (L : (Z.to_nat (k - 10) < Z.to_nat (Qceiling ((top - 1) / (1 # 10))))%nat) by lia.
    apply below_ceiling. rewrite Z2Nat.id by lia. unfold Z.sub. rewrite inject_Z_plus. change (inject_Z (- (10))) with (- (10))%Q.
    rewrite (tenth_scale k). assert (V : ((top - 1) / (1 # 10) == (top - 1) * 10)%Q) by field. rewrite V. lra.
Qed.

(** Sorted lists with the same elements are equal. *)
Lemma sorted_unique : forall (A : Type) (R : A -> A -> Prop) (l m : list A), (forall x y, R x y -> ~ R y x) ->
  StronglySorted R l -> StronglySorted R m -> (forall x, In x l <-> In x m) -> l = m.
Proof.
  intros A R l m As S. revert m. induction S as [|a l S IH F]; intros m T E.
  - destruct m as [|b m]; [ reflexivity | ]. destruct (proj2 (E b) (or_introl eq_refl)).
  - destruct m as [|b m]; [ destruct (proj1 (E a) (or_introl eq_refl)) | ]. inversion T as [|b' m' T' G]; subst.
    rewrite Forall_forall in F, G.
    assert (Eab : a = b).
    { destruct (proj1 (E a) (or_introl eq_refl)) as [H|H]; [ symmetry; exact H | ]. destruct (proj2 (E b) (or_introl eq_refl)) as [K|K]; [ exact K | ].
      exfalso. exact (As _ _ (F b K) (G a H)). }
    subst b. f_equal. apply IH; [ exact T' | ]. intros x. specialize (E x). cbn [In] in E. split; intros X.
    + destruct (proj1 E (or_intror X)) as [->|Y]; [ exfalso; exact (As _ _ (F x X) (F x X)) | exact Y ].
    + destruct (proj2 E (or_intror X)) as [->|Y]; [ exfalso; exact (As _ _ (G x X) (G x X)) | exact Y ].
Qed.
Lemma tenths_unique : forall P l m, tenths P l -> tenths P m -> l = m.
Proof.
  intros P l m [S E] [T F]. apply (sorted_unique _ Qlt); [ intros x y A B; lra | exact S | exact T | ]. intros f. rewrite E, F. reflexivity.
Qed.

(** The search. *)
Definition leads (l : list (Q * option Q)) (b : option (Q * Q)) : Prop :=
  match b with
  | None => forall f v, ~ In (f, Some v) l
  | Some (f, v) => exists pre post, l = pre ++ (f, Some v) :: post /\ (forall g w, In (g, Some w) pre -> (w < v)%Q) /\ (forall g w, In (g, Some w) post -> (w <= v)%Q)
  end.
Lemma best_from_leads : forall l d b, leads d b -> leads (d ++ l) (best_from b l).
Proof.
  induction l as [|[f [v|]] l IH]; intros d b H; cbn [best_from].
  - rewrite app_nil_r. exact H.
  - replace (d ++ (f, Some v) :: l) with ((d ++ [(f, Some v)]) ++ l) by (rewrite <- app_assoc; reflexivity).
    destruct b as [[g w]|].
    + destruct (Qlt_bool w v) eqn:L.
      * apply IH. apply Qlt_bool_iff in L. destruct H as [pre [post [-> [A B]]]]. exists (pre ++ (g, Some w) :: post), []. split; [ reflexivity | ]. split; [ | intros ? ? [] ].
        intros h u U. apply in_app_or in U. destruct U as [U|[U|U]]; [ specialize (A h u U); lra | injection U as <- <-; exact L | specialize (B h u U); lra ].
      * apply IH. apply Qlt_bool_false in L. destruct H as [pre [post [-> [A B]]]]. exists pre, (post ++ [(f, Some v)]). split; [ rewrite <- app_assoc; reflexivity | ]. split; [ exact A | ].
        intros h u U. apply in_app_or in U. destruct U as [U|[U|[]]]; [ exact (B h u U) | injection U as <- <-; exact L ].
    + apply IH. exists d, []. split; [ reflexivity | ]. split; [ intros g w G; exfalso; exact (H g w G) | intros ? ? [] ].
  - replace (d ++ (f, None) :: l) with ((d ++ [(f, None)]) ++ l) by (rewrite <- app_assoc; reflexivity). apply IH.
    destruct b as [[g w]|].
    + destruct H as [pre [post [-> [A B]]]]. exists pre, (post ++ [(f, None)]). split; [ rewrite <- app_assoc; reflexivity | ]. split; [ exact A | ].
      intros h u U. apply in_app_or in U. destruct U as [U|[U|[]]]; [ exact (B h u U) | discriminate ].
    + intros g w G. apply in_app_or in G. destruct G as [G|[G|[]]]; [ exact (H g w G) | discriminate ].
Qed.
Lemma sorted_app : forall (pre post : list Q) f, StronglySorted Qlt (pre ++ f :: post) -> (forall g, In g pre -> (g < f)%Q) /\ (forall g, In g post -> (f < g)%Q).
Proof.
  induction pre as [|a pre IH]; intros post f S; cbn [app] in S; inversion S as [|a' l' S' F]; subst; rewrite Forall_forall in F.
  - split; [ intros g [] | exact F ].
  - destruct (IH post f S') as [A B]. split; [ | exact B ]. intros g [<-|G]; [ apply F; apply in_or_app; right; left; reflexivity | exact (A g G) ].
Qed.
Lemma best_spec : forall (roi : Q -> option Q) l f, StronglySorted Qlt l -> best_of (map (fun f => (f, roi f)) l) = Ok f -> best_frequency roi l f.
Proof.
  intros roi l f S H. unfold best_of in H. destruct (best_from None (map (fun f => (f, roi f)) l)) as [[g v]|] eqn:E; [ | discriminate ]. injection H as ->.
  pose proof (best_from_leads (map (fun f => (f, roi f)) l) [] None (fun _ _ X => X)) as L. cbn [app] in L. rewrite E in L.
  destruct L as [pre [post [M [A B]]]]. apply map_eq_app in M. destruct M as [p [q [-> [<- M]]]]. destruct q as [|x q]; [ discriminate | ]. cbn [map] in M.
  injection M as -> Ev <-. destruct (sorted_app p q f S) as [U V]. split; [ apply in_or_app; right; left; reflexivity | ]. exists v. split; [ exact Ev | ].
  intros g w G Gw. apply in_app_or in G. destruct G as [G|[->|G]].
  - assert (W : (w < v)%Q) by (apply (A g); apply in_map_iff; exists g; rewrite Gw; auto). split; [ lra | intros; exact W ].
  - rewrite Ev in Gw. injection Gw as <-. split; [ lra | intros; lra ].
  - assert (W : (w <= v)%Q) by (apply (B g); apply in_map_iff; exists g; rewrite Gw; auto). split; [ exact W | ]. intros C. specialize (V g G). lra.
Qed.
Lemma best_unique : forall roi l f g, StronglySorted Qlt l -> best_frequency roi l f -> best_frequency roi l g -> f = g.
Proof.
  intros roi l f g S [F [v [Fv A]]] [G [w [Gw B]]]. destruct (A g w G Gw) as [A1 A2], (B f v F Fv) as [B1 B2].
  apply in_split in F. destruct F as [pre [post ->]]. destruct (sorted_app pre post f S) as [U V].
  apply in_app_or in G. destruct G as [G|[G|G]]; [ | exact G | ].
  - specialize (A2 (U g G)). lra.
  - specialize (B2 (V g G)). lra.
Qed.
Lemma best_ok : forall roi l f, StronglySorted Qlt l -> best_frequency roi l f -> best_of (map (fun f => (f, roi f)) l) = Ok f.
Proof.
  intros roi l f S H. destruct (best_of (map (fun f => (f, roi f)) l)) as [g|e] eqn:E.
  - f_equal. exact (best_unique roi l g f S (best_spec roi l g S E) H).
  - exfalso. unfold best_of in E. destruct (best_from None (map (fun f => (f, roi f)) l)) as [[g v]|] eqn:D; [ discriminate | ].
    pose proof (best_from_leads (map (fun f => (f, roi f)) l) [] None (fun _ _ X => X)) as L. cbn [app] in L. rewrite D in L.
    destruct H as [F [v [Fv _]]]. apply (L f v). apply in_map_iff. exists f. rewrite Fv. auto.
Qed.

(** The largest element. *)
Lemma qmax_spec : forall l m, qmax_list l = Ok m -> In m l /\ forall x, In x l -> (x <= m)%Q.
Proof.
  intros [|a r] m H; [ discriminate | ]. cbn [qmax_list] in H. injection H as <-. revert a.
  induction r as [|b r IH]; intros a; cbn [fold_left]; [ split; [ left; reflexivity | intros x [<-|[]]; lra ] | ].
  destruct (Qlt_bool a b) eqn:L.
  - apply Qlt_bool_iff in L. destruct (IH b) as [I1 I2]. split; [ right; exact I1 | ]. intros x [<-|X]; [ | exact (I2 x X) ]. specialize (I2 b (or_introl eq_refl)). lra.
  - apply Qlt_bool_false in L. destruct (IH a) as [I1 I2]. split.
    + destruct I1 as [<-|I1]; [ left; reflexivity | right; right; exact I1 ].
    + intros x [<-|[<-|X]]; [ apply I2; left; reflexivity | specialize (I2 a (or_introl eq_refl)); lra | apply I2; right; exact X ].
Qed.
Lemma qmax_ok : forall l x, In x l -> exists m, qmax_list l = Ok m.
Proof. intros [|a r] x H; [ destruct H | eexists; reflexivity ]. Qed.

(** Validation. *)
Lemma validate_rf_lemma : forall s, (validate_rf s = Ok tt <-> valid_rf s) /\ (validate_rf s = Ok tt \/ validate_rf s = Err ValueError).
Proof.
  intros s. unfold validate_rf, valid_rf.
  assert (A : match q_start s, q_end s with Some a, Some b => Z.ltb b a | _, _ => false end = false <-> (forall a b, q_start s = Some a -> q_end s = Some b -> (a <= b)%Z)).
  { destruct (q_start s) as [x|], (q_end s) as [y|]; split; intros H; auto; try discriminate.
    - intros a b Ea Eb. injection Ea as <-. injection Eb as <-. apply Z.ltb_ge. exact H.
    - apply Z.ltb_ge. auto. }
  assert (B : Qlt_bool (q_level s) 0 || Qlt_bool 1 (q_level s) = false <-> (0 <= q_level s <= 1)%Q) by (rewrite orb_false_iff, !Qlt_bool_false; tauto).
  assert (C : Qlt_bool (q_min s) 0 = false <-> (0 <= q_min s)%Q) by apply Qlt_bool_false.
  assert (D : match q_max s with Some m => Qlt_bool m (q_min s) | None => false end = false <-> (forall m, q_max s = Some m -> (q_min s <= m)%Q)).
  { destruct (q_max s) as [x|]; split; intros H; auto; try discriminate.
    - intros m E. injection E as <-. apply Qlt_bool_false. exact H.
    - apply Qlt_bool_false. auto. }
  pose proof (blank_spec (q_name s)) as N1. pose proof (blank_spec (q_grid_name s)) as N2.
  destruct (match q_start s, q_end s with Some a, Some b => Z.ltb b a | _, _ => false end); cbn [raise_if]; [ split; [ split; [ discriminate | intros (_ & _ & _ & _ & _ & H); exfalso; apply A in H; discriminate ] | right; reflexivity ] | ].
  destruct (blank (q_name s)); cbn [raise_if]; [ split; [ split; [ discriminate | intros (H & _); exfalso; apply N1 in H; discriminate ] | right; reflexivity ] | ].
  destruct (blank (q_grid_name s)); cbn [raise_if]; [ split; [ split; [ discriminate | intros (_ & H & _); exfalso; apply N2 in H; discriminate ] | right; reflexivity ] | ].
  destruct (Qlt_bool (q_level s) 0 || Qlt_bool 1 (q_level s)); cbn [raise_if]; [ split; [ split; [ discriminate | intros (_ & _ & H & _); exfalso; apply B in H; discriminate ] | right; reflexivity ] | ].
  destruct (Qlt_bool (q_min s) 0); cbn [raise_if]; [ split; [ split; [ discriminate | intros (_ & _ & _ & H & _); exfalso; apply C in H; discriminate ] | right; reflexivity ] | ].
  destruct (match q_max s with Some m => Qlt_bool m (q_min s) | None => false end); cbn [raise_if]; [ split; [ split; [ discriminate | intros (_ & _ & _ & _ & H & _); exfalso; apply D in H; discriminate ] | right; reflexivity ] | ].
  split; [ split; [ intros _ | reflexivity ] | left; reflexivity ].
  split; [ apply N1; reflexivity | ]. split; [ apply N2; reflexivity | ]. split; [ apply B; reflexivity | ]. split; [ apply C; reflexivity | ]. split; [ apply D; reflexivity | apply A; reflexivity ].
Qed.
