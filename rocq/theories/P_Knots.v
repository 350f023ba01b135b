(** Proofs about knot weights and knot configuration. *)
From Coq Require Import Reals ZArith String List Bool Arith Lia Lra Sorted.
From Verif Require Import Lib_Sum M_Base M_Spec M_Knots S_Knots P_Spec.
Import ListNotations.

Notation ssorted := (StronglySorted Z.lt).

Lemma existsb_eqb : forall t l, existsb (Z.eqb t) l = true <-> In t l.
Proof.
  intros t l. rewrite existsb_exists. split.
  - intros [x [H1 H2]]. apply Z.eqb_eq in H2. subst. auto.
  - intros H. exists t. split; auto. apply Z.eqb_refl.
Qed.

Lemma sorted_unique_ssorted : forall l, sorted_z l = true /\ unique_z l = true <-> ssorted l.
Proof.
  induction l as [|a l IH].
  - split; intros; [constructor|auto].
  - split.
    + intros [H1 H2]. cbn [unique_z] in H2. apply andb_true_iff in H2. destruct H2 as [H2 H3].
      apply negb_true_iff in H2.
      assert (Hs : ssorted l).
      { apply IH. split; auto. destruct l; auto. cbn [sorted_z] in H1. apply andb_true_iff in H1. tauto. }
      constructor; auto. destruct l as [|b l]; constructor.
      * cbn [sorted_z] in H1. apply andb_true_iff in H1. destruct H1 as [H1 _]. apply Z.leb_le in H1.
        assert (a <> b); [|lia]. intros ->. simpl in H2. rewrite Z.eqb_refl in H2. discriminate.
      * cbn [sorted_z] in H1. apply andb_true_iff in H1. destruct H1 as [H1 _]. apply Z.leb_le in H1.
        inversion Hs; subst. rewrite Forall_forall in *. intros x Hx. specialize (H5 x Hx). lia.
    + intros H. inversion H; subst. destruct (proj2 IH H2) as [A B]. rewrite Forall_forall in H3. split.
      * destruct l as [|b l]; auto. cbn [sorted_z]. apply andb_true_iff. split; auto.
        apply Z.leb_le. specialize (H3 b (or_introl eq_refl)). lia.
      * cbn [unique_z]. apply andb_true_iff. split; auto. apply negb_true_iff.
        destruct (existsb (Z.eqb a) l) eqn:E; auto. apply existsb_eqb in E. specialize (H3 a E). lia.
Qed.

Lemma ssorted_iff : forall l, ssorted l <-> strictly_increasing l.
Proof.
  unfold strictly_increasing. induction l as [|a l IH]; split.
  - intros _ i j x y H. destruct i; discriminate.
  - constructor.
  - intros H i j x y Hi Hj Hij. inversion H; subst. rewrite Forall_forall in H3.
    destruct j as [|j]; [lia|]. simpl in Hj. destruct i as [|i]; simpl in Hi.
    + inversion Hi; subst. apply H3. eapply nth_error_In; eauto.
    + eapply (proj1 IH H2 i j); eauto. lia.
  - intros H. constructor.
    + apply IH. intros i j x y Hi Hj Hij. apply (H (S i) (S j) x y); auto. lia.
    + apply Forall_forall. intros x Hx. apply In_nth_error in Hx. destruct Hx as [j Hj].
      apply (H 0%nat (S j) a x); auto. lia.
Qed.

(** Dot products with sparse vectors. *)
Definition dot (v w : list R) : R := lsum (map (fun e => (fst e * snd e)%R) (combine v w)).

Lemma dot_zero : forall n v, dot v (repeat 0%R n) = 0%R.
Proof.
  unfold dot. induction n; intros [|x v]; simpl; auto. rewrite IHn. ring.
Qed.

Lemma set_nth_length : forall A i (a : A) l, length (set_nth i a l) = length l.
Proof. intros A i a l. revert i. induction l; intros [|i]; simpl; auto. Qed.

Lemma nth_error_set_same : forall A (l : list A) i a, (i < length l)%nat -> nth_error (set_nth i a l) i = Some a.
Proof. induction l; intros [|i] b H; simpl in *; try lia; auto. apply IHl. lia. Qed.

Lemma nth_error_set_other : forall A (l : list A) i j a, i <> j -> nth_error (set_nth i a l) j = nth_error l j.
Proof. induction l; intros [|i] [|j] b H; simpl; auto; try lia. Qed.

Lemma dot_set : forall w v i a x, nth_error v i = Some x -> nth_error w i = Some 0%R ->
  dot v (set_nth i a w) = (dot v w + x * a)%R.
Proof.
  unfold dot. induction w as [|b w IH]; intros [|c v] [|i] a x Hv Hw; simpl in *; try discriminate.
  - inversion Hv; inversion Hw; subst. ring.
  - rewrite (IH v i a x Hv Hw). ring.
Qed.

Lemma nth_error_repeat : forall A (a : A) n i, (i < n)%nat -> nth_error (repeat a n) i = Some a.
Proof. induction n; intros [|i] H; simpl; try lia; auto. apply IHn. lia. Qed.

Lemma index_of_spec : forall l t, In t l -> nth_error l (index_of t l) = Some t.
Proof.
  induction l as [|a l IH]; intros t H; [contradiction|]. simpl.
  destruct (Z.eqb a t) eqn:E; [apply Z.eqb_eq in E; subst; auto|].
  apply Z.eqb_neq in E. simpl. apply IH. destruct H; [congruence|auto].
Qed.

(** Counting the knots not after [t]. *)
Lemma searchsorted_spec : forall l t, ssorted l ->
  (forall i k, nth_error l i = Some k -> ((i < searchsorted_right l t)%nat <-> (k <= t)%Z)).
Proof.
  unfold searchsorted_right. induction l as [|a l IH]; intros t Hs i k Hi; [destruct i; discriminate|].
  inversion Hs; subst. rewrite Forall_forall in H2. simpl.
  destruct (Z.leb a t) eqn:E.
  - apply Z.leb_le in E. simpl. destruct i as [|i]; simpl in Hi.
    + inversion Hi; subst. split; intros; [auto|lia].
    + rewrite <- (IH t H1 i k Hi). lia.
  - apply Z.leb_gt in E.
    assert (Hall : forall x, In x l -> (t < x)%Z) by (intros x Hx; specialize (H2 x Hx); lia).
    assert (Hz : length (filter (fun k => Z.leb k t) l) = 0%nat).
    { clear -Hall. induction l as [|b l IH]; auto. simpl. assert (Z.leb b t = false) as ->.
      { apply Z.leb_gt. apply Hall. left; auto. } apply IH. intros; apply Hall; right; auto. }
    rewrite Hz. destruct i as [|i]; simpl in Hi.
    + inversion Hi; subst. split; lia.
    + specialize (Hall k (nth_error_In _ _ Hi)). split; lia.
Qed.

Lemma searchsorted_le : forall l t, (searchsorted_right l t <= length l)%nat.
Proof. intros. unfold searchsorted_right. induction l; simpl; auto. destruct (Z.leb a t); simpl; lia. Qed.

Lemma first_z_spec : forall l, l <> [] -> nth_error l 0 = Some (first_z l).
Proof. intros [|a l] H; [congruence|auto]. Qed.

Lemma last_z_spec : forall l, l <> [] -> nth_error l (length l - 1) = Some (last_z l).
Proof.
  intros l H. unfold last_z. rewrite (app_removelast_last 0%Z H) at 1 2. rewrite app_length. simpl.
  rewrite nth_error_app2 by lia. replace (length (removelast l) + 1 - 1 - length (removelast l))%nat with 0%nat by lia.
  reflexivity.
Qed.

Lemma ssorted_nth_lt : forall l i j a b, ssorted l -> nth_error l i = Some a -> nth_error l j = Some b ->
  (i < j)%nat -> (a < b)%Z.
Proof. intros l i j a b H. apply ssorted_iff in H. apply H. Qed.

Lemma ssorted_nth_inj : forall l i j a, ssorted l -> nth_error l i = Some a -> nth_error l j = Some a -> i = j.
Proof.
  intros l i j a Hs Hi Hj. destruct (Nat.lt_trichotomy i j) as [H|[H|H]]; auto.
  - pose proof (ssorted_nth_lt _ _ _ _ _ Hs Hi Hj H). lia.
  - pose proof (ssorted_nth_lt _ _ _ _ _ Hs Hj Hi H). lia.
Qed.

Lemma last_ge_first : forall l, ssorted l -> l <> [] -> (first_z l <= last_z l)%Z.
Proof.
  intros l Hs Hne. pose proof (first_z_spec l Hne) as A. pose proof (last_z_spec l Hne) as B.
  destruct (Nat.eq_dec (length l - 1) 0) as [E|E].
  - rewrite E in B. rewrite A in B. inversion B. lia.
  - pose proof (ssorted_nth_lt _ _ _ _ _ Hs A B ltac:(lia)). lia.
Qed.

(** The four shapes of a weight column. *)
Inductive column_case (knots : list Z) (t : Z) : list R -> Prop :=
| cc_at : forall i, nth_error knots i = Some t ->
    column_case knots t (set_nth i 1%R (repeat 0%R (length knots)))
| cc_before : (t < first_z knots)%Z -> column_case knots t (set_nth 0 1%R (repeat 0%R (length knots)))
| cc_after : (last_z knots < t)%Z ->
    column_case knots t (set_nth (length knots - 1) 1%R (repeat 0%R (length knots)))
| cc_between : forall i k k', nth_error knots i = Some k -> nth_error knots (S i) = Some k' -> (k < t < k')%Z ->
    column_case knots t
      (set_nth (S i) ((IZR t - IZR k) / (IZR k' - IZR k))%R
        (set_nth i ((IZR k' - IZR t) / (IZR k' - IZR k))%R (repeat 0%R (length knots)))).

Lemma weight_column_cases : forall knots t, ssorted knots -> knots <> [] -> column_case knots t (weight_column knots t).
Proof.
  intros knots t Hs Hne. unfold weight_column.
  destruct (existsb (Z.eqb t) knots) eqn:E1.
  { apply existsb_eqb in E1. apply cc_at. apply index_of_spec. auto. }
  assert (Hnin : ~ In t knots) by (intros H; apply existsb_eqb in H; congruence).
  pose proof (last_ge_first knots Hs Hne) as Hfl.
  destruct (Z.ltb t (first_z knots)) eqn:E2; simpl.
  { apply Z.ltb_lt in E2. unfold left_knot_index.
    assert (Z.ltb t (first_z knots) = true) as -> by (apply Z.ltb_lt; auto).
    assert (Z.leb (last_z knots) t = false) as -> by (apply Z.leb_gt; lia).
    apply cc_before. auto. }
  apply Z.ltb_ge in E2.
  destruct (Z.ltb (last_z knots) t) eqn:E3.
  { apply Z.ltb_lt in E3. unfold left_knot_index.
    assert (Z.leb (last_z knots) t = true) as -> by (apply Z.leb_le; lia).
    apply cc_after. auto. }
  apply Z.ltb_ge in E3.
  pose proof (first_z_spec knots Hne) as Hf. pose proof (last_z_spec knots Hne) as Hl.
  assert (Hlt : (t < last_z knots)%Z).
  { destruct (Z.eq_dec t (last_z knots)) as [E|E]; [|lia]. exfalso. apply Hnin. rewrite E. eapply nth_error_In; eauto. }
  unfold left_knot_index.
  assert (Z.ltb t (first_z knots) = false) as -> by (apply Z.ltb_ge; lia).
  assert (Z.leb (last_z knots) t = false) as -> by (apply Z.leb_gt; lia).
  set (c := searchsorted_right knots t).
  assert (Hc0 : (0 < c)%nat) by (apply (searchsorted_spec knots t Hs 0 _ Hf); lia).
  assert (Hc1 : (c < length knots)%nat).
  { destruct (Nat.lt_ge_cases (length knots - 1) c) as [H|H].
    - apply (searchsorted_spec knots t Hs _ _ Hl) in H. lia.
    - destruct knots; [congruence|simpl in *; lia]. }
  set (i := (c - 1)%nat). replace (i + 1)%nat with (S i) by lia.
  assert (Hi : nth_error knots i = Some (nth i knots 0%Z)) by (apply nth_error_nth'; lia).
  assert (Hi' : nth_error knots (S i) = Some (nth (S i) knots 0%Z)) by (apply nth_error_nth'; lia).
  set (k := nth i knots 0%Z) in *. set (k' := nth (S i) knots 0%Z) in *.
  assert (Hk : (k <= t)%Z) by (apply (searchsorted_spec knots t Hs i k Hi); fold c; lia).
  assert (Hk' : (t < k')%Z).
  { destruct (Z.lt_ge_cases t k') as [H|H]; auto. apply (searchsorted_spec knots t Hs _ _ Hi') in H. fold c in H. lia. }
  assert (Hk2 : (k < t)%Z).
  { destruct (Z.eq_dec k t) as [E|E]; [|lia]. exfalso. apply Hnin. rewrite <- E. eapply nth_error_In; eauto. }
  rewrite (Z.abs_neq (k - t)) by lia. rewrite (Z.abs_eq (k' - t)) by lia.
  replace (- (k - t) + (k' - t))%Z with (k' - k)%Z by lia.
  replace (- (k - t))%Z with (t - k)%Z by lia. rewrite !minus_IZR.
  apply (cc_between knots t i k k'); auto.
Qed.

Lemma case_length : forall knots t w, column_case knots t w -> length w = length knots.
Proof. intros knots t w H. destruct H; rewrite ?set_nth_length, repeat_length; auto. Qed.

Lemma case_nonneg : forall knots t w x, column_case knots t w -> In x w -> (0 <= x)%R.
Proof.
  intros knots t w x H Hx.
  assert (Hset : forall i a l, (0 <= a)%R -> (forall y, In y l -> (0 <= y)%R) ->
            forall y, In y (set_nth i a l) -> (0 <= y)%R).
  { clear. intros i a l Ha. revert i. induction l as [|b l IH]; intros i Hl y Hy; [destruct i; contradiction|].
    destruct i; simpl in Hy.
    - destruct Hy as [<-|Hy]; auto. apply Hl. right; auto.
    - destruct Hy as [<-|Hy]; [apply Hl; left; auto|]. apply (IH i); auto. intros z Hz. apply Hl. right; auto. }
  assert (Hz : forall y, In y (repeat 0%R (length knots)) -> (0 <= y)%R).
  { intros y Hy. apply repeat_spec in Hy. lra. }
  destruct H as [i Hi| | |i k k' Hi Hi' [H1 H2]].
  - eapply Hset; [| |exact Hx]; auto; lra.
  - eapply Hset; [| |exact Hx]; auto; lra.
  - eapply Hset; [| |exact Hx]; auto; lra.
  - apply IZR_lt in H1, H2.
    eapply Hset; [| |exact Hx].
    + left. apply Rdiv_lt_0_compat; lra.
    + eapply Hset; auto. left. apply Rdiv_lt_0_compat; lra.
Qed.

Lemma nth_error_lt : forall A (l : list A) i a, nth_error l i = Some a -> (i < length l)%nat.
Proof. intros. apply nth_error_Some. congruence. Qed.

Lemma case_dot : forall knots t w v, column_case knots t w -> length v = length knots -> knots <> [] ->
  (exists i x, nth_error knots i = Some t /\ nth_error v i = Some x /\ dot v w = x) \/
  ((t < first_z knots)%Z /\ exists x, nth_error v 0 = Some x /\ dot v w = x) \/
  ((last_z knots < t)%Z /\ exists x, nth_error v (length knots - 1) = Some x /\ dot v w = x) \/
  (exists i k k' x x', nth_error knots i = Some k /\ nth_error knots (S i) = Some k' /\
     nth_error v i = Some x /\ nth_error v (S i) = Some x' /\ (k < t < k')%Z /\
     dot v w = (x + (x' - x) * (IZR t - IZR k) / (IZR k' - IZR k))%R).
Proof.
  intros knots t w v H Hv Hne.
  assert (Hn0 : (0 < length knots)%nat) by (destruct knots; [congruence|simpl; lia]).
  destruct H as [i Hi|H|H|i k k' Hi Hi' [H1 H2]].
  - left. pose proof (nth_error_lt _ _ _ _ Hi) as Hl.
    destruct (nth_error v i) as [x|] eqn:Ex; [|apply nth_error_None in Ex; lia].
    exists i, x. split; auto. split; auto. rewrite (dot_set _ _ _ _ x) by (auto; apply nth_error_repeat; auto).
    rewrite dot_zero. ring.
  - right; left. split; auto.
    destruct (nth_error v 0) as [x|] eqn:Ex; [|apply nth_error_None in Ex; lia].
    exists x. split; auto. rewrite (dot_set _ _ _ _ x) by (auto; apply nth_error_repeat; auto).
    rewrite dot_zero. ring.
  - right; right; left. split; auto.
    destruct (nth_error v (length knots - 1)) as [x|] eqn:Ex; [|apply nth_error_None in Ex; lia].
    exists x. split; auto. rewrite (dot_set _ _ _ _ x) by (auto; apply nth_error_repeat; lia).
    rewrite dot_zero. ring.
  - right; right; right.
    pose proof (nth_error_lt _ _ _ _ Hi) as Hl. pose proof (nth_error_lt _ _ _ _ Hi') as Hl'.
    destruct (nth_error v i) as [x|] eqn:Ex; [|apply nth_error_None in Ex; lia].
    destruct (nth_error v (S i)) as [x'|] eqn:Ex'; [|apply nth_error_None in Ex'; lia].
    exists i, k, k', x, x'. repeat (split; auto).
    rewrite (dot_set _ _ (S i) _ x'); auto.
    + rewrite (dot_set _ _ i _ x) by (auto; apply nth_error_repeat; auto). rewrite dot_zero.
      apply IZR_lt in H1, H2. field. lra.
    + rewrite nth_error_set_other by lia. apply nth_error_repeat; auto.
Qed.

Lemma case_sum : forall knots t w, column_case knots t w -> knots <> [] -> lsum w = 1%R.
Proof.
  intros knots t w H Hne.
  assert (Hd : lsum w = dot (repeat 1%R (length knots)) w).
  { rewrite <- (case_length _ _ _ H). clear. unfold dot. induction w; simpl; auto. rewrite IHw. ring. }
  assert (Hone : forall i x, nth_error (repeat 1%R (length knots)) i = Some x -> x = 1%R).
  { intros i x Hx. apply nth_error_In in Hx. apply repeat_spec in Hx. auto. }
  rewrite Hd. destruct (case_dot knots t w (repeat 1%R (length knots)) H (repeat_length _ _) Hne)
    as [[i [x [_ [Hx ->]]]]|[[_ [x [Hx ->]]]|[[_ [x [Hx ->]]]|[i [k [k' [x [x' [Hk [Hk' [Hx [Hx' [Hb ->]]]]]]]]]]]]].
  - eauto.
  - eauto.
  - eauto.
  - rewrite (Hone _ _ Hx), (Hone _ _ Hx'). destruct Hb as [H1 H2]. apply IZR_lt in H1, H2. field. lra.
Qed.

Lemma case_curve : forall knots t w v, ssorted knots -> column_case knots t w -> length v = length knots ->
  knots <> [] -> on_curve knots v t (dot v w).
Proof.
  intros knots t w v Hs Hc Hv Hne.
  pose proof (first_z_spec knots Hne) as Hf. pose proof (last_z_spec knots Hne) as Hl.
  assert (Hle : forall i k, nth_error knots i = Some k -> (first_z knots <= k <= last_z knots)%Z).
  { intros i k Hi. pose proof (nth_error_lt _ _ _ _ Hi). split.
    - destruct i; [rewrite Hf in Hi; inversion Hi; lia|].
      pose proof (ssorted_nth_lt _ _ _ _ _ Hs Hf Hi ltac:(lia)). lia.
    - destruct (Nat.eq_dec i (length knots - 1)) as [->|E]; [rewrite Hl in Hi; inversion Hi; lia|].
      pose proof (ssorted_nth_lt _ _ _ _ _ Hs Hi Hl ltac:(lia)). lia. }
  destruct (case_dot knots t w v Hc Hv Hne)
    as [[i [x [Hi [Hx E]]]]|[[Hb [x [Hx E]]]|[[Hb [x [Hx E]]]|[i [k [k' [x [x' [Hk [Hk' [Hx [Hx' [Hb E]]]]]]]]]]]]];
    rewrite E; clear E Hc.
  - pose proof (Hle i t Hi) as Hit. split; [|split; [|split]].
    + intros j k y Hj Hy ->. assert (j = i) by (eapply ssorted_nth_inj; eauto). subst j. congruence.
    + intros k y Hk Hy Hlt. rewrite Hf in Hk. inversion Hk; subst. lia.
    + intros k y Hk Hy Hlt. rewrite Hl in Hk. inversion Hk; subst. lia.
    + intros j k k' y y' Hj Hj' Hy Hy' [H1 H2]. exfalso.
      destruct (Nat.lt_trichotomy i (S j)) as [H|[H|H]].
      * assert (i = j \/ (i < j)%nat) as [->|H'] by lia; [rewrite Hj in Hi; inversion Hi; lia|].
        pose proof (ssorted_nth_lt _ _ _ _ _ Hs Hi Hj H'). lia.
      * subst i. rewrite Hj' in Hi. inversion Hi; lia.
      * pose proof (ssorted_nth_lt _ _ _ _ _ Hs Hj' Hi H). lia.
  - split; [|split; [|split]].
    + intros j k y Hj Hy ->. pose proof (Hle _ _ Hj). lia.
    + intros k y Hk Hy Hlt. congruence.
    + intros k y Hk Hy Hlt. rewrite Hl in Hk. inversion Hk; subst. pose proof (last_ge_first knots Hs Hne). lia.
    + intros j k k' y y' Hj Hj' Hy Hy' [H1 H2]. pose proof (Hle _ _ Hj). lia.
  - split; [|split; [|split]].
    + intros j k y Hj Hy ->. pose proof (Hle _ _ Hj). lia.
    + intros k y Hk Hy Hlt. rewrite Hf in Hk. inversion Hk; subst. pose proof (last_ge_first knots Hs Hne). lia.
    + intros k y Hk Hy Hlt. congruence.
    + intros j k k' y y' Hj Hj' Hy Hy' [H1 H2]. pose proof (Hle _ _ Hj'). lia.
  - split; [|split; [|split]].
    + intros j q y Hj Hy ->. exfalso.
      destruct (Nat.lt_trichotomy j (S i)) as [H|[H|H]].
      * assert (j = i \/ (j < i)%nat) as [->|H'] by lia; [rewrite Hj in Hk; inversion Hk; lia|].
        pose proof (ssorted_nth_lt _ _ _ _ _ Hs Hj Hk H'). lia.
      * subst j. rewrite Hj in Hk'. inversion Hk'; lia.
      * pose proof (ssorted_nth_lt _ _ _ _ _ Hs Hk' Hj H). lia.
    + intros q y Hq Hy Hlt. rewrite Hf in Hq. inversion Hq; subst. pose proof (Hle _ _ Hk). lia.
    + intros q y Hq Hy Hlt. rewrite Hl in Hq. inversion Hq; subst. pose proof (Hle _ _ Hk'). lia.
    + intros j q q' y y' Hj Hj' Hy Hy' [H1 H2].
      assert (j = i).
      { destruct (Nat.lt_trichotomy j i) as [H|[H|H]]; auto; exfalso.
        - assert (S j = i \/ (S j < i)%nat) as [E|H'] by lia; [subst i; rewrite Hj' in Hk; inversion Hk; lia|].
          pose proof (ssorted_nth_lt _ _ _ _ _ Hs Hj' Hk H'). lia.
        - assert (S i = j \/ (S i < j)%nat) as [E|H'] by lia; [subst j; rewrite Hj in Hk'; inversion Hk'; lia|].
          pose proof (ssorted_nth_lt _ _ _ _ _ Hs Hk' Hj H'). lia. }
      subst j. congruence.
Qed.

Lemma case_sparse : forall knots t w, column_case knots t w ->
  exists i, forall j x, nth_error w j = Some x -> x <> 0%R -> j = i \/ j = S i.
Proof.
  intros knots t w H.
  assert (Hz : forall j x, nth_error (repeat 0%R (length knots)) j = Some x -> x = 0%R).
  { intros j x Hx. apply nth_error_In in Hx. apply repeat_spec in Hx. auto. }
  destruct H as [i Hi|H|H|i k k' Hi Hi' [H1 H2]].
  - exists i. intros j x Hj Hx. destruct (Nat.eq_dec i j); [auto|]. rewrite nth_error_set_other in Hj by auto.
    apply Hz in Hj. contradiction.
  - exists 0%nat. intros j x Hj Hx. destruct (Nat.eq_dec 0 j); [auto|]. rewrite nth_error_set_other in Hj by auto.
    apply Hz in Hj. contradiction.
  - exists (length knots - 1)%nat. intros j x Hj Hx. destruct (Nat.eq_dec (length knots - 1) j); [auto|].
    rewrite nth_error_set_other in Hj by auto. apply Hz in Hj. contradiction.
  - exists i. intros j x Hj Hx. destruct (Nat.eq_dec i j); [auto|]. destruct (Nat.eq_dec (S i) j); [auto|].
    rewrite !nth_error_set_other in Hj by auto. apply Hz in Hj. contradiction.
Qed.

(** Acceptance of [l1_distance_weights]. *)

Lemma existsb_false : forall A (p : A -> bool) l, existsb p l = false <-> forall x, In x l -> p x = false.
Proof.
  induction l as [|a l IH]; simpl; split; intros H; auto.
  - intros x [].
  - apply orb_false_iff in H. destruct H as [H1 H2]. intros x [<-|Hx]; auto. apply IH; auto.
  - apply orb_false_iff. split; auto. apply IH. auto.
Qed.

Lemma l1_ok_iff : forall n knots w, l1_distance_weights n knots = Ok w <->
  (ssorted knots /\ (2 <= length knots)%nat /\ knots_in_range n knots /\
   w = map (fun t => weight_column knots (Z.of_nat t)) (seq 0 n)).
Proof.
  intros n knots w. unfold l1_distance_weights. rewrite !raise_if_ok. rewrite !negb_false_iff, !existsb_false.
  rewrite Nat.leb_gt. split.
  - intros [H1 [H2 [H3 [H4 [H5 H6]]]]]. split; [apply sorted_unique_ssorted; auto|]. split; [lia|]. split.
    + intros k Hk. specialize (H4 k Hk). specialize (H5 k Hk). apply Z.ltb_ge in H4. apply Z.leb_gt in H5. lia.
    + congruence.
  - intros [H1 [H2 [H3 H4]]]. apply sorted_unique_ssorted in H1. destruct H1.
    repeat (split; auto); try lia.
    + intros x Hx. apply Z.ltb_ge. apply H3 in Hx. lia.
    + intros x Hx. apply Z.leb_gt. apply H3 in Hx. lia.
    + congruence.
Qed.

Lemma l1_error : forall n knots e, l1_distance_weights n knots = Err e -> e = ValueError.
Proof.
  intros n knots e. unfold l1_distance_weights, raise_if.
  repeat match goal with |- context [if ?b then _ else _] => destruct b end; congruence.
Qed.

Lemma l1_weights_lemma : forall n knots w t, l1_distance_weights n knots = Ok w -> (t < n)%nat ->
  exists col, nth_error w t = Some col /\ length col = length knots /\
    (forall x, In x col -> (0 <= x)%R) /\ lsum col = 1%R /\
    (exists i, forall j x, nth_error col j = Some x -> x <> 0%R -> j = i \/ j = S i) /\
    forall v, length v = length knots -> on_curve knots v (Z.of_nat t) (mu_t v w t).
Proof.
  intros n knots w t H Ht. apply l1_ok_iff in H. destruct H as [Hs [Hl [Hr ->]]].
  assert (Hne : knots <> []) by (destruct knots; [simpl in Hl; lia|congruence]).
  pose proof (weight_column_cases knots (Z.of_nat t) Hs Hne) as Hc.
  assert (En : nth_error (map (fun t => weight_column knots (Z.of_nat t)) (seq 0 n)) t =
               Some (weight_column knots (Z.of_nat t))).
  { rewrite nth_error_map. rewrite (nth_error_nth' _ 0%nat) by (rewrite seq_length; auto). rewrite seq_nth by auto. auto. }
  exists (weight_column knots (Z.of_nat t)). split; auto. split; [eapply case_length; eauto|].
  split; [intros; eapply case_nonneg; eauto|]. split; [eapply case_sum; eauto|].
  split; [eapply case_sparse; eauto|].
  intros v Hv. unfold mu_t. rewrite (nth_error_nth _ _ _ En). apply case_curve; auto.
Qed.

(** np.unique. *)
Lemma insert_z_in : forall k l x, In x (insert_z k l) <-> x = k \/ In x l.
Proof.
  induction l as [|a l IH]; intros x; simpl; [firstorder|].
  destruct (Z.ltb k a); [simpl; firstorder|]. destruct (Z.eqb k a) eqn:E.
  - apply Z.eqb_eq in E. subst. simpl. firstorder.
  - simpl. rewrite IH. firstorder.
Qed.

Lemma insert_z_ssorted : forall k l, ssorted l -> ssorted (insert_z k l).
Proof.
  induction l as [|a l IH]; intros H; simpl; [constructor; constructor|].
  inversion H; subst. rewrite Forall_forall in H3.
  destruct (Z.ltb k a) eqn:E1.
  - apply Z.ltb_lt in E1. constructor; auto. apply Forall_forall. intros x [<-|Hx]; auto. specialize (H3 x Hx). lia.
  - destruct (Z.eqb k a) eqn:E2; auto. apply Z.ltb_ge in E1. apply Z.eqb_neq in E2.
    constructor; auto. apply Forall_forall. intros x Hx. apply insert_z_in in Hx. destruct Hx as [->|Hx]; [lia|auto].
Qed.

Lemma np_unique_spec : forall l, ssorted (np_unique l) /\ same_set (np_unique l) l.
Proof.
  unfold same_set, np_unique. induction l as [|a l [IH1 IH2]]; simpl.
  - split; [constructor|tauto].
  - split; [apply insert_z_ssorted; auto|]. intros k. rewrite insert_z_in, IH2. firstorder.
Qed.

Lemma np_unique_length_le : forall l, (length (np_unique l) <= length l)%nat.
Proof.
  induction l as [|a l IH]; simpl; auto.
  assert (H : forall k m, (length (insert_z k m) <= S (length m))%nat).
  { clear. intros k m. induction m as [|b m IH]; simpl; auto.
    destruct (Z.ltb k b); simpl; auto. destruct (Z.eqb k b); simpl; lia. }
  specialize (H a (np_unique l)). unfold np_unique in *. lia.
Qed.

Lemma ssorted_nodup : forall l, ssorted l -> NoDup l.
Proof.
  induction l as [|a l IH]; intros H; constructor; inversion H; subst.
  - intros Hin. rewrite Forall_forall in H3. specialize (H3 a Hin). lia.
  - auto.
Qed.

Lemma np_unique_length : forall l, length (np_unique l) = length l <-> NoDup l.
Proof.
  intros l. destruct (np_unique_spec l) as [Hs Hset]. pose proof (ssorted_nodup _ Hs) as Hnd. split.
  - intros E. apply (NoDup_incl_NoDup Hnd).
    + lia.
    + intros x Hx. apply Hset. auto.
  - intros H. apply Nat.le_antisymm; [apply np_unique_length_le|].
    apply NoDup_incl_length; auto. intros x Hx. apply Hset. auto.
Qed.

(** Equally spaced knots. *)
Lemma map_seq_ssorted : forall f n s, (forall i, (s <= i)%nat -> (S i < s + n)%nat -> (f i < f (S i))%Z) -> ssorted (map f (seq s n)).
Proof.
  intros f. induction n as [|n IH]; intros s H; simpl; constructor.
  - apply IH. intros i H1 H2. apply H; lia.
  - apply Forall_forall. intros x Hx. apply in_map_iff in Hx. destruct Hx as [j [<- Hj]]. apply in_seq in Hj.
    assert (Hgen : forall d, (s + S d < s + S n)%nat -> (f s < f (s + S d)%nat)%Z).
    { induction d as [|d IHd]; intros Hd.
      - replace (s + 1)%nat with (S s) by lia. apply H; lia.
      - specialize (IHd ltac:(lia)). replace (s + S (S d))%nat with (S (s + S d)) by lia.
        specialize (H (s + S d)%nat ltac:(lia) ltac:(lia)). lia. }
    replace j with (s + S (j - s - 1))%nat by lia. apply Hgen. lia.
Qed.

Lemma equally_spaced_spec : forall n k, (1 <= k <= n)%nat ->
  ssorted (equally_spaced n k) /\ length (equally_spaced n k) = k /\ knots_in_range n (equally_spaced n k) /\
  nth_error (equally_spaced n k) 0 = Some 0%Z /\
  ((2 <= k)%nat -> nth_error (equally_spaced n k) (k - 1) = Some (Z.of_nat n - 1)%Z) /\
  (forall i, (2 <= k)%nat -> (i < k)%nat ->
     nth_error (equally_spaced n k) i = Some (Z.of_nat i * (Z.of_nat n - 1) / (Z.of_nat k - 1))%Z).
Proof.
  intros n k [H1 H2]. unfold equally_spaced. destruct (Nat.eqb k 1) eqn:E.
  - apply Nat.eqb_eq in E. subst k. split; [constructor; constructor|]. split; auto. split.
    + intros x [<-|[]]. lia.
    + split; auto. split; intros; lia.
  - apply Nat.eqb_neq in E. set (f := fun i => (Z.of_nat i * (Z.of_nat n - 1) / (Z.of_nat k - 1))%Z).
    assert (Hnth : forall i, (i < k)%nat -> nth_error (map f (seq 0 k)) i = Some (f i)).
    { intros i Hi. rewrite nth_error_map. rewrite (nth_error_nth' _ 0%nat) by (rewrite seq_length; auto).
      rewrite seq_nth by auto. auto. }
    split; [|split; [|split; [|split; [|split]]]].
    + apply map_seq_ssorted. intros i _ Hi. unfold f.
      apply Z.lt_le_trans with (Z.of_nat i * (Z.of_nat n - 1) / (Z.of_nat k - 1) + 1)%Z; [lia|].
      rewrite <- Z.div_add by lia. apply Z.div_le_mono; [lia|]. nia.
    + rewrite map_length, seq_length. auto.
    + intros x Hx. apply in_map_iff in Hx. destruct Hx as [i [<- Hi]]. apply in_seq in Hi. unfold f. split.
      * apply Z.div_pos; nia.
      * apply Z.div_lt_upper_bound; nia.
    + rewrite Hnth by lia. unfold f. reflexivity.
    + intros _. rewrite Hnth by lia. unfold f. f_equal. replace (Z.of_nat (k - 1)) with (Z.of_nat k - 1)%Z by lia.
      rewrite Z.mul_comm. apply Z.div_mul. lia.
    + intros i _ Hi. apply Hnth. auto.
Qed.

(** Knot configuration. *)
Lemma finish_ok_iff : forall n k locs info, length locs <= k -> ssorted locs -> locs <> [] -> knots_in_range n locs ->
  (finish_knots n k locs = Ok info <->
   (k = 1%nat /\ info = mkKnots k locs (repeat [1%R] n)) \/
   (k <> 1%nat /\ (2 <= length locs)%nat /\
    info = mkKnots k locs (map (fun t => weight_column locs (Z.of_nat t)) (seq 0 n)))).
Proof.
  intros n k locs info Hlen Hs Hne Hr. unfold finish_knots. destruct (Nat.eqb k 1) eqn:E.
  - apply Nat.eqb_eq in E. split; intros H.
    + inversion H. left. auto.
    + destruct H as [[_ ->]|[? _]]; [auto|congruence].
  - apply Nat.eqb_neq in E. destruct (l1_distance_weights n locs) as [w|e] eqn:El; simpl.
    + apply l1_ok_iff in El. destruct El as [_ [Hl [_ ->]]]. split; intros H.
      * inversion H. right. auto.
      * destruct H as [[? _]|[_ [_ ->]]]; [congruence|auto].
    + split; [discriminate|]. intros [[? _]|[_ [Hl _]]]; [congruence|].
      assert (Hok : l1_distance_weights n locs = Ok (map (fun t => weight_column locs (Z.of_nat t)) (seq 0 n)))
        by (apply l1_ok_iff; auto). congruence.
Qed.

Lemma finish_good : forall n k locs, ssorted locs -> knots_in_range n locs -> length locs = k -> (1 <= k)%nat ->
  exists info, finish_knots n k locs = Ok info /\ n_knots info = k /\ knot_locations info = locs /\ info_good n info.
Proof.
  intros n k locs Hs Hr Hlen Hk. unfold finish_knots. destruct (Nat.eqb k 1) eqn:E.
  - apply Nat.eqb_eq in E. subst k. eexists. split; [reflexivity|]. simpl.
    split; auto. split; auto. unfold info_good; simpl.
    split; [apply ssorted_iff; auto|]. split; auto. split; auto. split; [apply repeat_length|].
    intros t Ht. exists [1%R]. split; [apply nth_error_repeat; auto|]. split; auto.
    split; [intros x [<-|[]]; lra|]. split; [simpl; ring|].
    intros v Hv. destruct v as [|a [|b v]]; simpl in Hv; try congruence; try lia.
    destruct locs as [|q [|q' locs]]; simpl in E; try lia.
    assert (Em : mu_t [a] (repeat [1%R] n) t = a).
    { unfold mu_t. rewrite (nth_error_nth _ _ _ (nth_error_repeat _ [1%R] n t Ht)). simpl. ring. }
    rewrite Em. split; [|split; [|split]].
    + intros [|[|i]] k x H1 H2 _; simpl in *; try discriminate. congruence.
    + intros k x H1 H2 _. simpl in H2. congruence.
    + intros k x H1 H2 _. simpl in H2. congruence.
    + intros [|i] k k' x x' H1 H2; simpl in H2; try discriminate; destruct i; discriminate.
  - apply Nat.eqb_neq in E.
    assert (Hok : l1_distance_weights n locs = Ok (map (fun t => weight_column locs (Z.of_nat t)) (seq 0 n))).
    { apply l1_ok_iff. split; auto. split; [lia|]. auto. }
    rewrite Hok. simpl. eexists. split; [reflexivity|]. simpl. split; auto. split; auto.
    unfold info_good; simpl. split; [apply ssorted_iff; auto|]. split; auto. split; auto.
    split; [rewrite map_length, seq_length; auto|].
    intros t Ht. destruct (l1_weights_lemma n locs _ t Hok Ht) as [col [A [B [C [D [_ F]]]]]].
    exists col. split; auto. split; [congruence|]. split; auto. split; auto. intros v Hv. apply F. congruence.
Qed.

Lemma get_knot_info_good : forall n knots national, (1 <= n)%nat -> knots_valid n knots national ->
  (forall l, knots = KnList l -> NoDup l) ->
  exists info, get_knot_info n knots national = Ok info /\ info_good n info /\
    match knots with
    | KnInt k => n_knots info = Z.to_nat k /\ knot_locations info = equally_spaced n (Z.to_nat k)
    | KnList ((_ :: _) as l) => same_set (knot_locations info) l
    | _ => n_knots info = (if national then 1%nat else n) /\ knot_locations info = equally_spaced n (if national then 1%nat else n)
    end.
Proof.
  intros n knots national Hn Hv Hd.
  assert (Hdef : exists info,
     finish_knots n (if national then 1%nat else n) (equally_spaced n (if national then 1%nat else n)) = Ok info /\
     info_good n info /\ n_knots info = (if national then 1%nat else n) /\
     knot_locations info = equally_spaced n (if national then 1%nat else n)).
  { destruct (equally_spaced_spec n (if national then 1%nat else n)) as [A [B [C _]]]; [destruct national; lia|].
    destruct (finish_good n (if national then 1%nat else n) _ A C B) as [info [I1 [I2 [I3 I4]]]]; [destruct national; lia|].
    exists info. auto. }
  destruct knots as [|k|l| |]; simpl in Hv; try exact Hdef.
  - destruct Hv as [[H1 H2] H3]. unfold get_knot_info.
    assert (Z.ltb k 1 = false) as -> by (apply Z.ltb_ge; lia).
    assert (Z.ltb (Z.of_nat n) k = false) as -> by (apply Z.ltb_ge; lia).
    assert (national && Z.eqb k (Z.of_nat n) = false) as ->.
    { destruct national; auto. specialize (H3 eq_refl). apply Z.eqb_neq. lia. }
    cbn [raise_if].
    destruct (equally_spaced_spec n (Z.to_nat k)) as [A [B [C _]]]; [lia|].
    destruct (finish_good n (Z.to_nat k) _ A C B ltac:(lia)) as [info [I1 [I2 [I3 I4]]]].
    exists info. auto.
  - destruct l as [|x r]; [exact Hdef|]. unfold get_knot_info. cbv zeta.
    set (l := x :: r) in *.
    assert (existsb (fun k => Z.ltb k 0) l = false) as ->.
    { apply existsb_false. intros y Hy. apply Z.ltb_ge. apply Hv in Hy. lia. }
    assert (existsb (fun k => Z.leb (Z.of_nat n) k) l = false) as ->.
    { apply existsb_false. intros y Hy. apply Z.leb_gt. apply Hv in Hy. lia. }
    cbn [raise_if]. destruct (np_unique_spec l) as [Hs Hset].
    assert (Hlen : length (np_unique l) = length l) by (apply np_unique_length; auto).
    assert (Hr : knots_in_range n (np_unique l)) by (intros y Hy; apply Hv; apply Hset; auto).
    assert (H1 : (1 <= length l)%nat) by (simpl; lia).
    destruct (finish_good n (length l) (np_unique l) Hs Hr Hlen H1) as [info [I1 [I2 [I3 I4]]]].
    exists info. split; [exact I1|]. split; [exact I4|]. rewrite I3. exact Hset.
Qed.

Lemma get_knot_info_rejects : forall n knots national, ~ knots_valid n knots national ->
  get_knot_info n knots national = Err ValueError.
Proof.
  intros n knots national H. destruct knots as [|k|l| |]; try (exfalso; apply H; exact I).
  - unfold get_knot_info. simpl in H.
    destruct (Z.ltb k 1) eqn:E1; auto. apply Z.ltb_ge in E1.
    destruct (Z.ltb (Z.of_nat n) k) eqn:E2; auto. apply Z.ltb_ge in E2.
    destruct (national && Z.eqb k (Z.of_nat n)) eqn:E3; auto. exfalso. apply H. split; [lia|].
    intros ->. simpl in E3. apply Z.eqb_neq in E3. lia.
  - destruct l as [|x r]; [exfalso; apply H; intros k []|]. unfold get_knot_info. cbv zeta. set (l := x :: r) in *.
    destruct (existsb (fun k => Z.ltb k 0) l) eqn:E1; auto.
    destruct (existsb (fun k => Z.leb (Z.of_nat n) k) l) eqn:E2; auto. exfalso. apply H. simpl.
    intros k Hk. rewrite existsb_false in E1, E2. specialize (E1 k Hk). specialize (E2 k Hk).
    apply Z.ltb_ge in E1. apply Z.leb_gt in E2. lia.
Qed.

Lemma duplicate_knots : forall n l info national, ~ NoDup l -> get_knot_info n (KnList l) national = Ok info ->
  n_knots info = length l /\ (length (knot_locations info) < n_knots info)%nat.
Proof.
  intros n l info national Hd H. destruct l as [|x r]; [exfalso; apply Hd; constructor|].
  unfold get_knot_info in H. cbv zeta in H. set (l := x :: r) in *.
  destruct (existsb _ l) in H; [discriminate|]. destruct (existsb _ l) in H; [discriminate|]. cbn [raise_if] in H.
  pose proof (np_unique_length_le l) as Hle. pose proof (np_unique_length l) as Hiff.
  assert (Hlt : (length (np_unique l) < length l)%nat).
  { destruct (Nat.eq_dec (length (np_unique l)) (length l)) as [E|E]; [|lia]. apply Hiff in E. contradiction. }
  unfold finish_knots in H. destruct (Nat.eqb (length l) 1).
  - inversion H; subst info. simpl. auto.
  - destruct (l1_distance_weights n (np_unique l)); simpl in H; [|discriminate]. inversion H; subst info. simpl. auto.
Qed.
