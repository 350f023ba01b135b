(** Proofs about the stabilised reach/frequency columns of the optimization grid. *)
From Coq Require Import Reals QArith List Bool Arith Lia Lqa.
From Verif Require Import M_Base M_Budget S_Budget.
Import ListNotations.
Local Open Scope Q_scope.

Lemma valid_count_column : forall xs k, valid_count (column xs k) = length xs.
Proof.
  unfold column; induction xs as [|x xs IH]; intros k; cbn.
  - induction k as [|k IHk]; cbn; auto.
  - rewrite IH; reflexivity.
Qed.

Lemma nth_column : forall xs k i d, (i < length xs)%nat ->
  nth i (column xs k) None = Some (nth i xs d).
Proof.
  unfold column; induction xs as [|x xs IH]; intros k i d Hi; cbn in Hi; [lia|].
  destruct i as [|i]; cbn; [reflexivity|]. apply IH. lia.
Qed.

Lemma nth_last : forall (l : list Q) d, nth (length l - 1) l d = last l d.
Proof.
  induction l as [|x [|y l] IH]; intros d; [reflexivity|reflexivity|].
  change (last (x :: y :: l) d) with (last (y :: l) d). rewrite <- IH.
  cbn [length]. replace (S (S (length l)) - 1)%nat with (S (length (y :: l) - 1))%nat by (cbn; lia).
  reflexivity.
Qed.

Lemma ref_column : forall xs ys k, xs <> [] -> length xs = length ys ->
  nth (ref_index (column xs k)) (column xs k) None = Some (last xs 0) /\
  nth (ref_index (column xs k)) (column ys k) None = Some (last ys 0).
Proof.
  intros xs ys k Hne Hl. unfold ref_index. rewrite valid_count_column.
  destruct (length xs) as [|n] eqn:E; [destruct xs; [congruence|discriminate]|].
  rewrite (nth_column xs k n 0) by lia. rewrite (nth_column ys k n 0) by lia.
  rewrite <- (nth_last xs), <- (nth_last ys). rewrite E, <- Hl.
  replace (S n - 1)%nat with n by lia. auto.
Qed.

Lemma nanmax_nones : forall k, nanmax (repeat None k) = None.
Proof. induction k; cbn; auto. Qed.

Lemma nanmax_column : forall xs k, xs <> [] -> exists m,
  nanmax (column xs k) = Some m /\ In m xs /\ forall x, In x xs -> x <= m.
Proof.
  unfold column; induction xs as [|x xs IH]; intros k Hne; [congruence|]. cbn [map app nanmax].
  destruct xs as [|y xs].
  - cbn [map app]. rewrite nanmax_nones. exists x. split; [reflexivity|]. split; [left; reflexivity|].
    intros z [->|[]]. lra.
  - destruct (IH k) as [m [Hm [Hin Hle]]]; [discriminate|]. rewrite Hm.
    destruct (Qle_bool m x) eqn:E.
    + apply Qle_bool_iff in E. exists x. split; [reflexivity|]. split; [left; reflexivity|].
      intros z [<-|Hz]; [lra|]. specialize (Hle z Hz). lra.
    + assert (~ m <= x) by (intros Hc; apply Qle_bool_iff in Hc; congruence).
      exists m. split; [reflexivity|]. split; [right; exact Hin|].
      intros z [<-|Hz]; [lra|]. exact (Hle z Hz).
Qed.

Lemma same_value_refl : forall a, same_value a a.
Proof. intros [x|]; cbn; [reflexivity|exact I]. Qed.

Lemma same_column_scaled : forall r r' xs ys k, length xs = length ys -> r = Some r' ->
  Forall2 (fun x y => r' * x == y) xs ys ->
  same_column (map (nmul r) (column xs k)) (column ys k).
Proof.
  intros r r' xs ys k Hl -> H. unfold same_column, column. rewrite map_app.
  apply Forall2_app.
  - clear Hl. induction H as [|x y xs ys Hxy H IH]; cbn; [constructor|]. constructor; [exact Hxy|exact IH].
  - clear H Hl. induction k as [|k IH]; cbn; [constructor|]. constructor; [exact I|exact IH].
Qed.

Lemma safe_ratio_some : forall x y, exists r, safe_ratio (Some x) (Some y) = Some r /\
  (y == 0 -> r == 0) /\ (~ y == 0 -> r == x / y).
Proof.
  intros x y. unfold safe_ratio. destruct (Qeq_bool y 0) eqn:E.
  - exists 0. split; [reflexivity|]. apply Qeq_bool_iff in E. split; [reflexivity|tauto].
  - exists (x / y). split; [reflexivity|]. apply Qeq_bool_neq in E. split; [tauto|reflexivity].
Qed.

Lemma increasing_last : forall l lo, increasing_from lo l ->
  forall x, In x l -> lo < x /\ x <= last l lo.
Proof.
  induction l as [|y l IH]; intros lo H x Hx; [destruct Hx|].
  destruct H as [H1 H2]. assert (HL : y <= last (y :: l) lo).
  { destruct l as [|z l]; cbn; [lra|]. destruct (IH y H2 z (or_introl eq_refl)) as [A B].
    change (last (z :: l) lo) with (last (z :: l) lo).
    assert (E : last (z :: l) y = last (z :: l) lo).
    { clear. revert z. induction l as [|w l IHl]; intros z; [reflexivity|]. exact (IHl w). }
    cbn [last] in E |- *. rewrite <- E. cbn [last] in B. lra. }
  destruct Hx as [<-|Hx]; [split; [exact H1|exact HL]|].
  destruct (IH y H2 x Hx) as [A B]. split; [lra|].
  destruct l as [|z l]; [destruct Hx|].
  assert (E : last (z :: l) y = last (y :: z :: l) lo).
  { clear. cbn [last]. revert z. induction l as [|w l IHl]; intros z; [reflexivity|]. exact (IHl w). }
  rewrite <- E. exact B.
Qed.

Lemma last_cons_indep : forall (l : list Q) z a b, last (z :: l) a = last (z :: l) b.
Proof. induction l as [|w l IH]; intros z a b; [reflexivity|]. exact (IH w a b). Qed.

Lemma good_last : forall xs, good_spends xs ->
  xs <> [] /\ In (last xs 0) xs /\ (forall x, In x xs -> 0 <= x <= last xs 0).
Proof.
  intros [|x r] H; [destruct H|]. destruct H as [H0 H]. split; [discriminate|].
  assert (Hin : forall (l : list Q) z, In (last (z :: l) 0) (z :: l)).
  { induction l as [|w l IH]; intros z; [left; reflexivity|]. right. exact (IH w). }
  split; [apply Hin|]. intros y [<-|Hy].
  - split; [exact H0|]. destruct r as [|z r]; [cbn; lra|].
    destruct (increasing_last (z :: r) x H z (or_introl eq_refl)) as [A B].
    change (last (x :: z :: r) 0) with (last (z :: r) 0). rewrite (last_cons_indep r z 0 x). lra.
  - destruct (increasing_last r x H y Hy) as [A B]. split; [lra|].
    destruct r as [|z r]; [destruct Hy|]. change (last (x :: z :: r) 0) with (last (z :: r) 0).
    rewrite (last_cons_indep r z 0 x). exact B.
Qed.

(** Value of both stabilised columns. *)
Lemma Forall2_map_same : forall (f : Q -> Q) r xs, (forall x, In x xs -> r * x == f x) ->
  Forall2 (fun x y => r * x == y) xs (map f xs).
Proof.
  induction xs as [|x xs IH]; intros H; cbn; [constructor|].
  constructor; [apply H; left; reflexivity|]. apply IH. intros y Hy. apply H; right; exact Hy.
Qed.

Lemma jax_value_lemma : forall xs ys k, good_spends xs -> length xs = length ys ->
  exists r, jax_stabilize (column xs k) (column ys k) = map (nmul (Some r)) (column xs k) /\
    (last xs 0 == 0 -> r == 0) /\ (~ last xs 0 == 0 -> r == last ys 0 / last xs 0).
Proof.
  intros xs ys k Hg Hl. destruct (good_last xs Hg) as [Hne _].
  unfold jax_stabilize. destruct (ref_column xs ys k Hne Hl) as [A B].
  cbv zeta. rewrite A, B.
  destruct (safe_ratio_some (last ys 0) (last xs 0)) as [r [-> H]]. exists r. split; [reflexivity|exact H].
Qed.

Lemma tf_value_lemma : forall xs ys k, good_spends xs -> length xs = length ys ->
  exists r m, tf_stabilize (column xs k) (column ys k) = map (nmul (Some r)) (column xs k) /\
    In m ys /\ (forall y, In y ys -> y <= m) /\
    (last xs 0 == 0 -> r == 0) /\ (~ last xs 0 == 0 -> r == m / last xs 0).
Proof.
  intros xs ys k Hg Hl. destruct (good_last xs Hg) as [Hne [Hin Hle]].
  unfold tf_stabilize.
  destruct (nanmax_column xs k Hne) as [sx [Sx [Sin Sle]]]. rewrite Sx.
  assert (Hne' : ys <> []) by (destruct xs, ys; cbn in Hl; try congruence; lia).
  destruct (nanmax_column ys k Hne') as [m [Mx [Min Mle]]]. rewrite Mx.
  assert (E : sx == last xs 0).
  { pose proof (Sle _ Hin). destruct (Hle sx Sin). lra. }
  destruct (safe_ratio_some m sx) as [r [-> [H1 H2]]]. exists r, m.
  split; [reflexivity|]. split; [exact Min|]. split; [exact Mle|]. split.
  - intros Z. apply H1. rewrite E. exact Z.
  - intros Z. rewrite H2 by (rewrite E; exact Z). rewrite E. reflexivity.
Qed.

Lemma jax_linear_lemma : forall roi xs k, good_spends xs ->
  same_column (jax_stabilize (column xs k) (column (map (fun x => roi * x) xs) k))
    (column (map (fun x => roi * x) xs) k).
Proof.
  intros roi xs k Hg. destruct (good_last xs Hg) as [Hne [Hin Hle]].
  destruct (jax_value_lemma xs (map (fun x => roi * x) xs) k Hg) as [r [-> [H1 H2]]];
    [rewrite map_length; reflexivity|].
  apply (same_column_scaled _ r); [rewrite map_length; reflexivity|reflexivity|].
  apply Forall2_map_same. intros x Hx. destruct (Hle x Hx) as [A B].
  destruct (Qeq_dec (last xs 0) 0) as [E|E].
  - assert (x == 0) by lra. rewrite H, (H1 E). ring.
  - rewrite (H2 E). assert (EL : last (map (fun x => roi * x) xs) 0 == roi * last xs 0).
    { destruct xs as [|z r0]; [congruence|]. clear. revert z.
      induction r0 as [|w r0 IH]; intros z; [reflexivity|]. exact (IH w). }
    rewrite EL. field. exact E.
Qed.

Lemma tf_linear_lemma : forall roi xs k, good_spends xs -> 0 <= roi ->
  same_column (tf_stabilize (column xs k) (column (map (fun x => roi * x) xs) k))
    (column (map (fun x => roi * x) xs) k).
Proof.
  intros roi xs k Hg Hr. destruct (good_last xs Hg) as [Hne [Hin Hle]].
  destruct (tf_value_lemma xs (map (fun x => roi * x) xs) k Hg) as [r [m [-> [Hm [HM [H1 H2]]]]]];
    [rewrite map_length; reflexivity|].
  apply (same_column_scaled _ r); [rewrite map_length; reflexivity|reflexivity|].
  apply Forall2_map_same. intros x Hx. destruct (Hle x Hx) as [A B].
  destruct (Qeq_dec (last xs 0) 0) as [E|E].
  - assert (x == 0) by lra. rewrite H, (H1 E). ring.
  - rewrite (H2 E). assert (EM : m == roi * last xs 0).
    { apply in_map_iff in Hm as [z [<- Hz]]. destruct (Hle z Hz) as [_ Bz].
      pose proof (HM (roi * last xs 0)) as HX.
      specialize (HX (in_map (fun x => roi * x) _ _ Hin)). cbv beta in HX.
      assert (roi * z <= roi * last xs 0) by nra. lra. }
    rewrite EM. field. exact E.
Qed.

Lemma backends_agree_lemma : forall xs ys k, good_spends xs -> length xs = length ys ->
  same_column (tf_stabilize (column xs k) (column ys k)) (jax_stabilize (column xs k) (column ys k)) <->
  (last xs 0 == 0 \/ forall y, In y ys -> y <= last ys 0).
Proof.
  intros xs ys k Hg Hl. destruct (good_last xs Hg) as [Hne [Hin Hle]].
  destruct (jax_value_lemma xs ys k Hg Hl) as [r [-> [J1 J2]]].
  destruct (tf_value_lemma xs ys k Hg Hl) as [r' [m [-> [Hm [HM [T1 T2]]]]]].
  assert (HE : same_column (map (nmul (Some r')) (column xs k)) (map (nmul (Some r)) (column xs k)) <->
               forall x, In x xs -> r' * x == r * x).
  { unfold same_column, column. rewrite !map_app. split.
    - intros H. assert (HF : Forall2 same_value (map (nmul (Some r')) (map Some xs)) (map (nmul (Some r)) (map Some xs))).
      { clear -H. revert H. generalize (map (nmul (Some r')) (repeat None k)) (map (nmul (Some r)) (repeat None k)).
        induction xs as [|x xs IH]; intros a b H; cbn; [constructor|]. cbn in H. inversion H; subst.
        constructor; [assumption|]. eapply IH; eassumption. }
      clear -HF. induction xs as [|x xs IH]; intros z []; cbn in HF; inversion HF; subst; auto.
    - intros H. apply Forall2_app.
      + clear -H. induction xs as [|x xs IH]; cbn; [constructor|].
        constructor; [apply H; left; reflexivity|]. apply IH. intros y Hy; apply H; right; exact Hy.
      + clear. induction k as [|k IH]; cbn; [constructor|]. constructor; [exact I|exact IH]. }
  rewrite HE. clear HE. split.
  - intros H. destruct (Qeq_dec (last xs 0) 0) as [E|E]; [left; exact E|right].
    pose proof (H _ Hin) as HX. rewrite (J2 E), (T2 E) in HX.
    assert (EQ : m == last ys 0).
    { assert (A : m / last xs 0 * last xs 0 == m) by (field; exact E).
      assert (B : last ys 0 / last xs 0 * last xs 0 == last ys 0) by (field; exact E). lra. }
    intros y Hy. rewrite <- EQ. exact (HM y Hy).
  - intros [E|HL] x Hx.
    + rewrite (J1 E), (T1 E). reflexivity.
    + destruct (Qeq_dec (last xs 0) 0) as [E|E]; [rewrite (J1 E), (T1 E); reflexivity|].
      rewrite (J2 E), (T2 E).
      assert (EQ : m == last ys 0).
      { pose proof (HL m Hm). assert (Hy : In (last ys 0) ys).
        { destruct ys as [|z l]; [destruct xs; [congruence|discriminate]|]. clear. revert z.
          induction l as [|w l IH]; intros z; [left; reflexivity|]. right. exact (IH w). }
        pose proof (HM _ Hy). lra. }
      rewrite EQ. reflexivity.
Qed.
