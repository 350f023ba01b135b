(** Finite sums of reals over index ranges, and elementary facts about them.
    Library file: no project content. *)
From Coq Require Import Reals Lra Lia Arith List.
Import ListNotations.
Local Open Scope R_scope.

(** [rsum n f] is [f 0 + f 1 + ... + f (n-1)]. *)
Fixpoint rsum (n : nat) (f : nat -> R) : R :=
  match n with
  | O => 0
  | S k => rsum k f + f k
  end.

Lemma rsum_ext : forall n f g,
  (forall i, (i < n)%nat -> f i = g i) -> rsum n f = rsum n g.
Proof.
  induction n as [|n IH]; intros f g H; simpl; [reflexivity|].
  rewrite (IH f g); [|intros; apply H; lia]. rewrite (H n); [reflexivity|lia].
Qed.

Lemma rsum_plus : forall n f g,
  rsum n (fun i => f i + g i) = rsum n f + rsum n g.
Proof. induction n as [|n IH]; intros; simpl; [lra|]. rewrite IH; lra. Qed.

Lemma rsum_minus : forall n f g,
  rsum n (fun i => f i - g i) = rsum n f - rsum n g.
Proof. induction n as [|n IH]; intros; simpl; [lra|]. rewrite IH; lra. Qed.

Lemma rsum_scal : forall n c f,
  rsum n (fun i => c * f i) = c * rsum n f.
Proof. induction n as [|n IH]; intros; simpl; [lra|]. rewrite IH; lra. Qed.

Lemma rsum_scal_r : forall n c f,
  rsum n (fun i => f i * c) = rsum n f * c.
Proof. induction n as [|n IH]; intros; simpl; [lra|]. rewrite IH; lra. Qed.

Lemma rsum_div : forall n c f,
  rsum n (fun i => f i / c) = rsum n f / c.
Proof. intros; unfold Rdiv; apply rsum_scal_r. Qed.

Lemma rsum_zero : forall n f,
  (forall i, (i < n)%nat -> f i = 0) -> rsum n f = 0.
Proof.
  induction n as [|n IH]; intros f H; simpl; [reflexivity|].
  rewrite IH, H by (intros; try apply H; lia). lra.
Qed.

Lemma rsum_const : forall n c, rsum n (fun _ => c) = INR n * c.
Proof.
  induction n as [|n IH]; intros; [simpl; lra|].
  cbn [rsum]. rewrite IH, S_INR. lra.
Qed.

Lemma rsum_nonneg : forall n f,
  (forall i, (i < n)%nat -> 0 <= f i) -> 0 <= rsum n f.
Proof.
  induction n as [|n IH]; intros f H; simpl; [lra|].
  specialize (IH f ltac:(intros; apply H; lia)). specialize (H n ltac:(lia)). lra.
Qed.

Lemma rsum_le : forall n f g,
  (forall i, (i < n)%nat -> f i <= g i) -> rsum n f <= rsum n g.
Proof.
  induction n as [|n IH]; intros f g H; simpl; [lra|].
  specialize (IH f g ltac:(intros; apply H; lia)). specialize (H n ltac:(lia)). lra.
Qed.

Lemma rsum_pos : forall n f k,
  (k < n)%nat -> (forall i, (i < n)%nat -> 0 <= f i) -> 0 < f k -> 0 < rsum n f.
Proof.
  induction n as [|n IH]; intros f k Hk H Hp; simpl; [lia|].
  destruct (Nat.eq_dec k n) as [->|Hne].
  - pose proof (rsum_nonneg n f ltac:(intros; apply H; lia)). lra.
  - specialize (IH f k ltac:(lia) ltac:(intros; apply H; lia) Hp).
    specialize (H n ltac:(lia)). lra.
Qed.

Lemma rsum_lt : forall n f g k,
  (k < n)%nat -> (forall i, (i < n)%nat -> f i <= g i) -> f k < g k ->
  rsum n f < rsum n g.
Proof.
  intros n f g k Hk H Hlt.
  assert (0 < rsum n (fun i => g i - f i)).
  { apply rsum_pos with k; auto.
    - intros i Hi; specialize (H i Hi); lra.
    - lra. }
  rewrite rsum_minus in H0; lra.
Qed.

Lemma rsum_zero_nonneg : forall n f,
  (forall i, (i < n)%nat -> 0 <= f i) -> rsum n f = 0 ->
  forall i, (i < n)%nat -> f i = 0.
Proof.
  intros n f H0 Hs i Hi.
  destruct (Rle_lt_dec (f i) 0) as [Hle|Hlt].
  - specialize (H0 i Hi); lra.
  - pose proof (rsum_pos n f i Hi H0 Hlt); lra.
Qed.

Lemma rsum_app : forall n m f,
  rsum (n + m) f = rsum n f + rsum m (fun i => f (n + i)%nat).
Proof.
  induction m as [|m IH]; intros f.
  - rewrite Nat.add_0_r; simpl; lra.
  - rewrite Nat.add_succ_r; simpl. rewrite IH. lra.
Qed.

Lemma rsum_first : forall n f,
  rsum (S n) f = f O + rsum n (fun i => f (S i)).
Proof.
  intros n f. change (S n) with (1 + n)%nat. rewrite rsum_app. simpl. lra.
Qed.

Lemma rsum_rev : forall n f,
  rsum n (fun i => f (n - 1 - i)%nat) = rsum n f.
Proof.
  induction n as [|n IH]; intros f; [reflexivity|].
  rewrite rsum_first. cbn [rsum].
  replace (S n - 1 - 0)%nat with n by lia.
  rewrite <- (IH f).
  rewrite (rsum_ext n (fun i => f (S n - 1 - S i)%nat) (fun i => f (n - 1 - i)%nat)).
  - lra.
  - intros i Hi; f_equal; lia.
Qed.

Lemma rsum_swap : forall n m (f : nat -> nat -> R),
  rsum n (fun i => rsum m (fun j => f i j)) =
  rsum m (fun j => rsum n (fun i => f i j)).
Proof.
  induction n as [|n IH]; intros m f; simpl.
  - symmetry; apply rsum_zero; auto.
  - rewrite IH, rsum_plus. reflexivity.
Qed.

Lemma rsum_single : forall n k (f : nat -> R),
  (k < n)%nat -> (forall i, (i < n)%nat -> i <> k -> f i = 0) ->
  rsum n f = f k.
Proof.
  induction n as [|n IH]; intros k f Hk H; [lia|].
  simpl. destruct (Nat.eq_dec k n) as [->|Hne].
  - rewrite rsum_zero; [lra|]. intros; apply H; lia.
  - rewrite (IH k f); [|lia|intros; apply H; lia].
    rewrite (H n); [lra|lia|lia].
Qed.

Lemma rsum_bound_convex : forall n w x lo hi,
  (forall i, (i < n)%nat -> 0 <= w i) -> rsum n w = 1 ->
  (forall i, (i < n)%nat -> lo <= x i <= hi) ->
  lo <= rsum n (fun i => w i * x i) <= hi.
Proof.
  intros n w x lo hi Hw Hs Hx. split.
  - rewrite <- (Rmult_1_r lo), <- Hs, <- rsum_scal.
    apply rsum_le; intros i Hi. rewrite Rmult_comm.
    apply Rmult_le_compat_l; [auto|apply Hx; auto].
  - rewrite <- (Rmult_1_r hi) at 1. rewrite <- Hs, <- rsum_scal.
    apply rsum_le; intros i Hi. rewrite (Rmult_comm hi).
    apply Rmult_le_compat_l; [auto|apply Hx; auto].
Qed.

(** Sum of a list of reals. *)
Fixpoint lsum (l : list R) : R :=
  match l with
  | [] => 0
  | x :: r => x + lsum r
  end.

Lemma lsum_app : forall a b, lsum (a ++ b) = lsum a + lsum b.
Proof. induction a as [|x a IH]; intros; simpl; [lra|]. rewrite IH; lra. Qed.

Lemma lsum_map_plus : forall A (f g : A -> R) l,
  lsum (map (fun x => f x + g x) l) = lsum (map f l) + lsum (map g l).
Proof. induction l as [|x l IH]; simpl; [lra|]. rewrite IH; lra. Qed.

Lemma lsum_map_scal : forall A c (f : A -> R) l,
  lsum (map (fun x => c * f x) l) = c * lsum (map f l).
Proof. induction l as [|x l IH]; simpl; [lra|]. rewrite IH; lra. Qed.

Lemma lsum_seq : forall n s f,
  lsum (map f (seq s n)) = rsum n (fun i => f (s + i)%nat).
Proof.
  induction n as [|n IH]; intros s f; [reflexivity|].
  rewrite rsum_first. simpl. rewrite IH, Nat.add_0_r.
  f_equal. apply rsum_ext; intros; f_equal; lia.
Qed.

Lemma lsum_nonneg : forall l, (forall x, In x l -> 0 <= x) -> 0 <= lsum l.
Proof.
  induction l as [|x l IH]; intros H; simpl; [lra|].
  specialize (IH ltac:(intros; apply H; right; auto)).
  specialize (H x (or_introl eq_refl)). lra.
Qed.
