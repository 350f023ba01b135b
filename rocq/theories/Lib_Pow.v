(** Real powers [x ** s] of non-negative bases with the conventions of
    numpy / TensorFlow at base zero.  Library file: no project content. *)
From Coq Require Import Reals Lra Lia.
Local Open Scope R_scope.

(** [rpow x s]: [0 ** 0 = 1], [0 ** s = 0] for [s <> 0] (only used for [s > 0]),
    [x ** s = exp (s * ln x)] for [x > 0]. *)
Definition rpow (x s : R) : R :=
  if Req_EM_T x 0 then (if Req_EM_T s 0 then 1 else 0) else Rpower x s.

Lemma rpow_pos_base : forall x s, 0 < x -> rpow x s = Rpower x s.
Proof. intros; unfold rpow; destruct (Req_EM_T x 0); [lra|reflexivity]. Qed.

Lemma rpow_0_l : forall s, 0 < s -> rpow 0 s = 0.
Proof.
  intros; unfold rpow. destruct (Req_EM_T 0 0); [|lra].
  destruct (Req_EM_T s 0); [lra|reflexivity].
Qed.

Lemma rpow_0_r : forall x, rpow x 0 = 1.
Proof.
  intros; unfold rpow. destruct (Req_EM_T x 0).
  - destruct (Req_EM_T 0 0); [reflexivity|lra].
  - unfold Rpower. rewrite Rmult_0_l. apply exp_0.
Qed.

Lemma rpow_1_l : forall s, rpow 1 s = 1.
Proof.
  intros; rewrite rpow_pos_base by lra. unfold Rpower.
  rewrite ln_1, Rmult_0_r. apply exp_0.
Qed.

Lemma rpow_pos : forall x s, 0 < x -> 0 < rpow x s.
Proof. intros; rewrite rpow_pos_base by auto; apply exp_pos. Qed.

Lemma rpow_nonneg : forall x s, 0 <= x -> 0 <= rpow x s.
Proof.
  intros x s Hx. unfold rpow. destruct (Req_EM_T x 0).
  - destruct (Req_EM_T s 0); lra.
  - left; apply exp_pos.
Qed.

Lemma rpow_INR : forall x n, 0 <= x -> rpow x (INR n) = x ^ n.
Proof.
  intros x n Hx. unfold rpow. destruct (Req_EM_T x 0) as [->|Hne].
  - destruct n as [|n].
    + simpl. destruct (Req_EM_T 0 0); [reflexivity|lra].
    + destruct (Req_EM_T (INR (S n)) 0).
      * pose proof (lt_0_INR (S n) ltac:(lia)); lra.
      * simpl; lra.
  - apply Rpower_pow; lra.
Qed.

Lemma rpow_lt : forall x y s, 0 <= x -> x < y -> 0 < s -> rpow x s < rpow y s.
Proof.
  intros x y s Hx Hxy Hs.
  destruct (Req_dec x 0) as [->|Hne].
  - rewrite rpow_0_l by auto. apply rpow_pos; lra.
  - rewrite !rpow_pos_base by lra. unfold Rpower.
    apply exp_increasing. apply Rmult_lt_compat_l; [auto|].
    apply ln_increasing; lra.
Qed.

Lemma rpow_le : forall x y s, 0 <= x -> x <= y -> 0 <= s -> rpow x s <= rpow y s.
Proof.
  intros x y s Hx Hxy Hs.
  destruct (Req_dec s 0) as [->|Hs0]; [rewrite !rpow_0_r; lra|].
  destruct (Req_dec x y) as [->|Hne]; [lra|].
  left; apply rpow_lt; lra.
Qed.
