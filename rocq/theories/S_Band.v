(** Specification vocabulary for band systems. *)
From Coq Require Import Reals ZArith List Bool Arith.
From Verif Require Import Lib_Sum.

(** The symmetric n x n matrix with upper diagonals 0 .. m given by a rotated matrix. *)
Definition unrotate (m : nat) (rot : nat -> nat -> R) (i j : nat) : R :=
  if Nat.leb i j then (if Nat.leb (j - i) m then rot i (j - i)%nat else 0%R)
  else (if Nat.leb (i - j) m then rot j (i - j)%nat else 0%R).

(** A x, for an n x n matrix. *)
Definition mul_mv (n : nat) (a : nat -> nat -> R) (x : nat -> R) (i : nat) : R := rsum n (fun j => a i j * x j)%R.

(** [x] solves the n x n system A x = b. *)
Definition solves (n : nat) (a : nat -> nat -> R) (x b : nat -> R) : Prop :=
  forall i, (i < n)%nat -> mul_mv n a x i = b i.

(** v' A v. *)
Definition quad (n : nat) (a : nat -> nat -> R) (v : nat -> R) : R := rsum n (fun i => v i * mul_mv n a v i)%R.

(** Symmetric matrices are positive definite when v' A v > 0 for every non-zero v. *)
Definition positive_definite (n : nat) (a : nat -> nat -> R) : Prop :=
  forall v, (exists i, (i < n)%nat /\ v i <> 0%R) -> (0 < quad n a v)%R.

(** The order-d difference of a vector, by recursion. *)
Fixpoint difference (d : nat) (v : nat -> R) (k : nat) : R :=
  match d with
  | O => v k
  | S d => (difference d v (S k) - difference d v k)%R
  end.

(** What the weighted ridge regression is meant to minimise: squared residuals of the n x p design X,
    a tiny ridge term, and the penalised squared differences of order d of the p coefficients. *)
Definition ridge_objective (n p d : nat) (tiny penalty : R) (w : nat -> R) (x : nat -> nat -> R) (y v : nat -> R) : R :=
  (rsum n (fun r => (y r - rsum p (fun i => x r i * v i)) * (y r - rsum p (fun i => x r i * v i))) +
   tiny * rsum p (fun i => v i * v i) +
   penalty * rsum (p - d) (fun k => w k * (difference d v k * difference d v k)))%R.
