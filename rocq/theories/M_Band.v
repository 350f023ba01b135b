(** Model of the band linear algebra behind automatic knot selection (meridian/model/knots.py,
    [AKS._mat2rot], [_band_weight], [_ldl], [_bandsolve_kernel], [_bandsolve],
    [_weighted_ridge_solver]).  Arrays are functions of their indices, updated in place by [upd] and
    [vupd]; arithmetic is exact.  A rotated matrix [rot] holds in [rot r d] the entry (r, r + d). *)
From Coq Require Import Reals ZArith String List Bool Arith.
From Verif Require Import Lib_Sum M_Base M_PriorDist.
Import ListNotations.

Definition mat := nat -> nat -> R.
Definition vec := nat -> R.

(** [a[r, c] = v]. *)
Definition upd (a : mat) (r c : nat) (v : R) : mat :=
  fun r' c' => if Nat.eqb r' r && Nat.eqb c' c then v else a r' c'.

(** [x[i] = v]. *)
Definition vupd (x : vec) (i : nat) (v : R) : vec := fun i' => if Nat.eqb i' i then v else x i'.

(** [for k in range(lo, hi): s = f(k, s)]. *)
Definition for_range {S} (lo hi : nat) (f : nat -> S -> S) (s : S) : S :=
  fold_left (fun s k => f k s) (seq lo (hi - lo)) s.

(** knots.py:701-707: the body of the two inner loops of [_ldl] (indices start at 1). *)
Definition ldl_cell (j0 i j : nat) (a : mat) : mat :=
  let a := for_range j0 j (fun k a =>
             upd a (j - 1) (i - j) (a (j - 1)%nat (i - j)%nat - a (k - 1)%nat (i - k)%nat * a (k - 1)%nat (j - k)%nat * a (k - 1)%nat 0%nat)%R) a in
  if Nat.ltb j i then upd a (j - 1) (i - j) (a (j - 1)%nat (i - j)%nat / a (j - 1)%nat 0%nat)%R else a.

(** knots.py:680-709 [_ldl] of an n x (m + 1) rotated matrix. *)
Definition ldl (n m : nat) (rot : mat) : mat :=
  for_range 1 (n + 1) (fun i a =>
    let j0 := Nat.max 1 (i - m) in
    for_range j0 (i + 1) (fun j a => ldl_cell j0 i j a) a) rot.

(** knots.py:732-736: forward substitution. *)
Definition forward (n k : nat) (l : mat) (x : vec) : vec :=
  for_range 2 (n + 1) (fun i x =>
    for_range 1 (Nat.min (i - 1) k + 1) (fun j x =>
      vupd x (i - 1) (x (i - 1)%nat - l (i - j - 1)%nat j * x (i - j - 1)%nat)%R) x) x.

(** knots.py:739-740: division by the diagonal. *)
Definition diagonal (n : nat) (l : mat) (x : vec) : vec :=
  for_range 0 n (fun i x => vupd x i (x i / l i 0%nat)%R) x.

(** knots.py:743-746: backward substitution, [for i in range(n - 1, 0, -1)]. *)
Definition backward (n k : nat) (l : mat) (x : vec) : vec :=
  fold_left (fun x i =>
    for_range 1 (Nat.min (n - i) k + 1) (fun j x =>
      vupd x (i - 1) (x (i - 1)%nat - l (i - 1)%nat j * x (i + j - 1)%nat)%R) x) (rev (seq 1 (n - 1))) x.

(** knots.py:711-748 [_bandsolve_kernel] for one right-hand side. *)
Definition bandsolve_kernel (n m : nat) (rot : mat) (rhs : vec) : vec :=
  let l := ldl n m rot in
  backward n m l (diagonal n l (forward n m l rhs)).

Definition Reqb (x y : R) : bool := if Req_EM_T x y then true else false.

(** knots.py:750-774 [_bandsolve] of an n x cols rotated matrix and a right-hand side of length
    [rhs_len]. *)
Definition bandsolve (n cols : nat) (rot : mat) (rhs_len : nat) (rhs : vec) : result vec :=
  raise_if (Nat.eqb n cols && negb (Reqb (rot (n - 1) (cols - 1)) 0)) ValueError (
  raise_if (negb (Reqb (rot (n - 1) 1) 0)) ValueError (
  raise_if (negb (Nat.eqb rhs_len n)) ValueError (
  Ok (bandsolve_kernel n (cols - 1) rot rhs)))).

(** [math.comb(n, k)]. *)
Fixpoint comb (n k : nat) : nat :=
  match n, k with
  | _, O => 1
  | O, S _ => 0
  | S n, S k => comb n k + comb n (S k)
  end.

(** knots.py:656-658: [binom[i] = comb(diff, i) * (-1)**i]. *)
Definition binom (diff i : nat) : R := (INR (comb diff i) * (-1) ^ i)%R.

(** knots.py:635-678 [_band_weight]: entry (i, j) of the result, zero where it is not assigned. *)
Definition band_weight (ws : nat) (w : vec) (diff : nat) : mat :=
  fun i j =>
    if Nat.ltb j (diff + 1) && Nat.ltb i (ws + diff - j) then
      let lo := (i + j - diff)%nat in
      let stop := if Nat.ltb i (ws - 1) then (i + 1)%nat else ws in
      for_range lo stop (fun k temp => (temp + binom diff (i - k) * binom diff (i + j - k) * w k)%R) 0%R
    else 0%R.

(** [np.where(row != 0)[0]] has last element [last_nonzero]; None for a zero row. *)
Definition last_nonzero (p : nat) (row : vec) : option nat :=
  match rev (filter (fun j => negb (Reqb (row j) 0)) (seq 0 p)) with
  | [] => None
  | j :: _ => Some j
  end.

(** knots.py:628-650 [_mat2rot] of a p x p matrix: the band width [l] (an IndexError if a row is
    zero) and the rotated p x (l + 1) matrix. *)
Fixpoint band_width (p : nat) (a : mat) (rows : list nat) (l : Z) : result Z :=
  match rows with
  | [] => Ok l
  | i :: r =>
      match last_nonzero p (a i) with
      | None => Err IndexError
      | Some j => band_width p a r (Z.max l (Z.of_nat j - Z.of_nat i))
      end
  end.

Definition mat2rot (p : nat) (a : mat) : result (nat * mat) :=
  rbind (band_width p a (seq 0 p) 0) (fun l =>
  let l := Z.to_nat l in
  Ok (l, fun r d => if Nat.ltb r p && Nat.leb d l && Nat.ltb (r + d) p then a r (r + d)%nat else 0%R)).

(** knots.py:532-541: the normal equations of an n x p design matrix: [xx = X'X], [xy = X'y] and the
    rotated form of [xx + 1e-20 I] with one more zero column. *)
Definition gram (n : nat) (x : mat) : mat := fun i j => rsum n (fun r => (x r i * x r j)%R).
Definition moment (n : nat) (x : mat) (y : vec) : vec := fun i => rsum n (fun r => (x r i * y r)%R).
Definition ridge0 : R := (/ 100000000000000000000)%R.
Definition gram_ridge (n : nat) (x : mat) : mat :=
  fun i j => (gram n x i j + (if Nat.eqb i j then ridge0 else 0))%R.

(** knots.py:831-854 [_hessian_solver]; [cols] is the number of columns of [xx_rot]. *)
Definition hessian_step (p cols : nat) (xx_rot : mat) (xy : vec) (penalty : R) (w : vec) (diff : nat) (par : vec) : result vec :=
  raise_if (negb (Nat.eqb cols (diff + 1))) ValueError (
  rbind (bandsolve p cols (fun r d => xx_rot r d + penalty * band_weight (p - diff) w diff r d)%R p xy) (fun sol =>
  Ok (fun i => (sol i - par i)%R))).

(** [np.max(abs(par - old)[old != 0] / abs(old)[old != 0])]; None for an empty selection. *)
Definition rel_error (p : nat) (par old : vec) : option R :=
  match filter (fun i => negb (Reqb (old i) 0)) (seq 0 p) with
  | [] => None
  | i :: r => Some (fold_right (fun j m => Rmax (Rabs (par j - old j) / Rabs (old j)) m)
                      (Rabs (par i - old i) / Rabs (old i)) r)%R
  end.

(** knots.py:856-872: the Newton-Raphson loop; [np.max] of an empty array is a ValueError. *)
Fixpoint newton (fuel : nat) (p cols : nat) (xx_rot : mat) (xy : vec) (penalty : R) (w : vec) (diff : nat)
    (tol : R) (old : vec) (last : option vec) : result (option vec) :=
  match fuel with
  | O => Ok last
  | S fuel =>
      rbind (hessian_step p cols xx_rot xy penalty w diff old) (fun h =>
      let par := fun i => (old i + h i)%R in
      match rel_error p par old with
      | None => Err ValueError
      | Some e => if Rltb e tol then Ok (Some par)
                  else newton fuel p cols xx_rot xy penalty w diff tol par (Some par)
      end)
  end.

(** knots.py:776-872 [_weighted_ridge_solver]. *)
Definition weighted_ridge_solver (p cols : nat) (xx_rot : mat) (xy : vec) (degree : nat) (penalty : R) (w : vec)
    (old : vec) (max_iterations : nat) (tol : R) : result (option vec) :=
  newton max_iterations p cols xx_rot xy penalty w (degree + 1) tol old None.
