(** Specification of summaries of draws. *)
From Coq Require Import Reals ZArith List Permutation Sorted.
From Verif Require Import Lib_Sum M_Base M_Stats.
Import ListNotations.
Local Open Scope R_scope.

(** [v] is the [q]-quantile of the values: sort them, then interpolate linearly between the
    values at positions 0 .. n-1 at the real position [(n - 1) q]. *)
Definition is_quantile (l : list R) (q v : R) : Prop :=
  exists s i frac, Permutation l s /\ StronglySorted Rle s /\
    (i < length s)%nat /\ 0 <= frac < 1 /\ INR (length l - 1) * q = INR i + frac /\
    v = if Nat.eqb i (length s - 1) then nth i s 0
        else (1 - frac) * nth i s 0 + frac * nth (S i) s 0.

Definition dominated (a b : list R) : Prop := Forall2 Rle a b.
Definition below (a b : stats) : Prop :=
  st_mean a <= st_mean b /\ st_median a <= st_median b /\ st_lo a <= st_lo b /\ st_hi a <= st_hi b.
