(** Specification vocabulary for automatic knot selection. *)
From Coq Require Import Reals ZArith List.
Import ListNotations.

(** The knots of [ks] that are not at the first or last period. *)
Definition internal (n_times : nat) (ks : list Z) : list Z :=
  filter (fun k => Z.ltb 0 k && Z.ltb k (Z.of_nat n_times - 1))%bool ks.

(** A user-supplied optional collection of knots: absent and empty mean none. *)
Definition elements (arg : option (list Z)) : list Z := match arg with Some l => l | None => [] end.

(** Akaike's criterion of a linear spline with the internal knots [ks]: twice the number of
    parameters plus the residual sum of squares (scaled by the residual variance). *)
Definition akaike (rss : list Z -> R) (ks : list Z) : R := (2 * (INR (length ks) + 2) + rss ks)%R.

(** A regression routine that returns as many parameters as it was given. *)
Definition keeps_length (solver : R -> list R -> list R -> list R) : Prop :=
  forall pen w par, length (solver pen w par) = length par.

(** The periods that may become internal knots: neither first nor last, not excluded, and not the
    last but one when nothing is excluded. *)
Definition allowed_knot (n : nat) (excluded : option (list Z)) (k : Z) : Prop :=
  (0 < k < Z.of_nat n - 1)%Z /\ ~ In k (elements excluded) /\
  (elements excluded = [] -> k <> (Z.of_nat n - 2)%Z).
