(** Specification vocabulary for knots. *)
From Coq Require Import Reals ZArith List.
From Verif Require Import Lib_Sum M_Spec M_Knots.
Import ListNotations.

Definition strictly_increasing (l : list Z) : Prop :=
  forall i j a b, nth_error l i = Some a -> nth_error l j = Some b -> (i < j)%nat -> (a < b)%Z.

(** [y] is the value at time [t] of the curve through the points (knot, value): linear between
    neighbouring knots, constant outside the knots. *)
Definition on_curve (knots : list Z) (v : list R) (t : Z) (y : R) : Prop :=
  (forall i k x, nth_error knots i = Some k -> nth_error v i = Some x -> t = k -> y = x) /\
  (forall k x, nth_error knots 0 = Some k -> nth_error v 0 = Some x -> (t < k)%Z -> y = x) /\
  (forall k x, nth_error knots (length knots - 1) = Some k -> nth_error v (length knots - 1) = Some x ->
     (k < t)%Z -> y = x) /\
  (forall i k k' x x', nth_error knots i = Some k -> nth_error knots (S i) = Some k' ->
     nth_error v i = Some x -> nth_error v (S i) = Some x' -> (k < t < k')%Z ->
     y = (x + (x' - x) * (IZR t - IZR k) / (IZR k' - IZR k))%R).

(** Knots given as a set: same elements, strictly increasing. *)
Definition same_set (a b : list Z) : Prop := forall k, In k a <-> In k b.

(** The documented requirements on the knots option. *)
Definition knots_valid (n_times : nat) (knots : knots_arg) (is_national : bool) : Prop :=
  match knots with
  | KnInt k => (1 <= k <= Z.of_nat n_times)%Z /\ (is_national = true -> (k < Z.of_nat n_times)%Z)
  | KnList l => forall k, In k l -> (0 <= k < Z.of_nat n_times)%Z
  | _ => True
  end.

(** Every knot is one of the [n] time periods. *)
Definition knots_in_range (n : nat) (knots : list Z) : Prop := forall k, In k knots -> (0 <= k < Z.of_nat n)%Z.

(** What a caller relies on in a knot configuration of [n] periods: distinct increasing locations in
    range, as many knots as locations, one weight column per period and one weight per knot, the
    weights of a period non-negative with sum 1 and interpolating the knot values. *)
Definition info_good (n : nat) (info : knot_info) : Prop :=
  strictly_increasing (knot_locations info) /\ knots_in_range n (knot_locations info) /\
  n_knots info = length (knot_locations info) /\
  length (knot_weights info) = n /\
  forall t, (t < n)%nat -> exists col, nth_error (knot_weights info) t = Some col /\
    length col = n_knots info /\ (forall x, In x col -> (0 <= x)%R) /\ lsum col = 1%R /\
    forall v, length v = n_knots info -> on_curve (knot_locations info) v (Z.of_nat t) (mu_t v (knot_weights info) t).
