(** Specification of thinning. *)
From Coq Require Import Reals ZArith String List Bool Arith Sorted.
From Verif Require Import M_Base M_Thinning.
Import ListNotations.
Local Open Scope R_scope.

(** [l] are [n] of the [N] draws of a chain, evenly spread: draws in their order, none twice,
    and the [k]-th one at the fraction [u] of the [k]-th of [n] equal stretches. *)
Definition evenly_spread (N n : nat) (u : R) (l : list nat) : Prop :=
  length l = n /\ StronglySorted lt l /\ Forall (fun i => (i < N)%nat) l /\
  forall k, (k < n)%nat ->
    INR (nth k l 0%nat) <= (INR k + u) * (INR N / INR n) < INR (nth k l 0%nat) + 1.

(** [q] is [p] with the draws [index c] of chain [c], the same for all variables. *)
Definition keeps (p q : dataset) (n : nat) (index : nat -> list nat) : Prop :=
  ds_chains q = ds_chains p /\ ds_draws q = Some n /\ ds_labels q = seq 0 n /\
  (forall c, length (index c) = n) /\
  forall v c k rest, ds_val q v c k rest = ds_val p v c (nth k (index c) 0%nat) rest.

(** [n] is the number of draws asked for. *)
Definition number_asked (N : nat) (t : thin_args) (n : nat) : Prop :=
  match t_rate t, t_n_draws t with
  | Some r, None => 0 < r <= 1 /\ INR N * r <= INR n < INR N * r + 1
  | None, Some k => (1 <= k <= Z.of_nat N)%Z /\ Z.of_nat n = k
  | _, _ => False
  end.

(** A thinned version of [p]. *)
Definition thinned_from (p q : dataset) : Prop :=
  exists N n index, ds_draws p = Some N /\ (1 <= n < N)%nat /\ keeps p q n index /\
    (forall c, StronglySorted lt (index c) /\ Forall (fun i => (i < N)%nat) (index c)) /\
    a_is_thinned (ds_attrs q) = true.

(** Calls with an admissible generator, and without a new posterior. *)
Definition in_unit (u : nat -> R) : Prop := forall c, 0 <= u c < 1.
Definition no_sampling (c : call) : Prop :=
  match c with CThin _ u => in_unit u | CSample _ => False | _ => True end.
