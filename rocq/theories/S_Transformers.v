(** Specification vocabulary for the scaling transformers. *)
From Coq Require Import Reals List Sorted Permutation.
From Verif Require Import Lib_Sum M_Base.
Import ListNotations.
Local Open Scope R_scope.

(** [m] is the median of [l] (mean of the two middle values of the sorted list). *)
Definition is_median (l : list R) (m : R) : Prop :=
  l <> [] /\ exists s, Permutation l s /\ StronglySorted Rle s /\
    m = (nth ((length l - 1) / 2) s 0 + nth (length l / 2) s 0) / 2.

(** All cells of a geo-by-time table hold the same value. *)
Definition constant_table (G T : nat) (x : nat -> nat -> R) : Prop :=
  exists k, forall g t, (g < G)%nat -> (t < T)%nat -> x g t = k.

(** The table has mean zero / mean square one. *)
Definition mean_zero (G T : nat) (x : nat -> nat -> R) : Prop :=
  rsum G (fun g => rsum T (fun t => x g t)) = 0.
Definition mean_square_one (G T : nat) (x : nat -> nat -> R) : Prop :=
  rsum G (fun g => rsum T (fun t => x g t ^ 2)) = INR G * INR T.

Definition positive_population (G : nat) (population : nat -> R) : Prop :=
  forall g, (g < G)%nat -> 0 < population g.

(** Every entry of the tensor is non-negative. *)
Definition nonneg_tensor (x : T3) : Prop :=
  forall g t m, (g < geos x)%nat -> (t < times x)%nat -> (m < chans x)%nat -> 0 <= val x g t m.

(** The documented scaling of a control value: per capita in the flagged channels only. *)
Definition per_capita_if_flagged (id : option (nat -> bool)) (population : nat -> R)
    (g m : nat) (x : R) : R :=
  match id with
  | Some flags => if flags m then x / population g else x
  | None => x
  end.
