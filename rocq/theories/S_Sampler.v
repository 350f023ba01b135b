(** Specification vocabulary for posterior sampling. *)
From Coq Require Import Reals ZArith String List Bool Arith.
From Verif Require Import Lib_Sum M_Base.
Import ListNotations.

(** The observed (not held out) cells of a geo-by-time table. *)
Definition observed_cells (G T : nat) (h : nat -> nat -> bool) : list (nat * nat) :=
  filter (fun c => negb (h (fst c) (snd c))) (list_prod (seq 0 G) (seq 0 T)).

(** Log density of a normal variable (textbook form). *)
Definition normal_log_density (x mean sd : R) : R :=
  (- ((x - mean) ^ 2 / (2 * sd ^ 2)) - ln (sd * sqrt (2 * PI)))%R.

(** The noise level of a geo: one shared value, or one value per geo. *)
Definition geo_sigma (sigma : list R) (g : nat) (s : R) : Prop :=
  (length sigma = 1%nat /\ nth_error sigma 0 = Some s) \/ (length sigma <> 1%nat /\ nth_error sigma g = Some s).

(** A table with [n] rows of [m] entries. *)
Definition regular {A} (n m : nat) (t : list (list A)) : Prop :=
  length t = n /\ forall row, In row t -> length row = m.

(** Entry (i, j) of a table. *)
Definition cell {A} (t : list (list A)) (i j : nat) : option A :=
  match nth_error t i with Some row => nth_error row j | None => None end.

(** The latents of one (chain, draw). *)
Definition draw_env {V} (latents : list (string * list (list V))) (c d : nat) : list (string * option V) :=
  map (fun e => (fst e, cell (snd e) c d)) latents.

(** Number of chains in the calls before call [b]. *)
Definition chains_before {A} (sizes : list (A * nat)) (b : nat) : nat :=
  fold_right Nat.add 0%nat (map snd (firstn b sizes)).
