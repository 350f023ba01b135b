(** Specification for C83: the elements of a distribution made of several, in order. *)
From Coq Require Import Reals List Bool Arith.
From Verif Require Import Lib_Sum M_Base M_Independent.
Import ListNotations.
Local Open Scope R_scope.
Local Open Scope nat_scope.
Local Open Scope list_scope.

Section Independent.
Variable seed : Type.

(** The number of elements of a component: one for a scalar. *)
Definition width (c : comp seed) : nat := match c_shape c with [n] => n | _ => 1 end.
Definition widths (l : list (comp seed)) : nat := fold_right (fun c n => width c + n) 0 l.

(** Components that may be put together. *)
Definition admissible (l : list (comp seed)) : Prop :=
  l <> [] /\
  (forall c, In c l -> c_deterministic c = false /\ length (c_shape c) <= 1) /\
  (forall c c', In c l -> In c' l -> c_dtype c = c_dtype c').

(** [r] holds, for each element of each component, in order, [f c i] of element [i] of [c]. *)
Definition in_order (l : list (comp seed)) (f : comp seed -> nat -> nat -> R) (r : list R) : Prop :=
  length r = widths l /\
  forall before c after i, l = before ++ c :: after -> i < width c ->
    nth_error r (widths before + i) = Some (f c i (widths before + i)).

End Independent.
Arguments width {seed}. Arguments widths {seed}. Arguments admissible {seed}. Arguments in_order {seed}.

(** A distribution made of several, used as a component of another. *)
Definition as_component {seed : Type} (d : independent seed) : comp seed :=
  let at_ (m : independent seed -> arg -> result (list R)) (i : nat) (x : R) :=
    match m d (Scalar x) with Ok r => nth i r 0%R | Err _ => 0%R end in
  mkComp false [total d] (d_dtype d) (fun s i => nth i (sample d s) 0%R)
    (at_ quantile) (at_ log_prob) (at_ log_cdf) (at_ forward)
    (fun i => nth i (mean d) 0%R) (fun i => nth i (variance d) 0%R).
