(** Shared modelling vocabulary: Python exceptions as values, rank-3 tensors. *)
From Coq Require Import Reals ZArith List String.
Import ListNotations.

(** Python exception classes raised by the modelled code. *)
Inductive exn := ValueError | TypeError | KeyError | IndexError | ZeroDivisionError | RuntimeError | AttributeError.

(** Result of a Python call: a value, or a raised exception. *)
Inductive result (A : Type) := Ok (a : A) | Err (e : exn).
Arguments Ok {A} a.
Arguments Err {A} e.

Definition rbind {A B} (x : result A) (f : A -> result B) : result B :=
  match x with Ok a => f a | Err e => Err e end.

(** [if cond: raise e] followed by the rest of the function. *)
Definition raise_if {A} (cond : bool) (e : exn) (k : result A) : result A :=
  if cond then Err e else k.

(** A tensor of shape (n_geos, n_times, n_channels), e.g. [InputData.media] converted by
    [backend.to_tensor]; [val g t c] is only meaningful for indices in range. *)
Record T3 := mkT3 {
  geos : nat;
  times : nat;
  chans : nat;
  val : nat -> nat -> nat -> R
}.

(** Two tensors of the same shape with the same entries. *)
Definition T3_eq (x y : T3) : Prop :=
  geos x = geos y /\ times x = times y /\ chans x = chans y /\
  forall g t c, (g < geos x)%nat -> (t < times x)%nat -> (c < chans x)%nat ->
    val x g t c = val y g t c.
