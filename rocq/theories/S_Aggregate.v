(** Specification vocabulary: selecting and adding up geos and time periods. *)
From Coq Require Import Reals List.
From Verif Require Import Lib_Sum M_Base.
Import ListNotations.
Local Open Scope R_scope.

(** The entries of a dimension of size [n] that were asked for ([None]: all of them). *)
Definition selection (n : nat) (idxs : option (list nat)) : list nat :=
  match idxs with Some l => l | None => seq 0 n end.

(** The entries that go into one output cell: all selected ones when the dimension is
    aggregated, else the one at the output position. *)
Definition members (l : list nat) (aggregate : bool) (i : nat) : list nat :=
  if aggregate then l else [nth i l 0%nat].

Definition total (l : list nat) (f : nat -> R) : R := lsum (map f l).

(** The position of an output cell along a dimension: none when aggregated. *)
Definition position (aggregate : bool) (i : nat) : list nat :=
  if aggregate then [] else [i].

(** What an output cell must contain. *)
Definition cell (G T : nat) (gi ti : option (list nat)) (ag at_ : bool) (f : nat -> nat -> R)
    (i j : nat) : R :=
  total (members (selection G gi) ag i) (fun g =>
  total (members (selection T ti) at_ j) (fun t => f g t)).

Definition dimension (n : nat) (idxs : option (list nat)) (aggregate : bool) : list nat :=
  if aggregate then [] else [length (selection n idxs)].

Definition in_range (n : nat) (idxs : option (list nat)) : Prop :=
  match idxs with Some l => Forall (fun i => (i < n)%nat) l | None => True end.

(** A position inside a tensor of the given shape. *)
Definition valid_position (pos shape : list nat) : Prop := Forall2 lt pos shape.
