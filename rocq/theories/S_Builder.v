(** Specification for property C38: when a set of arrays fits together, and what an aligned set of
    arrays is.  [tle] is the order of time labels as strings, [gle] the natural order of geos. *)
From Coq Require Import ZArith List Bool Sorted.
From Verif Require Import M_Base M_Time Lib_Sort M_Builder.
Import ListNotations.
Local Open Scope nat_scope.
Local Open Scope list_scope.

Section Spec.
Context {G T C V : Type}.
Variables (tle : T -> T -> bool) (gle : G -> G -> bool) (parse : T -> option date) (national : G).
Notation call := (component * da G T C V)%type.

(** The geos of an array; the geo of an array with a single one gets the national name. *)
Definition geo_labels (x : da G T C V) : list G := match d_geos x with [_] => [national] | l => l end.
(** The times of an array, if it has a time dimension. *)
Definition timed (c : component) : Prop := dim_of c <> WithoutTime.

(** [t] is the end of [m], when both are put in order. *)
Definition last_part (t m : list T) : Prop := exists pre, isort tle m = pre ++ isort tle t.
(** At least two dates, in chronological order when sorted as strings, regularly spaced. *)
Definition regular (l : list T) : Prop :=
  exists ds, time_coordinates (dates_of parse (isort tle l)) = Ok ds /\ is_regular ds = true.

(** One array by itself. *)
Definition fine (cx : call) : Prop :=
  let (c, x) := cx in
  NoDup (geo_labels x) /\
  (timed c -> (forall t, In t (d_times x) -> parse t <> None) /\ NoDup (d_times x) /\ regular (d_times x)).
(** Two arrays together. *)
Definition compatible (cx cy : call) : Prop :=
  let (c, x) := cx in let (c', y) := cy in
  c <> c' /\
  (In c' (partners c) -> d_chans x = d_chans y) /\
  (forall g, In g (geo_labels x) <-> In g (geo_labels y)) /\
  match dim_of c, dim_of c' with
  | WithTime, WithTime | WithMediaTime, WithMediaTime => forall t, In t (d_times x) <-> In t (d_times y)
  | WithTime, WithMediaTime => last_part (d_times x) (d_times y)
  | WithMediaTime, WithTime => last_part (d_times y) (d_times x)
  | _, _ => True
  end.

(** Every date is written in one way. *)
Definition written_once (hist : list call) : Prop :=
  forall c x c' y a b, In (c, x) hist -> In (c', y) hist -> timed c -> timed c' -> In a (d_times x) -> In b (d_times y) ->
  parse a = parse b -> a = b.
(** No two geos are tied in the natural order. *)
Definition no_ties (hist : list call) : Prop :=
  forall c x c' y a b, In (c, x) hist -> In (c', y) hist -> In a (geo_labels x) -> In b (geo_labels y) ->
  gle a b = true -> gle b a = true -> a = b.

Definition total_order {A} (le : A -> A -> bool) : Prop :=
  (forall a b, le a b = true \/ le b a = true) /\ (forall a b c, le a b = true -> le b c = true -> le a c = true).
Definition strict_order {A} (le : A -> A -> bool) : Prop :=
  total_order le /\ forall a b, le a b = true -> le b a = true -> a = b.
End Spec.
