(** Model of meridian/model/knots.py: knot weights and knot configuration. *)
From Coq Require Import Reals ZArith String List Bool Arith.
From Verif Require Import Lib_Sum M_Base M_Spec.
Import ListNotations.

(** Number of elements <= t: [np.searchsorted(knots, t, side='right')] on a sorted array. *)
Definition searchsorted_right (knots : list Z) (t : Z) : nat :=
  length (filter (fun k => Z.leb k t) knots).

Definition first_z (l : list Z) : Z := match l with [] => 0%Z | k :: _ => k end.
Definition last_z (l : list Z) : Z := last l 0%Z.

(** knots.py:39-67 [_find_left_knot_indices], one time point. *)
Definition left_knot_index (knots : list Z) (t : Z) : nat :=
  let i := (searchsorted_right knots t - 1)%nat in
  let i := if Z.ltb t (first_z knots) then 0%nat else i in
  if Z.leb (last_z knots) t then (length knots - 1)%nat else i.

(** [a[i] = v] on a one-dimensional array. *)
Fixpoint set_nth {A} (i : nat) (v : A) (l : list A) : list A :=
  match l, i with
  | [], _ => []
  | _ :: r, 0%nat => v :: r
  | x :: r, S j => x :: set_nth j v r
  end.

(** Position of the first occurrence: [np.where(a == t)[0][0]]. *)
Fixpoint index_of (t : Z) (l : list Z) : nat :=
  match l with [] => 0%nat | k :: r => if Z.eqb k t then 0%nat else S (index_of t r) end.

(** knots.py:111-134: the column of the weight array for time [t]. *)
Definition weight_column (knots : list Z) (t : Z) : list R :=
  let w := repeat 0%R (length knots) in
  let left := left_knot_index knots t in
  if existsb (Z.eqb t) knots then set_nth (index_of t knots) 1%R w
  else if Z.ltb t (first_z knots) || Z.ltb (last_z knots) t then set_nth left 1%R w
  else
    let left_dist := Z.abs (nth left knots 0%Z - t) in
    let right_dist := Z.abs (nth (left + 1) knots 0%Z - t) in
    let total_dist := (left_dist + right_dist)%Z in
    set_nth (left + 1) (IZR left_dist / IZR total_dist)%R
      (set_nth left (IZR right_dist / IZR total_dist)%R w).

Fixpoint sorted_z (l : list Z) : bool :=
  match l with
  | [] => true
  | k :: r => match r with [] => true | k' :: _ => Z.leb k k' && sorted_z r end
  end.

Fixpoint unique_z (l : list Z) : bool :=
  match l with
  | [] => true
  | k :: r => negb (existsb (Z.eqb k) r) && unique_z r
  end.

(** knots.py:70-136 [l1_distance_weights]: the weight array as the list of its columns, one per
    time period.  The rank check of the array is not modelled (a list is one-dimensional). *)
Definition l1_distance_weights (n_times : nat) (knots : list Z) : result (list (list R)) :=
  raise_if (negb (sorted_z knots)) ValueError (
  raise_if (Nat.leb (length knots) 1) ValueError (
  raise_if (negb (unique_z knots)) ValueError (
  raise_if (existsb (fun k => Z.ltb k 0) knots) ValueError (
  raise_if (existsb (fun k => Z.leb (Z.of_nat n_times) k) knots) ValueError (
  Ok (map (fun t => weight_column knots (Z.of_nat t)) (seq 0 n_times))))))).

(** knots.py:139-141 [_get_equally_spaced_knot_locations]: [np.linspace(0, n_times - 1, n_knots,
    dtype=int)], i.e. the floor of i (n_times - 1) / (n_knots - 1) (exact arithmetic). *)
Definition equally_spaced (n_times n_knots : nat) : list Z :=
  if Nat.eqb n_knots 1 then [0%Z]
  else map (fun i => (Z.of_nat i * (Z.of_nat n_times - 1) / (Z.of_nat n_knots - 1))%Z) (seq 0 n_knots).

(** [np.unique]: sorted distinct values. *)
Fixpoint insert_z (k : Z) (l : list Z) : list Z :=
  match l with
  | [] => [k]
  | x :: r => if Z.ltb k x then k :: l else if Z.eqb k x then l else x :: insert_z k r
  end.
Definition np_unique (l : list Z) : list Z := fold_right insert_z [] l.

(** knots.py:144-158 [KnotInfo]. *)
Record knot_info := mkKnots { n_knots : nat; knot_locations : list Z; knot_weights : list (list R) }.

(** knots.py:232-239. *)
Definition finish_knots (n_times : nat) (n : nat) (locs : list Z) : result knot_info :=
  if Nat.eqb n 1 then Ok (mkKnots n locs (repeat [1%R] n_times))
  else rbind (l1_distance_weights n_times locs) (fun w => Ok (mkKnots n locs w)).

(** knots.py:161-239 [get_knot_info] with [enable_aks=False]; values of other types fall in the
    last branch. *)
Definition get_knot_info (n_times : nat) (knots : knots_arg) (is_national : bool) : result knot_info :=
  match knots with
  | KnInt k =>
      raise_if (Z.ltb k 1) ValueError (
      raise_if (Z.ltb (Z.of_nat n_times) k) ValueError (
      raise_if (is_national && Z.eqb k (Z.of_nat n_times)) ValueError (
      finish_knots n_times (Z.to_nat k) (equally_spaced n_times (Z.to_nat k)))))
  | KnList (x :: r) =>
      let l := x :: r in
      raise_if (existsb (fun k => Z.ltb k 0) l) ValueError (
      raise_if (existsb (fun k => Z.leb (Z.of_nat n_times) k) l) ValueError (
      finish_knots n_times (length l) (np_unique l)))
  | _ =>
      let n := if is_national then 1%nat else n_times in
      finish_knots n_times n (equally_spaced n_times n)
  end.

(** posterior_sampler.py:277-284 (and prior_sampler.py): [mu_t = einsum("k,kt->t", knot_values,
    weights)] at time [t]. *)
Definition mu_t (knot_values : list R) (weights : list (list R)) (t : nat) : R :=
  lsum (map (fun e => (fst e * snd e)%R) (combine knot_values (nth t weights []))).
