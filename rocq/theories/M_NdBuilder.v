(** Model of meridian/data/nd_array_input_data_builder.py: [NDArrayInputDataBuilder], on top of the
    setters of [InputDataBuilder] (M_Builder). *)
From Coq Require Import ZArith List Bool.
From Verif Require Import M_Base M_Time Lib_Sort M_Builder.
Import ListNotations.
Local Open Scope list_scope.

Section NdBuilder.
(** As in M_Builder. [revenue]: whether the KPI type is revenue. *)
Context {G T C V : Type}.
Variables (geq : forall a b : G, {a = b} + {a <> b}) (teq : forall a b : T, {a = b} + {a <> b})
  (ceq : forall a b : C, {a = b} + {a <> b})
  (tle : T -> T -> bool) (gle : G -> G -> bool) (parse : T -> option date) (national : G) (one : V)
  (revenue : bool).
Notation state := (M_Builder.state G T C V).
Notation da := (M_Builder.da G T C V).

(** An [np.ndarray]: shape, and values by position (positions on axes it does not have are not
    read); [None] is NaN. *)
Record nd := mkNd { nd_shape : list nat; nd_val : nat -> nat -> nat -> option V }.

(** What a call returns, and the state it leaves also when it raises. *)
Definition action := state -> result unit * state.
Definition seq2 (a b : action) : action :=
  fun s => match a s with (Ok _, s1) => b s1 | (Err e, s1) => (Err e, s1) end.
Definition of_setter (f : state -> result state) : action :=
  fun s => match f s with Ok s1 => (Ok tt, s1) | Err e => (Err e, s) end.

(** The setters a user calls (input_data_builder.py:95-113, 119-141, 147-155).  [pd.to_datetime]
    raises for a label it cannot read; labels that only pandas reads (not written "yyyy-mm-dd"),
    which every [with_] method refuses, are refused here already. *)
Definition unreadable (l : list T) : bool :=
  existsb (fun t => match parse t with Some _ => false | None => true end) l.
Definition give_geos (l : list G) : action := of_setter (set_geos geq l).
Definition give_times (l : list T) : action :=
  of_setter (fun s => raise_if (unreadable l) ValueError (set_times teq tle parse l s)).
Definition give_media_times (l : list T) : action :=
  of_setter (fun s => raise_if (unreadable l) ValueError (set_media_times teq tle parse l s)).

(** nd_array_input_data_builder.py:451-469 [_validate_coords]. *)
Definition validate_coords (d : time_dim) : action := fun s =>
  let missing := match d with
                 | WithoutTime => false
                 | WithMediaTime => match st_media_times s with None => true | Some _ => false end
                 | WithTime => match st_times s with None => true | Some _ => false end
                 end in
  if missing then (Err ValueError, s)
  else match st_geos s with
       | None => of_setter (set_geos geq [national]) s
       | Some _ => (Ok tt, s)
       end.

(** The coordinates in force ([validate_coords] has passed, so they are set). *)
Definition geos_of (s : state) : list G := match st_geos s with Some l => l | None => [] end.
Definition times_of (d : time_dim) (s : state) : list T :=
  match d with
  | WithTime => match st_times s with Some l => l | None => [] end
  | WithMediaTime => match st_media_times s with Some l => l | None => [] end
  | WithoutTime => []
  end.
(** nd_array_input_data_builder.py:471-498 [_validate_shape]; [dims]: channel or variable names. *)
Definition expected_shape (d : time_dim) (dims : option (list C)) (s : state) : list nat :=
  length (geos_of s) ::
  match d with
  | WithoutTime => []
  | _ => length (times_of d s) :: match dims with Some l => [length l] | None => [] end
  end.
Definition validate_shape (x : nd) (d : time_dim) (dims : option (list C)) : action := fun s =>
  match d, dims with
  | WithoutTime, _ | _, None =>
      if list_eq_dec Nat.eq_dec (expected_shape d dims s) (nd_shape x) then (Ok tt, s) else (Err ValueError, s)
  | _, Some l =>
      if negb (unique ceq l) then (Err ValueError, s)
      else if list_eq_dec Nat.eq_dec (expected_shape d dims s) (nd_shape x) then (Ok tt, s) else (Err ValueError, s)
  end.

(** [xr.DataArray(nd, dims=..., coords=...)] with the coordinates in force, and the setter. *)
Definition to_da (c : component) (x : nd) (dims : option (list C)) (s : state) : da :=
  mkDa (geos_of s) (times_of (dim_of c) s) (match dims with Some l => l | None => [] end) (nd_val x).
Definition assign (c : component) (x : nd) (dims : option (list C)) : action :=
  fun s => set_component geq teq ceq tle parse national c (to_da c x dims s) s.

(** nd_array_input_data_builder.py:500-509 [_check_revenue_per_kpi_defaults]. *)
Definition revenue_defaults (x : nd) : nd :=
  if revenue then mkNd (nd_shape x) (fun _ _ _ => Some one) else x.

(** nd_array_input_data_builder.py:39-449: the [with_] methods.  Names of variables: [None] for
    arrays without such an axis. *)
Definition with_one (c : component) (x y : nd) (dims : option (list C)) : action :=
  seq2 (validate_coords (dim_of c)) (seq2 (validate_shape x (dim_of c) dims) (assign c y dims)).
Inductive call :=
| Geos (l : list G) | Times (l : list T) | MediaTimes (l : list T)
| WithKpi (x : nd) | WithControls (x : nd) (names : list C) | WithPopulation (x : nd)
| WithRevenuePerKpi (x : nd)
| WithMedia (m ms : nd) (names : list C)
| WithReach (r f rfs : nd) (names : list C)
| WithOrganicMedia (x : nd) (names : list C)
| WithOrganicReach (r f : nd) (names : list C)
| WithNonMedia (x : nd) (names : list C).
Definition perform (c : call) : action :=
  match c with
  | Geos l => give_geos l
  | Times l => give_times l
  | MediaTimes l => give_media_times l
  | WithKpi x => with_one Kpi x x None
  | WithControls x n => with_one Controls x x (Some n)
  | WithPopulation x => with_one Population x x None
  | WithRevenuePerKpi x => with_one RevenuePerKpi x (revenue_defaults x) None
  | WithMedia m ms n =>
      seq2 (validate_coords WithMediaTime) (seq2 (validate_coords WithTime)
      (seq2 (validate_shape m WithMediaTime (Some n)) (seq2 (validate_shape ms WithTime (Some n))
      (seq2 (assign Media m (Some n)) (assign MediaSpend ms (Some n))))))
  | WithReach r f rfs n =>
      seq2 (validate_coords WithMediaTime) (seq2 (validate_coords WithTime)
      (seq2 (validate_shape r WithMediaTime (Some n)) (seq2 (validate_shape f WithMediaTime (Some n))
      (seq2 (validate_shape rfs WithTime (Some n))
      (seq2 (assign Reach r (Some n)) (seq2 (assign Frequency f (Some n)) (assign RfSpend rfs (Some n))))))))
  | WithOrganicMedia x n => with_one OrganicMedia x x (Some n)
  | WithOrganicReach r f n =>
      seq2 (validate_coords WithMediaTime)
      (seq2 (validate_shape r WithMediaTime (Some n)) (seq2 (validate_shape f WithMediaTime (Some n))
      (seq2 (assign OrganicReach r (Some n)) (assign OrganicFrequency f (Some n)))))
  | WithNonMedia x n => with_one NonMediaTreatments x x (Some n)
  end.
(** A history of calls, exceptions caught by the caller. *)
Definition after (hist : list call) : state := fold_left (fun s c => snd (perform c s)) hist init.

(** The [name] of the arrays (nd_array_input_data_builder.py: the [name] arguments; line 410 for
    organic frequency; input_data_builder.py:734-738 for the population of national models). *)
Definition array_name (c : component) : component :=
  match c with OrganicFrequency => OrganicReach | _ => c end.
(** input_data.py:656-677 [_validate_names] is one of the validations of [InputData]. *)
Definition names_ok (out : list (component * da)) : bool :=
  forallb (fun p => if component_eq_dec (array_name (fst p)) (fst p) then true else false) out.
(** input_data_builder.py:613-657 [build]; [valid]: the further validations. *)
Definition nd_build (valid : list (component * da) -> bool) (s : state) : result (list (component * da)) :=
  build geq teq gle parse one (fun out => names_ok out && valid out) s.
End NdBuilder.
Arguments nd : clear implicits.
Arguments call : clear implicits.
