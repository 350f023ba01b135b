(** Model of meridian/data/input_data_builder.py: [InputDataBuilder], its setters and [build]. *)
From Coq Require Import ZArith List Bool.
From Verif Require Import M_Base M_Time Lib_Sort.
Import ListNotations.
Local Open Scope list_scope.

(** The data arrays of an [InputData] (constants.POSSIBLE_INPUT_DATA_ARRAY_NAMES). *)
Inductive component := Kpi | Population | Controls | RevenuePerKpi | OrganicMedia | OrganicReach | OrganicFrequency
  | NonMediaTreatments | Media | MediaSpend | Reach | Frequency | RfSpend.
Definition component_eq_dec (a b : component) : {a = b} + {a <> b}.
Proof. decide equality. Defined.
Definition all_components : list component :=
  [Kpi; Population; Controls; RevenuePerKpi; OrganicMedia; OrganicReach; OrganicFrequency;
   NonMediaTreatments; Media; MediaSpend; Reach; Frequency; RfSpend].

(** Time dimension of each array (the second argument of [_normalize_coords] in its setter). *)
Inductive time_dim := WithTime | WithMediaTime | WithoutTime.
Definition dim_of (c : component) : time_dim :=
  match c with
  | Population => WithoutTime
  | Kpi | Controls | RevenuePerKpi | MediaSpend | RfSpend | NonMediaTreatments => WithTime
  | Media | Reach | Frequency | OrganicMedia | OrganicReach | OrganicFrequency => WithMediaTime
  end.
(** The other arrays whose channels are compared in the setter (input_data_builder.py:287-575,
    the calls of [_validate_channels_consistency]). *)
Definition partners (c : component) : list component :=
  match c with
  | Media => [MediaSpend] | MediaSpend => [Media]
  | Reach => [Frequency; RfSpend] | Frequency => [Reach; RfSpend] | RfSpend => [Reach; Frequency]
  | OrganicReach => [OrganicFrequency] | OrganicFrequency => [OrganicReach]
  | _ => []
  end.

Section Builder.
(** Labels of geos, times and channels; values; equality of labels; [tle] compares time labels as
    strings, [gle] geo labels in natural order ([natsort]: labels may be tied, e.g. "g1" and "g01");
    [parse] reads a "yyyy-mm-dd" label; [national] is the geo name of national models, [one] the
    population of such a model; [valid] stands for the validations of [InputData] other than the
    one for missing values. *)
Context {G T C V : Type}.
Variables (geq : forall a b : G, {a = b} + {a <> b}) (teq : forall a b : T, {a = b} + {a <> b})
  (ceq : forall a b : C, {a = b} + {a <> b})
  (tle : T -> T -> bool) (gle : G -> G -> bool) (parse : T -> option date) (national : G) (one : V).

(** A DataArray: labels, and values by position; [None] is NaN.  [d_times] is not used for
    the population, [d_chans] is empty for arrays without channels. *)
Record da := mkDa { d_geos : list G; d_times : list T; d_chans : list C; d_val : nat -> nat -> nat -> option V }.

(** The builder's attributes (input_data_builder.py:42-75). *)
Record state := mkState {
  st_times : option (list T); st_media_times : option (list T); st_geos : option (list G);
  st_array : component -> option da
}.
Definition init : state := mkState None None None (fun _ => None).

Definition mem {A} (dec : forall a b : A, {a = b} + {a <> b}) (x : A) (l : list A) : bool :=
  if in_dec dec x l then true else false.
Definition subset {A} dec (a b : list A) : bool := forallb (fun x => mem dec x b) a.
Definition same_set {A} dec (a b : list A) : bool := subset dec a b && subset dec b a.
(** [len(value) == len(set(value))]. *)
Definition unique {A} (dec : forall a b : A, {a = b} + {a <> b}) (l : list A) : bool :=
  Nat.eqb (length l) (length (nodup dec l)).

(** input_data_builder.py:764-774 [_validate_lagged_media]: whether it passes. *)
Definition lagged_ok (media_times times : list T) : bool :=
  let na := isort tle (filter (fun t => negb (mem teq t times)) media_times) in
  if list_eq_dec teq na (firstn (length na) (isort tle media_times)) then true else false.

(** [tc.TimeCoordinates.from_dates(sorted(value)).interval_days]: whether it passes. *)
Definition dates_of (l : list T) : list date :=
  flat_map (fun t => match parse t with Some d => [d] | None => [] end) l.
Definition coordinates_ok (l : list T) : bool :=
  match time_coordinates (dates_of (isort tle l)) with
  | Ok ds => is_regular ds
  | Err _ => false
  end.

(** input_data_builder.py:147-155 [geos]. *)
Definition set_geos (l : list G) (s : state) : result state :=
  raise_if (negb (unique geq l)) ValueError (
  raise_if (match st_geos s with Some g => negb (same_set geq g l) | None => false end) ValueError (
  Ok (mkState (st_times s) (st_media_times s) (Some l) (st_array s)))).
(** input_data_builder.py:95-113 [time_coords]. *)
Definition set_times (l : list T) (s : state) : result state :=
  raise_if (negb (unique teq l)) ValueError (
  raise_if (match st_times s with Some t => negb (same_set teq t l) | None => false end) ValueError (
  raise_if (match st_media_times s with Some m => negb (subset teq l m) | None => false end) ValueError (
  raise_if (match st_media_times s with Some m => negb (lagged_ok m l) | None => false end) ValueError (
  raise_if (negb (coordinates_ok l)) ValueError (
  Ok (mkState (Some l) (st_media_times s) (st_geos s) (st_array s))))))).
(** input_data_builder.py:119-141 [media_time_coords]. *)
Definition set_media_times (l : list T) (s : state) : result state :=
  raise_if (negb (unique teq l)) ValueError (
  raise_if (match st_media_times s with Some t => negb (same_set teq t l) | None => false end) ValueError (
  raise_if (match st_times s with Some t => negb (subset teq t l) | None => false end) ValueError (
  raise_if (match st_times s with Some t => negb (lagged_ok l t) | None => false end) ValueError (
  raise_if (negb (coordinates_ok l)) ValueError (
  Ok (mkState (st_times s) (Some l) (st_geos s) (st_array s))))))).

(** validator.py:54-66 [check_coords_match]: whether the channels of the first array match those of
    the others that are set. *)
Definition channels_ok (s : state) (c : component) (x : da) : bool :=
  forallb (fun p => match st_array s p with
                    | Some y => if list_eq_dec ceq (d_chans y) (d_chans x) then true else false
                    | None => true
                    end) (partners c).

(** input_data_builder.py:659-704 [_normalize_coords]; conversion of datetime64 coordinates and of
    geo labels to strings are not modelled (the labels are strings already). *)
Definition normalize (c : component) (x : da) : result da :=
  raise_if (match dim_of c with
            | WithoutTime => false
            | _ => existsb (fun t => match parse t with Some _ => false | None => true end) (d_times x)
            end) ValueError
  (Ok (match d_geos x with [_] => mkDa [national] (d_times x) (d_chans x) (d_val x) | _ => x end)).

(** input_data_builder.py:157-611: the setters, all of the same form.  The attribute is assigned
    before the geos and times are validated: the state is returned also when an exception is
    raised. *)
Definition store (c : component) (x : da) (s : state) : state :=
  mkState (st_times s) (st_media_times s) (st_geos s)
    (fun c' => if component_eq_dec c' c then Some x else st_array s c').
Definition set_component (c : component) (x : da) (s : state) : result unit * state :=
  match st_array s c with
  | Some _ => (Err ValueError, s)
  | None =>
    if negb (channels_ok s c x) then (Err ValueError, s) else
    match normalize c x with
    | Err e => (Err e, s)
    | Ok x' =>
      let s1 := store c x' s in
      match set_geos (d_geos x') s1 with
      | Err e => (Err e, s1)
      | Ok s2 =>
        match (match dim_of c with
               | WithTime => set_times (d_times x') s2
               | WithMediaTime => set_media_times (d_times x') s2
               | WithoutTime => Ok s2
               end) with
        | Err e => (Err e, s2)
        | Ok s3 => (Ok tt, s3)
        end
      end
    end
  end.
(** A history of setter calls, exceptions caught by the caller. *)
Fixpoint run (hist : list (component * da)) (s : state) : list (result unit) * state :=
  match hist with
  | [] => ([], s)
  | (c, x) :: rest =>
      let (r, s1) := set_component c x s in
      let (rs, s2) := run rest s1 in (r :: rs, s2)
  end.

(** [DataArray.reindex]: positions are looked up by label, missing ones are filled with NaN;
    repeated labels in the array raise. *)
Fixpoint index_of {A} (dec : forall a b : A, {a = b} + {a <> b}) (x : A) (l : list A) : option nat :=
  match l with
  | [] => None
  | y :: r => if dec x y then Some O else option_map S (index_of dec x r)
  end.
Definition lookup_at {A} dec (target source : list A) (i : nat) : option nat :=
  match nth_error target i with Some l => index_of dec l source | None => None end.
Definition reindex (gs : list G) (ts : option (list T)) (x : da) : result da :=
  raise_if (negb (unique geq (d_geos x))) ValueError (
  match ts with
  | Some ts =>
      raise_if (negb (unique teq (d_times x))) ValueError (
      Ok (mkDa gs ts (d_chans x) (fun i j k =>
            match lookup_at geq gs (d_geos x) i, lookup_at teq ts (d_times x) j with
            | Some i0, Some j0 => d_val x i0 j0 k
            | _, _ => None
            end)))
  | None =>
      Ok (mkDa gs (d_times x) (d_chans x) (fun i j k =>
            match lookup_at geq gs (d_geos x) i with Some i0 => d_val x i0 j k | None => None end))
  end).

(** input_data.py:338-388 [_validate_nas], for one array. *)
Definition n_times_of (c : component) (x : da) : nat :=
  match dim_of c with WithoutTime => 1 | _ => length (d_times x) end.
Definition n_chans_of (c : component) (x : da) : nat :=
  match c with Kpi | Population | RevenuePerKpi => 1 | _ => length (d_chans x) end.
Definition has_nan (cx : component * da) : bool :=
  let (c, x) := cx in
  existsb (fun i => existsb (fun j => existsb (fun k =>
    match d_val x i j k with None => true | Some _ => false end)
    (seq 0 (n_chans_of c x))) (seq 0 (n_times_of c x))) (seq 0 (length (d_geos x))).

(** [natsort.natsorted] of dates written as "yyyy-mm-dd" compares year, month and day. *)
Definition date_label_leb (a b : T) : bool :=
  match parse a, parse b with Some x, Some y => date_leb x y | _, _ => true end.

(** input_data_builder.py:715-762 [_validate_required_components]: the population to use. *)
Definition is_set (s : state) (c : component) : bool := match st_array s c with Some _ => true | None => false end.
Definition required (s : state) : result da :=
  raise_if (negb (is_set s Kpi)) ValueError (
  match st_geos s with
  | None => Err TypeError   (* len(None) *)
  | Some gs =>
    let population := if Nat.eqb (length gs) 1 then Some (mkDa gs [] [] (fun _ _ _ => Some one)) else st_array s Population in
    match population with
    | None => Err ValueError
    | Some p =>
      raise_if (xorb (is_set s Media) (is_set s MediaSpend)) ValueError (
      raise_if ((is_set s Reach || is_set s Frequency || is_set s RfSpend)
                && negb (is_set s Reach && is_set s Frequency && is_set s RfSpend)) ValueError (
      raise_if (xorb (is_set s OrganicReach) (is_set s OrganicFrequency)) ValueError (
      raise_if (negb (is_set s Reach || is_set s Frequency || is_set s RfSpend || is_set s MediaSpend || is_set s Media)) ValueError (
      Ok p))))
    end
  end).

Fixpoint mapM {A B} (f : A -> result B) (l : list A) : result (list B) :=
  match l with
  | [] => Ok []
  | a :: r => rbind (f a) (fun b => rbind (mapM f r) (fun bs => Ok (b :: bs)))
  end.

(** input_data_builder.py:613-657 [build]: the arrays of the resulting [InputData].  (For a revenue
    KPI [InputData] then replaces revenue per KPI by ones.) *)
Definition build (valid : list (component * da) -> bool) (s : state) : result (list (component * da)) :=
  rbind (required s) (fun population =>
  match st_geos s, st_times s, st_media_times s with
  | Some g, Some t, Some m =>
    let gs := isort gle g in let ts := isort date_label_leb t in let ms := isort date_label_leb m in
    let array (c : component) : option da := if component_eq_dec c Population then Some population else st_array s c in
    rbind (mapM (fun c =>
             match array c with
             | None => Ok []
             | Some x => rbind (reindex gs (match dim_of c with WithTime => Some ts | WithMediaTime => Some ms | WithoutTime => None end) x)
                          (fun y => Ok [(c, y)])
             end) all_components) (fun parts =>
    let out := concat parts in
    raise_if (existsb has_nan out) ValueError (
    raise_if (negb (valid out)) ValueError (Ok out)))
  | _, _, _ => Err TypeError   (* natsorted(None) *)
  end).
End Builder.
Arguments da : clear implicits.
Arguments state : clear implicits.
