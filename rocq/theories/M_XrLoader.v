(** Model of [XrDatasetDataLoader] of meridian/data/load.py: a dataset of named coordinates and
    arrays, renamed, split into [time] and [media_time], and handed to the input data builder
    (modelled in M_Builder).

    Simplifications: every array has the dimensions its documentation lists (geo, time or
    media_time, channel; in a dataset without [media_time] all timed arrays are on [time]), each
    dimension has a coordinate, and labels are strings.  A dataset without the [geo] dimension is
    one with a single geo. *)
From Coq Require Import String List Bool.
From Verif Require Import M_Base M_Time Lib_Sort M_Builder.
Import ListNotations.
Local Open Scope string_scope.
Local Open Scope nat_scope.
Local Open Scope list_scope.

(** Names of the arrays (constants.py:61-75). *)
Definition array_name (c : component) : string :=
  match c with
  | Kpi => "kpi" | Population => "population" | Controls => "controls" | RevenuePerKpi => "revenue_per_kpi"
  | OrganicMedia => "organic_media" | OrganicReach => "organic_reach" | OrganicFrequency => "organic_frequency"
  | NonMediaTreatments => "non_media_treatments" | Media => "media" | MediaSpend => "media_spend"
  | Reach => "reach" | Frequency => "frequency" | RfSpend => "rf_spend"
  end.
(** Name of the channel dimension of an array, if it has one (constants.py:144-154). *)
Definition channel_name (c : component) : option string :=
  match c with
  | Kpi | Population | RevenuePerKpi => None
  | Controls => Some "control_variable"
  | NonMediaTreatments => Some "non_media_channel"
  | Media | MediaSpend => Some "media_channel"
  | Reach | Frequency | RfSpend => Some "rf_channel"
  | OrganicMedia => Some "organic_media_channel"
  | OrganicReach | OrganicFrequency => Some "organic_rf_channel"
  end.
(** constants.py:155-178 [POSSIBLE_INPUT_DATA_COORDS_AND_ARRAYS_SET]. *)
Definition possible_names : list string :=
  ["geo"; "time"; "media_time"; "control_variable"; "organic_media_channel"; "organic_rf_channel";
   "non_media_channel"; "media_channel"; "rf_channel"] ++ map array_name all_components.

Section Loader.
Context {V : Type}.
Variables (tle gle : string -> string -> bool) (parse : string -> option date) (national : string) (one : V).
Notation da := (da string string string V).
Notation values := (nat -> nat -> nat -> option V).

(** An [xarray.Dataset]: coordinates and arrays by name; values by position, [None] is NaN. *)
Record raw := mkRaw { r_coords : list (string * list string); r_arrays : list (string * values) }.

Fixpoint find {A} (n : string) (l : list (string * A)) : option A :=
  match l with [] => None | (m, a) :: r => if string_dec n m then Some a else find n r end.

(** [Dataset.rename]: names not in the mapping are kept; two things of one name are an error. *)
Definition new_name (mapping : list (string * string)) (n : string) : string :=
  match find n mapping with Some m => m | None => n end.
Definition names (r : raw) : list string := map fst (r_coords r) ++ map fst (r_arrays r).
Definition rename (mapping : list (string * string)) (r : raw) : result raw :=
  let r' := mkRaw (map (fun ca => (new_name mapping (fst ca), snd ca)) (r_coords r))
                  (map (fun ca => (new_name mapping (fst ca), snd ca)) (r_arrays r)) in
  raise_if (negb (unique string_dec (names r'))) ValueError (Ok r').
(** load.py:180-204, the name mapping. *)
Definition apply_mapping (mapping : option (list (string * string))) (r : raw) : result raw :=
  match mapping with
  | None => Ok r
  | Some m =>
      raise_if (existsb (fun st => negb (mem string_dec (snd st) possible_names)) m) ValueError (
      raise_if (existsb (fun st => negb (mem string_dec (fst st) (names r))) m) ValueError (
      rename m r))
  end.

(** The dataset as the loader reads it; [None] for [ds_media_times]: there is no such dimension. *)
Record dataset := mkDs {
  ds_geos : list string; ds_times : list string; ds_media_times : option (list string);
  ds_channels : string -> list string; ds_array : component -> option values
}.
(** The channel labels of an array: those of its channel dimension. *)
Definition ds_chans (d : dataset) (c : component) : list string :=
  match channel_name c with None => [] | Some n => ds_channels d n end.
(** Number of positions of the channel dimension. *)
Definition n_chans (d : dataset) (c : component) : nat :=
  match channel_name c with None => 1 | Some _ => List.length (ds_chans d c) end.
(** load.py:206-208 (the [geo] dimension), and the look-ups by name of the lines after it.  An
    array whose channel dimension is not in the dataset is refused, here or by [InputData]. *)
Definition read (r : raw) : result dataset :=
  match find "time" (r_coords r) with
  | None => Err ValueError
  | Some times =>
      raise_if (existsb (fun c => match find (array_name c) (r_arrays r), channel_name c with
                                  | Some _, Some n => match find n (r_coords r) with Some _ => false | None => true end
                                  | _, _ => false
                                  end) all_components) ValueError
      (Ok (mkDs (match find "geo" (r_coords r) with Some l => l | None => ["0"] end) times
             (find "media_time" (r_coords r)) (fun n => match find n (r_coords r) with Some l => l | None => [] end) (fun c => find (array_name c) (r_arrays r))))
  end.

(** [isnull().any(dim=[...])] of one array at the [j]-th time. *)
Definition array_missing (d : dataset) (c : component) (j : nat) : bool :=
  match ds_array d c with
  | None => false
  | Some a =>
      existsb (fun i => existsb (fun k => match a i j k with None => true | Some _ => false end) (seq 0 (n_chans d c)))
        (seq 0 (List.length (ds_geos d)))
  end.
(** The arrays that tell which times have data (load.py:211-244). *)
Definition timed_arrays : list component := [Kpi; Controls; NonMediaTreatments; RevenuePerKpi; MediaSpend; RfSpend].
(** load.py:211-244 [na_mask]. *)
Definition na_mask (d : dataset) (j : nat) : bool := existsb (fun c => array_missing d c j) timed_arrays.
Definition positions (d : dataset) : list nat := seq 0 (List.length (ds_times d)).
Definition time_at (d : dataset) (j : nat) : string := nth j (ds_times d) "".
(** load.py:247 [no_na_period]. *)
Definition no_na_period (d : dataset) : list string :=
  map (time_at d) (filter (fun j => negb (na_mask d j)) (positions d)).

(** [DataArray.dropna(dim='time')]: the times at which the array misses no value. *)
Definition dropna (d : dataset) (c : component) (a : values) : da :=
  let own := filter (fun j => negb (array_missing d c j)) (positions d) in
  mkDa (ds_geos d) (map (time_at d) own) (ds_chans d c) (fun i j k => match nth_error own j with Some j0 => a i j0 k | None => None end).
(** [Dataset.__setitem__]: the array is aligned to the index the dataset has for the dimension. *)
Definition assign (index : list string) (x : da) : result da :=
  if list_eq_dec string_dec (d_times x) index then Ok x else
  raise_if (negb (unique string_dec (d_times x))) ValueError
  (Ok (mkDa (d_geos x) index (d_chans x) (fun i j k =>
         match lookup_at string_dec index (d_times x) j with Some j0 => d_val x i j0 k | None => None end))).

(** load.py:210-297: the arrays of [self.dataset].  Of a dataset with [media_time] they are as they
    were; otherwise the arrays of [timed_arrays] are put on the times without missing values, and
    all times become the media times. *)
Definition as_is (d : dataset) (c : component) (a : values) : da :=
  mkDa (ds_geos d)
    (match dim_of c, ds_media_times d with WithoutTime, _ => [] | WithMediaTime, Some m => m | _, _ => ds_times d end)
    (ds_chans d c) a.
Definition converted (d : dataset) (c : component) (a : values) : result da :=
  match ds_media_times d, dim_of c with
  | None, WithTime => assign (no_na_period d) (dropna d c a)
  | _, _ => Ok (as_is d c a)
  end.
(** The order of the setters in [load] (load.py:299-326). *)
Definition load_order : list component :=
  [Kpi; Population; Controls; RevenuePerKpi; Media; MediaSpend; Reach; Frequency; RfSpend; NonMediaTreatments;
   OrganicMedia; OrganicReach; OrganicFrequency].
Definition loader_init (d : dataset) : result (list (component * da)) :=
  raise_if (match ds_array d Kpi, ds_media_times d with None, None => true | _, _ => false end) KeyError (
  rbind (mapM (fun c => match ds_array d c with
                        | None => Ok []
                        | Some a => rbind (converted d c a) (fun x => Ok [(c, x)])
                        end) load_order) (fun parts => Ok (List.concat parts))).

(** The setter calls of [load]: the first exception ends it. *)
Fixpoint feed (hist : list (component * da)) (s : state string string string V) : result (state string string string V) :=
  match hist with
  | [] => Ok s
  | (c, x) :: rest =>
      match set_component string_dec string_dec string_dec tle parse national c x s with
      | (Ok _, s1) => feed rest s1
      | (Err e, _) => Err e
      end
  end.
(** load.py:299-329 [load], after the constructor (load.py:210-297).  [valid] stands for the
    validations of [InputData] other than the one for missing values (see M_Builder). *)
Definition load_dataset (valid : list (component * da) -> bool) (d : dataset) : result (list (component * da)) :=
  rbind (loader_init d) (fun hist =>
  raise_if (match ds_array d Kpi with None => true | Some _ => false end) AttributeError (
  rbind (feed hist init) (fun s => build string_dec string_dec gle parse one valid s))).
Definition load (valid : list (component * da) -> bool) (mapping : option (list (string * string))) (r : raw) : result (list (component * da)) :=
  rbind (apply_mapping mapping r) (fun r' => rbind (read r') (load_dataset valid)).
End Loader.
Arguments raw : clear implicits.
Arguments dataset : clear implicits.
