(** Model of loading from data frames: meridian/data/data_frame_input_data_builder.py
    [DataFrameInputDataBuilder] and meridian/data/load.py [CoordToColumns], [DataFrameDataLoader].

    A frame is a list of column names, without repetition, and a list of rows.  A cell of a row is
    read by column name, as a geo label, as a time label or as a number ([None] is NaN); missing
    geo or time labels are not modelled.  Numbers are exact reals.  The frames are copied by the
    code ([df.copy()]): the caller's frame is never changed.  [CsvDataLoader] reads the file into a
    frame (not modelled) and calls [DataFrameDataLoader].  Currency codes and warnings are left
    out. *)
From Coq Require Import Reals ZArith String List Bool Ascii.
From Verif Require Import M_Base M_Time Lib_Sort M_Builder.
Import ListNotations.
Local Open Scope string_scope.
Local Open Scope R_scope.
Local Open Scope list_scope.

Section Frame.
(** Labels of geos and times; [gord] and [tle] compare them as strings (the order in which pandas
    sorts), [gle] is the natural order of geos. *)
Context {G T : Type}.
Variables (geq : forall a b : G, {a = b} + {a <> b}) (teq : forall a b : T, {a = b} + {a <> b})
  (gord : G -> G -> bool) (tle : T -> T -> bool) (gle : G -> G -> bool)
  (parse : T -> option date) (national : G).
Notation da := (da G T string R).
Notation state := (state G T string R).

Record row := mkRow { r_geo : string -> G; r_time : string -> T; r_num : string -> option R }.
Record frame := mkFrame { f_columns : list string; f_rows : list row }.

(** data_frame_input_data_builder.py:713-728 [_validate_cols]. *)
Definition validate_cols (f : frame) (required optional : list string) : result unit :=
  raise_if (negb (unique string_dec (required ++ optional))) ValueError (
  raise_if (negb (forallb (fun c => mem string_dec c (f_columns f)) required)) ValueError (Ok tt)).

(** data_frame_input_data_builder.py:730-753 [_validate_coords]: the frame with a geo column.
    [groupby] puts the groups in order; the times of a geo are those of its rows, sorted. *)
Definition with_geo (geo : string) (f : frame) : frame :=
  if mem string_dec geo (f_columns f) then f
  else mkFrame (f_columns f ++ [geo])
         (map (fun r => mkRow (fun c => if String.eqb c geo then national else r_geo r c) (r_time r) (r_num r))
            (f_rows f)).
Definition geo_groups (geo : string) (f : frame) : list G :=
  isort gord (nodup geq (map (fun r => r_geo r geo) (f_rows f))).
Definition rows_of (geo : string) (f : frame) (g : G) : list row :=
  filter (fun r => if geq (r_geo r geo) g then true else false) (f_rows f).
Definition times_of (geo time : string) (f : frame) (g : G) : list T :=
  isort tle (map (fun r => r_time r time) (rows_of geo f g)).
Definition validate_coords (geo : string) (time : option string) (f : frame) : result frame :=
  let f' := with_geo geo f in
  match time with
  | None => Ok f'
  | Some time =>
      let times := map (times_of geo time f') (geo_groups geo f') in
      raise_if (existsb (fun l => negb (unique teq l)) times) ValueError (
      raise_if (match times with
                | [] => false
                | t0 :: rest => existsb (fun t => if list_eq_dec teq t t0 then false else true) rest
                end) ValueError (Ok f'))
  end.

(** data_frame_input_data_builder.py:766-775 [_validate_channel_cols]. *)
Definition validate_channel_cols (channels : list string) (cols : list (list string)) : result unit :=
  raise_if (negb (unique string_dec channels)) ValueError (
  raise_if (negb (forallb (fun l => Nat.eqb (length l) (length channels)) cols)) ValueError (Ok tt)).

(** [df.set_index([geo, time])[cols]], columns renamed to channels, [.stack()]: one entry per cell
    that is not NaN.  For a single column [.dropna()]: the channel of its entries is "". *)
Definition entry : Type := G * T * string * R.
Definition e_geo (e : entry) : G := fst (fst (fst e)).
Definition e_time (e : entry) : T := snd (fst (fst e)).
Definition e_chan (e : entry) : string := snd (fst e).
Definition stack (geo time : string) (cols channels : list string) (f : frame) : list entry :=
  flat_map (fun r => flat_map (fun cc =>
    match r_num r (fst cc) with
    | Some v => [(r_geo r geo, r_time r time, snd cc, v)]
    | None => []
    end) (combine cols channels)) (f_rows f).

(** [Series.to_xarray]: the labels that occur, geos and times in order, channels in the order of the
    columns; repeated entries raise; cells without entry are NaN. *)
Definition entry_key_dec (a b : G * T * string) : {a = b} + {a <> b}.
Proof. decide equality; [apply string_dec|]. decide equality. Defined.
Definition cell_value (l : list entry) (g : G) (t : T) (c : string) : option R :=
  match find (fun e => if entry_key_dec (fst e) (g, t, c) then true else false) l with
  | Some e => Some (snd e)
  | None => None
  end.
Definition to_array (l : list entry) (channels : option (list string)) : result da :=
  raise_if (negb (unique entry_key_dec (map fst l))) ValueError (
  let gs := isort gord (nodup geq (map e_geo l)) in
  let ts := isort tle (nodup teq (map e_time l)) in
  let cs := match channels with
            | Some cs => filter (fun c => mem string_dec c (map e_chan l)) cs
            | None => []
            end in
  Ok (mkDa gs ts cs (fun i j k =>
        match nth_error gs i, nth_error ts j,
              match channels with Some _ => nth_error cs k | None => Some "" end with
        | Some g, Some t, Some c => cell_value l g t c
        | _, _, _ => None
        end))).

(** The arrays a [with_*] call assigns, in order; the conversion of each may raise. *)
Definition steps : Type := list (component * result da).
(** [a or b] for column names. *)
Definition or_default (a : option string) (d : string) : string :=
  match a with None => d | Some s => if String.eqb s "" then d else s end.
(** data_frame_input_data_builder.py:33-52: the default column names. *)
Record defaults := mkDefaults {
  df_geo : string; df_time : string; df_media_time : string; df_population : string;
  df_kpi : string; df_rpk : string
}.
Definition default_columns : defaults := mkDefaults "geo" "time" "time" "population" "kpi" "revenue_per_kpi".
Definition empty {A} (l : list A) : bool := match l with [] => true | _ => false end.

(** data_frame_input_data_builder.py:120-161 [with_kpi]. *)
Definition with_kpi (d : defaults) (f : frame) (kpi_col time_col geo_col : option string) : result steps :=
  let kpi := or_default kpi_col (df_kpi d) in
  let time := or_default time_col (df_time d) in
  let geo := or_default geo_col (df_geo d) in
  rbind (validate_cols f [kpi; time] [geo]) (fun _ =>
  rbind (validate_coords geo (Some time) f) (fun f' =>
  Ok [(Kpi, to_array (stack geo time [kpi] [""] f') None)])).

(** data_frame_input_data_builder.py:163-212 [with_controls] and 656-711
    [with_non_media_treatments]: the columns name the channels; without columns nothing is set. *)
Definition with_named (c : component) (d : defaults) (f : frame) (cols : list string)
    (time_col geo_col : option string) : result steps :=
  if empty cols then Ok [] else
  let time := or_default time_col (df_time d) in
  let geo := or_default geo_col (df_geo d) in
  rbind (validate_cols f (cols ++ [time]) [geo]) (fun _ =>
  rbind (validate_coords geo (Some time) f) (fun f' =>
  Ok [(c, to_array (stack geo time cols cols f') (Some cols))])).
Definition with_controls := with_named Controls.
Definition with_non_media_treatments := with_named NonMediaTreatments.

(** data_frame_input_data_builder.py:214-256 [with_population]: the mean over the rows of a geo that
    are not NaN. *)
Definition mean (l : list R) : option R :=
  match l with [] => None | _ => Some (fold_right Rplus 0 l / INR (length l)) end.
Definition some_values (l : list (option R)) : list R :=
  flat_map (fun o => match o with Some v => [v] | None => [] end) l.
Definition with_population (d : defaults) (f : frame) (population_col geo_col : option string) : result steps :=
  let population := or_default population_col (df_population d) in
  let geo := or_default geo_col (df_geo d) in
  rbind (validate_cols f [population] [geo]) (fun _ =>
  rbind (validate_coords geo None f) (fun f' =>
  let gs := geo_groups geo f' in
  Ok [(Population, Ok (mkDa gs [] [] (fun i _ _ =>
         match nth_error gs i with
         | Some g => mean (some_values (map (fun r => r_num r population) (rows_of geo f' g)))
         | None => None
         end)))])).

(** data_frame_input_data_builder.py:258-311 [with_revenue_per_kpi] and 755-764: for a revenue KPI
    the column is overwritten by ones in every row. *)
Definition overwrite (col : string) (v : R) (f : frame) : frame :=
  mkFrame (f_columns f)
    (map (fun r => mkRow (r_geo r) (r_time r) (fun c => if String.eqb c col then Some v else r_num r c)) (f_rows f)).
Definition with_revenue_per_kpi (revenue : bool) (d : defaults) (f : frame)
    (rpk_col time_col geo_col : option string) : result steps :=
  let rpk := or_default rpk_col (df_rpk d) in
  let time := or_default time_col (df_time d) in
  let geo := or_default geo_col (df_geo d) in
  rbind (validate_cols f [rpk; time] [geo]) (fun _ =>
  rbind (validate_coords geo (Some time) (if revenue then overwrite rpk 1 f else f)) (fun f' =>
  Ok [(RevenuePerKpi, to_array (stack geo time [rpk] [""] f') None)])).

(** data_frame_input_data_builder.py:313-391 [with_media]. *)
Definition with_media (d : defaults) (f : frame) (media spend channels : list string)
    (time_col geo_col : option string) : result steps :=
  raise_if (empty media || empty spend || empty channels) ValueError (
  let time := or_default time_col (df_time d) in
  let geo := or_default geo_col (df_geo d) in
  rbind (validate_cols f (media ++ [time]) [geo]) (fun _ =>
  rbind (validate_cols f (spend ++ [time]) [geo]) (fun _ =>
  rbind (validate_coords geo (Some time) f) (fun f' =>
  rbind (validate_channel_cols channels [media; spend]) (fun _ =>
  Ok [(Media, to_array (stack geo time media channels f') (Some channels));
      (MediaSpend, to_array (stack geo time spend channels f') (Some channels))]))))).

(** data_frame_input_data_builder.py:393-496 [with_reach]. *)
Definition with_reach (d : defaults) (f : frame) (reach frequency spend channels : list string)
    (time_col geo_col : option string) : result steps :=
  raise_if (empty reach || empty frequency || empty spend || empty channels) ValueError (
  let time := or_default time_col (df_time d) in
  let geo := or_default geo_col (df_geo d) in
  rbind (validate_cols f (reach ++ frequency ++ spend ++ [time]) [geo]) (fun _ =>
  rbind (validate_coords geo (Some time) f) (fun f' =>
  rbind (validate_channel_cols channels [reach; frequency; spend]) (fun _ =>
  Ok [(Reach, to_array (stack geo time reach channels f') (Some channels));
      (Frequency, to_array (stack geo time frequency channels f') (Some channels));
      (RfSpend, to_array (stack geo time spend channels f') (Some channels))])))).

(** data_frame_input_data_builder.py:498-565 [with_organic_media]. *)
Definition with_organic_media (d : defaults) (f : frame) (cols : list string) (channels : option (list string))
    (media_time_col geo_col : option string) : result steps :=
  raise_if (empty cols) ValueError (
  let time := or_default media_time_col (df_media_time d) in
  let geo := or_default geo_col (df_geo d) in
  let channels := match channels with None | Some [] => cols | Some l => l end in
  rbind (validate_cols f (cols ++ [time]) [geo]) (fun _ =>
  rbind (validate_coords geo (Some time) f) (fun f' =>
  rbind (validate_channel_cols channels [cols]) (fun _ =>
  Ok [(OrganicMedia, to_array (stack geo time cols channels f') (Some channels))])))).

(** data_frame_input_data_builder.py:567-654 [with_organic_reach]. *)
Definition with_organic_reach (d : defaults) (f : frame) (reach frequency channels : list string)
    (media_time_col geo_col : option string) : result steps :=
  raise_if (empty reach || empty frequency || empty channels) ValueError (
  let time := or_default media_time_col (df_media_time d) in
  let geo := or_default geo_col (df_geo d) in
  rbind (validate_cols f (reach ++ frequency ++ [time]) [geo]) (fun _ =>
  rbind (validate_coords geo (Some time) f) (fun f' =>
  rbind (validate_channel_cols channels [reach; frequency]) (fun _ =>
  Ok [(OrganicReach, to_array (stack geo time reach channels f') (Some channels));
      (OrganicFrequency, to_array (stack geo time frequency channels f') (Some channels))])))).

(** One call: its arrays are assigned with the setters of [InputDataBuilder], up to the first
    exception. *)
Fixpoint assign (l : steps) (s : state) : result unit * state :=
  match l with
  | [] => (Ok tt, s)
  | (c, r) :: rest =>
      match r with
      | Err e => (Err e, s)
      | Ok x =>
          match set_component geq teq string_dec tle parse national c x s with
          | (Ok _, s1) => assign rest s1
          | (Err e, s1) => (Err e, s1)
          end
      end
  end.
Definition perform (call : result steps) (s : state) : result unit * state :=
  match call with Ok l => assign l s | Err e => (Err e, s) end.
Fixpoint perform_all (calls : list (result steps)) (s : state) : result unit * state :=
  match calls with
  | [] => (Ok tt, s)
  | c :: rest => match perform c s with (Ok _, s1) => perform_all rest s1 | r => r end
  end.

(** load.py:333-383 [CoordToColumns]. *)
Record coord_to_columns := mkCoord {
  co_time : string; co_geo : string; co_kpi : string;
  co_controls : option (list string); co_rpk : option string; co_population : string;
  co_media : option (list string); co_media_spend : option (list string);
  co_reach : option (list string); co_frequency : option (list string); co_rf_spend : option (list string);
  co_non_media : option (list string);
  co_organic_media : option (list string);
  co_organic_reach : option (list string); co_organic_frequency : option (list string)
}.
(** Truth value of an optional list. *)
Definition given (o : option (list string)) : bool := match o with None | Some [] => false | _ => true end.
(** [str.strip] leaves nothing. *)
Fixpoint blank (s : string) : bool :=
  match s with
  | EmptyString => true
  | String c r => let n := nat_of_ascii c in
                  (Nat.eqb n 32 || (Nat.leb 9 n && Nat.leb n 13) || (Nat.leb 28 n && Nat.leb n 31)) && blank r
  end.
(** load.py:385-396 [CoordToColumns.__post_init__]. *)
Definition coord_init (co : coord_to_columns) : result unit :=
  raise_if (negb ((given (co_media co) && given (co_media_spend co))
                  || (given (co_reach co) && given (co_frequency co) && given (co_rf_spend co)))) ValueError (
  raise_if (match co_rpk co with Some s => blank s | None => false end) ValueError (Ok tt)).

(** load.py:400-594 [DataFrameDataLoader]; a mapping is the list of its items. *)
Definition mapping : Type := list (string * string).
Record loader := mkLoader {
  lo_frame : frame; lo_coord : coord_to_columns; lo_revenue : bool;
  lo_media : option mapping; lo_media_spend : option mapping;
  lo_reach : option mapping; lo_frequency : option mapping; lo_rf_spend : option mapping;
  lo_organic_reach : option mapping; lo_organic_frequency : option mapping
}.
(** [[d[c] for c in cols]]. *)
Fixpoint channels_in (d : mapping) (cols : list string) : result (list string) :=
  match cols with
  | [] => Ok []
  | c :: rest =>
      match find (fun kv => String.eqb (fst kv) c) d with
      | Some kv => rbind (channels_in d rest) (fun l => Ok (snd kv :: l))
      | None => Err KeyError
      end
  end.
Definition channels_of (d : mapping) (cols : option (list string)) : result (list string) :=
  match cols with Some l => channels_in d l | None => Err TypeError end.
(** load.py:600-626: a mapping is required for the columns given, with the same keys. *)
Definition mapping_ok (cols : option (list string)) (d : option mapping) : result unit :=
  match cols with
  | None => Ok tt
  | Some l => match d with
              | None => Err ValueError
              | Some d => raise_if (negb (same_set string_dec (map fst d) l)) ValueError (Ok tt)
              end
  end.
Definition same_values (a b : mapping) : bool := same_set string_dec (map snd a) (map snd b).
Definition list_eqb (a b : list string) : bool := if list_eq_dec string_dec a b then true else false.
(** load.py:596-713 [DataFrameDataLoader.__post_init__]. *)
Definition loader_init (lo : loader) : result unit :=
  let co := lo_coord lo in
  rbind (mapping_ok (co_media co) (lo_media lo)) (fun _ =>
  rbind (mapping_ok (co_media_spend co) (lo_media_spend lo)) (fun _ =>
  rbind (mapping_ok (co_reach co) (lo_reach lo)) (fun _ =>
  rbind (mapping_ok (co_frequency co) (lo_frequency lo)) (fun _ =>
  rbind (mapping_ok (co_rf_spend co) (lo_rf_spend lo)) (fun _ =>
  rbind (mapping_ok (co_organic_reach co) (lo_organic_reach lo)) (fun _ =>
  rbind (mapping_ok (co_organic_frequency co) (lo_organic_frequency lo)) (fun _ =>
  rbind (match lo_media lo, lo_media_spend lo with
         | Some m, Some ms =>
             raise_if (negb (same_values m ms)) ValueError (
             rbind (channels_of m (co_media co)) (fun a =>
             rbind (channels_of ms (co_media_spend co)) (fun b =>
             raise_if (negb (list_eqb a b)) ValueError (Ok tt))))
         | _, _ => Ok tt
         end) (fun _ =>
  rbind (match lo_reach lo, lo_frequency lo, lo_rf_spend lo with
         | Some r, Some f, Some rs =>
             raise_if (negb (same_values r f) && negb (same_values f rs)) ValueError (
             rbind (channels_of r (co_reach co)) (fun a =>
             rbind (channels_of f (co_frequency co)) (fun b =>
             rbind (channels_of rs (co_rf_spend co)) (fun c =>
             raise_if (negb (list_eqb a b && list_eqb b c)) ValueError (Ok tt)))))
         | _, _, _ => Ok tt
         end) (fun _ =>
  match lo_organic_reach lo, lo_organic_frequency lo with
  | Some r, Some f =>
      raise_if (negb (same_values r f)) ValueError (
      rbind (channels_of r (co_organic_reach co)) (fun a =>
      rbind (channels_of f (co_organic_frequency co)) (fun b =>
      raise_if (negb (list_eqb a b)) ValueError (Ok tt))))
  | _, _ => Ok tt
  end))))))))).

(** load.py:715-841 [load], first part: the calls of the builder. *)
Definition listed (o : option (list string)) : result (list string) :=
  match o with Some l => Ok l | None => Err TypeError end.
Definition load_calls (lo : loader) : list (result steps) :=
  let co := lo_coord lo in
  let f := lo_frame lo in
  let d := default_columns in
  let time := Some (co_time co) in
  let geo := Some (co_geo co) in
  [with_kpi d f (Some (co_kpi co)) time geo]
  ++ (if mem string_dec (co_population co) (f_columns f)
      then [with_population d f (Some (co_population co)) geo] else [])
  ++ (if given (co_controls co)
      then [rbind (listed (co_controls co)) (fun l => with_controls d f l time geo)] else [])
  ++ (if given (co_non_media co)
      then [rbind (listed (co_non_media co)) (fun l => with_non_media_treatments d f l time geo)] else [])
  ++ (match co_rpk co with
      | Some c => if String.eqb c "" then [] else [with_revenue_per_kpi (lo_revenue lo) d f (Some c) time geo]
      | None => []
      end)
  ++ (match lo_media lo, lo_media_spend lo with
      | Some m, Some _ =>
          [rbind (listed (co_media co)) (fun a => rbind (listed (co_media_spend co)) (fun b =>
           rbind (channels_of m (co_media co)) (fun ch => with_media d f a b ch time geo)))]
      | _, _ => []
      end)
  ++ (match lo_reach lo, lo_frequency lo, lo_rf_spend lo with
      | Some m, Some _, Some _ =>
          [rbind (listed (co_reach co)) (fun a => rbind (listed (co_frequency co)) (fun b =>
           rbind (listed (co_rf_spend co)) (fun c =>
           rbind (channels_of m (co_reach co)) (fun ch => with_reach d f a b c ch time geo))))]
      | _, _, _ => []
      end)
  ++ (if given (co_organic_media co)
      then [rbind (listed (co_organic_media co)) (fun l => with_organic_media d f l (Some l) time geo)] else [])
  ++ (match lo_organic_reach lo, lo_organic_frequency lo with
      | Some m, Some _ =>
          [rbind (listed (co_organic_reach co)) (fun a => rbind (listed (co_organic_frequency co)) (fun b =>
           rbind (channels_of m (co_organic_reach co)) (fun ch => with_organic_reach d f a b ch time geo)))]
      | _, _ => []
      end).
(** [CoordToColumns(...)], [DataFrameDataLoader(...)] and [load]; [valid] stands for the validations
    of [InputData] other than the one for missing values (see M_Builder). *)
Definition load (valid : list (component * da) -> bool) (lo : loader) : result (list (component * da)) :=
  rbind (coord_init (lo_coord lo)) (fun _ =>
  rbind (loader_init lo) (fun _ =>
  match perform_all (load_calls lo) init with
  | (Ok _, s) => build geq teq gle parse 1 valid s
  | (Err e, _) => Err e
  end)).
End Frame.
Arguments row : clear implicits.
Arguments frame : clear implicits.
Arguments loader : clear implicits.
