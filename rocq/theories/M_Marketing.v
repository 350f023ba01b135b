(** Model of meridian/schema/serde/marketing_data.py: [InputData] to and from the [MarketingData] message,
    with meridian/schema/utils/time_record.py.

    Labels of times are distinct, as are those of geos and channels: [.sel] finds one position.  Doubles
    hold the numbers exactly; the deprecated rounded population is left out, since it is not read when
    [population_value] is set.  A date is a day count, as the message stores year, month and day. *)
From Coq Require Import Reals ZArith String List Bool.
From Verif Require Import M_Base M_Time M_Hyper M_InputData.
Import ListNotations.
Local Open Scope string_scope.
Local Open Scope nat_scope.
Local Open Scope list_scope.

(** *** The message (mmm/v1/marketing/marketing_data.proto) *)
Record media_variable := mkMediaVar { mv_name : string; mv_value : option R; mv_spend : option (option R) }.
Record rf_variable := mkRfVar { rv_name : string; rv_reach : Z; rv_frequency : option R; rv_spend : option (option R) }.
Inductive kpi_message := KpiRevenue (value : option R) | KpiNonRevenue (value : option R) (revenue_per_kpi : option (option R)).
Record point := mkPoint {
  dp_geo : option (string * option R);     (* geo_info: geo_id and population_value *)
  dp_start : date; dp_end : Z;             (* date_interval *)
  dp_controls : list (string * option R);
  dp_media : list media_variable; dp_rf : list rf_variable;
  dp_non_media : list (string * option R);
  dp_kpi : option kpi_message }.
Record metadata := mkMetadata {
  md_time : list date; md_media_time : list date; md_channels : list (string * list string);
  md_controls : list string; md_non_media : list string; md_kpi_type : string; md_currency : string }.
Record marketing := mkMarketing { mk_points : list point; mk_metadata : metadata }.

(** *** Dates: time_record.py:32-67 [convert_times_to_date_intervals]
    The dict from a date to its period, in order. *)
Definition date_intervals (times : list date) : result (list (date * (Z * Z))) :=
  raise_if (Nat.ltb (length times) 2) ValueError (
  rbind (time_coordinates times) (fun l =>
  rbind (get_period_bounds l None) (fun b => Ok (combine l b)))).
Fixpoint interval_of (t : date) (l : list (date * (Z * Z))) : option (Z * Z) :=
  match l with [] => None | (u, i) :: r => match interval_of t r with Some j => Some j | None => if date_eqb t u then Some i else None end end.
(** marketing_data.py:260-294 [_get_date_interval_from_date_intervals]: earliest start, latest end; [min]
    of an empty sequence raises ValueError. *)
Definition span (l : list (date * (Z * Z))) : result (date * Z) :=
  match l with
  | [] => Err ValueError
  | (t, i) :: r => Ok (fold_left (fun a e => if date_ltb (fst e) a then fst e else a) r t,
                       fold_left (fun a e => Z.max a (snd (snd e))) r (snd i))
  end.

(** *** Saving *)
Fixpoint position {A} (eqb : A -> A -> bool) (x : A) (l : list A) : option nat :=
  match l with [] => None | y :: r => if eqb x y then Some 0 else option_map S (position eqb x r) end.
(** [.sel(geo=..., time=...)]: KeyError for an unknown label. *)
Definition select {A} (eqb : A -> A -> bool) (x : A) (l : list A) : result nat :=
  match position eqb x l with Some i => Ok i | None => Err KeyError end.

(** 374-409 [_serialize_media_variables]. *)
Definition spend_field (names : list string) (channel : string) (spend : option panel) (geo : string) (time : date) : result (option (option R)) :=
  match spend with
  | Some s => if date_in time (p_times s)
              then rbind (select String.eqb geo (p_geos s)) (fun i =>
                   rbind (select date_eqb time (p_times s)) (fun j =>
                   rbind (select String.eqb channel (p_names s)) (fun k => Ok (Some (p_at s i j k)))))
              else Ok None
  | None => Ok None
  end.
Definition media_variables (geo : string) (time : date) (p : panel) (spend : option panel) : result (list media_variable) :=
  rbind (select String.eqb geo (p_geos p)) (fun i =>
  rbind (select date_eqb time (p_times p)) (fun j =>
  all_ok (fun kc => rbind (spend_field (p_names p) (snd kc) spend geo time) (fun s => Ok (mkMediaVar (snd kc) (p_at p i j (fst kc)) s)))
    (combine (seq 0 (length (p_names p))) (p_names p)))).

(** [int(x)]: truncation towards zero; of NaN a ValueError; a value beyond 64 bits does not fit the field. *)
Definition truncate (x : R) : Z := if Rle_dec 0 x then Int_part x else (- Int_part (- x))%Z.
Definition to_int64 (x : option R) : result Z :=
  match x with
  | None => Err ValueError
  | Some x => let z := truncate x in
              raise_if ((z <? - 9223372036854775808) || (9223372036854775807 <? z))%Z ValueError (Ok z)
  end.
(** 411-454 [_serialize_reach_frequency_variables]. *)
Definition rf_variables (geo : string) (time : date) (r f : panel) (spend : option panel) : result (list rf_variable) :=
  rbind (select String.eqb geo (p_geos r)) (fun i =>
  rbind (select date_eqb time (p_times r)) (fun j =>
  all_ok (fun kc =>
      rbind (to_int64 (p_at r i j (fst kc))) (fun z =>
      rbind (select String.eqb geo (p_geos f)) (fun i' =>
      rbind (select date_eqb time (p_times f)) (fun j' =>
      rbind (select String.eqb (snd kc) (p_names f)) (fun k' =>
      rbind (spend_field (p_names r) (snd kc) spend geo time) (fun s => Ok (mkRfVar (snd kc) z (p_at f i' j' k') s)))))))
    (combine (seq 0 (length (p_names r))) (p_names r)))).

(** 456-482 [_serialize_non_media_treatment_variables] and the controls of 503-509. *)
Definition named_values (geo : string) (time : date) (p : panel) : result (list (string * option R)) :=
  rbind (select String.eqb geo (p_geos p)) (fun i =>
  rbind (select date_eqb time (p_times p)) (fun j =>
  Ok (map (fun kc => (snd kc, p_at p i j (fst kc))) (combine (seq 0 (length (p_names p))) (p_names p))))).
Definition controls_field (geo : string) (time : date) (o : option panel) : result (list (string * option R)) :=
  match o with Some p => if date_in time (p_times p) then named_values geo time p else Ok [] | None => Ok [] end.
Definition non_media_field (geo : string) (time : date) (o : option panel) : result (list (string * option R)) :=
  match o with
  | Some p => if existsb (String.eqb geo) (p_geos p) && date_in time (p_times p) then named_values geo time p else Ok []
  | None => Ok []
  end.

(** 703-723 [_make_kpi_proto]. *)
Definition matrix_value (geo : string) (time : date) (m : matrix) : result (option R) :=
  rbind (select String.eqb geo (m_geos m)) (fun i =>
  rbind (select date_eqb time (m_times m)) (fun j => Ok (m_at m i j))).
Definition kpi_field (d : input) (geo : string) (time : date) : result (option kpi_message) :=
  if date_in time (m_times (i_kpi d)) then
    rbind (matrix_value geo time (i_kpi d)) (fun v =>
    if String.eqb (i_kpi_type d) "revenue" then Ok (Some (KpiRevenue v))
    else match i_rpk d with
         | None => Ok (Some (KpiNonRevenue v None))
         | Some m => rbind (matrix_value geo time m) (fun r => Ok (Some (KpiNonRevenue v (Some r))))
         end)
  else Ok None.

Definition granular (o : option spend) : option panel := match o with Some (SpendPanel p) => Some p | _ => None end.
(** 484-582 [_serialize_data_point]; a date without interval has an unset one, which no distinct label meets. *)
Definition data_point (d : input) (iv : list (date * (Z * Z))) (geo : string) (time : date) : result point :=
  rbind (select String.eqb geo (v_geos (i_population d))) (fun i =>
  rbind (match interval_of time iv with Some p => Ok p | None => Err KeyError end) (fun p =>
  rbind (controls_field geo time (i_controls d)) (fun controls =>
  rbind (match i_media d with Some m => media_variables geo time m (granular (i_media_spend d)) | None => Ok [] end) (fun media =>
  rbind (match i_reach d, i_frequency d with Some r, Some f => rf_variables geo time r f (granular (i_rf_spend d)) | _, _ => Ok [] end) (fun rf =>
  rbind (match i_organic_media d with Some m => media_variables geo time m None | None => Ok [] end) (fun organic =>
  rbind (match i_organic_reach d, i_organic_frequency d with Some r, Some f => rf_variables geo time r f None | _, _ => Ok [] end) (fun organic_rf =>
  rbind (non_media_field geo time (i_non_media d)) (fun non_media =>
  rbind (kpi_field d geo time) (fun kpi =>
  Ok (mkPoint (Some (geo, v_at (i_population d) i)) time (snd p) controls (media ++ organic) (rf ++ organic_rf) non_media kpi)))))))))).

(** 584-626: the data points of aggregated spend. *)
Definition aggregated_media_point (s : date * Z) (names : list string) (a : nat -> option R) : point :=
  mkPoint None (fst s) (snd s) [] (map (fun kc => mkMediaVar (snd kc) (Some 0%R) (Some (a (fst kc)))) (combine (seq 0 (length names)) names)) [] [] None.
Definition aggregated_rf_point (s : date * Z) (names : list string) (a : nat -> option R) : point :=
  mkPoint None (fst s) (snd s) [] [] (map (fun kc => mkRfVar (snd kc) 0 (Some 0%R) (Some (a (fst kc)))) (combine (seq 0 (length names)) names)) [] None.

(** 628-701 [_serialize_metadata]; the names of the arrays have been validated. *)
Definition channel_dimension (name : string) (o : option panel) : list (string * list string) :=
  match o with None => [] | Some p => [(name, p_names p)] end.
Definition make_metadata (d : input) (mt : list date) : metadata :=
  mkMetadata (m_times (i_kpi d)) mt
    (channel_dimension "media" (i_media d) ++ channel_dimension "reach" (i_reach d) ++ channel_dimension "frequency" (i_frequency d) ++
     channel_dimension "organic_media" (i_organic_media d) ++ channel_dimension "organic_reach" (i_organic_reach d) ++
     channel_dimension "organic_frequency" (i_organic_frequency d))
    (of_option p_names (i_controls d)) (of_option p_names (i_non_media d)) (i_kpi_type d)
    (match i_currency d with Some c => c | None => "" end).

(** 306-372 [_InputDataSerializer.__call__]; spend by geo or by time only is refused by [InputData]. *)
Definition save (d : input) : result marketing :=
  rbind (media_time d) (fun mt =>
  rbind (date_intervals mt) (fun iv =>
  rbind (all_ok (fun gt => data_point d iv (fst gt) (snd gt)) (list_prod (m_geos (i_kpi d)) mt)) (fun points =>
  rbind (match i_media_spend d with
         | Some (SpendTotal n a) => rbind (span iv) (fun s => Ok [aggregated_media_point s n a])
         | _ => Ok [] end) (fun media_total =>
  rbind (match i_rf_spend d with
         | Some (SpendTotal n a) => rbind (span iv) (fun s => Ok [aggregated_rf_point s n a])
         | _ => Ok [] end) (fun rf_total =>
  Ok (mkMarketing (points ++ media_total ++ rf_total) (make_metadata d mt))))))).

(** *** Loading *)

(** 105-122 [channel_dimensions], [channel_types] with 37-45 [_COORD_NAME_MAP]; a later entry replaces an
    earlier one. *)
Definition coord_name (array : string) : option string :=
  if String.eqb array "media" then Some "media_channel"
  else if String.eqb array "reach" || String.eqb array "frequency" then Some "rf_channel"
  else if String.eqb array "organic_media" then Some "organic_media_channel"
  else if String.eqb array "organic_reach" || String.eqb array "organic_frequency" then Some "organic_rf_channel"
  else if String.eqb array "non_media_treatments" then Some "non_media_channel"
  else None.
Fixpoint channel_type (l : list (string * list string)) (c : string) : option string :=
  match l with
  | [] => None
  | (name, channels) :: r =>
      match channel_type r c with
      | Some t => Some t
      | None => if existsb (String.eqb c) channels then coord_name name else None
      end
  end.
Definition is_type (md : metadata) (t c : string) : bool :=
  match channel_type (md_channels md) c with Some u => String.eqb u t | None => false end.

(** A list without repetitions, in order of first occurrence. *)
Definition add_new {A} (eqb : A -> A -> bool) (l : list A) (x : A) : list A := if existsb (eqb x) l then l else l ++ [x].
Definition first_seen {A} (eqb : A -> A -> bool) (l : list A) : list A := fold_left (add_new eqb) l [].

(** 186-258 [_extract_3d_data_array]: the rows are those that the extractor yields for all data points. *)
Definition row := (string * date * string * option R)%type.
Definition r_geo (r : row) : string := fst (fst (fst r)).
Definition r_time (r : row) : date := snd (fst (fst r)).
Definition r_name (r : row) : string := snd (fst r).
Definition r_value (r : row) : option R := snd r.
Definition find_row (rows : list row) (g : string) (t : date) (n : string) : option R :=
  match find (fun r => String.eqb (r_geo r) g && date_eqb (r_time r) t && String.eqb (r_name r) n) (rev rows) with
  | Some r => r_value r
  | None => None
  end.
Definition extract_3d (rows : list row) : option panel :=
  match rows with
  | [] => None
  | _ =>
      let geos := first_seen String.eqb (map r_geo rows) in
      let times := first_seen date_eqb (map r_time rows) in
      let names := first_seen String.eqb (map r_name rows) in
      Some (mkPanel geos times names (fun i j k =>
        match nth_error geos i, nth_error times j, nth_error names k with
        | Some g, Some t, Some n => find_row rows g t n
        | _, _, _ => None
        end))
  end.
(** 125-184 [_extract_data_array]: rows with an empty third label. *)
Definition extract_2d (rows : list row) : option matrix :=
  match extract_3d rows with
  | None => None
  | Some p => Some (mkMatrix (p_geos p) (p_times p) (fun i j => p_at p i j 0))
  end.

Definition geo_id (p : point) : string := match dp_geo p with Some (g, _) => g | None => "" end.
(** [if not geo_id: return None]. *)
Definition with_geo {A} (f : point -> list A) (p : point) : list A := if String.eqb (geo_id p) "" then [] else f p.

(** 777-806 [_extract_population]: a dict by geo. *)
Definition extract_population (pts : list point) : vector :=
  let rows := flat_map (fun p => match dp_geo p with Some (g, v) => if String.eqb g "" then [] else [(g, v)] | None => [] end) pts in
  let geos := first_seen String.eqb (map fst rows) in
  mkVector geos (fun i => match nth_error geos i with
                          | Some g => match find (fun r => String.eqb (fst r) g) (rev rows) with Some r => snd r | None => None end
                          | None => None end).

(** 808-825 [_extract_kpi_type]. *)
Definition type_of_kpi (k : kpi_message) : string := match k with KpiRevenue _ => "revenue" | KpiNonRevenue _ _ => "non_revenue" end.
Definition kpi_messages (pts : list point) : list kpi_message := flat_map (fun p => match dp_kpi p with Some k => [k] | None => [] end) pts.
Definition extract_kpi_type (pts : list point) : result string :=
  match map type_of_kpi (kpi_messages pts) with
  | [] => Err ValueError
  | t :: r => raise_if (existsb (fun u => negb (String.eqb u t)) r) ValueError (Ok t)
  end.

(** 836-869 [_extract_kpi] (the types have just been found to be consistent). *)
Definition kpi_rows (p : point) : list row :=
  match dp_kpi p with
  | None => []
  | Some (KpiRevenue v) => [(geo_id p, dp_start p, "", v)]
  | Some (KpiNonRevenue v _) => [(geo_id p, dp_start p, "", v)]
  end.
(** 871-902 [_extract_revenue_per_kpi]. *)
Definition rpk_rows (p : point) : list row :=
  match dp_kpi p with Some (KpiNonRevenue _ (Some v)) => [(geo_id p, dp_start p, "", v)] | _ => [] end.
(** 904-925 [_extract_controls], 1255-1280 [_extract_non_media_treatments]. *)
Definition control_rows (p : point) : list row := map (fun nv => (geo_id p, dp_start p, fst nv, snd nv)) (dp_controls p).
Definition non_media_rows (p : point) : list row := map (fun nv => (geo_id p, dp_start p, fst nv, snd nv)) (dp_non_media p).
(** 927-953 [_extract_media], 1011-1039 [_extract_organic_media]. *)
Definition media_rows (md : metadata) (t : string) (p : point) : list row :=
  with_geo (fun p => map (fun v => (geo_id p, dp_start p, mv_name v, mv_value v)) (filter (fun v => is_type md t (mv_name v)) (dp_media p))) p.
(** 955-1009 [_extract_reach], [_extract_frequency], 1041-1099 the organic ones. *)
Definition reach_rows (md : metadata) (t : string) (p : point) : list row :=
  with_geo (fun p => map (fun v => (geo_id p, dp_start p, rv_name v, Some (IZR (rv_reach v)))) (filter (fun v => is_type md t (rv_name v)) (dp_rf p))) p.
Definition frequency_rows (md : metadata) (t : string) (p : point) : list row :=
  with_geo (fun p => map (fun v => (geo_id p, dp_start p, rv_name v, rv_frequency v)) (filter (fun v => is_type md t (rv_name v)) (dp_rf p))) p.

(** The spend entries of a data point with the type of their channel: 1101-1161 and 1193-1203. *)
Definition media_spends (md : metadata) (p : point) : list (string * option R) :=
  flat_map (fun v => match mv_spend v with Some s => if is_type md "media_channel" (mv_name v) then [(mv_name v, s)] else [] | None => [] end) (dp_media p).
Definition rf_spends (md : metadata) (p : point) : list (string * option R) :=
  flat_map (fun v => match rv_spend v with Some s => if is_type md "rf_channel" (rv_name v) then [(rv_name v, s)] else [] | None => [] end) (dp_rf p).
(** 1163-1183 [_is_aggregated_spend_data_point]. *)
Definition is_aggregated (md : metadata) (p : point) : result bool :=
  match dp_geo p with
  | Some _ => Ok false
  | None => rbind (date_intervals (md_media_time md)) (fun iv => rbind (span iv) (fun s =>
            Ok (date_eqb (fst s) (dp_start p) && Z.eqb (snd s) (dp_end p))))
  end.
(** 1101-1161 [_extract_aggregated_media_spend]: the channels of the array's dimension; a dict. *)
Definition last_value (rows : list (string * option R)) (c : string) : option R :=
  match find (fun r => String.eqb (fst r) c) (rev rows) with Some r => snd r | None => None end.
Definition extract_total (rows : list (string * option R)) : option spend :=
  match rows with
  | [] => None
  | _ => let names := first_seen String.eqb (map fst rows) in
         Some (SpendTotal names (fun k => match nth_error names k with Some c => last_value rows c | None => None end))
  end.
Fixpoint filter_ok {A} (f : A -> result bool) (l : list A) : result (list A) :=
  match l with [] => Ok [] | x :: r => rbind (f x) (fun b => rbind (filter_ok f r) (fun ys => Ok (if b then x :: ys else ys))) end.
Definition dimension_channels (md : metadata) (name : string) : list string :=
  match find (fun e => String.eqb (fst e) name) (rev (md_channels md)) with Some e => snd e | None => [] end.
Definition in_dimension (md : metadata) (name : string) (rows : list (string * option R)) : list (string * option R) :=
  filter (fun r => existsb (String.eqb (fst r)) (dimension_channels md name)) rows.
(** Spend entries whatever the type of their channel. *)
Definition all_media_spends (p : point) : list (string * option R) :=
  flat_map (fun v => match mv_spend v with Some s => [(mv_name v, s)] | None => [] end) (dp_media p).
Definition all_rf_spends (p : point) : list (string * option R) :=
  flat_map (fun v => match rv_spend v with Some s => [(rv_name v, s)] | None => [] end) (dp_rf p).
(** 1185-1253 [_extract_media_spend], [_extract_rf_spend]. *)
Definition extract_spend (md : metadata) (dimension : string) (typed all : point -> list (string * option R)) (pts : list point) : result (option spend) :=
  let spend_points := filter (fun p => match typed p with [] => false | _ => true end) pts in
  match spend_points with
  | [] => Ok None
  | _ =>
      rbind (filter_ok (is_aggregated md) spend_points) (fun agg =>
      match agg with
      | [] => Ok (option_map SpendPanel (extract_3d (flat_map (fun p => map (fun cv => (geo_id p, dp_start p, fst cv, snd cv)) (typed p)) spend_points)))
      | _ => Ok (extract_total (flat_map (fun p => in_dimension md dimension (all p)) agg))
      end)
  end.

(** 94-97, 63-65: the time dimensions are read first. *)
Definition check_metadata (md : metadata) : result unit :=
  raise_if (match md_time md, md_media_time md with [], _ | _, [] => true | _, _ => false end) ValueError (Ok tt).

(** 1282-1312 [_InputDataDeserializer.__call__]. *)
Definition load (m : marketing) : result input :=
  let pts := mk_points m in
  let md := mk_metadata m in
  rbind (extract_kpi_type pts) (fun kpi_type =>
  match extract_2d (flat_map kpi_rows pts) with
  | None => Err ValueError
  | Some kpi =>
      rbind (check_metadata md) (fun _ =>
      rbind (extract_spend md "media" (media_spends md) all_media_spends pts) (fun media_spend =>
      rbind (extract_spend md "reach" (rf_spends md) all_rf_spends pts) (fun rf_spend =>
      new_input (mkInput kpi kpi_type (extract_population pts) (extract_3d (flat_map control_rows pts))
        (if String.eqb kpi_type "non_revenue" then extract_2d (flat_map rpk_rows pts) else None)
        (extract_3d (flat_map (media_rows md "media_channel") pts)) media_spend
        (extract_3d (flat_map (reach_rows md "rf_channel") pts)) (extract_3d (flat_map (frequency_rows md "rf_channel") pts)) rf_spend
        (extract_3d (flat_map (media_rows md "organic_media_channel") pts))
        (extract_3d (flat_map (reach_rows md "organic_rf_channel") pts)) (extract_3d (flat_map (frequency_rows md "organic_rf_channel") pts))
        (extract_3d (flat_map non_media_rows pts))
        (if String.eqb (md_currency md) "" then None else Some (md_currency md))))))
  end).
