(** Model of the validation in meridian/data/input_data.py ([InputData.__post_init__]) and
    meridian/data/validator.py.

    An array is its coordinates and its entries by position; [None] is NaN.  Geos are strings, times are
    dates (the label format check [validate_time_coord_format] is therefore not modelled), every array has
    the name and the dimensions of its field ([_validate_names], [_check_dim_collection]) with the
    dimensions in the documented order, and entries are numbers ([_coerce_object_arrays_to_float]). *)
From Coq Require Import Reals ZArith String List Bool.
From Verif Require Import M_Base M_Time.
Import ListNotations.
Local Open Scope string_scope.
Local Open Scope nat_scope.
Local Open Scope list_scope.

Record vector := mkVector { v_geos : list string; v_at : nat -> option R }.
Record matrix := mkMatrix { m_geos : list string; m_times : list date; m_at : nat -> nat -> option R }.
Record panel := mkPanel { p_geos : list string; p_times : list date; p_names : list string; p_at : nat -> nat -> nat -> option R }.
(** [media_spend] and [rf_spend]: by geo, time and channel, or by channel only. *)
Inductive spend := SpendPanel (p : panel) | SpendTotal (names : list string) (at_ : nat -> option R).
Definition spend_names (s : spend) : list string := match s with SpendPanel p => p_names p | SpendTotal n _ => n end.

(** input_data.py:274-288: the fields. *)
Record input := mkInput {
  i_kpi : matrix; i_kpi_type : string; i_population : vector; i_controls : option panel; i_rpk : option matrix;
  i_media : option panel; i_media_spend : option spend;
  i_reach : option panel; i_frequency : option panel; i_rf_spend : option spend;
  i_organic_media : option panel; i_organic_reach : option panel; i_organic_frequency : option panel;
  i_non_media : option panel; i_currency : option string }.

(** All entries ([array.values]). *)
Definition vector_values (v : vector) : list (option R) := map (v_at v) (seq 0 (length (v_geos v))).
Definition matrix_values (m : matrix) : list (option R) :=
  flat_map (fun i => map (m_at m i) (seq 0 (length (m_times m)))) (seq 0 (length (m_geos m))).
Definition panel_values (p : panel) : list (option R) :=
  flat_map (fun i => flat_map (fun j => map (p_at p i j) (seq 0 (length (p_names p)))) (seq 0 (length (p_times p))))
    (seq 0 (length (p_geos p))).
Definition spend_values (s : spend) : list (option R) :=
  match s with SpendPanel p => panel_values p | SpendTotal n a => map a (seq 0 (length n)) end.
Definition of_option {A B} (f : A -> list B) (o : option A) : list B := match o with None => [] | Some a => f a end.

Definition is_na (x : option R) : bool := match x with None => true | Some _ => false end.
Definition is_negative (x : option R) : bool := match x with None => false | Some r => if Rlt_dec r 0 then true else false end.
Definition is_zero (x : option R) : bool := match x with None => false | Some r => if Req_EM_T r 0 then true else false end.

(** input_data.py:335-385 [_validate_nas]. *)
Definition validate_nas (d : input) : result unit :=
  raise_if (existsb is_na
    (matrix_values (i_kpi d) ++ vector_values (i_population d) ++ of_option panel_values (i_controls d) ++
     of_option matrix_values (i_rpk d) ++ of_option spend_values (i_media_spend d) ++ of_option spend_values (i_rf_spend d) ++
     of_option panel_values (i_non_media d) ++ of_option panel_values (i_media d) ++ of_option panel_values (i_reach d) ++
     of_option panel_values (i_frequency d) ++ of_option panel_values (i_organic_media d) ++
     of_option panel_values (i_organic_reach d) ++ of_option panel_values (i_organic_frequency d))) ValueError (Ok tt).

(** input_data.py:612-632 [_validate_kpi]. *)
Definition validate_kpi (d : input) : result unit :=
  raise_if (negb (String.eqb (i_kpi_type d) "revenue") && negb (String.eqb (i_kpi_type d) "non_revenue")) ValueError (
  raise_if (match i_rpk d with None => false | Some m => forallb is_zero (matrix_values m) end) ValueError (Ok tt)).

(** input_data.py:579-610 [_validate_scenarios]; warnings are not modelled. *)
Definition ones (m : matrix) : matrix := mkMatrix (m_geos m) (m_times m) (fun _ _ => Some 1%R).
Definition validate_scenarios (d : input) : input :=
  if String.eqb (i_kpi_type d) "revenue"
  then mkInput (i_kpi d) (i_kpi_type d) (i_population d) (i_controls d) (Some (ones (i_kpi d))) (i_media d) (i_media_spend d)
         (i_reach d) (i_frequency d) (i_rf_spend d) (i_organic_media d) (i_organic_reach d) (i_organic_frequency d)
         (i_non_media d) (i_currency d)
  else d.

(** input_data.py:67-75 [_check_dim_match] on the lengths of the arrays present. *)
Definition check_dim_match (lengths : list nat) : result unit :=
  match lengths with
  | [] => Ok tt
  | l :: r => raise_if (existsb (fun x => negb (Nat.eqb x l)) r) ValueError (Ok tt)
  end.
(** validator.py:53-65 [check_coords_match]. *)
Definition labels_eqb (a b : list string) : bool := if list_eq_dec string_dec a b then true else false.
Definition check_coords_match (coords : list (list string)) : result unit :=
  match coords with
  | [] => Ok tt
  | c :: r => raise_if (existsb (fun x => negb (labels_eqb x c)) r) ValueError (Ok tt)
  end.
Definition one {A} (a : A) : list A := [a].
Definition present {A B} (f : A -> B) (o : option A) : list B := match o with None => [] | Some a => [f a] end.

(** The geo coordinates of the arrays of input_data.py:722-737 and 900-912: not of the spend arrays. *)
Definition geo_coords (d : input) : list (list string) :=
  m_geos (i_kpi d) :: present m_geos (i_rpk d) ++ present p_geos (i_media d) ++ present p_geos (i_controls d) ++
  [v_geos (i_population d)] ++ present p_geos (i_reach d) ++ present p_geos (i_frequency d) ++
  present p_geos (i_organic_media d) ++ present p_geos (i_organic_reach d) ++ present p_geos (i_organic_frequency d) ++
  present p_geos (i_non_media d).
(** The numbers of periods of the arrays of input_data.py:738-746. *)
Definition time_lengths (d : input) : list nat :=
  length (m_times (i_kpi d)) :: present (fun m => length (m_times m)) (i_rpk d) ++
  present (fun p => length (p_times p)) (i_controls d) ++ present (fun p => length (p_times p)) (i_non_media d).

(** input_data.py:669-785 [_validate_dimensions]. *)
Definition match_channels (coords : list (list string)) : result unit :=
  rbind (check_dim_match (map (@length string) coords)) (fun _ => check_coords_match coords).
Definition validate_dimensions (d : input) : result unit :=
  rbind (check_dim_match (map (@length string) (geo_coords d))) (fun _ =>
  rbind (check_dim_match (time_lengths d)) (fun _ =>
  rbind (match_channels (present p_names (i_media d) ++ present spend_names (i_media_spend d))) (fun _ =>
  rbind (match_channels (present p_names (i_reach d) ++ present p_names (i_frequency d) ++ present spend_names (i_rf_spend d))) (fun _ =>
  rbind (match_channels (present p_names (i_organic_media d))) (fun _ =>
  rbind (match_channels (present p_names (i_organic_reach d) ++ present p_names (i_organic_frequency d))) (fun _ =>
  rbind (match_channels (present p_names (i_non_media d))) (fun _ =>
  match_channels (present p_names (i_controls d))))))))).

(** input_data.py:961-979 [get_all_paid_channels] and 1049-1065 [get_all_channels]. *)
Definition get_all_paid_channels (d : input) : result (list string) :=
  match i_media d, i_reach d with
  | Some m, Some r => Ok (p_names m ++ p_names r)
  | None, Some r => Ok (p_names r)
  | Some m, None => Ok (p_names m)
  | None, None => Err ValueError
  end.
Definition get_all_channels (d : input) : result (list string) :=
  rbind (get_all_paid_channels d) (fun c =>
  Ok (c ++ of_option p_names (i_organic_media d) ++ of_option p_names (i_organic_reach d) ++ of_option p_names (i_non_media d))).

(** [len(np.unique(x)) != x.size] and [len(names) != len(set(names))]. *)
Fixpoint distinct (l : list string) : bool :=
  match l with [] => true | x :: r => negb (existsb (String.eqb x) r) && distinct r end.

(** input_data.py:787-837 [_validate_media_channels]. *)
Definition validate_media_channels (d : input) : result unit :=
  rbind (get_all_channels d) (fun c => raise_if (negb (distinct c)) ValueError (Ok tt)).

(** input_data.py:415-421 [media_time]. *)
Definition media_time (d : input) : result (list date) :=
  match i_media d, i_reach d with
  | Some m, _ => Ok (p_times m)
  | None, Some r => Ok (p_times r)
  | None, None => Err TypeError
  end.

(** input_data.py:839-881 [_validate_times] and [_validate_time]. *)
Definition validate_time (d : input) (o : option panel) : result unit :=
  match o with
  | None => Ok tt
  | Some p => raise_if (Nat.ltb (length (p_times p)) (length (m_times (i_kpi d)))) ValueError (Ok tt)
  end.
Definition check_interval_days (l : list date) : result unit :=
  rbind (time_coordinates l) (fun l => raise_if (negb (is_regular l)) ValueError (Ok tt)).
Definition validate_times (d : input) : result unit :=
  rbind (validate_time d (i_media d)) (fun _ =>
  rbind (validate_time d (i_reach d)) (fun _ =>
  rbind (validate_time d (i_frequency d)) (fun _ =>
  rbind (validate_time d (i_organic_media d)) (fun _ =>
  rbind (validate_time d (i_organic_reach d)) (fun _ =>
  rbind (validate_time d (i_organic_frequency d)) (fun _ =>
  rbind (check_interval_days (m_times (i_kpi d))) (fun _ =>
  rbind (media_time d) check_interval_days))))))).

(** input_data.py:890-916 [_validate_geos]. *)
Definition validate_geos (d : input) : result unit :=
  raise_if (existsb (fun c => negb (distinct c)) (geo_coords d)) ValueError (check_coords_match (geo_coords d)).

(** input_data.py:634-651 [_validate_no_negative_values]. *)
Definition validate_no_negative_values (d : input) : result unit :=
  raise_if (existsb is_negative
    (of_option spend_values (i_media_spend d) ++ of_option spend_values (i_rf_spend d) ++ of_option panel_values (i_reach d) ++
     of_option panel_values (i_frequency d) ++ of_option panel_values (i_organic_reach d) ++
     of_option panel_values (i_organic_frequency d) ++ of_option matrix_values (i_rpk d) ++ matrix_values (i_kpi d))) ValueError (Ok tt).

(** input_data.py:290-303 [__post_init__]. *)
Definition new_input (d : input) : result input :=
  rbind (validate_nas d) (fun _ =>
  rbind (validate_kpi d) (fun _ =>
  let d := validate_scenarios d in
  rbind (validate_dimensions d) (fun _ =>
  rbind (validate_media_channels d) (fun _ =>
  rbind (validate_times d) (fun _ =>
  rbind (validate_geos d) (fun _ =>
  rbind (validate_no_negative_values d) (fun _ => Ok d))))))).
