(** Specification for property C79: what a data frame says, cell by cell. *)
From Coq Require Import Reals ZArith String List Bool Permutation.
From Verif Require Import M_Base M_Time Lib_Sort M_Builder S_Builder M_Frame.
Import ListNotations.
Local Open Scope string_scope.
Local Open Scope R_scope.
Local Open Scope list_scope.

Section Spec.
Context {G T : Type}.
Variable national : G.
Notation loader := (loader G T).
Notation row := (row G T).

Definition rows (lo : loader) : list row := f_rows (lo_frame lo).
(** The geo of a row: that of the geo column, or the national name if there is no such column. *)
Definition geo_of_row (lo : loader) (r : row) : G :=
  if in_dec string_dec (co_geo (lo_coord lo)) (f_columns (lo_frame lo)) then r_geo r (co_geo (lo_coord lo)) else national.
Definition time_of_row (lo : loader) (r : row) : T := r_time r (co_time (lo_coord lo)).

(** The columns of each array with the names of their channels.  Media, reach and organic reach are
    read if the mappings of the columns that belong with them are given as well. *)
Definition channel (d : mapping) (col : string) : string :=
  match find (fun kv => String.eqb (fst kv) col) d with Some kv => snd kv | None => "" end.
Definition mapped (cols : option (list string)) (d : mapping) : list (string * string) :=
  match cols with Some l => map (fun col => (col, channel d col)) l | None => [] end.
Definition own_names (cols : option (list string)) : list (string * string) :=
  match cols with Some l => map (fun col => (col, col)) l | None => [] end.
Definition columns_of (lo : loader) (c : component) : list (string * string) :=
  let co := lo_coord lo in
  match c with
  | Kpi => [(co_kpi co, "")]
  | Population => if in_dec string_dec (co_population co) (f_columns (lo_frame lo)) then [(co_population co, "")] else []
  | Controls => own_names (co_controls co)
  | NonMediaTreatments => own_names (co_non_media co)
  | RevenuePerKpi => match co_rpk co with Some col => [(col, "")] | None => [] end
  | Media => match lo_media lo, lo_media_spend lo with Some m, Some _ => mapped (co_media co) m | _, _ => [] end
  | MediaSpend => match lo_media lo, lo_media_spend lo with Some _, Some m => mapped (co_media_spend co) m | _, _ => [] end
  | Reach => match lo_reach lo, lo_frequency lo, lo_rf_spend lo with Some m, Some _, Some _ => mapped (co_reach co) m | _, _, _ => [] end
  | Frequency => match lo_reach lo, lo_frequency lo, lo_rf_spend lo with Some _, Some m, Some _ => mapped (co_frequency co) m | _, _, _ => [] end
  | RfSpend => match lo_reach lo, lo_frequency lo, lo_rf_spend lo with Some _, Some _, Some m => mapped (co_rf_spend co) m | _, _, _ => [] end
  | OrganicMedia => own_names (co_organic_media co)
  | OrganicReach => match lo_organic_reach lo, lo_organic_frequency lo with Some m, Some _ => mapped (co_organic_reach co) m | _, _ => [] end
  | OrganicFrequency => match lo_organic_reach lo, lo_organic_frequency lo with Some _, Some m => mapped (co_organic_frequency co) m | _, _ => [] end
  end.

(** The value of a row in a column; the revenue of a revenue KPI is one. *)
Definition cell (lo : loader) (c : component) (r : row) (col : string) : option R :=
  match c with RevenuePerKpi => if lo_revenue lo then Some 1 else r_num r col | _ => r_num r col end.
(** KPI and revenue per KPI have no channels. *)
Definition without_channels (c : component) : Prop := c = Kpi \/ c = RevenuePerKpi.

(** Position [(i, j, k)] of the array [y] of component [c] is the one of geo, time and channel of a
    row; an array with a single geo carries the national name. *)
Definition at_geo (lo : loader) (c : component) (y : da G T string R) (i : nat) (r : row) : Prop :=
  nth_error (d_geos y) i = Some (geo_of_row lo r) \/
  d_geos y = [national] /\ i = O /\
    forall r' col ch, In r' (rows lo) -> In (col, ch) (columns_of lo c) -> cell lo c r' col <> None ->
      geo_of_row lo r' = geo_of_row lo r.
Definition position (lo : loader) (c : component) (y : da G T string R) (i j k : nat) (r : row) (ch : string) : Prop :=
  at_geo lo c y i r /\ nth_error (d_times y) j = Some (time_of_row lo r) /\
  (without_channels c /\ k = O \/ ~ without_channels c /\ nth_error (d_chans y) k = Some ch).

(** The columns that are named are named: the empty name stands for a default in the code. *)
Definition named_columns (lo : loader) : Prop :=
  co_geo (lo_coord lo) <> "" /\ co_time (lo_coord lo) <> "" /\ co_kpi (lo_coord lo) <> "" /\ co_population (lo_coord lo) <> "".

(** The mean of the values that are not missing. *)
Definition average (l : list (option R)) (m : R) : Prop :=
  exists vs, vs = flat_map (fun o => match o with Some v => [v] | None => [] end) l /\ vs <> [] /\
    m = fold_right Rplus 0 vs / INR (length vs).

(** The layout documented for [DataFrameDataLoader] (load.py:400-440): every geo has every period
    once, in any order of rows; no cell is missing, except that in initial periods only media are
    there. *)
Record documented (tle : T -> T -> bool) (parse : T -> option date) (lo : loader) (gs : list G) (pre ts : list T) : Prop := mkDocumented {
  doc_rows : Permutation (map (fun r => (geo_of_row lo r, time_of_row lo r)) (rows lo)) (list_prod gs (pre ++ ts));
  doc_geos : NoDup gs /\ gs <> [];
  doc_times : NoDup (pre ++ ts) /\ le_sorted tle (pre ++ ts);
  doc_dates : forall t, In t (pre ++ ts) -> parse t <> None;
  doc_regular : regular tle parse (pre ++ ts) /\ regular tle parse ts;
  doc_cells : forall c col ch r, In (col, ch) (columns_of lo c) -> In r (rows lo) ->
    match dim_of c with
    | WithMediaTime => r_num r col <> None
    | WithTime => r_num r col <> None <-> In (time_of_row lo r) ts
    | WithoutTime => True
    end;
  doc_population : length gs <> 1%nat ->
    exists col, In (col, "") (columns_of lo Population) /\
      forall g, In g gs -> exists r, In r (rows lo) /\ geo_of_row lo r = g /\ r_num r col <> None
}.

(** Column names: present in the frame, and different from each other within a call. *)
Record proper_columns (lo : loader) : Prop := mkProper {
  pc_named : named_columns lo;
  pc_time : In (co_time (lo_coord lo)) (f_columns (lo_frame lo)) /\ co_time (lo_coord lo) <> co_geo (lo_coord lo);
  pc_present : forall c col ch, In (col, ch) (columns_of lo c) ->
    In col (f_columns (lo_frame lo)) /\ col <> co_time (lo_coord lo) /\ col <> co_geo (lo_coord lo);
  pc_once : forall c, NoDup (map fst (columns_of lo c)) /\ NoDup (map snd (columns_of lo c));
  pc_rf : NoDup (map fst (columns_of lo Reach ++ columns_of lo Frequency ++ columns_of lo RfSpend)) /\
          NoDup (map fst (columns_of lo OrganicReach ++ columns_of lo OrganicFrequency));
  pc_given : co_media (lo_coord lo) <> Some [] /\ co_reach (lo_coord lo) <> Some [] /\ co_organic_reach (lo_coord lo) <> Some []
}.
End Spec.
