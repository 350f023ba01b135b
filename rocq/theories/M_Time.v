(** Model of meridian/data/time_coordinates.py and meridian/schema/utils/date_range_bucketing.py.
    A calendar date is a (year, month, day) triple, as Python's [datetime.date]; the ordinal is
    Python's [date.toordinal()].  Time-of-day is not modelled: the coordinates are dates. *)
From Coq Require Import ZArith List Bool.
From Verif Require Import M_Base.
Import ListNotations.
Open Scope Z_scope.

Record date := mkDate { year : Z; month : Z; day : Z }.

(** The proleptic Gregorian calendar of Python's [datetime] (CPython Lib/_pydatetime.py:
    [_is_leap], [_days_in_month], [_days_before_year], [_days_before_month], [_ymd2ord]). *)
Definition is_leap (y : Z) : bool :=
  (y mod 4 =? 0) && (negb (y mod 100 =? 0) || (y mod 400 =? 0)).
Definition days_in_month (y m : Z) : Z :=
  if m =? 2 then (if is_leap y then 29 else 28)
  else if (m =? 4) || (m =? 6) || (m =? 9) || (m =? 11) then 30 else 31.
Definition days_before_year (y : Z) : Z :=
  let q := y - 1 in q * 365 + q / 4 - q / 100 + q / 400.
Definition days_before_month (y m : Z) : Z :=
  fold_right Z.add 0 (map (fun k => days_in_month y (Z.of_nat k)) (seq 1 (Z.to_nat (m - 1)))).
Definition ordinal (d : date) : Z :=
  days_before_year (year d) + days_before_month (year d) (month d) + day d.

(** [date.__lt__] / [__le__] / [__eq__]: lexicographic comparison of (year, month, day). *)
Definition date_ltb (a b : date) : bool :=
  (year a <? year b) ||
  ((year a =? year b) && ((month a <? month b) || ((month a =? month b) && (day a <? day b)))).
Definition date_eqb (a b : date) : bool :=
  (year a =? year b) && (month a =? month b) && (day a =? day b).
Definition date_leb (a b : date) : bool := date_ltb a b || date_eqb a b.

(** [pd.Timestamp(d) + pd.DateOffset(months=k)] (pandas): moves k calendar months on and clips the
    day to the length of the target month.  [years=1] is [months=12]. *)
Definition add_months (d : date) (k : Z) : date :=
  let m0 := month d - 1 + k in
  let y := year d + m0 / 12 in
  let m := m0 mod 12 + 1 in
  mkDate y m (Z.min (day d) (days_in_month y m)).

(** [datetime_index.is_monotonic_increasing]: neighbours are in non-decreasing order. *)
Fixpoint nondecreasing (l : list date) : bool :=
  match l with
  | a :: ((b :: _) as r) => date_leb a b && nondecreasing r
  | _ => true
  end.

(** time_coordinates.py:144-152 [TimeCoordinates.__post_init__]. *)
Definition time_coordinates (l : list date) : result (list date) :=
  raise_if (Nat.leb (length l) 1) ValueError (
  raise_if (negb (nondecreasing l)) ValueError (Ok l)).

(** [min] / [max] of a list of dates (Python builtins: the first extreme element). *)
Fixpoint min_date (a : date) (l : list date) : date :=
  match l with [] => a | b :: r => min_date (if date_ltb b a then b else a) r end.
Fixpoint max_date (a : date) (l : list date) : date :=
  match l with [] => a | b :: r => max_date (if date_ltb a b then b else a) r end.

Definition date_in (d : date) (l : list date) : bool := existsb (date_eqb d) l.

(** time_coordinates.py:283-342 [expand_selected_time_dims]; [normalize_date] has been applied to the
    bounds.  The list is [all_dates]; [min]/[max] of an empty list raise ValueError. *)
Definition expand_selected_time_dims (all : list date) (s e : option date) : result (option (list date)) :=
  match all with
  | [] => match s, e with None, None => Ok None | _, _ => Err ValueError end
  | a :: r =>
    match s, e with
    | None, None => Ok None
    | _, _ =>
      rbind (match s with
             | None => Ok (min_date a r)
             | Some d => raise_if (negb (date_in d all)) ValueError (Ok d)
             end) (fun s' =>
      rbind (match e with
             | None => Ok (max_date a r)
             | Some d => raise_if (negb (date_in d all)) ValueError (Ok d)
             end) (fun e' =>
      raise_if (date_ltb e' s') ValueError (
      if date_eqb s' (min_date a r) && date_eqb e' (max_date a r) then Ok None
      else Ok (Some (filter (fun d => date_leb s' d && date_leb d e') all)))))
    end
  end.

(** time_coordinates.py:200-229 [get_selected_dates]. *)
Definition get_selected_dates (all : list date) (sel : option (date * date)) : result (list date) :=
  match sel with
  | None => Ok all
  | Some (s, e) =>
    rbind (expand_selected_time_dims all (Some s) (Some e)) (fun x =>
    Ok (match x with None => all | Some l => l end))
  end.

(** time_coordinates.py:177-185 [_timedelta_index], [_interval_days]. *)
Fixpoint intervals (l : list date) : list Z :=
  match l with
  | a :: ((b :: _) as r) => (ordinal b - ordinal a) :: intervals r
  | _ => []
  end.

Definition all_in (l ref : list Z) : bool := forallb (fun x => existsb (Z.eqb x) ref) l.
Definition all_equal (l : list Z) : bool :=
  match l with [] => true | x :: _ => forallb (fun y => y =? x) l end.

(** time_coordinates.py:187-202 [_is_regular_time_index]. *)
Definition is_regular (all : list date) : bool :=
  let iv := intervals all in
  all_equal iv || all_in iv [28; 29; 30; 31] || all_in iv [90; 91; 92] || all_in iv [365; 366].

(** [int(np.round(s / n))] for integers: rounding to nearest, ties to even. *)
Definition round_div (s n : Z) : Z :=
  let q := s / n in let r2 := 2 * (s mod n) in
  if r2 <? n then q else if n <? r2 then q + 1 else if Z.even q then q else q + 1.

(** time_coordinates.py:163-175 [interval_days] (regularity has been checked by the caller). *)
Definition interval_days (all : list date) : Z :=
  let iv := intervals all in round_div (fold_right Z.add 0 iv) (Z.of_nat (length iv)).

(** time_coordinates.py:259-281: end of the final period, by the cadence of the whole data set. *)
Definition last_end (all : list date) (d : date) : Z :=
  let iv := intervals all in
  if all_in iv [28; 29; 30; 31] then ordinal (add_months d 1)
  else if all_in iv [90; 91; 92] then ordinal (add_months d 3)
  else if all_in iv [365; 366] then ordinal (add_months d 12)
  else ordinal d + interval_days all.

(** time_coordinates.py:231-281 [get_period_bounds]; a period is the pair of ordinals of its start and
    (exclusive) end date. *)
Fixpoint bounds_from (all sel : list date) : list (Z * Z) :=
  match sel with
  | [] => []
  | [d] => [(ordinal d, last_end all d)]
  | d :: ((e :: _) as r) => (ordinal d, ordinal e) :: bounds_from all r
  end.
Definition get_period_bounds (all : list date) (sel : option (date * date)) : result (list (Z * Z)) :=
  raise_if (negb (is_regular all)) ValueError (
  rbind (get_selected_dates all sel) (fun l =>
  raise_if (Nat.ltb (length l) 2) ValueError (Ok (bounds_from all l)))).

(** date_range_bucketing.py:36-53 [DateRangeBucketer.__init__]. *)
Fixpoint ascending (l : list date) : bool :=
  match l with
  | a :: ((b :: _) as r) => date_ltb a b && ascending r
  | _ => true
  end.
Definition bucketer (l : list date) : result (list date) :=
  raise_if (negb (ascending l)) ValueError (Ok l).

(** The loop shared by the three generators: [differs] is the test that a new bucket has begun,
    [complete] the test on the start date. *)
Fixpoint generate (differs : date -> date -> bool) (complete : date -> bool) (start : date) (l : list date) : list (date * date) :=
  match l with
  | [] => []
  | d :: r =>
    if differs start d
    then (if complete start then [(start, d)] else []) ++ generate differs complete d r
    else generate differs complete start r
  end.
Definition generate_date_intervals (differs : date -> date -> bool) (complete : date -> bool) (l : list date) : result (list (date * date)) :=
  match l with [] => Err IndexError | a :: _ => Ok (generate differs complete a l) end.

(** date_range_bucketing.py:72-84 [MonthlyDateRangeGenerator]. *)
Definition monthly (l : list date) : result (list (date * date)) :=
  rbind (bucketer l) (generate_date_intervals
    (fun s d => negb (month d =? month s)) (fun s => day s <=? 7)).

(** date_range_bucketing.py:87-107 [QuarterlyDateRangeGenerator]. *)
Definition quarter_number (d : date) : Z := (month d - 1) / 3 + 1.
Definition quarterly (l : list date) : result (list (date * date)) :=
  rbind (bucketer l) (generate_date_intervals
    (fun s d => negb (quarter_number s =? quarter_number d))
    (fun s => (day s <=? 7) && (month s =? (quarter_number s - 1) * 3 + 1))).

(** date_range_bucketing.py:110-122 [YearlyDateRangeGenerator]. *)
Definition yearly (l : list date) : result (list (date * date)) :=
  rbind (bucketer l) (generate_date_intervals
    (fun s d => negb (year d =? year s)) (fun s => (day s <=? 7) && (month s =? 1))).
