(** Model of how numbers are written in the reports: meridian/templates/formatter.py
    (format_percent, compact_number, format_number_text, format_monetary_num, format_col_names) and of
    the scenario plan and the allocation table of the optimization report
    (meridian/analysis/optimizer.py).  Numbers are exact rationals: the rounding of binary floating
    point before a number is written is not modelled.  Strings are ASCII.  The rendering of the HTML
    templates and the fixed sentences around the numbers are not modelled. *)
From Coq Require Import ZArith NArith QArith Qround Qabs String Ascii List Bool Arith DecimalString.
From Verif Require Import Lib_QSum Lib_Sort M_Base M_Opt.
Import ListNotations.
Local Open Scope string_scope.
Local Open Scope list_scope.
Local Infix "+++" := String.append (at level 60, right associativity).

(** Python's decimal digits of a natural number. *)
Definition digits (n : N) : string := NilZero.string_of_uint (N.to_uint n).
(** Zeros in front of a number up to a width. *)
Fixpoint zeros (k : nat) : string := match k with O => "" | S k => "0" +++ zeros k end.
Definition pad (w : nat) (s : string) : string := zeros (w - String.length s) +++ s.

(** Python's ['{:.pf}'] of a number that is not negative: rounded to [p] decimals, ties to even. *)
Definition fixed_abs (p : nat) (x : Q) : string :=
  let n := Z.to_N (rint (x * inject_Z (pow10 p))) in
  let d := Z.to_N (pow10 p) in
  match p with
  | O => digits n
  | _ => digits (n / d) +++ "." +++ pad p (digits (n mod d))
  end.
(** Python's ['{:.pf}']: the sign is kept when the digits are all zero. *)
Definition fixed (p : nat) (x : Q) : string :=
  if Qlt_bool x 0 then "-" +++ fixed_abs p (- x) else fixed_abs p x.

(** The number of decimal digits of the integer part of x >= 1, minus one. *)
Definition ilog (x : Q) : nat := ilog10 (S (Z.to_nat (Z.log2 (Qfloor x)))) (Qfloor x).
(** [math.floor(math.log10(x))] and [int(math.log10(x))] for x > 0. *)
Definition flog10 (x : Q) : Z :=
  if Qle_bool 1 x then Z.of_nat (ilog x)
  else let k := ilog (/ x) in
       if Qeq_bool (/ x) (inject_Z (pow10 k)) then (- Z.of_nat k)%Z else (- Z.of_nat k - 1)%Z.
Definition tlog10 (x : Q) : Z :=
  if Qle_bool 1 x then Z.of_nat (ilog x) else (- Z.of_nat (ilog (/ x)))%Z.

(** formatter.py:158-165; [math.floor(y / 3)] is [math.floor(math.floor(y) / 3)]. *)
Definition millnames : list string := [""; "k"; "M"; "B"; "T"].
Definition millidx (n : Q) : nat :=
  Z.to_nat (Z.max 0 (Z.min (Z.of_nat (List.length millnames) - 1)
    (if Qeq_bool n 0 then 0 else flog10 (Qabs n) / 3))).

(** formatter.py:144-174 [compact_number]. *)
Definition compact_number (n : Q) (precision : nat) (currency : string) : string :=
  let k := millidx n in
  let result := fixed precision (n / inject_Z (pow10 (3 * k))) in
  let suffixed := result +++ nth k millnames "" in
  if Qlt_bool n 0 then
    match suffixed with
    | EmptyString => currency
    | String c rest => String c (currency +++ rest)
    end
  else currency +++ suffixed.

(** formatter.py:208-211 [format_monetary_num]. *)
Definition format_monetary_num (num : Q) (currency : string) : string :=
  let precision :=
    if negb (Qeq_bool num 0) && Z.eqb (tlog10 (Qabs num) mod 3) 0 then 1%nat else 0%nat in
  compact_number num precision currency.

(** formatter.py:193-205 [format_number_text]; [str(round(x, 1))] is ['{:.1f}'] below 1e16. *)
Definition format_number_text (percent_value actual_value : Q) : string :=
  fixed 1 (percent_value * 100) +++ "% (" +++ compact_number actual_value 0 "" +++ ")".

(** Python's ['{:.1g}']: one significant digit, in scientific notation from 10 on and below 0.0001. *)
Definition one_digit (a : Q) : Z * Z :=
  let e := flog10 a in
  let d := rint (a / (10 ^ e)%Q) in
  if Z.eqb d 10 then (1, e + 1)%Z else (d, e).
Definition general_abs (a : Q) : string :=
  let '(d, e) := one_digit a in
  let ds := digits (Z.to_N d) in
  if Z.leb (-4) e && Z.ltb e 1 then
    match Z.to_nat (- e) with
    | O => ds
    | S k => "0." +++ zeros k +++ ds
    end
  else ds +++ "e" +++ (if Z.ltb e 0 then "-" else "+") +++ pad 2 (digits (Z.to_N (Z.abs e))).
Definition general (y : Q) : string :=
  if Qeq_bool y 0 then "0"
  else if Qlt_bool y 0 then "-" +++ general_abs (- y) else general_abs y.

(** formatter.py:126-141 [format_percent]. *)
Definition format_percent (percent : Q) : string :=
  if Qle_bool (1 # 100) percent then fixed 0 (percent * 100) +++ "%"
  else general (percent * 100) +++ "%".

(** formatter.py:214-230 [format_col_names]: underscores to spaces, then every lower-case letter at the
    start of a word in upper case. *)
Definition between (a b c : ascii) : bool := N.leb (N_of_ascii a) (N_of_ascii c) && N.leb (N_of_ascii c) (N_of_ascii b).
Definition is_lower (c : ascii) : bool := between "a" "z" c.
Definition is_word (c : ascii) : bool :=
  is_lower c || between "A" "Z" c || between "0" "9" c || Ascii.eqb c "_".
Definition upper (c : ascii) : ascii := if is_lower c then ascii_of_N (N_of_ascii c - 32) else c.
Fixpoint replace_underscores (s : string) : string :=
  match s with
  | EmptyString => ""
  | String c r => String (if Ascii.eqb c "_" then " "%char else c) (replace_underscores r)
  end.
(** [re.sub] over the words; [before] tells whether the character before is part of a word. *)
Fixpoint capitalize (before : bool) (s : string) : string :=
  match s with
  | EmptyString => ""
  | String c r => String (if negb before && is_lower c then upper c else c) (capitalize (is_word c) r)
  end.
Definition format_col_names (headers : list string) : list string :=
  map (fun h => capitalize false (replace_underscores h)) headers.

(** The totals of a budget dataset a report reads (optimizer.py:2450-2628): a cost per incremental KPI
    unit that is not finite is [None]. *)
Record totals := mkTotals { t_budget : Q; t_roi : Q; t_cpik : option Q; t_incremental : Q }.
(** formatter.py [StatsSpec]. *)
Record stat := mkStat { s_title : string; s_stat : string; s_delta : option string }.

(** optimizer.py:1250-1338 [_create_scenario_stats_specs].  Writing a number that is not finite in
    compact form raises (OverflowError or ValueError in the code, ValueError here).  [round(x, 1)]
    shown as text is ['{:.1f}'] of [x]. *)
Definition scenario_stats (is_revenue : bool) (currency : string) (non opt : totals) : result (list stat) :=
  let outcome := if is_revenue then "revenue" else "KPI" in
  let budget_diff := (t_budget opt - t_budget non)%Q in
  let budget_prefix := if Qlt_bool 0 budget_diff then "+" else "" in
  let non_budget := mkStat "Non-optimized budget" (format_monetary_num (t_budget non) currency) None in
  let opt_budget := mkStat "Optimized budget" (format_monetary_num (t_budget opt) currency)
    (Some (budget_prefix +++ format_monetary_num budget_diff currency)) in
  let performance :=
    if is_revenue then
      let d := (t_roi opt - t_roi non)%Q in
      let diff := rint (d * 10) in
      Ok [mkStat "Non-optimized ROI" (fixed 1 (t_roi non)) None;
          mkStat "Optimized ROI" (fixed 1 (t_roi opt))
            (Some (if Z.ltb 0 diff then "+" +++ fixed 1 d else fixed 1 d))]
    else
      match t_cpik non, t_cpik opt with
      | Some a, Some b =>
          Ok [mkStat "Non-optimized CPIK" (currency +++ fixed 2 a) None;
              mkStat "Optimized CPIK" (currency +++ fixed 2 b) (Some (compact_number (b - a) 2 currency))]
      | _, _ => Err ValueError
      end in
  rbind performance (fun performance =>
  let inc_diff := (t_incremental opt - t_incremental non)%Q in
  let inc_prefix := if Qlt_bool 0 inc_diff then "+" else "" in
  let currency := if is_revenue then currency else "" in
  let non_inc := mkStat ("Non-optimized incremental " +++ outcome)
    (compact_number (t_incremental non) 0 currency) None in
  let opt_inc := mkStat ("Optimized incremental " +++ outcome)
    (compact_number (t_incremental opt) 0 currency)
    (Some (inc_prefix +++ compact_number inc_diff 0 currency)) in
  Ok ([non_budget; opt_budget] ++ performance ++ [non_inc; opt_inc])).

(** Python's [int(x)]: towards zero. *)
Definition trunc (x : Q) : Z := if Qle_bool 0 x then Qfloor x else (- Qfloor (- x))%Z.

(** What the sentence of the scenario plan says: optimizer.py:1204-1241
    [_create_scenario_plan_section].  The spend constraint is [None] when it varies by channel. *)
Record insight := mkInsight {
  i_scenario : string; i_constraint : option (Z * Z); i_historical : bool;
  i_start : string; i_end : string }.
Definition scenario_insight (fixed_budget use_historical_budget : bool) (bounds : list Q * list Q)
    (start_date end_date : string) : result insight :=
  let scenario_type := if fixed_budget then "fixed" else "Flexible" in
  let '(lbounds, ubounds) := bounds in
  if (1 <? List.length lbounds)%nat || (1 <? List.length ubounds)%nat then
    Ok (mkInsight scenario_type None use_historical_budget start_date end_date)
  else match lbounds, ubounds with
  | l :: _, u :: _ =>
      Ok (mkInsight scenario_type (Some (trunc ((1 - l) * 100), trunc ((u - 1) * 100))%Q)
            use_historical_budget start_date end_date)
  | _, _ => Err IndexError
  end.

(** [f'{round(x)}%'] of an integer. *)
Definition integer (z : Z) : string :=
  if Z.ltb z 0 then "-" +++ digits (Z.to_N (- z)) else digits (Z.to_N z).
(** optimizer.py:1381-1406 [_create_budget_allocation_table]: the shares of the two datasets merged by
    channel, sorted by the optimized share, the largest first, and written as whole percentages.
    [sort_values] leaves the order of equal shares open; here it is the order of the datasets. *)
Definition merge (non opt : list (string * Q)) : list (string * (Q * Q)) :=
  flat_map (fun x => map (fun y => (fst x, (snd x, snd y))) (filter (fun y => String.eqb (fst x) (fst y)) opt)) non.
Definition allocation_table (non opt : list (string * Q)) : list (string * (string * string)) :=
  map (fun r => (fst r, (integer (rint (fst (snd r) * 100)) +++ "%", integer (rint (snd (snd r) * 100)) +++ "%")))
    (isort (fun a b => Qle_bool (snd (snd b)) (snd (snd a))) (merge non opt)).
