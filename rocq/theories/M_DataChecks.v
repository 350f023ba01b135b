(** Model of the checks of the data that ask for attention: meridian/model/eda/eda_engine.py, outliers,
    standard deviations and the cost per media unit.  A [DataArray] is a cube over geos, periods and
    variables (one geo for national data); [None] stands for NaN, which [quantile], [std] and [dropna]
    skip.  Explanations and the links from findings to artifacts are not modelled. *)
From Coq Require Import Reals ZArith List Bool Arith.
From Verif Require Import Lib_Sum M_Base M_Transformers M_Stats.
From Verif Require M_Eda.
Import ListNotations.
Local Open Scope R_scope.

Record cube := mkCube { cu_geos : nat; cu_times : nat; cu_vars : nat; cu_at : nat -> nat -> nat -> option R }.

(** The values of a series that are not NaN. *)
Fixpoint known (n : nat) (f : nat -> option R) : list R :=
  match n with
  | O => []
  | S n' => known n' f ++ match f n' with Some v => [v] | None => [] end
  end.
Definition series (x : cube) (g v : nat) : list R := known (cu_times x) (fun t => cu_at x g t v).

(** eda_engine.py:280-297 [_get_outlier_bounds], constants.py:40-42 of eda; NaN without values. *)
Definition get_outlier_bounds (l : list R) : option (R * R) :=
  match quantile l (1 / 4), quantile l (3 / 4) with
  | Ok q1, Ok q3 => let iqr := q3 - q1 in Some (q1 - 3 / 2 * iqr, q3 + 3 / 2 * iqr)
  | _, _ => None
  end.
Definition lt_bool (a b : R) : bool := if Rlt_dec a b then true else false.
Definition le_bool (a b : R) : bool := if Rle_dec a b then true else false.
Definition is_outlier (l : list R) (x : R) : bool :=
  match get_outlier_bounds l with
  | Some (lower, upper) => lt_bool x lower || lt_bool upper x
  | None => false
  end.
(** eda_engine.py:319-321: [where(... >= lower & ... <= upper)]. *)
Definition is_inside (l : list R) (x : R) : bool :=
  match get_outlier_bounds l with
  | Some (lower, upper) => le_bool lower x && le_bool x upper
  | None => false
  end.

(** [std(ddof=1)]: NaN for fewer than two values. *)
Definition sample_std (l : list R) : option R :=
  if (length l <=? 1)%nat then None
  else Some (sqrt (lsum (map (fun x => (x - mean l) ^ 2) l) / INR (length l - 1))).
(** eda_engine.py:300-326 [_calculate_std]: with and without outliers. *)
Definition calculate_std (l : list R) : option R * option R :=
  (sample_std l, sample_std (filter (is_inside l) l)).

(** The rows of [to_dataframe], in order of geo, period and variable. *)
Record cell := mkCell { ce_geo : nat; ce_time : nat; ce_var : nat; ce_value : R }.
Definition cells (x : cube) : list cell :=
  flat_map (fun g => flat_map (fun t => flat_map (fun v =>
    match cu_at x g t v with Some r => [mkCell g t v r] | None => [] end)
    (seq 0 (cu_vars x))) (seq 0 (cu_times x))) (seq 0 (cu_geos x)).
(** [sort_values(by=abs, ascending=False)]; pandas leaves the order of ties open. *)
Fixpoint insert_cell (a : cell) (l : list cell) : list cell :=
  match l with
  | [] => [a]
  | b :: l' => if le_bool (Rabs (ce_value b)) (Rabs (ce_value a)) then a :: l else b :: insert_cell a l'
  end.
Fixpoint sort_cells (l : list cell) : list cell :=
  match l with [] => [] | a :: l' => insert_cell a (sort_cells l') end.
(** eda_engine.py:329-357 [_calculate_outliers]. *)
Definition calculate_outliers (x : cube) : list cell :=
  sort_cells (filter (fun a => is_outlier (series x (ce_geo a) (ce_var a)) (ce_value a)) (cells x)).

(** eda_outcome.py:43-79. *)
Inductive cause := NoCause | Variability | Outlier | InconsistentData.
Definition finding := (M_Eda.severity * cause)%type.

(** eda_engine.py:1785-1794: [(std_without_outliers < threshold).any()]; NaN is not below. *)
Definition flat_series (x : cube) (threshold : R) : bool :=
  existsb (fun g => existsb (fun v =>
    match snd (calculate_std (series x g v)) with Some s => lt_bool s threshold | None => false end)
    (seq 0 (cu_vars x))) (seq 0 (cu_geos x)).
(** eda_engine.py:1761-1806 [_check_std]. *)
Definition check_std_of (x : cube) (threshold : R) : list finding :=
  (if flat_series x threshold then [(M_Eda.Attention, Variability)] else [])
  ++ (if M_Eda.empty (calculate_outliers x) then [] else [(M_Eda.Attention, Outlier)]).

(** [xr.concat([a, b], dim=RF_CHANNEL)]. *)
Definition concat_vars (a b : cube) : cube :=
  mkCube (cu_geos a) (cu_times a) (cu_vars a + cu_vars b)
    (fun g t v => if (v <? cu_vars a)%nat then cu_at a g t v else cu_at b g t (v - cu_vars a)).
(** eda_engine.py:1184-1289: paid and organic reach (or frequency) together. *)
Definition all_of (paid organic : option cube) : option cube :=
  match paid, organic with
  | Some a, Some b => Some (concat_vars a b)
  | Some a, None => Some a
  | None, b => b
  end.

(** The scaled data of the engine on one level. *)
Record scaled := mkScaled {
  sc_kpi : cube; sc_treatments : cube;
  sc_reach : option cube; sc_organic_reach : option cube;
  sc_frequency : option cube; sc_organic_frequency : option cube
}.
Definition or_info (l : list finding) : list finding := if M_Eda.empty l then [(M_Eda.Info, NoCause)] else l.
(** What eda_engine.py:1808-1909 and 1911-2006 share: the four checks and the INFO finding. *)
Definition std_checks (d : scaled) (threshold : R) : list finding :=
  or_info (flat_map (fun o => match o with Some x => check_std_of x threshold | None => [] end)
    [Some (sc_kpi d); Some (sc_treatments d); all_of (sc_reach d) (sc_organic_reach d);
     all_of (sc_frequency d) (sc_organic_frequency d)]).
(** eda_engine.py:1808-1909 [check_geo_std], 1911-2006 [check_national_std], 2008-2019 [check_std]. *)
Definition check_geo_std (is_national : bool) (geo : scaled) (geo_threshold : R) : result (list finding) :=
  raise_if is_national ValueError (Ok (std_checks geo geo_threshold)).
Definition check_national_std (national : scaled) (national_threshold : R) : result (list finding) :=
  Ok (std_checks national national_threshold).
Definition check_std (is_national : bool) (geo national : scaled) (geo_threshold national_threshold : R)
    : result (list finding) :=
  if is_national then check_national_std national national_threshold
  else check_geo_std is_national geo geo_threshold.

(** Spend and media units of the paid channels. *)
Record costs := mkCosts {
  co_geos : nat; co_times : nat; co_channels : nat;
  co_spend : nat -> nat -> nat -> R; co_units : nat -> nat -> nat -> R
}.
Definition zero (a : R) : bool := if Req_EM_T a 0 then true else false.
Definition positions (c : costs) : list (nat * nat * nat) :=
  flat_map (fun g => flat_map (fun t => map (fun v => (g, t, v)) (seq 0 (co_channels c)))
    (seq 0 (co_times c))) (seq 0 (co_geos c)).
(** eda_engine.py:403-434 [_check_cost_media_unit_inconsistency]. *)
Definition inconsistencies (c : costs) : list (nat * nat * nat) :=
  let cost p := let '(g, t, v) := p in co_spend c g t v in
  let units p := let '(g, t, v) := p in co_units c g t v in
  filter (fun p => zero (cost p) && lt_bool 0 (units p)) (positions c)
  ++ filter (fun p => lt_bool 0 (cost p) && zero (units p)) (positions c).
(** eda_engine.py:461-465. *)
Definition cost_per_media_unit (c : costs) : cube :=
  mkCube (co_geos c) (co_times c) (co_channels c)
    (fun g t v => if Req_EM_T (co_units c g t v) 0 then None else Some (co_spend c g t v / co_units c g t v)).
Record cost_outcome := mkCostOutcome {
  cp_findings : list finding;
  cp_cost_per_unit : cube;
  cp_inconsistent : list (nat * nat * nat);
  cp_outliers : list (cell * (R * R))
}.
(** eda_engine.py:437-535 [_check_cost_per_media_unit]. *)
Definition check_cost_per_media_unit (c : costs) : cost_outcome :=
  let bad := inconsistencies c in
  let q := cost_per_media_unit c in
  let out := map (fun a => (a, (co_spend c (ce_geo a) (ce_time a) (ce_var a), co_units c (ce_geo a) (ce_time a) (ce_var a))))
               (calculate_outliers q) in
  mkCostOutcome
    (or_info ((if M_Eda.empty bad then [] else [(M_Eda.Attention, InconsistentData)])
              ++ (if M_Eda.empty out then [] else [(M_Eda.Attention, Outlier)])))
    q bad out.
