(** Model of the budget optimization processor (meridian/schema/processors/budget_optimization_processor.py), of the
    specs it takes (model_processor.py), and of the tables the scenario planner makes of its output
    (scenarioplanner/converters/mmm.py, scenarioplanner/converters/dataframe/budget_opt_converters.py).
    The optimizer behind it is that of M_Optimizer.  Messages are records; fields that are not written here
    (new marketing data, the name of the input of a response curve, the unit of effectiveness) are left out. *)
From Coq Require Import ZArith QArith String Ascii List Bool Arith.
From Verif Require Import Lib_QSum Lib_Sort M_Base M_Opt M_Optimizer.
Import ListNotations.
Local Open Scope string_scope.
Local Open Scope list_scope.

(** budget_optimization_processor.py:153-210 [ChannelConstraintAbs], [ChannelConstraintRel]. *)
Inductive chan_constraint :=
| Rel (name : string) (lower upper : Q)
| Abs (name : string) (lower upper : Q).
Definition constraint_name (c : chan_constraint) : string := match c with Rel n _ _ | Abs n _ _ => n end.
Definition new_rel (name : string) (lower upper : Q) : result chan_constraint :=
  raise_if (Qlt_bool lower 0) ValueError (
  raise_if (Qlt_bool 1 lower) ValueError (
  raise_if (Qlt_bool upper 0) ValueError (Ok (Rel name lower upper)))).

(** optimizer.py:58-94 [FixedBudgetScenario], [FlexibleBudgetScenario]; the metrics are constants.py [ROI], [MROI]. *)
Inductive budget_scenario := FixedScenario (total : option Q) | FlexibleScenario (metric : string) (target : Q).
Definition new_fixed (total : option Q) : result budget_scenario :=
  raise_if (match total with Some b => Qlt_bool b 0 | None => false end) ValueError (Ok (FixedScenario total)).
Definition new_flexible (metric : string) (target : Q) : result budget_scenario :=
  raise_if (negb (String.eqb metric "roi" || String.eqb metric "mroi")) ValueError (
  raise_if (Qlt_bool target 0) ValueError (Ok (FlexibleScenario metric target))).

(** [not s or s.isspace()]: empty or white space only (ASCII). *)
Definition is_space (c : ascii) : bool :=
  let n := nat_of_ascii c in (Nat.leb 9 n && Nat.leb n 13) || (Nat.leb 28 n && Nat.leb n 32).
Fixpoint blank (s : string) : bool := match s with EmptyString => true | String c r => is_space c && blank r end.

(** mmm.v1 messages. *)
Inductive metric_pb := PbRoi | PbMarginalRoi.
Inductive scenario_pb := PbFixed (total : Q) | PbFlexible (targets : list (metric_pb * Q)).
Record constraint_pb := mkConstraintPb { cp_channel : string; cp_min : Q; cp_max : Q }.
Record spec_pb := mkSpecPb {
  pb_start : Z; pb_end : Z; pb_tag : string; pb_revenue : bool; pb_batch : Z; pb_scenario : scenario_pb;
  pb_constraints : list constraint_pb; pb_optimal_frequency : bool; pb_max_frequency : option Q }.

(** dict from a comprehension: a later entry replaces the value of an earlier one and keeps its place. *)
Fixpoint dput {A} (d : list (string * A)) (k : string) (x : A) : list (string * A) :=
  match d with [] => [(k, x)] | (n, y) :: r => if String.eqb n k then (n, x) :: r else (n, y) :: dput r k x end.
Definition to_dict {A} (l : list (string * A)) : list (string * A) := fold_left (fun d e => dput d (fst e) (snd e)) l [].
Fixpoint dget {A} (d : list (string * A)) (k : string) : option A :=
  match d with [] => None | (n, x) :: r => if String.eqb n k then Some x else dget r k end.

(** budget_optimization_processor.py:644-692 [build_constraints_kwargs]. *)
Definition mem (k : string) (l : list string) : bool := existsb (String.eqb k) l.
Fixpoint constraint_lists (d : list (string * chan_constraint)) (channels : list string) : result (list Q * list Q) :=
  match channels with
  | [] => Ok ([], [])
  | c :: r =>
    rbind (match dget d c with
           | Some (Rel _ lo hi) => Ok (lo, hi)
           | Some (Abs _ _ _) => Err ValueError
           | None => Ok (1, 2)%Q
           end) (fun b =>
    rbind (constraint_lists d r) (fun l => Ok (fst b :: fst l, snd b :: snd l)))
  end.
Definition build_constraints (cs : list chan_constraint) (channels : list string) : result (list Q * list Q) :=
  let d := to_dict (map (fun c => (constraint_name c, c)) cs) in
  raise_if (negb (forallb (fun e => mem (fst e) channels) d)) ValueError (constraint_lists d channels).

(** budget_optimization_processor.py:605-641 [build_scenario_kwargs]: budget, target_roi, target_mroi. *)
Definition build_scenario (s : budget_scenario) : result (option Q * option Q * option Q) :=
  match s with
  | FixedScenario b => Ok (b, None, None)
  | FlexibleScenario m t =>
    if String.eqb m "roi" then Ok (None, Some t, None)
    else if String.eqb m "mroi" then Ok (None, None, Some t)
    else Err ValueError
  end.
Definition is_fixed (s : budget_scenario) : bool := match s with FixedScenario _ => true | _ => false end.

Fixpoint mapR {A B} (f : A -> result B) (l : list A) : result (list B) :=
  match l with [] => Ok [] | x :: r => rbind (f x) (fun y => rbind (mapR f r) (fun ys => Ok (y :: ys))) end.

(** [len(set(ids)) != len(ids)] for the ids that are set. *)
Definition unique_ids (ids : list string) : bool :=
  let l := filter (fun i => negb (String.eqb i "")) ids in
  Nat.eqb (length (nodup string_dec l)) (length l).

Section Processor.
(** [New] is the type of new data, [Data] of data filled up with the model's; numbers computed from draws are [V]. *)
Variables Data New Frequency V : Type.
Variable channels : list string.
Variable has_rf : bool.
Variables first_date last_date interval : Data -> Z.
Variable spend_of : Data -> option (list string) -> option Z -> option Z -> result (nat -> Q).
Variable frequency_of : Data -> bool -> option (list string) -> option Z -> option Z -> bool -> option Q -> result Frequency.
Variable outcome_of : Data -> bool -> bool -> option (list string) -> option Z -> option Z -> option Frequency -> nat -> Z -> Q.
Variable fitted : bool -> bool.
Variable model_data : Data.
Variable filled : New -> Data.
Variable dated : New -> bool.
Variable revenue_model : bool.
Let n := length channels.

(** mean, median, ci_lo, ci_hi of a metric, and the metrics of a channel in a budget dataset (optimizer.py:2448-2630:
    C35, C85), given the request, the grid used, the frequency and the spend of every channel. *)
Record summary := mkSummary { m_mean : V; m_median : V; m_lo : V; m_hi : V }.
Record metrics := mkMetrics { k_outcome : summary; k_effectiveness : summary; k_roi : summary; k_mroi : summary; k_cpik : summary }.
Variable metrics_of : request Data -> Q -> ogrid Frequency -> option Frequency -> (nat -> Z) -> nat -> metrics.
(** [OptimizationResults.get_response_curves]: spend and mean incremental outcome of a channel, by multiplier. *)
Variable curve_of : request Data -> outcome Frequency -> nat -> list (Q * V).

(** budget_optimization_processor.py:215-267, model_processor.py:117-133, 317-332: the fields of a spec. *)
Record spec := mkSpec {
  s_name : string; s_grid_name : string; s_group : option string; s_confidence : Q; s_start : option Z; s_end : option Z; s_tag : string;
  s_scenario : budget_scenario; s_constraints : list chan_constraint; s_revenue : bool; s_grid : option (ogrid Frequency);
  s_curves : bool; s_new : option New; s_optimal_frequency : bool; s_max_frequency : option Q; s_batch : Z }.

(** model_processor.py:134-142, 334-346, budget_optimization_processor.py:269-282 [validate], run by every
    construction of a spec. *)
Definition validate (s : spec) : result unit :=
  raise_if (match s_start s, s_end s with Some a, Some b => Z.ltb b a | _, _ => false end) ValueError (
  raise_if (blank (s_name s)) ValueError (
  raise_if (blank (s_grid_name s)) ValueError (
  raise_if (Qlt_bool (s_confidence s) 0 || Qlt_bool 1 (s_confidence s)) ValueError (
  raise_if (Z.leb (s_batch s) 0) ValueError (
  raise_if (match s_new s with Some d => negb (dated d) | None => false end) ValueError (
  raise_if (s_optimal_frequency s && match s_max_frequency s with Some f => Qlt_bool f 1 | None => false end) ValueError (Ok tt))))))).

Definition with_resolved (s : spec) (a b : Z) (cs : list chan_constraint) : spec :=
  mkSpec (s_name s) (s_grid_name s) (s_group s) (s_confidence s) (Some a) (Some b) (s_tag s) (s_scenario s) cs (s_revenue s) (s_grid s)
    (s_curves s) (s_new s) (s_optimal_frequency s) (s_max_frequency s) (s_batch s).
Definition with_scenario (s : spec) (sc : budget_scenario) : spec :=
  mkSpec (s_name s) (s_grid_name s) (s_group s) (s_confidence s) (s_start s) (s_end s) (s_tag s) sc (s_constraints s) (s_revenue s) (s_grid s)
    (s_curves s) (s_new s) (s_optimal_frequency s) (s_max_frequency s) (s_batch s).

(** budget_optimization_processor.py:284-343 [to_proto], 831-842 [_target_metric_to_proto]. *)
Fixpoint constraint_pbs (cs : list chan_constraint) : result (list constraint_pb) :=
  match cs with
  | [] => Ok []
  | Abs c lo hi :: r => rbind (constraint_pbs r) (fun l => Ok (mkConstraintPb c lo hi :: l))
  | Rel _ _ _ :: _ => Err ValueError
  end.
Definition to_proto (s : spec) : result spec_pb :=
  match s_start s, s_end s with
  | Some a, Some b =>
    rbind (match s_scenario s with
           | FixedScenario None => Err ValueError
           | FixedScenario (Some t) => Ok (PbFixed t)
           | FlexibleScenario m t =>
             if String.eqb m "roi" then Ok (PbFlexible [(PbRoi, t)])
             else if String.eqb m "mroi" then Ok (PbFlexible [(PbMarginalRoi, t)]) else Err ValueError
           end) (fun sc =>
    rbind (constraint_pbs (s_constraints s)) (fun cs =>
    Ok (mkSpecPb a b (s_tag s) (s_revenue s) (s_batch s) sc cs (s_optimal_frequency s) (s_max_frequency s))))
  | _, _ => Err ValueError
  end.

(** budget_optimization_processor.py:816-828 [_to_estimate]. *)
Record estimate := mkEstimate { e_value : V; e_probability : Q; e_lower : V; e_upper : V }.
Definition to_estimate (x : summary) (confidence : Q) : estimate := mkEstimate (m_mean x) confidence (m_lo x) (m_hi x).

(** budget_optimization_processor.py:738-766 [_to_outcome]. *)
Record outcome_pb := mkOutcomePb {
  o_revenue : bool; o_roi : estimate; o_mroi : estimate; o_cost : estimate; o_contribution : estimate; o_effectiveness : estimate }.
Definition to_outcome (revenue : bool) (confidence : Q) (m : metrics) : outcome_pb :=
  mkOutcomePb revenue (to_estimate (k_roi m) confidence) (to_estimate (k_mroi m) confidence) (to_estimate (k_cpik m) confidence)
    (to_estimate (k_outcome m) confidence) (to_estimate (k_effectiveness m) confidence).

(** budget_optimization_processor.py:511-562 [to_marketing_analysis], 695-735 [_to_channel_response_curve_protos].
    Channels are taken by position: channel names are distinct.  The pivoted table is sorted by spend; points of
    equal spend keep the order of their multipliers. *)
Record media_pb := mkMediaPb { ma_channel : string; ma_spend : Q; ma_share : Q; ma_outcomes : list outcome_pb; ma_curve : list (Q * V) }.
Record analysis_pb := mkAnalysisPb { an_start : Z; an_end : Z; an_tag : string; an_media : list media_pb }.
Definition point_le (x y : Q * V) : bool := Qle_bool (fst x) (fst y).
Definition share_of (spend : nat -> Z) (i : nat) : Q :=
  let total := zsum n spend in
  (inject_Z (spend i) / (if Z.ltb 0 total then inject_Z total else 1))%Q.
Definition to_analysis (s : spec) (a b : Z) (spend : nat -> Z) (m : nat -> metrics) (revenue : bool) (curves : option (nat -> list (Q * V))) : analysis_pb :=
  mkAnalysisPb a b (s_tag s)
    (map (fun ic => mkMediaPb (snd ic) (inject_Z (spend (fst ic))) (share_of spend (fst ic)) [to_outcome revenue (s_confidence s) (m (fst ic))]
                      (match curves with Some f => isort point_le (f (fst ic)) | None => [] end))
         (combine (seq 0 n) channels)).

(** budget_optimization_processor.py:769-813 [to_incremental_outcome_grid]: NaN cells are dropped. *)
Record grid_pb := mkGridPb { gp_name : string; gp_step : Z; gp_cells : list (string * list (Z * Q)) }.
Definition kept_cells (col : list cells) : list (Z * Q) := flat_map (fun x => match x with Some p => [p] | None => [] end) col.
Definition to_grid (g : ogrid Frequency) (name : string) : grid_pb :=
  mkGridPb name (pow10 (g_round g)) (combine (g_channels g) (map kept_cells (g_cells g))).

Record result_pb := mkResultPb {
  r_name : string; r_group : string; r_spec : spec_pb; r_optimized : analysis_pb; r_non_optimized : analysis_pb; r_grid : grid_pb }.

(** budget_optimization_processor.py:390-418, model_processor.py:166-187 [to_closed_date_interval_tuple]: what the
    optimizer is asked for.  use_posterior, gtol (0.0001), selected_geos and pct_of_spend are left at their defaults. *)
Definition data_of (s : spec) : Data := match s_new s with Some d => filled d | None => model_data end.
Definition request_of (s : spec) (k : option Q * option Q * option Q) (lo hi : list Q) : request Data :=
  let '(budget, roi, mroi) := k in
  mkRequest (data_of s) true None (s_start s) (option_map (fun e => e - interval (data_of s))%Z (s_end s))
    (is_fixed (s_scenario s)) budget None (Some (PerChannel lo)) (Some (PerChannel hi)) roi mroi (1 # 10000)
    (s_optimal_frequency s) (s_max_frequency s) (negb (s_revenue s)).

(** model_processor.py:283-294 [resolve_to_date_interval_open_end]. *)
Definition open_start (s : spec) : Z := match s_start s with Some a => a | None => first_date (data_of s) end.
Definition open_end (s : spec) : Z := match s_end s with Some b => b | None => (last_date (data_of s) + interval (data_of s))%Z end.

(** budget_optimization_processor.py:565-602 [_get_channel_constraints_abs]. *)
Definition constraints_abs (o : outcome Frequency) (lo hi : list Q) : result (list chan_constraint) :=
  rbind (get_optimization_bounds n (fun i => inject_Z (o_non_optimized _ o i)) (g_round (o_grid _ o)) (PerChannel lo) (PerChannel hi)) (fun b =>
  Ok (map (fun ic => Abs (snd ic) (inject_Z (fst b (fst ic))) (inject_Z (snd b (fst ic)))) (combine (seq 0 n) channels))).

(** budget_optimization_processor.py:428-508 [_to_budget_optimization_result].  [dataclasses.replace] constructs, and
    so validates, the resolved spec.  optimizer.py:2614-2616: whether a dataset is about revenue. *)
Definition to_result (s : spec) (a : request Data) (o : outcome Frequency) (lo hi : list Q) : result result_pb :=
  rbind (constraints_abs o lo hi) (fun cs =>
  let r := with_resolved s (open_start s) (open_end s) cs in
  rbind (validate r) (fun _ =>
  rbind (match s_scenario r with
         | FixedScenario None => rbind (new_fixed (Some (inject_Z (zsum n (o_optimized _ o))))) (fun sc => Ok (with_scenario r sc))
         | _ => Ok r
         end) (fun r =>
  let curves := if s_curves s then Some (curve_of a o) else None in
  let revenue := revenue_model || negb (a_kpi a) in
  let optimized := to_analysis s (open_start s) (open_end s) (o_optimized _ o)
                     (metrics_of a (s_confidence s) (o_grid _ o) (g_frequency (o_grid _ o)) (o_optimized _ o)) revenue curves in
  let non_optimized := to_analysis s (open_start s) (open_end s) (o_non_optimized _ o)
                     (metrics_of a (s_confidence s) (o_grid _ o) None (o_non_optimized _ o)) revenue curves in
  rbind (to_proto r) (fun p =>
  Ok (mkResultPb (s_name s) (match s_group s with Some g => g | None => "" end) p optimized non_optimized
        (to_grid (o_grid _ o) (s_grid_name s))))))).

(** budget_optimization_processor.py:373-426 [execute]. *)
Definition run_spec (s : spec) : result result_pb :=
  rbind (build_scenario (s_scenario s)) (fun k =>
  rbind (build_constraints (s_constraints s) channels) (fun b =>
  let a := request_of s k (fst b) (snd b) in
  rbind (M_Optimizer.optimize Data Frequency channels has_rf first_date last_date spend_of frequency_of outcome_of fitted a (s_grid s)) (fun o =>
  to_result s a o (fst b) (snd b)))).
Definition group_of (s : spec) : string := match s_group s with Some g => g | None => "" end.
Definition execute (specs : list spec) : result (list result_pb) :=
  raise_if (negb (unique_ids (map group_of specs))) ValueError (mapR run_spec specs).

(** *** The tables of the scenario planner *)

(** [MarketingData.all_channel_spends] (C98): the historical spend of the channels between two dates; the media
    channels of the marketing data. *)
Variable historical : Z -> Z -> list (string * Q).
Variable media_channels : list string.

(** mmm.py:409-422 [max_budget]: an unset message field reads as 0. *)
Definition max_budget (p : spec_pb) : Q := match pb_scenario p with PbFixed b => b | PbFlexible _ => 0 end.

(** common.py:23-42 [map_target_metric_str]. *)
Definition metric_name (m : metric_pb) : string := match m with PbRoi => "ROI" | PbMarginalRoi => "Marginal ROI" end.

(** budget_opt_converters.py:138-242 [BudgetOptimizationSpecsConverter]. *)
Record spec_row := mkSpecRow {
  sr_group : string; sr_start : Z; sr_end : Z; sr_period : string; sr_objective : string; sr_scenario : string; sr_initial : Q;
  sr_metric : option string; sr_target : option Q; sr_channel : string; sr_min : Q; sr_max : Q }.
Definition spec_rows (r : result_pb) : result (list spec_row) :=
  let p := r_spec r in
  rbind (match pb_scenario p with
         | PbFixed _ => Ok ("Fixed", None, None)
         | PbFlexible [] => Err IndexError
         | PbFlexible ((m, t) :: _) => Ok ("Flexible", Some (metric_name m), Some t)
         end) (fun x =>
  let '(sc, metric, target) := x in
  let cs := match pb_constraints p with
            | [] => map (fun c => mkConstraintPb c 0 (max_budget p)) media_channels
            | l => l
            end in
  Ok (map (fun c => mkSpecRow (r_group r) (pb_start p) (pb_end p) (pb_tag p) "KPI" sc
                      (match dget (historical (pb_start p) (pb_end p)) (cp_channel c) with Some x => x | None => 0 end)
                      metric target (cp_channel c) (cp_min c) (cp_max c)) cs)).

(** budget_opt_converters.py:263-329 [BudgetOptimizationResultsConverter]; mmm.py:176-205: the first outcome of
    each kind. *)
Record result_row := mkResultRow {
  rr_group : string; rr_channel : string; rr_revenue : bool; rr_spend : Q; rr_share : Q; rr_effectiveness : V; rr_roi : V; rr_mroi : V; rr_cpc : V }.
Definition first_outcome (revenue : bool) (m : media_pb) : list outcome_pb :=
  match find (fun o => Bool.eqb (o_revenue o) revenue) (ma_outcomes m) with Some o => [o] | None => [] end.
Definition outcome_row (g : string) (revenue : bool) (m : media_pb) (o : outcome_pb) : result_row :=
  mkResultRow g (ma_channel m) revenue (ma_spend m) (ma_share m) (e_value (o_effectiveness o)) (e_value (o_roi o)) (e_value (o_mroi o)) (e_value (o_cost o)).
Definition result_rows (r : result_pb) : list result_row :=
  flat_map (fun e : string * media_pb =>
    if String.eqb (fst e) "All Channels" then [] else
    map (outcome_row (r_group r) true (snd e)) (first_outcome true (snd e)) ++
    map (outcome_row (r_group r) false (snd e)) (first_outcome false (snd e)))
  (to_dict (map (fun m => (ma_channel m, m)) (an_media (r_optimized r)))).

(** budget_opt_converters.py:79-113 [NamedOptimizationGridConverter]; mmm.py:344-354. *)
Record grid_row := mkGridRow { gw_group : string; gw_channel : string; gw_spend : Z; gw_outcome : Q }.
Definition grid_rows (r : result_pb) : list grid_row :=
  flat_map (fun e => map (fun c => mkGridRow (r_group r) (fst e) (fst c) (snd c)) (snd e)) (to_dict (gp_cells (r_grid r))).

(** budget_opt_converters.py:344-374 [BudgetOptimizationResponseCurvesConverter]. *)
Record curve_row := mkCurveRow { cw_group : string; cw_channel : string; cw_spend : Q; cw_outcome : V }.
Definition curve_rows (r : result_pb) : list curve_row :=
  flat_map (fun m => map (fun p => mkCurveRow (r_group r) (ma_channel m) (fst p) (snd p)) (ma_curve m)) (an_media (r_optimized r)).

(** common.py:45-71: every run of white space of a name becomes one underscore. *)
Fixpoint sheet_format (after_space : bool) (s : string) : string :=
  match s with
  | EmptyString => ""
  | String c r => if is_space c then (if after_space then sheet_format true r else String "_" (sheet_format true r))
                  else String c (sheet_format false r)
  end.
Definition grid_sheet (r : result_pb) : string := "budget_opt_grid_" ++ sheet_format false (gp_name (r_grid r)).

(** budget_opt_converters.py:45-58: all tables; without results there are none. *)
Record tables := mkTables {
  t_grids : list (string * list grid_row); t_specs : list spec_row; t_results : list result_row; t_curves : list curve_row }.
Definition make_tables (rs : list result_pb) : result (option tables) :=
  match rs with
  | [] => Ok None
  | _ =>
    raise_if (negb (unique_ids (map r_group rs))) ValueError (
    rbind (mapR spec_rows rs) (fun sp =>
    Ok (Some (mkTables (map (fun r => (grid_sheet r, grid_rows r)) rs) (concat sp) (flat_map result_rows rs) (flat_map curve_rows rs)))))
  end.
End Processor.
Arguments mkSpec {New Frequency}. Arguments s_name {New Frequency}. Arguments s_grid_name {New Frequency}. Arguments s_group {New Frequency}. Arguments s_confidence {New Frequency}. Arguments s_start {New Frequency}. Arguments s_end {New Frequency}. Arguments s_tag {New Frequency}. Arguments s_scenario {New Frequency}. Arguments s_constraints {New Frequency}. Arguments s_revenue {New Frequency}. Arguments s_grid {New Frequency}. Arguments s_curves {New Frequency}. Arguments s_new {New Frequency}. Arguments s_optimal_frequency {New Frequency}. Arguments s_max_frequency {New Frequency}. Arguments s_batch {New Frequency}. Arguments with_resolved {New Frequency}. Arguments with_scenario {New Frequency}. Arguments to_proto {New Frequency}. Arguments group_of {New Frequency}. 
Arguments mkSummary {V}. Arguments m_mean {V}. Arguments m_median {V}. Arguments m_lo {V}. Arguments m_hi {V}. Arguments mkMetrics {V}. Arguments k_outcome {V}. Arguments k_effectiveness {V}. Arguments k_roi {V}. Arguments k_mroi {V}. Arguments k_cpik {V}. Arguments mkEstimate {V}. Arguments e_value {V}. Arguments e_probability {V}. Arguments e_lower {V}. Arguments e_upper {V}. Arguments to_estimate {V}. Arguments mkOutcomePb {V}. Arguments o_revenue {V}. Arguments o_roi {V}. Arguments o_mroi {V}. Arguments o_cost {V}. Arguments o_contribution {V}. Arguments o_effectiveness {V}. Arguments to_outcome {V}. Arguments mkMediaPb {V}. Arguments ma_channel {V}. Arguments ma_spend {V}. Arguments ma_share {V}. Arguments ma_outcomes {V}. Arguments ma_curve {V}. Arguments mkAnalysisPb {V}. Arguments an_start {V}. Arguments an_end {V}. Arguments an_tag {V}. Arguments an_media {V}. Arguments mkResultPb {V}. Arguments r_name {V}. Arguments r_group {V}. Arguments r_spec {V}. Arguments r_optimized {V}. Arguments r_non_optimized {V}. Arguments r_grid {V}. Arguments mkResultRow {V}. Arguments rr_group {V}. Arguments rr_channel {V}. Arguments rr_revenue {V}. Arguments rr_spend {V}. Arguments rr_share {V}. Arguments rr_effectiveness {V}. Arguments rr_roi {V}. Arguments rr_mroi {V}. Arguments rr_cpc {V}. Arguments mkCurveRow {V}. Arguments cw_group {V}. Arguments cw_channel {V}. Arguments cw_spend {V}. Arguments cw_outcome {V}. Arguments mkTables {V}. Arguments t_grids {V}. Arguments t_specs {V}. Arguments t_results {V}. Arguments t_curves {V}. Arguments point_le {V}. Arguments result_rows {V}. Arguments grid_rows {V}. Arguments curve_rows {V}. Arguments grid_sheet {V}. Arguments first_outcome {V}. Arguments outcome_row {V}. 
Arguments to_grid {Frequency}.
