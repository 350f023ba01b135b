(** Model of the model fit processor (meridian/schema/processors/model_fit_processor.py) on top of the analyzer's tables
    (M_FitTable, M_Accuracy), and of the planner's two tables of its output
    (scenarioplanner/converters/dataframe/marketing_analyses_converters.py).
    The labels of the periods are the strings of their dates, so that a date and its label stand for each other; doubles
    are reals or NaN ([None]).  Warnings are not modelled. *)
From Coq Require Import Reals ZArith String List Bool Arith.
From Verif Require Import Lib_Sum M_Base M_AdstockHill M_Equations M_Transformers M_Aggregate M_Analyzer M_Stats
  M_Accuracy M_FitTable M_Time.
From Verif Require M_BudgetSpec.
Import ListNotations.
Local Open Scope R_scope.
Local Open Scope string_scope.
Local Open Scope nat_scope.
Local Open Scope list_scope.

(** model_fit_processor.py:84-105 [ModelFitSpec], [validate]. *)
Record fit_spec := mkFitSpec { g_split : bool; g_level : R }.
Definition validate_fit (s : fit_spec) : result unit :=
  raise_if (if Rle_dec (g_level s) 0 then true else if Rle_dec 1 (g_level s) then true else false) ValueError (Ok tt).

(** Messages (mmm/v1/fit/model_fit.proto); a date interval is a pair of day numbers. *)
Record fit_estimate := mkFitEstimate { fe_value : option R; fe_probability : R; fe_lower : option R; fe_upper : option R }.
Record prediction := mkPrediction { pr_interval : Z * Z; pr_outcome : fit_estimate; pr_baseline : fit_estimate; pr_actual : R }.
Record performance := mkPerformance { pf_r_squared : option R; pf_mape : option R; pf_weighted_mape : option R }.
Record fit_result := mkFitResult { fr_name : string; fr_predictions : list prediction; fr_performance : performance }.

(** time_record.py:32-67 [convert_times_to_date_intervals]: the dict from labels to periods. *)
Definition fit_intervals (labels : list string) (dates : list date) : result (list (string * (Z * Z))) :=
  raise_if (Nat.ltb (length dates) 2) ValueError (
  rbind (time_coordinates dates) (fun l =>
  rbind (get_period_bounds l None) (fun b => Ok (combine labels b)))).

(** [.sel(dim=label)]: KeyError for an unknown label. *)
Fixpoint label_at {A} (eqb : A -> A -> bool) (a : A) (l : list A) : result nat :=
  match l with
  | [] => Err KeyError
  | b :: r => if eqb a b then Ok 0 else rbind (label_at eqb a r) (fun i => Ok (S i))
  end.
Definition same_stat (a b : stat) : bool := match a, b with Mean, Mean | CiLo, CiLo | CiHi, CiHi => true | _, _ => false end.
Definition same_set (a b : evaluation_set) : bool := match a, b with Train, Train | Test, Test | AllData, AllData => true | _, _ => false end.
Definition same_metric (a b : metric) : bool := match a, b with RSquared, RSquared | Mape, Mape | WMape, WMape => true | _, _ => false end.
Definition same_gran (a b : granularity) : bool := match a, b with Geo, Geo | National, National => true | _, _ => false end.
(** constants.py: TRAIN, TEST, ALL_DATA. *)
Definition set_name (s : evaluation_set) : string := match s with Train => "Train" | Test => "Test" | AllData => "All Data" end.

(** [expected_vs_actual.sel(evaluation_set=...)]: the last index, if a set is selected. *)
Definition set_index (labels : option (list evaluation_set)) (sel : option evaluation_set) : result (list nat) :=
  match sel with
  | None => Ok []
  | Some s => match labels with Some l => rbind (label_at same_set s l) (fun k => Ok [k]) | None => Err KeyError end
  end.
(** 229-241, 262-292: mean and bounds of a variable in a period. *)
Definition stat_item (f : fit_table) (a : ntensor) (j : nat) (suffix : list nat) (m : stat) : result (option R) :=
  rbind (label_at same_stat m (f_metric f)) (fun i => Ok (n_at a (j :: i :: suffix))).
Definition fit_estimate_of (f : fit_table) (a : ntensor) (j : nat) (suffix : list nat) (level : R) : result fit_estimate :=
  rbind (stat_item f a j suffix Mean) (fun v =>
  rbind (stat_item f a j suffix CiLo) (fun lo =>
  rbind (stat_item f a j suffix CiHi) (fun hi => Ok (mkFitEstimate v level lo hi)))).
(** 216-260, 270-321: one prediction. *)
Definition prediction_of (f : fit_table) (suffix : list nat) (intervals : list (string * (Z * Z))) (level : R) (label : string) : result prediction :=
  rbind (match M_BudgetSpec.dget intervals label with Some i => Ok i | None => Err KeyError end) (fun interval =>
  rbind (match f_time f with Some l => label_at String.eqb label l | None => Err KeyError end) (fun j =>
  let actual := at_ (f_actual f) [j] in
  rbind (fit_estimate_of f (f_expected f) j suffix level) (fun e =>
  rbind (fit_estimate_of f (f_baseline f) j suffix level) (fun b =>
  Ok (mkPrediction interval e b actual))))).

(** 323-367 [_evaluate_model_fit] of [metrics.sel(evaluation_set=...)], or of [metrics]: [item] raises unless there is
    exactly one value. *)
Definition metric_item (d : dataset) (sel : option evaluation_set) (m : metric) : result (option R) :=
  rbind (label_at same_gran National (ds_granularity d)) (fun g =>
  rbind (label_at same_metric m (ds_metric d)) (fun i =>
  let values := nth g (nth i (ds_value d) []) [] in
  match sel with
  | Some s => match ds_set d with Some l => rbind (label_at same_set s l) (fun k => Ok (nth k values None)) | None => Err KeyError end
  | None => match values with [v] => Ok v | _ => Err ValueError end
  end)).
Definition evaluate (d : dataset) (sel : option evaluation_set) : result performance :=
  rbind (metric_item d sel RSquared) (fun r =>
  rbind (metric_item d sel Mape) (fun m =>
  rbind (metric_item d sel WMape) (fun w => Ok (mkPerformance r m w)))).

(** 187-268 [_create_result]. *)
Definition create_result (name : string) (f : fit_table) (d : dataset) (sel : option evaluation_set) (labels : list string)
    (intervals : list (string * (Z * Z))) (level : R) : result fit_result :=
  rbind (set_index (f_set f) sel) (fun suffix =>
  rbind (M_BudgetSpec.mapR (prediction_of f suffix intervals level) labels) (fun ps =>
  rbind (evaluate d sel) (fun p => Ok (mkFitResult name ps p)))).

(** 133-185 [execute]; analyzer calls at their default batch size 100 (constants.py:778), use_kpi and baseline values. *)
Definition execute_fit (x : model) (holdout : option (matrix bool)) (n_chains n_draws : nat) (draws : list draw)
    (dates : list date) (specs : list fit_spec) : result (list fit_result) :=
  match specs with
  | [] => Err IndexError
  | s :: _ =>
    rbind (expected_vs_actual x holdout n_chains n_draws true false false (g_split s) None (g_level s) 100 draws) (fun f =>
    rbind (predictive_accuracy x holdout None None false 100 draws) (fun d =>
    rbind (fit_intervals (x_time x) dates) (fun intervals =>
    match f_set f with
    | Some _ => M_BudgetSpec.mapR (fun e => create_result (set_name e) f d (Some e) (x_time x) intervals (g_level s)) [Train; Test; AllData]
    | None => rbind (create_result (set_name AllData) f d None (x_time x) intervals (g_level s)) (fun r => Ok [r])
    end)))
  end.

(** *** The planner *)
(** marketing_analyses_converters.py:45-79 [ModelDiagnosticsConverter]; mmm.py:712-715 [model_fit_results]. *)
Definition diagnostics_rows (rs : list fit_result) : list (string * performance) :=
  map (fun e => (fst e, fr_performance (snd e))) (M_BudgetSpec.to_dict (map (fun r => (fr_name r, r)) rs)).
(** marketing_analyses_converters.py:82-155 [ModelFitConverter]; the time is the start of the interval. *)
Record fit_row := mkFitRow { fw_time : Z; fw_lower : option R; fw_upper : option R; fw_expected : option R; fw_baseline : option R; fw_actual : R }.
Definition select_fit (rs : list fit_result) : result fit_result :=
  match M_BudgetSpec.dget (M_BudgetSpec.to_dict (map (fun r => (fr_name r, r)) rs)) "All Data" with
  | Some r => Ok r
  | None => match rs with r :: _ => Ok r | [] => Err ValueError end
  end.
Definition fit_rows (rs : list fit_result) : result (list fit_row) :=
  rbind (select_fit rs) (fun r =>
  Ok (map (fun p => mkFitRow (fst (pr_interval p)) (fe_lower (pr_outcome p)) (fe_upper (pr_outcome p)) (fe_value (pr_outcome p))
                      (fe_value (pr_baseline p)) (pr_actual p)) (fr_predictions r))).
(** Both tables; without results there are none. *)
Definition fit_tables (rs : list fit_result) : result (option (list (string * performance) * list fit_row)) :=
  match rs with [] => Ok None | _ => rbind (fit_rows rs) (fun rows => Ok (Some (diagnostics_rows rs, rows))) end.
