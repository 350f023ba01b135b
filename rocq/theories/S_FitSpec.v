(** What the model fit processor promises. *)
From Coq Require Import Reals ZArith String List Bool Arith.
From Verif Require Import Lib_Sum M_Base M_AdstockHill M_Equations M_Transformers M_Aggregate
  S_Aggregate S_Adstock S_Media S_Analyzer M_Analyzer S_Predictor M_Stats S_Stats M_Accuracy S_Accuracy M_FitTable S_FitTable
  M_Time S_Time M_FitSpec.
Import ListNotations.
Local Open Scope R_scope.
Local Open Scope string_scope.
Local Open Scope nat_scope.
Local Open Scope list_scope.

(** Dates of the periods: calendar dates in order, evenly spaced (as input data must be), one for each label, and
    the labels differ. *)
Definition dated (x : model) (dates : list date) : Prop :=
  NoDup (x_time x) /\ length dates = x_n_times x /\ 2 <= length dates /\ Forall valid_date dates /\ increasing dates /\
  ((exists c, forall y, In y (intervals dates) -> y = c) \/ (forall y, In y (intervals dates) -> In y [28; 29; 30; 31]%Z) \/
   (forall y, In y (intervals dates) -> In y [90; 91; 92]%Z) \/ (forall y, In y (intervals dates) -> In y [365; 366]%Z)).

(** The interval of period [j]: from its date, for at least a day, to the date of the next period if there is one. *)
Definition period_of (dates : list date) (j : nat) (i : Z * Z) : Prop :=
  (exists d, nth_error dates j = Some d /\ fst i = ordinal d) /\ (fst i < snd i)%Z /\
  (forall d, nth_error dates (S j) = Some d -> snd i = ordinal d).

(** An estimate of values, one per draw: their mean and the bounds of the credible interval of a level. *)
Definition estimated (level : R) (l : list R) (e : fit_estimate) : Prop :=
  fe_probability e = level /\
  (exists v, fe_value e = Some v /\ is_stat level l Mean v) /\ (exists v, fe_lower e = Some v /\ is_stat level l CiLo v) /\
  (exists v, fe_upper e = Some v /\ is_stat level l CiHi v).
Definition undefined (level : R) (e : fit_estimate) : Prop :=
  fe_probability e = level /\ fe_value e = None /\ fe_lower e = None /\ fe_upper e = None.

(** The prediction for period [j] of the evaluation set [s]: about all geos; defined if all observations of the period
    are in the set. *)
Definition predicted (x : model) (h : option (matrix bool)) (b : nat -> R) (draws : list draw) (level : R) (dates : list date)
    (s : evaluation_set) (j : nat) (p : prediction) : Prop :=
  let geos := seq 0 (x_n_geos x) in
  period_of dates j (pr_interval p) /\
  pr_actual p = total geos (fun g => actual_outcome x false g j) /\
  ((forall g, In g geos -> in_set h s g j = true) ->
     estimated level (map (cell_outcome x no_data false geos [j]) draws) (pr_outcome p) /\
     estimated level (map (cell_outcome x (no_media_scenario x b) false geos [j]) draws) (pr_baseline p)) /\
  ((exists g, In g geos /\ in_set h s g j = false) -> undefined level (pr_outcome p) /\ undefined level (pr_baseline p)).
(** The national metrics of the evaluation set. *)
Definition performs (x : model) (h : option (matrix bool)) (draws : list draw) (s : evaluation_set) (p : performance) : Prop :=
  let P := pairs x h (seq 0 (x_n_geos x)) (seq 0 (x_n_times x)) false draws National s in
  is_metric RSquared P (pf_r_squared p) /\ is_metric Mape P (pf_mape p) /\ is_metric WMape P (pf_weighted_mape p).
Definition fit_told (x : model) (h : option (matrix bool)) (b : nat -> R) (draws : list draw) (level : R) (dates : list date)
    (s : evaluation_set) (r : fit_result) : Prop :=
  fr_name r = set_name s /\ length (fr_predictions r) = x_n_times x /\
  (forall j p, nth_error (fr_predictions r) j = Some p -> predicted x h b draws level dates s j p) /\
  performs x h draws s (fr_performance r).
(** The evaluation sets reported. *)
Definition reported_sets (h : option (matrix bool)) : list evaluation_set :=
  match h with Some _ => [Train; Test; AllData] | None => [AllData] end.

(** A row of the planner's table of the fit: a period, all data. *)
Definition row_told (x : model) (b : nat -> R) (draws : list draw) (level : R) (dates : list date) (j : nat) (w : fit_row) : Prop :=
  let geos := seq 0 (x_n_geos x) in
  let expected := map (cell_outcome x no_data false geos [j]) draws in
  let baseline := map (cell_outcome x (no_media_scenario x b) false geos [j]) draws in
  (exists d, nth_error dates j = Some d /\ fw_time w = ordinal d) /\
  fw_actual w = total geos (fun g => actual_outcome x false g j) /\
  (exists v, fw_expected w = Some v /\ is_stat level expected Mean v) /\
  (exists v, fw_lower w = Some v /\ is_stat level expected CiLo v) /\
  (exists v, fw_upper w = Some v /\ is_stat level expected CiHi v) /\
  (exists v, fw_baseline w = Some v /\ is_stat level baseline Mean v).
