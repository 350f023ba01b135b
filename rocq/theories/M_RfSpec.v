(** Model of the reach and frequency optimization processor
    (meridian/schema/processors/reach_frequency_optimization_processor.py) and of the tables the scenario planner makes
    of its output (scenarioplanner/converters/mmm.py, scenarioplanner/converters/dataframe/rf_opt_converters.py).
    Dates are day numbers, floats are rationals, [None] is a number that is not finite.  What the analyzer computes from
    the draws at given frequencies is a parameter (C35, C36, C37, C60); how it searches the grid is not.  The name of the
    input of a response curve and the unit of effectiveness, which are constants, are left out. *)
From Coq Require Import ZArith QArith Qround String List Bool Arith.
From Verif Require Import Lib_QSum M_Base M_Opt M_BudgetSpec M_MarketingSpec.
Import ListNotations.
Local Open Scope string_scope.
Local Open Scope list_scope.

(** reach_frequency_optimization_processor.py:187-188 [_to_target_precision]: Python's [round(value, 1)]. *)
Definition round1 (x : Q) : Q := rint (x * 10) # 10.
(** [np.arange(start, stop, 0.1)]. *)
Definition arange (start stop : Q) : list Q :=
  map (fun i => start + (Z.of_nat i # 10))%Q (seq 0 (Z.to_nat (Qceiling ((stop - start) / (1 # 10))))).
(** reach_frequency_optimization_processor.py:105-107, 218-221: the grid; [_TOL] is 1e-6. *)
Definition frequency_grid (lo hi : Q) : list Q := map round1 (arange lo (hi + (1 # 1000000))%Q).

(** analyzer.py:3110 [np.nanargmax] of one column, with the frequency in place of the index. *)
Fixpoint best_from (best : option (Q * Q)) (l : list (Q * option Q)) : option (Q * Q) :=
  match l with
  | [] => best
  | (_, None) :: r => best_from best r
  | (f, Some v) :: r =>
    match best with
    | Some (_, b) => if Qlt_bool b v then best_from (Some (f, v)) r else best_from best r
    | None => best_from (Some (f, v)) r
    end
  end.
Definition best_of (l : list (Q * option Q)) : result Q :=
  match best_from None l with Some (f, _) => Ok f | None => Err ValueError end.

(** [np.max]. *)
Definition qmax_list (l : list Q) : result Q :=
  match l with [] => Err ValueError | a :: r => Ok (fold_left (fun m x => if Qlt_bool m x then x else m) r a) end.

(** Messages. *)
Definition oq := option Q.
Record rf_spec_pb := mkRfSpecPb { p_start : Z; p_end : Z; p_tag : string; p_constraints : list (string * (Q * Q)); p_revenue : bool }.
Record rf_media := mkRfMedia { v_channel : string; v_curve : list (Q * Q); v_spend : Q; v_share : oq; v_outcomes : list (outcome_pb oq) }.
Record rf_analysis := mkRfAnalysis { w_start : Z; w_end : Z; w_tag : string; w_media : list rf_media }.
Record rf_cell := mkRfCell { x_outcome : estimate oq; x_reach : Z; x_frequency : Q }.
Record rf_grid := mkRfGrid { y_name : string; y_step : Q; y_cells : list (string * list rf_cell) }.
Record rf_result := mkRfResult { z_name : string; z_group : string; z_spec : rf_spec_pb; z_frequencies : list (string * Q); z_analysis : rf_analysis; z_grid : rf_grid }.

(** reach_frequency_optimization_processor.py:110-150, model_processor.py:117-133, 317-332: the fields of a spec
    ([rf_channels], ignored on input, is the processor's list). *)
Record rf_spec := mkRfSpec { q_name : string; q_grid_name : string; q_group : option string; q_level : Q; q_start : option Z; q_end : option Z;
  q_tag : string; q_min : Q; q_max : option Q; q_revenue : bool }.

(** model_processor.py:134-142, 334-346, reach_frequency_optimization_processor.py:159-167 [validate]. *)
Definition validate_rf (s : rf_spec) : result unit :=
  raise_if (match q_start s, q_end s with Some a, Some b => Z.ltb b a | _, _ => false end) ValueError (
  raise_if (blank (q_name s)) ValueError (
  raise_if (blank (q_grid_name s)) ValueError (
  raise_if (Qlt_bool (q_level s) 0 || Qlt_bool 1 (q_level s)) ValueError (
  raise_if (Qlt_bool (q_min s) 0) ValueError (
  raise_if (match q_max s with Some m => Qlt_bool m (q_min s) | None => false end) ValueError (Ok tt)))))).

Section Rf.
Variable channels : list string.
Variable model_coords : coords.
(** [revenue_per_kpi is None]; [kpi_type == "revenue"]. *)
Variables kpi_only revenue_type : bool.
(** The reach and frequency tensors (geos, media times, channels). *)
Variables geos_n times_n : nat.
Variables frequency reach : nat -> nat -> nat -> Q.
(** selected times, use_kpi, level, frequency: the ROI of a channel; selected times, use_kpi, level, a frequency for
    every channel: its summary metrics ([k_mroi] by frequency); selected times, use_kpi, frequencies: its response curve
    (spend and mean outcome by multiplier). *)
Variable roi_at : option (list Z) -> bool -> Q -> Q -> string -> summary oq.
Variable metrics_at : option (list Z) -> bool -> Q -> list Q -> string -> metrics oq.
Variable curve_at : option (list Z) -> bool -> list Q -> string -> list (Q * Q).
(** analyzer.py:4407-4441 [get_historical_spend] (C63): paid channels and their spend. *)
Variable spend_of : option (list Z) -> list (string * Q).

(** analyzer.py:319-357 [_use_kpi]. *)
Definition use_kpi (kpi : bool) : bool := if kpi then negb revenue_type else kpi_only.

(** The historical maximum of the frequencies (analyzer.py:3074-3076, processor 215-217). *)
Definition all_frequencies : list Q :=
  flat_map (fun g => flat_map (fun t => map (fun c => frequency g t c) (seq 0 (length channels))) (seq 0 times_n)) (seq 0 geos_n).
Definition historical_max : result Q := qmax_list all_frequencies.

(** analyzer.py:2964-3205 [optimal_freq] with a grid (its [max_frequency] is then not used): the summary metrics are
    asked for without the level, so at the default level 0.9 (C37). *)
Record optimum := mkOptimum { op_grid : list Q; op_best : list Q; op_roi : Q -> string -> summary oq; op_metrics : string -> metrics oq; op_level : Q; op_revenue : bool }.
Definition optimal_freq (times : option (list Z)) (kpi : bool) (level : Q) (grid : list Q) : result optimum :=
  let kpi := use_kpi kpi in
  raise_if (match channels with [] => true | _ => false end) ValueError (
  rbind (mapR (fun c => best_of (map (fun f => (f, m_mean (roi_at times kpi level f c))) grid)) channels) (fun best =>
  Ok (mkOptimum grid best (fun f c => roi_at times kpi level f c) (fun c => metrics_at times kpi (9 # 10) best c) level (negb kpi)))).

(** analyzer.py:3574-3767 [response_curves] with [use_optimal_frequency]: it looks for the optimal frequencies itself,
    on the default grid and at the default level; the curves are of [incremental_outcome], which resolves use_kpi too. *)
Definition default_grid (top : Q) : list Q := arange 1 top.
Definition response_curves (times : option (list Z)) (kpi : bool) : result (string -> list (Q * Q)) :=
  rbind historical_max (fun top =>
  rbind (optimal_freq times kpi (9 # 10) (default_grid top)) (fun o =>
  Ok (fun c => curve_at times (use_kpi kpi) (op_best o) c))).

(** reach_frequency_optimization_processor.py:264-289 [_compute_spend_data]: spend and percentage. *)
Definition qtotal (l : list (string * Q)) : Q := fold_left (fun a e => a + snd e)%Q l 0%Q.
Definition spend_data (times : option (list Z)) : result (list (Q * oq)) :=
  let all := spend_of times in
  mapR (fun c => match dget all c with
                 | None => Err KeyError
                 | Some x => Ok (x, if Qeq_bool (qtotal all) 0 then None else Some (100 * x / qtotal all)%Q)
                 end) channels.

(** model_processor.py:283-294 [resolve_to_date_interval_open_end]. *)
Definition open_interval (s : rf_spec) : result (Z * Z) :=
  rbind (match q_start s with Some a => Ok a | None => match tc_dates model_coords with a :: _ => Ok a | [] => Err IndexError end end) (fun a =>
  rbind (match q_end s with
         | Some b => Ok b
         | None => match rev (tc_dates model_coords) with b :: _ => Ok (Z.add b (tc_days model_coords)) | [] => Err IndexError end
         end) (fun b => Ok (a, b))).

(** reach_frequency_optimization_processor.py:169-197 [to_proto]; the objective is always ROI. *)
Definition rf_proto (s : rf_spec) : result rf_spec_pb :=
  match q_start s, q_end s with
  | Some a, Some b => Ok (mkRfSpecPb a b (q_tag s) (map (fun c => (c, (q_min s, match q_max s with Some m => m | None => 0 end))) channels) (q_revenue s))
  | _, _ => Err ValueError
  end.

(** reach_frequency_optimization_processor.py:371-428 [_to_marketing_analysis], 499-540 [_to_outcome] (as the budget
    processor's: C99), 543-584 [_compute_response_curve].  No tag is passed on; the level is that of the data set. *)
Definition rf_media_of (o : optimum) (curves : string -> list (Q * Q)) (e : string * (Q * oq)) : rf_media :=
  mkRfMedia (fst e) (curves (fst e)) (fst (snd e)) (snd (snd e)) [to_outcome (op_revenue o) (op_level o) (op_metrics o (fst e))].
Definition rf_analysis_of (a b : Z) (o : optimum) (curves : string -> list (Q * Q)) (sp : list (Q * oq)) : rf_analysis :=
  mkRfAnalysis a b "" (map (rf_media_of o curves) (combine channels sp)).

(** reach_frequency_optimization_processor.py:443-461: reach at a frequency, all else kept, summed over all geos and
    media times; [int] of a number that is not finite raises (OverflowError if it is infinite; not told apart). *)
Definition reach_at (c : nat) (f : Q) : result Z :=
  if Qeq_bool f 0 then Err ValueError else
  let x := qsum geos_n (fun g => qsum times_n (fun t => frequency g t c * reach g t c / f)%Q) in
  Ok (Z.quot (Qnum x) (Zpos (Qden x))).

(** reach_frequency_optimization_processor.py:430-485 [_create_frequency_outcome_grid]; channels by position. *)
Definition rf_grid_of (s : rf_spec) (o : optimum) : result rf_grid :=
  rbind (mapR (fun ic : nat * string =>
    rbind (mapR (fun f => rbind (reach_at (fst ic) f) (fun n => Ok (mkRfCell (to_estimate (op_roi o f (snd ic)) (q_level s)) n f))) (op_grid o)) (fun cells =>
    Ok (snd ic, cells))) (combine (seq 0 (length channels)) channels)) (fun rows =>
  Ok (mkRfGrid (q_grid_name s) (1 # 10) rows)).

(** reach_frequency_optimization_processor.py:340-369, 488-508. *)
Definition rf_to_result (s : rf_spec) (a b : Z) (o : optimum) (curves : string -> list (Q * Q)) (sp : list (Q * oq)) : result rf_result :=
  rbind (rf_proto s) (fun p =>
  rbind (rf_grid_of s o) (fun g =>
  Ok (mkRfResult (q_name s) (match q_group s with Some i => i | None => "" end) p (combine channels (op_best o)) (rf_analysis_of a b o curves sp) g))).

(** reach_frequency_optimization_processor.py:195-262 [execute].  [spec.max_frequency or ...]: 0 counts as unset.
    [dataclasses.replace] constructs, and so validates, the resolved spec. *)
Definition upper (s : rf_spec) : result Q :=
  match q_max s with Some m => if Qeq_bool m 0 then historical_max else Ok m | None => historical_max end.
Definition run_rf (s : rf_spec) : result rf_result :=
  rbind (enumerated model_coords (q_start s) (q_end s)) (fun times =>
  let lo := round1 (q_min s) in
  rbind (upper s) (fun m =>
  let hi := round1 m in
  rbind (optimal_freq times (negb (q_revenue s)) (q_level s) (frequency_grid lo hi)) (fun o =>
  rbind (response_curves times (negb (q_revenue s))) (fun curves =>
  rbind (spend_data times) (fun sp =>
  rbind (open_interval s) (fun ab =>
  let r := mkRfSpec (q_name s) (q_grid_name s) (q_group s) (q_level s) (Some (fst ab)) (Some (snd ab)) (q_tag s) lo (Some hi) (q_revenue s) in
  rbind (validate_rf r) (fun _ => rf_to_result r (fst ab) (snd ab) o curves sp))))))).
Definition execute_rf (specs : list rf_spec) : result (list rf_result) :=
  raise_if (negb (unique_ids (map (fun s => match q_group s with Some i => i | None => "" end) specs))) ValueError (mapR run_rf specs).
End Rf.

(** *** The tables of the scenario planner *)
Section Planner.
(** mmm.py:640-668 [rf_channel_spends] (C98): the historical spend of the channels between two dates. *)
Variable historical : Z -> Z -> list (string * Q).

(** rf_opt_converters.py:62-100 [NamedRfOptimizationGridConverter]; mmm.py:505-514, common.py:45-71. *)
Record rf_grid_row := mkRfGridRow { gr_group : string; gr_channel : string; gr_frequency : Q; gr_roi : oq }.
Definition rf_grid_rows (r : rf_result) : list rf_grid_row :=
  flat_map (fun e => map (fun c => mkRfGridRow (z_group r) (fst e) (x_frequency c) (M_BudgetSpec.e_value (x_outcome c))) (snd e)) (to_dict (y_cells (z_grid r))).
Definition rf_grid_sheet (r : rf_result) : string := "rf_opt_grid_" ++ sheet_format false (y_name (z_grid r)).

(** mmm.py:535-552: the optimized channels. *)
Definition optimized_channels (r : rf_result) : list string := map fst (to_dict (z_frequencies r)).
Definition same_set (l m : list string) : bool := forallb (fun x => mem x m) l && forallb (fun x => mem x l) m.

(** rf_opt_converters.py:120-207 [RfOptimizationSpecsConverter]. *)
Record rf_spec_row := mkRfSpecRow { sw_group : string; sw_start : Z; sw_end : Z; sw_objective : string; sw_spend : Q; sw_channel : string; sw_min : Q; sw_max : Q }.
Definition rf_spec_rows (r : rf_result) : result (list rf_spec_row) :=
  let p := z_spec r in
  let spends := historical (p_start p) (p_end p) in
  raise_if (match p_constraints p with [] => true | _ => false end) ValueError (
  raise_if (negb (same_set (map fst (p_constraints p)) (optimized_channels r))) ValueError (
  mapR (fun e : string * (Q * Q) =>
    raise_if (Qeq_bool (snd (snd e)) 0) ValueError (
    Ok (mkRfSpecRow (z_group r) (p_start p) (p_end p) "ROI" (match dget spends (fst e) with Some x => x | None => 0 end) (fst e)
          (if Qeq_bool (fst (snd e)) 0 then 1 else fst (snd e)) (snd (snd e))))) (p_constraints p))).

(** rf_opt_converters.py:228-306 [RfOptimizationResultsConverter]; mmm.py:176-205: the first outcome of each kind. *)
Record rf_result_row := mkRfResultRow { tw_group : string; tw_channel : string; tw_revenue : bool; tw_spend : Q; tw_frequency : Q;
  tw_effectiveness : oq; tw_roi : oq; tw_mroi : oq; tw_cpc : oq }.
Definition outcome_of_kind (revenue : bool) (m : rf_media) : list (outcome_pb oq) :=
  match find (fun o => Bool.eqb (M_BudgetSpec.o_revenue o) revenue) (v_outcomes m) with Some o => [o] | None => [] end.
Definition rf_result_rows (r : rf_result) : result (list rf_result_row) :=
  let spends := historical (p_start (z_spec r)) (p_end (z_spec r)) in
  rbind (mapR (fun e : string * rf_media =>
    if String.eqb (fst e) "All Channels" then Ok []
    else if negb (mem (fst e) (optimized_channels r)) then Ok []
    else match dget spends (fst e), dget (to_dict (z_frequencies r)) (fst e) with
         | Some x, Some f =>
           let row revenue (o : outcome_pb oq) := mkRfResultRow (z_group r) (fst e) revenue x f (M_BudgetSpec.e_value (M_BudgetSpec.o_effectiveness o))
             (M_BudgetSpec.e_value (M_BudgetSpec.o_roi o)) (M_BudgetSpec.e_value (M_BudgetSpec.o_mroi o)) (M_BudgetSpec.e_value (M_BudgetSpec.o_cost o)) in
           Ok (map (row true) (outcome_of_kind true (snd e)) ++ map (row false) (outcome_of_kind false (snd e)))
         | _, _ => Err KeyError
         end) (to_dict (map (fun m => (v_channel m, m)) (w_media (z_analysis r))))) (fun l => Ok (concat l)).

(** rf_opt_converters.py:36-60, 309-313: all tables; without results there are none. *)
Record rf_tables := mkRfTables { rt_grids : list (string * list rf_grid_row); rt_specs : list rf_spec_row; rt_results : list rf_result_row }.
Definition make_rf_tables (rs : list rf_result) : result (option rf_tables) :=
  match rs with
  | [] => Ok None
  | _ =>
    raise_if (negb (unique_ids (map z_group rs))) ValueError (
    rbind (mapR rf_spec_rows rs) (fun sp =>
    rbind (mapR rf_result_rows rs) (fun rr =>
    Ok (Some (mkRfTables (map (fun r => (rf_grid_sheet r, rf_grid_rows r)) rs) (concat sp) (concat rr))))))
  end.
End Planner.
