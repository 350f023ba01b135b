(** Model of [BudgetOptimizer.optimize], [_validate_grid] and [create_optimization_grid]
    (meridian/analysis/optimizer.py): which grid an optimization runs on.  The search on a grid is that of M_Opt. *)
From Coq Require Import ZArith QArith String List Bool Arith.
From Verif Require Import Lib_QSum M_Base M_Opt.
Import ListNotations.
Local Open Scope string_scope.
Local Open Scope list_scope.

(** The arguments of [optimize] (1473-1500) that bear on the allocation.  [Data] is the type of new data, filled
    up with the model's; dates are day numbers, as after [normalize_date]. *)
Record request (Data : Type) := mkRequest {
  a_data : Data; a_posterior : bool; a_geos : option (list string); a_start : option Z; a_end : option Z;
  a_fixed : bool; a_budget : option Q; a_pct : option (list Q); a_lower : option constraint; a_upper : option constraint;
  a_target_roi : option Q; a_target_mroi : option Q; a_gtol : Q; a_optimal_frequency : bool; a_max_frequency : option Q; a_kpi : bool }.
Arguments mkRequest {Data}. Arguments a_data {Data}. Arguments a_posterior {Data}. Arguments a_geos {Data}. Arguments a_start {Data}.
Arguments a_end {Data}. Arguments a_fixed {Data}. Arguments a_budget {Data}. Arguments a_pct {Data}. Arguments a_lower {Data}. Arguments a_upper {Data}.
Arguments a_target_roi {Data}. Arguments a_target_mroi {Data}. Arguments a_gtol {Data}. Arguments a_optimal_frequency {Data}.
Arguments a_max_frequency {Data}. Arguments a_kpi {Data}.

(** optimizer.py:97-143 [OptimizationGrid]; the round factor is [- g_round].  [Frequency] is the type of optimal
    frequencies. *)
Record ogrid (Frequency : Type) := mkGrid {
  g_cells : grid; g_channels : list string; g_hist : nat -> Q; g_kpi : bool; g_posterior : bool; g_optimal_frequency : bool;
  g_max_frequency : option Q; g_start : option Z; g_end : option Z; g_gtol : Q; g_round : nat; g_frequency : option Frequency;
  g_geos : option (list string) }.
Arguments mkGrid {Frequency}. Arguments g_cells {Frequency}. Arguments g_channels {Frequency}. Arguments g_hist {Frequency}. Arguments g_kpi {Frequency}.
Arguments g_posterior {Frequency}. Arguments g_optimal_frequency {Frequency}. Arguments g_max_frequency {Frequency}. Arguments g_start {Frequency}.
Arguments g_end {Frequency}. Arguments g_gtol {Frequency}. Arguments g_round {Frequency}. Arguments g_frequency {Frequency}. Arguments g_geos {Frequency}.

(** optimizer.py:3135-3165 [_validate_budget]. *)
Definition given {A} (o : option A) : bool := match o with Some _ => true | None => false end.
Definition validate_budget (fixed : bool) (budget roi mroi : option Q) : result unit :=
  if fixed then
    raise_if (given roi) ValueError (raise_if (given mroi) ValueError (
    raise_if (match budget with Some b => Qle_bool b 0 | None => false end) ValueError (Ok tt)))
  else
    raise_if (given budget) ValueError (raise_if (negb (given roi) && negb (given mroi)) ValueError (
    raise_if (given roi && given mroi) ValueError (Ok tt))).

(** Python's truth of an optional number, and [budget or np.sum(hist_spend)]. *)
Definition truthy (o : option Q) : bool := match o with Some x => negb (Qeq_bool x 0) | None => false end.
Definition budget_or (budget : option Q) (total : Q) : Q :=
  match budget with Some b => if Qeq_bool b 0 then total else b | None => total end.

Definition option_eqb {A} (eqb : A -> A -> bool) (x y : option A) : bool :=
  match x, y with Some a, Some b => eqb a b | None, None => true | _, _ => false end.
Fixpoint list_eqb {A} (eqb : A -> A -> bool) (x y : list A) : bool :=
  match x, y with [] , [] => true | a :: x, b :: y => eqb a b && list_eqb eqb x y | _, _ => false end.
(** [sorted(x or []) == sorted(y or [])]: every name occurs equally often. *)
Definition occurrences (s : string) (l : list string) : nat := length (filter (String.eqb s) l).
Definition or_empty (o : option (list string)) : list string := match o with Some l => l | None => [] end.
Definition same_names (x y : option (list string)) : bool :=
  forallb (fun s => Nat.eqb (occurrences s (or_empty x)) (occurrences s (or_empty y))) (or_empty x ++ or_empty y).

(** What a fitted model provides: the names of its paid channels, the first and last date of data, the spend per
    channel of data in geos and a period (aggregated spend, C63), the optimal frequency (C37), and the mean
    incremental outcome of a channel at a spend (C55, C58; for reach and frequency after the stabilisation of C53).
    These are parameters here. *)
Section Optimizer.
Variables Data Frequency : Type.
Variable channels : list string.
Variable has_rf : bool.
Variables first_date last_date : Data -> Z.
Variable spend_of : Data -> option (list string) -> option Z -> option Z -> result (nat -> Q).
Variable frequency_of : Data -> bool -> option (list string) -> option Z -> option Z -> bool -> option Q -> result Frequency.
Variable outcome_of : Data -> bool -> bool -> option (list string) -> option Z -> option Z -> option Frequency -> nat -> Z -> Q.
Variable fitted : bool -> bool.
Let n := length channels.

(** optimizer.py:2119-2328 [create_optimization_grid]. *)
Definition create (a : request Data) (lo hi : constraint) : result (ogrid Frequency) :=
  raise_if (negb (fitted (a_posterior a))) RuntimeError (
  raise_if (match a_geos a with Some [] => true | _ => false end) ValueError (
  rbind (spend_of (a_data a) (a_geos a) (a_start a) (a_end a)) (fun hist =>
  let budget := budget_or (a_budget a) (qsum n hist) in
  rbind (validate_pct_of_spend n hist (a_pct a)) (fun pct =>
  let spend := fun i => (budget * pct i)%Q in
  rbind (get_round_factor budget (a_gtol a)) (fun rf =>
  let k := Z.to_nat (- rf) in
  rbind (get_optimization_bounds n spend k lo hi) (fun b =>
  rbind (if has_rf && a_optimal_frequency a
         then rbind (frequency_of (a_data a) (a_posterior a) (a_geos a) (a_start a) (a_end a) (a_kpi a) (a_max_frequency a)) (fun f => Ok (Some f))
         else Ok None) (fun freq =>
  rbind (create_grids n (fst b) (snd b) (pow10 k) (outcome_of (a_data a) (a_posterior a) (a_kpi a) (a_geos a) (a_start a) (a_end a) freq)) (fun cells =>
  Ok (mkGrid cells channels hist (a_kpi a) (a_posterior a) (a_optimal_frequency a) (a_max_frequency a) (a_start a) (a_end a) (a_gtol a) k freq (a_geos a)))))))))).

(** optimizer.py:1950-2117 [_validate_grid].  The spend is that of all geos (2070-2075). *)
Definition or_date (o : option Z) (d : Z) : Z := match o with Some x => x | None => d end.
Definition validate_grid (a : request Data) (lo hi : constraint) (g : ogrid Frequency) : result bool :=
  if negb (Bool.eqb (a_posterior a) (g_posterior g)) then Ok false
  else if negb (Bool.eqb (a_kpi a) (g_kpi g)) then Ok false
  else if negb (Bool.eqb (a_optimal_frequency a) (g_optimal_frequency g)) then Ok false
  else if negb (option_eqb Qeq_bool (a_max_frequency a) (g_max_frequency g)) then Ok false
  else if negb (Z.eqb (or_date (a_start a) (first_date (a_data a))) (or_date (g_start g) (first_date (a_data a)))) then Ok false
  else if negb (Z.eqb (or_date (a_end a) (last_date (a_data a))) (or_date (g_end g) (last_date (a_data a)))) then Ok false
  else if negb (list_eqb String.eqb channels (g_channels g)) then Ok false
  else if negb (same_names (a_geos a) (g_geos g)) then Ok false
  else
    let m := length (g_channels g) in
    rbind (spend_of (a_data a) None (a_start a) (a_end a)) (fun hist =>
    let budget := budget_or (a_budget a) (qsum n hist) in
    rbind (validate_pct_of_spend m hist (a_pct a)) (fun pct =>
    rbind (get_optimization_bounds m (fun i => (budget * pct i)%Q) (g_round g) lo hi) (fun b =>
    match check_optimization_bounds (g_cells g) (fst b) (snd b) with
    | Err _ => Ok false
    | Ok _ => rbind (get_round_factor budget (a_gtol a)) (fun _ => Ok true)
    end))).

(** optimizer.py:1708-1717: the scenario; a target of zero is taken for a missing one, and a missing target
    cannot be compared with 0. *)
Definition scenario_of (a : request Data) : result user_scenario :=
  if a_fixed a then make_scenario (Fixed (a_budget a))
  else if truthy (a_target_roi a) then match a_target_roi a with Some t => make_scenario (Flexible_ROI t) | None => Err TypeError end
  else match a_target_mroi a with Some t => make_scenario (Flexible_MROI t) | None => Err TypeError end.

(** optimizer.py:1473-1723: the grid that is used, and the optimized and the non-optimized spend. *)
Record outcome := mkOutcome { o_grid : ogrid Frequency; o_optimized : nat -> Z; o_non_optimized : nat -> Z }.
Definition optimize (a : request Data) (given_grid : option (ogrid Frequency)) : result outcome :=
  rbind (validate_budget (a_fixed a) (a_budget a) (a_target_roi a) (a_target_mroi a)) (fun _ =>
  let dflt := if a_fixed a then Scalar (3 # 10) else Scalar 1 in
  let lo := match a_lower a with Some c => c | None => dflt end in
  let hi := match a_upper a with Some c => c | None => dflt end in
  rbind (match given_grid with
         | Some g => rbind (validate_grid a lo hi g) (fun use => if use then Ok g else create a lo hi)
         | None => create a lo hi
         end) (fun g =>
  rbind (scenario_of a) (fun s =>
  rbind (M_Opt.optimize (g_cells g) (g_round g) (g_gtol g) (g_hist g) s (a_pct a) (Some lo) (Some hi)) (fun r =>
  Ok (mkOutcome g (fst r) (snd r)))))).
End Optimizer.
