(** Model of the collection of the scenario planner's tables: scenarioplanner/converters/dataframe/dataframe_model_converter.py
    and the names of common.py.

    The contents of the tables are modelled in M_FitSpec, M_MarketingSpec, M_BudgetSpec and M_RfSpec; here a table is any value.  Each of the
    ten tables with a fixed name is there or not. *)
From Coq Require Import String Ascii List Bool Arith.
From Verif Require Import M_Base.
Import ListNotations.
Local Open Scope string_scope.
Local Open Scope nat_scope.
Local Open Scope list_scope.

(** [\s] of a pattern of [re], for ASCII: codes 9-13 and 28-32. *)
Definition blank (c : ascii) : bool :=
  let n := nat_of_ascii c in (Nat.leb 9 n && Nat.leb n 13) || (Nat.leb 28 n && Nat.leb n 32).
(** common.py:45-56 [_to_sheet_name_format]: [re.sub(r"\s+", "_", s)]; [inside]: the preceding character was a blank. *)
Fixpoint sub_blanks (inside : bool) (s : string) : string :=
  match s with
  | EmptyString => EmptyString
  | String c s' =>
      if blank c then (if inside then sub_blanks true s' else String "_" (sub_blanks true s')) else String c (sub_blanks false s')
  end.
Definition to_sheet_name (s : string) : string := sub_blanks false s.
(** common.py:59-72 [create_grid_sheet_name]. *)
Definition grid_sheet_name (prefix grid : string) : string := (to_sheet_name prefix ++ "_" ++ to_sheet_name grid)%string.

(** What the converters yield. *)
Record planner_tables (A : Type) := mkTables {
  pt_diagnostics : option A; pt_fit : option A; pt_outcome : option A; pt_spend : option A; pt_roi : option A;
  pt_budget_grids : list (string * A); pt_budget_specs : option A; pt_budget_results : option A; pt_curves : option A;
  pt_rf_grids : list (string * A); pt_rf_specs : option A; pt_rf_results : option A }.
Arguments mkTables {A}. Arguments pt_diagnostics {A}. Arguments pt_fit {A}. Arguments pt_outcome {A}. Arguments pt_spend {A}.
Arguments pt_roi {A}. Arguments pt_budget_grids {A}. Arguments pt_budget_specs {A}. Arguments pt_budget_results {A}.
Arguments pt_curves {A}. Arguments pt_rf_grids {A}. Arguments pt_rf_specs {A}. Arguments pt_rf_results {A}.

(** A converter that yields one table, or none. *)
Definition one {A} (n : string) (t : option A) : list (string * A) := match t with Some a => [(n, a)] | None => [] end.
(** budget_opt_converters.py:79-117 and rf_opt_converters.py:76-113: one table for each grid. *)
Definition grids {A} (prefix : string) (l : list (string * A)) : list (string * A) :=
  map (fun g => (grid_sheet_name prefix (fst g), snd g)) l.
(** dataframe_model_converter.py:52-56 [_converters], in the order of marketing_analyses_converters.py:536-543,
    budget_opt_converters.py:376-381 and rf_opt_converters.py:310-314; the names are those of dataframe/constants.py. *)
Definition yielded {A} (p : planner_tables A) : list (list (string * A)) :=
  [one "ModelDiagnostics" (pt_diagnostics p); one "ModelFit" (pt_fit p); one "MediaOutcome" (pt_outcome p);
   one "MediaSpend" (pt_spend p); one "MediaROI" (pt_roi p);
   grids "budget_opt_grid" (pt_budget_grids p); one "budget_opt_specs" (pt_budget_specs p);
   one "budget_opt_results" (pt_budget_results p); one "response_curves" (pt_curves p);
   grids "rf_opt_grid" (pt_rf_grids p); one "rf_opt_specs" (pt_rf_specs p); one "rf_opt_results" (pt_rf_results p)].

(** dataframe_model_converter.py:58-69 [__call__]: the loops; a table is never [None]. *)
Fixpoint collect {A} (ts out : list (string * A)) : result (list (string * A)) :=
  match ts with
  | [] => Ok out
  | t :: ts' => raise_if (existsb (fun o => String.eqb (fst o) (fst t)) out) ValueError (collect ts' (out ++ [t]))
  end.
Definition to_tables {A} (p : planner_tables A) : result (list (string * A)) := collect (concat (yielded p)) [].
