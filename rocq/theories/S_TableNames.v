(** Specification for C111. *)
From Coq Require Import String Ascii List Bool Arith.
From Verif Require Import M_Base M_TableNames.
Import ListNotations.
Local Open Scope string_scope.

Definition starts_with_blank (s : string) : Prop := match s with EmptyString => False | String c _ => blank c = true end.
(** A string with each run of blanks replaced by one underscore. *)
Inductive squeezed : string -> string -> Prop :=
| sq_end : squeezed "" ""
| sq_char : forall c s m, blank c = false -> squeezed s m -> squeezed (String c s) (String c m)
| sq_last_blank : forall c s m, blank c = true -> ~ starts_with_blank s -> squeezed s m -> squeezed (String c s) (String "_" m)
| sq_more_blanks : forall c s m, blank c = true -> starts_with_blank s -> squeezed s m -> squeezed (String c s) m.

(** The tables there are, under their names. *)
Inductive is_table {A} (p : planner_tables A) : string -> A -> Prop :=
| T1 : forall t, pt_diagnostics p = Some t -> is_table p "ModelDiagnostics" t
| T2 : forall t, pt_fit p = Some t -> is_table p "ModelFit" t
| T3 : forall t, pt_outcome p = Some t -> is_table p "MediaOutcome" t
| T4 : forall t, pt_spend p = Some t -> is_table p "MediaSpend" t
| T5 : forall t, pt_roi p = Some t -> is_table p "MediaROI" t
| T6 : forall g m t, In (g, t) (pt_budget_grids p) -> squeezed g m -> is_table p ("budget_opt_grid_" ++ m) t
| T7 : forall t, pt_budget_specs p = Some t -> is_table p "budget_opt_specs" t
| T8 : forall t, pt_budget_results p = Some t -> is_table p "budget_opt_results" t
| T9 : forall t, pt_curves p = Some t -> is_table p "response_curves" t
| T10 : forall g m t, In (g, t) (pt_rf_grids p) -> squeezed g m -> is_table p ("rf_opt_grid_" ++ m) t
| T11 : forall t, pt_rf_specs p = Some t -> is_table p "rf_opt_specs" t
| T12 : forall t, pt_rf_results p = Some t -> is_table p "rf_opt_results" t.

(** No two grids have names that differ, if at all, in blanks and underscores for them. *)
Definition told_apart {A} (l : list (string * A)) : Prop :=
  forall i j g h m, nth_error (map fst l) i = Some g -> nth_error (map fst l) j = Some h ->
    squeezed g m -> squeezed h m -> i = j.
