(** Property C111: the tables of the scenario planner are all there, each once, or the export fails. *)
From Coq Require Import String Ascii List Bool Arith.
From Verif Require Import M_Base M_TableNames S_TableNames P_TableNames.
Import ListNotations.
Local Open Scope string_scope.
Local Open Scope list_scope.

(** ** Whatever the optimizations are called, a grid never takes the name of another table: the export has every table
    exactly once under its name if the grids of each kind of optimization are told apart by their names, and is refused
    otherwise. *)
Theorem C111_tables : forall A (p : planner_tables A),
  (told_apart (pt_budget_grids p) /\ told_apart (pt_rf_grids p) ->
    exists out, to_tables p = Ok out /\ NoDup (map fst out) /\ forall n t, In (n, t) out <-> is_table p n t) /\
  (~ (told_apart (pt_budget_grids p) /\ told_apart (pt_rf_grids p)) -> to_tables p = Err ValueError).
Proof.
  intros A p. destruct (collect_lemma A (concat (yielded p)) [] (NoDup_nil _)) as [H1 H2]. cbn [app] in H1, H2.
  rewrite nodup_tables in H1, H2. split; [|exact H2]. intros H. exists (concat (yielded p)).
  split; [apply H1, H|]. split; [apply nodup_tables, H|apply in_tables].
Qed.
Print Assumptions C111_tables.
Definition ex_tables : planner_tables nat :=
  mkTables (Some 1) (Some 2) None None None [("specs", 3); ("my  plan", 4)] (Some 5) None (Some 6) [("my plan", 7)] None None.
Example C111_tables_example : told_apart (pt_budget_grids ex_tables) /\ told_apart (pt_rf_grids ex_tables) /\
  to_tables ex_tables = Ok [("ModelDiagnostics", 1); ("ModelFit", 2); ("budget_opt_grid_specs", 3); ("budget_opt_grid_my_plan", 4);
                            ("budget_opt_specs", 5); ("response_curves", 6); ("rf_opt_grid_my_plan", 7)].
Proof.
  split; [|split; [|vm_compute; reflexivity]].
  - apply (told_iff nat "budget_opt_grid"); [intros g; reflexivity|]. vm_compute.
    constructor; [intros [H|[]]; discriminate H|constructor; [intros []|constructor]].
  - apply (told_iff nat "rf_opt_grid"); [intros g; reflexivity|]. vm_compute. constructor; [intros []|constructor].
Qed.
(** The name of a grid's table: its name with each run of blanks replaced by one underscore. *)
Theorem C111_sheet_name : forall g m, squeezed g m <-> to_sheet_name g = m.
Proof. exact squeezed_iff. Qed.
Print Assumptions C111_sheet_name.
Example C111_sheet_name_example : to_sheet_name " my   plan B " = "_my_plan_B_".
Proof. reflexivity. Qed.
(** Refuted: optimizations with different names can be exported. *)
Theorem C111_names_refuted : exists p : planner_tables nat,
  NoDup (map fst (pt_budget_grids p)) /\ pt_rf_grids p = [] /\ to_tables p = Err ValueError.
Proof.
  exists (mkTables None None None None None [("plan b", 1); ("plan_b", 2)] None None None [] None None).
  split; [|split; [reflexivity|vm_compute; reflexivity]]. cbn [map fst pt_budget_grids].
  constructor; [intros [H|[]]; discriminate H|constructor; [intros []|constructor]].
Qed.
Print Assumptions C111_names_refuted.
