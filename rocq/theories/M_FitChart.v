(** Model of meridian/analysis/visualizer.py [ModelFit]: the table behind the chart of expected and actual outcomes.

    The chart itself (marks, axes, colours) is not modelled: the model ends with the data frame it draws.  Names are
    compared byte by byte, which for UTF-8 is Python's order.  Populations are rational numbers; pandas leaves the
    order of geos of one population open, here it is the order of the data. *)
From Coq Require Import Reals QArith ZArith String List Bool Arith.
From Verif Require Import Lib_Sum M_Base M_AdstockHill M_Equations M_Transformers M_Aggregate M_Analyzer M_Stats
  M_Accuracy M_FitTable Lib_Sort.
Import ListNotations.
Local Open Scope R_scope.
Local Open Scope string_scope.
Local Open Scope nat_scope.
Local Open Scope list_scope.

(** visualizer.py:393-442 [__init__], [update_confidence_level]: what is kept, and how it changes.  The analyzer is
    called with its default batch size 100 (constants.py:778), and for each geo and period. *)
Record view := mkView { v_kpi : bool; v_data : fit_table }.
Section View.
Variables (x : model) (holdout : option (matrix bool)) (n_chains n_draws : nat) (draws : list draw).
Definition fit_data (use_kpi : bool) (level : R) : result fit_table :=
  expected_vs_actual x holdout n_chains n_draws false false use_kpi false None level 100 draws.
Definition new_view (use_kpi : bool) (level : R) : result view :=
  let k := resolve_use_kpi x use_kpi in rbind (fit_data k level) (fun f => Ok (mkView k f)).
Definition update_level (v : view) (level : R) : result view :=
  rbind (fit_data false level) (fun f => Ok (mkView (v_kpi v) f)).
End View.

(** Python's [l[:k]]. *)
Definition slice_to {A} (k : Z) (l : list A) : list A :=
  firstn (Z.to_nat (if Z.ltb k 0 then Z.max 0 (Z.of_nat (length l) + k) else k)) l.
(** input_data.py:945-959 [get_n_top_largest_geos]. *)
Definition largest_geos (population : list (string * Q)) (k : Z) : list string :=
  slice_to k (map fst (isort (fun a b => Qle_bool (snd b) (snd a)) population)).

(** Truth of an optional argument: a list that is not empty, a number that is not zero. *)
Definition given (l : option (list string)) : bool := match l with Some (_ :: _) => true | _ => false end.
Definition n_given (n : option Z) : bool := match n with Some k => negb (Z.eqb k 0) | None => false end.
(** [selected or all]. *)
Definition or_all (l : option (list string)) (all : list string) : list string :=
  match l with Some (a :: r) => a :: r | _ => all end.
Definition labels (l : option (list string)) : list string := match l with Some l => l | None => [] end.
Definition inside (a : string) (l : list string) : bool := existsb (String.eqb a) l.
Definition all_inside (l : option (list string)) (all : list string) : bool := forallb (fun a => inside a all) (labels l).

(** visualizer.py:594-603 [_validate_times_to_plot], 605-646 [_validate_geos_to_plot]. *)
Definition validate (f : fit_table) (times geos : option (list string)) (n : option Z) (by_geo : bool) : result unit :=
  raise_if (given times && negb (all_inside times (labels (f_time f)))) ValueError (
  raise_if (by_geo && negb (given geos) && negb (n_given n)) ValueError (
  raise_if (given geos && n_given n) ValueError (
  raise_if (given geos && negb (all_inside geos (labels (f_geo f)))) ValueError (
  raise_if (n_given n && match n with Some k => Z.ltb (Z.of_nat (length (labels (f_geo f)))) k | None => false end) ValueError (
  Ok tt))))).

(** A row of the data frame: geo (none in the national table), period, type, and the columns. *)
Inductive line := Actual | Baseline | Expected.
Record row := mkRow { w_geo : option string; w_time : string; w_line : line; w_mean : option R; w_lo : option R; w_hi : option R }.

Fixpoint index_by {A} (same : A -> A -> bool) (a : A) (l : list A) : option nat :=
  match l with [] => None | b :: r => if same a b then Some 0 else option_map S (index_by same a r) end.
Definition same_stat (a b : stat) : bool := match a, b with Mean, Mean | CiLo, CiLo | CiHi, CiHi => true | _, _ => false end.
(** The value of a variable; [actual] has no statistics and is repeated for each of them. *)
Definition cell (f : fit_table) (g t : string) (l : line) (m : stat) : option R :=
  match index_by String.eqb g (labels (f_geo f)), index_by String.eqb t (labels (f_time f)), index_by same_stat m (f_metric f) with
  | Some i, Some j, Some k =>
      match l with
      | Actual => Some (at_ (f_actual f) [i; j])
      | Baseline => n_at (f_baseline f) [i; j; k]
      | Expected => n_at (f_expected f) [i; j; k]
      end
  | _, _, _ => None
  end.
(** pandas' [sum] leaves NaN out. *)
Definition skip_sum (l : list (option R)) : option R :=
  Some (fold_right (fun v s => match v with Some a => (a + s)%R | None => s end) 0%R l).
Definition name_leb (a b : string) : bool := match String.compare a b with Gt => false | _ => true end.
Definition in_order (l : list string) : list string := isort name_leb l.
Definition repeated (l : list string) : bool := negb (Nat.eqb (length (nodup string_dec l)) (length l)).
Definition lines : list line := [Actual; Baseline; Expected].
Definition is_baseline (r : row) : bool := match w_line r with Baseline => true | _ => false end.

(** visualizer.py:648-704 [_transform_data_to_dataframe].  [sel] raises KeyError for an unknown name, [pivot]
    ValueError for a repeated one; [pivot] and [groupby] sort. *)
Definition to_rows (f : fit_table) (times geos : option (list string)) (by_geo baseline : bool) : result (list row) :=
  let ts := or_all times (labels (f_time f)) in
  let gs := or_all geos (labels (f_geo f)) in
  raise_if (negb (forallb (fun a => inside a (labels (f_time f))) ts && forallb (fun a => inside a (labels (f_geo f))) gs)) KeyError (
  raise_if (repeated ts || repeated gs) ValueError (
  let rows :=
    if by_geo then
      flat_map (fun g => flat_map (fun t => map (fun l =>
        mkRow (Some g) t l (cell f g t l Mean) (cell f g t l CiLo) (cell f g t l CiHi)) lines) (in_order ts)) (in_order gs)
    else
      flat_map (fun t => map (fun l =>
        let sum m := skip_sum (map (fun g => cell f g t l m) gs) in mkRow None t l (sum Mean) (sum CiLo) (sum CiHi)) lines) (in_order ts) in
  Ok (if baseline then rows else filter (fun r => negb (is_baseline r)) rows))).

(** visualizer.py:444-488 [plot_model_fit], up to the data frame. *)
Definition chart_data (v : view) (population : list (string * Q)) (times geos : option (list string)) (n : option Z)
    (by_geo baseline : bool) : result (list row) :=
  rbind (validate (v_data v) times geos n by_geo) (fun _ =>
  let geos := if n_given n then match n with Some k => Some (largest_geos population k) | None => geos end else geos in
  to_rows (v_data v) times geos by_geo baseline).
