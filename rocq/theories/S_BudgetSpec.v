(** Specification vocabulary for C99: budget optimization specs, their results and the planner's tables. *)
From Coq Require Import ZArith QArith String List.
From Verif Require Import Lib_QSum M_Base M_Opt M_Optimizer M_BudgetSpec S_Opt.
Import ListNotations.
Local Open Scope string_scope.
Local Open Scope list_scope.

(** The constraint given for a channel: the last one that names it. *)
Definition given_for (cs : list chan_constraint) (c : string) : option chan_constraint :=
  find (fun k => String.eqb (constraint_name k) c) (rev cs).
(** How far a channel may go down and up, relative to its non-optimized spend: 1 and 2 unless given. *)
Definition down (cs : list chan_constraint) (c : string) : Q := match given_for cs c with Some (Rel _ lo _) => lo | _ => 1 end.
Definition up (cs : list chan_constraint) (c : string) : Q := match given_for cs c with Some (Rel _ _ hi) => hi | _ => 2 end.
(** Constraints are for channels of the model and relative. *)
Definition usable (cs : list chan_constraint) (channels : list string) : Prop :=
  (forall k, In k cs -> In (constraint_name k) channels) /\
  (forall c name lo hi, In c channels -> given_for cs c <> Some (Abs name lo hi)).

(** Spend of all channels of an analysis. *)
Definition qtotal (l : list Q) : Q := fold_right Qplus 0%Q l.

(** The values lo, lo + step, ..., hi. *)
Definition ladder (lo step : Z) (m : nat) : list Z := map (fun i => lo + Z.of_nat i * step)%Z (seq 0 (S m)).

(** No two groups share an id; an empty id stands for none. *)
Definition ids_distinct (ids : list string) : Prop := NoDup (filter (fun i => negb (String.eqb i "")) ids).

Section S.
Variable V : Type.
(** An estimate is the mean of a metric with its interval at a confidence level. *)
Definition estimates (e : estimate V) (x : summary V) (confidence : Q) : Prop :=
  e_value e = m_mean x /\ e_lower e = m_lo x /\ e_upper e = m_hi x /\ e_probability e = confidence.
(** An outcome tells of the metrics of a channel. *)
Definition tells (x : outcome_pb V) (m : metrics V) (confidence : Q) : Prop :=
  estimates (o_roi x) (k_roi m) confidence /\ estimates (o_mroi x) (k_mroi m) confidence /\ estimates (o_cost x) (k_cpik m) confidence /\
  estimates (o_contribution x) (k_outcome m) confidence /\ estimates (o_effectiveness x) (k_effectiveness m) confidence.

(** The planner's rows, one per reported item. *)
Definition wanted_spec_row (historical : Z -> Z -> list (string * Q)) (r : result_pb V) (c : constraint_pb) (w : spec_row) : Prop :=
  sr_group w = r_group r /\ sr_start w = pb_start (r_spec r) /\ sr_end w = pb_end (r_spec r) /\ sr_period w = pb_tag (r_spec r) /\
  sr_objective w = "KPI" /\ sr_channel w = cp_channel c /\ sr_min w = cp_min c /\ sr_max w = cp_max c /\
  sr_initial w = match dget (historical (pb_start (r_spec r)) (pb_end (r_spec r))) (cp_channel c) with Some x => x | None => 0%Q end /\
  match pb_scenario (r_spec r) with
  | PbFixed _ => sr_scenario w = "Fixed" /\ sr_metric w = None /\ sr_target w = None
  | PbFlexible ts => sr_scenario w = "Flexible" /\ exists m t, ts = [(m, t)] /\ sr_metric w = Some (match m with PbRoi => "ROI" | PbMarginalRoi => "Marginal ROI" end) /\ sr_target w = Some t
  end.
Definition wanted_result_row (r : result_pb V) (m : media_pb V) (w : result_row V) : Prop :=
  exists x, ma_outcomes m = [x] /\ rr_group w = r_group r /\ rr_channel w = ma_channel m /\ rr_revenue w = o_revenue x /\ rr_spend w = ma_spend m /\
    rr_share w = ma_share m /\ rr_effectiveness w = e_value (o_effectiveness x) /\ rr_roi w = e_value (o_roi x) /\ rr_mroi w = e_value (o_mroi x) /\
    rr_cpc w = e_value (o_cost x).
Definition grid_items (r : result_pb V) : list (string * (Z * Q)) := flat_map (fun e => map (fun c => (fst e, c)) (snd e)) (gp_cells (r_grid r)).
Definition curve_items (r : result_pb V) : list (string * (Q * V)) := flat_map (fun m => map (fun c => (ma_channel m, c)) (ma_curve m)) (an_media (r_optimized r)).
End S.
Arguments estimates {V}. Arguments tells {V}. Arguments wanted_spec_row {V}. Arguments wanted_result_row {V}. Arguments grid_items {V}. Arguments curve_items {V}.
(** Items paired with the result they belong to, in order. *)
Definition items {A B} (f : A -> list B) (l : list A) : list (A * B) := flat_map (fun x => map (fun y => (x, y)) (f x)) l.

(** Scenarios that can be answered: a positive budget, a positive target ROI, or a marginal one of at least 0. *)
Definition askable (sc : budget_scenario) : Prop :=
  match sc with
  | FixedScenario None => True
  | FixedScenario (Some b) => (0 < b)%Q
  | FlexibleScenario m t => m = "roi" /\ (0 < t)%Q \/ m = "mroi" /\ (0 <= t)%Q
  end.
(** Relative constraints as their constructor accepts them. *)
Definition in_range (k : chan_constraint) : Prop := match k with Rel _ lo hi => (0 <= lo)%Q /\ (lo <= 1)%Q /\ (0 <= hi)%Q | Abs _ _ _ => True end.
(** A name with a character other than white space. *)
Definition named (s : string) : Prop := exists a c b, s = (a ++ String c b)%string /\ is_space c = false.
