(** Specification of the goodness of fit metrics: which pairs (expected, actual) are compared,
    and the textbook metrics of a list of pairs. *)
From Coq Require Import Reals ZArith String List Bool Arith.
From Verif Require Import Lib_Sum M_Base M_AdstockHill M_Equations M_Transformers M_Aggregate
  S_Aggregate S_Adstock S_Media S_Analyzer M_Analyzer S_Predictor M_Accuracy.
Import ListNotations.
Local Open Scope R_scope.

(** The KPI has the dimensions of the model, and the holdout those of the KPI. *)
Definition kpi_ok (x : model) : Prop := geos2 (x_kpi x) = x_n_geos x /\ times2 (x_kpi x) = x_n_times x.
Definition holdout_ok (x : model) (h : option (matrix bool)) : Prop :=
  match h with Some m => m_rows m = x_n_geos x /\ m_cols m = x_n_times x | None => True end.

(** Observed outcome of a geo and period, in the units asked for. *)
Definition actual_outcome (x : model) (use_kpi : bool) (g t : nat) : R :=
  val2 (x_kpi x) g t
  * match d_revenue_per_kpi (x_data x) with
    | Some r => if outcome_is_kpi x use_kpi then 1 else val2 r g t
    | None => 1
    end.
(** Expected outcome, averaged over the draws. *)
Definition mean_expected_outcome (x : model) (use_kpi : bool) (draws : list draw) (g t : nat) : R :=
  lsum (map (fun w => outcome_in_units x true use_kpi g t (predictor x no_data w g t)) draws)
  / INR (length draws).

(** Is the observation of geo [g] in period [t] part of the evaluation set? *)
Definition in_set (h : option (matrix bool)) (s : evaluation_set) (g t : nat) : bool :=
  match s with
  | AllData => true
  | Train => match h with Some m => negb (m_at m g t) | None => true end
  | Test => match h with Some m => m_at m g t | None => false end
  end.

(** The pairs (expected, actual) compared. *)
Definition pairs (x : model) (h : option (matrix bool)) (geos times : list nat) (use_kpi : bool)
    (draws : list draw) (gr : granularity) (s : evaluation_set) : list (R * R) :=
  let e := mean_expected_outcome x use_kpi draws in
  let a := actual_outcome x use_kpi in
  match gr with
  | Geo =>
      flat_map (fun g => map (fun t => (e g t, a g t)) (filter (fun t => in_set h s g t) times)) geos
  | National =>
      flat_map (fun t => match filter (fun g => in_set h s g t) geos with
                         | [] => []
                         | l => [(total l (fun g => e g t), total l (fun g => a g t))]
                         end) times
  end.

(** The metrics of a list of pairs; [None]: undefined (not a finite number). *)
Definition avg (l : list R) : R := lsum l / INR (length l).
Definition squared_error (P : list (R * R)) : R := lsum (map (fun p => (fst p - snd p) ^ 2) P).
Definition spread (P : list (R * R)) : R :=
  lsum (map (fun p => (snd p - avg (map snd P)) ^ 2) P).
Definition absolute_error (P : list (R * R)) : R := lsum (map (fun p => Rabs (snd p - fst p)) P).
Definition weight (P : list (R * R)) : R := lsum (map snd P).
Definition is_r_squared (P : list (R * R)) (v : option R) : Prop :=
  match v with
  | Some r => spread P <> 0 /\ r = 1 - squared_error P / spread P
  | None => spread P = 0
  end.
(** Observations that are exactly 0 and expected to be 0 do not count. *)
Definition counted (P : list (R * R)) (Q : list (R * R)) : Prop :=
  exists sel : R * R -> bool, Q = filter sel P /\
    forall p, sel p = false <-> fst p = 0 /\ snd p = 0.
Definition is_mape (P : list (R * R)) (v : option R) : Prop :=
  exists Q, counted P Q /\
  match v with
  | Some r => Q <> [] /\ (forall p, In p Q -> snd p <> 0) /\
              r = avg (map (fun p => Rabs ((snd p - fst p) / snd p)) Q)
  | None => Q = [] \/ exists p, In p Q /\ snd p = 0
  end.
Definition is_wmape (P : list (R * R)) (v : option R) : Prop :=
  match v with
  | Some r => weight P <> 0 /\ r = absolute_error P / weight P
  | None => weight P = 0
  end.
Definition is_metric (m : metric) (P : list (R * R)) (v : option R) : Prop :=
  match m with RSquared => is_r_squared P v | Mape => is_mape P v | WMape => is_wmape P v end.

(** Value of a dataset under labels; [None]: no such label. *)
Fixpoint find_label {A} (eqb : A -> A -> bool) (a : A) (l : list A) : option nat :=
  match l with
  | [] => None
  | b :: r => if eqb a b then Some 0%nat else option_map S (find_label eqb a r)
  end.
Definition metric_eqb (a b : metric) : bool :=
  match a, b with RSquared, RSquared | Mape, Mape | WMape, WMape => true | _, _ => false end.
Definition gran_eqb (a b : granularity) : bool :=
  match a, b with Geo, Geo | National, National => true | _, _ => false end.
Definition set_eqb (a b : evaluation_set) : bool :=
  match a, b with Train, Train | Test, Test | AllData, AllData => true | _, _ => false end.
Definition lookup (d : dataset) (m : metric) (g : granularity) (s : evaluation_set)
    : option (option R) :=
  match find_label metric_eqb m (ds_metric d), find_label gran_eqb g (ds_granularity d),
        match ds_set d with
        | Some l => find_label set_eqb s l
        | None => match s with AllData => Some 0%nat | _ => None end
        end with
  | Some i, Some j, Some k =>
      match nth_error (ds_value d) i with
      | Some row => match nth_error row j with Some cell => nth_error cell k | None => None end
      | None => None
      end
  | _, _, _ => None
  end.

(** The scenario without media: media, reach and their organic counterparts at 0, non-media
    treatments at their baseline values, controls as observed. *)
Definition zeroed (y : T3) : T3 := mkT3 (geos y) (times y) (chans y) (fun _ _ _ => 0).
Definition no_media_scenario (x : model) (b : nat -> R) : data :=
  let o := x_data x in
  mkData (option_map zeroed (d_media o)) (option_map zeroed (d_reach o)) None
    (option_map zeroed (d_organic_media o)) (option_map zeroed (d_organic_reach o)) None
    (held_at x b) (d_controls o) None.

(** An admissible call. *)
Record accuracy_request (x : model) (h : option (matrix bool)) (geos : option (list string))
    (times : option time_sel) (batch_size : Z) (draws : list draw) : Prop := {
  ar_model : well_formed x;
  ar_kpi : kpi_ok x;
  ar_holdout : holdout_ok x h;
  ar_draws : Forall (draw_ok x) draws;
  ar_some : draws <> [];
  ar_batch : (0 < batch_size)%Z;
  ar_geos : geos_ok x geos;
  ar_geo : chosen_geos x geos <> [];
  ar_times : times_ok x times;
  ar_media : media_nonneg x no_data;
  ar_transformers : transformers_ok x
}.
(** The periods are named by their dates. *)
Definition by_dates (times : option time_sel) : Prop :=
  match times with Some (TBools _) => False | _ => True end.

(** Baseline outcome of a draw, summed over geos and periods. *)
Definition baseline_total (x : model) (b : nat -> R) (uk : bool) (gl tl : list nat) (w : draw) : R :=
  total gl (fun g => total tl (fun t =>
    outcome_in_units x true uk g t (predictor x (no_media_scenario x b) w g t))).
