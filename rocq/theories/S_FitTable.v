(** Specification of the comparison of expected and actual outcomes. *)
From Coq Require Import Reals ZArith String List Bool Arith.
From Verif Require Import Lib_Sum M_Base M_AdstockHill M_Equations M_Transformers M_Aggregate
  S_Aggregate S_Adstock S_Media S_Analyzer M_Analyzer S_Predictor M_Stats S_Stats M_Accuracy S_Accuracy M_FitTable.
Import ListNotations.
Local Open Scope R_scope.

(** What a statistic of the values of the draws is: their mean, or a bound of the credible
    interval. *)
Definition is_stat (level : R) (l : list R) (m : stat) (v : R) : Prop :=
  match m with
  | Mean => INR (length l) * v = lsum l
  | CiLo => is_quantile l ((1 - level) / 2) v
  | CiHi => is_quantile l ((1 + level) / 2) v
  end.

(** The place of a value in the arrays of the dataset: under geo [i] and period [j] (unless
    summed over), a statistic, and an evaluation set (when split). *)
Definition stat_place (m : stat) : nat := match m with Mean => 0 | CiLo => 1 | CiHi => 2 end.
Definition set_place (s : evaluation_set) : nat := match s with Train => 0 | Test => 1 | AllData => 2 end.
Definition place (ag at' : bool) (sets : option (list evaluation_set)) (i j : nat) (m : stat) (s : evaluation_set)
    : list nat :=
  position ag i ++ position at' j ++ [stat_place m] ++ match sets with Some _ => [set_place s] | None => [] end.

(** The outcome of a draw, summed over the geos and periods of a cell. *)
Definition cell_outcome (x : model) (nd : data) (uk : bool) (gl tl : list nat) (w : draw) : R :=
  total gl (fun g => total tl (fun t => outcome_in_units x true uk g t (predictor x nd w g t))).

(** The shape of the draws could be the shape of values by channel: as many draws as geos, as
    many periods as geos, and as many periods as there are channels (of a kind the code looks
    for), or one more. *)
Definition lookalike (x : model) (n_draws : nat) : Prop :=
  n_draws = x_n_geos x /\ x_n_times x = x_n_geos x /\
  exists c, In c [n_media (counts x); n_rf (counts x); n_media (counts x) + n_rf (counts x);
                  n_media (counts x) + n_rf (counts x) + n_non_media (counts x) + n_organic_media (counts x)
                  + n_organic_rf (counts x)]%nat /\
    (x_n_times x = c \/ x_n_times x = S c).

(** An admissible call. *)
Record fit_request (x : model) (h : option (matrix bool)) (n_chains n_draws : nat)
    (values : option (list baseline_value)) (level : R) (batch_size : Z) (draws : list draw) : Prop := {
  fr_model : well_formed x;
  fr_kpi : kpi_ok x;
  fr_holdout : holdout_ok x h;
  fr_draws : Forall (draw_ok x) draws;
  fr_number : length draws = (n_chains * n_draws)%nat;
  fr_some : draws <> [];
  fr_batch : (0 < batch_size)%Z;
  fr_level : -1 <= level <= 1;
  fr_baseline : baseline_ok x values;
  fr_media : media_nonneg x no_data;
  fr_transformers : transformers_ok x
}.
