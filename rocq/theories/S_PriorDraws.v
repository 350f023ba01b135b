(** Specification of prior sampling: how a prior draw relates to the parameters of S_Joint. *)
From Coq Require Import Reals ZArith String List Bool Arith.
From Verif Require Import Lib_Sum M_Base M_AdstockHill M_Equations M_Transformers M_Aggregate
  S_Aggregate S_Adstock S_Media S_Analyzer S_Predictor S_Sampler M_Priors M_Sampler M_Analyzer M_Joint S_Joint.
Import ListNotations.
Local Open Scope string_scope.
Local Open Scope R_scope.
Local Open Scope nat_scope.
Local Open Scope list_scope.

(** The values of one prior draw, by parameter. *)
Definition drawn (l : list node) : string -> value := fun name => node_value name l.

(** A sampled node as a parameter of the specification. *)
Definition latent_of (n : node) : latent :=
  match nd_dist n with
  | DStdNormal a b => Deviations (nd_name n) a b
  | DPrior a => Drawn (nd_name n) a
  | _ => Drawn (nd_name n) 0
  end.

(** The same model specification with another type of organic reach and frequency priors. *)
Definition with_organic_rf_prior (s : spec) (pt : prior_type) : spec :=
  mkSpec (j_media_prior s) (j_rf_prior s) (j_organic_media_prior s) pt (j_non_media_prior s)
    (j_media_calibration s) (j_rf_calibration s) (j_media_spend s) (j_rf_spend s) (j_effects s)
    (j_knots s) (j_weights s) (j_sigmas s) (j_baseline_geo_idx s) (j_non_media_baseline s) (j_holdout s).

(** Organic reach and frequency have the type of priors of organic media, or there are none. *)
Definition same_organic_types (x : M_Analyzer.model) (s : spec) : Prop :=
  d_organic_reach (x_data x) = None \/ j_organic_rf_prior s = j_organic_media_prior s.
