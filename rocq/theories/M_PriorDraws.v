(** Model of prior sampling: meridian/model/prior_sampler.py [PriorDistributionSampler].

    Each [.sample(seed=rng_handler.get_next_seed())] is a [Yield] of the coroutine type of
    M_Joint: a request for a value of a named distribution.  Every request, also those of
    deterministic distributions, takes the next seed of the handler.  The dimensions of chains and
    draws are dropped: one draw.  Floats are exact reals. *)
From Coq Require Import Reals ZArith String List Bool Arith.
From Verif Require Import Lib_Sum M_Base M_AdstockHill M_Equations M_Transformers M_Aggregate
  M_Priors M_Sampler M_Analyzer M_Joint.
Import ListNotations.
Local Open Scope string_scope.
Local Open Scope R_scope.
Local Open Scope nat_scope.
Local Open Scope list_scope.

(** prior_sampler.py:180-190 (and 293-304, 388-397, 485-494, 569-578): mean coefficients that are
    calculated. *)
Definition calculated (md : M_Priors.model) (non_media : bool) (name : string) (n : nat)
    (incremental : nat -> R) (difference : T3) (eta : nat -> R) (dev : nat -> nat -> R)
    (k : (nat -> R) -> gen) : gen :=
  finite n (calculate_beta_x md non_media incremental difference eta dev) (fun beta =>
  Yield name (DDeterministic 1 n (of_vec beta)) (fun _ => k beta)).

(** prior_sampler.py:192-203, 306-317, 401-413, 498-510: geo coefficients. *)
Definition geo_coefficients (md : M_Priors.model) (sfx : string) (n : nat) (beta eta : nat -> R)
    (dev : nat -> nat -> R) (k : gen) : gen :=
  let combined := fun g c => (beta c + eta c * dev g c)%R in
  let v := match media_effects_dist md with
           | EffNormal => combined
           | EffLogNormal => fun g c => exp (combined g c)
           end in
  Yield (String.append "beta_g" sfx) (DDeterministic (md_geos md) n v) (fun _ => k).

(** prior_sampler.py:117-139, 227-249, 341-363, 437-459: the parameters of one kind of media. *)
Definition media_parameters (md : M_Priors.model) (sfx : string) (n : nat)
    (k : chan_params -> (nat -> R) -> (nat -> nat -> R) -> gen) : gen :=
  Yield (String.append "alpha_" sfx) (DPrior n) (fun alpha =>
  Yield (String.append "ec_" sfx) (DPrior n) (fun ec =>
  Yield (String.append "eta_" sfx) (DPrior n) (fun eta =>
  Yield (String.append "slope_" sfx) (DPrior n) (fun slope =>
  Yield (String.append "beta_g" (String.append sfx "_dev")) (DStdNormal (md_geos md) n) (fun dev =>
  k (mkParams n (vec alpha) (vec ec) (vec slope)) (vec eta) dev))))).

(** prior_sampler.py:141-190 and 251-304: the mean coefficients of paid channels. *)
Definition paid_prior (md : M_Priors.model) (pt : prior_type) (sfx : string) (n : nat)
    (den : option (nat -> R)) (transform : result T3) (difference : T3 -> result T3)
    (eta : nat -> R) (dev : nat -> nat -> R) (k : (nat -> R) -> gen) : gen :=
  let from (theta : value) : gen :=
    match den with
    | None => Raise TypeError
    | Some d =>
        lift transform (fun y =>
        lift (difference y) (fun z =>
        calculated md false (String.append "beta_" sfx) n (fun c => (vec theta c * d c)%R) z eta dev k))
    end in
  match pt with
  | PtCoefficient => Yield (String.append "beta_" sfx) (DPrior n) (fun beta => k (vec beta))
  | PtROI => Yield (String.append "roi_" sfx) (DPrior n) from
  | PtMROI => Yield (String.append "mroi_" sfx) (DPrior n) from
  | PtContribution => Yield (String.append "contribution_" sfx) (DPrior n) from
  | PtOther => Raise ValueError
  end.

(** prior_sampler.py:97-205 [_sample_media_priors], called when there are media channels. *)
Definition sample_media_priors (x : M_Analyzer.model) (s : spec) (k : gen) : gen :=
  let md := equations_of x s in
  match d_media (x_data x) with
  | None => k
  | Some m =>
      lift (build_media_tensors md (j_media_prior s) (j_media_calibration s) m (j_media_spend s)) (fun mt =>
      media_parameters md "m" (chans m) (fun p eta dev =>
      paid_prior md (j_media_prior s) "m" (chans m) (pt_denominator mt)
        (adstock_hill_media (x_cx x) (pt_scaled mt) p (x_decay_media x) (x_sat_media x) None)
        (fun y => counterfactual_difference_media md (pt_counterfactual mt) y p (x_decay_media x))
        eta dev (fun beta =>
      geo_coefficients md "m" (chans m) beta eta dev k)))
  end.

(** prior_sampler.py:207-319 [_sample_rf_priors]. *)
Definition sample_rf_priors (x : M_Analyzer.model) (s : spec) (k : gen) : gen :=
  let md := equations_of x s in
  match d_reach (x_data x), d_frequency (x_data x) with
  | None, _ => k
  | Some _, None => Raise AttributeError
  | Some r, Some f =>
      lift (build_rf_tensors md (j_rf_prior s) (j_rf_calibration s) r f (j_rf_spend s)) (fun mt =>
      media_parameters md "rf" (chans r) (fun p eta dev =>
      paid_prior md (j_rf_prior s) "rf" (chans r) (pt_denominator mt)
        (adstock_hill_rf (x_cx x) (pt_scaled mt) f p (x_decay_rf x) (x_sat_rf x) None)
        (fun y => counterfactual_difference_rf md (pt_counterfactual mt) f y p (x_decay_rf x))
        eta dev (fun beta =>
      geo_coefficients md "rf" (chans r) beta eta dev k)))
  end.

(** prior_sampler.py:365-399 and 461-496: the mean coefficients of organic channels. *)
Definition organic_prior (md : M_Priors.model) (pt : prior_type) (sfx : string) (n : nat)
    (transform : result T3) (eta : nat -> R) (dev : nat -> nat -> R) (k : (nat -> R) -> gen) : gen :=
  match pt with
  | PtCoefficient => Yield (String.append "beta_" sfx) (DPrior n) (fun beta => k (vec beta))
  | PtContribution =>
      Yield (String.append "contribution_" sfx) (DPrior n) (fun theta =>
      lift transform (fun y =>
      calculated md false (String.append "beta_" sfx) n (fun c => (vec theta c * total_outcome md)%R)
        y eta dev k))
  | _ => Raise ValueError
  end.

(** prior_sampler.py:321-415 [_sample_organic_media_priors]. *)
Definition sample_organic_media_priors (x : M_Analyzer.model) (s : spec) (k : gen) : gen :=
  let md := equations_of x s in
  match d_organic_media (x_data x) with
  | None => k
  | Some m =>
      lift (media_transformer_init m (x_population x)) (fun tr =>
      media_parameters md "om" (chans m) (fun p eta dev =>
      organic_prior md (j_organic_media_prior s) "om" (chans m)
        (adstock_hill_media (x_cx x) (forward3 tr m) p (x_decay_organic_media x) (x_sat_organic_media x) None)
        eta dev (fun beta =>
      geo_coefficients md "om" (chans m) beta eta dev k)))
  end.

(** prior_sampler.py:417-512 [_sample_organic_rf_priors]; line 461 reads
    [organic_media_prior_type]. *)
Definition sample_organic_rf_priors (x : M_Analyzer.model) (s : spec) (k : gen) : gen :=
  let md := equations_of x s in
  match d_organic_reach (x_data x), d_organic_frequency (x_data x) with
  | None, _ => k
  | Some _, None => Raise AttributeError
  | Some r, Some f =>
      lift (media_transformer_init r (x_population x)) (fun tr =>
      media_parameters md "orf" (chans r) (fun p eta dev =>
      organic_prior md (j_organic_media_prior s) "orf" (chans r)
        (adstock_hill_rf (x_cx x) (forward3 tr r) f p (x_decay_organic_rf x) (x_sat_organic_rf x) None)
        eta dev (fun beta =>
      geo_coefficients md "orf" (chans r) beta eta dev k)))
  end.

(** prior_sampler.py:514-587 [_sample_non_media_treatments_priors]. *)
Definition sample_non_media_priors (x : M_Analyzer.model) (s : spec) (k : gen) : gen :=
  let md := equations_of x s in
  match d_non_media (x_data x) with
  | None => k
  | Some raw =>
      let n := chans raw in
      Yield "xi_n" (DPrior n) (fun xi =>
      Yield "gamma_gn_dev" (DStdNormal (x_n_geos x) n) (fun dev =>
      let rest (gamma : nat -> R) : gen :=
        Yield "gamma_gn" (DDeterministic (x_n_geos x) n (fun g i => (gamma i + vec xi i * dev g i)%R))
          (fun _ => k) in
      match j_non_media_prior s with
      | PtCoefficient => Yield "gamma_n" (DPrior n) (fun gamma => rest (vec gamma))
      | PtContribution =>
          Yield "contribution_n" (DPrior n) (fun theta =>
          lift (non_media_baseline md raw (x_non_media_scaling_id x) (j_non_media_baseline s)) (fun b =>
          calculated md true "gamma_n" n (fun c => (vec theta c * total_outcome md)%R)
            (non_media_difference raw (x_population x) (x_non_media_scaling_id x) b) (vec xi) dev rest))
      | _ => Raise ValueError
      end))
  end.

(** prior_sampler.py:37-63 [_get_tau_g] and 617-644: intercepts. *)
Definition get_tau_g (tau_excl : list R) (baseline : nat) : list R :=
  firstn baseline tau_excl ++ [0%R] ++ skipn baseline tau_excl.
Definition sample_base (x : M_Analyzer.model) (s : spec) (k : gen) : gen :=
  let G := x_n_geos x in
  Yield "tau_g_excl_baseline" (DPrior (G - 1)) (fun tau_excl =>
  Yield "knot_values" (DPrior (j_knots s)) (fun knots =>
  Yield "sigma" (DPrior (j_sigmas s)) (fun sigma =>
  Yield "tau_g" (DDeterministic 1 G
                   (of_vec (fun g => nth g (get_tau_g (entries (G - 1) tau_excl) (j_baseline_geo_idx s)) 0%R))) (fun _ =>
  Yield "mu_t" (DDeterministic 1 (x_n_times x)
                  (of_vec (fun t => rsum (j_knots s) (fun i => (vec knots i * j_weights s i t)%R)))) (fun _ =>
  k))))).

(** prior_sampler.py:646-671: controls, omitted when there are none. *)
Definition sample_controls (x : M_Analyzer.model) (k : gen) : gen :=
  let n := n_chans (d_controls (x_data x)) in
  if Nat.eqb n 0 then k else
  Yield "gamma_c" (DPrior n) (fun gamma =>
  Yield "xi_c" (DPrior n) (fun xi =>
  Yield "gamma_gc_dev" (DStdNormal (x_n_geos x) n) (fun dev =>
  Yield "gamma_gc" (DDeterministic (x_n_geos x) n (fun g i => (vec gamma i + vec xi i * dev g i)%R)) (fun _ =>
  k)))).

(** prior_sampler.py:589-706 [__call__]. *)
Definition prior_sampler (x : M_Analyzer.model) (s : spec) : gen :=
  sample_base x s (sample_controls x (sample_media_priors x s (sample_rf_priors x s
  (sample_organic_media_priors x s (sample_organic_rf_priors x s (sample_non_media_priors x s Stop)))))).

(** Sampling with the seeds of the handler: [rnd name i] is what the distribution of parameter
    [name] returns for the [i]-th seed. *)
Fixpoint run_seeded (g : gen) (rnd : string -> nat -> value) (i : nat) : run_result :=
  match g with
  | Stop => Ran []
  | Raise e => Raised e
  | NonFinite => NotFinite
  | Yield name d k =>
      let v := match d with DDeterministic _ _ u => u | _ => rnd name i end in
      add_node (mkNode name d v) (run_seeded (k v) rnd (S i))
  end.
Definition sample_prior (x : M_Analyzer.model) (s : spec) (rnd : string -> nat -> value) : run_result :=
  run_seeded (prior_sampler x s) rnd 0.

(** constants.py:471-480 [UNSAVED_PARAMETERS]: kept neither by the prior sampler (local variables)
    nor by the posterior sampler (posterior_sampler.py:876-881). *)
Definition unsaved (name : string) : bool :=
  existsb (String.eqb name)
    ["beta_gm_dev"; "beta_grf_dev"; "beta_gom_dev"; "beta_gorf_dev"; "gamma_gc_dev"; "gamma_gn_dev";
     "tau_g_excl_baseline"; "y"].
Definition saved (l : list node) : list (string * value) :=
  map (fun n => (nd_name n, nd_value n)) (filter (fun n => negb (unsaved (nd_name n))) l).
