(** Model of the joint distribution that is sampled: meridian/model/posterior_sampler.py
    [_joint_dist_base_logic], [_joint_dist_unpinned], [_joint_dist_sampling], [_pin_dist].

    The Python generator is modelled as a coroutine: it yields named distributions and receives
    their values.  Floats are exact reals; batch dimensions are dropped.  The blocks of paid
    media, paid reach and frequency, organic media and organic reach and frequency are copies of
    one another in the code up to the names of the parameters; they are modelled by one block
    with the names as arguments. *)
From Coq Require Import Reals ZArith String List Bool Arith.
From Verif Require Import Lib_Sum M_Base M_AdstockHill M_Equations M_Transformers M_Aggregate
  M_Priors M_Sampler M_Analyzer.
Import ListNotations.
Local Open Scope string_scope.
Local Open Scope R_scope.
Local Open Scope nat_scope.
Local Open Scope list_scope.

(** A value of a node: a matrix; vectors are matrices of one row. *)
Definition value := nat -> nat -> R.
Definition vec (v : value) : nat -> R := v 0.
Definition of_vec (f : nat -> R) : value := fun _ i => f i.

(** What the generator yields: a distribution of the broadcast prior (a vector of [n] values),
    independent standard normals, a deterministic value (rows, columns), or the likelihood. *)
Inductive dist :=
| DPrior (n : nat)
| DStdNormal (n m : nat)
| DDeterministic (n m : nat) (v : value)
| DNormal (n m : nat) (loc scale : value).

(** [Stop]: the generator returns.  [NonFinite]: a coefficient is inf or NaN (the log density is
    then NaN). *)
Inductive gen :=
| Stop
| Raise (e : exn)
| NonFinite
| Yield (name : string) (d : dist) (k : value -> gen).

Definition lift {A} (r : result A) (k : A -> gen) : gen :=
  match r with Ok a => k a | Err e => Raise e end.

(** [if yield_deterministics: yield Deterministic(v, name)]. *)
Definition deterministic (det : bool) (name : string) (n m : nat) (v : value) (k : gen) : gen :=
  if det then Yield name (DDeterministic n m v) (fun _ => k) else k.

(** The part of the model specification read by the joint distribution (spec.py, context.py):
    the prior types, calibration periods and spend of the paid channels, media effects
    distribution, knots (number and weights), number of sigmas (one, or one per geo), baseline
    geo, holdout mask. *)
Record spec := mkSpec {
  j_media_prior : prior_type; j_rf_prior : prior_type;
  j_organic_media_prior : prior_type; j_organic_rf_prior : prior_type;
  j_non_media_prior : prior_type;
  j_media_calibration : option (nat -> nat -> bool); j_rf_calibration : option (nat -> nat -> bool);
  j_media_spend : spend_data; j_rf_spend : spend_data;
  j_effects : effects;
  j_knots : nat; j_weights : nat -> nat -> R;
  j_sigmas : nat;
  j_baseline_geo_idx : nat;
  j_non_media_baseline : option (list M_Priors.baseline_value);
  j_holdout : option (nat -> nat -> bool)
}.

(** The context of the coefficient calculation (equations.py [ModelEquations]). *)
Definition equations_of (x : M_Analyzer.model) (s : spec) : M_Priors.model :=
  M_Priors.mkModel (x_cx x) (x_n_geos x) (x_population x) (val2 (x_kpi x))
    (option_map val2 (d_revenue_per_kpi (x_data x))) (j_effects s).

(** All channels of a coefficient, when they are finite. *)
Definition finite (n : nat) (b : nat -> option R) (k : (nat -> R) -> gen) : gen :=
  if forallb (fun c => match b c with Some _ => true | None => false end) (seq 0 n)
  then k (fun c => match b c with Some v => v | None => 0%R end)
  else NonFinite.

(** posterior_sampler.py:318-348 and 386-415: the mean coefficient of paid channels.  [diff] is the
    counterfactual difference. *)
Definition paid_coefficient (det : bool) (md : M_Priors.model) (pt : prior_type) (sfx : string)
    (n : nat) (den : option (nat -> R)) (diff : result T3) (eta : nat -> R) (dev : nat -> nat -> R)
    (k : (nat -> R) -> gen) : gen :=
  let with_parameter (name : string) :=
    Yield name (DPrior n) (fun theta =>
    match den with
    | None => Raise TypeError
    | Some d =>
        lift diff (fun y =>
        finite n (calculate_beta_x md false (fun c => (vec theta c * d c)%R) y eta dev) (fun beta =>
        deterministic det (String.append "beta_" sfx) 1 n (of_vec beta) (k beta)))
    end) in
  match pt with
  | PtCoefficient => Yield (String.append "beta_" sfx) (DPrior n) (fun beta => k (vec beta))
  | PtROI => with_parameter (String.append "roi_" sfx)
  | PtMROI => with_parameter (String.append "mroi_" sfx)
  | PtContribution => with_parameter (String.append "contribution_" sfx)
  | PtOther => Raise ValueError
  end.

(** posterior_sampler.py:452-469 and 505-522: the mean coefficient of organic channels. *)
Definition organic_coefficient (det : bool) (md : M_Priors.model) (pt : prior_type) (sfx : string)
    (n : nat) (transformed : T3) (eta : nat -> R) (dev : nat -> nat -> R)
    (k : (nat -> R) -> gen) : gen :=
  match pt with
  | PtCoefficient => Yield (String.append "beta_" sfx) (DPrior n) (fun beta => k (vec beta))
  | PtContribution =>
      Yield (String.append "contribution_" sfx) (DPrior n) (fun theta =>
      finite n (calculate_beta_x md false (fun c => (vec theta c * total_outcome md)%R)
                  transformed eta dev) (fun beta =>
      deterministic det (String.append "beta_" sfx) 1 n (of_vec beta) (k beta)))
  | _ => Raise ValueError
  end.

(** posterior_sampler.py:297-361, 363-429, 431-480 and 482-533: one kind of media: Hill and
    adstock parameters, geo deviations, transformed media, mean coefficient, geo coefficients. *)
Definition media_block (det : bool) (md : M_Priors.model) (sfx : string) (n : nat)
    (transform : chan_params -> result T3)
    (coefficient : chan_params -> T3 -> (nat -> R) -> (nat -> nat -> R) -> ((nat -> R) -> gen) -> gen)
    (k : part -> gen) : gen :=
  Yield (String.append "alpha_" sfx) (DPrior n) (fun alpha =>
  Yield (String.append "ec_" sfx) (DPrior n) (fun ec =>
  Yield (String.append "eta_" sfx) (DPrior n) (fun eta =>
  Yield (String.append "slope_" sfx) (DPrior n) (fun slope =>
  Yield (String.append "beta_g" (String.append sfx "_dev")) (DStdNormal (md_geos md) n) (fun dev =>
  let p := mkParams n (vec alpha) (vec ec) (vec slope) in
  lift (transform p) (fun transformed =>
  coefficient p transformed (vec eta) dev (fun beta =>
  let bg := beta_gx md beta (vec eta) dev in
  deterministic det (String.append "beta_g" sfx) (md_geos md) n bg
    (k (transformed, (n, bg)))))))))).

(** posterior_sampler.py:297-361. *)
Definition paid_media_block (det : bool) (x : M_Analyzer.model) (s : spec) (k : list part -> gen) : gen :=
  let md := equations_of x s in
  match d_media (x_data x) with
  | None => k []
  | Some m =>
      lift (build_media_tensors md (j_media_prior s) (j_media_calibration s) m (j_media_spend s)) (fun mt =>
      media_block det md "m" (chans m)
        (fun p => adstock_hill_media (x_cx x) (pt_scaled mt) p (x_decay_media x) (x_sat_media x) None)
        (fun p y eta dev =>
           paid_coefficient det md (j_media_prior s) "m" (chans m) (pt_denominator mt)
             (counterfactual_difference_media md (pt_counterfactual mt) y p (x_decay_media x)) eta dev)
        (fun q => k [q]))
  end.

(** posterior_sampler.py:363-429. *)
Definition paid_rf_block (det : bool) (x : M_Analyzer.model) (s : spec) (k : list part -> gen) : gen :=
  let md := equations_of x s in
  match d_reach (x_data x), d_frequency (x_data x) with
  | None, _ => k []
  | Some _, None => Raise AttributeError
  | Some r, Some f =>
      lift (build_rf_tensors md (j_rf_prior s) (j_rf_calibration s) r f (j_rf_spend s)) (fun mt =>
      media_block det md "rf" (chans r)
        (fun p => adstock_hill_rf (x_cx x) (pt_scaled mt) f p (x_decay_rf x) (x_sat_rf x) None)
        (fun p y eta dev =>
           paid_coefficient det md (j_rf_prior s) "rf" (chans r) (pt_denominator mt)
             (counterfactual_difference_rf md (pt_counterfactual mt) f y p (x_decay_rf x)) eta dev)
        (fun q => k [q]))
  end.

(** posterior_sampler.py:431-480. *)
Definition organic_media_block (det : bool) (x : M_Analyzer.model) (s : spec) (k : list part -> gen) : gen :=
  let md := equations_of x s in
  match d_organic_media (x_data x) with
  | None => k []
  | Some m =>
      lift (media_transformer_init m (x_population x)) (fun tr =>
      media_block det md "om" (chans m)
        (fun p => adstock_hill_media (x_cx x) (forward3 tr m) p (x_decay_organic_media x)
                    (x_sat_organic_media x) None)
        (fun _ y eta dev => organic_coefficient det md (j_organic_media_prior s) "om" (chans m) y eta dev)
        (fun q => k [q]))
  end.

(** posterior_sampler.py:482-533. *)
Definition organic_rf_block (det : bool) (x : M_Analyzer.model) (s : spec) (k : list part -> gen) : gen :=
  let md := equations_of x s in
  match d_organic_reach (x_data x), d_organic_frequency (x_data x) with
  | None, _ => k []
  | Some _, None => Raise AttributeError
  | Some r, Some f =>
      lift (media_transformer_init r (x_population x)) (fun tr =>
      media_block det md "orf" (chans r)
        (fun p => adstock_hill_rf (x_cx x) (forward3 tr r) f p (x_decay_organic_rf x)
                    (x_sat_organic_rf x) None)
        (fun _ y eta dev => organic_coefficient det md (j_organic_rf_prior s) "orf" (chans r) y eta dev)
        (fun q => k [q]))
  end.

(** posterior_sampler.py:535-547: without media the prediction is the baseline alone. *)
Definition combine_media (l : list part) (k : (nat -> nat -> R) -> gen) : gen :=
  match l with
  | [] => k (fun _ _ => 0%R)
  | _ => lift (concat_parts l) (fun p => k (contract (fst p) (snd (snd p))))
  end.

(** posterior_sampler.py:549-568; [if n_controls] skips the block also for zero controls. *)
Definition controls_block (det : bool) (x : M_Analyzer.model) (k : (nat -> nat -> R) -> gen) : gen :=
  match transform_centered (d_controls (x_data x)) (controls_transformer x) with
  | None => k (fun _ _ => 0%R)
  | Some c =>
      if Nat.eqb (chans c) 0 then k (fun _ _ => 0%R) else
      Yield "gamma_c" (DPrior (chans c)) (fun gamma =>
      Yield "xi_c" (DPrior (chans c)) (fun xi =>
      Yield "gamma_gc_dev" (DStdNormal (x_n_geos x) (chans c)) (fun dev =>
      let gg : value := fun g i => (vec gamma i + vec xi i * dev g i)%R in
      deterministic det "gamma_gc" (x_n_geos x) (chans c) gg (k (contract c gg)))))
  end.

(** posterior_sampler.py:570-612. *)
Definition non_media_block (det : bool) (x : M_Analyzer.model) (s : spec) (k : (nat -> nat -> R) -> gen) : gen :=
  let md := equations_of x s in
  match d_non_media (x_data x), transform_centered (d_non_media (x_data x)) (non_media_transformer x) with
  | Some raw, Some c =>
      let n := chans c in
      Yield "xi_n" (DPrior n) (fun xi =>
      Yield "gamma_gn_dev" (DStdNormal (x_n_geos x) n) (fun dev =>
      let rest (gamma : nat -> R) :=
        let gg : value := fun g i => (gamma i + vec xi i * dev g i)%R in
        deterministic det "gamma_gn" (x_n_geos x) n gg (k (contract c gg)) in
      match j_non_media_prior s with
      | PtCoefficient => Yield "gamma_n" (DPrior n) (fun gamma => rest (vec gamma))
      | PtContribution =>
          Yield "contribution_n" (DPrior n) (fun theta =>
          lift (non_media_baseline md raw (x_non_media_scaling_id x) (j_non_media_baseline s)) (fun b =>
          finite n (calculate_beta_x md true (fun c => (vec theta c * total_outcome md)%R)
                      (non_media_difference raw (x_population x) (x_non_media_scaling_id x) b)
                      (vec xi) dev) (fun gamma =>
          deterministic det "gamma_n" 1 n (of_vec gamma) (rest gamma))))
      | _ => Raise ValueError
      end))
  | _, _ => k (fun _ _ => 0%R)
  end.

(** Entries of a vector. *)
Definition entries (n : nat) (v : value) : list R := map (vec v) (seq 0 n).

(** posterior_sampler.py:614-629: the likelihood; held out cells get mean 0 and standard deviation
    1/sqrt(2 pi). *)
Definition likelihood_node (x : M_Analyzer.model) (s : spec) (sigma : list R)
    (y_pred : nat -> nat -> R) : gen :=
  let sd := fun g (t : nat) => sigma_gt sigma g in
  match j_holdout s with
  | Some h =>
      Yield "y" (DNormal (x_n_geos x) (x_n_times x)
                   (fun g t => if h g t then 0%R else y_pred g t)
                   (fun g t => if h g t then (1 / sqrt (2 * PI))%R else sd g t)) (fun _ => Stop)
  | None => Yield "y" (DNormal (x_n_geos x) (x_n_times x) y_pred sd) (fun _ => Stop)
  end.

(** posterior_sampler.py:208-649 [_joint_dist_base_logic]; [det] is [yield_deterministics].  The
    number of entries of [tau_g_excl_baseline] is the number of geos less one. *)
Definition joint_dist (det : bool) (x : M_Analyzer.model) (s : spec) : gen :=
  let G := x_n_geos x in
  let T := x_n_times x in
  Yield "knot_values" (DPrior (j_knots s)) (fun knots =>
  Yield "sigma" (DPrior (j_sigmas s)) (fun sigma =>
  Yield "tau_g_excl_baseline" (DPrior (G - 1)) (fun tau_excl =>
  let tau_g := fun g => nth g (compute_tau_g (entries (G - 1) tau_excl) (j_baseline_geo_idx s)) 0%R in
  deterministic det "tau_g" 1 G (of_vec tau_g) (
  let mu_t := fun t => rsum (j_knots s) (fun i => (vec knots i * j_weights s i t)%R) in
  deterministic det "mu_t" 1 T (of_vec mu_t) (
  paid_media_block det x s (fun l1 =>
  paid_rf_block det x s (fun l2 =>
  organic_media_block det x s (fun l3 =>
  organic_rf_block det x s (fun l4 =>
  combine_media (l1 ++ l2 ++ l3 ++ l4) (fun media =>
  controls_block det x (fun controls =>
  non_media_block det x s (fun non_media =>
  likelihood_node x s (entries (j_sigmas s) sigma)
    (fun g t => (tau_g g + mu_t t + media g t + controls g t + non_media g t)%R))))))))))))).

(** One pass through the coroutine (tfp [JointDistributionCoroutine]): the values of the latent
    nodes (and of the pinned one) are given, deterministic nodes take their own value. *)
Record node := mkNode { nd_name : string; nd_dist : dist; nd_value : value }.
Inductive run_result := Ran (l : list node) | Raised (e : exn) | NotFinite.
Definition add_node (n : node) (r : run_result) : run_result :=
  match r with Ran l => Ran (n :: l) | _ => r end.
Fixpoint run (g : gen) (env : string -> value) : run_result :=
  match g with
  | Stop => Ran []
  | Raise e => Raised e
  | NonFinite => NotFinite
  | Yield name d k =>
      let v := match d with DDeterministic _ _ u => u | _ => env name end in
      add_node (mkNode name d v) (run (k v) env)
  end.

(** context.py:645-647 [kpi_scaled] and posterior_sampler.py:724-735 [_pin_dist]. *)
Definition pinned (x : M_Analyzer.model) (s : spec) : value := fun g t =>
  let y := kpi_forward (kpi_tr x) g (val2 (x_kpi x) g t) in
  match j_holdout s with Some h => if h g t then 0%R else y | None => y end.
Definition pin (x : M_Analyzer.model) (s : spec) (env : string -> value) : string -> value :=
  fun name => if String.eqb name "y" then pinned x s else env name.

(** Log density of a node at its value; [prior] gives that of the prior distributions, of which
    only the name is modelled.  A deterministic node has log density 0 at its value. *)
Definition node_log_prob (prior : string -> list R -> R) (n : node) : R :=
  match nd_dist n with
  | DPrior k => prior (nd_name n) (entries k (nd_value n))
  | DStdNormal k m => rsum k (fun i => rsum m (fun j => normal_logpdf (nd_value n i j) 0 1))
  | DDeterministic _ _ _ => 0%R
  | DNormal k m loc scale =>
      rsum k (fun i => rsum m (fun j => normal_logpdf (nd_value n i j) (loc i j) (scale i j)))
  end.

(** [joint_dist.experimental_pin(y=...).log_prob(latents)]; [None] when the model raises or a
    coefficient is not finite. *)
Definition target_log_prob (prior : string -> list R -> R) (det : bool) (x : M_Analyzer.model) (s : spec)
    (env : string -> value) : option R :=
  match run (joint_dist det x s) (pin x s env) with
  | Ran l => Some (lsum (map (node_log_prob prior) l))
  | _ => None
  end.

(** The value of a node, by name. *)
Definition node_value (name : string) (l : list node) : value :=
  match find (fun n => String.eqb (nd_name n) name) l with
  | Some n => nd_value n
  | None => fun _ _ => 0%R
  end.
Definition params_of (n : nat) (sfx : string) (l : list node) : chan_params :=
  mkParams n (vec (node_value (String.append "alpha_" sfx) l)) (vec (node_value (String.append "ec_" sfx) l))
    (vec (node_value (String.append "slope_" sfx) l)).

(** tensors.py:526-548 [DistributionTensors] read, by name, from the parameters saved in the
    posterior (posterior_sampler.py:853-887). *)
Definition saved_draw (x : M_Analyzer.model) (l : list node) : draw :=
  let d := x_data x in
  mkDraw (vec (node_value "tau_g" l)) (vec (node_value "mu_t" l))
    (params_of (n_chans (d_media d)) "m" l) (params_of (n_chans (d_reach d)) "rf" l)
    (params_of (n_chans (d_organic_media d)) "om" l) (params_of (n_chans (d_organic_reach d)) "orf" l)
    (node_value "beta_gm" l) (node_value "beta_grf" l) (node_value "beta_gom" l)
    (node_value "beta_gorf" l) (node_value "gamma_gc" l) (node_value "gamma_gn" l).
