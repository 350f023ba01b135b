(** Specification of the posterior: the parameters of the Meridian documentation with their
    distributions, and what the saved parameters are as functions of the sampled ones. *)
From Coq Require Import Reals ZArith String List Bool Arith.
From Verif Require Import Lib_Sum M_Base M_AdstockHill M_Equations M_Transformers M_Aggregate
  S_Aggregate S_Adstock S_Media S_Analyzer S_Predictor S_Sampler M_Priors M_Sampler M_Analyzer M_Joint.
Import ListNotations.
Local Open Scope string_scope.
Local Open Scope R_scope.
Local Open Scope nat_scope.
Local Open Scope list_scope.

(** A sampled parameter: a vector of [n] values with its own prior, or an [n] by [m] table of
    independent standard normals. *)
Inductive latent := Drawn (name : string) (n : nat) | Deviations (name : string) (n m : nat).

(** Entry of a sampled vector. *)
Definition entry (env : string -> value) (name : string) (i : nat) : R := env name 0 i.

Definition latent_log_density (prior : string -> list R -> R) (env : string -> value) (l : latent) : R :=
  match l with
  | Drawn name n => prior name (map (fun i => entry env name i) (seq 0 n))
  | Deviations name n m =>
      lsum (map (fun c => normal_log_density (env name (fst c) (snd c)) 0 1)
              (list_prod (seq 0 n) (seq 0 m)))
  end.

(** The name of the parameter that carries the prior of a kind of channels. *)
Definition prior_name (pt : prior_type) (sfx : string) : string :=
  String.append
    (match pt with PtROI => "roi_" | PtMROI => "mroi_" | PtContribution => "contribution_" | _ => "beta_" end)
    sfx.

Definition media_latents (G : nat) (o : option T3) (pt : prior_type) (sfx : string) : list latent :=
  match o with
  | None => []
  | Some m =>
      [Drawn (String.append "alpha_" sfx) (chans m); Drawn (String.append "ec_" sfx) (chans m);
       Drawn (String.append "eta_" sfx) (chans m); Drawn (String.append "slope_" sfx) (chans m);
       Deviations (String.append "beta_g" (String.append sfx "_dev")) G (chans m);
       Drawn (prior_name pt sfx) (chans m)]
  end.

(** All sampled parameters of the model. *)
Definition latents (x : M_Analyzer.model) (s : spec) : list latent :=
  let d := x_data x in
  let G := x_n_geos x in
  [Drawn "knot_values" (j_knots s); Drawn "sigma" (j_sigmas s);
   Drawn "tau_g_excl_baseline" (G - 1)]
  ++ media_latents G (d_media d) (j_media_prior s) "m"
  ++ media_latents G (d_reach d) (j_rf_prior s) "rf"
  ++ media_latents G (d_organic_media d) (j_organic_media_prior s) "om"
  ++ media_latents G (d_organic_reach d) (j_organic_rf_prior s) "orf"
  ++ (if Nat.eqb (n_chans (d_controls d)) 0 then [] else
      [Drawn "gamma_c" (n_chans (d_controls d)); Drawn "xi_c" (n_chans (d_controls d));
       Deviations "gamma_gc_dev" G (n_chans (d_controls d))])
  ++ (match d_non_media d with
      | None => []
      | Some n => [Drawn "xi_n" (chans n); Deviations "gamma_gn_dev" G (chans n);
                   Drawn (match j_non_media_prior s with
                              | PtContribution => "contribution_n" | _ => "gamma_n" end) (chans n)]
      end).

(** The cells of the KPI that are not held out. *)
Definition fitted_cells (x : M_Analyzer.model) (s : spec) : list (nat * nat) :=
  match j_holdout s with
  | Some h => observed_cells (x_n_geos x) (x_n_times x) h
  | None => list_prod (seq 0 (x_n_geos x)) (seq 0 (x_n_times x))
  end.

(** The KPI per capita, standardised. *)
Definition standardised_kpi (x : M_Analyzer.model) (g t : nat) : R :=
  kpi_forward (kpi_tr x) g (val2 (x_kpi x) g t).

(** The transformer of each kind is the one of its own data. *)
Definition transformer_of (population : nat -> R) (o : option T3) (t : option media_transformer) : Prop :=
  match o, t with
  | Some m, Some tr => media_transformer_init m population = Ok tr
  | None, _ => True
  | _, _ => False
  end.
Definition own_transformers (x : M_Analyzer.model) : Prop :=
  let d := x_data x in
  let p := x_population x in
  transformer_of p (d_media d) (x_media_transformer x) /\
  transformer_of p (d_reach d) (x_reach_transformer x) /\
  transformer_of p (d_organic_media d) (x_organic_media_transformer x) /\
  transformer_of p (d_organic_reach d) (x_organic_reach_transformer x).

(** Hill and adstock parameters of the channels of one kind, inside their domains. *)
Definition in_domain (o : option T3) (sfx : string) (env : string -> value) : Prop :=
  match o with
  | None => True
  | Some m => forall c, c < chans m ->
      (0 <= entry env (String.append "alpha_" sfx) c <= 1)%R /\ (0 < entry env (String.append "ec_" sfx) c)%R /\
      (0 < entry env (String.append "slope_" sfx) c)%R
  end.
Definition latents_ok (x : M_Analyzer.model) (s : spec) (env : string -> value) : Prop :=
  let d := x_data x in
  in_domain (d_media d) "m" env /\ in_domain (d_reach d) "rf" env /\
  in_domain (d_organic_media d) "om" env /\ in_domain (d_organic_reach d) "orf" env /\
  (j_sigmas s = 1 \/ j_sigmas s = x_n_geos x) /\
  forall i, i < j_sigmas s -> (0 < entry env "sigma" i)%R.

(** Noise level of a geo. *)
Definition noise (s : spec) (env : string -> value) (g : nat) : R :=
  if Nat.eqb (j_sigmas s) 1 then entry env "sigma" 0 else entry env "sigma" g.

(** The data of a model: dimensions, transformers and non-negative media. *)
Definition model_ok (x : M_Analyzer.model) : Prop :=
  well_formed x /\ own_transformers x /\ transformers_ok x /\ media_nonneg x no_data.

(** Geo coefficients from their mean, spread and standard normal deviations. *)
Definition geo_coefficient (effects_dist : effects) (mean spread dev : R) : R :=
  match effects_dist with EffNormal => mean + spread * dev | EffLogNormal => exp (mean + spread * dev) end%R.

(** Mean coefficients: drawn directly, or those of the prior in terms of ROI, marginal ROI or
    contribution ([b], whose meaning is C09). *)
Definition mean_coefficients (pt : prior_type) (sfx : string) (n : nat) (env : string -> value)
    (b : result (nat -> option R)) (beta : nat -> R) : Prop :=
  match pt with
  | PtCoefficient => forall c, c < n -> beta c = entry env (String.append "beta_" sfx) c
  | _ => exists f, b = Ok f /\ forall c, c < n -> f c = Some (beta c)
  end.

(** The parameters of one kind of channels as saved. *)
Definition kind_saved (e : effects) (G n : nat) (sfx : string) (pt : prior_type) (env : string -> value)
    (p : chan_params) (bg : nat -> nat -> R)
    (b : chan_params -> (nat -> R) -> (nat -> R) -> (nat -> nat -> R) -> result (nat -> option R)) : Prop :=
  (forall c, c < n -> p_alpha p c = entry env (String.append "alpha_" sfx) c /\
     p_ec p c = entry env (String.append "ec_" sfx) c /\ p_slope p c = entry env (String.append "slope_" sfx) c) /\
  exists beta,
    mean_coefficients pt sfx n env
      (b p (entry env (prior_name pt sfx)) (entry env (String.append "eta_" sfx))
         (env (String.append "beta_g" (String.append sfx "_dev")))) beta /\
    forall g c, g < G -> c < n ->
      bg g c = geo_coefficient e (beta c) (entry env (String.append "eta_" sfx) c)
                 (env (String.append "beta_g" (String.append sfx "_dev")) g c).

(** What is saved, as a function of what was sampled. *)
Definition saved_from (x : M_Analyzer.model) (s : spec) (env : string -> value) (w : draw) : Prop :=
  let d := x_data x in
  let G := x_n_geos x in
  let md := equations_of x s in
  let e := if Nat.eqb G 1 then EffNormal else j_effects s in
  (* geo effects: zero for the baseline geo *)
  (forall g, g < G -> w_tau_g w g =
     if Nat.ltb g (j_baseline_geo_idx s) then entry env "tau_g_excl_baseline" g
     else if Nat.eqb g (j_baseline_geo_idx s) then 0%R else entry env "tau_g_excl_baseline" (g - 1)) /\
  (* time effects: interpolated knots *)
  (forall t, t < x_n_times x ->
     w_mu_t w t = rsum (j_knots s) (fun k => entry env "knot_values" k * j_weights s k t)%R) /\
  (forall m, d_media d = Some m ->
     kind_saved e G (chans m) "m" (j_media_prior s) env (w_media w) (w_beta_gm w)
       (fun p theta eta dev =>
          paid_media_beta md (j_media_prior s) (j_media_calibration s) m (j_media_spend s) p
            (x_decay_media x) (x_sat_media x) theta eta dev)) /\
  (forall r f, d_reach d = Some r -> d_frequency d = Some f ->
     kind_saved e G (chans r) "rf" (j_rf_prior s) env (w_rf w) (w_beta_grf w)
       (fun p theta eta dev =>
          paid_rf_beta md (j_rf_prior s) (j_rf_calibration s) r f (j_rf_spend s) p
            (x_decay_rf x) (x_sat_rf x) theta eta dev)) /\
  (forall m, d_organic_media d = Some m ->
     kind_saved e G (chans m) "om" (j_organic_media_prior s) env (w_organic_media w) (w_beta_gom w)
       (fun p theta eta dev =>
          organic_media_beta md (j_organic_media_prior s) m p
            (x_decay_organic_media x) (x_sat_organic_media x) theta eta dev)) /\
  (forall r f, d_organic_reach d = Some r -> d_organic_frequency d = Some f ->
     kind_saved e G (chans r) "orf" (j_organic_rf_prior s) env (w_organic_rf w) (w_beta_gorf w)
       (fun p theta eta dev =>
          organic_rf_beta md (j_organic_rf_prior s) r f p
            (x_decay_organic_rf x) (x_sat_organic_rf x) theta eta dev)) /\
  (forall c, d_controls d = Some c -> forall g i, g < G -> i < chans c ->
     w_gamma_gc w g i = (entry env "gamma_c" i + entry env "xi_c" i * env "gamma_gc_dev" g i)%R) /\
  (forall n, d_non_media d = Some n -> exists gamma,
     match j_non_media_prior s with
     | PtCoefficient => forall i, i < chans n -> gamma i = entry env "gamma_n" i
     | pt => exists f,
         non_media_gamma md pt n (x_non_media_scaling_id x) (j_non_media_baseline s)
           (entry env "contribution_n") (entry env "xi_n") (env "gamma_gn_dev") = Ok f /\
         forall i, i < chans n -> f i = Some (gamma i)
     end /\
     forall g i, g < G -> i < chans n ->
       w_gamma_gn w g i = (gamma i + entry env "xi_n" i * env "gamma_gn_dev" g i)%R).

(** Nodes that are sampled or observed, as opposed to functions of the others. *)
Definition sampled (n : node) : bool :=
  negb (match nd_dist n with DDeterministic _ _ _ => true | _ => false end).

(** All treatments have priors on their coefficients. *)
Definition coefficient_priors (s : spec) : Prop :=
  j_media_prior s = PtCoefficient /\ j_rf_prior s = PtCoefficient /\ j_organic_media_prior s = PtCoefficient /\
  j_organic_rf_prior s = PtCoefficient /\ j_non_media_prior s = PtCoefficient.
