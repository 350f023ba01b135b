(** Property C77: the posterior that is sampled is that of the documented model, and what is saved
    with each draw are the parameters of this model. *)
From Coq Require Import Reals ZArith Lia Lra String List Bool Arith.
From Verif Require Import Lib_Sum M_Base M_AdstockHill M_Equations M_Transformers M_Aggregate
  S_Aggregate S_Adstock S_Media S_Analyzer S_Predictor S_Sampler M_Priors M_Sampler M_Analyzer
  M_Joint S_Joint P_Joint.
Import ListNotations.
Local Open Scope string_scope.
Local Open Scope R_scope.
Local Open Scope nat_scope.
Local Open Scope list_scope.

(** Whatever the values of the latent parameters, the graph used for sampling yields the sampled
    and observed nodes of the graph used for saving, with the same distributions and values, and
    fails exactly when it does. *)
Theorem C77_graphs : forall x s env,
  run (joint_dist false x s) env =
  match run (joint_dist true x s) env with Ran l => Ran (filter sampled l) | r => r end.
Proof.
  intros x s env. rewrite <- (strip_joint x s env). destruct (run (joint_dist true x s) env); reflexivity.
Qed.
Print Assumptions C77_graphs.

(** The log density given to the sampler: the prior densities of the parameters, the standard
    normal densities of the geo deviations, and for every cell of the KPI that is not held out the
    normal density of the standardised KPI around the documented linear predictor at the
    parameters that are saved. *)
Theorem C77_log_density : forall prior x s env L, model_ok x -> latents_ok x s env ->
  target_log_prob prior false x s env = Some L ->
  exists l, run (joint_dist true x s) (pin x s env) = Ran l /\
    L = (lsum (map (latent_log_density prior env) (latents x s))
         + lsum (map (fun c => normal_log_density (standardised_kpi x (fst c) (snd c))
                                 (predictor x no_data (saved_draw x l) (fst c) (snd c)) (noise s env (fst c)))
                  (fitted_cells x s)))%R.
Proof. exact target_lemma. Qed.
Print Assumptions C77_log_density.

(** What is saved is the documented function of the sampled parameters. *)
Theorem C77_saved_parameters : forall x s env l, model_ok x -> latents_ok x s env ->
  j_baseline_geo_idx s < x_n_geos x ->
  run (joint_dist true x s) (pin x s env) = Ran l -> saved_from x s env (saved_draw x l).
Proof. exact saved_lemma. Qed.
Print Assumptions C77_saved_parameters.

(** Saved draws are accepted by the analysis (C30-C33, C56-C58 apply to them). *)
Theorem C77_saved_draws_usable : forall x s env l, model_ok x -> latents_ok x s env ->
  run (joint_dist true x s) (pin x s env) = Ran l -> draw_ok x (saved_draw x l).
Proof. exact usable_lemma. Qed.
Print Assumptions C77_saved_draws_usable.

(** With priors on the coefficients the density is defined for all parameters in their domains. *)
Theorem C77_defined : forall prior x s env, model_ok x -> latents_ok x s env -> coefficient_priors s ->
  exists L, target_log_prob prior false x s env = Some L.
Proof. exact defined_lemma. Qed.
Print Assumptions C77_defined.

(** Two geos, two periods (three of media), two media channels and a control; the second geo is
    held out in the first period. *)
Definition ex_const : T3 := mkT3 2 3 2 (fun _ _ _ => 3%R).
Definition ex_tr : media_transformer := mkMediaTr (fun _ => 3%R) (fun _ _ => 3%R).
Definition ex_joint : M_Analyzer.model :=
  M_Analyzer.mkModel (mkCtx 3 2 2 false) ["a"; "b"] ["2024-01-01"; "2024-01-08"] (fun _ => 1%R)
    (mkT2 2 2 (fun g t => INR (g + 2 * t)))
    (mkData (Some ex_const) None None None None None None (Some (mkT3 2 2 1 (fun g t _ => INR (g + t)))) None)
    (DOne Geometric) (DOne Geometric) (DOne Geometric) (DOne Geometric)
    (SOne Hill) (SOne Hill) (SOne Hill) (SOne Hill)
    (Some ex_tr) None None None None None None false.
Definition ex_spec : spec :=
  mkSpec PtCoefficient PtCoefficient PtCoefficient PtCoefficient PtCoefficient None None
    (SpendPerChannel (fun _ => 1%R)) (SpendPerChannel (fun _ => 1%R)) EffLogNormal 1 (fun _ _ => 1%R) 1 1 None
    (Some (fun g t => andb (Nat.eqb g 1) (Nat.eqb t 0))).
Definition ex_env : string -> value := fun _ _ _ => (1/2)%R.
Lemma ex_median : forall m, channel_median ex_const (fun _ => 1%R) m = Some 3%R.
Proof.
  intros m. unfold channel_median, population_scaled, ex_const. cbn [geos times chans].
  assert (D : divide_no_nan 3 1 = 3%R) by (unfold divide_no_nan; destruct (Req_EM_T 1 0); lra).
  cbn [channel_values geos times val flat_map seq map app]. unfold channel_values.
  cbn [geos times val flat_map seq map app]. rewrite !D.
  assert (N : nonzero 3 = true) by (unfold nonzero; destruct (Req_EM_T 3 0); [lra|reflexivity]).
  cbn [filter]. rewrite !N. cbn [filter]. unfold nanmedian, sort_values. cbn [fold_right].
  assert (I : forall l, insert_sorted 3 (3%R :: l) = 3%R :: 3%R :: l)
    by (intros l; cbn [insert_sorted]; destruct (Rle_dec 3 3); [reflexivity|lra]).
  cbn [insert_sorted] at 6 || idtac. change (insert_sorted 3 []) with [3%R]. rewrite !I. cbn. f_equal. lra.
Qed.
Lemma ex_init : media_transformer_init ex_const (fun _ => 1%R) = Ok ex_tr.
Proof.
  unfold media_transformer_init. cbn [ex_const chans seq forallb]. rewrite !ex_median. cbn [andb].
  unfold ex_tr. f_equal. f_equal.
  - apply FunctionalExtensionality.functional_extensionality. intros m. rewrite ex_median. reflexivity.
  - apply FunctionalExtensionality.functional_extensionality. intros g.
    apply FunctionalExtensionality.functional_extensionality. intros m. rewrite ex_median. lra.
Qed.
Example C77_example : model_ok ex_joint /\ latents_ok ex_joint ex_spec ex_env /\ coefficient_priors ex_spec /\
  j_baseline_geo_idx ex_spec < x_n_geos ex_joint /\
  length (latents ex_joint ex_spec) = 12 /\
  fitted_cells ex_joint ex_spec = [(0, 0); (0, 1); (1, 1)] /\
  exists L l, target_log_prob (fun _ _ => 0%R) false ex_joint ex_spec ex_env = Some L /\
    run (joint_dist true ex_joint ex_spec) (pin ex_joint ex_spec ex_env) = Ran l.
Proof.
  assert (OK : model_ok ex_joint).
  { split; [|split; [|split]].
    - constructor; cbn; auto; try lia; try (split; reflexivity).
      + left. discriminate.
      + unfold kind_ok, decay_ok, sat_ok, recognised. cbn. repeat split; try discriminate; try tauto.
    - repeat split. exact ex_init.
    - unfold transformers_ok, factors_pos. cbn. repeat split; intros; lra.
    - unfold media_nonneg. cbn. repeat split; intros; try lra. }
  assert (HL : latents_ok ex_joint ex_spec ex_env).
  { unfold latents_ok, in_domain, entry, ex_env. cbn. repeat split; try lra; auto. intros; lra. }
  assert (C : coefficient_priors ex_spec) by (repeat split).
  split; [exact OK|]. split; [exact HL|]. split; [exact C|].
  split; [cbn; lia|]. split; [reflexivity|]. split; [reflexivity|].
  destruct (C77_defined (fun _ _ => 0%R) _ _ _ OK HL C) as [L H].
  destruct (C77_log_density _ _ _ _ _ OK HL H) as (l & Hl & _). exists L, l. split; assumption.
Qed.
