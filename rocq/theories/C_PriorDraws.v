(** Property C78: prior draws are draws of the model whose posterior is sampled. *)
From Coq Require Import Reals ZArith Lia Lra String List Bool Arith Permutation.
From Verif Require Import Lib_Sum M_Base M_AdstockHill M_Equations M_Transformers M_Aggregate
  S_Aggregate S_Adstock S_Media S_Analyzer S_Predictor S_Sampler M_Priors M_Sampler M_Analyzer
  M_Joint S_Joint P_Joint C_Joint M_PriorDraws S_PriorDraws P_PriorDraws.
Import ListNotations.
Local Open Scope string_scope.
Local Open Scope R_scope.
Local Open Scope nat_scope.
Local Open Scope list_scope.

(** For the same values of the parameters, the prior sampler and the joint distribution of the
    posterior contain the same nodes (names, distributions and values), apart from the KPI; or
    neither is defined. *)
Theorem C78_same_nodes : forall x s env, model_ok x -> latents_ok x s env -> same_organic_types x s ->
  (exists l l' y, run (joint_dist true x s) (pin x s env) = Ran l /\
     run (prior_sampler x s) (pin x s env) = Ran l' /\
     Permutation l (l' ++ [y]) /\ nd_name y = "y") \/
  ((forall l, run (joint_dist true x s) (pin x s env) <> Ran l) /\
   (forall l, run (prior_sampler x s) (pin x s env) <> Ran l)).
Proof.
  intros x s env OK HL HT. destruct (agree_lemma x s (pin x s env) OK (domains_pin x s env HL) HT) as [(l & l' & y & A & B & P)|H].
  - left. exists l, l', (ynode x s (pin x s env) y). auto.
  - right. exact H.
Qed.
Print Assumptions C78_same_nodes.

(** Every parameter is drawn once, from its own distribution with its own seed, and all parameters
    of a draw are computed from the values drawn. *)
Theorem C78_seeds : forall x s rnd l, sample_prior x s rnd = Ran l ->
  NoDup (map nd_name l) /\
  (forall i n, nth_error l i = Some n -> sampled n = true -> nd_value n = rnd (nd_name n) i) /\
  run (prior_sampler x s) (drawn l) = Ran l.
Proof. exact seeds_lemma. Qed.
Print Assumptions C78_seeds.

(** The parameters drawn are those of the documented model, what is saved are the documented
    functions of them, prior draws are accepted by the analysis, and the saved parameters are those
    saved with a posterior draw at the same values. *)
Theorem C78_prior_draws : forall x s rnd l, model_ok x -> latents_ok x s (drawn l) ->
  j_baseline_geo_idx s < x_n_geos x -> same_organic_types x s ->
  sample_prior x s rnd = Ran l ->
  Permutation (map latent_of (filter sampled l)) (latents x s) /\
  saved_from x s (drawn l) (saved_draw x l) /\ draw_ok x (saved_draw x l) /\
  exists lp, run (joint_dist true x s) (pin x s (drawn l)) = Ran lp /\ Permutation (saved lp) (saved l).
Proof. exact prior_lemma. Qed.
Print Assumptions C78_prior_draws.

(** What is saved of a draw: exactly its parameters other than the standardised deviations of the
    coefficients of the geos, the geo effects without the baseline geo, and the outcome. *)
Definition auxiliary : list string :=
  ["beta_gm_dev"; "beta_grf_dev"; "beta_gom_dev"; "beta_gorf_dev"; "gamma_gc_dev"; "gamma_gn_dev";
   "tau_g_excl_baseline"; "y"].
Theorem C78_saved_names : forall x s rnd l, sample_prior x s rnd = Ran l ->
  forall k v, List.In (k, v) (saved l) <->
    (~ List.In k auxiliary /\ exists n, List.In n l /\ nd_name n = k /\ nd_value n = v).
Proof.
  intros x s rnd l _ k v. unfold saved. rewrite in_map_iff.
  assert (E : forall nme, unsaved nme = true <-> List.In nme auxiliary).
  { intros nme. unfold unsaved. rewrite existsb_exists. split.
    - intros (z & Hz & Ez). apply String.eqb_eq in Ez. subst z. exact Hz.
    - intros Hz. exists nme. split; [exact Hz|apply String.eqb_refl]. }
  split.
  - intros (n & En & Hn). apply filter_In in Hn as [Hn Hs]. injection En as <- <-. split.
    + intros Hz. apply E in Hz. rewrite Hz in Hs. discriminate.
    + exists n. auto.
  - intros (Hk & n & Hn & <- & <-). exists n. split; [reflexivity|]. apply filter_In. split; [exact Hn|].
    destruct (unsaved (nd_name n)) eqn:Eu; [|reflexivity]. destruct Hk. apply E. exact Eu.
Qed.
Print Assumptions C78_saved_names.

(** With priors on coefficients every draw in the domains is defined. *)
Theorem C78_defined : forall x s env, model_ok x -> latents_ok x s env -> coefficient_priors s ->
  exists l, sample_prior x s (fun name _ => env name) = Ran l /\ latents_ok x s (drawn l).
Proof.
  intros x s env OK HL C.
  assert (HT : same_organic_types x s) by (right; destruct C as (_ & _ & -> & -> & _); reflexivity).
  destruct (C77_defined (fun _ _ => 0%R) x s env OK HL C) as [L H].
  destruct (C77_log_density _ _ _ _ _ OK HL H) as (l & Hl & _).
  destruct (C78_same_nodes x s env OK HL HT) as [(l1 & l2 & y & _ & B & _)|[N _]]; [|destruct (N l Hl)].
  apply (proj1 (prior_pin x s env l2)) in B. exists l2. split; [apply seeded_is_env; exact B|].
  exact (drawn_latents_ok x s env l2 OK HL HT B).
Qed.
Print Assumptions C78_defined.

(** The type of organic reach and frequency priors is not read: draws are those for the type of
    organic media priors. *)
Theorem C78_organic_rf_type : forall x s rnd,
  sample_prior x s rnd = sample_prior x (with_organic_rf_prior s (j_organic_media_prior s)) rnd.
Proof. reflexivity. Qed.
Print Assumptions C78_organic_rf_type.

(** So the parameters drawn are not always those of the model whose posterior is sampled. *)
Definition ex_organic : M_Analyzer.model :=
  M_Analyzer.mkModel (mkCtx 3 2 2 false) ["a"; "b"] ["2024-01-01"; "2024-01-08"] (fun _ => 1%R)
    (mkT2 2 2 (fun g t => INR (g + 2 * t)))
    (mkData (Some ex_const) None None None (Some ex_const) (Some ex_const) None
       (Some (mkT3 2 2 1 (fun g t _ => INR (g + t)))) None)
    (DOne Geometric) (DOne Geometric) (DOne Geometric) (DOne Geometric)
    (SOne Hill) (SOne Hill) (SOne Hill) (SOne Hill)
    (Some ex_tr) None None (Some ex_tr) None None None false.
Lemma ex_organic_ok : model_ok ex_organic.
Proof.
  split; [|split; [|split]].
  - constructor; cbn; auto; try lia; try (split; reflexivity).
    + left. discriminate.
    + unfold kind_ok, decay_ok, sat_ok, recognised. cbn. repeat split; try discriminate; try tauto.
  - repeat split; exact ex_init.
  - unfold transformers_ok, factors_pos. cbn. repeat split; intros; lra.
  - unfold media_nonneg. cbn. repeat split; intros; try lra.
Qed.
Lemma ex_organic_latents : forall s, j_sigmas s = 1 -> latents_ok ex_organic s ex_env.
Proof.
  intros s H. unfold latents_ok, in_domain, entry, ex_env. cbn. rewrite H. repeat split; try lra; auto. intros; lra.
Qed.
Definition ex_types : spec := with_organic_rf_prior ex_spec PtContribution.
Theorem C78_organic_rf_refuted : exists x s rnd l, model_ok x /\ latents_ok x s (drawn l) /\
  j_baseline_geo_idx s < x_n_geos x /\ sample_prior x s rnd = Ran l /\
  List.In (Drawn "contribution_orf" 2) (latents x s) /\
  ~ List.In (Drawn "contribution_orf" 2) (map latent_of (filter sampled l)).
Proof.
  assert (HL : latents_ok ex_organic ex_spec ex_env) by (apply ex_organic_latents; reflexivity).
  assert (C : coefficient_priors ex_spec) by (repeat split).
  destruct (C78_defined ex_organic ex_spec ex_env ex_organic_ok HL C) as (l & Hl & HL').
  exists ex_organic, ex_types, (fun name _ => ex_env name), l.
  split; [exact ex_organic_ok|]. split; [exact HL'|]. split; [cbn; lia|].
  split.
  { rewrite C78_organic_rf_type.
    assert (E : with_organic_rf_prior ex_types (j_organic_media_prior ex_types) = ex_spec) by reflexivity.
    rewrite E. exact Hl. }
  split; [cbn; tauto|].
  destruct (C78_prior_draws _ _ _ _ ex_organic_ok HL' ltac:(cbn; lia) (or_intror eq_refl) Hl) as (P & _).
  intros Hin. apply (Permutation_in _ P) in Hin. cbn in Hin. intuition discriminate.
Qed.
Print Assumptions C78_organic_rf_refuted.

(** Both organic types equal: the hypotheses above hold, and a draw has eighteen sampled parameters. *)
Example C78_example : model_ok ex_organic /\ coefficient_priors ex_spec /\ same_organic_types ex_organic ex_spec /\
  latents_ok ex_organic ex_spec ex_env /\ j_baseline_geo_idx ex_spec < x_n_geos ex_organic /\
  exists l, sample_prior ex_organic ex_spec (fun name _ => ex_env name) = Ran l /\
    latents_ok ex_organic ex_spec (drawn l) /\ length (filter sampled l) = 18.
Proof.
  assert (HL : latents_ok ex_organic ex_spec ex_env) by (apply ex_organic_latents; reflexivity).
  assert (C : coefficient_priors ex_spec) by (repeat split).
  split; [exact ex_organic_ok|]. split; [exact C|]. split; [right; reflexivity|]. split; [exact HL|]. split; [cbn; lia|].
  destruct (C78_defined ex_organic ex_spec ex_env ex_organic_ok HL C) as (l & Hl & HL').
  exists l. split; [exact Hl|]. split; [exact HL'|].
  destruct (C78_prior_draws _ _ _ _ ex_organic_ok HL' ltac:(cbn; lia) (or_intror eq_refl) Hl) as (P & _).
  rewrite <- (map_length latent_of), (Permutation_length P). reflexivity.
Qed.
