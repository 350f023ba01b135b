(** Property C93: draws are stored under the right labels, and a model takes back what was stored. *)
From Coq Require Import String Reals ZArith Lia Lra List Bool Arith Permutation.
From Verif Require Import Lib_Sum M_Base M_AdstockHill M_Equations M_Transformers M_Aggregate
  S_Aggregate S_Adstock S_Media S_Analyzer S_Predictor S_Sampler M_Priors M_Sampler M_Analyzer
  M_Joint S_Joint P_Joint C_Joint M_PriorDraws S_PriorDraws P_PriorDraws C_PriorDraws M_Restore S_Restore P_Restore P_Health.
From Verif Require M_Review C_Predictor C_Accuracy C_ReviewChecks.
Import ListNotations.
Local Open Scope string_scope.
Local Open Scope R_scope.
Local Open Scope nat_scope.
Local Open Scope list_scope.

(** Every posterior draw is stored: exactly its saved parameters, each axis labelled by the chains,
    the draws, and the geos, periods, knots, channels or variables its entries stand for. *)
Theorem C93_posterior_labels : forall x nm s unique n_chains n_draws env l,
  model_ok x -> names_ok x nm -> noise_ok x s unique ->
  run (joint_dist true x s) env = Ran l ->
  exists g, store x nm s unique n_chains n_draws l = Ok g /\ stored_well x nm s unique n_chains n_draws l g /\
    one_labelling g.
Proof.
  intros x nm s unique n_chains n_draws env l OK Hn Hs H. pose proof OK as (W & _).
  exact (stored_lemma x nm s unique n_chains n_draws l (joint_good x nm s unique n_chains n_draws env l OK Hn Hs H)).
Qed.
Print Assumptions C93_posterior_labels.

(** The same for prior draws. *)
Theorem C93_prior_labels : forall x nm s unique n_draws rnd l,
  model_ok x -> names_ok x nm -> noise_ok x s unique -> latents_ok x s (drawn l) -> same_organic_types x s ->
  sample_prior x s rnd = Ran l ->
  exists g, store x nm s unique 1 n_draws l = Ok g /\ stored_well x nm s unique 1 n_draws l g /\ one_labelling g.
Proof.
  intros x nm s unique n_draws rnd l OK Hn Hs HL HT H. pose proof OK as (W & _).
  exact (stored_lemma x nm s unique 1 n_draws l (prior_good x nm s unique 1 n_draws rnd l OK Hn Hs HL HT H)).
Qed.
Print Assumptions C93_prior_labels.

(** What a model stored, it takes back. *)
Theorem C93_round_trip : forall x nm s unique n_chains n_draws n_prior env rnd l lp g gp,
  model_ok x -> names_ok x nm -> noise_ok x s unique -> latents_ok x s (drawn lp) -> same_organic_types x s ->
  run (joint_dist true x s) env = Ran l -> sample_prior x s rnd = Ran lp ->
  store x nm s unique n_chains n_draws l = Ok g -> store x nm s unique 1 n_prior lp = Ok gp ->
  validate_inference_data x (j_knots s) (Some gp) (Some g) = Ok tt /\
  validate_inference_data x (j_knots s) (Some gp) None = Ok tt /\
  validate_inference_data x (j_knots s) None (Some g) = Ok tt.
Proof.
  intros x nm s unique n_chains n_draws n_prior env rnd l lp g gp OK Hn Hs HL HT H Hp E Ep.
  pose proof OK as (W & _). pose proof (wf_time x W) as HW.
  pose proof (joint_good x nm s unique n_chains n_draws env l OK Hn Hs H) as G.
  pose proof (prior_good x nm s unique 1 n_prior rnd lp OK Hn Hs HL HT Hp) as Gp.
  assert (A : validate_group x (j_knots s) g = Ok tt).
  { destruct (stored_lemma x nm s unique n_chains n_draws l G) as (g' & E' & _ & U).
    rewrite E in E'. injection E' as <-. destruct (group_cases x (j_knots s) g U) as [[V _]|[_ N]]; [exact V|].
    destruct N. exact (stored_sizes x nm s unique n_chains n_draws Hn HW l g G E). }
  assert (B : validate_group x (j_knots s) gp = Ok tt).
  { destruct (stored_lemma x nm s unique 1 n_prior lp Gp) as (g' & E' & _ & U).
    rewrite Ep in E'. injection E' as <-. destruct (group_cases x (j_knots s) gp U) as [[V _]|[_ N]]; [exact V|].
    destruct N. exact (stored_sizes x nm s unique 1 n_prior Hn HW lp gp Gp Ep). }
  unfold validate_inference_data. cbn [validate_optional]. rewrite A, B. cbn [rbind]. auto.
Qed.
Print Assumptions C93_round_trip.

(** Draws are accepted exactly when the numbers of geos, periods, knots, controls and channels of
    each kind are those of the model; otherwise a [ValueError] is raised. *)
Theorem C93_exact : forall x n_knots prior posterior,
  (forall g, prior = Some g \/ posterior = Some g -> one_labelling g) ->
  (validate_inference_data x n_knots prior posterior = Ok tt <->
   forall g, prior = Some g \/ posterior = Some g -> sizes_agree x n_knots g) /\
  (validate_inference_data x n_knots prior posterior <> Ok tt ->
   validate_inference_data x n_knots prior posterior = Err ValueError).
Proof.
  intros x k prior posterior U.
  assert (C : forall o, (forall g, o = Some g -> one_labelling g) ->
    (validate_optional x k o = Ok tt /\ forall g, o = Some g -> sizes_agree x k g) \/
    (validate_optional x k o = Err ValueError /\ exists g, o = Some g /\ ~ sizes_agree x k g)).
  { intros [g|] Ug; [|left; split; [reflexivity|discriminate]]. cbn [validate_optional].
    destruct (group_cases x k g (Ug g eq_refl)) as [[V A]|[V A]]; rewrite V.
    - left. split; [reflexivity|]. intros g' E. injection E as <-. exact A.
    - right. split; [reflexivity|]. exists g. auto. }
  unfold validate_inference_data.
  destruct (C prior (fun g E => U g (or_introl E))) as [(-> & A)|(-> & g & E & A)]; cbn [rbind].
  - destruct (C posterior (fun g E => U g (or_intror E))) as [(-> & B)|(-> & g & E & B)].
    + split; [split; [intros _ g [E|E]; auto|reflexivity]|congruence].
    + split; [split; [discriminate|intros H; destruct (B (H g (or_intror E)))]|reflexivity].
  - split; [split; [discriminate|intros H; destruct (A (H g (or_introl E)))]|reflexivity].
Qed.
Print Assumptions C93_exact.

(** A health summary is accepted exactly when it holds a failed convergence check alone, or one
    result of each check of the model with, perhaps, the checks of the channels, of one entry per
    paid channel; otherwise a [ValueError] is raised. *)
Theorem C93_health : forall x,
  validate_health (n_paid x) None = Ok tt /\
  forall h, (validate_health (n_paid x) (Some h) = Ok tt <-> acceptable (n_paid x) (M_Review.rv_results h)) /\
    (~ acceptable (n_paid x) (M_Review.rv_results h) -> validate_health (n_paid x) (Some h) = Err ValueError).
Proof.
  intros x. split; [reflexivity|]. intros h. split; [apply health_iff|]. intros N.
  destruct (health_cases (n_paid x) h) as [E|E]; [destruct N; apply health_iff; exact E|exact E].
Qed.
Print Assumptions C93_health.

(** Every summary of the default review of a model is accepted by that model. *)
Theorem C93_review_accepted : forall x h draws bs ks g gs ts c s,
  (forall k, In k ks -> length (M_Review.pk_draws k) = length (M_Review.pk_names k)) ->
  length (concat (map M_Review.pk_names ks)) = n_paid x ->
  M_Review.review (Ok c) (M_Review.default_battery x h draws bs ks g gs ts) = Ok s ->
  validate_health (n_paid x) (Some s) = Ok tt.
Proof.
  intros x h draws bs ks g gs ts c s HL HN H. apply health_iff. rewrite <- HN.
  exact (default_accepted x h draws bs ks g gs ts c s HL H).
Qed.
Print Assumptions C93_review_accepted.

(** The claim "draws of another model are refused" is false: only sizes are compared, not the names
    of geos, periods or channels. *)
Definition with_labels (x : M_Analyzer.model) (geo time : list string) : M_Analyzer.model :=
  M_Analyzer.mkModel (x_cx x) geo time (x_population x) (x_kpi x) (x_data x)
    (x_decay_media x) (x_decay_rf x) (x_decay_organic_media x) (x_decay_organic_rf x)
    (x_sat_media x) (x_sat_rf x) (x_sat_organic_media x) (x_sat_organic_rf x)
    (x_media_transformer x) (x_reach_transformer x) (x_organic_media_transformer x) (x_organic_reach_transformer x)
    (x_control_scaling_id x) (x_non_media_scaling_id x) (x_non_media_baseline_values x) (x_kpi_is_revenue x).
Theorem C93_names_refuted : forall x nm s unique n_chains n_draws env l g geo time,
  model_ok x -> names_ok x nm -> noise_ok x s unique -> run (joint_dist true x s) env = Ran l ->
  store x nm s unique n_chains n_draws l = Ok g -> length geo = length (x_geo x) ->
  labelled_by g "geo" (map LName (x_geo x)) /\ labelled_by g "time" (map LName (x_time x)) /\
  validate_inference_data (with_labels x geo time) (j_knots s) None (Some g) = Ok tt.
Proof.
  intros x nm s unique n_chains n_draws env l g geo time OK Hn Hs H E HL.
  pose proof OK as (W & _). pose proof (wf_time x W) as HW.
  pose proof (joint_good x nm s unique n_chains n_draws env l OK Hn Hs H) as G.
  destruct (stored_lemma x nm s unique n_chains n_draws l G) as (g' & E' & (V1 & V2) & U).
  rewrite E in E'. injection E' as <-.
  pose proof (stored_run x nm s unique n_chains n_draws l G) as R. rewrite E in R. injection R as R.
  assert (L : forall d nme ls, In nme ["knot_values"; "tau_g"; "mu_t"] -> M_PriorDraws.unsaved nme = false ->
     In d (dims_of (create_dims unique) nme) -> labels (create_coords x nm (j_knots s) n_chains n_draws) d = ls ->
     labelled_by g d ls).
  { intros d nme ls Hr Hu Hd <-. split; rewrite R; cbn [gr_coords].
    - apply in_coords. split; [reflexivity|]. destruct G as (_ & Rq).
      assert (I : In nme (map nd_name l)) by (apply Rq; unfold required; apply in_or_app; left; exact Hr).
      apply in_map_iff in I. destruct I as (m & Em & Hm). exists (nd_name m, n_chains :: n_draws :: node_shape unique m).
      split; [apply stored_var; exists m; rewrite Em; auto|]. cbn [fst]. rewrite Em. exact Hd.
    - intros l' I. apply in_coords in I. exact (proj1 I). }
  split; [apply (L "geo" "tau_g"); cbn; tauto|]. split; [apply (L "time" "mu_t"); cbn; tauto|].
  cbn [validate_inference_data validate_optional rbind].
  assert (V : validate_group x (j_knots s) g = Ok tt).
  { destruct (group_cases x (j_knots s) g U) as [[V _]|[_ N]]; [exact V|].
    destruct N. exact (stored_sizes x nm s unique n_chains n_draws Hn HW l g G E). }
  rewrite <- V. unfold validate_group, x_n_geos, x_n_controls, x_n_times. cbn [with_labels x_data x_geo x_cx]. rewrite HL. reflexivity.
Qed.
Print Assumptions C93_names_refuted.

(** The claim "draws that lack parameters are refused" is false: parameters are not looked at. *)
Theorem C93_parameters_refuted : forall x n_knots, exists g,
  gr_vars g = [] /\ one_labelling g /\ validate_inference_data x n_knots None (Some g) = Ok tt.
Proof.
  intros x k. set (d := x_data x).
  exists (mkGroup [] [("geo", arange (x_n_geos x)); ("control_variable", arange (x_n_controls x)); ("knots", arange k);
    ("time", arange (x_n_times x)); ("media_channel", arange (n_chans (d_media d))); ("rf_channel", arange (n_chans (d_reach d)));
    ("organic_media_channel", arange (n_chans (d_organic_media d))); ("organic_rf_channel", arange (n_chans (d_organic_reach d)));
    ("non_media_channel", arange (n_chans (d_non_media d)))]).
  split; [reflexivity|]. split.
  - intros c a b Ha Hb. cbn [gr_coords In] in *.
    repeat (destruct Ha as [Ha|Ha]; [repeat (destruct Hb as [Hb|Hb]; [congruence|]); destruct Hb|]). destruct Ha.
  - assert (A : forall n, length (arange n) = n) by (intros n; unfold arange; rewrite map_length, seq_length; reflexivity).
    unfold validate_inference_data, validate_optional, validate_group, validate_coord, coord_size, assoc.
    cbn [rbind gr_coords find fst snd String.eqb Ascii.eqb Bool.eqb]. rewrite !A, !Nat.eqb_refl. reflexivity.
Qed.
Print Assumptions C93_parameters_refuted.

(** The claim "an accepted summary is one that a review can return" is false: a failed convergence
    check beside the other results, with any status and score, is accepted. *)
Theorem C93_health_refuted : forall n c b p q t gof st msg score, M_Review.cv_case c = M_Review.NotConverged ->
  let h := M_Review.mkReview st msg [M_Review.ConvergenceR c; M_Review.BaselineR b p; M_Review.PppR q t; M_Review.GofR gof] score in
  validate_health n (Some h) = Ok tt /\ forall c' battery, M_Review.review (Ok c') battery <> Ok h.
Proof.
  intros n c b p q t gof st msg score Hc h. split; [reflexivity|]. intros c' battery H. unfold M_Review.review in H. cbn [rbind] in H.
  destruct (M_Review.cv_case c') eqn:E.
  3: discriminate H.
  all: apply rbind_ok in H; destruct H as (l & _ & H); apply rbind_ok in H; destruct H as (o & _ & H);
    assert (X : M_Review.ConvergenceR c' :: l = M_Review.rv_results h) by (apply (f_equal (fun r => match r with Ok s => M_Review.rv_results s | Err _ => [] end)) in H; exact H);
    cbn in X; assert (Y : c' = c) by congruence; congruence.
Qed.
Print Assumptions C93_health_refuted.

(** The claim "every summary of a review is accepted" is false: one of a review with further checks,
    such as those of the calibration, is refused. *)
Theorem C93_custom_battery_refuted : forall n c b p q t gof st, M_Review.cv_case c <> M_Review.NotConverged ->
  exists s, M_Review.review (Ok c) (map (fun r => M_Review.mkCheck true (Ok r))
      [M_Review.BaselineR b p; M_Review.PppR q t; M_Review.GofR gof; M_Review.OtherR st]) = Ok s /\
    validate_health n (Some s) = Err ValueError.
Proof.
  intros n c b p q t gof st Hc. unfold M_Review.review. cbn [rbind map filter M_Review.ck_relevant mapM M_Review.ck_run].
  destruct (M_Review.cv_case c); [| |congruence]; eexists; (split; [reflexivity|reflexivity]).
Qed.
Print Assumptions C93_custom_battery_refuted.

(** Two geos, two periods, two media channels and a control. *)
Definition ex_names : names := mkNames ["t0"; "t1"; "t2"] (Some ["gdp"]) None (Some ["tv"; "radio"]) None None None.
Example C93_example : model_ok ex_joint /\ names_ok ex_joint ex_names /\ noise_ok ex_joint ex_spec false /\
  (exists env l, run (joint_dist true ex_joint ex_spec) env = Ran l) /\
  (exists rnd l g, sample_prior ex_joint ex_spec rnd = Ran l /\ latents_ok ex_joint ex_spec (drawn l) /\
     same_organic_types ex_joint ex_spec /\ store ex_joint ex_names ex_spec false 1 5 l = Ok g /\
     In ("alpha_m", ["chain"; "draw"; "media_channel"]) (gr_vars g) /\
     labelled_by g "media_channel" [LName "tv"; LName "radio"]).
Proof.
  destruct C77_example as (OK & HL & C & _ & _ & _ & L & l & _ & R).
  assert (Hn : names_ok ex_joint ex_names) by (repeat split).
  assert (Hs : noise_ok ex_joint ex_spec false) by reflexivity.
  assert (HT : same_organic_types ex_joint ex_spec) by (left; reflexivity).
  split; [exact OK|]. split; [exact Hn|]. split; [exact Hs|]. split; [eexists; eexists; exact R|].
  destruct (C78_defined ex_joint ex_spec ex_env OK HL C) as (lp & Hp & HLp).
  pose proof (prior_good ex_joint ex_names ex_spec false 1 5 _ lp OK Hn Hs HLp HT Hp) as G.
  eexists _, lp, _. split; [exact Hp|]. split; [exact HLp|]. split; [exact HT|].
  split; [exact (stored_run ex_joint ex_names ex_spec false 1 5 lp G)|].
  assert (I : exists v, In v (stored_vars false 1 5 lp) /\ fst v = "alpha_m").
  { unfold stored_vars. assert (X : In "alpha_m" (map nd_name lp)) by (apply (proj2 G); cbn; tauto).
    apply in_map_iff in X. destruct X as (m & Em & Hm). exists (nd_name m, 1 :: 5 :: node_shape false m). split; [|exact Em].
    apply in_map_iff. exists m. split; [reflexivity|]. apply filter_In. split; [exact Hm|]. rewrite Em. reflexivity. }
  destruct I as (v & Iv & Ev). cbn [gr_vars]. split.
  - apply in_map_iff. exists v. split; [|exact Iv]. rewrite Ev. reflexivity.
  - split; cbn [gr_coords].
    + apply in_coords. split; [reflexivity|]. exists v. split; [exact Iv|]. rewrite Ev. cbn. tauto.
    + intros l' I. apply in_coords in I. exact (proj1 I).
Qed.
(** A model of two media channels and one of reach and frequency, reviewed. *)
Example C93_review_example :
  let ks := [M_Review.mkPaid M_Review.PriorCoefficient ["tv"; "radio"] [[1; 2; 3]; [2; 2; 1]]%R C_ReviewChecks.ex_quantiles
               C_ReviewChecks.ex_stats false [[0; 1; 1]; [2; 2; 0]];
             C_ReviewChecks.ex_paid_kind M_Review.PriorCoefficient "video" false] in
  (forall k, In k ks -> length (M_Review.pk_draws k) = length (M_Review.pk_names k)) /\
  length (concat (map M_Review.pk_names ks)) = n_paid C_Predictor.ex_rich /\
  exists s, M_Review.review (Ok (M_Review.mkConvResult M_Review.Converged None None))
    (M_Review.default_battery C_Predictor.ex_rich (Some C_Accuracy.ex_holdout) [C_Predictor.ex_rich_draw; C_Predictor.ex_rich_draw]
       1 ks C_ReviewChecks.ex_config None None) = Ok s.
Proof.
  intros ks. split; [intros k [<-|[<-|[]]]; reflexivity|]. split; [reflexivity|].
  destruct C_ReviewChecks.C65_example as (A & B & _).
  destruct (C_ReviewChecks.C65_default_no_roi C_Predictor.ex_rich (Some C_Accuracy.ex_holdout) None None 1
    [C_Predictor.ex_rich_draw; C_Predictor.ex_rich_draw] C_ReviewChecks.ex_config ks
    (M_Review.mkConvResult M_Review.Converged None None) A B) as (s & _ & _ & _ & E & _).
  - intros _. exact Logic.I.
  - discriminate.
  - repeat constructor; discriminate.
  - exists s. exact E.
Qed.
