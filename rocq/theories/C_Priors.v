(** Properties C09-C11 and C46: prior calibration. *)
From Coq Require Import Reals ZArith Lra Lia List Bool Arith.
From Verif Require Import Lib_Sum Lib_Pow M_Base M_AdstockHill M_Equations M_Transformers
  M_Priors S_Adstock S_Media S_Transformers S_Priors P_Adstock P_Media P_MediaProps P_Transformers P_Priors.
Import ListNotations.
Local Open Scope R_scope.

(** ** C09 *)
(** Paid media: the outcome gained between the two media plans of the prior is the drawn value
    times what one unit of it stands for. *)
Theorem C09_paid_media_prior_honoured :
  forall md pt calibration media spend tr p df sa theta eta dev betas beta base m hi lo,
  model_ok md -> execution_ok md media -> transform_ok (chans media) p df sa ->
  derived_prior pt ->
  (partial_counterfactual pt calibration -> assigned_sat sa (chans media) m = Some Hill) ->
  media_transformer_init media (md_population md) = Ok tr ->
  paid_media_beta md pt calibration media spend p df sa theta eta dev = Ok betas ->
  (m < chans media)%nat -> betas m = Some (beta m) ->
  adstock_hill_media (md_cx md) (forward3 tr (plan_with pt media)) p df sa None = Ok hi ->
  adstock_hill_media (md_cx md) (forward3 tr (plan_without pt calibration media)) p df sa None = Ok lo ->
  expected_outcome md (fun g t => base g t + beta_gx md beta eta dev g m * val hi g t m) -
  expected_outcome md (fun g t => base g t + beta_gx md beta eta dev g m * val lo g t m) =
  theta m * prior_unit md pt calibration (allocated_spend (ctx_n_times (md_cx md)) spend media) m.
Proof. exact paid_media_lemma. Qed.
Print Assumptions C09_paid_media_prior_honoured.

(** The coefficient exists whenever the channel changes the outcome and, for log-normal effects,
    the requested incremental outcome is positive. *)
Theorem C09_paid_media_coefficient_exists :
  forall md pt calibration media spend tr p df sa theta eta dev m hi lo,
  model_ok md -> execution_ok md media -> transform_ok (chans media) p df sa ->
  derived_prior pt ->
  (partial_counterfactual pt calibration -> assigned_sat sa (chans media) m = Some Hill) ->
  media_transformer_init media (md_population md) = Ok tr ->
  (m < chans media)%nat ->
  adstock_hill_media (md_cx md) (forward3 tr (plan_with pt media)) p df sa None = Ok hi ->
  adstock_hill_media (md_cx md) (forward3 tr (plan_without pt calibration media)) p df sa None = Ok lo ->
  0 < k_stdev (md_kpi_transformer md) ->
  (forall g t, (g < md_geos md)%nat -> (t < ctx_n_times (md_cx md))%nat -> 0 <= md_revenue md g t) ->
  (exists g t, (g < md_geos md)%nat /\ (t < ctx_n_times (md_cx md))%nat /\
     0 < md_revenue md g t /\ val lo g t m < val hi g t m) ->
  media_effects_dist md = EffNormal \/
  0 < theta m * prior_unit md pt calibration (allocated_spend (ctx_n_times (md_cx md)) spend media) m ->
  exists betas b,
    paid_media_beta md pt calibration media spend p df sa theta eta dev = Ok betas /\ betas m = Some b.
Proof. exact paid_media_exists_lemma. Qed.
Print Assumptions C09_paid_media_coefficient_exists.

Theorem C09_paid_rf_prior_honoured :
  forall md pt calibration reach freq spend tr p df sa theta eta dev betas beta base m hi lo,
  model_ok md -> execution_ok md reach -> execution_ok md freq -> chans freq = chans reach ->
  transform_ok (chans reach) p df sa -> derived_prior pt ->
  (partial_counterfactual pt calibration -> assigned_sat sa (chans reach) m = Some Hill) ->
  media_transformer_init reach (md_population md) = Ok tr ->
  paid_rf_beta md pt calibration reach freq spend p df sa theta eta dev = Ok betas ->
  (m < chans reach)%nat -> betas m = Some (beta m) ->
  adstock_hill_rf (md_cx md) (forward3 tr (plan_with pt reach)) freq p df sa None = Ok hi ->
  adstock_hill_rf (md_cx md) (forward3 tr (plan_without pt calibration reach)) freq p df sa None = Ok lo ->
  expected_outcome md (fun g t => base g t + beta_gx md beta eta dev g m * val hi g t m) -
  expected_outcome md (fun g t => base g t + beta_gx md beta eta dev g m * val lo g t m) =
  theta m * prior_unit md pt calibration
              (allocated_spend (ctx_n_times (md_cx md)) spend (mul3 reach freq)) m.
Proof. exact paid_rf_lemma. Qed.
Print Assumptions C09_paid_rf_prior_honoured.

(** Organic channels: a contribution draw is the channel's share of the total outcome. *)
Theorem C09_organic_media_prior_honoured :
  forall md media tr p df sa theta eta dev betas beta base m hi,
  model_ok md -> execution_ok md media -> transform_ok (chans media) p df sa ->
  media_transformer_init media (md_population md) = Ok tr ->
  organic_media_beta md PtContribution media p df sa theta eta dev = Ok betas ->
  (m < chans media)%nat -> betas m = Some (beta m) ->
  adstock_hill_media (md_cx md) (forward3 tr media) p df sa None = Ok hi ->
  expected_outcome md (fun g t => base g t + beta_gx md beta eta dev g m * val hi g t m) -
  expected_outcome md base =
  theta m * rsum (md_geos md) (fun g => rsum (ctx_n_times (md_cx md)) (fun t =>
              md_kpi md g t * md_revenue md g t)).
Proof. exact organic_media_lemma. Qed.
Print Assumptions C09_organic_media_prior_honoured.

Theorem C09_organic_rf_prior_honoured :
  forall md reach freq tr p df sa theta eta dev betas beta base m hi,
  media_transformer_init reach (md_population md) = Ok tr ->
  organic_rf_beta md PtContribution reach freq p df sa theta eta dev = Ok betas ->
  betas m = Some (beta m) ->
  adstock_hill_rf (md_cx md) (forward3 tr reach) freq p df sa None = Ok hi ->
  expected_outcome md (fun g t => base g t + beta_gx md beta eta dev g m * val hi g t m) -
  expected_outcome md base =
  theta m * rsum (md_geos md) (fun g => rsum (ctx_n_times (md_cx md)) (fun t =>
              md_kpi md g t * md_revenue md g t)).
Proof. exact organic_rf_lemma. Qed.
Print Assumptions C09_organic_rf_prior_honoured.

(** Non-media treatments that are not population scaled: the contribution against the reported
    baseline is the drawn share of the total outcome. *)
Theorem C09_non_media_prior_honoured :
  forall md x id values b theta xi dev gammas gamma base n,
  non_media_baseline md x id values = Ok b -> unflagged id n ->
  non_media_gamma md PtContribution x id values theta xi dev = Ok gammas ->
  gammas n = Some (gamma n) ->
  expected_outcome md (fun g t => base g t + gamma_gn gamma xi dev g n *
     centering_forward (centering_init x (md_population md) id) true g n (val x g t n)) -
  expected_outcome md (fun g t => base g t + gamma_gn gamma xi dev g n *
     reported_baseline x (md_population md) id b g n) =
  theta n * rsum (md_geos md) (fun g => rsum (ctx_n_times (md_cx md)) (fun t =>
              md_kpi md g t * md_revenue md g t)).
Proof. exact non_media_lemma. Qed.
Print Assumptions C09_non_media_prior_honoured.

(** *** Concrete cases *)
(** Two geos, two periods, log-normal effects, revenue known. *)
Definition ex_md : model :=
  mkModel (mkCtx 2 2 1 false) 2 (fun g => INR g + 1) (fun g t => 5 + INR g + INR t)
    (Some (fun _ _ => 3)) EffLogNormal.
Definition ex_media : T3 := mkT3 2 2 1 (fun g t m => 1 + INR t).
Definition ex_par : chan_params := mkParams 1 (fun _ => 0) (fun _ => 1) (fun _ => 1).
Definition ex_period : nat -> nat -> bool := fun t _ => Nat.eqb t 0.

Lemma ex_md_ok : model_ok ex_md.
Proof.
  unfold model_ok; simpl. repeat split; try lia. intros g. pose proof (pos_INR g). lra.
Qed.
Lemma ex_media_ok : execution_ok ex_md ex_media.
Proof.
  unfold execution_ok; simpl. repeat split. intros g t c _ _. pose proof (pos_INR t). lra.
Qed.
Lemma ex_transform_ok : forall s, s <> OtherSat -> transform_ok 1 ex_par (DOne Geometric) (SOne s).
Proof.
  intros s Hs. unfold transform_ok, params_ok, decay_ok, sat_ok, recognised. simpl.
  repeat split; auto; lra.
Qed.
Lemma ex_init : exists tr, media_transformer_init ex_media (md_population ex_md) = Ok tr.
Proof.
  apply media_init_ok_iff_lemma.
  - intros g _. pose proof (proj2 (proj2 (proj2 (proj2 ex_md_ok))) g). lra.
  - intros m Hm. exists 0%nat, 0%nat. simpl. repeat split; try lia. lra.
Qed.
(** Without carry-over the response of a period is the saturated scaled media of the period. *)
Lemma no_carryover_response : forall hb s ec slope W d x t, recognised d -> (0 < W)%nat ->
  media_response hb s ec slope W (documented_weight d 0 W) x t = saturate s ec slope (x t).
Proof.
  intros hb s ec slope W d x t Hd HW.
  assert (E : forall y, lagged_average W (documented_weight d 0 W) y t = y t).
  { intros y. unfold lagged_average. rewrite (rsum_single W 0%nat); auto.
    - rewrite documented_weight_alpha0 by auto. simpl. unfold past. simpl. rewrite Nat.sub_0_r. lra.
    - intros l Hl Hne. rewrite documented_weight_alpha0 by auto.
      apply Nat.eqb_neq in Hne. rewrite Hne. lra. }
  unfold media_response. destruct hb; rewrite E; reflexivity.
Qed.
Lemma hill_positive : forall ec slope x, 0 < x -> 0 < documented_hill ec slope x.
Proof.
  intros. unfold documented_hill. destruct (Req_EM_T x 0); [lra|].
  apply Rmult_lt_0_compat; [lra|]. apply Rinv_0_lt_compat. pose proof (exp_pos (- slope * ln (x / ec))).
  unfold Rpower. lra.
Qed.

Example C09_concrete_case : forall theta eta dev, 0 < theta 0%nat -> exists tr hi lo,
  media_transformer_init ex_media (md_population ex_md) = Ok tr /\
  adstock_hill_media (md_cx ex_md) (forward3 tr (plan_with PtROI ex_media)) ex_par (DOne Geometric) (SOne Hill) None = Ok hi /\
  adstock_hill_media (md_cx ex_md) (forward3 tr (plan_without PtROI (Some ex_period) ex_media)) ex_par
    (DOne Geometric) (SOne Hill) None = Ok lo /\
  exists betas b, paid_media_beta ex_md PtROI (Some ex_period) ex_media (SpendPerChannel (fun _ => 100))
    ex_par (DOne Geometric) (SOne Hill) theta eta dev = Ok betas /\ betas 0%nat = Some b.
Proof.
  intros theta eta dev Hth. destruct ex_init as [tr Hi].
  destruct (plans_ok ex_md PtROI (Some ex_period) ex_media ex_media_ok) as [O1 O2].
  pose proof (ex_transform_ok Hill ltac:(discriminate)) as Htr.
  destruct (media_runs ex_md ex_media tr (plan_with PtROI ex_media) ex_par (DOne Geometric) (SOne Hill)
    ex_md_ok ex_media_ok Hi O1 eq_refl Htr) as [hi Hhi].
  destruct (media_runs ex_md ex_media tr (plan_without PtROI (Some ex_period) ex_media) ex_par (DOne Geometric) (SOne Hill)
    ex_md_ok ex_media_ok Hi O2 eq_refl Htr) as [lo Hlo].
  exists tr, hi, lo. repeat (split; [assumption|]).
  refine (C09_paid_media_coefficient_exists ex_md PtROI (Some ex_period) ex_media _ tr ex_par _ _
    theta eta dev 0%nat hi lo ex_md_ok ex_media_ok Htr (or_introl eq_refl) (fun _ => eq_refl) Hi
    _ Hhi Hlo _ _ _ _).
  - simpl. lia.
  - assert (k_stdev (md_kpi_transformer ex_md) <> 0).
    { intro E. apply kpi_stdev_zero_iff_lemma in E; try (simpl; lia). destruct E as [k Hk].
      pose proof (Hk 0%nat 0%nat ltac:(simpl; lia) ltac:(simpl; lia)) as A.
      pose proof (Hk 0%nat 1%nat ltac:(simpl; lia) ltac:(simpl; lia)) as B. simpl in A, B.
      rewrite !divide_no_nan_nz in * by lra. lra. }
    assert (0 <= k_stdev (md_kpi_transformer ex_md)) by (simpl; apply sqrt_pos). lra.
  - intros. unfold md_revenue. simpl. lra.
  - exists 0%nat, 0%nat. unfold md_revenue. simpl. repeat split; try lia; try lra.
    destruct (media_default_val ex_md _ ex_par _ _ hi 0%nat ex_md_ok
      (forward_ok ex_md ex_media (plan_with PtROI ex_media) tr ex_md_ok ex_media_ok Hi eq_refl O1) Htr Hhi ltac:(simpl; lia))
      as [_ [_ [_ [d [s [D1 [D2 [S1 [S2 V]]]]]]]]].
    destruct (media_default_val ex_md _ ex_par _ _ lo 0%nat ex_md_ok
      (forward_ok ex_md ex_media (plan_without PtROI (Some ex_period) ex_media) tr ex_md_ok ex_media_ok Hi eq_refl O2) Htr Hlo ltac:(simpl; lia))
      as [_ [_ [_ [d' [s' [D1' [D2' [S1' [S2' V']]]]]]]]].
    simpl in S1, S1'. inversion S1; inversion S1'. subst s s'.
    rewrite V, V' by (simpl; lia). simpl p_alpha. rewrite !no_carryover_response by (auto; unfold window; simpl; lia).
    simpl. replace (0 / scale_factors_gm tr 0%nat 0%nat) with 0 by (unfold Rdiv; ring).
    unfold documented_hill at 1. destruct (Req_EM_T 0 0); [|lra].
    apply hill_positive. apply Rmult_lt_0_compat; [lra|]. apply Rinv_0_lt_compat.
    eapply scale_pos_all; eauto; simpl; try lia; try apply ex_media_ok.
    apply (proj2 (proj2 (proj2 (proj2 ex_md_ok)))).
  - right. apply Rmult_lt_0_compat; [exact Hth|]. unfold prior_unit, spend_in. simpl.
    unfold rsum, Rdiv; simpl. lra.
Qed.

(** Organic reach and frequency (and, with the same tensors, paid ones) and a non-media treatment
    also meet the hypotheses: a finite coefficient is returned for a positive share. *)
Lemma ex_stdev_pos : 0 < k_stdev (md_kpi_transformer ex_md).
Proof.
  assert (k_stdev (md_kpi_transformer ex_md) <> 0).
  { intro E. apply kpi_stdev_zero_iff_lemma in E; try (simpl; lia). destruct E as [k Hk].
    pose proof (Hk 0%nat 0%nat ltac:(simpl; lia) ltac:(simpl; lia)) as A.
    pose proof (Hk 0%nat 1%nat ltac:(simpl; lia) ltac:(simpl; lia)) as B. simpl in A, B.
    rewrite !divide_no_nan_nz in * by lra. lra. }
  assert (0 <= k_stdev (md_kpi_transformer ex_md)) by (simpl; apply sqrt_pos). lra.
Qed.
Lemma no_carryover_average : forall W d x t, recognised d -> (0 < W)%nat ->
  lagged_average W (documented_weight d 0 W) x t = x t.
Proof.
  intros W d x t Hd HW. exact (no_carryover_response true NoSat 1 1 W d x t Hd HW).
Qed.
Lemma ex_rf_runs : exists tr hi, media_transformer_init ex_media (md_population ex_md) = Ok tr /\
  adstock_hill_rf (md_cx ex_md) (forward3 tr ex_media) ex_media ex_par (DOne Geometric) (SOne Hill) None = Ok hi /\
  forall g t, (t < 2)%nat -> 0 < val hi g t 0%nat.
Proof.
  destruct ex_init as [tr Hi]. pose proof (ex_transform_ok Hill ltac:(discriminate)) as Htr.
  destruct (rf_runs ex_md ex_media ex_media tr ex_media ex_par (DOne Geometric) (SOne Hill)
    ex_md_ok ex_media_ok ex_media_ok eq_refl Hi eq_refl eq_refl eq_refl Htr) as [hi Hhi].
  exists tr, hi. split; [exact Hi|]. split; [exact Hhi|]. intros g t Ht.
  destruct (rf_default_val ex_md (forward3 tr ex_media) ex_media ex_par (DOne Geometric) (SOne Hill) hi 0%nat
    ex_md_ok eq_refl eq_refl ex_media_ok eq_refl Htr Hhi ltac:(simpl; lia))
    as [_ [_ [_ [d [s [D1 [D2 [S1 [S2 V]]]]]]]]].
  simpl in S1. inversion S1. subst s. rewrite V by (simpl; lia). simpl p_alpha.
  rewrite no_carryover_average by (auto; unfold window; simpl; lia). simpl. pose proof (pos_INR t).
  apply Rmult_lt_0_compat; [|apply hill_positive; lra].
  apply Rmult_lt_0_compat; [lra|]. apply Rinv_0_lt_compat.
  eapply scale_pos_all; eauto; simpl; try lia; try apply ex_media_ok.
  apply (proj2 (proj2 (proj2 (proj2 ex_md_ok)))).
Qed.
Lemma ex_total_pos : 0 < total_outcome ex_md.
Proof. unfold total_outcome. simpl. unfold rsum. simpl. lra. Qed.

Example C09_organic_rf_concrete_case : forall theta eta dev, 0 < theta 0%nat ->
  exists tr hi betas b, media_transformer_init ex_media (md_population ex_md) = Ok tr /\
  adstock_hill_rf (md_cx ex_md) (forward3 tr ex_media) ex_media ex_par (DOne Geometric) (SOne Hill) None = Ok hi /\
  organic_rf_beta ex_md PtContribution ex_media ex_media ex_par (DOne Geometric) (SOne Hill) theta eta dev = Ok betas /\
  betas 0%nat = Some b.
Proof.
  intros theta eta dev Hth. destruct ex_rf_runs as [tr [hi [Hi [Hhi Hpos]]]].
  destruct (beta_exists ex_md (fun m => theta m * total_outcome ex_md) hi dev eta 0%nat) as [b Hb].
  - right. apply Rmult_lt_0_compat; [exact Hth|exact ex_total_pos].
  - apply ex_md_ok.
  - exact ex_stdev_pos.
  - intros; unfold md_revenue; simpl; lra.
  - intros; left; apply Hpos; auto.
  - exists 0%nat, 0%nat. unfold md_revenue. simpl. repeat split; try lia; try lra. apply Hpos; lia.
  - exists tr, hi, (calculate_beta_x ex_md false (fun m => theta m * total_outcome ex_md) hi eta dev), b.
    repeat split; auto. unfold organic_rf_beta. rewrite Hi. cbn [rbind]. rewrite Hhi. reflexivity.
Qed.

Example C09_paid_rf_concrete_case : forall theta eta dev, 0 < theta 0%nat ->
  exists betas b, paid_rf_beta ex_md PtContribution None ex_media ex_media (SpendPerChannel (fun _ => 1))
    ex_par (DOne Geometric) (SOne Hill) theta eta dev = Ok betas /\ betas 0%nat = Some b.
Proof.
  intros theta eta dev Hth. destruct ex_rf_runs as [tr [hi [Hi [Hhi Hpos]]]].
  destruct (beta_exists ex_md (fun m => theta m * total_outcome ex_md) hi dev eta 0%nat) as [b Hb].
  - right. apply Rmult_lt_0_compat; [exact Hth|exact ex_total_pos].
  - apply ex_md_ok.
  - exact ex_stdev_pos.
  - intros; unfold md_revenue; simpl; lra.
  - intros; left; apply Hpos; auto.
  - exists 0%nat, 0%nat. unfold md_revenue. simpl. repeat split; try lia; try lra. apply Hpos; lia.
  - exists (calculate_beta_x ex_md false (fun m => theta m * total_outcome ex_md) hi eta dev), b.
    split; auto. unfold paid_rf_beta, build_rf_tensors. rewrite Hi.
    cbn [rbind prior_counterfactual pt_denominator pt_scaled]. rewrite Hhi. reflexivity.
Qed.

Example C09_non_media_concrete_case : forall theta xi dev,
  exists b gammas v, non_media_baseline ex_md ex_media None None = Ok b /\
  non_media_gamma ex_md PtContribution ex_media None None theta xi dev = Ok gammas /\ gammas 0%nat = Some v.
Proof.
  intros theta xi dev.
  assert (Hb : exists b, non_media_baseline ex_md ex_media None None = Ok b)
    by (unfold non_media_baseline; simpl; eauto).
  destruct Hb as [b Hb].
  pose proof (non_media_baseline_lemma ex_md ex_media None None b 0%nat
    ltac:(apply ex_md_ok) ltac:(simpl; lia) ltac:(simpl; lia) Hb ltac:(simpl; lia)) as [_ Hmin].
  pose proof (Hmin 0%nat 0%nat ltac:(simpl; lia) ltac:(simpl; lia)) as M0. simpl in M0.
  set (diff := non_media_difference ex_media (md_population ex_md) None b).
  set (s := c_stdevs (centering_init ex_media (md_population ex_md) None) 0%nat).
  assert (Hs : 0 < s).
  { assert (s <> 0).
    { unfold s. simpl. intro E. apply std_gt_zero_iff in E; try lia. destruct E as [k Hk].
      pose proof (Hk 0%nat 0%nat ltac:(lia) ltac:(lia)) as A.
      pose proof (Hk 0%nat 1%nat ltac:(lia) ltac:(lia)) as B. simpl in A, B. lra. }
    assert (0 <= s) by (unfold s; simpl; apply sqrt_pos). lra. }
  assert (Hd : forall g t, val diff g t 0%nat = (1 + INR t - b 0%nat) / s).
  { set (tr := centering_init ex_media (md_population ex_md) None) in *.
    assert (Hc : forall g v, centering_forward tr true g 0 v = (v - c_means tr 0%nat) / s).
    { intros g v. unfold centering_forward. fold s. rewrite divide_no_nan_nz by lra. reflexivity. }
    intros g t. change (val diff g t 0%nat) with
      (centering_forward tr true g 0 (1 + INR t) - centering_forward tr true g 0 (b 0%nat)).
    rewrite !Hc. field. lra. }
  assert (Hk : forall g, outcome_over_beta ex_md diff g 0 =
     (1 - b 0%nat + (1 + 1 - b 0%nat)) / s * 3 * (INR g + 1) * k_stdev (md_kpi_transformer ex_md)).
  { intros g. unfold outcome_over_beta. simpl ctx_n_times. unfold rsum. rewrite !Hd.
    set (K := k_stdev _). unfold md_revenue. simpl. field. lra. }
  assert (Hpos : rsum (md_geos ex_md) (fun g => outcome_over_beta ex_md diff g 0) <> 0).
  { simpl md_geos. unfold rsum. rewrite !Hk. pose proof ex_stdev_pos as HK.
    set (K := k_stdev _) in *. simpl.
    assert (0 < (1 - b 0%nat + (1 + 1 - b 0%nat)) / s).
    { apply Rmult_lt_0_compat; [lra|apply Rinv_0_lt_compat; auto]. }
    set (z := (1 - b 0%nat + (1 + 1 - b 0%nat)) / s) in *. assert (0 < z * K) by (apply Rmult_lt_0_compat; auto).
    intro E. assert (9 * (z * K) = 0) by (rewrite <- E; ring). lra. }
  exists b. eexists. eexists. split; [exact Hb|]. unfold non_media_gamma. rewrite Hb. simpl rbind.
  split; [reflexivity|]. unfold calculate_beta_x. cbv iota. fold diff.
  unfold fdiv. destruct (Req_EM_T _ 0); [contradiction|reflexivity].
Qed.

(** ** C10 *)
(** Positive part: with Hill on the channel, mROI priors and calibrated ROI priors are honoured. *)
Theorem C10_hill_channels_honour_counterfactual_priors :
  forall md pt calibration media spend tr p df sa theta eta dev betas beta base m hi lo,
  model_ok md -> execution_ok md media -> transform_ok (chans media) p df sa ->
  partial_counterfactual pt calibration -> assigned_sat sa (chans media) m = Some Hill ->
  media_transformer_init media (md_population md) = Ok tr ->
  paid_media_beta md pt calibration media spend p df sa theta eta dev = Ok betas ->
  (m < chans media)%nat -> betas m = Some (beta m) ->
  adstock_hill_media (md_cx md) (forward3 tr (plan_with pt media)) p df sa None = Ok hi ->
  adstock_hill_media (md_cx md) (forward3 tr (plan_without pt calibration media)) p df sa None = Ok lo ->
  expected_outcome md (fun g t => base g t + beta_gx md beta eta dev g m * val hi g t m) -
  expected_outcome md (fun g t => base g t + beta_gx md beta eta dev g m * val lo g t m) =
  theta m * prior_unit md pt calibration (allocated_spend (ctx_n_times (md_cx md)) spend media) m.
Proof.
  intros md pt cal media spend tr p df sa theta eta dev betas beta base m hi lo H1 H2 H3 H4 H5.
  apply paid_media_lemma; auto. destruct H4 as [ -> | [ -> _]]; unfold derived_prior; auto.
Qed.
Print Assumptions C10_hill_channels_honour_counterfactual_priors.

(** A national model with one linear channel. *)
Definition nat_md : model :=
  mkModel (mkCtx 2 2 0 false) 1 (fun _ => 1) (fun _ t => 2 * INR t) None EffLogNormal.
Definition nat_media : T3 := mkT3 1 2 1 (fun _ t _ => 1 + 2 * INR t).

Lemma nat_md_ok : model_ok nat_md.
Proof. unfold model_ok; simpl. repeat split; try lia. intros; lra. Qed.
Lemma nat_media_ok : execution_ok nat_md nat_media.
Proof. unfold execution_ok; simpl. repeat split. intros g t c _ _. pose proof (pos_INR t). lra. Qed.

Lemma nat_init : exists tr, media_transformer_init nat_media (md_population nat_md) = Ok tr /\
  scale_factors_gm tr 0%nat 0%nat = 2.
Proof.
  assert (Hex : exists tr, media_transformer_init nat_media (md_population nat_md) = Ok tr).
  { apply media_init_ok_iff_lemma.
    - intros; simpl; lra.
    - intros m Hm. exists 0%nat, 0%nat. simpl. repeat split; try lia. lra. }
  destruct Hex as [tr Hi]. exists tr. split; auto.
  destruct (media_init_median _ _ _ 0%nat Hi ltac:(simpl; lia)) as [Hm E]. rewrite E. simpl.
  assert (H2 : is_median (filter nonzero (channel_values (population_scaled nat_media (md_population nat_md)) 0)) 2).
  { assert (Ev : channel_values (population_scaled nat_media (md_population nat_md)) 0 = [1; 3]).
    { unfold channel_values. simpl. rewrite !divide_no_nan_nz by lra. repeat f_equal; lra. }
    rewrite Ev. simpl. unfold nonzero. destruct (Req_EM_T 1 0); [lra|]. destruct (Req_EM_T 3 0); [lra|].
    split; [discriminate|]. exists [1; 3]. split; [reflexivity|]. split.
    - repeat constructor. lra.
    - simpl. lra. }
  rewrite (is_median_unique _ _ _ Hm H2). lra.
Qed.
Lemma nat_stdev : k_stdev (md_kpi_transformer nat_md) = 1.
Proof.
  simpl. unfold std_gt.
  replace (mean_gt _ _ _) with 1; [apply sqrt_1|].
  unfold mean_gt. unfold rsum. simpl. rewrite !divide_no_nan_nz by lra. field.
Qed.

(** Refutation: with saturation 'none' an mROI prior is not honoured: some accepted model and
    some draw give a coefficient whose marginal outcome is not the drawn value times 1% of spend. *)
Theorem C10_linear_channel_mroi_prior_refuted :
  exists md media spend tr p theta eta dev betas beta hi lo,
  model_ok md /\ execution_ok md media /\ transform_ok (chans media) p (DOne Geometric) (SOne NoSat) /\
  media_transformer_init media (md_population md) = Ok tr /\
  paid_media_beta md PtMROI None media spend p (DOne Geometric) (SOne NoSat) theta eta dev = Ok betas /\
  betas 0%nat = Some (beta 0%nat) /\ (0 < chans media)%nat /\
  adstock_hill_media (md_cx md) (forward3 tr (plan_with PtMROI media)) p (DOne Geometric) (SOne NoSat) None = Ok hi /\
  adstock_hill_media (md_cx md) (forward3 tr (plan_without PtMROI None media)) p (DOne Geometric) (SOne NoSat) None = Ok lo /\
  forall base,
  expected_outcome md (fun g t => base g t + beta_gx md beta eta dev g 0 * val hi g t 0%nat) -
  expected_outcome md (fun g t => base g t + beta_gx md beta eta dev g 0 * val lo g t 0%nat) <>
  theta 0%nat * prior_unit md PtMROI None (allocated_spend (ctx_n_times (md_cx md)) spend media) 0.
Proof.
  destruct nat_init as [tr [Hi Hs]].
  pose proof (ex_transform_ok NoSat ltac:(discriminate)) as Htr.
  destruct (plans_ok nat_md PtMROI None nat_media nat_media_ok) as [O1 O2].
  pose proof (forward_ok nat_md nat_media (plan_with PtMROI nat_media) tr nat_md_ok nat_media_ok Hi eq_refl O1) as F1.
  pose proof (forward_ok nat_md nat_media (plan_without PtMROI None nat_media) tr nat_md_ok nat_media_ok Hi eq_refl O2) as F2.
  destruct (media_runs nat_md nat_media tr (plan_with PtMROI nat_media) ex_par (DOne Geometric) (SOne NoSat)
    nat_md_ok nat_media_ok Hi O1 eq_refl Htr) as [hi Hhi].
  destruct (media_runs nat_md nat_media tr (plan_without PtMROI None nat_media) ex_par (DOne Geometric) (SOne NoSat)
    nat_md_ok nat_media_ok Hi O2 eq_refl Htr) as [lo Hlo].
  (* the code's counterfactual goes through Hill *)
  set (cf := scale3 mroi_factor (forward3 tr nat_media)).
  assert (Fcf : execution_ok nat_md cf).
  { split; [reflexivity|split; [reflexivity|]]. intros g t c Ht Hc. unfold cf, scale3, mroi_factor. simpl.
    destruct F2 as [_ [_ Fn]]. specialize (Fn g t c Ht Hc). simpl in Fn. lra. }
  assert (Hcf : exists y, adstock_hill_media (md_cx nat_md) cf ex_par (DOne Geometric) (SOne Hill) None = Ok y).
  { destruct (adstock_hill_media_lemma (md_cx nat_md) cf ex_par (DOne Geometric) (SOne Hill) 2) as [y [Hy _]];
      try (simpl; lia); try (apply Htr); try (simpl; discriminate); try apply Fcf. 
    exists y. rewrite <- Hy. reflexivity. }
  destruct Hcf as [y Hy].
  assert (Vhi : forall t, (t < 2)%nat -> val hi 0%nat t 0%nat = (1 + 1/100) * (1 + 2 * INR t) / 2).
  { intros t Ht. destruct (media_default_val _ _ _ _ _ hi 0%nat nat_md_ok F1 Htr Hhi ltac:(simpl; lia))
      as [_ [_ [_ [d [s [D1 [D2 [S1 [S2 V]]]]]]]]].
    simpl in S1. inversion S1; subst s. rewrite V by (simpl; lia). simpl p_alpha.
    rewrite no_carryover_response by (auto; unfold window; simpl; lia). simpl. rewrite Hs. reflexivity. }
  assert (Vlo : forall t, (t < 2)%nat -> val lo 0%nat t 0%nat = (1 + 2 * INR t) / 2).
  { intros t Ht. destruct (media_default_val _ _ _ _ _ lo 0%nat nat_md_ok F2 Htr Hlo ltac:(simpl; lia))
      as [_ [_ [_ [d [s [D1 [D2 [S1 [S2 V]]]]]]]]].
    simpl in S1. inversion S1; subst s. rewrite V by (simpl; lia). simpl p_alpha.
    rewrite no_carryover_response by (auto; unfold window; simpl; lia). simpl. rewrite Hs. reflexivity. }
  assert (Vy : forall t, (t < 2)%nat -> val y 0%nat t 0%nat =
      let x := (1 + 2 * INR t) / 2 * (101 / 100) in x / (1 + x)).
  { intros t Ht. destruct (media_default_val _ _ _ _ _ y 0%nat nat_md_ok Fcf (ex_transform_ok Hill ltac:(discriminate))
       Hy ltac:(simpl; lia)) as [_ [_ [_ [d [s [D1 [D2 [S1 [S2 V]]]]]]]]].
    simpl in S1. inversion S1; subst s. rewrite V by (simpl; lia). simpl p_alpha.
    rewrite no_carryover_response by (auto; unfold window; simpl; lia).
    unfold cf. simpl. rewrite Hs. unfold documented_hill. pose proof (pos_INR t).
    set (x := (1 + 2 * INR t) / 2 * mroi_factor).
    assert (0 < x) by (unfold x, mroi_factor; lra).
    change ((1 + 2 * INR t) / 2 * (101 / 100)) with x.
    destruct (Req_EM_T x 0); [lra|]. rewrite Rpower_Ropp, Rpower_1 by lra. field. lra. }
  set (diff := abs_diff3 lo y).
  assert (Vd0 : val diff 0%nat 0%nat 0%nat = 1/2 - 101/301).
  { simpl. rewrite Vlo, Vy by lia. simpl. rewrite Rabs_right; lra. }
  assert (Vd1 : val diff 0%nat 1%nat 0%nat = 3/2 - 303/503).
  { simpl. rewrite Vlo, Vy by lia. simpl. rewrite Rabs_right; lra. }
  set (theta := fun _ : nat => 1). set (zero1 := fun _ : nat => 0). set (zero2 := fun _ _ : nat => 0).
  set (spend := SpendPerChannel (fun _ => 100)).
  assert (Hb : exists betas, paid_media_beta nat_md PtMROI None nat_media spend ex_par (DOne Geometric) (SOne NoSat)
    theta zero1 zero2 = Ok betas /\ betas 0%nat = calculate_beta_x nat_md false
      (fun m => theta m * (aggregate_spend 2 None (allocated_spend 2 spend nat_media) m * (mroi_factor - 1)))
      diff zero1 zero2 0%nat).
  { unfold paid_media_beta, build_media_tensors. rewrite Hi. cbn [rbind prior_counterfactual pt_denominator pt_scaled].
    change (plan_without PtMROI None nat_media) with nat_media in Hlo. rewrite Hlo.
    cbn [rbind pt_counterfactual counterfactual_difference_media]. fold cf. rewrite Hy. cbn [rbind].
    eexists. split; reflexivity. }
  destruct Hb as [betas [Hb Hb0]].
  assert (Hu : prior_unit nat_md PtMROI None (allocated_spend (ctx_n_times (md_cx nat_md)) spend nat_media) 0 = 1).
  { unfold prior_unit, spend_in. simpl. unfold rsum; simpl. field. }
  assert (Hinc : theta 0%nat * (aggregate_spend 2 None (allocated_spend 2 spend nat_media) 0 * (mroi_factor - 1)) = 1).
  { unfold aggregate_spend, theta, mroi_factor. simpl. unfold rsum; simpl. field. }
  assert (Hk : outcome_over_beta nat_md diff 0 0 = (1/2 - 101/301) + (3/2 - 303/503)).
  { unfold outcome_over_beta. rewrite nat_stdev. simpl ctx_n_times. unfold rsum.
    rewrite Vd0, Vd1. unfold md_revenue; simpl. lra. }
  set (K := (1/2 - 101/301) + (3/2 - 303/503)) in *.
  assert (HK : 1 < K) by (unfold K; lra).
  assert (Hbeta : betas 0%nat = Some (1 / K)).
  { rewrite Hb0. unfold calculate_beta_x, media_effects_dist. simpl Nat.eqb. cbv iota.
    rewrite Hinc. simpl md_geos. unfold rsum. rewrite Hk. unfold zero1, zero2.
    unfold fdiv. destruct (Req_EM_T _ 0); [lra|]. f_equal. field. lra. }
  exists nat_md, nat_media, spend, tr, ex_par, theta, zero1, zero2, betas, (fun _ => 1 / K), hi, lo.
  split; [exact nat_md_ok|]. split; [exact nat_media_ok|]. split; [exact Htr|]. split; [exact Hi|].
  split; [exact Hb|]. split; [exact Hbeta|]. split; [simpl; lia|]. split; [exact Hhi|]. split; [exact Hlo|].
  intros base.
  set (d2 := mkT3 1 2 1 (fun g t m => val hi g t m - val lo g t m)).
  rewrite (expected_outcome_diff nat_md base (fun g t => val hi g t 0%nat) (fun g t => val lo g t 0%nat)
    (fun g => beta_gx nat_md (fun _ => 1 / K) zero1 zero2 g 0) d2 0) by reflexivity.
  rewrite Hu. unfold theta.
  simpl md_geos. unfold rsum.
  assert (Ho : outcome_over_beta nat_md d2 0 0 = 2/100).
  { unfold outcome_over_beta. rewrite nat_stdev. simpl ctx_n_times. unfold rsum. cbn [val d2].
    rewrite !Vhi, !Vlo by lia. unfold md_revenue; simpl. lra. }
  rewrite Ho. unfold beta_gx, media_effects_dist, zero1, zero2. simpl.
  intro E. assert (2 / 100 * / K = 1) by lra.
  assert (2 / 100 = K) by (apply (Rmult_eq_reg_r (/ K)); [rewrite H, Rinv_r; lra|apply Rinv_neq_0_compat; lra]).
  lra.
Qed.
Print Assumptions C10_linear_channel_mroi_prior_refuted.

(** ** C11 *)
(** Both places that report non-media contributions use the same baseline. *)
Theorem C11_reported_baselines_agree : forall x population id b g n,
  0 < population g ->
  reported_baseline_expected x population id b g n = reported_baseline x population id b g n.
Proof. exact reported_baselines_agree_lemma. Qed.
Print Assumptions C11_reported_baselines_agree.

(** The baseline is the requested one: the channel's per-capita minimum (default), maximum, or
    the given number. *)
Theorem C11_baseline_is_requested_value : forall md x id values b n,
  (forall g, 0 < md_population md g) -> (0 < geos x)%nat -> (0 < times x)%nat ->
  non_media_baseline md x id values = Ok b -> (n < chans x)%nat ->
  match (match values with None => Some BMin | Some l => nth_error l n end) with
  | Some BMin => is_channel_min (per_capita x (md_population md) id) n (b n)
  | Some BMax => is_channel_max (per_capita x (md_population md) id) n (b n)
  | Some (BNum v) => b n = v
  | _ => False
  end.
Proof. exact non_media_baseline_lemma. Qed.
Print Assumptions C11_baseline_is_requested_value.

Theorem C11_baseline_values_accepted_iff : forall md x id l,
  (exists b, non_media_baseline md x id (Some l) = Ok b) <->
  (length l = chans x /\ ~ In BOther l).
Proof. exact non_media_baseline_err_lemma. Qed.
Print Assumptions C11_baseline_values_accepted_iff.

(** Channels that are not population scaled: prior and report use the same baseline. *)
Theorem C11_prior_baseline_is_reported_baseline : forall x population id b g t n,
  unflagged id n ->
  val (non_media_difference x population id b) g t n =
  centering_forward (centering_init x population id) true g n (val x g t n) -
  reported_baseline x population id b g n.
Proof. exact sampler_baseline_lemma. Qed.
Print Assumptions C11_prior_baseline_is_reported_baseline.

(** Population-scaled channels: they agree only when the geo has population 1 or the baseline
    is 0. *)
Theorem C11_population_scaled_baseline_iff : forall x population flags b g t n,
  flags n = true -> 0 < population g ->
  c_stdevs (centering_init x population (Some flags)) n <> 0 ->
  (val (non_media_difference x population (Some flags) b) g t n =
   centering_forward (centering_init x population (Some flags)) true g n (val x g t n) -
   reported_baseline x population (Some flags) b g n)
  <-> (population g = 1 \/ b n = 0).
Proof. exact sampler_baseline_iff_lemma. Qed.
Print Assumptions C11_population_scaled_baseline_iff.

(** Refutation of the unconditional claim. *)
Theorem C11_population_scaled_baseline_refuted :
  exists x population flags b md, md_population md = population /\
  non_media_baseline md x (Some flags) None = Ok b /\ (forall g, 0 < population g) /\
  exists g t, (g < geos x)%nat /\ (t < times x)%nat /\
  val (non_media_difference x population (Some flags) b) g t 0%nat <>
  centering_forward (centering_init x population (Some flags)) true g 0 (val x g t 0%nat) -
  reported_baseline x population (Some flags) b g 0.
Proof.
  set (x := ex_media). set (pop := fun _ : nat => 2).
  set (md := mkModel (mkCtx 2 2 1 false) 2 pop (fun g t => 5 + INR g + INR t) None EffNormal).
  assert (Hb : exists b, non_media_baseline md x (Some (fun _ => true)) None = Ok b)
    by (unfold non_media_baseline; simpl; eauto).
  destruct Hb as [b Hb].
  exists x, pop, (fun _ => true), b, md. split; [reflexivity|]. split; [exact Hb|].
  split; [intros; unfold pop; lra|]. exists 0%nat, 0%nat. split; [simpl; lia|]. split; [simpl; lia|].
  pose proof (C11_baseline_is_requested_value md x (Some (fun _ => true)) None b 0%nat
    ltac:(intros; simpl; unfold pop; lra) ltac:(simpl; lia) ltac:(simpl; lia) Hb ltac:(simpl; lia)) as [[g [t [Hg [Ht Hv]]]] _].
  simpl in Hv. pose proof (pos_INR t).
  rewrite C11_population_scaled_baseline_iff.
  - unfold pop in *. intros [E|E]; lra.
  - reflexivity.
  - unfold pop; lra.
  - simpl. intro E. apply std_gt_zero_iff in E; try lia. destruct E as [k Hk].
    pose proof (Hk 0%nat 0%nat ltac:(lia) ltac:(lia)) as A.
    pose proof (Hk 0%nat 1%nat ltac:(lia) ltac:(lia)) as B.
    unfold scaling_factors, pop in A, B. simpl in A, B. lra.
Qed.
Print Assumptions C11_population_scaled_baseline_refuted.

(** ** C46 *)
(** Spend given as one total per channel is spread over geos and periods without loss. *)
Theorem C46_allocated_spend_sums_to_total : forall n_times s units m,
  rsum (geos units) (fun g => rsum n_times (fun t => val units g (times units - n_times + t)%nat m)) <> 0 ->
  spend_in 0 None (allocated_spend n_times (SpendPerChannel s) units) m = s m.
Proof. exact allocated_spend_sum_lemma. Qed.
Print Assumptions C46_allocated_spend_sums_to_total.

(** Spend given per geo and period is used unchanged. *)
Theorem C46_given_spend_kept : forall n_times a units,
  allocated_spend n_times (SpendArray a) units = a.
Proof. reflexivity. Qed.
Print Assumptions C46_given_spend_kept.

(** Cells with equal media units get equal spend, and spend is proportional to units. *)
Theorem C46_allocation_proportional : forall n_times s units m g t g' t',
  let a := allocated_spend n_times (SpendPerChannel s) units in
  let u g t := val units g (times units - n_times + t)%nat m in
  val a g t m * u g' t' = val a g' t' m * u g t.
Proof. intros. subst a u. simpl. unfold Rdiv. ring. Qed.
Print Assumptions C46_allocation_proportional.

Example C46_concrete_case :
  rsum (geos ex_media) (fun g => rsum 2 (fun t => val ex_media g (times ex_media - 2 + t)%nat 0%nat)) <> 0.
Proof. simpl. unfold rsum. simpl. lra. Qed.
