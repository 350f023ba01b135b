(** Proofs about prior calibration. *)
From Coq Require Import Reals ZArith Lra Lia List Bool Arith.
From Verif Require Import Lib_Sum Lib_Pow M_Base M_AdstockHill M_Equations M_Transformers
  M_Priors S_Adstock S_Media S_Transformers S_Priors P_Adstock P_Media P_MediaProps P_Transformers.
Import ListNotations.
Local Open Scope R_scope.

Lemma Rdiv_1 : forall v : R, v / 1 = v.
Proof. intros; lra. Qed.

(** The coefficient solves the calibration equation. *)
Lemma calculate_beta_solves : forall md inc diff eta dev x b beta,
  calculate_beta_x md false inc diff eta dev x = Some b -> beta x = b ->
  rsum (md_geos md) (fun g => outcome_over_beta md diff g x * beta_gx md beta eta dev g x) = inc x.
Proof.
  intros md inc diff eta dev x b beta H Hb. unfold calculate_beta_x in H. unfold beta_gx.
  destruct (media_effects_dist md).
  - unfold fdiv in H. destruct (Req_EM_T _ 0) as [|Hne]; [discriminate|].
    inversion H as [Hbb]. rewrite Hb, <- Hbb.
    set (k := fun g => outcome_over_beta md diff g x) in *.
    set (K := rsum (md_geos md) k) in *.
    rewrite (rsum_ext _ _ (fun g => k g * ((inc x - rsum (md_geos md) (fun g => k g * dev g x * eta x)) / K)
                             + k g * dev g x * eta x)).
    + rewrite rsum_plus, rsum_scal_r. fold K. field. exact Hne.
    + intros g _. unfold k. ring.
  - unfold flog in H. destruct (Rlt_dec 0 (inc x)) as [Hi|]; [|discriminate].
    destruct (Rlt_dec 0 _) as [Hs|] in H; [|discriminate].
    inversion H as [Hbb]. rewrite Hb, <- Hbb.
    set (S := rsum (md_geos md) _) in *.
    rewrite (rsum_ext _ _ (fun g => outcome_over_beta md diff g x * exp (dev g x * eta x) * (inc x / S))).
    + rewrite rsum_scal_r. fold S. field. lra.
    + intros g _. rewrite exp_plus, (Rmult_comm (eta x)). unfold Rminus. rewrite exp_plus, exp_Ropp, !exp_ln by auto.
      unfold Rdiv. ring.
Qed.

Lemma calculate_gamma_solves : forall md inc diff xi dev x b gamma,
  calculate_beta_x md true inc diff xi dev x = Some b -> gamma x = b ->
  rsum (md_geos md) (fun g => outcome_over_beta md diff g x * gamma_gn gamma xi dev g x) = inc x.
Proof.
  intros md inc diff eta dev x b beta H Hb. unfold calculate_beta_x in H. unfold gamma_gn.
  assert (H' : fdiv (inc x - rsum (md_geos md) (fun g => outcome_over_beta md diff g x * dev g x * eta x))
           (rsum (md_geos md) (fun g => outcome_over_beta md diff g x)) = Some b)
    by (destruct (media_effects_dist md); exact H).
  clear H. rename H' into H.
  unfold fdiv in H. destruct (Req_EM_T _ 0) as [|Hne]; [discriminate|].
  inversion H as [Hbb]. rewrite Hb, <- Hbb.
  set (k := fun g => outcome_over_beta md diff g x) in *.
  set (K := rsum (md_geos md) k) in *.
  rewrite (rsum_ext _ _ (fun g => k g * ((inc x - rsum (md_geos md) (fun g => k g * dev g x * eta x)) / K)
                           + k g * dev g x * eta x)).
  - rewrite rsum_plus, rsum_scal_r. fold K. field. exact Hne.
  - intros g _. unfold k. ring.
Qed.

(** Difference of expected outcomes of two linear predictors. *)
Lemma expected_outcome_diff : forall md base hi lo coef diff m,
  (forall g t, (g < md_geos md)%nat -> (t < ctx_n_times (md_cx md))%nat ->
     hi g t - lo g t = val diff g t m) ->
  expected_outcome md (fun g t => base g t + coef g * hi g t) -
  expected_outcome md (fun g t => base g t + coef g * lo g t) =
  rsum (md_geos md) (fun g => outcome_over_beta md diff g m * coef g).
Proof.
  intros md base hi lo coef diff m H. unfold expected_outcome, outcome_over_beta.
  rewrite <- rsum_minus. apply rsum_ext. intros g Hg.
  rewrite <- rsum_minus, <- rsum_scal_r. apply rsum_ext. intros t Ht.
  rewrite <- (H g t Hg Ht). unfold kpi_inverse. simpl. unfold kpi_init; simpl. ring.
Qed.

Lemma total_outcome_spec : forall md,
  total_outcome md = rsum (md_geos md) (fun g => rsum (ctx_n_times (md_cx md)) (fun t =>
        md_kpi md g t * md_revenue md g t)).
Proof.
  intros md. unfold total_outcome, md_revenue. destruct (md_revenue_per_kpi md); auto.
  apply rsum_ext; intros; apply rsum_ext; intros; ring.
Qed.

Lemma aggregate_spend_spec : forall n cal spend m,
  aggregate_spend n cal spend m = spend_in n cal spend m.
Proof.
  intros n [c|] spend m; unfold aggregate_spend, spend_in; auto.
  apply rsum_ext; intros; apply rsum_ext; intros.
  destruct (c _ m); ring.
Qed.

Lemma denominator_spec : forall md pt cal scaled agg mt spend m,
  derived_prior pt ->
  prior_counterfactual md pt cal scaled agg = Ok mt ->
  (forall m, agg m = spend_in (ctx_n_media_times (md_cx md)) cal spend m) ->
  exists den, pt_denominator mt = Some den /\ pt_scaled mt = scaled /\
    den m = prior_unit md pt cal spend m.
Proof.
  intros md pt cal scaled agg mt spend m Hpt H Hagg.
  destruct Hpt as [ -> | [ -> | -> ]]; simpl in H; inversion H; subst; simpl; eexists; repeat split.
  - rewrite Hagg. reflexivity.
  - rewrite Hagg. unfold mroi_factor. lra.
  - apply total_outcome_spec.
Qed.


Lemma scale_pos_all : forall media population tr g m,
  media_transformer_init media population = Ok tr ->
  (0 < geos media)%nat -> (forall g, 0 < population g) ->
  (forall g t c, (t < times media)%nat -> (c < chans media)%nat -> 0 <= val media g t c) ->
  (m < chans media)%nat -> 0 < scale_factors_gm tr g m.
Proof.
  intros media population tr g m Hi HG Hp Hn Hm.
  assert (H0 : 0 < scale_factors_gm tr 0%nat m).
  { eapply media_scale_pos; eauto. intros g' _; apply Hp. }
  destruct (media_init_median _ _ _ _ Hi Hm) as [_ E]. rewrite E in *.
  pose proof (Hp 0%nat). pose proof (Hp g).
  apply Rmult_lt_0_compat; auto.
  apply (Rmult_lt_reg_l (population 0%nat)); lra.
Qed.

Lemma lagged_average_ext : forall W w x y t, (forall u, (u <= t)%nat -> x u = y u) ->
  lagged_average W w x t = lagged_average W w y t.
Proof.
  intros. unfold lagged_average. apply rsum_ext. intros l Hl. unfold past.
  destruct (Nat.leb l t); [|reflexivity]. rewrite H by lia. reflexivity.
Qed.

Lemma media_response_ext : forall hb s ec slope W w x y t, (forall u, (u <= t)%nat -> x u = y u) ->
  media_response hb s ec slope W w x t = media_response hb s ec slope W w y t.
Proof.
  intros. unfold media_response. destruct hb.
  - apply lagged_average_ext. intros. rewrite H; auto.
  - f_equal. apply lagged_average_ext; auto.
Qed.

Lemma media_response_zero : forall hb s ec slope W w x t, (forall u, (u <= t)%nat -> x u = 0) ->
  media_response hb s ec slope W w x t = 0.
Proof.
  intros. unfold media_response. destruct hb.
  - apply lagged_average_0. intros. rewrite H; auto. apply saturate_0.
  - rewrite lagged_average_0; auto. apply saturate_0.
Qed.

(** Value of the transformed media with the default output length. *)
Lemma media_default_val : forall md x p df sa out m,
  model_ok md -> execution_ok md x -> transform_ok (chans x) p df sa ->
  adstock_hill_media (md_cx md) x p df sa None = Ok out -> (m < chans x)%nat ->
  geos out = geos x /\ chans out = chans x /\ times out = ctx_n_times (md_cx md) /\
  exists d s, assigned_decay df (chans x) m = Some d /\ recognised d /\
    assigned_sat sa (chans x) m = Some s /\ s <> OtherSat /\
    forall g t, (t < ctx_n_times (md_cx md))%nat ->
      val out g t m = media_response (ctx_hill_before_adstock (md_cx md)) s (p_ec p m) (p_slope p m)
        (window x (ctx_max_lag (md_cx md)))
        (documented_weight d (p_alpha p m) (window x (ctx_max_lag (md_cx md))))
        (fun u => val x g u m) (times x - ctx_n_times (md_cx md) + t).
Proof.
  intros md x p df sa out m [HG [HT [HTm [HL Hp]]]] [Eg [Et En]] [P1 [P2 [P3 P4]]] H Hm.
  assert (H' : adstock_hill_media (md_cx md) x p df sa (Some (Z.of_nat (ctx_n_times (md_cx md)))) = Ok out).
  { rewrite <- H. unfold adstock_hill_media, resolve_n_times_output.
    rewrite Et, Nat.eqb_refl. reflexivity. }
  assert (Hok : media_args_ok (md_cx md) x p df sa (Z.of_nat (ctx_n_times (md_cx md)))).
  { unfold media_args_ok. repeat (split; [auto; lia|]). auto. }
  destruct (media_val_lemma _ _ _ _ _ _ _ Hok H') as [Og [Ot [Oc Ov]]].
  assert (Ot' : times out = ctx_n_times (md_cx md)) by lia.
  repeat (split; [auto|]).
  destruct (Ov m Hm) as [d [s [A [B [C [D E]]]]]]. exists d, s. rewrite Ot' in E. auto 10.
Qed.

Lemma rf_default_val : forall md x freq p df sa out m,
  model_ok md -> geos x = md_geos md -> times x = ctx_n_media_times (md_cx md) ->
  execution_ok md freq -> chans freq = chans x ->
  transform_ok (chans x) p df sa ->
  adstock_hill_rf (md_cx md) x freq p df sa None = Ok out -> (m < chans x)%nat ->
  geos out = geos x /\ chans out = chans x /\ times out = ctx_n_times (md_cx md) /\
  exists d s, assigned_decay df (chans x) m = Some d /\ recognised d /\
    assigned_sat sa (chans x) m = Some s /\ s <> OtherSat /\
    forall g t, (t < ctx_n_times (md_cx md))%nat ->
      val out g t m = lagged_average (window x (ctx_max_lag (md_cx md)))
        (documented_weight d (p_alpha p m) (window x (ctx_max_lag (md_cx md))))
        (fun u => val x g u m * saturate s (p_ec p m) (p_slope p m) (val freq g u m))
        (times x - ctx_n_times (md_cx md) + t).
Proof.
  intros md x freq p df sa out m [HG [HT [HTm [HL Hp]]]] Eg Et [Fg [Ft Fn]] Fc [P1 [P2 [P3 P4]]] H Hm.
  assert (H' : adstock_hill_rf (md_cx md) x freq p df sa (Some (Z.of_nat (ctx_n_times (md_cx md)))) = Ok out).
  { rewrite <- H. unfold adstock_hill_rf, resolve_n_times_output.
    rewrite Et, Nat.eqb_refl. reflexivity. }
  assert (Hok : rf_args_ok (md_cx md) x freq p df sa (Z.of_nat (ctx_n_times (md_cx md)))).
  { unfold rf_args_ok. split; [lia|]. split; [lia|]. split; [repeat split; congruence|].
    repeat (split; [auto|]). rewrite Et, <- Ft, <- Fc. auto. }
  destruct (rf_val_lemma _ _ _ _ _ _ _ _ Hok H') as [Og [Ot [Oc Ov]]].
  assert (Ot' : times out = ctx_n_times (md_cx md)) by lia.
  repeat (split; [auto|]).
  destruct (Ov m Hm) as [d [s [A [B [C [D E]]]]]]. exists d, s. rewrite Ot' in E. auto 10.
Qed.

Lemma plan_with_shape : forall pt x, geos (plan_with pt x) = geos x /\
  times (plan_with pt x) = times x /\ chans (plan_with pt x) = chans x.
Proof. intros [] x; simpl; auto. Qed.
Lemma plan_without_shape : forall pt cal x, geos (plan_without pt cal x) = geos x /\
  times (plan_without pt cal x) = times x /\ chans (plan_without pt cal x) = chans x.
Proof. intros [] [c|] x; simpl; auto. Qed.

Lemma plans_ordered : forall md pt cal x g t m, execution_ok md x ->
  (t < times x)%nat -> (m < chans x)%nat ->
  0 <= val (plan_without pt cal x) g t m <= val (plan_with pt x) g t m.
Proof.
  intros md pt cal x g t m [_ [_ H]] Ht Hm. specialize (H g t m Ht Hm).
  destruct pt, cal; simpl; try destruct (b t m); lra.
Qed.

Lemma plans_ok : forall md pt cal x, execution_ok md x ->
  execution_ok md (plan_with pt x) /\ execution_ok md (plan_without pt cal x).
Proof.
  intros md pt cal x H. pose proof H as [Hg [Ht Hn]].
  destruct (plan_with_shape pt x) as [A [B C]]. destruct (plan_without_shape pt cal x) as [A' [B' C']].
  split; (split; [congruence|split; [congruence|]]); intros g t c Hti Hci.
  - rewrite B in Hti. rewrite C in Hci. pose proof (plans_ordered md pt cal x g t c H Hti Hci). lra.
  - rewrite B' in Hti. rewrite C' in Hci. pose proof (plans_ordered md pt cal x g t c H Hti Hci). lra.
Qed.

Lemma forward_ok : forall md x y tr, model_ok md -> execution_ok md x ->
  media_transformer_init x (md_population md) = Ok tr ->
  chans y = chans x -> execution_ok md y -> execution_ok md (forward3 tr y).
Proof.
  intros md x y tr [HG [_ [_ [_ Hp]]]] [Eg [Et En]] Hi Hc [Yg [Yt Yn]].
  split; [auto|split; [auto|]]. simpl. intros g t c Ht Hcc.
  apply Rmult_le_pos; [apply Yn; auto|]. left. apply Rinv_0_lt_compat.
  eapply scale_pos_all; eauto; lia.
Qed.

(** The two response tensors and the code's counterfactual difference. *)
Lemma media_difference_lemma : forall md pt cal media tr agg mt p df sa transformed diff hi lo m,
  model_ok md -> execution_ok md media -> transform_ok (chans media) p df sa ->
  derived_prior pt ->
  (partial_counterfactual pt cal -> assigned_sat sa (chans media) m = Some Hill) ->
  media_transformer_init media (md_population md) = Ok tr ->
  prior_counterfactual md pt cal (forward3 tr media) agg = Ok mt ->
  adstock_hill_media (md_cx md) (forward3 tr media) p df sa None = Ok transformed ->
  counterfactual_difference_media md (pt_counterfactual mt) transformed p df = Ok diff ->
  adstock_hill_media (md_cx md) (forward3 tr (plan_with pt media)) p df sa None = Ok hi ->
  adstock_hill_media (md_cx md) (forward3 tr (plan_without pt cal media)) p df sa None = Ok lo ->
  (m < chans media)%nat ->
  forall g t, (t < ctx_n_times (md_cx md))%nat ->
    0 <= val hi g t m - val lo g t m /\ val hi g t m - val lo g t m = val diff g t m.
Proof.
  intros md pt cal media tr agg mt p df sa transformed diff hi lo m
    Hmd Hme Htr Hpt Hhill Hi Hmt Ht Hd Hhi Hlo Hm g t Htt.
  destruct (plans_ok md pt cal media Hme) as [Okhi Oklo].
  destruct (plan_with_shape pt media) as [Ag [At Ac]].
  destruct (plan_without_shape pt cal media) as [Bg [Bt Bc]].
  pose proof (forward_ok md media _ tr Hmd Hme Hi Ac Okhi) as Fhi.
  pose proof (forward_ok md media _ tr Hmd Hme Hi Bc Oklo) as Flo.
  pose proof (forward_ok md media media tr Hmd Hme Hi eq_refl Hme) as Fme.
  assert (Tp : forall x, chans x = chans media -> transform_ok (chans (forward3 tr x)) p df sa)
    by (intros x Hx; simpl; rewrite Hx; auto).
  destruct (media_default_val md _ p df sa hi m Hmd Fhi (Tp _ Ac) Hhi ltac:(simpl; lia))
    as [_ [_ [_ [d [s [D1 [D2 [S1 [S2 Vhi]]]]]]]]].
  destruct (media_default_val md _ p df sa lo m Hmd Flo (Tp _ Bc) Hlo ltac:(simpl; lia))
    as [_ [_ [_ [d' [s' [D1' [D2' [S1' [S2' Vlo]]]]]]]]].
  simpl in D1, D1', S1, S1'. rewrite Ac in D1, S1. rewrite Bc in D1', S1'.
  assert (d' = d) by congruence. assert (s' = s) by congruence. subst d' s'.
  specialize (Vhi g t Htt). specialize (Vlo g t Htt).
  unfold window in Vhi, Vlo. simpl in Vhi, Vlo. rewrite At in Vhi. rewrite Bt in Vlo.
  destruct Htr as [P1 [P2 [P3 P4]]].
  destruct (P2 m ltac:(lia)) as [Pa [Pe Ps]].
  assert (HT : (ctx_n_times (md_cx md) <= times media)%nat)
    by (destruct Hmd as [? [? [? ?]]]; destruct Hme as [? [? ?]]; lia).
  assert (Hord : 0 <= val lo g t m <= val hi g t m).
  { rewrite Vhi, Vlo. apply media_response_mono; auto.
    - intros l Hl. apply documented_weight_nonneg; auto.
    - intros u Hu. destruct (plans_ordered md pt cal media g u m Hme ltac:(lia) Hm) as [O1 O2].
      assert (0 < / scale_factors_gm tr g m).
      { apply Rinv_0_lt_compat. destruct Hmd as [? [? [? [? ?]]]]. destruct Hme as [? [? ?]].
        eapply scale_pos_all; eauto; lia. }
      unfold Rdiv. split; [apply Rmult_le_pos; lra|apply Rmult_le_compat_r; lra]. }
  split; [lra|].
  assert (Hnohill : forall x y cf, (forall u, (u < times media)%nat -> val cf g u m = val (forward3 tr x) g u m) ->
     chans x = chans media -> times x = times media ->
     execution_ok md cf -> chans cf = chans media -> times cf = times media ->
     adstock_hill_media (md_cx md) cf p df (SOne Hill) None = Ok y ->
     assigned_sat sa (chans media) m = Some Hill ->
     val y g t m = media_response (ctx_hill_before_adstock (md_cx md)) s (p_ec p m) (p_slope p m)
        (Nat.min (Z.to_nat (ctx_max_lag (md_cx md)) + 1) (times media))
        (documented_weight d (p_alpha p m)
             (Nat.min (Z.to_nat (ctx_max_lag (md_cx md)) + 1) (times media)))
             (fun u => val x g u m / scale_factors_gm tr g m)
             (times media - ctx_n_times (md_cx md) + t)).
  { intros x y cf E C1 T1 C3 C4 C5 Hy Hh.
    assert (TpH : transform_ok (chans cf) p df (SOne Hill)).
    { rewrite C4. repeat split; auto; try apply P2; auto; discriminate. }
    destruct (media_default_val md cf p df (SOne Hill) y m Hmd C3 TpH Hy ltac:(lia))
      as [_ [_ [_ [d2 [s2 [E1 [E2 [E3 [E4 Vy]]]]]]]]].
    rewrite C4 in E1. simpl in E3. assert (d2 = d) by congruence. assert (s = Hill) by congruence.
    inversion E3. subst d2 s s2. rewrite Vy by auto. unfold window. rewrite C5.
    apply media_response_ext. intros u Hu. rewrite E by lia. reflexivity. }
  destruct Hpt as [ -> | [ -> | -> ]].
  - destruct cal as [c|]; simpl in Hmt; inversion Hmt; subst mt; clear Hmt; simpl in Hd.
    + assert (Hh : assigned_sat sa (chans media) m = Some Hill)
        by (apply Hhill; auto; right; split; [reflexivity|discriminate]).
      destruct (adstock_hill_media _ _ p df (SOne Hill) None) as [y|e] eqn:Ey; simpl in Hd; [|discriminate].
      inversion Hd; subst diff; clear Hd. simpl.
      assert (transformed = hi) by (simpl in Hhi; congruence). subst transformed.
      pose proof (Hnohill (plan_without PtROI (Some c) media) y
        (roi_calibration_counterfactual (forward3 tr media) c)
        ltac:(intros u Hu; simpl; destruct (c u m); unfold Rdiv; ring)
        Bc Bt ltac:(split; [apply Fme|split; [apply Fme|]]; intros g0 t0 c0 Ht0 Hc0; simpl;
          destruct Fme as [_ [_ Fn]]; specialize (Fn g0 t0 c0 Ht0 Hc0); simpl in Fn; destruct (c t0 c0); lra)
        ltac:(auto) ltac:(auto) Ey Hh) as Hy.
      rewrite Hy, <- Vlo. rewrite Rabs_right; lra.
    + inversion Hd; subst diff. assert (transformed = hi) by (simpl in Hhi; congruence). subst transformed.
      assert (val lo g t m = 0); [|lra]. rewrite Vlo. apply media_response_zero.
      intros; simpl. unfold Rdiv; ring.
  - simpl in Hmt; inversion Hmt; subst mt; clear Hmt; simpl in Hd.
    assert (Hh : assigned_sat sa (chans media) m = Some Hill) by (apply Hhill; auto; left; reflexivity).
    destruct (adstock_hill_media _ _ p df (SOne Hill) None) as [y|e] eqn:Ey; simpl in Hd; [|discriminate].
    inversion Hd; subst diff; clear Hd. simpl.
    assert (transformed = lo) by (simpl in Hlo; congruence). subst transformed.
    pose proof (Hnohill (plan_with PtMROI media) y (scale3 mroi_factor (forward3 tr media))
        ltac:(intros u Hu; simpl; unfold mroi_factor;
              replace (101 / 100) with (1 + 1 / 100) by lra; unfold Rdiv; ring)
        Ac At ltac:(split; [apply Fme|split; [apply Fme|]]; intros g0 t0 c0 Ht0 Hc0; simpl;
          destruct Fme as [_ [_ Fn]]; specialize (Fn g0 t0 c0 Ht0 Hc0); simpl in Fn; unfold mroi_factor;
          apply Rmult_le_pos; lra)
        ltac:(auto) ltac:(auto) Ey Hh) as Hy.
    rewrite Hy, <- Vhi. rewrite Rabs_left1; lra.
  - assert (mt = mkPT (forward3 tr media) None (Some (fun _ => total_outcome md)))
      by (simpl in Hmt; inversion Hmt; auto). subst mt. simpl in Hd.
    inversion Hd; subst diff. assert (transformed = hi) by (simpl in Hhi; congruence). subst transformed.
    assert (val lo g t m = 0); [|lra]. rewrite Vlo. apply media_response_zero.
    intros; destruct cal; simpl; unfold Rdiv; ring.
Qed.

Lemma rf_difference_lemma : forall md pt cal reach freq tr agg mt p df sa transformed diff hi lo m,
  model_ok md -> execution_ok md reach -> execution_ok md freq -> chans freq = chans reach ->
  transform_ok (chans reach) p df sa -> derived_prior pt ->
  (partial_counterfactual pt cal -> assigned_sat sa (chans reach) m = Some Hill) ->
  media_transformer_init reach (md_population md) = Ok tr ->
  prior_counterfactual md pt cal (forward3 tr reach) agg = Ok mt ->
  adstock_hill_rf (md_cx md) (forward3 tr reach) freq p df sa None = Ok transformed ->
  counterfactual_difference_rf md (pt_counterfactual mt) freq transformed p df = Ok diff ->
  adstock_hill_rf (md_cx md) (forward3 tr (plan_with pt reach)) freq p df sa None = Ok hi ->
  adstock_hill_rf (md_cx md) (forward3 tr (plan_without pt cal reach)) freq p df sa None = Ok lo ->
  (m < chans reach)%nat ->
  forall g t, (t < ctx_n_times (md_cx md))%nat ->
    0 <= val hi g t m - val lo g t m /\ val hi g t m - val lo g t m = val diff g t m.
Proof.
  intros md pt cal reach freq tr agg mt p df sa transformed diff hi lo m
    Hmd Hme Hfr Hfc Htr Hpt Hhill Hi Hmt Ht Hd Hhi Hlo Hm g t Htt.
  destruct (plans_ok md pt cal reach Hme) as [Okhi Oklo].
  destruct (plan_with_shape pt reach) as [Ag [At Ac]].
  destruct (plan_without_shape pt cal reach) as [Bg [Bt Bc]].
  assert (Tp : forall x, chans x = chans reach -> transform_ok (chans (forward3 tr x)) p df sa)
    by (intros x Hx; simpl; rewrite Hx; auto).
  pose proof Hme as [Rg [Rt Rn]].
  destruct (rf_default_val md (forward3 tr (plan_with pt reach)) freq p df sa hi m Hmd ltac:(simpl; congruence) ltac:(simpl; congruence)
     Hfr ltac:(simpl; congruence) (Tp _ Ac) Hhi ltac:(simpl; lia))
    as [_ [_ [_ [d [s [D1 [D2 [S1 [S2 Vhi]]]]]]]]].
  destruct (rf_default_val md (forward3 tr (plan_without pt cal reach)) freq p df sa lo m Hmd ltac:(simpl; congruence) ltac:(simpl; congruence)
     Hfr ltac:(simpl; congruence) (Tp _ Bc) Hlo ltac:(simpl; lia))
    as [_ [_ [_ [d' [s' [D1' [D2' [S1' [S2' Vlo]]]]]]]]].
  simpl in D1, D1', S1, S1'. rewrite Ac in D1, S1. rewrite Bc in D1', S1'.
  assert (d' = d) by congruence. assert (s' = s) by congruence. subst d' s'.
  specialize (Vhi g t Htt). specialize (Vlo g t Htt).
  unfold window in Vhi, Vlo. simpl in Vhi, Vlo. rewrite At in Vhi. rewrite Bt in Vlo.
  destruct Htr as [P1 [P2 [P3 P4]]].
  destruct (P2 m ltac:(lia)) as [Pa [Pe Ps]].
  assert (HT : (ctx_n_times (md_cx md) <= times reach)%nat)
    by (destruct Hmd as [? [? [? ?]]]; lia).
  assert (Hord : 0 <= val lo g t m <= val hi g t m).
  { rewrite Vhi, Vlo.
    assert (Hsc : 0 < / scale_factors_gm tr g m).
    { apply Rinv_0_lt_compat. destruct Hmd as [? [? [? [? ?]]]]. eapply scale_pos_all; eauto; lia. }
    assert (Hsat : forall u, (u < times reach)%nat -> 0 <= saturate s (p_ec p m) (p_slope p m) (val freq g u m)).
    { intros u Hu. apply saturate_nonneg; auto. destruct Hfr as [F1 [F2 F3]]. apply F3; lia. }
    assert (Hw : forall l, (l < Nat.min (Z.to_nat (ctx_max_lag (md_cx md)) + 1) (times reach))%nat ->
       0 <= documented_weight d (p_alpha p m)
        (Nat.min (Z.to_nat (ctx_max_lag (md_cx md)) + 1) (times reach)) l)
      by (intros; apply documented_weight_nonneg; auto).
    split.
    - apply lagged_average_nonneg; auto. intros u Hu.
      destruct (plans_ordered md pt cal reach g u m Hme ltac:(lia) Hm) as [O1 O2].
      apply Rmult_le_pos; [unfold Rdiv; apply Rmult_le_pos; lra|apply Hsat; lia].
    - apply lagged_average_mono; auto. intros u Hu.
      destruct (plans_ordered md pt cal reach g u m Hme ltac:(lia) Hm) as [O1 O2].
      apply Rmult_le_compat_r; [apply Hsat; lia|]. unfold Rdiv. apply Rmult_le_compat_r; lra. }
  split; [lra|].
  assert (Hnohill : forall x y cf, (forall u, (u < times reach)%nat -> val cf g u m = val (forward3 tr x) g u m) ->
     geos cf = geos reach -> chans cf = chans reach -> times cf = times reach ->
     adstock_hill_rf (md_cx md) cf freq p df (SOne Hill) None = Ok y ->
     assigned_sat sa (chans reach) m = Some Hill ->
     val y g t m = lagged_average
        (Nat.min (Z.to_nat (ctx_max_lag (md_cx md)) + 1) (times reach))
        (documented_weight d (p_alpha p m)
             (Nat.min (Z.to_nat (ctx_max_lag (md_cx md)) + 1) (times reach)))
             (fun u => val x g u m / scale_factors_gm tr g m *
                       saturate s (p_ec p m) (p_slope p m) (val freq g u m))
             (times reach - ctx_n_times (md_cx md) + t)).
  { intros x y cf E C3 C4 C5 Hy Hh.
    assert (TpH : transform_ok (chans cf) p df (SOne Hill)).
    { rewrite C4. repeat split; auto; try apply P2; auto; discriminate. }
    destruct (rf_default_val md cf freq p df (SOne Hill) y m Hmd ltac:(congruence) ltac:(congruence) Hfr
       ltac:(congruence) TpH Hy ltac:(lia))
      as [_ [_ [_ [d2 [s2 [E1 [E2 [E3 [E4 Vy]]]]]]]]].
    rewrite C4 in E1. simpl in E3. assert (d2 = d) by congruence. assert (s = Hill) by congruence.
    inversion E3. subst d2 s s2. rewrite Vy by auto. unfold window. rewrite C5.
    apply lagged_average_ext. intros u Hu. rewrite E by lia. reflexivity. }
  destruct Hpt as [ -> | [ -> | -> ]].
  - destruct cal as [c|]; simpl in Hmt; inversion Hmt; subst mt; clear Hmt; simpl in Hd.
    + assert (Hh : assigned_sat sa (chans reach) m = Some Hill)
        by (apply Hhill; auto; right; split; [reflexivity|discriminate]).
      destruct (adstock_hill_rf _ _ freq p df (SOne Hill) None) as [y|e] eqn:Ey; simpl in Hd; [|discriminate].
      inversion Hd; subst diff; clear Hd. simpl.
      assert (transformed = hi) by (simpl in Hhi; congruence). subst transformed.
      pose proof (Hnohill (plan_without PtROI (Some c) reach) y
        (roi_calibration_counterfactual (forward3 tr reach) c)
        ltac:(intros u Hu; simpl; destruct (c u m); unfold Rdiv; ring)
        ltac:(auto) ltac:(auto) ltac:(auto) Ey Hh) as Hy.
      rewrite Hy, <- Vlo. rewrite Rabs_right; lra.
    + inversion Hd; subst diff. assert (transformed = hi) by (simpl in Hhi; congruence). subst transformed.
      assert (val lo g t m = 0); [|lra]. rewrite Vlo. apply lagged_average_0.
      intros; simpl. unfold Rdiv; ring.
  - simpl in Hmt; inversion Hmt; subst mt; clear Hmt; simpl in Hd.
    assert (Hh : assigned_sat sa (chans reach) m = Some Hill) by (apply Hhill; auto; left; reflexivity).
    destruct (adstock_hill_rf _ _ freq p df (SOne Hill) None) as [y|e] eqn:Ey; simpl in Hd; [|discriminate].
    inversion Hd; subst diff; clear Hd. simpl.
    assert (transformed = lo) by (simpl in Hlo; congruence). subst transformed.
    pose proof (Hnohill (plan_with PtMROI reach) y (scale3 mroi_factor (forward3 tr reach))
        ltac:(intros u Hu; simpl; unfold mroi_factor;
              replace (101 / 100) with (1 + 1 / 100) by lra; unfold Rdiv; ring)
        ltac:(auto) ltac:(auto) ltac:(auto) Ey Hh) as Hy.
    rewrite Hy, <- Vhi. rewrite Rabs_left1; lra.
  - assert (mt = mkPT (forward3 tr reach) None (Some (fun _ => total_outcome md)))
      by (simpl in Hmt; inversion Hmt; auto). subst mt. simpl in Hd.
    inversion Hd; subst diff. assert (transformed = hi) by (simpl in Hhi; congruence). subst transformed.
    assert (val lo g t m = 0); [|lra]. rewrite Vlo. apply lagged_average_0.
    intros; destruct cal; simpl; unfold Rdiv; ring.
Qed.

(** Coefficients exist when the prior asks for a positive outcome and the channel has an effect. *)
Lemma beta_exists : forall md inc diff dev eta x,
  media_effects_dist md = EffNormal \/ 0 < inc x ->
  (forall g, 0 < md_population md g) -> 0 < k_stdev (md_kpi_transformer md) ->
  (forall g t, (g < md_geos md)%nat -> (t < ctx_n_times (md_cx md))%nat -> 0 <= md_revenue md g t) ->
  (forall g t, (g < md_geos md)%nat -> (t < ctx_n_times (md_cx md))%nat -> 0 <= val diff g t x) ->
  (exists g t, (g < md_geos md)%nat /\ (t < ctx_n_times (md_cx md))%nat /\
     0 < md_revenue md g t /\ 0 < val diff g t x) ->
  exists b, calculate_beta_x md false inc diff eta dev x = Some b.
Proof.
  intros md inc diff dev eta x Hinc Hp Hs Hr Hd [g0 [t0 [Hg0 [Ht0 [Hr0 Hd0]]]]].
  assert (Hterm : forall g t, (g < md_geos md)%nat -> (t < ctx_n_times (md_cx md))%nat ->
    0 <= val diff g t x * md_revenue md g t * md_population md g * k_stdev (md_kpi_transformer md)).
  { intros g t Hg Ht. pose proof (Hp g). repeat apply Rmult_le_pos; auto; lra. }
  assert (Hk : forall g, (g < md_geos md)%nat -> 0 <= outcome_over_beta md diff g x).
  { intros g Hg. apply rsum_nonneg. intros; auto. }
  assert (Hk0 : 0 < outcome_over_beta md diff g0 x).
  { apply (rsum_pos _ _ t0); auto. pose proof (Hp g0). repeat apply Rmult_lt_0_compat; auto. }
  unfold calculate_beta_x. destruct (media_effects_dist md) eqn:E.
  - assert (0 < rsum (md_geos md) (fun g => outcome_over_beta md diff g x))
      by (apply (rsum_pos _ _ g0); auto).
    unfold fdiv. destruct (Req_EM_T _ 0); [lra|eauto].
  - destruct Hinc as [Hinc|Hinc]; [discriminate|].
    assert (0 < rsum (md_geos md) (fun g => outcome_over_beta md diff g x * exp (dev g x * eta x))).
    { apply (rsum_pos _ _ g0); auto.
      - intros. apply Rmult_le_pos; auto. left; apply exp_pos.
      - apply Rmult_lt_0_compat; auto. apply exp_pos. }
    unfold flog. destruct (Rlt_dec 0 (inc x)); [|contradiction].
    destruct (Rlt_dec 0 _); [eauto|contradiction].
Qed.

Lemma media_runs : forall md media tr x p df sa,
  model_ok md -> execution_ok md media -> media_transformer_init media (md_population md) = Ok tr ->
  execution_ok md x -> chans x = chans media -> transform_ok (chans media) p df sa ->
  exists out, adstock_hill_media (md_cx md) (forward3 tr x) p df sa None = Ok out.
Proof.
  intros md media tr x p df sa Hmd Hme Hi Hx Hc [P1 [P2 [P3 P4]]].
  pose proof (forward_ok md media x tr Hmd Hme Hi Hc Hx) as [Fg [Ft Fn]].
  destruct Hmd as [HG [HT [HTm [HL Hp]]]]. destruct Hx as [Xg [Xt Xn]].
  destruct (adstock_hill_media_lemma (md_cx md) (forward3 tr x) p df sa (Z.of_nat (ctx_n_times (md_cx md))))
    as [out [Ho _]]; try exact Fn; try (simpl; rewrite ?Hc; auto; fail); try (simpl; lia).
  exists out. rewrite <- Ho. unfold adstock_hill_media, resolve_n_times_output. simpl.
  rewrite Xt, Nat.eqb_refl. reflexivity.
Qed.

Lemma rf_runs : forall md reach freq tr x p df sa,
  model_ok md -> execution_ok md reach -> execution_ok md freq -> chans freq = chans reach ->
  media_transformer_init reach (md_population md) = Ok tr ->
  geos x = geos reach -> times x = times reach -> chans x = chans reach -> transform_ok (chans reach) p df sa ->
  exists out, adstock_hill_rf (md_cx md) (forward3 tr x) freq p df sa None = Ok out.
Proof.
  intros md reach freq tr x p df sa Hmd Hme Hfr Hfc Hi Xg Xt Xc [P1 [P2 [P3 P4]]].
  destruct Hmd as [HG [HT [HTm [HL Hp]]]]. destruct Hme as [Rg [Rt Rn]]. destruct Hfr as [Fg [Ft Fn]].
  destruct (adstock_hill_rf_lemma (md_cx md) (forward3 tr x) freq p df sa (Z.of_nat (ctx_n_times (md_cx md))))
    as [out [Ho _]]; try (simpl; rewrite ?Xc; auto; fail); try (simpl; lia);
    [simpl; intros g t c Ht Hc; apply Fn; lia|].
  exists out. rewrite <- Ho. unfold adstock_hill_rf, resolve_n_times_output. simpl.
  rewrite Xt, Rt, Nat.eqb_refl. reflexivity.
Qed.

Lemma paid_media_lemma : forall md pt cal media spend tr p df sa theta eta dev betas beta base m hi lo,
  model_ok md -> execution_ok md media -> transform_ok (chans media) p df sa ->
  derived_prior pt ->
  (partial_counterfactual pt cal -> assigned_sat sa (chans media) m = Some Hill) ->
  media_transformer_init media (md_population md) = Ok tr ->
  paid_media_beta md pt cal media spend p df sa theta eta dev = Ok betas ->
  (m < chans media)%nat -> betas m = Some (beta m) ->
  adstock_hill_media (md_cx md) (forward3 tr (plan_with pt media)) p df sa None = Ok hi ->
  adstock_hill_media (md_cx md) (forward3 tr (plan_without pt cal media)) p df sa None = Ok lo ->
  expected_outcome md (fun g t => base g t + beta_gx md beta eta dev g m * val hi g t m) -
  expected_outcome md (fun g t => base g t + beta_gx md beta eta dev g m * val lo g t m) =
  theta m * prior_unit md pt cal (allocated_spend (ctx_n_times (md_cx md)) spend media) m.
Proof.
  intros md pt cal media spend tr p df sa theta eta dev betas beta base m hi lo
    Hmd Hme Htr Hpt Hhill Hi Hb Hm Hbm Hhi Hlo.
  unfold paid_media_beta, build_media_tensors in Hb. rewrite Hi in Hb. simpl in Hb.
  destruct (prior_counterfactual _ _ _ _ _) as [mt|e] eqn:Hmt; simpl in Hb; [|discriminate].
  destruct (denominator_spec md pt cal _ _ mt (allocated_spend (ctx_n_times (md_cx md)) spend media) m Hpt Hmt)
    as [den [Hden [Hsc Hu]]].
  { intros; apply aggregate_spend_spec. }
  rewrite Hden, Hsc in Hb.
  destruct (adstock_hill_media _ (forward3 tr media) p df sa None) as [tf|] eqn:Htf; simpl in Hb; [|discriminate].
  destruct (counterfactual_difference_media _ _ _ _ _) as [diff|] eqn:Hd; simpl in Hb; [|discriminate].
  inversion Hb as [Hbb]. rewrite <- Hbb in Hbm.
  rewrite (expected_outcome_diff md base (fun g t => val hi g t m) (fun g t => val lo g t m)
             (fun g => beta_gx md beta eta dev g m) diff m).
  - rewrite (calculate_beta_solves md _ diff eta dev m (beta m) beta Hbm eq_refl).
    rewrite Hu. reflexivity.
  - intros g t Hg Ht. 
    exact (proj2 (media_difference_lemma md pt cal media tr _ mt p df sa tf diff hi lo m
      Hmd Hme Htr Hpt Hhill Hi Hmt Htf Hd Hhi Hlo Hm g t Ht)).
Qed.

Lemma paid_media_exists_lemma : forall md pt cal media spend tr p df sa theta eta dev m hi lo,
  model_ok md -> execution_ok md media -> transform_ok (chans media) p df sa ->
  derived_prior pt ->
  (partial_counterfactual pt cal -> assigned_sat sa (chans media) m = Some Hill) ->
  media_transformer_init media (md_population md) = Ok tr ->
  (m < chans media)%nat ->
  adstock_hill_media (md_cx md) (forward3 tr (plan_with pt media)) p df sa None = Ok hi ->
  adstock_hill_media (md_cx md) (forward3 tr (plan_without pt cal media)) p df sa None = Ok lo ->
  0 < k_stdev (md_kpi_transformer md) ->
  (forall g t, (g < md_geos md)%nat -> (t < ctx_n_times (md_cx md))%nat -> 0 <= md_revenue md g t) ->
  (exists g t, (g < md_geos md)%nat /\ (t < ctx_n_times (md_cx md))%nat /\
     0 < md_revenue md g t /\ val lo g t m < val hi g t m) ->
  media_effects_dist md = EffNormal \/
  0 < theta m * prior_unit md pt cal (allocated_spend (ctx_n_times (md_cx md)) spend media) m ->
  exists betas b, paid_media_beta md pt cal media spend p df sa theta eta dev = Ok betas /\ betas m = Some b.
Proof.
  intros md pt cal media spend tr p df sa theta eta dev m hi lo
    Hmd Hme Htr Hpt Hhill Hi Hm Hhi Hlo Hs Hr [g0 [t0 [Hg0 [Ht0 [Hr0 Hlt]]]]] Hpos.
  unfold paid_media_beta, build_media_tensors. rewrite Hi. simpl.
  set (agg := aggregate_spend _ _ _).
  assert (Hex : exists mt, prior_counterfactual md pt cal (forward3 tr media) agg = Ok mt)
    by (destruct Hpt as [ -> | [ -> | -> ]]; simpl; eauto).
  destruct Hex as [mt Hmt]. rewrite Hmt. simpl.
  destruct (denominator_spec md pt cal _ _ mt (allocated_spend (ctx_n_times (md_cx md)) spend media) m Hpt Hmt)
    as [den [Hden [Hsc Hu]]].
  { intros; apply aggregate_spend_spec. }
  rewrite Hden, Hsc.
  destruct (media_runs md media tr media p df sa Hmd Hme Hi Hme eq_refl Htr) as [tf Htf].
  rewrite Htf. simpl.
  assert (Hdx : exists diff, counterfactual_difference_media md (pt_counterfactual mt) tf p df = Ok diff).
  { destruct (pt_counterfactual mt) as [cf|] eqn:Ecf; simpl; [|eauto].
    assert (Hcf : exists y, adstock_hill_media (md_cx md) cf p df (SOne Hill) None = Ok y).
    { assert (HtrH : transform_ok (chans media) p df (SOne Hill)).
      { destruct Htr as [Q1 [Q2 [Q3 Q4]]]. repeat split; auto; try apply Q2; auto; discriminate. }
      destruct (plans_ok md pt cal media Hme) as [Okhi Oklo].
      assert (Hrun : forall cf', geos cf' = geos media -> times cf' = times media -> chans cf' = chans media ->
          (forall g t c, (t < times media)%nat -> (c < chans media)%nat -> 0 <= val cf' g t c) ->
          exists y, adstock_hill_media (md_cx md) cf' p df (SOne Hill) None = Ok y).
      { intros cf' Cg Ct Cc Cn. destruct HtrH as [Q1 [Q2 [Q3 Q4]]].
        destruct Hmd as [HG [HT [HTm [HL Hp]]]]. destruct Hme as [Mg [Mt Mn]].
        destruct (adstock_hill_media_lemma (md_cx md) cf' p df (SOne Hill) (Z.of_nat (ctx_n_times (md_cx md))))
          as [out [Ho _]]; try (rewrite ?Cc, ?Ct; auto; fail); try lia.
        exists out. rewrite <- Ho. unfold adstock_hill_media, resolve_n_times_output.
        rewrite Ct, Mt, Nat.eqb_refl. reflexivity. }
      pose proof (forward_ok md media media tr Hmd Hme Hi eq_refl Hme) as [_ [_ Fn]].
      destruct Hpt as [ -> | [ -> | -> ]]; simpl in Hmt.
      - destruct cal as [c|]; inversion Hmt; subst mt; simpl in Ecf; inversion Ecf; subst cf.
        apply Hrun; auto. intros g t c0 Ht Hc. specialize (Fn g t c0 Ht Hc). simpl in *. destruct (c t c0); lra.
      - inversion Hmt; subst mt; simpl in Ecf; inversion Ecf; subst cf.
        apply Hrun; auto. intros g t c0 Ht Hc. specialize (Fn g t c0 Ht Hc). simpl in *.
        unfold mroi_factor. apply Rmult_le_pos; lra.
      - inversion Hmt; subst mt. discriminate. }
    destruct Hcf as [y ->]. simpl. eauto. }
  destruct Hdx as [diff Hd]. rewrite Hd. simpl.
  pose proof (media_difference_lemma md pt cal media tr agg mt p df sa tf diff hi lo m
    Hmd Hme Htr Hpt Hhill Hi Hmt Htf Hd Hhi Hlo Hm) as HD.
  destruct (beta_exists md (fun m => theta m * den m) diff dev eta m) as [b Hb]; auto.
  - rewrite Hu. exact Hpos.
  - apply Hmd.
  - intros g t Hg Ht. destruct (HD g t Ht) as [? <-]. auto.
  - exists g0, t0. repeat split; auto. destruct (HD g0 t0 Ht0) as [? <-]. lra.
  - eexists; exists b. split; [reflexivity|]. exact Hb.
Qed.

Lemma paid_rf_lemma : forall md pt cal reach freq spend tr p df sa theta eta dev betas beta base m hi lo,
  model_ok md -> execution_ok md reach -> execution_ok md freq -> chans freq = chans reach ->
  transform_ok (chans reach) p df sa -> derived_prior pt ->
  (partial_counterfactual pt cal -> assigned_sat sa (chans reach) m = Some Hill) ->
  media_transformer_init reach (md_population md) = Ok tr ->
  paid_rf_beta md pt cal reach freq spend p df sa theta eta dev = Ok betas ->
  (m < chans reach)%nat -> betas m = Some (beta m) ->
  adstock_hill_rf (md_cx md) (forward3 tr (plan_with pt reach)) freq p df sa None = Ok hi ->
  adstock_hill_rf (md_cx md) (forward3 tr (plan_without pt cal reach)) freq p df sa None = Ok lo ->
  expected_outcome md (fun g t => base g t + beta_gx md beta eta dev g m * val hi g t m) -
  expected_outcome md (fun g t => base g t + beta_gx md beta eta dev g m * val lo g t m) =
  theta m * prior_unit md pt cal (allocated_spend (ctx_n_times (md_cx md)) spend (mul3 reach freq)) m.
Proof.
  intros md pt cal reach freq spend tr p df sa theta eta dev betas beta base m hi lo
    Hmd Hme Hfr Hfc Htr Hpt Hhill Hi Hb Hm Hbm Hhi Hlo.
  unfold paid_rf_beta, build_rf_tensors in Hb. rewrite Hi in Hb. simpl in Hb.
  destruct (prior_counterfactual _ _ _ _ _) as [mt|e] eqn:Hmt; simpl in Hb; [|discriminate].
  destruct (denominator_spec md pt cal _ _ mt (allocated_spend (ctx_n_times (md_cx md)) spend (mul3 reach freq)) m Hpt Hmt)
    as [den [Hden [Hsc Hu]]].
  { intros; apply aggregate_spend_spec. }
  rewrite Hden, Hsc in Hb.
  destruct (adstock_hill_rf _ (forward3 tr reach) freq p df sa None) as [tf|] eqn:Htf; simpl in Hb; [|discriminate].
  destruct (counterfactual_difference_rf _ _ _ _ _) as [diff|] eqn:Hd; simpl in Hb; [|discriminate].
  inversion Hb as [Hbb]. rewrite <- Hbb in Hbm.
  rewrite (expected_outcome_diff md base (fun g t => val hi g t m) (fun g t => val lo g t m)
             (fun g => beta_gx md beta eta dev g m) diff m).
  - rewrite (calculate_beta_solves md _ diff eta dev m (beta m) beta Hbm eq_refl).
    rewrite Hu. reflexivity.
  - intros g t Hg Ht. 
    exact (proj2 (rf_difference_lemma md pt cal reach freq tr _ mt p df sa tf diff hi lo m
      Hmd Hme Hfr Hfc Htr Hpt Hhill Hi Hmt Htf Hd Hhi Hlo Hm g t Ht)).
Qed.

Lemma organic_media_lemma : forall md media tr p df sa theta eta dev betas beta base m hi,
  model_ok md -> execution_ok md media -> transform_ok (chans media) p df sa ->
  media_transformer_init media (md_population md) = Ok tr ->
  organic_media_beta md PtContribution media p df sa theta eta dev = Ok betas ->
  (m < chans media)%nat -> betas m = Some (beta m) ->
  adstock_hill_media (md_cx md) (forward3 tr media) p df sa None = Ok hi ->
  expected_outcome md (fun g t => base g t + beta_gx md beta eta dev g m * val hi g t m) -
  expected_outcome md base =
  theta m * rsum (md_geos md) (fun g => rsum (ctx_n_times (md_cx md)) (fun t =>
              md_kpi md g t * md_revenue md g t)).
Proof.
  intros md media tr p df sa theta eta dev betas beta base m hi Hmd Hme Htr Hi Hb Hm Hbm Hhi.
  unfold organic_media_beta in Hb. rewrite Hi in Hb. simpl in Hb. rewrite Hhi in Hb. simpl in Hb.
  inversion Hb as [Hbb]. rewrite <- Hbb in Hbm.
  replace (expected_outcome md base) with
    (expected_outcome md (fun g t => base g t + beta_gx md beta eta dev g m * 0)).
  2:{ unfold expected_outcome. apply rsum_ext; intros; apply rsum_ext; intros.
      rewrite Rmult_0_r, Rplus_0_r. reflexivity. }
  rewrite (expected_outcome_diff md base (fun g t => val hi g t m) (fun g t => 0)
             (fun g => beta_gx md beta eta dev g m) hi m) by (intros; ring).
  rewrite (calculate_beta_solves md _ hi eta dev m (beta m) beta Hbm eq_refl).
  rewrite total_outcome_spec. reflexivity.
Qed.

Lemma organic_rf_lemma : forall md reach freq tr p df sa theta eta dev betas beta base m hi,
  media_transformer_init reach (md_population md) = Ok tr ->
  organic_rf_beta md PtContribution reach freq p df sa theta eta dev = Ok betas ->
  betas m = Some (beta m) ->
  adstock_hill_rf (md_cx md) (forward3 tr reach) freq p df sa None = Ok hi ->
  expected_outcome md (fun g t => base g t + beta_gx md beta eta dev g m * val hi g t m) -
  expected_outcome md base =
  theta m * rsum (md_geos md) (fun g => rsum (ctx_n_times (md_cx md)) (fun t =>
              md_kpi md g t * md_revenue md g t)).
Proof.
  intros md reach freq tr p df sa theta eta dev betas beta base m hi Hi Hb Hbm Hhi.
  unfold organic_rf_beta in Hb. rewrite Hi in Hb. simpl in Hb. rewrite Hhi in Hb. simpl in Hb.
  inversion Hb as [Hbb]. rewrite <- Hbb in Hbm.
  replace (expected_outcome md base) with
    (expected_outcome md (fun g t => base g t + beta_gx md beta eta dev g m * 0)).
  2:{ unfold expected_outcome. apply rsum_ext; intros; apply rsum_ext; intros.
      rewrite Rmult_0_r, Rplus_0_r. reflexivity. }
  rewrite (expected_outcome_diff md base (fun g t => val hi g t m) (fun g t => 0)
             (fun g => beta_gx md beta eta dev g m) hi m) by (intros; ring).
  rewrite (calculate_beta_solves md _ hi eta dev m (beta m) beta Hbm eq_refl).
  rewrite total_outcome_spec. reflexivity.
Qed.

(** Non-media treatments. *)
Lemma fold_min_spec : forall l x, (In (fold_left Rmin l x) (x :: l)) /\
  (forall y, In y (x :: l) -> fold_left Rmin l x <= y).
Proof.
  induction l as [|a l IH]; intros x; simpl.
  - split; auto. intros y [->|[]]. lra.
  - destruct (IH (Rmin x a)) as [I1 I2]. split.
    + destruct I1 as [E|I1]; [|auto]. rewrite <- E. unfold Rmin. destruct (Rle_dec x a); auto.
    + intros y [->|[->|Hy]].
      * apply Rle_trans with (Rmin y a); [apply I2; left; auto|apply Rmin_l].
      * apply Rle_trans with (Rmin x y); [apply I2; left; auto|apply Rmin_r].
      * apply I2. right; auto.
Qed.
Lemma fold_max_spec : forall l x, (In (fold_left Rmax l x) (x :: l)) /\
  (forall y, In y (x :: l) -> y <= fold_left Rmax l x).
Proof.
  induction l as [|a l IH]; intros x; simpl.
  - split; auto. intros y [->|[]]. lra.
  - destruct (IH (Rmax x a)) as [I1 I2]. split.
    + destruct I1 as [E|I1]; [|auto]. rewrite <- E. unfold Rmax. destruct (Rle_dec x a); auto.
    + intros y [->|[->|Hy]].
      * apply Rle_trans with (Rmax y a); [apply Rmax_l|apply I2; left; auto].
      * apply Rle_trans with (Rmax x y); [apply Rmax_r|apply I2; left; auto].
      * apply I2. right; auto.
Qed.

Lemma channel_min_spec : forall y n, (0 < geos y)%nat -> (0 < times y)%nat ->
  is_channel_min y n (list_min (channel_values y n)).
Proof.
  intros y n HG HT.
  assert (Hin : forall v, In v (channel_values y n) <->
    exists g t, (g < geos y)%nat /\ (t < times y)%nat /\ val y g t n = v).
  { intros v. split.
    - intros H. apply in_channel_values in H. destruct H as [g [t [A [B C]]]]. exists g, t. auto.
    - intros [g [t [A [B C]]]]. apply in_channel_values. exists g, t. auto. }
  assert (Hne : In (val y 0%nat 0%nat n) (channel_values y n)) by (apply Hin; exists 0%nat, 0%nat; auto).
  unfold list_min. destruct (channel_values y n) as [|x l] eqn:E; [destruct Hne|].
  destruct (fold_min_spec l x) as [I1 I2]. split.
  - apply Hin. exact I1.
  - intros g t Hg Ht. apply I2. apply Hin. exists g, t. auto.
Qed.
Lemma channel_max_spec : forall y n, (0 < geos y)%nat -> (0 < times y)%nat ->
  is_channel_max y n (list_max (channel_values y n)).
Proof.
  intros y n HG HT.
  assert (Hin : forall v, In v (channel_values y n) <->
    exists g t, (g < geos y)%nat /\ (t < times y)%nat /\ val y g t n = v).
  { intros v. split.
    - intros H. apply in_channel_values in H. destruct H as [g [t [A [B C]]]]. exists g, t. auto.
    - intros [g [t [A [B C]]]]. apply in_channel_values. exists g, t. auto. }
  assert (Hne : In (val y 0%nat 0%nat n) (channel_values y n)) by (apply Hin; exists 0%nat, 0%nat; auto).
  unfold list_max. destruct (channel_values y n) as [|x l] eqn:E; [destruct Hne|].
  destruct (fold_max_spec l x) as [I1 I2]. split.
  - apply Hin. exact I1.
  - intros g t Hg Ht. apply I2. apply Hin. exists g, t. auto.
Qed.

Lemma population_scaled_spec : forall md x id g t n,
  (forall g, 0 < md_population md g) ->
  val (non_media_population_scaled md x id) g t n = val (per_capita x (md_population md) id) g t n.
Proof.
  intros md x id g t n Hp. simpl. unfold per_capita_if_flagged.
  destruct id as [b|]; [destruct (b n)|]; rewrite divide_no_nan_nz by (specialize (Hp g); lra); lra.
Qed.

Lemma is_channel_min_ext : forall x y n b, geos x = geos y -> times x = times y ->
  (forall g t, val x g t n = val y g t n) -> is_channel_min x n b -> is_channel_min y n b.
Proof.
  intros x y n b Hg Ht Hv [[g [t [A [B C]]]] D]. split.
  - exists g, t. rewrite <- Hg, <- Ht, <- Hv. auto.
  - intros g' t' Hg' Ht'. rewrite <- Hv. apply D; congruence.
Qed.
Lemma is_channel_max_ext : forall x y n b, geos x = geos y -> times x = times y ->
  (forall g t, val x g t n = val y g t n) -> is_channel_max x n b -> is_channel_max y n b.
Proof.
  intros x y n b Hg Ht Hv [[g [t [A [B C]]]] D]. split.
  - exists g, t. rewrite <- Hg, <- Ht, <- Hv. auto.
  - intros g' t' Hg' Ht'. rewrite <- Hv. apply D; congruence.
Qed.

Lemma non_media_baseline_lemma : forall md x id values b n,
  (forall g, 0 < md_population md g) -> (0 < geos x)%nat -> (0 < times x)%nat ->
  non_media_baseline md x id values = Ok b -> (n < chans x)%nat ->
  match (match values with None => Some BMin | Some l => nth_error l n end) with
  | Some BMin => is_channel_min (per_capita x (md_population md) id) n (b n)
  | Some BMax => is_channel_max (per_capita x (md_population md) id) n (b n)
  | Some (BNum v) => b n = v
  | _ => False
  end.
Proof.
  intros md x id values b n Hp HG HT H Hn. unfold non_media_baseline in H.
  set (y := non_media_population_scaled md x id) in *.
  set (filled := match values with Some l => l | None => repeat BMin (chans x) end) in *.
  destruct (Nat.eqb (chans x) (length filled)) eqn:El; simpl in H; [|discriminate].
  apply Nat.eqb_eq in El.
  destruct (forallb _ _) eqn:Ef; [|discriminate]. inversion H as [Hb]; clear H.
  rewrite forallb_forall in Ef. specialize (Ef n ltac:(apply in_seq; lia)).
  assert (En : (match values with None => Some BMin | Some l => nth_error l n end) = Some (nth n filled BOther)).
  { unfold filled. destruct values as [l|].
    - apply nth_error_nth'. unfold filled in El. lia.
    - rewrite (nth_indep _ _ BMin) by (rewrite repeat_length; auto). rewrite nth_repeat. reflexivity. }
  rewrite En. destruct (nth n filled BOther) eqn:E; simpl in *.
  - apply is_channel_min_ext with y; auto. { intros; apply population_scaled_spec; auto. }
    apply channel_min_spec; auto.
  - apply is_channel_max_ext with y; auto. { intros; apply population_scaled_spec; auto. }
    apply channel_max_spec; auto.
  - reflexivity.
  - discriminate.
Qed.

Lemma non_media_baseline_err_lemma : forall md x id l,
  (exists b, non_media_baseline md x id (Some l) = Ok b) <->
  (length l = chans x /\ ~ In BOther l).
Proof.
  intros md x id l. unfold non_media_baseline. simpl.
  destruct (Nat.eqb (chans x) (length l)) eqn:El; simpl.
  - apply Nat.eqb_eq in El. destruct (forallb _ _) eqn:Ef.
    + split; [|eauto]. intros _. split; auto. intros Hin.
      apply (In_nth _ _ BOther) in Hin. destruct Hin as [n [Hn E]].
      rewrite forallb_forall in Ef. specialize (Ef n ltac:(apply in_seq; lia)). rewrite E in Ef. discriminate.
    + split; [intros [b Hb]; discriminate|]. intros [_ Hno]. exfalso.
      assert (Ht : forallb (fun n => match channel_baseline (non_media_population_scaled md x id) (nth n l BOther) n with
               | Some _ => true | None => false end) (seq 0 (chans x)) = true); [|congruence].
      apply forallb_forall. intros n Hn. apply in_seq in Hn.
      assert (Hl : (n < length l)%nat) by lia. pose proof (nth_In l BOther Hl) as Hin.
      destruct (nth n l BOther); auto; contradiction.
  - apply Nat.eqb_neq in El. split; [intros [b Hb]; discriminate|]. intros [E _]. congruence.
Qed.

(** The baseline subtracted by the samplers is the reported one for unscaled channels. *)
Lemma sampler_baseline_lemma : forall x population id b g t n,
  unflagged id n ->
  val (non_media_difference x population id b) g t n =
  centering_forward (centering_init x population id) true g n (val x g t n) -
  reported_baseline x population id b g n.
Proof.
  intros x population id b g t n H. simpl. unfold reported_baseline, centering_forward.
  destruct id as [f|]; simpl; [|reflexivity]. simpl in H.
  unfold scaling_factors. rewrite H. rewrite !Rdiv_1. reflexivity.
Qed.

Lemma sampler_baseline_iff_lemma : forall x population flags b g t n,
  flags n = true -> 0 < population g ->
  c_stdevs (centering_init x population (Some flags)) n <> 0 ->
  (val (non_media_difference x population (Some flags) b) g t n =
   centering_forward (centering_init x population (Some flags)) true g n (val x g t n) -
   reported_baseline x population (Some flags) b g n)
  <-> (population g = 1 \/ b n = 0).
Proof.
  intros x population flags b g t n Hf Hp Hs.
  change (val (non_media_difference x population (Some flags) b) g t n) with
    (centering_forward (centering_init x population (Some flags)) true g n (val x g t n) -
     centering_forward (centering_init x population (Some flags)) true g n (b n)).
  unfold reported_baseline.
  set (A := centering_forward _ true g n (val x g t n)).
  assert (E1 : centering_forward (centering_init x population (Some flags)) true g n (b n) =
     (b n / population g - c_means (centering_init x population (Some flags)) n) /
     c_stdevs (centering_init x population (Some flags)) n).
  { unfold centering_forward. rewrite divide_no_nan_nz by auto.
    unfold centering_init at 1, scaling_factors. cbn [c_factors]. rewrite Hf. reflexivity. }
  assert (E2 : centering_forward (centering_init x population (Some flags)) false g n (b n) =
     (b n - c_means (centering_init x population (Some flags)) n) /
     c_stdevs (centering_init x population (Some flags)) n).
  { unfold centering_forward. rewrite divide_no_nan_nz by auto. reflexivity. }
  rewrite E1, E2. set (s := c_stdevs _ n) in *. set (mu := c_means _ n) in *.
  split.
  - intros H.
    assert (H' : b n / population g = b n).
    { assert ((b n / population g - mu) / s = (b n - mu) / s) by lra.
      apply (f_equal (fun z => z * s + mu)) in H0.
      replace ((b n / population g - mu) / s * s + mu) with (b n / population g) in H0 by (field; lra).
      replace ((b n - mu) / s * s + mu) with (b n) in H0 by (field; lra). exact H0. }
    destruct (Req_EM_T (b n) 0) as [|Hb]; [auto|left].
    apply (Rmult_eq_reg_l (b n)); auto. rewrite Rmult_1_r. rewrite <- H' at 1. field. lra.
  - intros [H|H]; rewrite H; [rewrite Rdiv_1; reflexivity|].
    replace (0 / population g) with 0 by (field; lra). reflexivity.
Qed.

Lemma reported_baselines_agree_lemma : forall x population id b g n,
  0 < population g ->
  reported_baseline_expected x population id b g n = reported_baseline x population id b g n.
Proof.
  intros x population id b g n Hp. unfold reported_baseline_expected, reported_baseline, centering_forward.
  destruct id as [f|]; simpl; [|rewrite Rmult_1_r; reflexivity].
  unfold scaling_factors. destruct (f n).
  - replace (b n * population g / population g) with (b n) by (field; lra). reflexivity.
  - rewrite Rmult_1_r, Rdiv_1. reflexivity.
Qed.

Lemma non_media_lemma : forall md x id values b theta xi dev gammas gamma base n,
  non_media_baseline md x id values = Ok b -> unflagged id n ->
  non_media_gamma md PtContribution x id values theta xi dev = Ok gammas ->
  gammas n = Some (gamma n) ->
  expected_outcome md (fun g t => base g t + gamma_gn gamma xi dev g n *
     centering_forward (centering_init x (md_population md) id) true g n (val x g t n)) -
  expected_outcome md (fun g t => base g t + gamma_gn gamma xi dev g n *
     reported_baseline x (md_population md) id b g n) =
  theta n * rsum (md_geos md) (fun g => rsum (ctx_n_times (md_cx md)) (fun t =>
              md_kpi md g t * md_revenue md g t)).
Proof.
  intros md x id values b theta xi dev gammas gamma base n Hb Hun Hg Hgn.
  unfold non_media_gamma in Hg. rewrite Hb in Hg. simpl in Hg.
  inversion Hg as [Hgg]. rewrite <- Hgg in Hgn.
  set (diff := non_media_difference x (md_population md) id b) in *.
  rewrite (expected_outcome_diff md base
    (fun g t => centering_forward (centering_init x (md_population md) id) true g n (val x g t n))
    (fun g t => reported_baseline x (md_population md) id b g n)
    (fun g => gamma_gn gamma xi dev g n) diff n).
  - rewrite (calculate_gamma_solves md _ diff xi dev n (gamma n) gamma Hgn eq_refl).
    rewrite total_outcome_spec. reflexivity.
  - intros g t _ _. unfold diff. rewrite sampler_baseline_lemma by auto. reflexivity.
Qed.

(** Allocated spend. *)
Lemma allocated_spend_sum_lemma : forall n_times s units m,
  rsum (geos units) (fun g => rsum n_times (fun t => val units g (times units - n_times + t)%nat m)) <> 0 ->
  spend_in 0 None (allocated_spend n_times (SpendPerChannel s) units) m = s m.
Proof.
  intros n_times s units m H. unfold spend_in, allocated_spend, allocate_spend. simpl.
  set (tot := rsum (geos units) _) in *.
  rewrite (rsum_ext _ _ (fun g => s m * / tot * rsum n_times (fun t => val units g (times units - n_times + t)%nat m))).
  - rewrite rsum_scal. fold tot. field. auto.
  - intros g _. rewrite <- rsum_scal. apply rsum_ext. intros t _. unfold Rdiv. ring.
Qed.
