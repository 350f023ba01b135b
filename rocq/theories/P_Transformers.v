From Coq Require Import Reals ZArith Lra Lia List Bool Arith Sorted Permutation.
From Verif Require Import Lib_Sum M_Base M_Transformers S_Transformers.
Import ListNotations.
Local Open Scope R_scope.

(** *** Sorting and medians *)
Lemma insert_sorted_perm : forall x l, Permutation (x :: l) (insert_sorted x l).
Proof.
  induction l as [|y r IH]; simpl; [reflexivity|].
  destruct (Rle_dec x y); [reflexivity|].
  transitivity (y :: x :: r); [constructor|]. constructor. exact IH.
Qed.

Lemma sort_values_perm : forall l, Permutation l (sort_values l).
Proof.
  induction l as [|x l IH]; simpl; [constructor|].
  transitivity (x :: sort_values l); [constructor; auto|apply insert_sorted_perm].
Qed.

Lemma insert_sorted_sorted : forall x l,
  StronglySorted Rle l -> StronglySorted Rle (insert_sorted x l).
Proof.
  induction l as [|y r IH]; simpl; intros H; [repeat constructor|].
  inversion H as [|? ? Hr Hall]; subst.
  destruct (Rle_dec x y) as [Hxy|Hxy].
  - constructor; [auto|]. constructor; auto.
    eapply Forall_impl; [|exact Hall]. intros; simpl in *; lra.
  - constructor; [auto|].
    apply Forall_forall. intros z Hz.
    apply (Permutation_in _ (Permutation_sym (insert_sorted_perm x r))) in Hz.
    destruct Hz as [->|Hz]; [lra|]. rewrite Forall_forall in Hall; auto.
Qed.

Lemma sort_values_sorted : forall l, StronglySorted Rle (sort_values l).
Proof.
  induction l; simpl; [constructor|apply insert_sorted_sorted; auto].
Qed.

Lemma sort_values_length : forall l, length (sort_values l) = length l.
Proof. intros. symmetry. apply Permutation_length, sort_values_perm. Qed.

Lemma nanmedian_spec : forall l m, nanmedian l = Some m -> is_median l m.
Proof.
  intros l m H. destruct l as [|x l]; [discriminate|].
  unfold nanmedian in H. inversion H as [Hm].
  split; [discriminate|]. exists (sort_values (x :: l)).
  split; [apply sort_values_perm|]. split; [apply sort_values_sorted|reflexivity].
Qed.

Lemma nanmedian_none : forall l, nanmedian l = None <-> l = [].
Proof. intros [|x l]; simpl; split; intros; congruence. Qed.

Lemma half_lt : forall n, (0 < n)%nat -> (n / 2 < n)%nat /\ ((n - 1) / 2 < n)%nat.
Proof.
  intros n H. split; apply Nat.div_lt_upper_bound; lia.
Qed.

Lemma median_in_range : forall l m lo hi,
  is_median l m -> (forall x, In x l -> lo <= x <= hi) -> lo <= m <= hi.
Proof.
  intros l m lo hi [Hne [s [Hp [_ Hm]]]] Hb.
  assert (Hl : length s = length l) by (symmetry; apply Permutation_length; auto).
  assert (0 < length l)%nat by (destruct l; [congruence|simpl; lia]).
  pose proof (half_lt (length l) H) as [H1 H2].
  assert (A : forall k, (k < length l)%nat -> lo <= nth k s 0 <= hi).
  { intros k Hk. apply Hb. apply (Permutation_in _ (Permutation_sym Hp)).
    apply nth_In. lia. }
  pose proof (A _ H1). pose proof (A _ H2). lra.
Qed.

Lemma median_pos : forall l m, is_median l m -> (forall x, In x l -> 0 < x) -> 0 < m.
Proof.
  intros l m [Hne [s [Hp [_ Hm]]]] Hb.
  assert (Hl : length s = length l) by (symmetry; apply Permutation_length; auto).
  assert (0 < length l)%nat by (destruct l; [congruence|simpl; lia]).
  pose proof (half_lt (length l) H) as [H1 H2].
  assert (A : forall k, (k < length l)%nat -> 0 < nth k s 0).
  { intros k Hk. apply Hb. apply (Permutation_in _ (Permutation_sym Hp)).
    apply nth_In. lia. }
  pose proof (A _ H1). pose proof (A _ H2). lra.
Qed.

(** The sorted list is unique, hence so is the median. *)
Lemma sorted_perm_unique : forall s s' : list R,
  StronglySorted Rle s -> StronglySorted Rle s' -> Permutation s s' -> s = s'.
Proof.
  induction s as [|x s IH]; intros s' Hs Hs' Hp.
  - apply Permutation_nil in Hp; auto.
  - destruct s' as [|y s']; [apply Permutation_sym, Permutation_nil in Hp; discriminate|].
    inversion Hs as [|? ? Hs1 Hall]; inversion Hs' as [|? ? Hs1' Hall']; subst.
    rewrite Forall_forall in Hall, Hall'.
    assert (Hx : In x (y :: s')) by (apply (Permutation_in _ Hp); left; auto).
    assert (Hy : In y (x :: s)) by (apply (Permutation_in _ (Permutation_sym Hp)); left; auto).
    assert (x = y).
    { destruct Hx as [|Hx]; [auto|]. destruct Hy as [|Hy]; [auto|].
      specialize (Hall _ Hy). specialize (Hall' _ Hx). lra. }
    subst y. f_equal. apply IH; auto. apply Permutation_cons_inv in Hp; auto.
Qed.

Lemma is_median_unique : forall l m m', is_median l m -> is_median l m' -> m = m'.
Proof.
  intros l m m' [_ [s [Hp [Hs Hm]]]] [_ [s' [Hp' [Hs' Hm']]]].
  assert (s = s').
  { apply sorted_perm_unique; auto. transitivity l; [symmetry|]; auto. }
  subst s'. congruence.
Qed.

Lemma is_median_scale : forall l m k, 0 < k -> is_median l m ->
  is_median (map (fun x => k * x) l) (k * m).
Proof.
  intros l m k Hk [Hne [s [Hp [Hs Hm]]]].
  split; [destruct l; simpl; congruence|].
  exists (map (fun x => k * x) s). split; [apply Permutation_map; auto|]. split.
  - clear - Hs Hk. induction Hs; simpl; constructor; auto.
    apply Forall_forall. intros z Hz. apply in_map_iff in Hz. destruct Hz as [w [<- Hw]].
    rewrite Forall_forall in H. specialize (H w Hw). apply Rmult_le_compat_l; lra.
  - rewrite map_length, Hm.
    assert (E : forall i, nth i (map (fun x => k * x) s) 0 = k * nth i s 0).
    { intros i. replace 0 with (k * 0) at 1 by ring. apply (map_nth (fun x => k * x)). }
    rewrite !E. field.
Qed.

(** *** MediaTransformer *)
Lemma divide_no_nan_nz : forall x y, y <> 0 -> divide_no_nan x y = x / y.
Proof. intros; unfold divide_no_nan; destruct (Req_EM_T y 0); [lra|reflexivity]. Qed.

Lemma in_channel_values : forall x m v,
  In v (channel_values x m) <->
  exists g t, (g < geos x)%nat /\ (t < times x)%nat /\ v = val x g t m.
Proof.
  intros x m v. unfold channel_values. rewrite in_flat_map. split.
  - intros [g [Hg Hv]]. apply in_map_iff in Hv. destruct Hv as [t [<- Ht]].
    apply in_seq in Hg; apply in_seq in Ht. exists g, t. repeat split; auto; lia.
  - intros [g [t [Hg [Ht ->]]]]. exists g. split; [apply in_seq; lia|].
    apply in_map_iff. exists t. split; [auto|apply in_seq; lia].
Qed.

Lemma nonzero_true : forall x, nonzero x = true <-> x <> 0.
Proof. intros; unfold nonzero; destruct (Req_EM_T x 0); split; intros; congruence. Qed.

Lemma media_init_ok_iff_lemma : forall media population,
  (forall g, (g < geos media)%nat -> population g <> 0) ->
  ((exists tr, media_transformer_init media population = Ok tr) <->
   (forall m, (m < chans media)%nat -> exists g t, (g < geos media)%nat /\ (t < times media)%nat /\
      val media g t m <> 0)).
Proof.
  intros media population Hpop. unfold media_transformer_init.
  destruct (forallb _ _) eqn:E.
  - split; [intros _|eauto]. rewrite forallb_forall in E.
    intros m Hm. specialize (E m ltac:(apply in_seq; lia)).
    destruct (channel_median media population m) as [v|] eqn:Em; [|discriminate].
    unfold channel_median in Em.
    destruct (filter nonzero (channel_values (population_scaled media population) m)) as [|w r] eqn:Ef;
      [discriminate|].
    assert (Hw : In w (w :: r)) by (left; auto). rewrite <- Ef in Hw.
    apply filter_In in Hw. destruct Hw as [Hw Hnz].
    apply in_channel_values in Hw. destruct Hw as [g [t [Hg [Ht ->]]]].
    exists g, t. repeat split; auto. simpl in *.
    apply nonzero_true in Hnz. rewrite divide_no_nan_nz in Hnz by auto.
    intro Hz; apply Hnz. rewrite Hz. unfold Rdiv; ring.
  - split; [intros [tr Htr]; discriminate|].
    intros H. exfalso. revert E. apply not_false_iff_true. apply forallb_forall.
    intros m Hm. apply in_seq in Hm. destruct (H m ltac:(lia)) as [g [t [Hg [Ht Hv]]]].
    destruct (channel_median media population m) eqn:Em; [reflexivity|].
    unfold channel_median in Em. apply nanmedian_none in Em.
    assert (Hin : In (val media g t m / population g)
              (filter nonzero (channel_values (population_scaled media population) m))).
    { apply filter_In. split.
      - apply in_channel_values. exists g, t. simpl. repeat split; auto.
        rewrite divide_no_nan_nz by auto. reflexivity.
      - apply nonzero_true. apply Rmult_integral_contrapositive. split; auto.
        apply Rinv_neq_0_compat; auto. }
    rewrite Em in Hin. destruct Hin.
Qed.

Lemma media_init_median : forall media population tr m,
  media_transformer_init media population = Ok tr -> (m < chans media)%nat ->
  is_median (filter nonzero (channel_values (population_scaled media population) m))
    (population_scaled_median_m tr m) /\
  (forall g, scale_factors_gm tr g m = population g * population_scaled_median_m tr m).
Proof.
  intros media population tr m H Hm. unfold media_transformer_init in H.
  destruct (forallb _ _) eqn:E; [|discriminate]. inversion H; subst; clear H. simpl.
  rewrite forallb_forall in E. specialize (E m ltac:(apply in_seq; lia)).
  split; [|reflexivity].
  destruct (channel_median media population m) as [v|] eqn:Em; [|discriminate].
  apply nanmedian_spec. exact Em.
Qed.

Lemma media_scale_pos : forall media population tr g m,
  media_transformer_init media population = Ok tr ->
  positive_population (geos media) population ->
  (forall g t m, (g < geos media)%nat -> (t < times media)%nat -> (m < chans media)%nat ->
     0 <= val media g t m) ->
  (g < geos media)%nat -> (m < chans media)%nat -> 0 < scale_factors_gm tr g m.
Proof.
  intros media population tr g m Hi Hp Hn Hg Hm.
  destruct (media_init_median _ _ _ _ Hi Hm) as [Hmed ->].
  apply Rmult_lt_0_compat; [apply Hp; auto|].
  eapply median_pos; [exact Hmed|].
  intros x Hx. apply filter_In in Hx. destruct Hx as [Hx Hnz]. apply nonzero_true in Hnz.
  apply in_channel_values in Hx. destruct Hx as [g' [t' [Hg' [Ht' Ev]]]]. simpl in *. subst x.
  specialize (Hp g' Hg'). rewrite divide_no_nan_nz in * by lra.
  assert (0 <= val media g' t' m / population g').
  { apply Rmult_le_pos; [apply Hn; auto|]. left; apply Rinv_0_lt_compat; auto. }
  lra.
Qed.

Lemma media_roundtrip_lemma : forall media population tr g m,
  media_transformer_init media population = Ok tr ->
  positive_population (geos media) population ->
  (forall g t m, (g < geos media)%nat -> (t < times media)%nat -> (m < chans media)%nat ->
     0 <= val media g t m) ->
  (g < geos media)%nat -> (m < chans media)%nat ->
  (forall x, exists y, media_forward tr g m x = Some y /\ media_inverse tr g m y = x) /\
  (forall y, media_forward tr g m (media_inverse tr g m y) = Some y).
Proof.
  intros media population tr g m Hi Hp Hn Hg Hm.
  pose proof (media_scale_pos _ _ _ _ _ Hi Hp Hn Hg Hm) as Hs.
  unfold media_forward, media_inverse, fdiv.
  destruct (Req_EM_T (scale_factors_gm tr g m) 0); [lra|].
  split.
  - intros x. eexists; split; [reflexivity|]. field. auto.
  - intros y. f_equal. field. auto.
Qed.

Lemma filter_map_scale : forall k l, k <> 0 ->
  filter nonzero (map (fun x => k * x) l) = map (fun x => k * x) (filter nonzero l).
Proof.
  intros k l Hk. induction l as [|x l IH]; simpl; [reflexivity|].
  assert (E : nonzero (k * x) = nonzero x).
  { unfold nonzero. destruct (Req_EM_T x 0); destruct (Req_EM_T (k * x) 0); auto.
    - subst; lra.
    - exfalso. apply Rmult_integral in e. tauto. }
  rewrite E, IH. destruct (nonzero x); reflexivity.
Qed.

Lemma channel_values_map : forall x y m f,
  geos x = geos y -> times x = times y ->
  (forall g t, (g < geos x)%nat -> (t < times x)%nat -> val y g t m = f (val x g t m)) ->
  channel_values y m = map f (channel_values x m).
Proof.
  intros x y m f Hg Ht H. unfold channel_values. rewrite <- Hg, <- Ht.
  assert (A : forall gs, (forall g, In g gs -> (g < geos x)%nat) ->
    flat_map (fun g => map (fun t => val y g t m) (seq 0 (times x))) gs =
    map f (flat_map (fun g => map (fun t => val x g t m) (seq 0 (times x))) gs)).
  { induction gs as [|g gs IH]; intros Hgs; simpl; [reflexivity|].
    rewrite map_app, IH by (intros; apply Hgs; right; auto). f_equal.
    rewrite map_map. apply map_ext_in. intros t Hts. apply in_seq in Hts.
    apply H; [apply Hgs; left; auto|lia]. }
  apply A. intros g Hgs. apply in_seq in Hgs. lia.
Qed.

(** Scaled training media: the non-zero scaled values have median one. *)
Lemma media_scaled_median_lemma : forall media population tr m,
  media_transformer_init media population = Ok tr ->
  positive_population (geos media) population ->
  (forall g t m, (g < geos media)%nat -> (t < times media)%nat -> (m < chans media)%nat ->
     0 <= val media g t m) ->
  (m < chans media)%nat ->
  forall scaled, geos scaled = geos media -> times scaled = times media ->
  (forall g t, (g < geos media)%nat -> (t < times media)%nat ->
     media_forward tr g m (val media g t m) = Some (val scaled g t m)) ->
  is_median (filter nonzero (channel_values scaled m)) 1.
Proof.
  intros media population tr m Hi Hp Hn Hm scaled Sg St Hf.
  destruct (media_init_median _ _ _ _ Hi Hm) as [Hmed Hsc].
  set (med := population_scaled_median_m tr m) in *.
  assert (Hmpos : 0 < med).
  { eapply median_pos; [exact Hmed|].
    intros x Hx. apply filter_In in Hx. destruct Hx as [Hx Hnz]. apply nonzero_true in Hnz.
    apply in_channel_values in Hx. destruct Hx as [g' [t' [Hg' [Ht' Ev]]]]. simpl in *. subst x.
    specialize (Hp g' Hg'). rewrite divide_no_nan_nz in * by lra.
    assert (0 <= val media g' t' m / population g').
    { apply Rmult_le_pos; [apply Hn; auto|]. left; apply Rinv_0_lt_compat; auto. }
    lra. }
  rewrite (channel_values_map (population_scaled media population) scaled m (fun x => / med * x)).
  - rewrite filter_map_scale by (apply Rinv_neq_0_compat; lra).
    replace 1 with (/ med * med) by (field; lra).
    apply is_median_scale; auto. apply Rinv_0_lt_compat; auto.
  - simpl; auto.
  - simpl; auto.
  - simpl. intros g t Hg Ht. specialize (Hf g t Hg Ht).
    unfold media_forward, fdiv in Hf. rewrite Hsc in Hf.
    specialize (Hp g Hg).
    destruct (Req_EM_T (population g * med) 0).
    + exfalso. apply Rmult_integral in e. lra.
    + inversion Hf as [Hv]. rewrite divide_no_nan_nz by lra. field. lra.
Qed.

(** *** Means and standard deviations *)
Lemma rsum2_ext : forall G T x y,
  (forall g t, (g < G)%nat -> (t < T)%nat -> x g t = y g t) ->
  rsum G (fun g => rsum T (fun t => x g t)) = rsum G (fun g => rsum T (fun t => y g t)).
Proof. intros. apply rsum_ext; intros; apply rsum_ext; intros; auto. Qed.

Lemma mean_gt_const : forall G T k, (0 < G)%nat -> (0 < T)%nat -> mean_gt G T (fun _ _ => k) = k.
Proof.
  intros. unfold mean_gt.
  rewrite (rsum_ext G _ (fun _ => INR T * k)) by (intros; apply rsum_const).
  rewrite rsum_const. field. split; apply not_0_INR; lia.
Qed.

Lemma mean_gt_ext : forall G T x y,
  (forall g t, (g < G)%nat -> (t < T)%nat -> x g t = y g t) -> mean_gt G T x = mean_gt G T y.
Proof. intros. unfold mean_gt. rewrite (rsum2_ext G T x y) by auto. reflexivity. Qed.

Lemma mean_sq_nonneg : forall G T x, (0 < G)%nat -> (0 < T)%nat ->
  0 <= mean_gt G T (fun g t => x g t ^ 2).
Proof.
  intros. unfold mean_gt. apply Rmult_le_pos.
  - apply rsum_nonneg; intros; apply rsum_nonneg; intros; apply pow2_ge_0.
  - left; apply Rinv_0_lt_compat, Rmult_lt_0_compat; apply lt_0_INR; auto.
Qed.

Lemma std_gt_zero_iff : forall G T x, (0 < G)%nat -> (0 < T)%nat ->
  (std_gt G T x = 0 <-> constant_table G T x).
Proof.
  intros G T x HG HT. unfold std_gt. split.
  - intros H. apply sqrt_eq_0 in H.
    + exists (mean_gt G T x). intros g t Hg Ht.
      unfold mean_gt at 1 in H.
      assert (Hpos : 0 < / (INR G * INR T))
        by (apply Rinv_0_lt_compat, Rmult_lt_0_compat; apply lt_0_INR; auto).
      assert (Hs : rsum G (fun g => rsum T (fun t => (x g t - mean_gt G T x) ^ 2)) = 0).
      { unfold Rdiv in H. apply Rmult_integral in H. destruct H; [auto|lra]. }
      assert (Hrow : rsum T (fun t => (x g t - mean_gt G T x) ^ 2) = 0).
      { refine (rsum_zero_nonneg G _ _ Hs g Hg).
        intros; apply rsum_nonneg; intros; apply pow2_ge_0. }
      assert (Hc : (x g t - mean_gt G T x) ^ 2 = 0).
      { refine (rsum_zero_nonneg T (fun t => (x g t - mean_gt G T x) ^ 2) _ Hrow t Ht).
        intros; apply pow2_ge_0. }
      assert (x g t - mean_gt G T x = 0) by (apply Rsqr_0_uniq; unfold Rsqr; lra). lra.
    + apply (mean_sq_nonneg G T (fun g t => x g t - mean_gt G T x)); auto.
  - intros [k Hk].
    assert (Em : mean_gt G T x = k).
    { rewrite (mean_gt_ext G T x (fun _ _ => k)) by auto. apply mean_gt_const; auto. }
    rewrite (mean_gt_ext G T _ (fun _ _ => 0)).
    + rewrite mean_gt_const by auto. apply sqrt_0.
    + intros g t Hg Ht. rewrite Em, Hk by auto. ring.
Qed.

Lemma std_sq : forall G T x, (0 < G)%nat -> (0 < T)%nat ->
  std_gt G T x ^ 2 = mean_gt G T (fun g t => (x g t - mean_gt G T x) ^ 2).
Proof.
  intros. unfold std_gt. apply pow2_sqrt.
  apply (mean_sq_nonneg G T (fun g t => x g t - mean_gt G T x)); auto.
Qed.

Lemma standardised_lemma : forall G T x, (0 < G)%nat -> (0 < T)%nat ->
  std_gt G T x <> 0 ->
  mean_zero G T (fun g t => (x g t - mean_gt G T x) / std_gt G T x) /\
  mean_square_one G T (fun g t => (x g t - mean_gt G T x) / std_gt G T x).
Proof.
  intros G T x HG HT Hs.
  assert (HGT : INR G * INR T <> 0)
    by (apply Rmult_integral_contrapositive; split; apply not_0_INR; lia).
  split.
  - unfold mean_zero.
    rewrite (rsum_ext G _ (fun g => (rsum T (fun t => x g t) - INR T * mean_gt G T x) / std_gt G T x)).
    + rewrite rsum_div, rsum_minus, rsum_const.
      assert (E : rsum G (fun g => rsum T (fun t => x g t)) - INR G * (INR T * mean_gt G T x) = 0)
        by (unfold mean_gt; field; split; apply not_0_INR; lia).
      rewrite E. unfold Rdiv; ring.
    + intros g Hg. rewrite rsum_div, rsum_minus, rsum_const. reflexivity.
  - unfold mean_square_one.
    rewrite (rsum_ext G _ (fun g => rsum T (fun t => (x g t - mean_gt G T x) ^ 2) / (std_gt G T x ^ 2))).
    + rewrite rsum_div. rewrite std_sq by auto. unfold mean_gt at 2.
      set (S := rsum G (fun g => rsum T (fun t => (x g t - mean_gt G T x) ^ 2))).
      assert (HS : S <> 0).
      { intro E. apply Hs. unfold std_gt. unfold mean_gt at 1. fold S. rewrite E.
        unfold Rdiv. rewrite Rmult_0_l. apply sqrt_0. }
      field. repeat split; auto; apply not_0_INR; lia.
    + intros g Hg. rewrite <- rsum_div. apply rsum_ext; intros. field. auto.
Qed.

(** *** KpiTransformer *)
Lemma kpi_roundtrip_lemma : forall tr g, k_population tr g <> 0 -> k_stdev tr <> 0 ->
  (forall x, kpi_inverse tr g (kpi_forward tr g x) = x) /\
  (forall y, kpi_forward tr g (kpi_inverse tr g y) = y).
Proof.
  intros tr g Hp Hs. unfold kpi_inverse, kpi_forward. split; intros.
  - rewrite !divide_no_nan_nz by auto. field. auto.
  - rewrite !divide_no_nan_nz by auto. field. auto.
Qed.

Lemma kpi_roundtrip_iff_lemma : forall tr g,
  (forall x, kpi_inverse tr g (kpi_forward tr g x) = x) <->
  (k_population tr g <> 0 /\ k_stdev tr <> 0).
Proof.
  intros tr g. split; [|intros [? ?]; apply kpi_roundtrip_lemma; auto].
  intros H. split; intro E.
  - specialize (H 1). unfold kpi_inverse in H. rewrite E in H. lra.
  - pose proof (H 0) as H0. pose proof (H 1) as H1.
    unfold kpi_inverse, kpi_forward in H0, H1.
    rewrite E in H0, H1. rewrite Rmult_0_r in H0, H1. lra.
Qed.

Lemma kpi_standardised_lemma : forall G T kpi population,
  (0 < G)%nat -> (0 < T)%nat ->
  (forall g, (g < G)%nat -> population g <> 0) ->
  ~ constant_table G T (fun g t => kpi g t / population g) ->
  let tr := kpi_init G T kpi population in
  mean_zero G T (fun g t => kpi_forward tr g (kpi g t)) /\
  mean_square_one G T (fun g t => kpi_forward tr g (kpi g t)).
Proof.
  intros G T kpi population HG HT Hpop Hnc tr.
  set (sc := fun g t => divide_no_nan (kpi g t) (population g)).
  assert (Hs : std_gt G T sc <> 0).
  { intro E. apply std_gt_zero_iff in E; auto. apply Hnc. destruct E as [k Hk].
    exists k. intros g t Hg Ht. rewrite <- (Hk g t Hg Ht). unfold sc.
    rewrite divide_no_nan_nz by auto. reflexivity. }
  destruct (standardised_lemma G T sc HG HT Hs) as [H1 H2].
  assert (E : forall g t, kpi_forward tr g (kpi g t) = (sc g t - mean_gt G T sc) / std_gt G T sc).
  { intros g t. unfold kpi_forward, tr, kpi_init; simpl. fold sc.
    rewrite divide_no_nan_nz by auto. reflexivity. }
  unfold mean_zero, mean_square_one in *. split.
  - rewrite <- H1. apply rsum2_ext. intros; apply E.
  - rewrite <- H2. apply rsum2_ext. intros; rewrite E; reflexivity.
Qed.

Lemma kpi_stdev_zero_iff_lemma : forall G T kpi population,
  (0 < G)%nat -> (0 < T)%nat ->
  (k_stdev (kpi_init G T kpi population) = 0 <->
   constant_table G T (fun g t => divide_no_nan (kpi g t) (population g))).
Proof. intros. simpl. apply std_gt_zero_iff; auto. Qed.

(** *** CenteringAndScalingTransformer *)
Lemma centering_roundtrip_lemma : forall tr g m,
  c_stdevs tr m <> 0 ->
  (forall f, c_factors tr = Some f -> f g m <> 0) ->
  (forall x, centering_inverse tr g m (centering_forward tr true g m x) = x) /\
  (forall y, centering_forward tr true g m (centering_inverse tr g m y) = y).
Proof.
  intros tr g m Hs Hf. unfold centering_inverse, centering_forward.
  destruct (c_factors tr) as [f|].
  - specialize (Hf f eq_refl). split; intros; rewrite divide_no_nan_nz by auto; field; auto.
  - split; intros; rewrite divide_no_nan_nz by auto; field; auto.
Qed.

Lemma centering_standardised_lemma : forall x population id m,
  (0 < geos x)%nat -> (0 < times x)%nat ->
  let tr := centering_init x population id in
  c_stdevs tr m <> 0 ->
  mean_zero (geos x) (times x) (fun g t => centering_forward tr true g m (val x g t m)) /\
  mean_square_one (geos x) (times x) (fun g t => centering_forward tr true g m (val x g t m)).
Proof.
  intros x population id m HG HT tr Hs.
  set (sc := match id with
             | Some b => fun g t => val x g t m / scaling_factors population b g m
             | None => fun g t => val x g t m end).
  assert (Es : c_stdevs tr m = std_gt (geos x) (times x) sc)
    by (unfold tr, centering_init, sc; destruct id; reflexivity).
  assert (Em : c_means tr m = mean_gt (geos x) (times x) sc)
    by (unfold tr, centering_init, sc; destruct id; reflexivity).
  assert (E : forall g t, centering_forward tr true g m (val x g t m) =
     (sc g t - mean_gt (geos x) (times x) sc) / std_gt (geos x) (times x) sc).
  { intros g t. unfold centering_forward. rewrite divide_no_nan_nz by auto.
    rewrite Es, Em. unfold tr, centering_init, sc. destruct id; reflexivity. }
  rewrite Es in Hs.
  destruct (standardised_lemma _ _ sc HG HT Hs) as [H1 H2].
  unfold mean_zero, mean_square_one in *. split.
  - rewrite <- H1. apply rsum2_ext. intros; apply E.
  - rewrite <- H2. apply rsum2_ext. intros; rewrite E; reflexivity.
Qed.

Lemma centering_roundtrip_iff_lemma : forall tr g m,
  c_factors tr = None ->
  ((forall x, centering_inverse tr g m (centering_forward tr true g m x) = x) <->
   c_stdevs tr m <> 0).
Proof.
  intros tr g m Hn. split.
  - intros H E. pose proof (H 0) as H0. pose proof (H 1) as H1.
    unfold centering_inverse, centering_forward in H0, H1. rewrite Hn in H0, H1.
    rewrite E, Rmult_0_r in H0, H1. lra.
  - intros Hs. apply centering_roundtrip_lemma; auto. intros f Hf; congruence.
Qed.

Lemma centering_affine_lemma : forall x population id m,
  c_stdevs (centering_init x population id) m <> 0 ->
  exists shift scale, scale <> 0 /\ forall g v,
    centering_forward (centering_init x population id) true g m v =
    (per_capita_if_flagged id population g m v - shift) / scale.
Proof.
  intros x population id m Hs.
  exists (c_means (centering_init x population id) m), (c_stdevs (centering_init x population id) m).
  split; [exact Hs|]. intros g v. unfold centering_forward.
  rewrite divide_no_nan_nz by exact Hs.
  destruct id as [b|]; simpl; auto.
  unfold scaling_factors. destruct (b m); auto. replace (v / 1) with v by lra. reflexivity.
Qed.
