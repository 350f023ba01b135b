(** Properties C07 and C08: the scaling transformers. *)
From Coq Require Import Reals ZArith Lra Lia List Bool Arith Sorted Permutation.
From Verif Require Import Lib_Sum M_Base M_Transformers S_Transformers P_Transformers.
Import ListNotations.
Local Open Scope R_scope.

(** Two geos of population 2 and 4, two periods, one channel. *)
Definition ex_pop (g : nat) : R := match g with 0 => 2 | _ => 4 end.
Definition ex_vals (g t : nat) : R :=
  match g, t with 0%nat, 0%nat => 6 | 0%nat, _ => 0 | _, 0%nat => 4 | _, _ => 8 end.
Definition ex_m : T3 := mkT3 2 2 1 (fun g t _ => ex_vals g t).

(** ** C07 *)
(** MediaTransformer is built exactly when every channel has a non-zero value. *)
Theorem C07_media_transformer_built_iff : forall media population,
  (forall g, (g < geos media)%nat -> population g <> 0) ->
  ((exists tr, media_transformer_init media population = Ok tr) <->
   (forall m, (m < chans media)%nat -> exists g t, (g < geos media)%nat /\ (t < times media)%nat /\
      val media g t m <> 0)).
Proof. exact media_init_ok_iff_lemma. Qed.
Print Assumptions C07_media_transformer_built_iff.

(** Built on one tensor, it round-trips every value (also of other tensors), both ways. *)
Theorem C07_media_round_trip : forall media population tr g m,
  media_transformer_init media population = Ok tr ->
  positive_population (geos media) population -> nonneg_tensor media ->
  (g < geos media)%nat -> (m < chans media)%nat ->
  (forall x, exists y, media_forward tr g m x = Some y /\ media_inverse tr g m y = x) /\
  (forall y, media_forward tr g m (media_inverse tr g m y) = Some y).
Proof. exact media_roundtrip_lemma. Qed.
Print Assumptions C07_media_round_trip.

(** The scale is the documented one: population times the median of the non-zero
    population-scaled values; the non-zero scaled training values have median one. *)
Theorem C07_media_scale_is_documented_median : forall media population tr m,
  media_transformer_init media population = Ok tr -> (m < chans media)%nat ->
  is_median (filter nonzero (channel_values (population_scaled media population) m))
    (population_scaled_median_m tr m) /\
  (forall g, scale_factors_gm tr g m = population g * population_scaled_median_m tr m).
Proof. exact media_init_median. Qed.
Print Assumptions C07_media_scale_is_documented_median.

Theorem C07_scaled_media_has_median_one : forall media population tr m,
  media_transformer_init media population = Ok tr ->
  positive_population (geos media) population -> nonneg_tensor media ->
  (m < chans media)%nat ->
  forall scaled, geos scaled = geos media -> times scaled = times media ->
  (forall g t, (g < geos media)%nat -> (t < times media)%nat ->
     media_forward tr g m (val media g t m) = Some (val scaled g t m)) ->
  is_median (filter nonzero (channel_values scaled m)) 1.
Proof. exact media_scaled_median_lemma. Qed.
Print Assumptions C07_scaled_media_has_median_one.

(** The median is well defined by its specification. *)
Theorem C07_median_unique : forall l m m', is_median l m -> is_median l m' -> m = m'.
Proof. exact is_median_unique. Qed.
Print Assumptions C07_median_unique.

(** Population-scaled 3, (0), 1, 2: the non-zero median is 2, scale factors 4 and 8. *)
Example C07_media_example : exists tr,
  media_transformer_init ex_m ex_pop = Ok tr /\
  positive_population (geos ex_m) ex_pop /\ nonneg_tensor ex_m /\
  population_scaled_median_m tr 0%nat = 2 /\ scale_factors_gm tr 1%nat 0%nat = 8.
Proof.
  destruct (proj2 (C07_media_transformer_built_iff ex_m ex_pop
    ltac:(intros g _; unfold ex_pop; destruct g; lra))) as [tr Htr].
  { intros m _. exists 0%nat, 0%nat. simpl. repeat split; try lia. lra. }
  exists tr. split; [exact Htr|].
  assert (Hm : population_scaled_median_m tr 0%nat = 2).
  { destruct (C07_media_scale_is_documented_median _ _ _ 0%nat Htr ltac:(simpl; lia)) as [Hmed _].
    apply (C07_median_unique _ _ _ Hmed).
    assert (E : filter nonzero (channel_values (population_scaled ex_m ex_pop) 0) = [6/2; 4/4; 8/4]).
    { unfold channel_values; simpl.
      rewrite !divide_no_nan_nz by lra. unfold nonzero.
      repeat (match goal with |- context [Req_EM_T ?a ?b] => destruct (Req_EM_T a b); try (exfalso; lra) end).
      reflexivity. }
    rewrite E. split; [discriminate|]. exists [4/4; 8/4; 6/2]. split; [|split].
    - eapply perm_trans; [apply perm_swap|]. apply perm_skip. apply perm_swap.
    - repeat constructor; lra.
    - simpl. lra. }
  destruct (C07_media_scale_is_documented_median _ _ _ 0%nat Htr ltac:(simpl; lia)) as [_ Hs].
  repeat split; auto.
  - intros g _. unfold ex_pop; destruct g; lra.
  - intros g t m _ _ _. simpl. unfold ex_vals. destruct g; destruct t; lra.
  - rewrite Hs, Hm. simpl. lra.
Qed.

Theorem C07_kpi_round_trip : forall tr g, k_population tr g <> 0 -> k_stdev tr <> 0 ->
  (forall x, kpi_inverse tr g (kpi_forward tr g x) = x) /\
  (forall y, kpi_forward tr g (kpi_inverse tr g y) = y).
Proof. exact kpi_roundtrip_lemma. Qed.
Print Assumptions C07_kpi_round_trip.

(** The scaled training KPI has mean zero and standard deviation one. *)
Theorem C07_kpi_is_standardised : forall G T kpi population,
  (0 < G)%nat -> (0 < T)%nat ->
  (forall g, (g < G)%nat -> population g <> 0) ->
  ~ constant_table G T (fun g t => kpi g t / population g) ->
  let tr := kpi_init G T kpi population in
  mean_zero G T (fun g t => kpi_forward tr g (kpi g t)) /\
  mean_square_one G T (fun g t => kpi_forward tr g (kpi g t)).
Proof. exact kpi_standardised_lemma. Qed.
Print Assumptions C07_kpi_is_standardised.

Example C07_kpi_example :
  (forall g, (g < 2)%nat -> ex_pop g <> 0) /\
  ~ constant_table 2 2 (fun g t => ex_vals g t / ex_pop g) /\
  k_stdev (kpi_init 2 2 ex_vals ex_pop) <> 0.
Proof.
  assert (Hnc : ~ constant_table 2 2 (fun g t => ex_vals g t / ex_pop g)).
  { intros [k Hk]. pose proof (Hk 0%nat 0%nat ltac:(lia) ltac:(lia)) as A.
    pose proof (Hk 0%nat 1%nat ltac:(lia) ltac:(lia)) as B. simpl in A, B. lra. }
  assert (Hp : forall g, (g < 2)%nat -> ex_pop g <> 0) by (intros g _; unfold ex_pop; destruct g; lra).
  split; [auto|]. split; [auto|].
  intro E. apply kpi_stdev_zero_iff_lemma in E; try lia. apply Hnc.
  destruct E as [k Hk]. exists k. intros g t Hg Ht. rewrite <- (Hk g t Hg Ht).
  rewrite divide_no_nan_nz by auto. reflexivity.
Qed.

Theorem C07_controls_round_trip : forall tr g m,
  c_stdevs tr m <> 0 ->
  (forall f, c_factors tr = Some f -> f g m <> 0) ->
  (forall x, centering_inverse tr g m (centering_forward tr true g m x) = x) /\
  (forall y, centering_forward tr true g m (centering_inverse tr g m y) = y).
Proof. exact centering_roundtrip_lemma. Qed.
Print Assumptions C07_controls_round_trip.

Theorem C07_controls_are_standardised : forall x population id m,
  (0 < geos x)%nat -> (0 < times x)%nat ->
  let tr := centering_init x population id in
  c_stdevs tr m <> 0 ->
  mean_zero (geos x) (times x) (fun g t => centering_forward tr true g m (val x g t m)) /\
  mean_square_one (geos x) (times x) (fun g t => centering_forward tr true g m (val x g t m)).
Proof. exact centering_standardised_lemma. Qed.
Print Assumptions C07_controls_are_standardised.

(** Only flagged channels are put on a per-capita scale; the rest is one shift and scale per
    channel, the same for every geo and period. *)
Theorem C07_controls_scale_flagged_channels_only : forall x population id m,
  c_stdevs (centering_init x population id) m <> 0 ->
  exists shift scale, scale <> 0 /\ forall g v,
    centering_forward (centering_init x population id) true g m v =
    (per_capita_if_flagged id population g m v - shift) / scale.
Proof. exact centering_affine_lemma. Qed.
Print Assumptions C07_controls_scale_flagged_channels_only.

Example C07_controls_example :
  c_stdevs (centering_init ex_m ex_pop (Some (fun _ => true))) 0%nat <> 0 /\
  (forall f, c_factors (centering_init ex_m ex_pop (Some (fun _ => true))) = Some f -> f 1%nat 0%nat <> 0).
Proof.
  split.
  - intro E. simpl in E. apply std_gt_zero_iff in E; try lia. destruct E as [k Hk].
    pose proof (Hk 0%nat 0%nat ltac:(lia) ltac:(lia)) as A.
    pose proof (Hk 0%nat 1%nat ltac:(lia) ltac:(lia)) as B.
    unfold scaling_factors in A, B. simpl in A, B. lra.
  - intros f Hf. simpl in Hf. inversion Hf; subst. unfold scaling_factors; simpl. lra.
Qed.

(** ** C08 *)
(** The KPI round trip holds exactly when the geo has non-zero population and the KPI is not
    constant (after population scaling). *)
Theorem C08_kpi_round_trip_iff : forall tr g,
  (forall x, kpi_inverse tr g (kpi_forward tr g x) = x) <->
  (k_population tr g <> 0 /\ k_stdev tr <> 0).
Proof. exact kpi_roundtrip_iff_lemma. Qed.
Print Assumptions C08_kpi_round_trip_iff.

Theorem C08_kpi_stdev_zero_iff_constant : forall G T kpi population,
  (0 < G)%nat -> (0 < T)%nat ->
  (k_stdev (kpi_init G T kpi population) = 0 <->
   constant_table G T (fun g t => divide_no_nan (kpi g t) (population g))).
Proof. exact kpi_stdev_zero_iff_lemma. Qed.
Print Assumptions C08_kpi_stdev_zero_iff_constant.

Theorem C08_controls_round_trip_iff : forall tr g m,
  c_factors tr = None ->
  ((forall x, centering_inverse tr g m (centering_forward tr true g m x) = x) <->
   c_stdevs tr m <> 0).
Proof. exact centering_roundtrip_iff_lemma. Qed.
Print Assumptions C08_controls_round_trip_iff.

(** Refutation of the unconditional round trip: a constant KPI, and a geo of population 0. *)
Theorem C08_round_trip_refuted :
  (exists G T kpi population g x,
     (forall g, (g < G)%nat -> population g <> 0) /\ (g < G)%nat /\
     kpi_inverse (kpi_init G T kpi population) g
       (kpi_forward (kpi_init G T kpi population) g x) <> x) /\
  (exists G T kpi population g t, (g < G)%nat /\ (t < T)%nat /\
     k_stdev (kpi_init G T kpi population) <> 0 /\
     kpi_inverse (kpi_init G T kpi population) g
       (kpi_forward (kpi_init G T kpi population) g (kpi g t)) <> kpi g t).
Proof.
  split.
  - exists 1%nat, 1%nat, (fun _ _ => 5), (fun _ => 1), 0%nat, 7.
    split; [intros; lra|]. split; [lia|].
    assert (E : k_stdev (kpi_init 1 1 (fun _ _ => 5) (fun _ => 1)) = 0).
    { apply kpi_stdev_zero_iff_lemma; try lia. eexists. intros; reflexivity. }
    unfold kpi_inverse. rewrite E, Rmult_0_r. simpl.
    rewrite mean_gt_const by lia. rewrite divide_no_nan_nz by lra. lra.
  - exists 2%nat, 2%nat, ex_vals, (fun g => match g with 0%nat => 2 | _ => 0 end), 1%nat, 1%nat.
    split; [lia|]. split; [lia|]. split.
    + intro E. apply kpi_stdev_zero_iff_lemma in E; try lia. destruct E as [k Hk].
      pose proof (Hk 0%nat 0%nat ltac:(lia) ltac:(lia)) as A.
      pose proof (Hk 0%nat 1%nat ltac:(lia) ltac:(lia)) as B. simpl in A, B.
      rewrite !divide_no_nan_nz in * by lra. lra.
    + unfold kpi_inverse. simpl. rewrite Rmult_0_r. lra.
Qed.
Print Assumptions C08_round_trip_refuted.
