(** Proofs for property C80. *)
From Coq Require Import Reals ZArith List Bool Lia Lra.
From Verif Require Import Lib_Sum M_Base M_Transformers S_Transformers P_Transformers M_Guard S_Guard.
Import ListNotations.
Local Open Scope R_scope.

(** *** Lists and standard deviations *)
Lemma all_some_map : forall A (f : A -> option R) h l, (forall i, In i l -> f i = Some (h i)) -> all_some (map f l) = Some (map h l).
Proof.
  intros A f h l. induction l as [|a l IH]; intros H; [reflexivity|]. cbn [map all_some].
  rewrite (H a) by (left; auto). rewrite IH by (intros; apply H; right; auto). reflexivity.
Qed.

Lemma mean_list_seq : forall n h, mean_list (map h (seq 0 n)) = mean n h.
Proof. intros. unfold mean_list, mean. rewrite map_length, seq_length. rewrite lsum_seq. reflexivity. Qed.

Lemma mean_ext : forall n f h, (forall i, (i < n)%nat -> f i = h i) -> mean n f = mean n h.
Proof. intros. unfold mean. rewrite (rsum_ext n f h); auto. Qed.

Lemma spread_ext : forall n f h, (forall i, (i < n)%nat -> f i = h i) -> spread n f = spread n h.
Proof.
  intros. unfold spread. f_equal. apply mean_ext. intros. rewrite (mean_ext n f h); auto. rewrite H; auto.
Qed.

Lemma reduce_std_spread : forall n f h, (0 < n)%nat -> (forall i, (i < n)%nat -> f i = Some (h i)) ->
  reduce_std n f = Some (spread n h).
Proof.
  intros n f h Hn H. unfold reduce_std. rewrite (all_some_map _ f h).
  - assert (E : std_list (map h (seq 0 n)) = spread n h).
    { unfold std_list, spread. f_equal. rewrite map_map, mean_list_seq, mean_list_seq. reflexivity. }
    rewrite <- E. destruct (map h (seq 0 n)) eqn:El; [|reflexivity].
    exfalso. apply (f_equal (@length R)) in El. rewrite map_length, seq_length in El. cbn in El. lia.
  - intros i Hi. apply in_seq in Hi. apply H. lia.
Qed.

Lemma mean_affine : forall n f c k, (0 < n)%nat -> k <> 0 -> mean n (fun i => (f i - c) / k) = (mean n f - c) / k.
Proof.
  intros n f c k Hn Hk. unfold mean. rewrite rsum_div, rsum_minus, rsum_const.
  field. split; auto. apply not_0_INR; lia.
Qed.

Lemma mean_sq_ge0 : forall n f, 0 <= mean n (fun i => (f i) ^ 2).
Proof.
  intros n f. unfold mean. destruct n; [cbn; unfold Rdiv; lra|].
  apply Rmult_le_pos; [apply rsum_nonneg; intros; apply pow2_ge_0|].
  left. apply Rinv_0_lt_compat, lt_0_INR. lia.
Qed.

Lemma spread_affine : forall n f c k, (0 < n)%nat -> 0 < k -> spread n (fun i => (f i - c) / k) = spread n f / k.
Proof.
  intros n f c k Hn Hk. unfold spread. rewrite mean_affine by (auto; lra).
  rewrite (mean_ext n _ (fun i => ((f i - mean n f) ^ 2 - 0) / (k ^ 2))).
  2:{ intros. field. lra. }
  rewrite mean_affine; [|auto|apply pow_nonzero; lra]. rewrite Rminus_0_r.
  unfold Rdiv. rewrite sqrt_mult_alt by (apply (mean_sq_ge0 n (fun i => f i - mean n f))).
  f_equal. rewrite <- (sqrt_pow2 (/ k)). { rewrite pow_inv. reflexivity. }
  left. apply Rinv_0_lt_compat. auto.
Qed.

Lemma spread_const : forall n c, (0 < n)%nat -> spread n (fun _ => c) = 0.
Proof.
  intros n c Hn. unfold spread. assert (E : mean n (fun _ => c) = c).
  { unfold mean. rewrite rsum_const. field. apply not_0_INR. lia. }
  rewrite E. rewrite (mean_ext n _ (fun _ => 0)) by (intros; ring).
  assert (E0 : mean n (fun _ => 0) = 0) by (unfold mean; rewrite rsum_const; unfold Rdiv; ring).
  rewrite E0. apply sqrt_0.
Qed.

Lemma filter_count_all : forall A (p : A -> bool) l, length (filter p l) = length l <-> (forall x, In x l -> p x = true).
Proof.
  intros A p l. induction l as [|a l IH]; [cbn; split; [intros _ x []|auto]|].
  assert (Hle : (length (filter p l) <= length l)%nat).
  { clear. induction l as [|b l IH]; cbn; [lia|]. destruct (p b); cbn; lia. }
  cbn [filter length]. destruct (p a) eqn:Ea; cbn [length].
  - rewrite Nat.succ_inj_wd. rewrite IH. split; intros H x; [intros [<-|Hx]; auto|intros Hx; apply H; right; auto].
  - split; [intros; lia|]. intros H. specialize (H a (or_introl eq_refl)). congruence.
Qed.

Lemma counted_all : forall n low, (0 < n)%nat ->
  (let count := length (filter low (seq 0 n)) in (negb (Nat.eqb count 0) && Nat.eqb count n)%bool = true <->
   forall i, (i < n)%nat -> low i = true).
Proof.
  intros n low Hn count. unfold count. rewrite andb_true_iff, negb_true_iff, Nat.eqb_neq, Nat.eqb_eq.
  pose proof (filter_count_all _ low (seq 0 n)) as F. rewrite seq_length in F. split.
  - intros [_ E] i Hi. apply (proj1 F E). apply in_seq. lia.
  - intros H. assert (E : length (filter low (seq 0 n)) = n). { apply F. intros i Hi. apply in_seq in Hi. apply H. lia. }
    split; [lia|auto].
Qed.

(** *** The scaled cells of a variable *)
Definition vcells (d : inputs) (s : specs) (v : variable) (x : T3) : result cells :=
  match v with
  | VControls => Ok (centered (in_geos d) (in_population d) (option_map snd (sp_control_scaling s)) x)
  | VNonMedia => Ok (centered (in_geos d) (in_population d) (option_map snd (sp_non_media_scaling s)) x)
  | _ => media_scaled (in_population d) x
  end.

Lemma optional_ok : forall o f, optional o f = Ok tt <-> (forall x, o = Some x -> f x = Ok tt).
Proof.
  intros [x|] f; cbn; split; auto.
  - intros H y E. injection E as <-. auto.
  - discriminate.
Qed.

Lemma rbind_tt : forall (a b : result unit), rbind a (fun _ => b) = Ok tt <-> a = Ok tt /\ b = Ok tt.
Proof. intros [[]|e] b; cbn; split; intros; [auto|tauto|discriminate|destruct H; discriminate]. Qed.

Lemma rbind_ok : forall A B (a : result A) (f : A -> result B) b, rbind a f = Ok b <-> exists c, a = Ok c /\ f c = Ok b.
Proof.
  intros A B [a|e] f b; cbn; split.
  - eauto.
  - intros [c [H1 H2]]. injection H1 as <-. auto.
  - discriminate.
  - intros [c [H1 _]]. discriminate.
Qed.

Lemma validate_variation_ok : forall d s chk,
  validate_variation d s chk = Ok tt <->
  (forall v x, data_of d v = Some x -> exists c, vcells d s v x = Ok c /\ chk x c = Ok tt).
Proof.
  intros d s chk. unfold validate_variation. rewrite !rbind_tt, !optional_ok. split.
  - intros (H1 & H2 & H3 & H4 & H5 & H6) v x E. destruct v; cbn [data_of vcells] in *;
      [eexists; split; [reflexivity|auto]|eexists; split; [reflexivity|auto]|..];
      apply rbind_ok; auto.
  - intros H.
    assert (HM : forall v x, is_media v = true -> data_of d v = Some x -> rbind (media_scaled (in_population d) x) (chk x) = Ok tt).
    { intros v x Hv E. apply rbind_ok. destruct (H v x E) as [c [Hc Hk]]. exists c. split; auto.
      destruct v; try discriminate Hv; exact Hc. }
    repeat split; intros x E.
    + destruct (H VControls x E) as [c [Hc Hk]]. cbn in Hc. injection Hc as <-. exact Hk.
    + destruct (H VNonMedia x E) as [c [Hc Hk]]. cbn in Hc. injection Hc as <-. exact Hk.
    + apply (HM VMedia); auto.
    + apply (HM VReach); auto.
    + apply (HM VOrganicMedia); auto.
    + apply (HM VOrganicReach); auto.
Qed.

Lemma channel_median_pos : forall x population m k,
  (forall g, (g < geos x)%nat -> 0 < population g) ->
  (forall g t, (g < geos x)%nat -> (t < times x)%nat -> 0 <= val x g t m) ->
  channel_median x population m = Some k -> 0 < k.
Proof.
  intros x population m k Hp Hn H. unfold channel_median in H. apply nanmedian_spec in H.
  eapply median_pos; [exact H|]. intros y Hy. apply filter_In in Hy. destruct Hy as [Hy Hnz]. apply nonzero_true in Hnz.
  apply in_channel_values in Hy. destruct Hy as [g' [t' [Hg' [Ht' Ev]]]]. simpl in *. subst y.
  specialize (Hp g' Hg'). rewrite divide_no_nan_nz in * by lra.
  assert (0 <= val x g' t' m / population g').
  { apply Rmult_le_pos; [apply Hn; auto|]. left; apply Rinv_0_lt_compat; auto. }
  lra.
Qed.

Lemma std_gt_ge0 : forall G T x, 0 <= std_gt G T x.
Proof. intros. unfold std_gt. apply sqrt_pos. Qed.

Lemma mean_gt_ext' : forall G T x y, (forall g t, (g < G)%nat -> (t < T)%nat -> x g t = y g t) -> mean_gt G T x = mean_gt G T y.
Proof.
  intros G T x y H. unfold mean_gt. f_equal. apply rsum_ext. intros g Hg. apply rsum_ext. intros t Ht. auto.
Qed.
Lemma std_gt_ext' : forall G T x y, (forall g t, (g < G)%nat -> (t < T)%nat -> x g t = y g t) -> std_gt G T x = std_gt G T y.
Proof.
  intros G T x y H. unfold std_gt. f_equal. apply mean_gt_ext'. intros g t Hg Ht.
  rewrite (H g t) by auto. rewrite (mean_gt_ext' G T x y) by auto. reflexivity.
Qed.

Lemma centered_affine : forall G population id x m lv,
  (forall g, (g < G)%nat -> 0 < population g) -> geos x = G ->
  (forall g t, (g < geos x)%nat -> (t < times x)%nat ->
     lv g t = if match id with Some b => b m | None => false end then val x g t m / population g else val x g t m) ->
  exists shift, forall g t, (g < geos x)%nat -> (t < times x)%nat ->
    centered G population id x g t m =
    Some (if Req_EM_T (std_gt (geos x) (times x) lv) 0 then 0 else (lv g t - shift) / std_gt (geos x) (times x) lv).
Proof.
  intros G population id x m lv Hp HG Hlv.
  assert (Hb : forall b : bool, (b && existsb (fun g => if Req_EM_T (population g) 0 then true else false) (seq 0 G))%bool = false).
  { intros b. apply andb_false_iff. right. apply not_true_iff_false. intros E. apply existsb_exists in E.
    destruct E as [g [Hg E]]. apply in_seq in Hg. specialize (Hp g ltac:(lia)). destruct (Req_EM_T (population g) 0); [lra|discriminate]. }
  exists (mean_gt (geos x) (times x) lv). intros g t Hg Ht. unfold centered.
  destruct id as [b|].
  - rewrite Hb. f_equal. unfold centering_forward, centering_init. cbn [c_factors c_means c_stdevs].
    assert (Ec : forall g t, (g < geos x)%nat -> (t < times x)%nat -> val x g t m / scaling_factors population b g m = lv g t).
    { intros g0 t0 Hg0 Ht0. rewrite Hlv by auto. unfold scaling_factors. destruct (b m); [reflexivity|field]. }
    rewrite Ec by auto.
    rewrite (mean_gt_ext' _ _ (fun g t => val x g t m / scaling_factors population b g m) lv) by auto.
    rewrite (std_gt_ext' _ _ (fun g t => val x g t m / scaling_factors population b g m) lv) by auto.
    reflexivity.
  - f_equal. unfold centering_forward, centering_init. cbn [c_factors c_means c_stdevs].
    assert (Ec : forall g t, (g < geos x)%nat -> (t < times x)%nat -> val x g t m = lv g t) by (intros; rewrite Hlv; auto).
    rewrite (mean_gt_ext' _ _ (fun g t => val x g t m) lv) by auto.
    rewrite (std_gt_ext' _ _ (fun g t => val x g t m) lv) by auto.
    rewrite <- Ec by auto. reflexivity.
Qed.

Lemma media_init_some : forall x population tr m, media_transformer_init x population = Ok tr -> (m < chans x)%nat ->
  exists k, channel_median x population m = Some k /\ population_scaled_median_m tr m = k.
Proof.
  intros x population tr m H Hm. unfold media_transformer_init in H.
  destruct (forallb _ _) eqn:E; [|discriminate]. injection H as <-. cbn.
  rewrite forallb_forall in E. specialize (E m ltac:(apply in_seq; lia)).
  destruct (channel_median x population m) as [k|]; [|discriminate]. eauto.
Qed.

Lemma vcells_affine : forall d s v x c m, good_data d -> data_of d v = Some x -> vcells d s v x = Ok c -> (m < chans x)%nat ->
  0 <= unit_of d s v x m /\
  exists shift, forall g t, (g < geos x)%nat -> (t < times x)%nat ->
    c g t m = Some (if Req_EM_T (unit_of d s v x m) 0 then 0 else (level d s v x g t m - shift) / unit_of d s v x m).
Proof.
  intros d s v x c m Hd Hx Hc Hm.
  destruct (gd_shape d Hd v x Hx) as [HG HT].
  assert (Hpop : forall g, (g < geos x)%nat -> 0 < in_population d g) by (intros; apply (gd_population d Hd); lia).
  assert (Med : is_media v = true -> media_scaled (in_population d) x = Ok c ->
     0 <= unit_of d s v x m /\
     exists shift, forall g t, (g < geos x)%nat -> (t < times x)%nat ->
       c g t m = Some (if Req_EM_T (unit_of d s v x m) 0 then 0 else (level d s v x g t m - shift) / unit_of d s v x m)).
  { intros Hv Hms. unfold media_scaled in Hms. apply rbind_ok in Hms. destruct Hms as [tr [Htr Ec]].
    assert (Ec' : Ok (fun g t m => media_forward tr g m (val x g t m)) = Ok c) by exact Ec. injection Ec' as <-.
    destruct (media_init_some _ _ _ _ Htr Hm) as [k [Ek Et]].
    assert (Hk : 0 < k).
    { eapply channel_median_pos; [exact Hpop| |exact Ek]. intros g t Hg Ht. apply (gd_media d Hd v x g t m Hx Hv Hg Ht Hm). }
    destruct (media_init_median _ _ _ m Htr Hm) as [_ Hsf].
    unfold unit_of. rewrite Hv, Ek. split; [lra|]. exists 0. intros g t Hg Ht. unfold media_forward. rewrite Hsf, Et.
    specialize (Hpop g Hg). unfold fdiv.
    destruct (Req_EM_T (in_population d g * k) 0) as [E0|_]; [apply Rmult_integral in E0; lra|].
    destruct (Req_EM_T k 0); [lra|]. f_equal. unfold level.
    replace (per_capita s v m) with true by (destruct v; try discriminate Hv; reflexivity). field. lra. }
  destruct v; try (apply Med; [reflexivity|exact Hc]); cbn [vcells] in Hc; injection Hc as <-.
  - unfold unit_of. cbn [is_media]. split; [apply std_gt_ge0|].
    apply (centered_affine (in_geos d) (in_population d) (option_map snd (sp_control_scaling s)) x m (fun g t => level d s VControls x g t m));
      [apply (gd_population d Hd)|auto|]. intros g t Hg Ht. unfold level. cbn [per_capita].
    destruct (sp_control_scaling s) as [[l b]|]; reflexivity.
  - unfold unit_of. cbn [is_media]. split; [apply std_gt_ge0|].
    apply (centered_affine (in_geos d) (in_population d) (option_map snd (sp_non_media_scaling s)) x m (fun g t => level d s VNonMedia x g t m));
      [apply (gd_population d Hd)|auto|]. intros g t Hg Ht. unfold level. cbn [per_capita].
    destruct (sp_non_media_scaling s) as [[l b]|]; reflexivity.
Qed.

Lemma media_cells_exist : forall d s v x, good_data d -> data_of d v = Some x ->
  (forall m, (m < chans x)%nat -> 0 < unit_of d s v x m) -> exists c, vcells d s v x = Ok c.
Proof.
  intros d s v x Hd Hx H. destruct (is_media v) eqn:Hv.
  - assert (exists c, media_scaled (in_population d) x = Ok c) as [c Hc].
    { unfold media_scaled, media_transformer_init. assert (E : forallb (fun m => match channel_median x (in_population d) m with Some _ => true | None => false end) (seq 0 (chans x)) = true).
      { apply forallb_forall. intros m Hm. apply in_seq in Hm. specialize (H m ltac:(lia)). unfold unit_of in H. rewrite Hv in H.
        destruct (channel_median x (in_population d) m); [reflexivity|lra]. }
      rewrite E. cbn [rbind]. eauto. }
    exists c. destruct v; try discriminate Hv; exact Hc.
  - destruct v; try discriminate Hv; cbn; eauto.
Qed.

(** A row of scaled values is flat exactly when the row of levels is. *)
Lemma below_iff : forall n (c : nat -> option R) lv shift u, (0 < n)%nat -> 0 <= u ->
  (forall i, (i < n)%nat -> c i = Some (if Req_EM_T u 0 then 0 else (lv i - shift) / u)) ->
  (below (reduce_std n c) epsilon = true <-> ~ (0 < u /\ u / 10000 <= spread n lv)).
Proof.
  intros n c lv shift u Hn Hu Hc. destruct (Req_EM_T u 0) as [E|E].
  - rewrite (reduce_std_spread n c (fun _ => 0)) by auto. rewrite spread_const by auto. cbn. unfold epsilon.
    destruct (Rlt_dec 0 (1 / 10000)); [|lra]. split; [intros _ [H _]; lra|auto].
  - rewrite (reduce_std_spread n c (fun i => (lv i - shift) / u)) by auto. assert (Hu' : 0 < u) by lra.
    rewrite spread_affine by auto. cbn. unfold epsilon.
    assert (K : spread n lv = spread n lv / u * u) by (field; lra).
    destruct (Rlt_dec (spread n lv / u) (1 / 10000)) as [L|L].
    + split; [intros _ [_ H]|auto]. apply (Rmult_lt_compat_r u) in L; [|auto]. rewrite <- K in L. lra.
    + split; [discriminate|]. intros H. exfalso. apply H. split; [auto|].
      apply Rnot_lt_le in L. apply (Rmult_le_compat_r u) in L; [|lra]. rewrite <- K in L. lra.
Qed.

(** Classical steps over finite ranges. *)
Lemma not_all_flat : forall n (P : nat -> Prop) (low : nat -> bool),
  (forall i, (i < n)%nat -> (low i = true <-> ~ P i)) ->
  (~ (forall i, (i < n)%nat -> low i = true) <-> exists i, (i < n)%nat /\ P i).
Proof.
  intros n P low H. split.
  - intros Hn. destruct (forallb low (seq 0 n)) eqn:E.
    + exfalso. apply Hn. intros i Hi. rewrite forallb_forall in E. apply E. apply in_seq. lia.
    + assert (exists i, In i (seq 0 n) /\ low i = false) as [i [Hi Ei]].
      { clear - E. revert E. induction (seq 0 n) as [|a l IH]; [discriminate|]. cbn. intros E.
        destruct (low a) eqn:Ea; [destruct (IH E) as [i [H1 H2]]; exists i; split; [right; auto|auto]|exists a; split; [left; auto|auto]]. }
      apply in_seq in Hi. exists i. split; [lia|]. destruct (Classical_Prop.classic (P i)) as [C|C]; [auto|].
      apply (proj2 (H i ltac:(lia))) in C. congruence.
  - intros [i [Hi Pi]] Hall. apply (proj1 (H i Hi)); auto.
Qed.

Lemma existsb_false_seq : forall n p, existsb p (seq 0 n) = false <-> (forall i, (i < n)%nat -> p i = false).
Proof.
  intros n p. rewrite <- not_true_iff_false, existsb_exists. split.
  - intros H i Hi. apply not_true_iff_false. intros E. apply H. exists i. split; [apply in_seq; lia|auto].
  - intros H [i [Hi E]]. apply in_seq in Hi. rewrite H in E by lia. discriminate.
Qed.

Lemma raise_if_ok : forall A b e (k : result A) a, raise_if b e k = Ok a <-> b = false /\ k = Ok a.
Proof. intros A [] e k a; cbn; split; intros; [discriminate|destruct H; discriminate|auto|tauto]. Qed.

Lemma check_time_ok : forall d s v x c, good_data d -> data_of d v = Some x -> vcells d s v x = Ok c ->
  (check_time d x c = Ok tt <-> (forall m, (m < chans x)%nat -> varies_over_time d s v x m)).
Proof.
  intros d s v x c Hd Hx Hc. destruct (gd_shape d Hd v x Hx) as [HG HT].
  assert (HT0 : (0 < times x)%nat) by (pose proof (gd_times d Hd); destruct (is_media v); lia).
  assert (HG0 : (0 < geos x)%nat) by (pose proof (gd_geos d Hd); lia).
  unfold check_time. rewrite raise_if_ok, existsb_false_seq.
  assert (Hm : forall m, (m < chans x)%nat ->
    ((let count := length (filter (fun g => below (reduce_std (times x) (fun t => c g t m)) epsilon) (seq 0 (geos x))) in
      (negb (Nat.eqb count 0) && Nat.eqb count (in_geos d))%bool = false) <-> varies_over_time d s v x m)).
  { intros m Hm. destruct (vcells_affine d s v x c m Hd Hx Hc Hm) as [Hu [shift Hsh]].
    rewrite <- HG. cbv zeta. rewrite <- not_true_iff_false.
    rewrite (counted_all (geos x) (fun g => below (reduce_std (times x) (fun t => c g t m)) epsilon) HG0).
    eapply iff_trans; [apply (not_all_flat (geos x) (fun g => 0 < unit_of d s v x m /\ unit_of d s v x m / 10000 <= spread (times x) (fun t => level d s v x g t m)))|].
    - intros g Hg. apply (below_iff (times x) _ _ shift); auto. 
    - unfold varies_over_time. reflexivity. }
  split.
  - intros [H _] m Hmc. apply Hm; auto. apply (H m Hmc).
  - intros H. split; [|reflexivity]. intros m Hmc. apply (proj2 (Hm m Hmc)). auto.
Qed.

Lemma check_geo_ok : forall d s v x c, good_data d -> data_of d v = Some x -> vcells d s v x = Ok c ->
  (check_geo d s x c = Ok tt <->
   (forall m, (m < chans x)%nat -> varies_over_geos d s v x m) \/ (exists k, sp_knots s = Ok k /\ k <> in_times d)).
Proof.
  intros d s v x c Hd Hx Hc. destruct (gd_shape d Hd v x Hx) as [HG HT].
  assert (HT0 : (0 < times x)%nat) by (pose proof (gd_times d Hd); destruct (is_media v); lia).
  assert (HG0 : (0 < geos x)%nat) by (pose proof (gd_geos d Hd); lia).
  unfold check_geo. 
  assert (Hm : forall m, (m < chans x)%nat ->
    (all_below (times x) (fun t => below (reduce_std (geos x) (fun g => c g t m)) epsilon) = false <-> varies_over_geos d s v x m)).
  { intros m Hm. destruct (vcells_affine d s v x c m Hd Hx Hc Hm) as [Hu [shift Hsh]].
    unfold all_below. rewrite <- not_true_iff_false.
    rewrite (counted_all (times x) (fun t => below (reduce_std (geos x) (fun g => c g t m)) epsilon) HT0).
    eapply iff_trans; [apply (not_all_flat (times x) (fun t => 0 < unit_of d s v x m /\ unit_of d s v x m / 10000 <= spread (geos x) (fun g => level d s v x g t m)))|].
    - intros t Ht. apply (below_iff (geos x) _ _ shift); auto.
    - unfold varies_over_geos. reflexivity. }
  destruct (existsb _ _) eqn:E.
  - assert (Hk : rbind (sp_knots s) (fun k => raise_if (Nat.eqb k (in_times d)) ValueError (Ok tt)) = Ok tt <-> exists k, sp_knots s = Ok k /\ k <> in_times d).
    { rewrite rbind_ok. split; intros [k [H1 H2]]; exists k; (split; [auto|]).
      - apply raise_if_ok in H2. destruct H2 as [H2 _]. apply Nat.eqb_neq in H2. auto.
      - apply raise_if_ok. split; [apply Nat.eqb_neq; auto|reflexivity]. }
    rewrite Hk. split; [auto|]. intros [H|H]; [|auto]. exfalso.
    assert (F : existsb (fun m => all_below (times x) (fun t => below (reduce_std (geos x) (fun g => c g t m)) epsilon)) (seq 0 (chans x)) = false).
    { apply existsb_false_seq. intros m Hmc. apply (proj2 (Hm m Hmc)). auto. }
    congruence.
  - split; [intros _|reflexivity]. left. intros m Hmc. apply Hm; auto. apply (proj1 (existsb_false_seq _ _) E m Hmc).
Qed.

Lemma time_ok : forall d s, good_data d ->
  (validate_variation d s (check_time d) = Ok tt <->
   forall v x m, data_of d v = Some x -> (m < chans x)%nat -> varies_over_time d s v x m).
Proof.
  intros d s Hd. rewrite validate_variation_ok. split.
  - intros H v x m Hx Hm. destruct (H v x Hx) as [c [Hc Hk]]. apply (proj1 (check_time_ok d s v x c Hd Hx Hc) Hk m Hm).
  - intros H v x Hx. destruct (media_cells_exist d s v x Hd Hx) as [c Hc].
    { intros m Hm. destruct (H v x m Hx Hm) as [g [_ [Hu _]]]. auto. }
    exists c. split; [auto|]. apply (check_time_ok d s v x c Hd Hx Hc). auto.
Qed.

Lemma geo_ok : forall d s, good_data d ->
  (forall v x m, data_of d v = Some x -> (m < chans x)%nat -> varies_over_time d s v x m) ->
  (validate_variation d s (check_geo d s) = Ok tt <->
   (forall v x m, data_of d v = Some x -> (m < chans x)%nat -> varies_over_geos d s v x m) \/
   (exists k, sp_knots s = Ok k /\ k <> in_times d)).
Proof.
  intros d s Hd Ht. rewrite validate_variation_ok.
  assert (Ex : forall v x, data_of d v = Some x -> exists c, vcells d s v x = Ok c).
  { intros v x Hx. apply media_cells_exist; auto. intros m Hm. destruct (Ht v x m Hx Hm) as [g [_ [Hu _]]]. auto. }
  split.
  - intros H. destruct (Classical_Prop.classic (exists k, sp_knots s = Ok k /\ k <> in_times d)) as [K|K]; [auto|]. left.
    intros v x m Hx Hm. destruct (H v x Hx) as [c [Hc Hk]].
    destruct (proj1 (check_geo_ok d s v x c Hd Hx Hc) Hk) as [G|G]; [auto|tauto].
  - intros H v x Hx. destruct (Ex v x Hx) as [c Hc]. exists c. split; [auto|]. apply (check_geo_ok d s v x c Hd Hx Hc).
    destruct H as [H|H]; [left; intros m Hm; apply (H v x m Hx Hm)|right; auto].
Qed.

(** *** Shapes *)
Lemma shape_ok_iff : forall o l, shape_ok o l = true <-> fits o l.
Proof.
  intros [a|] l; unfold shape_ok, fits.
  - destruct (list_eq_dec Nat.eq_dec a l) as [E|E]; split; try discriminate.
    + intros _ b H. injection H as <-. auto.
    + intros _. reflexivity.
    + intros H. exfalso. apply E. apply H. reflexivity.
  - split; [discriminate|reflexivity].
Qed.

Lemma data_dependent_ok : forall d s, validate_data_dependent d s = Ok tt <-> shapes_fit d s.
Proof.
  intros d s. unfold validate_data_dependent. rewrite !raise_if_ok, !negb_false_iff, !shape_ok_iff.
  unfold holdout_shape, is_national. split.
  - intros (H1 & H2 & H3 & H4 & H5 & _). constructor; auto.
  - intros [H1 H2 H3 H4 H5]. repeat split; auto.
Qed.
Lemma shapes_ok : forall d s, shapes_fit d s -> validate_shapes d s = Ok tt.
Proof.
  intros d s [H1 H2 H3 H4 H5]. unfold validate_shapes. rewrite !raise_if_ok, !negb_false_iff, !shape_ok_iff.
  unfold holdout_shape, is_national. repeat split; auto.
Qed.

(** *** Priors without revenue *)
Lemma is_roi_iff : forall p, is_roi p = true <-> p = Roi. Proof. intros []; cbn; split; congruence. Qed.
Lemma is_mroi_iff : forall p, is_mroi p = true <-> p = Mroi. Proof. intros []; cbn; split; congruence. Qed.
Lemma is_contribution_iff : forall p, is_contribution p = true <-> p = Contribution. Proof. intros []; cbn; split; congruence. Qed.
Lemma paid_roi_iff : forall p, paid_roi_type p = true <-> p <> Coefficient. Proof. intros []; cbn; split; congruence. Qed.
Lemma has_iff : forall o, (0 <? n_chans o)%nat = true <-> has o. Proof. intros. apply Nat.ltb_lt. Qed.
Lemma no_revenue_iff : forall d, no_revenue d = true <-> in_revenue d = false /\ in_rpk d = false.
Proof. intros. unfold no_revenue. rewrite andb_true_iff, !negb_true_iff. tauto. Qed.

Lemma mroi_ok : forall d s, validate_mroi d s = Ok tt <-> (in_revenue d = false /\ in_rpk d = false -> ~ default_mroi d s).
Proof.
  intros d s. unfold validate_mroi. destruct (no_revenue d) eqn:E.
  - apply no_revenue_iff in E. set (NR := in_revenue d = false /\ in_rpk d = false) in *.
    rewrite !raise_if_ok, <- !not_true_iff_false, !andb_true_iff, !has_iff, !is_mroi_iff.
    unfold default_mroi. tauto.
  - split; [|auto]. intros _ H. apply no_revenue_iff in H. congruence.
Qed.

Lemma roi_ok : forall d s flag, has (in_media d) \/ has (in_reach d) ->
  (validate_roi d s = Ok flag <->
   (in_revenue d = false /\ in_rpk d = false -> some_default_roi d s -> all_default_roi d s) /\
   (flag = true <-> in_revenue d = false /\ in_rpk d = false /\ all_default_roi d s)).
Proof.
  intros d s flag Hp. unfold validate_roi. destruct (no_revenue d) eqn:E.
  - apply no_revenue_iff in E. destruct E as [E1 E2].
    assert (R1 : (is_roi (sp_media_type s) && sp_roi_m_default s)%bool = true <-> default_roi_media s)
      by (rewrite andb_true_iff, is_roi_iff; reflexivity).
    assert (R2 : (is_roi (sp_rf_type s) && sp_roi_rf_default s)%bool = true <-> default_roi_rf s)
      by (rewrite andb_true_iff, is_roi_iff; reflexivity).
    cbv zeta.
    set (a := (is_roi (sp_media_type s) && sp_roi_m_default s)%bool) in *.
    set (b := (is_roi (sp_rf_type s) && sp_roi_rf_default s)%bool) in *.
    assert (Hall : ((a && b) || (Nat.eqb (n_chans (in_media d)) 0 && b) || (Nat.eqb (n_chans (in_reach d)) 0 && a))%bool = true <-> all_default_roi d s).
    { rewrite !orb_true_iff, !andb_true_iff, !Nat.eqb_eq, R1, R2. unfold all_default_roi, has in *.
      destruct (Nat.eq_dec (n_chans (in_media d)) 0), (Nat.eq_dec (n_chans (in_reach d)) 0);
        assert (0 < n_chans (in_media d) \/ n_chans (in_media d) = 0)%nat by lia;
        assert (0 < n_chans (in_reach d) \/ n_chans (in_reach d) = 0)%nat by lia;
        split; [intros; split; intros; lia || tauto|intros; lia || tauto|intros; split; intros; lia || tauto|intros; tauto
               |intros; split; intros; lia || tauto|intros; tauto|intros; split; intros; lia || tauto|intros; tauto]. }
    destruct ((a && b) || (Nat.eqb (n_chans (in_media d)) 0 && b) || (Nat.eqb (n_chans (in_reach d)) 0 && a))%bool.
    + assert (A : all_default_roi d s) by (apply Hall; reflexivity). split.
      * intros H. injection H as <-. tauto.
      * intros [_ H]. f_equal. symmetry. apply H. auto.
    + assert (A : ~ all_default_roi d s) by (intros A; apply Hall in A; discriminate).
      set (NR := in_revenue d = false) in *. set (NK := in_rpk d = false) in *.
      rewrite !raise_if_ok, <- !not_true_iff_false, !andb_true_iff, !has_iff, R1, R2. unfold some_default_roi. split.
      * intros (H1 & H2 & H3). injection H3 as <-. split; [tauto|]. split; [discriminate|tauto].
      * intros [H1 H2]. split; [tauto|]. split; [tauto|]. f_equal. destruct flag; [|reflexivity]. exfalso. tauto.
  - split.
    + intros H. injection H as <-. split; [intros H; apply no_revenue_iff in H; congruence|]. split; [discriminate|].
      intros (H1 & H2 & _). assert (no_revenue d = true) by (apply no_revenue_iff; auto). congruence.
    + intros [_ H]. f_equal. destruct flag; [|reflexivity]. exfalso. destruct (proj1 H eq_refl) as (H1 & H2 & _).
      assert (no_revenue d = true) by (apply no_revenue_iff; auto). congruence.
Qed.

(** *** Spend *)
Lemma rsum2_zero_nonneg : forall n k (f : nat -> nat -> R),
  (forall i j, (i < n)%nat -> (j < k)%nat -> 0 <= f i j) -> rsum n (fun i => rsum k (fun j => f i j)) = 0 ->
  forall i j, (i < n)%nat -> (j < k)%nat -> f i j = 0.
Proof.
  intros n k f H E i j Hi Hj.
  assert (E1 : rsum k (fun j => f i j) = 0).
  { apply (rsum_zero_nonneg n (fun i => rsum k (fun j => f i j))); auto. intros i' Hi'. apply rsum_nonneg. intros. auto. }
  apply (rsum_zero_nonneg k (fun j => f i j)); auto.
Qed.

Lemma total_spend_zero : forall d u sp m,
  (forall g t, (g < geos u)%nat -> (t < in_times d)%nat -> 0 <= val u g (times u - in_times d + t) m) ->
  (is_zero (total_spend d u sp m) = true <-> spent d u sp m = 0).
Proof.
  intros d u sp m Hn. destruct sp as [f|f]; cbn [total_spend spent].
  - fold (window_units d u m). destruct (Req_EM_T (window_units d u m) 0) as [E|E].
    + assert (A : forallb (fun g => forallb (fun t => if Req_EM_T (val u g (times u - in_times d + t) m) 0 then true else false) (seq 0 (in_times d))) (seq 0 (geos u)) = true).
      { apply forallb_forall. intros g Hg. apply forallb_forall. intros t Ht. apply in_seq in Hg. apply in_seq in Ht.
        unfold window_units in E. assert (Z : val u g (times u - in_times d + t) m = 0).
        { apply (rsum2_zero_nonneg (geos u) (in_times d) (fun g t => val u g (times u - in_times d + t)%nat m)); auto; lia. }
        rewrite Z. destruct (Req_EM_T 0 0); [reflexivity|lra]. }
      rewrite A. destruct (Req_EM_T (f m) 0); cbn; destruct (Req_EM_T 0 0); tauto.
    + assert (S : rsum (geos u) (fun g => rsum (in_times d) (fun t => f m * (val u g (times u - in_times d + t)%nat m / window_units d u m))) = f m).
      { rewrite (rsum_ext _ _ (fun g => f m / window_units d u m * rsum (in_times d) (fun t => val u g (times u - in_times d + t)%nat m))).
        2:{ intros g Hg. rewrite <- rsum_scal. apply rsum_ext. intros. field. auto. }
        rewrite rsum_scal. fold (window_units d u m). field. auto. }
      rewrite S. cbn. destruct (Req_EM_T (f m) 0); split; intros; auto; try discriminate; tauto.
  - cbn. destruct (Req_EM_T _ 0); split; intros; auto; try discriminate; tauto.
Qed.

Lemma validate_spend_ok : forall d u sp,
  (forall x m g t, u = Some x -> (m < chans x)%nat -> (g < geos x)%nat -> (t < in_times d)%nat ->
     0 <= val x g (times x - in_times d + t) m) ->
  (validate_spend d u sp = Ok tt <-> (forall x p m, u = Some x -> sp = Some p -> (m < chans x)%nat -> spent d x p m <> 0)).
Proof.
  intros d [x|] [p|] Hn; cbn [validate_spend].
  - rewrite raise_if_ok, existsb_false_seq. split.
    + intros [H _] x' p' m E1 E2 Hm. injection E1 as <-. injection E2 as <-. intros Z.
      apply (total_spend_zero d x p m) in Z; [|intros; apply Hn; auto]. rewrite H in Z by auto. discriminate.
    + intros H. split; [|reflexivity]. intros m Hm. apply not_true_iff_false. intros Z.
      apply (total_spend_zero d x p m) in Z; [|intros; apply Hn; auto]. apply (H x p m eq_refl eq_refl Hm Z).
  - split; [discriminate|reflexivity].
  - split; [discriminate|reflexivity].
  - split; [discriminate|reflexivity].
Qed.

Lemma spends_ok : forall d, good_data d ->
  (validate_spend d (in_media d) (in_media_spend d) = Ok tt /\
   validate_spend d (times_freq (in_reach d) (in_frequency d)) (in_rf_spend d) = Ok tt <->
   (forall x p m, In (Some x, Some p) (units_of d) -> (m < chans x)%nat -> spent d x p m <> 0)).
Proof.
  intros d Hd. pose proof (gd_times d Hd) as Ht.
  rewrite validate_spend_ok.
  2:{ intros x m g t Hx Hm Hg Htt. destruct (gd_shape d Hd VMedia x Hx) as [HG HT]. cbn in HT.
      apply (gd_media d Hd VMedia x); auto. lia. }
  rewrite validate_spend_ok.
  2:{ intros x m g t Hx Hm Hg Htt. destruct (in_reach d) as [r|] eqn:Er; [|discriminate].
      destruct (in_frequency d) as [f|] eqn:Ef; [|discriminate]. cbn in Hx. injection Hx as <-. cbn in *.
      destruct (gd_shape d Hd VReach r Er) as [HG HT]. cbn in HT.
      apply Rmult_le_pos; [apply (gd_media d Hd VReach r); auto; lia|apply (gd_frequency d Hd r f Er Ef); auto; lia]. }
  unfold units_of. fold (times_freq (in_reach d) (in_frequency d)). split.
  - intros [H1 H2] x p m [E|[E|[]]] Hm; injection E as E1 E2; [apply (H1 x p m E1 E2 Hm)|apply (H2 x p m E1 E2 Hm)].
  - intros H. split; intros x p m E1 E2 Hm.
    + apply (H x p m); [left; rewrite E1, E2; reflexivity|auto].
    + apply (H x p m); [right; left; rewrite <- E1, E2; reflexivity|auto].
Qed.

(** *** KPI *)
Lemma lsum_flat : forall G T (h : nat -> nat -> R) (f : R -> R),
  lsum (map f (flat_map (fun g => map (fun t => h g t) (seq 0 T)) (seq 0 G))) = rsum G (fun g => rsum T (fun t => f (h g t))).
Proof.
  intros G T h f. induction G as [|G IH]; [reflexivity|]. rewrite seq_S, flat_map_app, map_app, lsum_app, IH. cbn [rsum flat_map plus].
  rewrite app_nil_r, map_map, lsum_seq. reflexivity.
Qed.
Lemma flat_length : forall G T (h : nat -> nat -> R), length (flat_map (fun g => map (fun t => h g t) (seq 0 T)) (seq 0 G)) = (G * T)%nat.
Proof.
  intros G T h. induction G as [|G IH]; [reflexivity|]. rewrite seq_S, flat_map_app, app_length, IH. cbn [flat_map].
  rewrite app_nil_r, map_length, seq_length. lia.
Qed.

Lemma kpi_variability : forall threshold d, good_data d -> 0 < threshold <= 1 ->
  (kpi_has_variability threshold d = false <-> constant_kpi d).
Proof.
  intros threshold d Hd Hth.
  pose proof (gd_geos d Hd) as HG. assert (HT : (0 < in_times d)%nat) by (pose proof (gd_times d Hd); lia).
  assert (Hp : forall g, (g < in_geos d)%nat -> in_population d g <> 0) by (intros g Hg; pose proof (gd_population d Hd g Hg); lra).
  assert (Len : length (kpi_cells d) = (in_geos d * in_times d)%nat) by (unfold kpi_cells; apply flat_length).
  destruct (Classical_Prop.classic (constant_kpi d)) as [C|C].
  - split; [auto|intros _]. unfold kpi_has_variability, std_ddof1. rewrite Len.
    assert (Z : forall g t, kpi_scaled d g t = 0).
    { intros g t. unfold kpi_scaled, kpi_forward.
      assert (Zs : k_stdev (kpi_init (in_geos d) (in_times d) (in_kpi d) (in_population d)) = 0).
      { apply kpi_stdev_zero_iff_lemma; auto. destruct C as [k Hk]. exists k. intros. rewrite divide_no_nan_nz; auto. }
      unfold divide_no_nan at 1. rewrite Zs. destruct (Req_EM_T 0 0); [reflexivity|lra]. }
    assert (S0 : lsum (map (fun x => (x - mean_list (kpi_cells d)) ^ 2) (kpi_cells d)) = 0).
    { assert (M0 : mean_list (kpi_cells d) = 0).
      { unfold mean_list. rewrite <- (map_id (kpi_cells d)) at 1. unfold kpi_cells at 1. rewrite lsum_flat.
        rewrite rsum_zero; [unfold Rdiv; ring|]. intros g Hg. apply rsum_zero. intros. apply Z. }
      rewrite M0. unfold kpi_cells. rewrite lsum_flat. apply rsum_zero. intros g Hg. apply rsum_zero. intros. rewrite Z. ring. }
    rewrite S0. destruct (in_geos d * in_times d)%nat as [|[|n]]; try reflexivity.
    unfold Rdiv. rewrite Rmult_0_l, sqrt_0. destruct (Rle_dec threshold 0); [lra|reflexivity].
  - split; [|tauto]. intros H. exfalso.
    destruct (kpi_standardised_lemma (in_geos d) (in_times d) (in_kpi d) (in_population d) HG HT Hp C) as [M0 M1].
    unfold mean_zero in M0. unfold mean_square_one in M1.
    assert (E0 : mean_list (kpi_cells d) = 0).
    { unfold mean_list. rewrite <- (map_id (kpi_cells d)) at 1. unfold kpi_cells at 1. rewrite lsum_flat.
      unfold kpi_scaled. rewrite M0. unfold Rdiv; ring. }
    assert (E1 : lsum (map (fun x => (x - mean_list (kpi_cells d)) ^ 2) (kpi_cells d)) = INR (in_geos d * in_times d)).
    { rewrite E0. unfold kpi_cells. rewrite lsum_flat, mult_INR, <- M1. unfold kpi_scaled.
      apply rsum_ext. intros g Hg. apply rsum_ext. intros. rewrite Rminus_0_r. reflexivity. }
    unfold kpi_has_variability, std_ddof1 in H. rewrite Len, E1 in H.
    destruct (in_geos d * in_times d)%nat as [|[|n]] eqn:En; [lia| |].
    + apply C. assert (in_geos d = 1 /\ in_times d = 1)%nat as [G1 T1] by nia.
      exists (in_kpi d 0 0 / in_population d 0). intros g t Hg Ht. replace g with 0%nat by lia. replace t with 0%nat by lia. reflexivity.
    + replace (S (S n) - 1)%nat with (S n) in H by lia.
      assert (Hs : 1 <= sqrt (INR (S (S n)) / INR (S n))).
      { rewrite <- sqrt_1 at 1. apply sqrt_le_1_alt. assert (0 < INR (S n)) by (apply lt_0_INR; lia).
        apply (Rmult_le_reg_r (INR (S n))); [auto|]. unfold Rdiv. rewrite Rmult_assoc, Rinv_l by lra. rewrite (S_INR (S n)). lra. }
      destruct (Rle_dec threshold (sqrt (INR (S (S n)) / INR (S n)))); [discriminate|lra].
Qed.

Lemma validate_kpi_ok : forall threshold d s, good_data d -> 0 < threshold <= 1 ->
  (validate_kpi threshold d s = Ok tt <-> (constant_kpi d -> ~ needs_kpi d s)).
Proof.
  intros threshold d s Hd Hth. unfold validate_kpi. pose proof (kpi_variability threshold d Hd Hth) as K.
  destruct (kpi_has_variability threshold d).
  - split; [|auto]. intros _ C. apply K in C. discriminate.
  - rewrite !raise_if_ok, <- !not_true_iff_false, !andb_true_iff, !has_iff, !paid_roi_iff, !is_contribution_iff.
    assert (C : constant_kpi d) by (apply K; reflexivity). unfold needs_kpi. tauto.
Qed.

(** *** Everything *)
Lemma construct_lemma : forall threshold d s flag, good_data d -> 0 < threshold <= 1 ->
  (construct threshold d s = Ok flag <->
   shapes_fit d s /\
   (in_revenue d = false /\ in_rpk d = false -> ~ default_mroi d s) /\
   (in_revenue d = false /\ in_rpk d = false -> some_default_roi d s -> all_default_roi d s) /\
   sp_support s = Ok tt /\
   (forall v x m, data_of d v = Some x -> (m < chans x)%nat -> varies_over_time d s v x m) /\
   (in_geos d <> 1%nat ->
    (forall v x m, data_of d v = Some x -> (m < chans x)%nat -> varies_over_geos d s v x m) \/
    (exists k, sp_knots s = Ok k /\ k <> in_times d)) /\
   (forall x p m, In (Some x, Some p) (units_of d) -> (m < chans x)%nat -> spent d x p m <> 0) /\
   (constant_kpi d -> ~ needs_kpi d s) /\
   (flag = true <-> in_revenue d = false /\ in_rpk d = false /\ all_default_roi d s)).
Proof.
  intros threshold d s flag Hd Hth.
  rewrite <- (data_dependent_ok d s), <- (mroi_ok d s), <- (time_ok d s Hd), <- (validate_kpi_ok threshold d s Hd Hth), <- (spends_ok d Hd).
  pose proof (roi_ok d s flag (gd_paid d Hd)) as RO.
  assert (GO : validate_variation d s (check_time d) = Ok tt ->
    ((if is_national d then Ok tt else validate_variation d s (check_geo d s)) = Ok tt <->
     (in_geos d <> 1%nat ->
      (forall v x m, data_of d v = Some x -> (m < chans x)%nat -> varies_over_geos d s v x m) \/
      (exists k, sp_knots s = Ok k /\ k <> in_times d)))).
  { intros HT0. pose proof (proj1 (time_ok d s Hd) HT0) as HT. unfold is_national. destruct (Nat.eqb (in_geos d) 1) eqn:En.
    - apply Nat.eqb_eq in En. tauto.
    - apply Nat.eqb_neq in En. rewrite (geo_ok d s Hd HT). tauto. }
  set (GP := in_geos d <> 1%nat -> _) in *. clearbody GP.
  set (RP := in_revenue d = false /\ in_rpk d = false -> some_default_roi d s -> all_default_roi d s) in *. clearbody RP.
  set (FP := flag = true <-> in_revenue d = false /\ in_rpk d = false /\ all_default_roi d s) in *. clearbody FP.
  unfold construct, context_init. rewrite rbind_ok. split.
  - intros [f [H1 H2]]. apply rbind_ok in H2. destruct H2 as [[] [HK Ef]]. assert (f = flag) by congruence. subst f. clear Ef.
    apply rbind_ok in H1. destruct H1 as [[] [A1 H1]]. apply rbind_ok in H1. destruct H1 as [[] [A2 H1]].
    apply rbind_ok in H1. destruct H1 as [[] [A3 H1]]. apply rbind_ok in H1. destruct H1 as [f [A4 H1]].
    apply rbind_ok in H1. destruct H1 as [[] [A5 H1]]. apply rbind_ok in H1. destruct H1 as [[] [A6 H1]].
    apply rbind_ok in H1. destruct H1 as [[] [A7 H1]]. apply rbind_ok in H1. destruct H1 as [[] [A8 H1]].
    apply rbind_ok in H1. destruct H1 as [[] [A9 H1]]. assert (f = flag) by congruence. subst f. clear H1. tauto.
  - intros (B1 & B2 & B3 & B4 & B5 & B6 & [B7 B8] & B9 & B10). exists flag.
    assert (B1' : validate_shapes d s = Ok tt) by (apply shapes_ok, data_dependent_ok; auto).
    assert (B3' : validate_roi d s = Ok flag) by tauto.
    assert (B6' : (if is_national d then Ok tt else validate_variation d s (check_geo d s)) = Ok tt) by (apply GO; auto).
    rewrite B1, B1', B2, B3', B4, B6', B5, B7, B8, B9. cbn [rbind]. auto.
Qed.
