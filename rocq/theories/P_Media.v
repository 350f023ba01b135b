(** Proofs about Hill, the kernels and the per-channel media transformation. *)
From Coq Require Import Reals ZArith Lra Lia List Bool Arith.
From Verif Require Import Lib_Sum Lib_Pow M_Base M_AdstockHill M_Equations S_Adstock S_Media P_Adstock.
Import ListNotations.
Local Open Scope R_scope.

(** *** Hill *)
Lemma hill_documented : forall ec slope x,
  0 < ec -> 0 < slope -> 0 <= x -> hill ec slope x = documented_hill ec slope x.
Proof.
  intros ec slope x Hec Hs Hx. unfold hill, documented_hill.
  destruct (Req_EM_T x 0) as [->|Hne].
  - rewrite rpow_0_l by auto. unfold Rdiv; lra.
  - assert (0 < x) by lra.
    rewrite !rpow_pos_base by auto.
    assert (E : Rpower (x / ec) (- slope) = Rpower ec slope / Rpower x slope).
    { unfold Rpower, Rdiv. rewrite ln_mult, ln_Rinv by (try apply Rinv_0_lt_compat; auto).
      rewrite <- exp_Ropp, <- exp_plus. f_equal. lra. }
    rewrite E.
    assert (0 < Rpower x slope) by apply exp_pos.
    assert (0 < Rpower ec slope) by apply exp_pos.
    field. lra.
Qed.

Lemma hill_range_lemma : forall ec slope x,
  0 < ec -> 0 < slope -> 0 <= x -> 0 <= hill ec slope x < 1.
Proof.
  intros ec slope x Hec Hs Hx. unfold hill.
  pose proof (rpow_nonneg x slope Hx). pose proof (rpow_pos ec slope Hec).
  split.
  - apply Rmult_le_pos; [auto|]. left; apply Rinv_0_lt_compat; lra.
  - apply Rmult_lt_reg_r with (rpow x slope + rpow ec slope); [lra|].
    unfold Rdiv. rewrite Rmult_assoc, Rinv_l by lra. lra.
Qed.

Lemma frac_lt : forall a b e, 0 <= a -> a < b -> 0 < e -> a / (a + e) < b / (b + e).
Proof.
  intros a b e Ha Hab He.
  assert (b / (b + e) - a / (a + e) = e * (b - a) / ((a + e) * (b + e))) by (field; lra).
  assert (0 < e * (b - a) / ((a + e) * (b + e))).
  { apply Rmult_lt_0_compat; [apply Rmult_lt_0_compat; lra|].
    apply Rinv_0_lt_compat, Rmult_lt_0_compat; lra. }
  lra.
Qed.

Lemma frac_anti : forall a e e', 0 <= a -> 0 < e -> e <= e' -> a / (a + e') <= a / (a + e).
Proof.
  intros a e e' Ha He Hee.
  apply Rmult_le_compat_l; [auto|]. apply Rinv_le_contravar; lra.
Qed.

Lemma hill_strict_lemma : forall ec slope x y,
  0 < ec -> 0 < slope -> 0 <= x -> x < y -> hill ec slope x < hill ec slope y.
Proof.
  intros. unfold hill. apply frac_lt.
  - apply rpow_nonneg; auto.
  - apply rpow_lt; auto.
  - apply rpow_pos; auto.
Qed.

Lemma hill_mono : forall ec slope x y,
  0 < ec -> 0 < slope -> 0 <= x -> x <= y -> hill ec slope x <= hill ec slope y.
Proof.
  intros. destruct (Req_dec x y) as [->|]; [lra|].
  left; apply hill_strict_lemma; auto; lra.
Qed.

Lemma hill_ec_lemma : forall ec ec' slope x,
  0 < ec -> ec <= ec' -> 0 < slope -> 0 <= x -> hill ec' slope x <= hill ec slope x.
Proof.
  intros. unfold hill. apply frac_anti.
  - apply rpow_nonneg; auto.
  - apply rpow_pos; auto.
  - apply rpow_le; lra.
Qed.

Lemma hill_zero_lemma : forall ec slope, 0 < slope -> hill ec slope 0 = 0.
Proof. intros. unfold hill. rewrite rpow_0_l by auto. unfold Rdiv; lra. Qed.

Lemma hill_half_lemma : forall ec slope, 0 < ec -> hill ec slope ec = 1 / 2.
Proof.
  intros. unfold hill. pose proof (rpow_pos ec slope H). field. lra.
Qed.

(** *** Kernels *)
Lemma kernels_agree_lemma : forall media W weights n_out,
  (0 < W)%nat -> (0 < n_out)%nat -> times media = (n_out + W - 1)%nat ->
  exists a b, adstock_process_window media W weights n_out = Ok a /\
    adstock_process_conv media W weights n_out = Ok b /\ T3_eq a b /\ times a = n_out.
Proof.
  intros media W weights n_out HW Hno Ht.
  unfold adstock_process_window, adstock_process_conv.
  assert (E1 : Nat.leb (W - 1 + n_out) (times media) = true) by (apply Nat.leb_le; lia).
  assert (E2 : Nat.leb W (times media) = true) by (apply Nat.leb_le; lia).
  rewrite E1, E2. eexists; eexists; split; [reflexivity|]; split; [reflexivity|].
  split; [|reflexivity].
  unfold T3_eq; simpl. repeat split; auto; try lia.
  intros g t c Hg Htt Hc. unfold conv_valid.
  apply rsum_ext; intros w Hw.
  unfold conv_flat_media, conv_flat_kernel.
  assert (chans media <> 0)%nat by lia.
  replace ((g * chans media + c) / chans media)%nat with g
    by (rewrite Nat.div_add_l, Nat.div_small by auto; lia).
  replace ((g * chans media + c) mod chans media)%nat with c
    by (rewrite Nat.add_comm, Nat.mod_add, Nat.mod_small by auto; reflexivity).
  rewrite Rmult_comm. f_equal. f_equal. lia.
Qed.

(** *** Saturation mask *)
Lemma saturation_where_spec : forall n sa,
  sat_ok sa n ->
  exists mask, saturation_mask n sa = Ok mask /\
    forall a b, chans a = n -> exists out, where_chan mask a b = Ok out /\
      geos out = geos a /\ times out = times a /\ chans out = n /\
      forall g t c, (c < n)%nat -> exists s, assigned_sat sa n c = Some s /\ s <> OtherSat /\
        val out g t c = if is_hill s then val a g t c else val b g t c.
Proof.
  intros n sa Hok. destruct sa as [s|ss]; simpl in *.
  - assert (E : valid_sat s = true) by (destruct s; simpl; congruence).
    rewrite E. eexists; split; [reflexivity|]. intros a b <-.
    unfold where_chan; simpl. rewrite Nat.eqb_refl.
    eexists; split; [reflexivity|]. simpl. repeat split; auto.
    intros; exists s; auto.
  - destruct Hok as [Hlen Hall].
    assert (E : forallb valid_sat ss = true).
    { apply forallb_forall. intros x Hx. rewrite Forall_forall in Hall.
      specialize (Hall x Hx). destruct x; simpl; congruence. }
    rewrite E. eexists; split; [reflexivity|]. intros a b <-.
    unfold where_chan; simpl.
    destruct (Nat.eqb (length ss) (chans a)) eqn:En.
    + eexists; split; [reflexivity|]. simpl. repeat split; auto. intros g t c Hc.
      apply Nat.eqb_eq in En.
      destruct (nth_error ss c) as [s|] eqn:Es; [|apply nth_error_None in Es; lia].
      exists s. split; [reflexivity|]. split.
      * rewrite Forall_forall in Hall. apply Hall. eapply nth_error_In; eauto.
      * rewrite (nth_error_nth ss c OtherSat Es). reflexivity.
    + apply Nat.eqb_neq in En. destruct Hlen as [|Hlen]; [congruence|].
      destruct ss as [|s [|]]; simpl in Hlen; try lia. simpl.
      eexists; split; [reflexivity|]. simpl. repeat split; auto. intros; exists s.
      inversion Hall; subst; auto.
Qed.

Lemma documented_weight_ok : forall d a W,
  recognised d -> 0 <= a <= 1 ->
  (forall l, (l < W)%nat -> 0 <= documented_weight d a W l).
Proof. intros; apply documented_weight_nonneg; auto. Qed.

Lemma lagged_average_nonneg : forall W w x t,
  (forall l, (l < W)%nat -> 0 <= w l) -> (forall s, (s <= t)%nat -> 0 <= x s) ->
  0 <= lagged_average W w x t.
Proof.
  intros. unfold lagged_average. apply rsum_nonneg; intros i Hi.
  apply Rmult_le_pos; auto. unfold past. destruct (Nat.leb i t); [apply H0; lia|lra].
Qed.

Lemma adstock_hill_media_lemma : forall cx media p df sa n_out,
  (0 <= ctx_max_lag cx)%Z -> (1 <= n_out <= Z.of_nat (times media))%Z ->
  n_par p = chans media -> params_ok p ->
  decay_ok df (chans media) -> sat_ok sa (chans media) ->
  (forall g t c, (t < times media)%nat -> (c < chans media)%nat -> 0 <= val media g t c) ->
  exists out, adstock_hill_media cx media p df sa (Some n_out) = Ok out /\
    geos out = geos media /\ Z.of_nat (times out) = n_out /\ chans out = chans media /\
    forall g t c, (t < times out)%nat -> (c < chans media)%nat ->
      exists d s, assigned_decay df (chans media) c = Some d /\ recognised d /\
        assigned_sat sa (chans media) c = Some s /\ s <> OtherSat /\
        let W := Nat.min (Z.to_nat (ctx_max_lag cx) + 1) (times media) in
        val out g t c =
          media_response (ctx_hill_before_adstock cx) s (p_ec p c) (p_slope p c)
            W (documented_weight d (p_alpha p c) W) (fun u => val media g u c)
            (times media - times out + t).
Proof.
  intros cx media p df sa n_out Hlag Hn Hp Hpar Hdf Hsa Hmed.
  unfold adstock_hill_media. simpl rbind.
  destruct (saturation_where_spec _ _ Hsa) as [mask [-> Hmask]]. simpl rbind.
  assert (Halpha : forall c, (c < chans media)%nat -> 0 <= p_alpha p c <= 1)
    by (intros; apply Hpar; lia).
  destruct (ctx_hill_before_adstock cx) eqn:Ehb.
  - unfold hill_forward. rewrite Nat.eqb_refl, Hp, Nat.eqb_refl. simpl rbind.
    match goal with |- context [where_chan mask ?a media] =>
      destruct (Hmask a media eq_refl) as [sel [-> [Sg [St [Sc Sv]]]]] end.
    simpl in Sg, St. simpl rbind.
    destruct (adstock_lagged_average_lemma sel (p_alpha p) (ctx_max_lag cx) n_out df)
      as [out [Ho [Hg [Ht [Hc Hv]]]]]; auto; try (rewrite ?Sc, ?St; auto; fail).
    rewrite Sc in *.
    exists out. split; [exact Ho|]. split; [congruence|]. split; [exact Ht|].
    split; [exact Hc|].
    intros g t c Htt Hcc.
    destruct (Hv g t c Htt Hcc) as [d [Hd [Hr Heq]]].
    destruct (Sv g t c Hcc) as [s [Hs [Hso _]]].
    exists d, s. repeat (split; [auto|]).
    cbv zeta. cbv zeta in Heq. rewrite Heq. unfold media_response. rewrite St.
    apply lagged_average_ext. intros u Hu _.
    destruct (Sv g u c Hcc) as [s' [Hs' [_ ->]]].
    assert (s' = s) by congruence; subst s'.
    destruct s; simpl; try reflexivity; try congruence.
    apply hill_documented; try apply Hpar; try lia. apply Hmed; auto. lia.
  - rewrite Hp.
    destruct (adstock_lagged_average_lemma media (p_alpha p) (ctx_max_lag cx) n_out df)
      as [ads [Ho [Hg [Ht [Hc Hv]]]]]; auto.
    rewrite Ho. simpl rbind. unfold hill_forward.
    rewrite Nat.eqb_refl, Hc, Nat.eqb_refl. simpl rbind.
    match goal with |- context [where_chan mask ?a ads] =>
      destruct (Hmask a ads eq_refl) as [sel [-> [Sg [St [Sc Sv]]]]] end.
    simpl in Sg, St.
    exists sel; split; [reflexivity|]. split; [congruence|]. split; [congruence|].
    split; [congruence|]. rewrite St.
    intros g t c Htt Hcc.
    destruct (Hv g t c Htt Hcc) as [d [Hd [Hr Heq]]].
    destruct (Sv g t c Hcc) as [s [Hs [Hso Hm]]].
    exists d, s. repeat (split; [auto|]).
    cbv zeta in Heq. unfold media_response.
    rewrite Hm. simpl. rewrite Heq. destruct s; simpl; try reflexivity; try congruence.
    apply hill_documented; try apply Hpar; try lia.
    apply lagged_average_nonneg.
    + apply documented_weight_ok; auto.
    + intros; apply Hmed; auto; lia.
Qed.

Lemma adstock_hill_rf_lemma : forall cx reach freq p df sa n_out,
  (0 <= ctx_max_lag cx)%Z -> (1 <= n_out <= Z.of_nat (times reach))%Z ->
  geos freq = geos reach -> times freq = times reach -> chans freq = chans reach ->
  n_par p = chans reach -> params_ok p ->
  decay_ok df (chans reach) -> sat_ok sa (chans reach) ->
  (forall g t c, (t < times reach)%nat -> (c < chans reach)%nat -> 0 <= val freq g t c) ->
  exists out, adstock_hill_rf cx reach freq p df sa (Some n_out) = Ok out /\
    geos out = geos reach /\ Z.of_nat (times out) = n_out /\ chans out = chans reach /\
    forall g t c, (t < times out)%nat -> (c < chans reach)%nat ->
      exists d s, assigned_decay df (chans reach) c = Some d /\ recognised d /\
        assigned_sat sa (chans reach) c = Some s /\ s <> OtherSat /\
        let W := Nat.min (Z.to_nat (ctx_max_lag cx) + 1) (times reach) in
        val out g t c =
          lagged_average W (documented_weight d (p_alpha p c) W)
            (fun u => val reach g u c * saturate s (p_ec p c) (p_slope p c) (val freq g u c))
            (times reach - times out + t).
Proof.
  intros cx reach freq p df sa n_out Hlag Hn Hfg Hft Hfc Hp Hpar Hdf Hsa Hfreq.
  unfold adstock_hill_rf. simpl rbind.
  unfold hill_forward. rewrite Nat.eqb_refl, Hfc, Hp, Nat.eqb_refl. simpl rbind.
  destruct (saturation_where_spec _ _ Hsa) as [mask [-> Hmask]]. simpl rbind.
  assert (Halpha : forall c, (c < chans reach)%nat -> 0 <= p_alpha p c <= 1)
    by (intros; apply Hpar; lia).
  match goal with |- context [where_chan mask ?a freq] =>
    destruct (Hmask a freq eq_refl) as [sel [-> [Sg [St [Sc Sv]]]]] end.
  simpl in Sg, St. simpl rbind.
  set (prod := mul3 reach _).
  destruct (adstock_lagged_average_lemma prod (p_alpha p) (ctx_max_lag cx) n_out df)
    as [out [Ho [Hg [Ht [Hc Hv]]]]]; auto.
  exists out. split; [exact Ho|]. split; [exact Hg|]. split; [exact Ht|]. split; [exact Hc|].
  intros g t c Htt Hcc.
  destruct (Hv g t c Htt Hcc) as [d [Hd [Hr Heq]]].
  destruct (Sv g t c Hcc) as [s [Hs [Hso _]]].
  exists d, s. repeat (split; [auto|]).
  cbv zeta. cbv zeta in Heq. rewrite Heq. unfold prod; simpl.
  apply lagged_average_ext. intros u Hu _. f_equal.
  destruct (Sv g u c Hcc) as [s' [Hs' [_ ->]]].
  assert (s' = s) by congruence; subst s'.
  destruct s; simpl; try reflexivity; try congruence.
  apply hill_documented; try apply Hpar; try lia. apply Hfreq; auto. lia.
Qed.
