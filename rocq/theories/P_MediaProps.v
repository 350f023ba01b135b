(** Consequences of the media refinement lemmas, in the form used by the property files. *)
From Coq Require Import Reals ZArith Lra Lia List Bool Arith.
From Verif Require Import Lib_Sum Lib_Pow M_Base M_AdstockHill M_Equations S_Adstock S_Media P_Adstock P_Media.
Import ListNotations.
Local Open Scope R_scope.

Lemma adstock_val_lemma : forall media alpha max_lag n_out df out,
  adstock_args_ok media alpha max_lag n_out df ->
  adstock media (chans media) alpha max_lag n_out df = Ok out ->
  geos out = geos media /\ Z.of_nat (times out) = n_out /\ chans out = chans media /\
  forall c, (c < chans media)%nat -> exists d, assigned_decay df (chans media) c = Some d /\ recognised d /\
    forall g t, (t < times out)%nat ->
      val out g t c = lagged_average (window media max_lag)
        (documented_weight d (alpha c) (window media max_lag)) (fun s => val media g s c)
        (times media - times out + t).
Proof.
  intros media alpha max_lag n_out df out [H1 [H2 [H3 H4]]] Ho.
  destruct (adstock_lagged_average_lemma media alpha max_lag n_out df H1 H2 H3 H4)
    as [out' [Ho' [Hg [Ht [Hc Hv]]]]].
  assert (out' = out) by congruence; subst out'.
  repeat (split; [auto|]). intros c Hcc.
  destruct (Hv O O c ltac:(lia) Hcc) as [d [Hd [Hr _]]].
  exists d; repeat (split; [auto|]). intros g t Htt.
  destruct (Hv g t c Htt Hcc) as [d' [Hd' [_ E]]].
  assert (d' = d) by congruence; subst. exact E.
Qed.

Lemma adstock_runs : forall media alpha max_lag n_out df,
  adstock_args_ok media alpha max_lag n_out df ->
  exists out, adstock media (chans media) alpha max_lag n_out df = Ok out.
Proof.
  intros media alpha max_lag n_out df [H1 [H2 [H3 H4]]].
  destruct (adstock_lagged_average_lemma media alpha max_lag n_out df H1 H2 H3 H4)
    as [out [Ho _]]. eauto.
Qed.

Lemma window_pos : forall media max_lag, (1 <= times media)%nat -> (0 < window media max_lag)%nat.
Proof. intros; unfold window; lia. Qed.

Lemma window_le : forall media max_lag, (window media max_lag <= times media)%nat.
Proof. intros; unfold window; lia. Qed.

Lemma adstock_recent_lemma : forall x y alpha max_lag n_out df ox oy,
  same_shape x y -> adstock_args_ok x alpha max_lag n_out df ->
  (forall g s c, (c < chans x)%nat -> (s < times x)%nat ->
     (times x < s + Z.to_nat n_out + window x max_lag)%nat ->
     val x g s c = val y g s c) ->
  adstock x (chans x) alpha max_lag n_out df = Ok ox ->
  adstock y (chans y) alpha max_lag n_out df = Ok oy ->
  T3_eq ox oy.
Proof.
  intros x y alpha max_lag n_out df ox oy [Sg [St Sc]] Hok Hxy Hx Hy.
  assert (Hok' : adstock_args_ok y alpha max_lag n_out df)
    by (unfold adstock_args_ok in *; rewrite <- Sc, <- St; auto).
  destruct (adstock_val_lemma _ _ _ _ _ _ Hok Hx) as [Gx [Tx [Cx Vx]]].
  destruct (adstock_val_lemma _ _ _ _ _ _ Hok' Hy) as [Gy [Ty [Cy Vy]]].
  unfold T3_eq. repeat split; try congruence; try lia.
  intros g t c Hg Ht Hc.
  destruct (Vx c ltac:(congruence)) as [d [Hd [Hr Ex]]].
  destruct (Vy c ltac:(congruence)) as [d' [Hd' [_ Ey]]].
  assert (d' = d) by congruence; subst d'.
  assert (Tyx : times oy = times ox) by lia.
  rewrite Ex by auto. rewrite Ey by lia.
  assert (EW : window y max_lag = window x max_lag) by (unfold window; rewrite St; reflexivity).
  rewrite EW, Tyx, <- St. apply lagged_average_ext.
  destruct Hok as [_ [Hn _]].
  intros s Hs HsW. apply Hxy; try congruence; lia.
Qed.

Lemma adstock_linear_lemma : forall x y z a b alpha max_lag n_out df ox oy oz,
  same_shape x y -> same_shape x z -> adstock_args_ok x alpha max_lag n_out df ->
  (forall g t c, val z g t c = a * val x g t c + b * val y g t c) ->
  adstock x (chans x) alpha max_lag n_out df = Ok ox ->
  adstock y (chans y) alpha max_lag n_out df = Ok oy ->
  adstock z (chans z) alpha max_lag n_out df = Ok oz ->
  forall g t c, (Z.of_nat t < n_out)%Z -> (c < chans x)%nat ->
    val oz g t c = a * val ox g t c + b * val oy g t c.
Proof.
  intros x y z a b alpha max_lag n_out df ox oy oz [Sg [St Sc]] [Sg' [St' Sc']] Hok Hz Hx Hy Hzz.
  assert (Hoky : adstock_args_ok y alpha max_lag n_out df)
    by (unfold adstock_args_ok in *; rewrite <- Sc, <- St; auto).
  assert (Hokz : adstock_args_ok z alpha max_lag n_out df)
    by (unfold adstock_args_ok in *; rewrite <- Sc', <- St'; auto).
  destruct (adstock_val_lemma _ _ _ _ _ _ Hok Hx) as [Gx [Tx [Cx Vx]]].
  destruct (adstock_val_lemma _ _ _ _ _ _ Hoky Hy) as [Gy [Ty [Cy Vy]]].
  destruct (adstock_val_lemma _ _ _ _ _ _ Hokz Hzz) as [Gz [Tz [Cz Vz]]].
  intros g t c Ht Hc.
  destruct (Vx c Hc) as [d [Hd [_ Ex]]].
  destruct (Vy c ltac:(congruence)) as [d1 [Hd1 [_ Ey]]].
  destruct (Vz c ltac:(congruence)) as [d2 [Hd2 [_ Ez]]].
  assert (d1 = d) by congruence; subst d1.
  assert (d2 = d) by congruence; subst d2.
  rewrite Ex, Ey, Ez by lia.
  assert (EWy : window y max_lag = window x max_lag) by (unfold window; rewrite St; reflexivity).
  assert (EWz : window z max_lag = window x max_lag) by (unfold window; rewrite St'; reflexivity).
  assert (times oy = times ox) by lia. assert (times oz = times ox) by lia.
  rewrite EWy, EWz, <- St, <- St'. replace (times oy) with (times ox). replace (times oz) with (times ox).
  rewrite <- lagged_average_linear. apply lagged_average_ext; intros; apply Hz.
Qed.

Lemma adstock_monotone_lemma : forall x y alpha max_lag n_out df ox oy,
  same_shape x y -> adstock_args_ok x alpha max_lag n_out df ->
  (forall g t c, (t < times x)%nat -> (c < chans x)%nat -> val x g t c <= val y g t c) ->
  adstock x (chans x) alpha max_lag n_out df = Ok ox ->
  adstock y (chans y) alpha max_lag n_out df = Ok oy ->
  forall g t c, (Z.of_nat t < n_out)%Z -> (c < chans x)%nat -> val ox g t c <= val oy g t c.
Proof.
  intros x y alpha max_lag n_out df ox oy [Sg [St Sc]] Hok Hxy Hx Hy g t c Ht Hc.
  assert (Hoky : adstock_args_ok y alpha max_lag n_out df)
    by (unfold adstock_args_ok in *; rewrite <- Sc, <- St; auto).
  destruct (adstock_val_lemma _ _ _ _ _ _ Hok Hx) as [Gx [Tx [Cx Vx]]].
  destruct (adstock_val_lemma _ _ _ _ _ _ Hoky Hy) as [Gy [Ty [Cy Vy]]].
  destruct (Vx c Hc) as [d [Hd [Hr Ex]]].
  destruct (Vy c ltac:(congruence)) as [d1 [Hd1 [_ Ey]]].
  assert (d1 = d) by congruence; subst d1.
  rewrite Ex, Ey by lia.
  assert (EWy : window y max_lag = window x max_lag) by (unfold window; rewrite St; reflexivity).
  assert (times oy = times ox) by lia.
  rewrite EWy, <- St. replace (times oy) with (times ox).
  destruct Hok as [_ [Hn [_ Ha]]].
  apply lagged_average_mono.
  - intros; apply documented_weight_nonneg; auto. apply Ha; auto.
  - intros s Hs; apply Hxy; auto; lia.
Qed.

Lemma adstock_contraction_lemma : forall x alpha max_lag n_out df ox hi,
  adstock_args_ok x alpha max_lag n_out df ->
  (forall g t c, (t < times x)%nat -> (c < chans x)%nat -> 0 <= val x g t c <= hi) ->
  adstock x (chans x) alpha max_lag n_out df = Ok ox ->
  forall g t c, (Z.of_nat t < n_out)%Z -> (c < chans x)%nat -> 0 <= val ox g t c <= hi.
Proof.
  intros x alpha max_lag n_out df ox hi Hok Hb Hx g t c Ht Hc.
  destruct (adstock_val_lemma _ _ _ _ _ _ Hok Hx) as [Gx [Tx [Cx Vx]]].
  destruct (Vx c Hc) as [d [Hd [Hr Ex]]]. rewrite Ex by lia.
  destruct Hok as [Hl [Hn [_ Ha]]].
  apply lagged_average_bounds.
  - intros; apply documented_weight_nonneg; auto; apply Ha; auto.
  - apply documented_weight_sum; auto. apply Ha; auto. apply window_pos; lia.
  - specialize (Hb g O c ltac:(lia) Hc). lra.
  - intros; apply Hb; auto; lia.
Qed.

Lemma adstock_steady_lemma : forall x alpha max_lag n_out df ox g t c k,
  adstock_args_ok x alpha max_lag n_out df ->
  adstock x (chans x) alpha max_lag n_out df = Ok ox ->
  (Z.of_nat t < n_out)%Z -> (c < chans x)%nat ->
  let s := (times x - times ox + t)%nat in
  (window x max_lag <= s + 1)%nat ->
  (forall u, (u <= s)%nat -> (s < u + window x max_lag)%nat -> val x g u c = k) ->
  val ox g t c = k.
Proof.
  intros x alpha max_lag n_out df ox g t c k Hok Hx Ht Hc s Hs Hk.
  destruct (adstock_val_lemma _ _ _ _ _ _ Hok Hx) as [Gx [Tx [Cx Vx]]].
  destruct (Vx c Hc) as [d [Hd [Hr Ex]]]. rewrite Ex by lia.
  destruct Hok as [Hl [Hn [_ Ha]]].
  apply lagged_average_const; auto.
  - apply documented_weight_sum; auto. apply Ha; auto. apply window_pos; lia.
  - intros l Hll. apply Hk; unfold s in *; lia.
Qed.

Lemma documented_weight_alpha0 : forall d W l, recognised d -> (l < W)%nat ->
  documented_weight d 0 W l = if Nat.eqb l 0 then 1 else 0.
Proof.
  intros d W l Hd Hl. unfold documented_weight.
  assert (E : forall l', (l' < W)%nat ->
            documented_decay d 0 W l' = (if Nat.eqb l' 0 then 1 else 0)).
  { intros l' Hl'. destruct Hd as [->| ->]; simpl.
    - destruct l'; simpl; lra.
    - destruct (Req_EM_T 0 0); [reflexivity|lra]. }
  rewrite E by auto.
  rewrite (rsum_ext W _ (fun i => if Nat.eqb i 0 then 1 else 0)) by (intros; apply E; auto).
  assert (Hz : forall i, (i < W)%nat -> i <> 0%nat -> (if Nat.eqb i 0 then 1 else 0) = 0)
    by (intros i _ Hne; destruct i; [lia|reflexivity]).
  rewrite (rsum_single W 0%nat _ ltac:(lia) Hz).
  simpl. destruct (Nat.eqb l 0); lra.
Qed.

Lemma adstock_no_carryover_lemma : forall x alpha max_lag n_out df ox g t c,
  adstock_args_ok x alpha max_lag n_out df ->
  adstock x (chans x) alpha max_lag n_out df = Ok ox ->
  (Z.of_nat t < n_out)%Z -> (c < chans x)%nat -> alpha c = 0 ->
  val ox g t c = val x g (times x - times ox + t)%nat c.
Proof.
  intros x alpha max_lag n_out df ox g t c Hok Hx Ht Hc Ha0.
  destruct (adstock_val_lemma _ _ _ _ _ _ Hok Hx) as [Gx [Tx [Cx Vx]]].
  destruct (Vx c Hc) as [d [Hd [Hr Ex]]]. rewrite Ex by lia. rewrite Ha0.
  destruct Hok as [Hl [Hn [_ Ha]]].
  unfold lagged_average.
  rewrite (rsum_single _ 0%nat).
  - rewrite documented_weight_alpha0 by (auto; apply window_pos; lia). simpl.
    unfold past. simpl. rewrite Nat.sub_0_r. lra.
  - apply window_pos; lia.
  - intros i Hi Hne. rewrite documented_weight_alpha0 by auto.
    destruct i; [lia|simpl; lra].
Qed.

(** Prepending a zero history is neutral when the window is already max_lag + 1 periods. *)
Lemma adstock_zero_history_lemma : forall x k alpha max_lag n_out df ox oy,
  adstock_args_ok x alpha max_lag n_out df ->
  (max_lag + 1 <= Z.of_nat (times x))%Z ->
  adstock x (chans x) alpha max_lag n_out df = Ok ox ->
  adstock (pad_left k x) (chans x) alpha max_lag n_out df = Ok oy ->
  T3_eq ox oy.
Proof.
  intros x k alpha max_lag n_out df ox oy Hok HW Hx Hy.
  assert (Hoky : adstock_args_ok (pad_left k x) alpha max_lag n_out df).
  { destruct Hok as [? [? [? ?]]]. repeat split; simpl; auto; try lia; apply H2; auto. }
  destruct (adstock_val_lemma _ _ _ _ _ _ Hok Hx) as [Gx [Tx [Cx Vx]]].
  destruct (adstock_val_lemma (pad_left k x) alpha max_lag n_out df oy Hoky Hy) as [Gy [Ty [Cy Vy]]].
  simpl in Gy, Cy.
  destruct Hok as [Hl [Hn _]].
  unfold T3_eq. repeat split; try congruence; try lia.
  intros g t c Hg Ht Hc. rewrite Cx in Hc.
  destruct (Vx c Hc) as [d [Hd [Hr Ex]]].
  destruct (Vy c Hc) as [d1 [Hd1 [_ Ey]]]. simpl in Hd1.
  assert (d1 = d) by congruence; subst d1.
  rewrite Ex, Ey by lia.
  assert (EW : window (pad_left k x) max_lag = window x max_lag)
    by (unfold window; simpl; lia).
  rewrite EW. unfold lagged_average. apply rsum_ext; intros i Hi. f_equal.
  assert (times oy = times ox) by lia.
  unfold past. simpl.
  destruct (Nat.leb i (times x - times ox + t)) eqn:E1.
  - apply Nat.leb_le in E1.
    assert (E2 : Nat.leb i (k + times x - times oy + t) = true) by (apply Nat.leb_le; lia).
    rewrite E2.
    assert (E3 : Nat.ltb (k + times x - times oy + t - i) k = false) by (apply Nat.ltb_ge; lia).
    rewrite E3. f_equal. lia.
  - apply Nat.leb_gt in E1.
    destruct (Nat.leb i (k + times x - times oy + t)) eqn:E2; [|reflexivity].
    assert (E3 : Nat.ltb (k + times x - times oy + t - i) k = true).
    { apply Nat.ltb_lt. apply Nat.leb_le in E2. lia. }
    rewrite E3. reflexivity.
Qed.

(** *** Per-channel choices *)
Lemma media_val_lemma : forall cx media p df sa n_out out,
  media_args_ok cx media p df sa n_out ->
  adstock_hill_media cx media p df sa (Some n_out) = Ok out ->
  geos out = geos media /\ Z.of_nat (times out) = n_out /\ chans out = chans media /\
  forall c, (c < chans media)%nat -> exists d s,
    assigned_decay df (chans media) c = Some d /\ recognised d /\
    assigned_sat sa (chans media) c = Some s /\ s <> OtherSat /\
    forall g t, (t < times out)%nat ->
      val out g t c =
          media_response (ctx_hill_before_adstock cx) s (p_ec p c) (p_slope p c)
            (window media (ctx_max_lag cx))
            (documented_weight d (p_alpha p c) (window media (ctx_max_lag cx)))
            (fun u => val media g u c) (times media - times out + t).
Proof.
  intros cx media p df sa n_out out [H1 [H2 [H3 [H4 [H5 [H6 H7]]]]]] Ho.
  destruct (adstock_hill_media_lemma cx media p df sa n_out H1 H2 H3 H4 H5 H6 H7)
    as [out' [Ho' [Hg [Ht [Hc Hv]]]]].
  assert (out' = out) by congruence; subst out'.
  repeat (split; [auto|]). intros c Hcc.
  destruct (Hv O O c ltac:(lia) Hcc) as [d [s [Hd [Hr [Hs [Hso _]]]]]].
  exists d, s; repeat (split; [auto|]). intros g t Htt.
  destruct (Hv g t c Htt Hcc) as [d' [s' [Hd' [_ [Hs' [_ E]]]]]].
  assert (d' = d) by congruence; assert (s' = s) by congruence; subst. exact E.
Qed.

Lemma per_channel_media_lemma : forall cx media p df sa n_out out c d s,
  media_args_ok cx media p df sa n_out ->
  adstock_hill_media cx media p df sa (Some n_out) = Ok out ->
  (c < chans media)%nat ->
  assigned_decay df (chans media) c = Some d -> assigned_sat sa (chans media) c = Some s ->
  exists out', adstock_hill_media cx media p (DOne d) (SOne s) (Some n_out) = Ok out' /\
    forall g t, (Z.of_nat t < n_out)%Z -> val out g t c = val out' g t c.
Proof.
  intros cx media p df sa n_out out c d s Hok Ho Hc Hd Hs.
  destruct (media_val_lemma _ _ _ _ _ _ _ Hok Ho) as [Hg [Ht [Hcc Hv]]].
  destruct (Hv c Hc) as [d0 [s0 [Hd0 [Hr [Hs0 [Hso E]]]]]].
  assert (d0 = d) by congruence; assert (s0 = s) by congruence; subst d0 s0.
  assert (Hok' : media_args_ok cx media p (DOne d) (SOne s) n_out).
  { destruct Hok as [H1 [H2 [H3 [H4 [H5 [H6 H7]]]]]]. repeat split; simpl; auto; try lia; apply H4; auto. }
  pose proof Hok' as [H1 [H2 [H3 [H4 [H5 [H6 H7]]]]]].
  destruct (adstock_hill_media_lemma cx media p (DOne d) (SOne s) n_out) as [out' [Ho' _]]; auto.
  exists out'; split; [auto|]. intros g t Htt.
  destruct (media_val_lemma _ _ _ _ _ _ _ Hok' Ho') as [Hg' [Ht' [Hcc' Hv']]].
  destruct (Hv' c Hc) as [d1 [s1 [Hd1 [_ [Hs1 [_ E']]]]]].
  simpl in Hd1, Hs1. inversion Hd1; inversion Hs1; subst d1 s1.
  rewrite E, E' by lia. f_equal. lia.
Qed.

(** A channel with saturation 'none' is linear in its media. *)
Lemma unsaturated_linear_lemma : forall cx x y z a b p df sa n_out ox oy oz c,
  same_shape x y -> same_shape x z ->
  media_args_ok cx x p df sa n_out -> media_args_ok cx y p df sa n_out ->
  media_args_ok cx z p df sa n_out ->
  (c < chans x)%nat -> assigned_sat sa (chans x) c = Some NoSat ->
  (forall g t, val z g t c = a * val x g t c + b * val y g t c) ->
  adstock_hill_media cx x p df sa (Some n_out) = Ok ox ->
  adstock_hill_media cx y p df sa (Some n_out) = Ok oy ->
  adstock_hill_media cx z p df sa (Some n_out) = Ok oz ->
  forall g t, (Z.of_nat t < n_out)%Z -> val oz g t c = a * val ox g t c + b * val oy g t c.
Proof.
  intros cx x y z a b p df sa n_out ox oy oz c [Sg [St Sc]] [Sg' [St' Sc']] Okx Oky Okz Hc Hs Hz Hx Hy Hzz g t Ht.
  destruct (media_val_lemma _ _ _ _ _ _ _ Okx Hx) as [_ [Tx [_ Vx]]].
  destruct (media_val_lemma _ _ _ _ _ _ _ Oky Hy) as [_ [Ty [_ Vy]]].
  destruct (media_val_lemma _ _ _ _ _ _ _ Okz Hzz) as [_ [Tz [_ Vz]]].
  destruct (Vx c Hc) as [d [s [Hd [_ [Hs0 [_ Ex]]]]]].
  destruct (Vy c ltac:(congruence)) as [d1 [s1 [Hd1 [_ [Hs1 [_ Ey]]]]]].
  destruct (Vz c ltac:(congruence)) as [d2 [s2 [Hd2 [_ [Hs2 [_ Ez]]]]]].
  assert (d1 = d) by congruence; assert (d2 = d) by congruence; subst d1 d2.
  assert (s = NoSat) by congruence; assert (s1 = NoSat) by congruence;
  assert (s2 = NoSat) by congruence; subst s s1 s2.
  rewrite Ex, Ey, Ez by lia.
  assert (EWy : window y (ctx_max_lag cx) = window x (ctx_max_lag cx)) by (unfold window; rewrite St; reflexivity).
  assert (EWz : window z (ctx_max_lag cx) = window x (ctx_max_lag cx)) by (unfold window; rewrite St'; reflexivity).
  assert (Ey' : times oy = times ox) by lia. assert (Ez' : times oz = times ox) by lia.
  rewrite EWy, EWz, <- St, <- St', Ey', Ez'.
  unfold media_response; simpl.
  destruct (ctx_hill_before_adstock cx); rewrite <- lagged_average_linear;
    apply lagged_average_ext; intros; apply Hz.
Qed.

Lemma rf_val_lemma : forall cx reach freq p df sa n_out out,
  rf_args_ok cx reach freq p df sa n_out ->
  adstock_hill_rf cx reach freq p df sa (Some n_out) = Ok out ->
  geos out = geos reach /\ Z.of_nat (times out) = n_out /\ chans out = chans reach /\
  forall c, (c < chans reach)%nat -> exists d s,
    assigned_decay df (chans reach) c = Some d /\ recognised d /\
    assigned_sat sa (chans reach) c = Some s /\ s <> OtherSat /\
    forall g t, (t < times out)%nat ->
      val out g t c =
        lagged_average (window reach (ctx_max_lag cx))
          (documented_weight d (p_alpha p c) (window reach (ctx_max_lag cx)))
          (fun u => val reach g u c * saturate s (p_ec p c) (p_slope p c) (val freq g u c))
          (times reach - times out + t).
Proof.
  intros cx reach freq p df sa n_out out [H1 [H2 [[Sg [St Sc]] [H3 [H4 [H5 [H6 H7]]]]]]] Ho.
  destruct (adstock_hill_rf_lemma cx reach freq p df sa n_out H1 H2 Sg St Sc H3 H4 H5 H6 H7)
    as [out' [Ho' [Hg [Ht [Hc Hv]]]]].
  assert (out' = out) by congruence; subst out'.
  repeat (split; [auto|]). intros c Hcc.
  destruct (Hv O O c ltac:(lia) Hcc) as [d [s [Hd [Hr [Hs [Hso _]]]]]].
  exists d, s; repeat (split; [auto|]). intros g t Htt.
  destruct (Hv g t c Htt Hcc) as [d' [s' [Hd' [_ [Hs' [_ E]]]]]].
  assert (d' = d) by congruence; assert (s' = s) by congruence; subst. exact E.
Qed.

Lemma per_channel_rf_lemma : forall cx reach freq p df sa n_out out c d s,
  rf_args_ok cx reach freq p df sa n_out ->
  adstock_hill_rf cx reach freq p df sa (Some n_out) = Ok out ->
  (c < chans reach)%nat ->
  assigned_decay df (chans reach) c = Some d -> assigned_sat sa (chans reach) c = Some s ->
  exists out', adstock_hill_rf cx reach freq p (DOne d) (SOne s) (Some n_out) = Ok out' /\
    forall g t, (Z.of_nat t < n_out)%Z -> val out g t c = val out' g t c.
Proof.
  intros cx reach freq p df sa n_out out c d s Hok Ho Hc Hd Hs.
  destruct (rf_val_lemma _ _ _ _ _ _ _ _ Hok Ho) as [Hg [Ht [Hcc Hv]]].
  destruct (Hv c Hc) as [d0 [s0 [Hd0 [Hr [Hs0 [Hso E]]]]]].
  assert (d0 = d) by congruence; assert (s0 = s) by congruence; subst d0 s0.
  assert (Hok' : rf_args_ok cx reach freq p (DOne d) (SOne s) n_out).
  { destruct Hok as [H1 [H2 [H8 [H3 [H4 [H5 [H6 H7]]]]]]].
    unfold rf_args_ok. repeat (split; [auto|]). auto. }
  pose proof Hok' as [H1 [H2 [[Sg [St Sc]] [H3 [H4 [H5 [H6 H7]]]]]]].
  destruct (adstock_hill_rf_lemma cx reach freq p (DOne d) (SOne s) n_out) as [out' [Ho' _]]; auto.
  exists out'; split; [auto|]. intros g t Htt.
  destruct (rf_val_lemma _ _ _ _ _ _ _ _ Hok' Ho') as [Hg' [Ht' [Hcc' Hv']]].
  destruct (Hv' c Hc) as [d1 [s1 [Hd1 [_ [Hs1 [_ E']]]]]].
  simpl in Hd1, Hs1. inversion Hd1; inversion Hs1; subst d1 s1.
  rewrite E, E' by lia. f_equal. lia.
Qed.

(** RF channels are linear in reach (frequency fixed), whatever the saturation. *)
Lemma rf_linear_in_reach_lemma : forall cx x y z freq a b p df sa n_out ox oy oz c,
  same_shape x y -> same_shape x z ->
  rf_args_ok cx x freq p df sa n_out ->
  (c < chans x)%nat ->
  (forall g t, val z g t c = a * val x g t c + b * val y g t c) ->
  adstock_hill_rf cx x freq p df sa (Some n_out) = Ok ox ->
  adstock_hill_rf cx y freq p df sa (Some n_out) = Ok oy ->
  adstock_hill_rf cx z freq p df sa (Some n_out) = Ok oz ->
  forall g t, (Z.of_nat t < n_out)%Z -> val oz g t c = a * val ox g t c + b * val oy g t c.
Proof.
  intros cx x y z freq a b p df sa n_out ox oy oz c Sxy Sxz Okx Hc Hz Hx Hy Hzz g t Ht.
  assert (Oky : rf_args_ok cx y freq p df sa n_out).
  { destruct Sxy as [Sg [St Sc]]. unfold rf_args_ok, same_shape in *.
    rewrite <- Sg, <- St, <- Sc. auto. }
  assert (Okz : rf_args_ok cx z freq p df sa n_out).
  { destruct Sxz as [Sg [St Sc]]. unfold rf_args_ok, same_shape in *.
    rewrite <- Sg, <- St, <- Sc. auto. }
  destruct Sxy as [Sg [St Sc]]; destruct Sxz as [Sg' [St' Sc']].
  destruct (rf_val_lemma _ _ _ _ _ _ _ _ Okx Hx) as [_ [Tx [_ Vx]]].
  destruct (rf_val_lemma _ _ _ _ _ _ _ _ Oky Hy) as [_ [Ty [_ Vy]]].
  destruct (rf_val_lemma _ _ _ _ _ _ _ _ Okz Hzz) as [_ [Tz [_ Vz]]].
  destruct (Vx c Hc) as [d [s [Hd [_ [Hs0 [_ Ex]]]]]].
  destruct (Vy c ltac:(congruence)) as [d1 [s1 [Hd1 [_ [Hs1 [_ Ey]]]]]].
  destruct (Vz c ltac:(congruence)) as [d2 [s2 [Hd2 [_ [Hs2 [_ Ez]]]]]].
  assert (d1 = d) by congruence; assert (d2 = d) by congruence; subst d1 d2.
  assert (s1 = s) by congruence; assert (s2 = s) by congruence; subst s1 s2.
  rewrite Ex, Ey, Ez by lia.
  assert (EWy : window y (ctx_max_lag cx) = window x (ctx_max_lag cx)) by (unfold window; rewrite St; reflexivity).
  assert (EWz : window z (ctx_max_lag cx) = window x (ctx_max_lag cx)) by (unfold window; rewrite St'; reflexivity).
  assert (Ey' : times oy = times ox) by lia. assert (Ez' : times oz = times ox) by lia.
  rewrite EWy, EWz, <- St, <- St', Ey', Ez'.
  rewrite <- lagged_average_linear.
  apply lagged_average_ext; intros. rewrite Hz. ring.
Qed.

(** Transformed media is monotone in media, starts at 0, and is bounded by 1 under Hill. *)
Lemma saturate_mono : forall s ec slope x y, 0 < ec -> 0 < slope -> 0 <= x -> x <= y ->
  saturate s ec slope x <= saturate s ec slope y.
Proof.
  intros [] ec slope x y ? ? ? ?; simpl; auto.
  rewrite <- !hill_documented by lra. apply hill_mono; auto.
Qed.

Lemma saturate_nonneg : forall s ec slope x, 0 < ec -> 0 < slope -> 0 <= x ->
  0 <= saturate s ec slope x.
Proof.
  intros [] ec slope x ? ? ?; simpl; auto.
  rewrite <- hill_documented by lra. apply hill_range_lemma; auto.
Qed.

Lemma media_response_mono : forall hb s ec slope W w x y t,
  0 < ec -> 0 < slope -> (forall l, (l < W)%nat -> 0 <= w l) ->
  (forall u, (u <= t)%nat -> 0 <= x u <= y u) ->
  0 <= media_response hb s ec slope W w x t <= media_response hb s ec slope W w y t.
Proof.
  intros hb s ec slope W w x y t He Hs Hw Hxy. unfold media_response.
  destruct hb.
  - split.
    + apply lagged_average_nonneg; auto. intros u Hu. apply saturate_nonneg; auto. apply Hxy; auto.
    + apply lagged_average_mono; auto. intros u Hu. specialize (Hxy u Hu). apply saturate_mono; lra.
  - assert (0 <= lagged_average W w x t)
      by (apply lagged_average_nonneg; auto; intros u Hu; apply Hxy; auto).
    split; [apply saturate_nonneg; auto|]. apply saturate_mono; auto.
    apply lagged_average_mono; auto. intros u Hu; apply Hxy; auto.
Qed.

Lemma saturate_0 : forall s ec slope, saturate s ec slope 0 = 0.
Proof.
  intros [] ec slope; simpl; auto. unfold documented_hill.
  destruct (Req_EM_T 0 0); [reflexivity|lra].
Qed.

Lemma lagged_average_0 : forall W w x t, (forall u, (u <= t)%nat -> x u = 0) ->
  lagged_average W w x t = 0.
Proof.
  intros. unfold lagged_average. rewrite (rsum_ext W _ (fun _ => 0)).
  - apply rsum_zero. auto.
  - intros i Hi. unfold past. destruct (Nat.leb i t) eqn:E; [|ring].
    rewrite H by lia. ring.
Qed.

Lemma media_response_0 : forall hb s ec slope W w x t,
  (forall u, (u <= t)%nat -> x u = 0) -> media_response hb s ec slope W w x t = 0.
Proof.
  intros hb s ec slope W w x t Hx. unfold media_response. destruct hb.
  - apply lagged_average_0. intros u Hu. rewrite Hx by auto. apply saturate_0.
  - rewrite lagged_average_0 by auto. apply saturate_0.
Qed.

Lemma media_monotone_lemma : forall cx x y p df sa n_out ox oy,
  same_shape x y ->
  media_args_ok cx x p df sa n_out ->
  (forall g t c, (t < times x)%nat -> (c < chans x)%nat -> val x g t c <= val y g t c) ->
  adstock_hill_media cx x p df sa (Some n_out) = Ok ox ->
  adstock_hill_media cx y p df sa (Some n_out) = Ok oy ->
  forall g t c, (Z.of_nat t < n_out)%Z -> (c < chans x)%nat ->
    0 <= val ox g t c <= val oy g t c.
Proof.
  intros cx x y p df sa n_out ox oy [Sg [St Sc]] Okx Hxy Hx Hy g t c Ht Hc.
  assert (Oky : media_args_ok cx y p df sa n_out).
  { destruct Okx as [H1 [H2 [H3 [H4 [H5 [H6 H7]]]]]]. unfold media_args_ok.
    rewrite <- St, <- Sc. repeat (split; [auto|]). intros.
    eapply Rle_trans; [apply H7|apply Hxy]; eauto. }
  destruct (media_val_lemma _ _ _ _ _ _ _ Okx Hx) as [_ [Tx [_ Vx]]].
  destruct (media_val_lemma _ _ _ _ _ _ _ Oky Hy) as [_ [Ty [_ Vy]]].
  destruct (Vx c Hc) as [d [s [Hd [Hr [Hs0 [_ Ex]]]]]].
  destruct (Vy c ltac:(congruence)) as [d1 [s1 [Hd1 [_ [Hs1 [_ Ey]]]]]].
  assert (d1 = d) by congruence; assert (s1 = s) by congruence; subst d1 s1.
  rewrite Ex, Ey by lia.
  assert (EWy : window y (ctx_max_lag cx) = window x (ctx_max_lag cx)) by (unfold window; rewrite St; reflexivity).
  assert (Ey' : times oy = times ox) by lia.
  rewrite EWy, <- St, Ey'.
  destruct Okx as [H1 [H2 [H3 [H4 [H5 [H6 H7]]]]]].
  assert (Hp : (c < n_par p)%nat) by lia. destruct (H4 c Hp) as [Ha [He Hsl]].
  apply media_response_mono; auto.
  - intros; apply documented_weight_nonneg; auto.
  - intros u Hu; split; [apply H7|apply Hxy]; auto; lia.
Qed.

(** *** The two kernels inside [_adstock] *)
Lemma backends_agree_lemma : forall media n alpha max_lag n_out df,
  match adstock_with adstock_process_window media n alpha max_lag n_out df,
        adstock_with adstock_process_conv media n alpha max_lag n_out df with
  | Ok a, Ok b => T3_eq a b
  | Err e, Err e' => e = e'
  | _, _ => False
  end.
Proof.
  intros media n alpha max_lag n_out df. unfold adstock_with.
  destruct (validate_arguments media n max_lag n_out) eqn:E; [|reflexivity].
  apply validate_arguments_spec in E. destruct E as [Hn [Hl Hc]].
  cbv zeta.
  set (W := Nat.min (Z.to_nat max_lag + 1) (times media)).
  set (no := Z.to_nat n_out).
  destruct (compute_decay_weights n alpha W df) as [w|e]; simpl; [|reflexivity].
  match goal with |- match adstock_process_window ?m _ _ _ with _ => _ end =>
    destruct (kernels_agree_lemma m W w no) as [a [b [-> [-> [He _]]]]]; auto end.
  - unfold W; lia.
  - unfold no; lia.
  - destruct (Nat.ltb (times media) (no + W - 1)) eqn:E1;
    destruct (Nat.ltb (no + W - 1) (times media)) eqn:E2; simpl;
    rewrite ?Nat.ltb_lt, ?Nat.ltb_ge in *; lia.
Qed.

Lemma decay_weights_lemma : forall n alpha W df w,
  decay_ok df n -> (forall c, (c < n)%nat -> 0 <= alpha c <= 1) -> (0 < W)%nat ->
  compute_decay_weights n alpha W df = Ok w ->
  forall c, (c < n)%nat ->
    (forall i, (i < W)%nat -> 0 <= w c i) /\ rsum W (w c) = 1 /\
    (forall i j, (i <= j)%nat -> (j < W)%nat -> w c i <= w c j).
Proof.
  intros n alpha W df w Hdf Ha HW Hw c Hc.
  destruct (compute_decay_weights_spec n alpha W df Hdf Ha) as [w' [Hw' Hv]].
  assert (w' = w) by congruence; subst w'.
  destruct (Hv c O Hc HW) as [d [Hd [Hr _]]].
  assert (E : forall i, (i < W)%nat -> w c i = documented_weight d (alpha c) W (W - 1 - i)).
  { intros i Hi. destruct (Hv c i Hc Hi) as [d' [Hd' [_ ->]]].
    assert (d' = d) by congruence; subst; reflexivity. }
  specialize (Ha c Hc).
  split; [|split].
  - intros i Hi. rewrite E by auto. apply documented_weight_nonneg; auto. lia.
  - rewrite (rsum_ext W _ (fun i => documented_weight d (alpha c) W (W - 1 - i))) by auto.
    rewrite (rsum_rev W (documented_weight d (alpha c) W)).
    apply documented_weight_sum; auto.
  - intros i j Hij Hj. rewrite !E by lia. apply documented_weight_anti; auto; lia.
Qed.

(** *** Alpha as the image of a non-negative exponent *)
Lemma unit_interval_map_inverse : forall x, 0 <= x ->
  0 < unit_interval_map x <= 1 /\
  map_alpha_for_binomial_decay (unit_interval_map x) = Some x.
Proof.
  intros x Hx. unfold unit_interval_map, map_alpha_for_binomial_decay.
  assert (0 < 1 / (1 + x)) by (apply Rmult_lt_0_compat; [lra|apply Rinv_0_lt_compat; lra]).
  split; [split; auto|].
  - apply Rmult_le_reg_r with (1 + x); [lra|]. unfold Rdiv.
    rewrite Rmult_assoc, Rinv_l; lra.
  - destruct (Req_EM_T (1 / (1 + x)) 0); [lra|]. f_equal. field. lra.
Qed.

(** Default output length. *)
Lemma default_output_lemma : forall cx media p df sa,
  adstock_hill_media cx media p df sa None =
    if Nat.eqb (times media) (ctx_n_media_times cx)
    then adstock_hill_media cx media p df sa (Some (Z.of_nat (ctx_n_times cx)))
    else Err ValueError.
Proof.
  intros. unfold adstock_hill_media. simpl.
  destruct (Nat.eqb (times media) (ctx_n_media_times cx)); reflexivity.
Qed.
