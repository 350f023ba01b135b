(** Proofs about adstock. *)
From Coq Require Import Reals ZArith Lra Lia List Bool Arith.
From Verif Require Import Lib_Sum Lib_Pow M_Base M_AdstockHill S_Adstock.
Import ListNotations.
Local Open Scope R_scope.

Definition alpha_ok (a : R) : Prop := 0 <= a <= 1.

Lemma base_range : forall W l, (l < W)%nat -> 0 < 1 - INR l / INR W <= 1.
Proof.
  intros W l H.
  assert (HW : 0 < INR W) by (apply lt_0_INR; lia).
  assert (Hl : INR l < INR W) by (apply lt_INR; lia).
  assert (0 <= INR l) by apply pos_INR.
  assert (0 <= INR l / INR W) by (apply Rmult_le_pos; [auto|left; apply Rinv_0_lt_compat; auto]).
  assert (INR l / INR W < 1).
  { apply Rmult_lt_reg_r with (INR W); auto. unfold Rdiv.
    rewrite Rmult_assoc, Rinv_l by lra. lra. }
  lra.
Qed.

Lemma base_one : forall W l, (l < W)%nat -> 1 - INR l / INR W = 1 -> l = O.
Proof.
  intros W l H E.
  assert (HW : 0 < INR W) by (apply lt_0_INR; lia).
  assert (Hd : INR l / INR W = 0) by lra.
  assert (INR l = 0).
  { replace (INR l) with (INR l / INR W * INR W) by (field; lra). rewrite Hd; lra. }
  destruct l; auto. pose proof (lt_0_INR (S l) ltac:(lia)). lra.
Qed.

Lemma raw_weight_documented : forall d a W l,
  recognised d -> alpha_ok a -> (l < W)%nat ->
  raw_weight d a W l = documented_decay d a W l.
Proof.
  intros d a W l [->| ->] Ha Hl; simpl.
  - apply rpow_INR; destruct Ha; auto.
  - unfold map_alpha_for_binomial_decay.
    destruct (Req_EM_T a 0); simpl; [|reflexivity].
    destruct (Req_EM_T (1 - INR l / INR W) 1) as [E|E].
    + apply base_one in E; auto. subst; reflexivity.
    + destruct l; [|reflexivity]. exfalso; apply E. simpl. unfold Rdiv. lra.
Qed.

Lemma documented_decay_nonneg : forall d a W l,
  recognised d -> alpha_ok a -> (l < W)%nat -> 0 <= documented_decay d a W l.
Proof.
  intros d a W l [->| ->] Ha Hl; simpl.
  - apply pow_le; destruct Ha; auto.
  - destruct (Req_EM_T a 0).
    + destruct (Nat.eqb l 0); lra.
    + apply rpow_nonneg. pose proof (base_range W l Hl); lra.
Qed.

Lemma documented_decay_0 : forall d a W,
  recognised d -> (0 < W)%nat -> documented_decay d a W 0 = 1.
Proof.
  intros d a W [->| ->] HW; simpl; [reflexivity|].
  destruct (Req_EM_T a 0); [reflexivity|].
  replace (1 - 0 / INR W) with 1 by (unfold Rdiv; lra). apply rpow_1_l.
Qed.

Lemma documented_decay_anti : forall d a W l l',
  recognised d -> alpha_ok a -> (l <= l')%nat -> (l' < W)%nat ->
  documented_decay d a W l' <= documented_decay d a W l.
Proof.
  intros d a W l l' [->| ->] Ha Hll Hl'; simpl.
  - destruct Ha as [H0 H1].
    replace l' with (l + (l' - l))%nat by lia. rewrite pow_add.
    rewrite <- (Rmult_1_r (a ^ l)) at 2.
    apply Rmult_le_compat_l; [apply pow_le; auto|].
    rewrite <- (pow1 (l' - l)). apply pow_incr; lra.
  - destruct (Req_EM_T a 0) as [_|Hne].
    + destruct l, l'; simpl; lra || lia.
    + destruct Ha as [H0 H1].
      pose proof (base_range W l ltac:(lia)). pose proof (base_range W l' Hl').
      apply rpow_le.
      * lra.
      * assert (HW : 0 < INR W) by (apply lt_0_INR; lia).
        assert (INR l <= INR l') by (apply le_INR; lia).
        assert (INR l / INR W <= INR l' / INR W).
        { apply Rmult_le_compat_r; [left; apply Rinv_0_lt_compat|]; auto. }
        lra.
      * assert (1 <= / a).
        { rewrite <- Rinv_1. apply Rinv_le_contravar; lra. }
        unfold Rdiv; lra.
Qed.

Lemma documented_total_pos : forall d a W,
  recognised d -> alpha_ok a -> (0 < W)%nat -> 0 < rsum W (documented_decay d a W).
Proof.
  intros. apply rsum_pos with O; auto.
  - intros; apply documented_decay_nonneg; auto.
  - rewrite documented_decay_0 by auto; lra.
Qed.

Lemma documented_weight_sum : forall d a W,
  recognised d -> alpha_ok a -> (0 < W)%nat -> rsum W (documented_weight d a W) = 1.
Proof.
  intros. unfold documented_weight. rewrite rsum_div.
  pose proof (documented_total_pos d a W H H0 H1).
  unfold Rdiv; apply Rinv_r; lra.
Qed.

Lemma documented_weight_nonneg : forall d a W l,
  recognised d -> alpha_ok a -> (l < W)%nat -> 0 <= documented_weight d a W l.
Proof.
  intros. unfold documented_weight.
  pose proof (documented_total_pos d a W H H0 ltac:(lia)).
  apply Rmult_le_pos; [apply documented_decay_nonneg; auto|].
  left; apply Rinv_0_lt_compat; auto.
Qed.

Lemma documented_weight_anti : forall d a W l l',
  recognised d -> alpha_ok a -> (l <= l')%nat -> (l' < W)%nat ->
  documented_weight d a W l' <= documented_weight d a W l.
Proof.
  intros. unfold documented_weight.
  pose proof (documented_total_pos d a W H H0 ltac:(lia)).
  apply Rmult_le_compat_r; [left; apply Rinv_0_lt_compat; auto|].
  apply documented_decay_anti; auto.
Qed.

Lemma single_weight_documented : forall d a W i,
  recognised d -> alpha_ok a -> (i < W)%nat ->
  single_weight d a W i = documented_weight d a W (W - 1 - i).
Proof.
  intros d a W i Hd Ha Hi. unfold single_weight, documented_weight, l_range.
  rewrite raw_weight_documented by (auto; lia). f_equal.
  rewrite <- (rsum_rev W (documented_decay d a W)).
  apply rsum_ext; intros. apply raw_weight_documented; auto; lia.
Qed.

(** The weights matrix computed by the program, channel by channel. *)
Lemma compute_decay_weights_spec : forall n alpha W df,
  decay_ok df n -> (forall c, (c < n)%nat -> alpha_ok (alpha c)) ->
  exists w, compute_decay_weights n alpha W df = Ok w /\
    forall c i, (c < n)%nat -> (i < W)%nat ->
      exists d, assigned_decay df n c = Some d /\ recognised d /\
        w c i = documented_weight d (alpha c) W (W - 1 - i).
Proof.
  intros n alpha W df Hok Ha. destruct df as [d|ds]; simpl in *.
  - destruct Hok as [->| ->]; (eexists; split; [reflexivity|]);
    intros c i Hc Hi; eexists; (split; [reflexivity|]).
    + split; [left; reflexivity|]. apply single_weight_documented; auto. left; auto.
    + split; [right; reflexivity|]. apply single_weight_documented; auto. right; auto.
  - destruct Hok as [Hlen Hall].
    destruct (Nat.eqb (length ds) n) eqn:E.
    + apply Nat.eqb_eq in E. eexists; split; [reflexivity|].
      intros c i Hc Hi.
      destruct (nth_error ds c) as [d|] eqn:En.
      2:{ apply nth_error_None in En; lia. }
      exists d. split; [reflexivity|].
      assert (Hr : recognised d).
      { rewrite Forall_forall in Hall. apply Hall. eapply nth_error_In; eauto. }
      split; [auto|].
      rewrite (nth_error_nth ds c OtherDecay En).
      destruct Hr as [->| ->]; simpl; apply single_weight_documented; auto;
        [left|right]; reflexivity.
    + apply Nat.eqb_neq in E. destruct Hlen as [Hlen|Hlen]; [congruence|].
      destruct ds as [|d [|]]; simpl in Hlen; try lia.
      eexists; split; [reflexivity|]. intros c i Hc Hi. exists d. split; [reflexivity|].
      inversion Hall; subst. split; [auto|].
      destruct H1 as [->| ->]; simpl; apply single_weight_documented; auto;
        [left|right]; reflexivity.
Qed.

(** The padded / truncated media seen through absolute time. *)
Lemma prepared_val : forall (media : T3) n_out W g t c w,
  (0 < W)%nat -> (1 <= n_out)%nat -> (n_out <= times media)%nat -> (W <= times media)%nat ->
  (t < n_out)%nat -> (w < W)%nat ->
  let required := (n_out + W - 1)%nat in
  let media1 := if Nat.ltb required (times media) then take_last required media else media in
  let media2 := if Nat.ltb (times media) required
                then pad_left (required - times media) media1 else media1 in
  (W - 1 + n_out <= times media2)%nat /\ geos media2 = geos media /\ chans media2 = chans media /\
  val media2 g (w + t)%nat c =
    past (fun s => val media g s c) (times media - n_out + t) (W - 1 - w).
Proof.
  intros media n_out W g t c w HW Hn Hle HWle Ht Hw required media1 media2.
  unfold media2, media1, required.
  destruct (Nat.ltb (n_out + W - 1) (times media)) eqn:E1.
  - apply Nat.ltb_lt in E1.
    destruct (Nat.ltb (times media) (n_out + W - 1)) eqn:E2; [apply Nat.ltb_lt in E2; lia|].
    simpl. repeat split; auto; try lia.
    unfold past. destruct (Nat.leb (W - 1 - w) (times media - n_out + t)) eqn:E3.
    + f_equal; apply Nat.leb_le in E3; lia.
    + apply Nat.leb_gt in E3; lia.
  - apply Nat.ltb_ge in E1.
    destruct (Nat.ltb (times media) (n_out + W - 1)) eqn:E2.
    + apply Nat.ltb_lt in E2. simpl. repeat split; auto; try lia.
      unfold past.
      destruct (Nat.ltb (w + t) (n_out + W - 1 - times media)) eqn:E3;
      destruct (Nat.leb (W - 1 - w) (times media - n_out + t)) eqn:E4.
      * apply Nat.ltb_lt in E3; apply Nat.leb_le in E4; lia.
      * reflexivity.
      * f_equal. apply Nat.ltb_ge in E3; apply Nat.leb_le in E4; lia.
      * apply Nat.ltb_ge in E3; apply Nat.leb_gt in E4; lia.
    + apply Nat.ltb_ge in E2. simpl. repeat split; auto; try lia.
      unfold past. destruct (Nat.leb (W - 1 - w) (times media - n_out + t)) eqn:E3.
      * f_equal; apply Nat.leb_le in E3; lia.
      * apply Nat.leb_gt in E3; lia.
Qed.

Lemma validate_arguments_spec : forall media n max_lag n_out,
  validate_arguments media n max_lag n_out = true <->
  (1 <= n_out <= Z.of_nat (times media))%Z /\ (0 <= max_lag)%Z /\ chans media = n.
Proof.
  intros. unfold validate_arguments.
  rewrite !andb_true_iff, !negb_true_iff, Nat.eqb_eq, Z.gtb_ltb, Z.ltb_ge, Z.leb_gt, Z.ltb_ge.
  intuition lia.
Qed.

Theorem adstock_lagged_average_lemma : forall media alpha max_lag n_out df,
  (0 <= max_lag)%Z -> (1 <= n_out <= Z.of_nat (times media))%Z ->
  decay_ok df (chans media) ->
  (forall c, (c < chans media)%nat -> 0 <= alpha c <= 1) ->
  exists out, adstock media (chans media) alpha max_lag n_out df = Ok out /\
    geos out = geos media /\ Z.of_nat (times out) = n_out /\ chans out = chans media /\
    forall g t c, (t < times out)%nat -> (c < chans media)%nat ->
      exists d, assigned_decay df (chans media) c = Some d /\ recognised d /\
      let W := Nat.min (Z.to_nat max_lag + 1) (times media) in
      val out g t c =
        lagged_average W (documented_weight d (alpha c) W) (fun s => val media g s c)
          (times media - times out + t).
Proof.
  intros media alpha max_lag n_out df Hlag Hn Hdf Ha.
  unfold adstock, adstock_with.
  assert (Hv : validate_arguments media (chans media) max_lag n_out = true)
    by (apply validate_arguments_spec; auto).
  rewrite Hv. cbv zeta.
  set (W := Nat.min (Z.to_nat max_lag + 1) (times media)).
  assert (HW : (0 < W)%nat) by (unfold W; lia).
  assert (HWle : (W <= times media)%nat) by (unfold W; lia).
  set (no := Z.to_nat n_out).
  assert (Hno : (1 <= no <= times media)%nat) by (unfold no; lia).
  destruct (compute_decay_weights_spec (chans media) alpha W df Hdf Ha) as [w [-> Hw]].
  simpl rbind. unfold adstock_process_window.
  pose proof (fun g t c wi Ht Hwi => prepared_val media no W g t c wi HW (proj1 Hno) (proj2 Hno) HWle Ht Hwi) as Hp.
  cbv zeta in Hp.
  set (media2 := if Nat.ltb (times media) (no + W - 1) then _ else _) in *.
  destruct (Hp O O O O ltac:(lia) HW) as [Hlen [Hg [Hc _]]].
  assert (E : Nat.leb (W - 1 + no) (times media2) = true) by (apply Nat.leb_le; lia).
  rewrite E. eexists; split; [reflexivity|]. simpl.
  split; [auto|]. split; [unfold no; lia|]. split; [auto|].
  intros g t c Ht Hcc.
  destruct (Hw c O Hcc HW) as [d [Hd [Hr _]]].
  exists d; split; [auto|]. split; [auto|].
  unfold lagged_average.
  rewrite <- (rsum_rev W (fun l => documented_weight d (alpha c) W l * _)).
  apply rsum_ext; intros i Hi.
  destruct (Hw c i Hcc Hi) as [d' [Hd' [_ ->]]].
  assert (d' = d) by congruence; subst d'.
  f_equal. apply Hp; auto.
Qed.

Theorem adstock_rejects_lemma : forall media n alpha max_lag n_out df,
  decay_ok df n ->
  (forall c, (c < n)%nat -> 0 <= alpha c <= 1) ->
  (adstock media n alpha max_lag n_out df = Err ValueError <->
   (n_out < 1 \/ n_out > Z.of_nat (times media) \/ max_lag < 0)%Z \/ chans media <> n).
Proof.
  intros media n alpha max_lag n_out df Hdf Ha. split.
  - intros E.
    destruct (Z_lt_dec n_out 1); [left; left; auto|].
    destruct (Z_gt_dec n_out (Z.of_nat (times media))); [left; right; left; auto|].
    destruct (Z_lt_dec max_lag 0); [left; right; right; auto|].
    destruct (Nat.eq_dec (chans media) n) as [Hc|Hc]; [|right; auto].
    subst n.
    destruct (adstock_lagged_average_lemma media alpha max_lag n_out df) as [out [Ho _]];
      auto; try lia. congruence.
  - intros H. unfold adstock, adstock_with.
    destruct (validate_arguments media n max_lag n_out) eqn:E; [|reflexivity].
    apply validate_arguments_spec in E. exfalso; intuition lia.
Qed.

(** Extensional consequences used by the property files. *)
Lemma lagged_average_bounds : forall W w x t lo hi,
  (forall l, (l < W)%nat -> 0 <= w l) -> rsum W w = 1 ->
  lo <= 0 <= hi ->
  (forall s, (s <= t)%nat -> lo <= x s <= hi) ->
  lo <= lagged_average W w x t <= hi.
Proof.
  intros W w x t lo hi Hw Hs H0 Hx. unfold lagged_average.
  apply rsum_bound_convex; auto.
  intros i Hi. unfold past. destruct (Nat.leb i t); [apply Hx; lia|lra].
Qed.

Lemma lagged_average_const : forall W w x t k,
  rsum W w = 1 -> (W <= t + 1)%nat ->
  (forall l, (l < W)%nat -> x (t - l)%nat = k) ->
  lagged_average W w x t = k.
Proof.
  intros W w x t k Hs HW Hx. unfold lagged_average.
  rewrite (rsum_ext W _ (fun l => k * w l)).
  - rewrite rsum_scal, Hs; lra.
  - intros i Hi. unfold past.
    assert (Hle : Nat.leb i t = true) by (apply Nat.leb_le; lia).
    rewrite Hle, Hx by auto. lra.
Qed.

Lemma lagged_average_linear : forall W w x y a b t,
  lagged_average W w (fun s => a * x s + b * y s) t =
  a * lagged_average W w x t + b * lagged_average W w y t.
Proof.
  intros. unfold lagged_average.
  rewrite <- !rsum_scal, <- rsum_plus. apply rsum_ext; intros.
  unfold past. destruct (Nat.leb i t); lra.
Qed.

Lemma lagged_average_mono : forall W w x y t,
  (forall l, (l < W)%nat -> 0 <= w l) ->
  (forall s, (s <= t)%nat -> x s <= y s) ->
  lagged_average W w x t <= lagged_average W w y t.
Proof.
  intros W w x y t Hw Hxy. unfold lagged_average. apply rsum_le; intros i Hi.
  apply Rmult_le_compat_l; [auto|]. unfold past.
  destruct (Nat.leb i t); [apply Hxy; lia|lra].
Qed.

Lemma lagged_average_ext : forall W w x y t,
  (forall s, (s <= t)%nat -> (t < s + W)%nat -> x s = y s) ->
  lagged_average W w x t = lagged_average W w y t.
Proof.
  intros W w x y t H. unfold lagged_average. apply rsum_ext; intros i Hi.
  f_equal. unfold past. destruct (Nat.leb i t) eqn:E; [|reflexivity].
  apply Nat.leb_le in E. apply H; lia.
Qed.
