(** Proofs for C87. *)
From Coq Require Import Reals ZArith List Bool Arith Lia Lra.
From Verif Require Import Lib_Sum M_Base M_Transformers S_Transformers P_Transformers M_DataChecks M_National S_National.
From Verif Require M_Eda.
Import ListNotations.
Local Open Scope R_scope.

Lemma truncate_lemma : forall n x, (n <= times x)%nat -> last_periods n x (truncate_media_time n x).
Proof.
  intros n x H. unfold last_periods, truncate_media_time. cbn [geos times chans val].
  repeat split; auto. intros g k m Hk. f_equal. lia.
Qed.
Lemma truncate_cube_lemma : forall n x, (n <= cu_times x)%nat -> last_periods_of_cube n x (truncate_cube n x).
Proof.
  intros n x H. unfold last_periods_of_cube, truncate_cube. cbn [cu_geos cu_times cu_vars cu_at].
  repeat split; auto. intros g k m Hk. f_equal. lia.
Qed.

(** When media can be scaled. *)
Lemma scale_media_ok : forall x pop, (forall g, 0 < match pop with Some p => p | None => ones end g) ->
  ((exists c, scale_xarray x (Some MediaClass) pop = Ok c) <->
   forall m, (m < chans x)%nat -> exists g t, (g < geos x)%nat /\ (t < times x)%nat /\ val x g t m <> 0).
Proof.
  intros x pop Hp. rewrite <- (media_init_ok_iff_lemma x (match pop with Some p => p | None => ones end)).
  - unfold scale_xarray. cbv zeta. destruct (media_transformer_init x _) as [tr|e]; cbn [rbind]; split; intros [c H]; eauto; discriminate.
  - intros g _. specialize (Hp g). lra.
Qed.
Lemma ones_positive : forall g, 0 < ones g. Proof. intros g. unfold ones. lra. Qed.

Lemma some_nonzero : forall n f, rsum n f <> 0 -> exists i, (i < n)%nat /\ f i <> 0.
Proof.
  intros n f. induction n as [|n IH]; intros H; [cbn in H; lra|]. cbn [rsum] in H.
  destruct (Req_EM_T (f n) 0) as [E|E]; [|exists n; split; [lia|exact E]].
  destruct IH as (i & Hi & N); [lra|]. exists i. split; [lia|exact N].
Qed.

(** Reach and frequency. *)
Section Rf.
Variables (national : bool) (n : nat) (pop : nat -> R) (reach freq : T3).
Hypothesis L : loadable national n pop reach freq.
Let r := truncate_media_time n reach.
Let f := truncate_media_time n freq.
Let i := times_of r f.

Lemma window : forall g k m, (k < n)%nat -> val r g (n - 1 - k)%nat m = val reach g (times reach - 1 - k)%nat m /\
  val f g (n - 1 - k)%nat m = val freq g (times reach - 1 - k)%nat m.
Proof.
  intros g k m Hk. destruct L as (_ & T & _ & _ & _ & N & _). unfold r, f, truncate_media_time. cbn [val].
  rewrite T. split; f_equal; lia.
Qed.
Lemma impressions_nonneg : forall g t m, 0 <= val i g t m.
Proof.
  intros g t m. destruct L as (_ & _ & _ & P & _). unfold i, times_of, r, f, truncate_media_time. cbn [val].
  apply Rmult_le_pos; [apply (P g _ m)|apply (P g _ m)].
Qed.
Lemma reach_nonneg : forall g t m, 0 <= val r g t m.
Proof. intros g t m. destruct L as (_ & _ & _ & P & _). unfold r, truncate_media_time. cbn [val]. apply (P g _ m). Qed.
Lemma impressions_on_air : forall m,
  (exists g t, (g < geos i)%nat /\ (t < times i)%nat /\ val i g t m <> 0) <-> on_air n reach freq m.
Proof.
  intros m. destruct L as (_ & _ & _ & P & _). unfold i at 1 2. cbn [times_of geos times]. unfold r at 1 2. cbn [truncate_media_time geos times].
  split.
  - intros (g & t & Hg & Ht & N). exists g, (n - 1 - t)%nat. destruct (window g (n - 1 - t) m ltac:(lia)) as [A B].
    replace (n - 1 - (n - 1 - t))%nat with t in A, B by lia. unfold i, times_of in N. cbn [val] in N. rewrite A, B in N.
    split; [exact Hg|]. split; [lia|]. destruct (P g (times reach - 1 - (n - 1 - t))%nat m) as [P1 P2].
    split; [destruct P1 as [|Z]; [assumption|rewrite <- Z in N; rewrite Rmult_0_l in N; congruence]|].
    destruct P2 as [|Z]; [assumption|]. rewrite <- Z in N. rewrite Rmult_0_r in N. congruence.
  - intros (g & k & Hg & Hk & A & B). exists g, (n - 1 - k)%nat. split; [exact Hg|]. split; [lia|].
    destruct (window g k m Hk) as [E1 E2]. unfold i, times_of. cbn [val]. rewrite E1, E2.
    apply Rgt_not_eq. apply Rmult_lt_0_compat; assumption.
Qed.
Lemma summed : forall x m, geos x = geos reach -> times x = n -> (forall g t m, 0 <= val x g t m) ->
  ((exists g t, (g < geos (sum_geos x))%nat /\ (t < times (sum_geos x))%nat /\ val (sum_geos x) g t m <> 0) <->
   (exists g t, (g < geos x)%nat /\ (t < times x)%nat /\ val x g t m <> 0)).
Proof.
  intros x m Eg Et Hx. cbn [sum_geos geos times val]. split.
  - intros (_ & t & _ & Ht & N). apply some_nonzero in N. destruct N as (g & Hg & N). eauto.
  - intros (g & t & Hg & Ht & N). exists 0%nat, t. split; [lia|]. split; [exact Ht|]. apply Rgt_not_eq.
    apply (rsum_pos (geos x) (fun g => val x g t m) g Hg); [intros; apply Hx|]. pose proof (Hx g t m). lra.
Qed.

Lemma available_lemma : (exists d, get_rf_data national n pop reach freq = Ok d) <->
  forall m, (m < chans reach)%nat -> on_air n reach freq m.
Proof.
  pose proof impressions_on_air as IO. pose proof impressions_nonneg as IN. pose proof reach_nonneg as RN. pose proof window as W. destruct L as (_ & _ & _ & P & Pp & N & G).
  assert (A1 : forall p, (forall g, 0 < match p with Some q => q | None => ones end g) ->
    ((exists c, scale_xarray i (Some MediaClass) p = Ok c) <-> forall m, (m < chans reach)%nat -> on_air n reach freq m)).
  { intros p Hp. rewrite (scale_media_ok i p Hp). change (chans i) with (chans reach).
    split; intros H m Hm; apply IO; apply H; exact Hm. }
  assert (A2 : (exists c, aggregate_and_scale i (Some MediaClass) None = Ok c) <->
    forall m, (m < chans reach)%nat -> on_air n reach freq m).
  { unfold aggregate_and_scale. cbn [aggregate]. rewrite (scale_media_ok (sum_geos i) None ones_positive).
    change (chans (sum_geos i)) with (chans reach).
    split; intros H m Hm.
    - apply IO. apply (summed i m eq_refl eq_refl IN). apply H. exact Hm.
    - apply (summed i m eq_refl eq_refl IN). apply IO. apply H. exact Hm. }
  assert (RA : forall m, on_air n reach freq m -> exists g t, (g < geos r)%nat /\ (t < times r)%nat /\ val r g t m <> 0).
  { intros m (g & k & Hg & Hk & A & B). exists g, (n - 1 - k)%nat. split; [exact Hg|]. split; [cbn; lia|].
    destruct (W g k m Hk) as [E1 _]. rewrite E1. lra. }
  unfold get_rf_data. fold r. fold f. fold i. split.
  - intros [d H]. destruct (model_scaled reach pop) as [c|e]; [|discriminate]. cbn [rbind] in H. cbv zeta in H.
    fold r in H. fold f in H. fold i in H. destruct national.
    + destruct (scale_xarray i (Some MediaClass) None) as [c'|e] eqn:E; [|discriminate].
      apply (A1 None ones_positive). exists c'. exact E.
    + destruct (aggregate_and_scale r (Some MediaClass) None) as [c1|e]; [|discriminate]. cbn [rbind] in H.
      destruct (scale_xarray i (Some MediaClass) (Some pop)) as [c'|e] eqn:E; [|discriminate].
      apply (A1 (Some pop) Pp). exists c'. exact E.
  - intros H. assert (M : exists c, model_scaled reach pop = Ok c).
    { unfold model_scaled. apply (scale_media_ok reach (Some pop) Pp). intros m Hm.
      destruct (H m Hm) as (g & k & Hg & Hk & A & B). exists g, (times reach - 1 - k)%nat. split; [exact Hg|]. split; [lia|lra]. }
    destruct M as [c M]. rewrite M. cbn [rbind]. cbv zeta. fold r. fold f. fold i. destruct national.
    + destruct (proj2 (A1 None ones_positive) H) as [c' E]. rewrite E. cbn [rbind]. eauto.
    + assert (R1 : exists c1, aggregate_and_scale r (Some MediaClass) None = Ok c1).
      { unfold aggregate_and_scale. cbn [aggregate]. apply (scale_media_ok (sum_geos r) None ones_positive).
        change (chans (sum_geos r)) with (chans reach). intros m Hm.
        apply (summed r m eq_refl eq_refl RN). apply RA. apply H. exact Hm. }
      destruct R1 as [c1 R1]. rewrite R1. cbn [rbind].
      destruct (proj2 (A1 (Some pop) Pp) H) as [c2 E2]. rewrite E2. cbn [rbind].
      destruct (proj2 A2 H) as [c3 E3]. rewrite E3. cbn [rbind]. eauto.
Qed.
End Rf.

Lemma rf_inv : forall n pop reach freq d, get_rf_data false n pop reach freq = Ok d ->
  rd_reach_raw d = truncate_media_time n reach /\ rd_frequency d = truncate_media_time n freq /\
  rd_impressions_raw d = times_of (truncate_media_time n reach) (truncate_media_time n freq) /\
  rd_national_reach_raw d = sum_geos (truncate_media_time n reach) /\
  rd_national_impressions_raw d = sum_geos (times_of (truncate_media_time n reach) (truncate_media_time n freq)) /\
  times (rd_national_frequency d) = n /\ chans (rd_national_frequency d) = chans reach /\
  (forall t m, val (rd_national_frequency d) 0 t m =
     if Req_EM_T (val (rd_national_reach_raw d) 0 t m) 0 then 0
     else val (rd_national_impressions_raw d) 0 t m / val (rd_national_reach_raw d) 0 t m).
Proof.
  intros n pop reach freq d H. unfold get_rf_data in H.
  destruct (model_scaled reach pop) as [c|e]; [|discriminate]. cbn [rbind] in H. cbv zeta in H.
  destruct (aggregate_and_scale (truncate_media_time n reach) (Some MediaClass) None) as [c1|e]; [|discriminate]. cbn [rbind] in H.
  destruct (scale_xarray _ (Some MediaClass) (Some pop)) as [c2|e]; [|discriminate]. cbn [rbind] in H.
  destruct (aggregate_and_scale (times_of _ _) (Some MediaClass) None) as [c3|e]; [|discriminate]. cbn [rbind] in H.
  assert (E := f_equal (fun o => match o with Ok a => a | Err _ => d end) H). cbn beta iota in E. rewrite <- E.
  repeat split; reflexivity.
Qed.

Lemma national_rf_lemma : forall n pop reach freq d, loadable false n pop reach freq ->
  get_rf_data false n pop reach freq = Ok d ->
  last_periods n reach (rd_reach_raw d) /\ last_periods n freq (rd_frequency d) /\
  forall t m, (t < n)%nat ->
    let R := val (rd_national_reach_raw d) 0 t m in
    let F := val (rd_national_frequency d) 0 t m in
    R = rsum (geos reach) (fun g => val (rd_reach_raw d) g t m) /\
    F * R = rsum (geos reach) (fun g => val (rd_reach_raw d) g t m * val (rd_frequency d) g t m) /\
    F * R = val (rd_national_impressions_raw d) 0 t m /\
    (R = 0 -> F = 0) /\
    (forall lo hi, R <> 0 ->
      (forall g, (g < geos reach)%nat -> 0 < val (rd_reach_raw d) g t m -> lo <= val (rd_frequency d) g t m <= hi) -> lo <= F <= hi).
Proof.
  intros n pop reach freq d L H. pose proof (rf_inv n pop reach freq d H) as (E1 & E2 & E3 & E4 & E5 & _ & _ & EF).
  destruct L as (G & T & C & P & Pp & N & _).
  split; [rewrite E1; apply truncate_lemma; exact N|]. split; [rewrite E2; apply truncate_lemma; lia|].
  intros t m Ht. cbv zeta. rewrite (EF t m), E1, E2, E4, E5. cbn [sum_geos times_of val geos].
  set (r g := val (truncate_media_time n reach) g t m). set (f g := val (truncate_media_time n freq) g t m).
  cbn [truncate_media_time geos]. change (geos (truncate_media_time n reach)) with (geos reach).
  assert (Hr : forall g, 0 <= r g) by (intros g; unfold r, truncate_media_time; cbn [val]; apply P).
  set (R := rsum (geos reach) r). set (I := rsum (geos reach) (fun g => r g * f g)).
  change (rsum (geos reach) (fun g => r g)) with R.
  assert (Q : (if Req_EM_T R 0 then 0 else I / R) * R = I).
  { destruct (Req_EM_T R 0) as [Z|Z]; [|field; exact Z]. rewrite Rmult_0_l. symmetry. apply rsum_zero.
    intros g Hg. rewrite (rsum_zero_nonneg (geos reach) r (fun j _ => Hr j) Z g Hg). ring. }
  split; [reflexivity|]. split; [exact Q|]. split; [exact Q|]. split.
  { intros Z. destruct (Req_EM_T R 0); [reflexivity|contradiction]. }
  intros lo hi NR B. destruct (Req_EM_T R 0) as [Z|Z]; [contradiction|].
  assert (PR : 0 < R). { assert (0 <= R) by (apply rsum_nonneg; intros; apply Hr). lra. }
  assert (Lo : lo * R <= I).
  { unfold R, I. rewrite <- rsum_scal. apply rsum_le. intros g Hg. destruct (Hr g) as [Hp|Z0].
    - rewrite Rmult_comm. apply Rmult_le_compat_l; [lra|]. apply (B g Hg Hp).
    - change (r g) with (r g). rewrite <- Z0. lra. }
  assert (Hi : I <= hi * R).
  { unfold R, I. rewrite <- rsum_scal. apply rsum_le. intros g Hg. destruct (Hr g) as [Hp|Z0].
    - rewrite (Rmult_comm hi). apply Rmult_le_compat_l; [lra|]. apply (B g Hg Hp).
    - rewrite <- Z0. lra. }
  assert (IR : I / R * R = I) by (field; exact Z).
  change (lo <= I / R <= hi). split; apply (Rmult_le_reg_r R); try exact PR; rewrite IR; [exact Lo|exact Hi].
Qed.

(** Failed arrays stop the checks and sampling. *)
Lemma blocked_lemma : forall A rf organic e kpi vif corr (sampler : result A) held,
  rf = Some (Err e) \/ organic = Some (Err e) ->
  M_Eda.sample_posterior (critical_checks rf organic kpi vif corr) sampler held = (Err RuntimeError, held).
Proof.
  intros A rf organic e kpi vif corr sampler held H. unfold M_Eda.sample_posterior.
  assert (G : M_Eda.guardrail (critical_checks rf organic kpi vif corr) = Err RuntimeError).
  { assert (V : exists e', needs rf (needs organic vif) = Err e').
    { destruct H as [->| ->]; [exists e; reflexivity|]. destruct rf as [[d|e0]|]; cbn [needs]; eauto. }
    destruct V as [e' V]. unfold critical_checks, M_Eda.run_checks, M_Eda.guardrail. rewrite V.
    cbn [M_Eda.guarded M_Eda.kpi_invariability M_Eda.multicollinearity M_Eda.pairwise_correlation M_Eda.o_findings flat_map filter M_Eda.is_error fst].
    destruct (filter M_Eda.is_error (M_Eda.o_findings (M_Eda.guarded kpi))); reflexivity. }
  rewrite G. reflexivity.
Qed.

(** Centered national data. *)
Lemma mean_gt_affine : forall T a b (x : nat -> nat -> R), (0 < T)%nat ->
  mean_gt 1 T (fun g t => a * x g t + b) = a * mean_gt 1 T x + b.
Proof.
  intros T a b x HT. unfold mean_gt. cbn [rsum]. rewrite rsum_plus, rsum_scal, rsum_const. cbn [INR].
  assert (P : 0 < INR T) by (apply lt_0_INR; exact HT).
  change (rsum T (fun t => x 0%nat t)) with (rsum T (x 0%nat)). field. lra.
Qed.
Lemma mean_gt_ext : forall T (x y : nat -> nat -> R), (forall t, (t < T)%nat -> x 0%nat t = y 0%nat t) ->
  mean_gt 1 T x = mean_gt 1 T y.
Proof.
  intros T x y H. unfold mean_gt. cbn [rsum]. rewrite (rsum_ext T (fun t => x 0%nat t) (fun t => y 0%nat t) H). reflexivity.
Qed.
Lemma std_gt_affine : forall T a b (x y : nat -> nat -> R), (0 < T)%nat -> 0 < a ->
  (forall t, (t < T)%nat -> y 0%nat t = a * x 0%nat t + b) -> std_gt 1 T y = a * std_gt 1 T x.
Proof.
  intros T a b x y HT Ha H. unfold std_gt.
  assert (M : mean_gt 1 T y = a * mean_gt 1 T x + b).
  { rewrite <- (mean_gt_affine T a b x HT). apply mean_gt_ext. exact H. }
  set (z := fun g t => (x g t - mean_gt 1 T x) ^ 2).
  assert (E : mean_gt 1 T (fun g t => (y g t - mean_gt 1 T y) ^ 2) = a ^ 2 * mean_gt 1 T z).
  { rewrite <- (Rplus_0_r (a ^ 2 * mean_gt 1 T z)). rewrite <- (mean_gt_affine T (a ^ 2) 0 z HT).
    apply mean_gt_ext. intros t Ht. rewrite (H t Ht), M. unfold z. ring. }
  rewrite E. rewrite sqrt_mult_alt by apply pow2_ge_0. rewrite sqrt_pow2 by lra. reflexivity.
Qed.
Lemma centering_affine_invariant : forall x y a b m t, geos x = 1%nat -> geos y = 1%nat -> times y = times x ->
  (t < times x)%nat -> 0 < a -> (forall t, (t < times x)%nat -> val y 0 t m = a * val x 0 t m + b) ->
  centering_forward (centering_init y ones None) true 0 m (val y 0 t m) =
  centering_forward (centering_init x ones None) true 0 m (val x 0 t m).
Proof.
  intros x y a b m t Gx Gy T Ht Ha H. unfold centering_init, centering_forward. cbn [c_factors c_means c_stdevs].
  rewrite Gx, Gy, T. assert (HT : (0 < times x)%nat) by lia.
  assert (M : mean_gt 1 (times x) (fun g t => val y g t m) = a * mean_gt 1 (times x) (fun g t => val x g t m) + b).
  { rewrite <- (mean_gt_affine (times x) a b (fun g t => val x g t m) HT). apply mean_gt_ext. exact H. }
  assert (S : std_gt 1 (times x) (fun g t => val y g t m) = a * std_gt 1 (times x) (fun g t => val x g t m)).
  { apply (std_gt_affine (times x) a b); auto. }
  rewrite M, S, (H t Ht). set (mu := mean_gt _ _ _). set (sd := std_gt _ _ _). unfold divide_no_nan.
  destruct (Req_EM_T sd 0) as [Z|Z]; destruct (Req_EM_T (a * sd) 0) as [W|W].
  - reflexivity.
  - exfalso. apply W. rewrite Z. ring.
  - exfalso. apply Rmult_integral in W. lra.
  - field. split; lra.
Qed.
Lemma agg_one_geo : forall x f, geos (aggregate x f) = 1%nat /\ times (aggregate x f) = times x /\ chans (aggregate x f) = chans x.
Proof. intros x [f|]; repeat split; reflexivity. Qed.
Lemma standardised_lemma : forall x f m, varies (aggregate x f) m ->
  exists c, national_centered_da x f = Ok c /\ cu_geos c = 1%nat /\ cu_times c = times x /\ cu_vars c = chans x /\ standardised c m.
Proof.
  intros x f m V. unfold national_centered_da, aggregate_and_scale, scale_xarray. cbv zeta.
  destruct (agg_one_geo x f) as (G & T & C). set (y := aggregate x f) in *. eexists. split; [reflexivity|].
  cbn [cu_geos cu_times cu_vars]. split; [exact G|]. split; [exact T|]. split; [exact C|].
  destruct V as (t & t' & Ht & Ht' & N).
  assert (HT : (0 < times y)%nat) by lia.
  assert (SD : c_stdevs (centering_init y ones None) m <> 0).
  { unfold centering_init. cbn [c_stdevs]. rewrite G. intros Z.
    apply (std_gt_zero_iff 1 (times y) (fun g t => val y g t m)) in Z; [|lia|exact HT].
    destruct Z as [k Z]. rewrite (Z 0%nat t ltac:(lia) Ht), (Z 0%nat t' ltac:(lia) Ht') in N. congruence. }
  pose proof (centering_standardised_lemma y ones None m ltac:(lia) HT SD) as [A B].
  unfold mean_zero in A. unfold mean_square_one in B. rewrite G in A, B. cbn [rsum INR] in A, B.
  exists (fun t => centering_forward (centering_init y ones None) true 0 m (val y 0 t m)).
  cbn [cu_times cu_at]. split; [reflexivity|]. split; [lra|lra].
Qed.
Lemma sum_or_mean_lemma : forall x t m, (0 < geos x)%nat -> (t < times x)%nat ->
  exists a b, national_centered_da x None = Ok a /\
    national_centered_da x (Some (fun _ => Some (fun l => lsum l / INR (length l)))) = Ok b /\
    cu_at b 0 t m = cu_at a 0 t m.
Proof.
  intros x t m Hg Ht. unfold national_centered_da, aggregate_and_scale, scale_xarray. cbv zeta.
  eexists. eexists. split; [reflexivity|]. split; [reflexivity|]. cbn [cu_at]. f_equal.
  assert (P : 0 < INR (geos x)) by (apply lt_0_INR; exact Hg).
  apply (centering_affine_invariant (sum_geos x) (aggregate_variables x _) (/ INR (geos x)) 0); try reflexivity; auto.
  - apply Rinv_0_lt_compat. exact P.
  - intros t' _. cbn [aggregate_variables sum_geos val]. rewrite map_length, seq_length, lsum_seq.
    field_simplify; [|lra|lra]. f_equal.
Qed.

(** National media. *)
Lemma national_media_ok : forall n media pop, (n <= times media)%nat -> (forall g t m, 0 <= val media g t m) ->
  ((exists c, national_media_scaled_da false n media pop = Ok c) <->
   forall m, (m < chans media)%nat -> exists g k, (g < geos media)%nat /\ (k < n)%nat /\ 0 < val media g (times media - 1 - k)%nat m).
Proof.
  intros n media pop N P. unfold national_media_scaled_da, aggregate_and_scale, media_raw_da. cbn [aggregate].
  set (x := truncate_media_time n media). assert (Px : forall g t m, 0 <= val x g t m) by (intros; apply P).
  rewrite (scale_media_ok (sum_geos x) None ones_positive). change (chans (sum_geos x)) with (chans media).
  destruct (truncate_lemma n media N) as (_ & _ & _ & W). fold x in W.
  split; intros H m Hm; specialize (H m Hm).
  - apply (summed n x x m eq_refl eq_refl Px) in H. destruct H as (g & t & Hg & Ht & Z).
    change (times x) with n in Ht. exists g, (n - 1 - t)%nat. split; [exact Hg|]. split; [lia|]. rewrite <- (W g (n - 1 - t)%nat m) by lia.
    replace (n - 1 - (n - 1 - t))%nat with t by lia. pose proof (Px g t m). lra.
  - apply (summed n x x m eq_refl eq_refl Px). destruct H as (g & k & Hg & Hk & Z).
    exists g, (n - 1 - k)%nat. split; [exact Hg|]. split; [change (times x) with n; lia|]. rewrite (W g k m Hk). lra.
Qed.
Lemma national_media_median : forall n media pop c m, (forall g t m, 0 <= val media g t m) ->
  national_media_scaled_da false n media pop = Ok c -> (m < chans media)%nat ->
  exists z, geos z = 1%nat /\ times z = n /\
    (forall t, (t < n)%nat -> cu_at c 0 t m = Some (val z 0 t m)) /\
    is_median (filter nonzero (channel_values z m)) 1 /\
    exists k, 0 < k /\ forall t, (t < n)%nat -> k * val z 0 t m = val (national_media_raw_da false n media) 0 t m.
Proof.
  intros n media pop c m P H Hm. unfold national_media_scaled_da, aggregate_and_scale, scale_xarray in H. cbv zeta in H. cbn [aggregate] in H.
  unfold national_media_raw_da. set (x := sum_geos (media_raw_da n media)) in *.
  assert (Px : forall g t m, 0 <= val x g t m).
  { intros g t m'. unfold x. cbn [sum_geos val]. apply rsum_nonneg. intros; apply P. }
  destruct (media_transformer_init x ones) as [tr|e] eqn:I; [|discriminate]. cbn [rbind] in H.
  assert (E : c = mkCube (geos x) (times x) (chans x) (fun g t m => media_forward tr g m (val x g t m))) by congruence.
  destruct (media_init_median x ones tr m I Hm) as [M S].
  assert (Pm : 0 < scale_factors_gm tr 0 m).
  { pose proof (media_roundtrip_lemma x ones tr 0 m I (fun g _ => ones_positive g) (fun g t m _ _ _ => Px g t m) ltac:(cbn; lia) Hm) as [R _].
    destruct (R 1) as (y & F & B). unfold media_forward, fdiv in F. destruct (Req_EM_T (scale_factors_gm tr 0 m) 0) as [Z|Z]; [discriminate|].
    rewrite S. unfold ones at 1. rewrite S in Z. unfold ones at 1 in Z.
    assert (0 <= population_scaled_median_m tr m).
    { destruct M as (Ne & s & Pr & Ss & ->). assert (Q : forall v, In v s -> 0 <= v).
      { intros v Hv. apply (Permutation.Permutation_in v (Permutation.Permutation_sym Pr)) in Hv. apply filter_In in Hv.
        destruct Hv as [Hv _]. unfold channel_values in Hv. apply in_flat_map in Hv. destruct Hv as (g & _ & Hv).
        apply in_map_iff in Hv. destruct Hv as (t & <- & _). cbn [population_scaled val]. unfold divide_no_nan.
        destruct (Req_EM_T (ones g) 0); [lra|]. unfold ones. pose proof (Px g t m). lra. }
      assert (Q' : forall i, 0 <= nth i s 0).
      { intros i. destruct (nth_in_or_default i s 0) as [Hi|Hi]; [apply Q; exact Hi|rewrite Hi; lra]. }
      pose proof (Q' ((length (filter nonzero (channel_values (population_scaled x ones) m)) - 1) / 2)%nat).
      pose proof (Q' (length (filter nonzero (channel_values (population_scaled x ones) m)) / 2)%nat). lra. }
    lra. }
  set (z := mkT3 1 n (chans x) (fun g t m => val x g t m / scale_factors_gm tr g m)).
  assert (F : forall g t, (g < geos x)%nat -> (t < times x)%nat -> media_forward tr g m (val x g t m) = Some (val z g t m)).
  { intros g t Hg Ht. assert (g = 0%nat) by (cbn in Hg; lia). subst g. unfold media_forward, fdiv.
    destruct (Req_EM_T (scale_factors_gm tr 0 m) 0) as [Z|Z]; [lra|reflexivity]. }
  exists z. split; [reflexivity|]. split; [reflexivity|]. split.
  - intros t Ht. rewrite E. cbn [cu_at]. apply F; [cbn; lia|exact Ht].
  - split.
    + apply (media_scaled_median_lemma x ones tr m I (fun g _ => ones_positive g) (fun g t m _ _ _ => Px g t m) Hm z eq_refl eq_refl F).
    + exists (scale_factors_gm tr 0 m). split; [exact Pm|]. intros t _. unfold z. cbn [val]. field. lra.
Qed.
