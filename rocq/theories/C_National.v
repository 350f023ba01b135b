(** C87: the arrays that the exploratory checks read. *)
From Coq Require Import Reals ZArith List Bool Arith Lia Lra.
From Verif Require Import Lib_Sum M_Base M_Transformers S_Transformers M_DataChecks M_National S_National P_National.
From Verif Require M_Eda.
Import ListNotations.
Local Open Scope R_scope.

(** Media are checked in the periods of the KPI, the last ones; scaled media as the model scales them. *)
Theorem C87_periods : forall n media population, (n <= times media)%nat ->
  last_periods n media (media_raw_da n media) /\
  forall c, model_scaled media population = Ok c ->
    exists w, media_scaled_da n media population = Ok w /\ cu_times c = times media /\ last_periods_of_cube n c w.
Proof.
  intros n media population N. split; [exact (truncate_lemma n media N)|]. intros c H. unfold media_scaled_da. rewrite H.
  cbn [rbind]. exists (truncate_cube n c). split; [reflexivity|].
  assert (T : cu_times c = times media).
  { unfold model_scaled, scale_xarray in H. cbv zeta in H. destruct (media_transformer_init media population); [|discriminate].
    cbn [rbind] in H. injection H as <-. reflexivity. }
  split; [exact T|]. apply truncate_cube_lemma. lia.
Qed.
Print Assumptions C87_periods.

(** National reach is the sum of the geos'; national frequency is the average of the geos'
    weighted with reach, so that reach times frequency are the impressions of all geos. *)
Theorem C87_national_rf : forall n population reach freq d, loadable false n population reach freq ->
  get_rf_data false n population reach freq = Ok d ->
  last_periods n reach (rd_reach_raw d) /\ last_periods n freq (rd_frequency d) /\
  forall t m, (t < n)%nat ->
    let R := val (rd_national_reach_raw d) 0 t m in
    let F := val (rd_national_frequency d) 0 t m in
    R = rsum (geos reach) (fun g => val (rd_reach_raw d) g t m) /\
    F * R = rsum (geos reach) (fun g => val (rd_reach_raw d) g t m * val (rd_frequency d) g t m) /\
    F * R = val (rd_national_impressions_raw d) 0 t m /\
    (R = 0 -> F = 0) /\
    (forall lo hi, R <> 0 ->
      (forall g, (g < geos reach)%nat -> 0 < val (rd_reach_raw d) g t m -> lo <= val (rd_frequency d) g t m <= hi) -> lo <= F <= hi).
Proof. exact national_rf_lemma. Qed.
Print Assumptions C87_national_rf.

(** The arrays exist exactly if every reach and frequency channel is on air in a period of the KPI. *)
Theorem C87_available : forall national n population reach freq, loadable national n population reach freq ->
  ((exists d, get_rf_data national n population reach freq = Ok d) <->
   forall m, (m < chans reach)%nat -> on_air n reach freq m).
Proof. exact available_lemma. Qed.
Print Assumptions C87_available.

(** Where they do not, the posterior cannot be sampled: the guardrail stops it. *)
Theorem C87_blocked : forall A rf organic e kpi vif corr (sampler : result A) held,
  rf = Some (Err e) \/ organic = Some (Err e) ->
  M_Eda.sample_posterior (critical_checks rf organic kpi vif corr) sampler held = (Err RuntimeError, held).
Proof. exact blocked_lemma. Qed.
Print Assumptions C87_blocked.

(** That a model whose reach the model itself can scale can also be checked: refuted by a channel
    on air only in the media period before the first period of the KPI.  Sampling is refused. *)
Definition early : T3 := mkT3 1 3 1 (fun _ t _ => match t with O => 5 | _ => 0 end).
Definition once : T3 := mkT3 1 3 1 (fun _ _ _ => 2).
Theorem C87_builds_refuted :
  exists national n population reach freq, loadable national n population reach freq /\ model_builds population reach /\
  exists e, get_rf_data national n population reach freq = Err e /\
  forall A kpi vif corr (sampler : result A) held,
    M_Eda.sample_posterior (critical_checks None (Some (get_rf_data national n population reach freq)) kpi vif corr) sampler held
    = (Err RuntimeError, held).
Proof.
  exists true, 2%nat, ones, early, once.
  assert (L : loadable true 2 ones early once).
  { unfold loadable, early, once. cbn [geos times chans val]. repeat split; auto; try lra.
    - destruct t; lra.
    - intros g. apply ones_positive. }
  split; [exact L|]. split.
  { apply (scale_media_ok early (Some ones) ones_positive). intros m _. exists 0%nat, 0%nat. cbn. repeat split; try lia. lra. }
  destruct (get_rf_data true 2 ones early once) as [d|e] eqn:E.
  - exfalso. assert (X : exists d, get_rf_data true 2 ones early once = Ok d) by eauto.
    apply (available_lemma _ _ _ _ _ L) with (m := 0%nat) in X; [|cbn; lia].
    destruct X as (g & k & _ & Hk & A & _). cbn [early times val] in A.
    destruct k as [|[|k]]; cbn in A; try lra. lia.
  - exists e. split; [reflexivity|]. intros A kpi vif corr sampler held. apply (blocked_lemma A _ _ e). right. reflexivity.
Qed.
Print Assumptions C87_builds_refuted.

(** National media of several geos: the sum over the geos, divided by the median of its non-zero
    values, so that that median is one; available exactly if every channel is on air. *)
Theorem C87_national_media : forall n media population, (n <= times media)%nat -> (forall g t m, 0 <= val media g t m) ->
  ((exists c, national_media_scaled_da false n media population = Ok c) <->
   forall m, (m < chans media)%nat -> exists g k, (g < geos media)%nat /\ (k < n)%nat /\ 0 < val media g (times media - 1 - k)%nat m) /\
  forall c m, national_media_scaled_da false n media population = Ok c -> (m < chans media)%nat ->
  exists z, geos z = 1%nat /\ times z = n /\
    (forall t, (t < n)%nat -> cu_at c 0 t m = Some (val z 0 t m)) /\
    is_median (filter nonzero (channel_values z m)) 1 /\
    exists k, 0 < k /\ forall t, (t < n)%nat ->
      k * val z 0 t m = rsum (geos media) (fun g => val (media_raw_da n media) g t m).
Proof.
  intros n media population N P. split; [exact (national_media_ok n media population N P)|].
  intros c m H Hm. exact (national_media_median n media population c m P H Hm).
Qed.
Print Assumptions C87_national_media.

(** National controls, non-media treatments and KPI have mean zero and mean square one, whatever
    aggregation was chosen, unless they are constant. *)
Theorem C87_standardised : forall x f m, varies (aggregate x f) m ->
  exists c, national_centered_da x f = Ok c /\ cu_geos c = 1%nat /\ cu_times c = times x /\ cu_vars c = chans x /\ standardised c m.
Proof. exact standardised_lemma. Qed.
Print Assumptions C87_standardised.

(** Sums and means over the geos give the same national data. *)
Theorem C87_sum_or_mean : forall x t m, (0 < geos x)%nat -> (t < times x)%nat ->
  exists a b, national_centered_da x None = Ok a /\
    national_centered_da x (Some (fun _ => Some (fun l => lsum l / INR (length l)))) = Ok b /\
    cu_at b 0 t m = cu_at a 0 t m.
Proof. exact sum_or_mean_lemma. Qed.
Print Assumptions C87_sum_or_mean.

(** The values aggregated: of a variable with an aggregation of its own, what it makes of the values of the geos; of any
    other, their sum. *)
Theorem C87_aggregated : forall x f t m,
  (forall a, f m = Some a -> val (aggregate x (Some f)) 0 t m = a (map (fun g => val x g t m) (seq 0 (geos x)))) /\
  (f m = None -> val (aggregate x (Some f)) 0 t m = rsum (geos x) (fun g => val x g t m)) /\
  val (aggregate x None) 0 t m = rsum (geos x) (fun g => val x g t m).
Proof.
  intros x f t m. cbn [aggregate aggregate_variables sum_geos val]. split; [intros a E; rewrite E; reflexivity|]. split; [|reflexivity].
  intros E. rewrite E. unfold default_aggregation. rewrite lsum_seq. reflexivity.
Qed.
Print Assumptions C87_aggregated.

(** Example: two geos, two periods: reach 1 and 3 at frequency 2 and 4 make 4 at 3.5. *)
Definition ex_reach : T3 := mkT3 2 2 1 (fun g t _ => match g with O => 1 | _ => 3 end).
Definition ex_freq : T3 := mkT3 2 2 1 (fun g t _ => match g with O => 2 | _ => 4 end).
Example C87_example : exists d, loadable false 2 ones ex_reach ex_freq /\ get_rf_data false 2 ones ex_reach ex_freq = Ok d /\
  val (rd_national_reach_raw d) 0 0 0 = 4 /\ val (rd_national_frequency d) 0 0 0 = 7 / 2 /\
  varies (aggregate (mkT3 2 2 1 (fun g t _ => INR t)) None) 0.
Proof.
  assert (L : loadable false 2 ones ex_reach ex_freq).
  { unfold loadable, ex_reach, ex_freq. cbn [geos times chans val]. repeat split; auto; try (destruct g; lra); try discriminate.
    intros g. apply ones_positive. }
  destruct (proj2 (available_lemma _ _ _ _ _ L)) as [d D].
  { intros m _. exists 0%nat, 0%nat. cbn. repeat split; try lia; lra. }
  exists d. split; [exact L|]. split; [exact D|].
  destruct (national_rf_lemma _ _ _ _ _ L D) as (W1 & W2 & Q). destruct (Q 0%nat 0%nat ltac:(lia)) as (A & B & _).
  pose proof (rf_inv _ _ _ _ _ D) as (E1 & E2 & _). rewrite E1 in A. rewrite E1, E2 in B.
  cbn in A, B. split; [lra|]. split; [rewrite A in B; lra|].
  exists 0%nat, 1%nat. cbn. repeat split; try lia. lra.
Qed.
