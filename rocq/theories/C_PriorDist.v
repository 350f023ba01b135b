(** C14: the log-normal prior helpers hit the requested moments and range. *)
From Coq Require Import Reals List Lra Bool.
From Verif Require Import Lib_Sum M_Base M_PriorDist S_PriorDist P_PriorDist.
Import ListNotations.
Local Open Scope R_scope.

(** C14. [lognormal_dist_from_mean_std] has the requested mean and standard deviation. *)
Theorem C14_mean_and_std : forall mean std, 0 < mean -> 0 <= std ->
  dist_mean (lognormal_dist_from_mean_std mean std) = mean /\
  dist_sd (lognormal_dist_from_mean_std mean std) = std.
Proof. exact mean_std_lemma. Qed.
Print Assumptions C14_mean_and_std.

(** C14. [lognormal_dist_from_range] leaves half of the remaining mass below [low] and half
    above [high], for every element of the arrays. *)
Theorem C14_range_has_mass : forall Phi quantile args out i low high mass,
  quantile_of Phi quantile ->
  lognormal_dist_from_range quantile args = Ok out ->
  nth_error args i = Some (low, high, mass) ->
  exists d, nth_error out i = Some d /\ 0 < ln_sigma d /\
    lognormal_cdf Phi d low = (1 - mass) / 2 /\ lognormal_cdf Phi d high = (1 + mass) / 2.
Proof. exact range_lemma. Qed.
Print Assumptions C14_range_has_mass.

(** C14. The range helper accepts exactly the documented arguments; otherwise ValueError. *)
Theorem C14_range_accepts_iff : forall quantile args,
  (forall low high mass, In (low, high, mass) args -> 0 < low < high /\ 0 < mass < 1) <->
  exists out, lognormal_dist_from_range quantile args = Ok out.
Proof. exact range_runs. Qed.
Print Assumptions C14_range_accepts_iff.

Theorem C14_range_errors : forall quantile args e,
  lognormal_dist_from_range quantile args = Err e -> e = ValueError.
Proof. exact range_error_lemma. Qed.
Print Assumptions C14_range_errors.

(** C14. The default ROI prior derived from the total media contribution: the contribution of
    all channels together has the requested mean and standard deviation. *)
Theorem C14_total_media_contribution : forall kpi spend p_mean p_sd,
  0 < kpi -> 0 < lsum spend -> 0 < p_mean -> 0 <= p_sd ->
  let d := total_media_contribution_prior kpi spend p_mean p_sd in
  total_contribution_mean d spend kpi = p_mean /\ total_contribution_sd d spend kpi = p_sd.
Proof. exact total_prior_lemma. Qed.
Print Assumptions C14_total_media_contribution.

(** Concrete cases. *)
Example C14_defaults : let d := total_media_contribution_prior 1000 [100; 300] P_MEAN P_SD in
  total_contribution_mean d [100; 300] 1000 = 4 / 10 /\ total_contribution_sd d [100; 300] 1000 = 2 / 10.
Proof. apply C14_total_media_contribution; simpl; unfold P_MEAN, P_SD; lra. Qed.

Example C14_range_runs : exists out, lognormal_dist_from_range (fun p => p) [(1, 10, 95 / 100); (1, 2, 1 / 2)] = Ok out.
Proof.
  apply C14_range_accepts_iff. intros low high mass [H|[H|[]]]; inversion H; subst; lra.
Qed.

(** The quantile hypothesis is met, e.g. by a distribution function built from the exponential
    (logistic distribution). *)
Example C14_quantile_exists : exists Phi q, quantile_of Phi q.
Proof.
  exists (fun x => 1 / (1 + exp (- x))), (fun p => ln (p / (1 - p))). split.
  - intros x y H. pose proof (exp_pos (- x)). pose proof (exp_pos (- y)).
    assert (exp (- y) < exp (- x)) by (apply exp_increasing; lra).
    unfold Rdiv. rewrite !Rmult_1_l. apply Rinv_lt_contravar; nra.
  - intros p Hp. assert (0 < p / (1 - p)) by (apply Rdiv_lt_0_compat; lra).
    rewrite exp_Ropp, exp_ln by auto. field. split; lra.
Qed.
