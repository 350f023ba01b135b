(** Proofs about the log-normal prior helpers. *)
From Coq Require Import Reals List Lra Lia Bool.
From Verif Require Import Lib_Sum M_Base M_PriorDist S_PriorDist.
Import ListNotations.
Local Open Scope R_scope.

Lemma ratio_gt_1 : forall x, 1 <= x ^ 2 + 1.
Proof. intros x. pose proof (pow2_ge_0 x). lra. Qed.

Lemma ln_ratio_nonneg : forall x, 0 <= ln (x ^ 2 + 1).
Proof.
  intros x. pose proof (ratio_gt_1 x) as H. rewrite <- ln_1.
  destruct (Rle_lt_or_eq_dec _ _ H) as [H1|H1]; [left; apply ln_increasing; lra|rewrite <- H1; lra].
Qed.

Lemma moments_of : forall mean q, 0 < mean ->
  let d := mkLN (ln mean - 1 / 2 * ln (q ^ 2 + 1)) (sqrt (ln (q ^ 2 + 1))) in
  dist_mean d = mean /\ dist_variance d = (q * mean) ^ 2.
Proof.
  intros mean q Hm d. pose proof (ln_ratio_nonneg q) as Hl. pose proof (ratio_gt_1 q) as Hr.
  assert (Hmean : moment 1 d = mean).
  { unfold moment, d; cbn [ln_mu ln_sigma]. rewrite pow2_sqrt by auto.
    replace (1 * (ln mean - 1 / 2 * ln (q ^ 2 + 1)) + 1 ^ 2 * ln (q ^ 2 + 1) / 2) with (ln mean) by field.
    apply exp_ln. auto. }
  split; [exact Hmean|].
  unfold dist_variance. rewrite Hmean.
  unfold moment, d; cbn [ln_mu ln_sigma]. rewrite pow2_sqrt by auto.
  replace (2 * (ln mean - 1 / 2 * ln (q ^ 2 + 1)) + 2 ^ 2 * ln (q ^ 2 + 1) / 2)
    with (ln mean + ln mean + ln (q ^ 2 + 1)) by field.
  rewrite !exp_plus, !exp_ln by lra. ring.
Qed.

Lemma mean_std_lemma : forall mean std, 0 < mean -> 0 <= std ->
  dist_mean (lognormal_dist_from_mean_std mean std) = mean /\
  dist_sd (lognormal_dist_from_mean_std mean std) = std.
Proof.
  intros mean std Hm Hs. destruct (moments_of mean (std / mean) Hm) as [A B].
  unfold lognormal_dist_from_mean_std. split; [exact A|].
  unfold dist_sd. rewrite B. replace (std / mean * mean) with std by (field; lra).
  replace (std ^ 2) with (Rsqr std) by (unfold Rsqr; ring). rewrite sqrt_Rsqr; auto.
Qed.

Lemma Rltb_true : forall x y, Rltb x y = true <-> x < y.
Proof. intros x y. unfold Rltb. destruct (Rlt_dec x y); split; intros; auto; try discriminate; contradiction. Qed.

Lemma range_runs : forall q args,
  (forall low high mass, In (low, high, mass) args -> 0 < low < high /\ 0 < mass < 1) <->
  exists out, lognormal_dist_from_range q args = Ok out.
Proof.
  intros q args. unfold lognormal_dist_from_range. split.
  - intros H.
    assert (A : forallb (fun a : R * R * R => let '(low, _, _) := a in Rltb 0 low) args = true)
      by (apply forallb_forall; intros [[l h] m] Hin; apply Rltb_true; apply (H l h m Hin)).
    assert (B : forallb (fun a : R * R * R => let '(low, high, _) := a in Rltb low high) args = true)
      by (apply forallb_forall; intros [[l h] m] Hin; apply Rltb_true; apply (H l h m Hin)).
    assert (C : forallb (fun a : R * R * R => let '(_, _, mass) := a in Rltb 0 mass) args = true)
      by (apply forallb_forall; intros [[l h] m] Hin; apply Rltb_true; apply (H l h m Hin)).
    assert (D : forallb (fun a : R * R * R => let '(_, _, mass) := a in Rltb mass 1) args = true)
      by (apply forallb_forall; intros [[l h] m] Hin; apply Rltb_true; apply (H l h m Hin)).
    rewrite A, B, C, D. simpl. eexists. reflexivity.
  - intros [out Ho] low high mass Hin.
    destruct (forallb (fun a : R * R * R => let '(low, _, _) := a in Rltb 0 low) args) eqn:A; [|discriminate].
    destruct (forallb (fun a : R * R * R => let '(low, high, _) := a in Rltb low high) args) eqn:B; [|discriminate].
    destruct (forallb (fun a : R * R * R => let '(_, _, mass) := a in Rltb 0 mass) args) eqn:C; [|discriminate].
    destruct (forallb (fun a : R * R * R => let '(_, _, mass) := a in Rltb mass 1) args) eqn:D; [|discriminate].
    rewrite forallb_forall in A, B, C, D.
    specialize (A _ Hin). specialize (B _ Hin). specialize (C _ Hin). specialize (D _ Hin).
    simpl in *. apply Rltb_true in A, B, C, D. lra.
Qed.

Lemma quantile_increasing : forall Phi q a b, quantile_of Phi q -> 0 < a -> a < b -> b < 1 -> q a < q b.
Proof.
  intros Phi q a b [Hinc Hq] H1 H2 H3.
  destruct (Rlt_or_le (q a) (q b)) as [H|H]; auto. exfalso.
  assert (Phi (q b) <= Phi (q a)).
  { destruct H as [H|H]; [left; auto|rewrite H; lra]. }
  rewrite !Hq in H0 by lra. lra.
Qed.

Lemma range_one : forall Phi q low high mass, quantile_of Phi q ->
  0 < low < high -> 0 < mass < 1 ->
  let sigma := ln (high / low) / (q (1 / 2 + mass / 2) - q (1 / 2 - mass / 2)) in
  let d := mkLN (ln high - q (1 / 2 + mass / 2) * sigma) sigma in
  0 < ln_sigma d /\
  lognormal_cdf Phi d low = (1 - mass) / 2 /\ lognormal_cdf Phi d high = (1 + mass) / 2.
Proof.
  intros Phi q low high mass HQ [Hl Hh] Hm sigma d.
  assert (Hq : q (1 / 2 - mass / 2) < q (1 / 2 + mass / 2))
    by (apply (quantile_increasing Phi); auto; lra).
  assert (Hr : 1 < high / low).
  { apply (Rmult_lt_reg_r low); [auto|]. unfold Rdiv. rewrite Rmult_assoc, Rinv_l by lra. lra. }
  assert (Hln : 0 < ln (high / low)) by (rewrite <- ln_1; apply ln_increasing; lra).
  assert (Hs : 0 < sigma).
  { unfold sigma. apply Rdiv_lt_0_compat; lra. }
  assert (Elow : ln low = ln high - ln (high / low)).
  { unfold Rdiv. rewrite ln_mult, ln_Rinv; try lra. apply Rinv_0_lt_compat; auto. }
  destruct HQ as [Hinc Hqp].
  split; [exact Hs|]. unfold lognormal_cdf, d; cbn [ln_mu ln_sigma]. split.
  - replace ((ln low - (ln high - q (1 / 2 + mass / 2) * sigma)) / sigma)
      with (q (1 / 2 - mass / 2)).
    + rewrite Hqp by lra. lra.
    + rewrite Elow. unfold sigma. field. lra.
  - replace ((ln high - (ln high - q (1 / 2 + mass / 2) * sigma)) / sigma)
      with (q (1 / 2 + mass / 2)) by (field; lra).
    rewrite Hqp by lra. lra.
Qed.

Lemma range_lemma : forall Phi q args out i low high mass, quantile_of Phi q ->
  lognormal_dist_from_range q args = Ok out ->
  nth_error args i = Some (low, high, mass) ->
  exists d, nth_error out i = Some d /\ 0 < ln_sigma d /\
    lognormal_cdf Phi d low = (1 - mass) / 2 /\ lognormal_cdf Phi d high = (1 + mass) / 2.
Proof.
  intros Phi q args out i low high mass HQ Hrun Hi.
  pose proof (proj2 (range_runs q args) (ex_intro _ out Hrun)) as Hok.
  destruct (Hok low high mass (nth_error_In _ _ Hi)) as [Hl Hm].
  unfold lognormal_dist_from_range, raise_if in Hrun.
  destruct (negb _) in Hrun; [discriminate|]. destruct (negb _) in Hrun; [discriminate|].
  inversion Hrun; subst out. clear Hrun.
  rewrite nth_error_map, Hi. simpl. eexists. split; [reflexivity|].
  exact (range_one Phi q low high mass HQ Hl Hm).
Qed.

Lemma range_error_lemma : forall q args e, lognormal_dist_from_range q args = Err e -> e = ValueError.
Proof.
  intros q args e. unfold lognormal_dist_from_range, raise_if.
  destruct (negb _); [congruence|]. destruct (negb _); congruence.
Qed.

Lemma lsum_map_scal_r : forall c l, lsum (map (fun s => s * c) l) = lsum l * c.
Proof. induction l as [|a l IH]; simpl; [ring|rewrite IH; ring]. Qed.

Lemma lsum_sq_scal_r : forall c l,
  lsum (map (fun s => s ^ 2 * c) l) = lsum (map (fun s => s ^ 2) l) * c.
Proof. induction l as [|a l IH]; simpl; [ring|]. simpl in IH. rewrite IH. ring. Qed.

Lemma lsum_sq_pos : forall l, lsum l <> 0 -> 0 < lsum (map (fun s => s ^ 2) l).
Proof.
  induction l as [|a l IH]; simpl; intros H; [lra|].
  assert (Hn : 0 <= lsum (map (fun s => s ^ 2) l)).
  { apply lsum_nonneg. intros x Hx. apply in_map_iff in Hx. destruct Hx as [y [<- _]]. apply pow2_ge_0. }
  set (q := lsum (map (fun s => s ^ 2) l)) in *.
  change (lsum (map (fun s => s * (s * 1)) l)) with q.
  destruct (Req_dec a 0) as [->|Ha].
  - assert (Hl : lsum l <> 0) by lra. specialize (IH Hl). fold q in IH. lra.
  - assert (0 < a * (a * 1)) by (destruct (Rtotal_order a 0) as [?|[?|?]]; nra). lra.
Qed.

Lemma total_prior_lemma : forall kpi spend p_mean p_sd,
  0 < kpi -> 0 < lsum spend -> 0 < p_mean -> 0 <= p_sd ->
  let d := total_media_contribution_prior kpi spend p_mean p_sd in
  total_contribution_mean d spend kpi = p_mean /\ total_contribution_sd d spend kpi = p_sd.
Proof.
  intros kpi spend p_mean p_sd Hk Hs Hm Hp d.
  pose proof (lsum_sq_pos spend ltac:(lra)) as Hq.
  set (S := lsum spend) in *. set (Q := lsum (map (fun s => s ^ 2) spend)) in *.
  assert (HsQ : 0 < sqrt Q) by (apply sqrt_lt_R0; auto).
  set (rm := p_mean * kpi / S). set (rs := p_sd * kpi / sqrt Q).
  assert (Hrm : 0 < rm) by (unfold rm; apply Rdiv_lt_0_compat; nra).
  assert (Ed : d = mkLN (ln rm - 1 / 2 * ln ((rs / rm) ^ 2 + 1)) (sqrt (ln ((rs / rm) ^ 2 + 1)))).
  { unfold d, total_media_contribution_prior. fold S Q rm rs.
    replace (rs ^ 2 / rm ^ 2 + 1) with ((rs / rm) ^ 2 + 1) by (field; lra).
    f_equal. rewrite ln_mult, ln_exp; auto; [|apply exp_pos].
    rewrite pow2_sqrt by apply ln_ratio_nonneg. field. }
  destruct (moments_of rm (rs / rm) Hrm) as [A B]. rewrite <- Ed in A, B.
  split.
  - unfold total_contribution_mean. rewrite lsum_map_scal_r, A. fold S. unfold rm. field. lra.
  - unfold total_contribution_sd. rewrite lsum_sq_scal_r, B. fold Q.
    replace (rs / rm * rm) with rs by (field; lra).
    replace (Q * rs ^ 2) with (Rsqr (p_sd * kpi)).
    + rewrite sqrt_Rsqr by nra. field. lra.
    + unfold rs, Rsqr. replace ((p_sd * kpi / sqrt Q) ^ 2) with ((p_sd * kpi) ^ 2 / (sqrt Q * sqrt Q)) by (field; lra).
      rewrite sqrt_sqrt by lra. field. lra.
Qed.
