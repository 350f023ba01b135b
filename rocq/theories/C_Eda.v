(** C81: the data checks which guard the sampling of the posterior. *)
From Coq Require Import Reals ZArith List Bool Arith Lia Lra Psatz.
From Verif Require Import Lib_Sum M_Base M_Guard M_Eda S_Eda P_Eda.
Import ListNotations.
Local Open Scope R_scope.
Local Open Scope list_scope.

(** Sampling goes ahead exactly when the data are acceptable; otherwise it is refused and what was
    sampled before is kept. *)
Theorem C81_sampling : forall A e s (draws : A) held, good e s ->
  (acceptable e s -> sample_posterior (run_all_critical_checks e s) (Ok draws) held = (Ok tt, Some draws)) /\
  (~ acceptable e s -> sample_posterior (run_all_critical_checks e s) (Ok draws) held = (Err RuntimeError, held)).
Proof.
  intros A e s draws held Hg. pose proof (guardrail_acceptable e s Hg) as I. unfold sample_posterior. split.
  - intros H. rewrite (proj2 I H). reflexivity.
  - intros H. destruct (guardrail_err (run_all_critical_checks e s)) as [E|E]; rewrite E; [|reflexivity].
    exfalso. apply H, I, E.
Qed.
Print Assumptions C81_sampling.

(** Two variables tied by a straight line are never sampled together (threshold below one). *)
Theorem C81_line : forall A e s (sampler : result A) held i j, good e s -> corr_limit e s < 1 ->
  (i < en_vars e)%nat -> (j < en_vars e)%nat -> i <> j ->
  not_constant (en_geos e) (en_times e) (en_data e i) ->
  proportional (en_geos e) (en_times e) (en_data e i) (en_data e j) ->
  sample_posterior (run_all_critical_checks e s) sampler held = (Err RuntimeError, held).
Proof.
  intros A e s sampler held i j Hg Hl Hi Hj Hij N P. unfold sample_posterior.
  destruct (guardrail_err (run_all_critical_checks e s)) as [E|E]; rewrite E; [|reflexivity]. exfalso.
  apply (guardrail_acceptable e s Hg) in E. destruct E as (_ & C & _).
  pose proof (gd_geos _ _ Hg). pose proof (gd_times _ _ Hg).
  assert (L : 0 <= corr_limit e s < 1).
  { destruct (gd_corr _ _ Hg) as (C1 & C2 & C3). unfold corr_limit in *. destruct (en_national e); lra. }
  pose proof (line_correlated (en_geos e) (en_times e) _ _ _ ltac:(lia) ltac:(lia) L N P) as K.
  destruct (Nat.lt_total i j) as [Lt|[Eq|Gt]]; [|contradiction|].
  - apply (C i j); auto.
  - apply (C j i ltac:(lia)). unfold correlated_above in *.
    assert (S1 : sxy (en_geos e) (en_times e) (en_data e j) (en_data e i) = sxy (en_geos e) (en_times e) (en_data e i) (en_data e j)).
    { unfold sxy. apply total_ext. intros. ring. }
    rewrite S1, (Rmult_comm (sxy _ _ (en_data e j) _)). exact K.
Qed.
Print Assumptions C81_line.

(** A variable determined by the other ones is never sampled, whatever the threshold. *)
Theorem C81_combination : forall A e s (sampler : result A) held v xs, good e s ->
  (v < en_vars e)%nat -> varies_by (en_geos e) (en_times e) (th_vif_std s) (en_data e v) ->
  others (en_geos e) (en_times e) (th_vif_std s) (en_vars e) (en_data e) v xs ->
  determined (en_geos e) (en_times e) xs (en_data e v) ->
  sample_posterior (run_all_critical_checks e s) sampler held = (Err RuntimeError, held).
Proof.
  intros A e s sampler held v xs Hg Hv V O D. unfold sample_posterior.
  destruct (guardrail_err (run_all_critical_checks e s)) as [E|E]; rewrite E; [|reflexivity]. exfalso.
  apply (guardrail_acceptable e s Hg) in E. destruct E as (_ & _ & C). apply (C v xs Hv V O).
  apply determined_inflated; [|exact D]. unfold varies_by in V. pose proof (gd_std _ _ Hg).
  assert (0 < INR (en_geos e)) by (apply lt_0_INR; pose proof (gd_geos _ _ Hg); lia).
  assert (0 < INR (en_times e)) by (apply lt_0_INR; pose proof (gd_times _ _ Hg); lia).
  assert (0 < th_vif_std s ^ 2 * (INR (en_geos e) * INR (en_times e))) by (apply Rmult_lt_0_compat; [nra|apply Rmult_lt_0_compat; assumption]).
  lra.
Qed.
Print Assumptions C81_combination.

(** No correlation exceeds one: with such a threshold no pair is ever reported. *)
Theorem C81_threshold_one : forall e s o i j, good e s -> 1 <= corr_limit e s -> check_corr e s = Ok o -> ~ In (Pair i j) (o_top o).
Proof.
  intros e s o i j Hg Hl E H. pose proof (gd_geos _ _ Hg). pose proof (gd_times _ _ Hg). destruct (gd_corr _ _ Hg) as (C1 & C2 & C3).
  apply (never_above_one (en_geos e) (en_times e) (corr_limit e s) (en_data e i) (en_data e j)); [lia|lia|exact Hl|].
  unfold check_corr, corr_limit in *. destruct (en_national e) eqn:N.
  - unfold check_national_corr in E. match type of E with Ok ?x = _ => assert (E' : x = o) by congruence end. rewrite <- E' in H. cbn [o_top] in H.
    unfold pairs in H. apply in_map_iff in H. destruct H as ([a b] & Q & H). cbn [fst snd] in Q. injection Q as -> ->.
    apply (national_pairs e s Hg) in H; [tauto|exact C3|apply (gd_one _ _ Hg N)].
  - unfold check_geo_corr in E. rewrite N in E. cbn [raise_if] in E. match type of E with Ok ?x = _ => assert (E' : x = o) by congruence end. rewrite <- E' in H. cbn [o_top] in H.
    unfold pairs in H. apply in_map_iff in H. destruct H as ([a b] & Q & H). cbn [fst snd] in Q. injection Q as -> ->.
    apply (overall_pairs e s Hg) in H; [tauto|exact C1].
Qed.
Print Assumptions C81_threshold_one.

(** The verdict on pairs does not depend on the units of the variables. *)
Theorem C81_units : forall a b e s, good e s -> (forall v, a v <> 0) -> check_corr (rescaled a b e) s = check_corr e s.
Proof. exact corr_rescaled. Qed.
Print Assumptions C81_units.

(** Every check reports something, and information only when there is nothing else. *)
Theorem C81_findings : forall e s, let o := run_all_critical_checks e s in
  well_shaped (o_findings (kpi_invariability o)) /\ well_shaped (o_findings (multicollinearity o)) /\ well_shaped (o_findings (pairwise_correlation o)).
Proof. exact shape_all. Qed.
Print Assumptions C81_findings.

(** Attention is asked for exactly the pairs and variables that are extreme in some geo and were not
    reported for all geos. *)
Theorem C81_attention : forall e s o p, good e s -> en_national e = false -> check_corr e s = Ok o -> check_vif e s = Ok p ->
  (In (Attention, Multicollinearity) (o_findings o) <->
   exists g i j, (g < en_geos e)%nat /\ (i < j < en_vars e)%nat /\
     correlated_above 1 (en_times e) (th_corr_geo s) (fun _ => en_data e i g) (fun _ => en_data e j g) /\
     ~ correlated_above (en_geos e) (en_times e) (th_corr_overall s) (en_data e i) (en_data e j)) /\
  (In (Attention, Multicollinearity) (o_findings p) <->
   exists g v xs, (g < en_geos e)%nat /\ (v < en_vars e)%nat /\ varies_by 1 (en_times e) (th_vif_std s) (fun _ => en_data e v g) /\
     others 1 (en_times e) (th_vif_std s) (en_vars e) (fun w _ => en_data e w g) v xs /\
     inflated_above 1 (en_times e) (th_vif_geo s) xs (fun _ => en_data e v g) /\
     ~ (varies_by (en_geos e) (en_times e) (th_vif_std s) (en_data e v) /\
        exists ys, others (en_geos e) (en_times e) (th_vif_std s) (en_vars e) (en_data e) v ys /\
          inflated_above (en_geos e) (en_times e) (th_vif_overall s) ys (en_data e v))).
Proof. intros e s o p Hg N Eo Ep. exact (conj (attention_corr e s o Hg N Eo) (attention_vif e s p Hg N Ep)). Qed.
Print Assumptions C81_attention.

(** A check that fails counts as an error: sampling is refused, and the other checks are reported as
    they are. *)
Theorem C81_failure : forall A (k v c : result outcome) (sampler : result A) held,
  ((exists x, k = Err x) \/ (exists x, v = Err x) \/ (exists x, c = Err x)) ->
  sample_posterior (run_checks k v c) sampler held = (Err RuntimeError, held) /\
  (forall o, k = Ok o -> kpi_invariability (run_checks k v c) = o) /\
  (forall o, v = Ok o -> multicollinearity (run_checks k v c) = o) /\
  (forall o, c = Ok o -> pairwise_correlation (run_checks k v c) = o).
Proof.
  intros A k v c sampler held H. split; [|repeat split; intros o ->; reflexivity].
  unfold sample_posterior. destruct (guardrail_err (run_checks k v c)) as [E|E]; rewrite E; [|reflexivity]. exfalso.
  apply guardrail_iff in E. unfold run_checks in E. cbn [kpi_invariability multicollinearity pairwise_correlation] in E.
  assert (W : forall r, (exists x, r = Err x) -> has_error (guarded r)).
  { intros r [x ->]. exists (Error, Failure). split; [left; reflexivity|reflexivity]. }
  destruct E as (E1 & E2 & E3). destruct H as [H|[H|H]]; apply W in H; contradiction.
Qed.
Print Assumptions C81_failure.

(** The default thresholds. *)
Definition default_thresholds : thresholds := mkThresholds (1 / 10000) (999 / 1000) (999 / 1000) (999 / 1000) 1000 1000 1000 (1 / 10000).
Lemma only : forall (l : list nat) k, NoDup l -> (forall w, In w l <-> w = k) -> l = [k].
Proof.
  intros l k ND H. destruct l as [|a l]; [exfalso; apply (proj2 (H k) eq_refl)|].
  pose proof (proj1 (H a) (or_introl eq_refl)) as ->. destruct l as [|b l]; [reflexivity|]. exfalso.
  pose proof (proj1 (H b) (or_intror (or_introl eq_refl))) as ->. inversion ND as [|? ? Nk]. apply Nk. left. reflexivity.
Qed.
Lemma good_default : forall e, (1 <= en_geos e)%nat -> (1 <= en_times e)%nat -> (en_national e = true -> en_geos e = 1%nat) -> good e default_thresholds.
Proof. intros e A B C. constructor; cbn; auto; try lra; repeat split; lra. Qed.

(** Two variables tied by a line in each geo, with different slopes: sampling goes ahead. *)
Definition slopes_data (v g t : nat) : R := match v, g, t with 0%nat, _, 1%nat => 1 | 1%nat, 0%nat, 1%nat => 1 | 1%nat, 1%nat, 0%nat => 1 | _, _, _ => 0 end.
Definition slopes : engine := mkEngine false 2 2 (slopes_data 0) 2 slopes_data.
Ltac sums := unfold squared_error, sxy, average, total, slopes, slopes_data; cbn [en_geos en_times en_data en_kpi en_vars rsum INR].
Lemma slopes_good : good slopes default_thresholds.
Proof. apply good_default; cbn; try lia; discriminate. Qed.
Lemma slopes_acceptable : acceptable slopes default_thresholds.
Proof.
  assert (S00 : sxy 2 2 (slopes_data 0) (slopes_data 0) = 1) by (sums; field).
  assert (S11 : sxy 2 2 (slopes_data 1) (slopes_data 1) = 1) by (sums; field).
  assert (S01 : sxy 2 2 (slopes_data 0) (slopes_data 1) = 0) by (sums; field).
  assert (V : forall w, (w < 2)%nat -> sxy 2 2 (slopes_data w) (slopes_data w) = 1).
  { intros [|[|w]] H; auto; lia. }
  unfold acceptable, corr_limit, vif_limit, sample_varies_by. cbn [en_national slopes en_geos en_times en_vars en_data en_kpi default_thresholds th_kpi th_corr_overall th_vif_overall th_vif_std].
  split; [split; [lia|rewrite S00; cbn [INR]; lra]|]. split.
  - intros i j H. assert (i = 0 /\ j = 1)%nat as [-> ->] by lia. unfold correlated_above. rewrite S00, S11, S01. lra.
  - intros v xs Hv _ (l & ND & Hl & ->) (r & [(b & cs & L & Er) _] & H). rewrite (V v Hv) in H.
    assert (exists k, (k < 2)%nat /\ k <> v /\ l = [k]) as (k & Hk & Hkv & ->).
    { exists (1 - v)%nat. split; [lia|]. split; [lia|]. apply only; [exact ND|]. intros w. rewrite Hl. split; [lia|]. intros ->. split; [lia|]. split; [lia|].
      unfold varies_by. rewrite V by lia. cbn [INR]. lra. }
    cbn [map length] in L. destruct cs as [|c [|]]; try discriminate.
    assert (1 <= r).
    { rewrite <- Er. destruct v as [|[|v]]; [| |lia]; [assert (k = 1)%nat as -> by lia|assert (k = 0)%nat as -> by lia]; sums; cbn [map combination];
        pose proof (Rle_0_sqr (b + c - 1 / 2)); pose proof (Rle_0_sqr (b - 1 / 2)); unfold Rsqr in *; lra. }
    lra.
Qed.
Theorem C81_lines_per_geo_refuted : exists e s, good e s /\ en_national e = false /\
  (forall g, (g < en_geos e)%nat -> not_constant 1 (en_times e) (fun _ => en_data e 0%nat g)) /\
  (forall g, (g < en_geos e)%nat -> proportional 1 (en_times e) (fun _ => en_data e 0%nat g) (fun _ => en_data e 1%nat g)) /\
  forall A (draws : A) held, sample_posterior (run_all_critical_checks e s) (Ok draws) held = (Ok tt, Some draws).
Proof.
  exists slopes, default_thresholds. split; [exact slopes_good|]. split; [reflexivity|]. cbn [slopes en_geos en_times en_data]. split.
  - intros g Hg. exists 0%nat, 0%nat, 0%nat, 1%nat. repeat split; try lia. cbn. lra.
  - split.
    + intros g Hg. destruct g as [|[|g]]; [exists 1, 0|exists (-1), 1|lia]; split; try lra; intros g t Hg' Ht; destruct t as [|[|t]]; cbn; try lra; lia.
    + intros A draws held. apply (C81_sampling A slopes default_thresholds draws held slopes_good). exact slopes_acceptable.
Qed.
Print Assumptions C81_lines_per_geo_refuted.

(** Variables that vary little are left out of the second check: a sum of two of them is sampled
    with them. *)
Definition tiny_data (v g t : nat) : R :=
  match v, t with
  | 0%nat, 2%nat => 1 / 100000 | 0%nat, 3%nat => 1 / 100000
  | 1%nat, 1%nat => 1 / 100000 | 1%nat, 3%nat => 1 / 100000
  | 2%nat, 1%nat => 1 / 100000 | 2%nat, 2%nat => 1 / 100000 | 2%nat, 3%nat => 2 / 100000
  | _, _ => 0 end.
Definition tiny : engine := mkEngine true 1 4 (fun _ t => INR t) 3 (fun v g t => 1 + tiny_data v g t).
Theorem C81_little_variation_refuted : exists e s, good e s /\
  (forall v, (v < en_vars e)%nat -> not_constant (en_geos e) (en_times e) (en_data e v)) /\
  determined (en_geos e) (en_times e) [en_data e 0%nat; en_data e 1%nat] (en_data e 2%nat) /\
  forall A (draws : A) held, sample_posterior (run_all_critical_checks e s) (Ok draws) held = (Ok tt, Some draws).
Proof.
  exists tiny, default_thresholds.
  assert (Hg : good tiny default_thresholds) by (apply good_default; cbn; auto; lia).
  split; [exact Hg|]. cbn [tiny en_geos en_times en_data en_vars]. split.
  { intros v Hv. exists 0%nat, 0%nat, 0%nat, 3%nat. repeat split; try lia. destruct v as [|[|[|v]]]; cbn; try lra; lia. }
  split.
  { exists (-1), [1; 1]. split; [reflexivity|]. intros g t Hg' Ht. destruct t as [|[|[|[|t]]]]; cbn; try lra; lia. }
  intros A draws held. apply (C81_sampling A tiny default_thresholds draws held Hg).
  set (d := en_data tiny).
  assert (S : forall v w, sxy 1 4 (d v) (d w) = sxy 1 4 (tiny_data v) (tiny_data w)).
  { intros v w. rewrite (sxy_affine 1 4 (tiny_data v) (d v) (tiny_data w) (d w) 1 1 1 1); try lia; try (intros; unfold d; cbn [tiny en_data]; ring); ring. }
  assert (S00 : sxy 1 4 (tiny_data 0) (tiny_data 0) = 1 / 10000000000) by (unfold sxy, average, total, tiny_data; cbn [rsum INR]; field).
  assert (S11 : sxy 1 4 (tiny_data 1) (tiny_data 1) = 1 / 10000000000) by (unfold sxy, average, total, tiny_data; cbn [rsum INR]; field).
  assert (S22 : sxy 1 4 (tiny_data 2) (tiny_data 2) = 2 / 10000000000) by (unfold sxy, average, total, tiny_data; cbn [rsum INR]; field).
  assert (S01 : sxy 1 4 (tiny_data 0) (tiny_data 1) = 0) by (unfold sxy, average, total, tiny_data; cbn [rsum INR]; field).
  assert (S02 : sxy 1 4 (tiny_data 0) (tiny_data 2) = 1 / 10000000000) by (unfold sxy, average, total, tiny_data; cbn [rsum INR]; field).
  assert (S12 : sxy 1 4 (tiny_data 1) (tiny_data 2) = 1 / 10000000000) by (unfold sxy, average, total, tiny_data; cbn [rsum INR]; field).
  unfold acceptable, corr_limit, vif_limit. fold d. change (en_national tiny) with true. change (en_geos tiny) with 1%nat.
  change (en_times tiny) with 4%nat. change (en_vars tiny) with 3%nat. change (en_kpi tiny) with (fun _ t : nat => INR t).
  cbn [default_thresholds th_kpi th_corr_national th_vif_national th_vif_std].
  split; [|split].
  - split; [lia|]. unfold sxy, average, total. cbn [rsum INR]. lra.
  - intros i j H. assert ((i = 0 /\ j = 1) \/ (i = 0 /\ j = 2) \/ (i = 1 /\ j = 2))%nat as [[-> ->]|[[-> ->]|[-> ->]]] by lia;
      unfold correlated_above; rewrite !S; rewrite ?S00, ?S11, ?S22, ?S01, ?S02, ?S12; lra.
  - intros v xs Hv V. exfalso. unfold varies_by in V. rewrite S in V. destruct v as [|[|[|v]]]; [| | |lia];
      rewrite ?S00, ?S11, ?S22 in V; cbn [INR] in V; lra.
Qed.
Print Assumptions C81_little_variation_refuted.

(** The hypotheses are met: acceptable data, a line, and a combination. *)
Example C81_accepts : good slopes default_thresholds /\ acceptable slopes default_thresholds.
Proof. exact (conj slopes_good slopes_acceptable). Qed.
Definition twice : engine := mkEngine true 1 3 (fun _ t => INR t) 2 (fun v _ t => INR (S v) * INR t).
Example C81_line_example : good twice default_thresholds /\ corr_limit twice default_thresholds < 1 /\
  not_constant 1 3 (en_data twice 0%nat) /\ proportional 1 3 (en_data twice 0%nat) (en_data twice 1%nat).
Proof.
  split; [apply good_default; cbn; auto; lia|]. split; [cbn; lra|]. split.
  - exists 0%nat, 0%nat, 0%nat, 1%nat. repeat split; try lia. cbn. lra.
  - exists 2, 0. split; [lra|]. intros g t _ _. cbn [twice en_data INR]. ring.
Qed.
Example C81_line_refused : sample_posterior (run_all_critical_checks twice default_thresholds) (Ok 7%nat) None = (Err RuntimeError, None).
Proof.
  destruct C81_line_example as (G1 & L & N & P). apply (C81_line nat twice default_thresholds (Ok 7%nat) None 0 1 G1 L); cbn; auto; lia.
Qed.
Example C81_combination_example : varies_by 1 3 (1 / 10000) (en_data twice 1%nat) /\
  others 1 3 (1 / 10000) 2 (en_data twice) 1 [en_data twice 0%nat] /\ determined 1 3 [en_data twice 0%nat] (en_data twice 1%nat).
Proof.
  assert (V : forall w, (w < 2)%nat -> varies_by 1 3 (1 / 10000) (en_data twice w)).
  { intros w Hw. unfold varies_by, sxy, average, total. cbn [twice en_data rsum INR].
    destruct w as [|[|w]]; [| |lia]; cbn [INR]; lra. }
  split; [apply V; lia|]. split.
  - exists [0%nat]. split; [repeat constructor; intros []|]. split; [|reflexivity]. intros w. cbn [In]. split.
    + intros [<-|[]]. split; [lia|]. split; [lia|]. apply V. lia.
    + intros (H1 & H2 & _). left. lia.
  - exists 0, [2]. split; [reflexivity|]. intros g t _ _. cbn [combination twice en_data INR]. ring.
Qed.
