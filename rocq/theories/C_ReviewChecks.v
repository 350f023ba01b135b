(** C65: run of the reviewer.  C67: checks of the model.  C68: checks of the channels.
    C69: calibration checks. *)
From Coq Require Import Reals ZArith String List Bool Arith Lra Lia Permutation.
From Verif Require Import Lib_Sum M_Base M_AdstockHill M_Equations M_Transformers M_Aggregate
  S_Aggregate S_Adstock S_Media S_Analyzer M_Analyzer S_Predictor C_Predictor M_Stats S_Stats M_Accuracy S_Accuracy
  C_Accuracy M_Review S_Review P_Review P_ReviewScore P_ReviewModel P_ReviewChannels P_ReviewExtra C_Review.
Import ListNotations.
Local Open Scope R_scope.

(** ** C65 *)
(** A model that did not converge fails; no other check runs. *)
Theorem C65_not_converged : forall c battery, cv_case c = NotConverged ->
  review (Ok c) battery = Ok (mkReview FAIL DidNotConverge [ConvergenceR c] (Some 0)).
Proof. exact review_not_converged. Qed.
Print Assumptions C65_not_converged.

(** Otherwise the results are those of the relevant checks in the order of the battery; the model
    fails when one of them fails; the message tells whether some ask for a review. *)
Theorem C65_run : forall c battery l h, cv_case c <> NotConverged ->
  mapM ck_run (filter ck_relevant battery) = Ok l -> health_score (ConvergenceR c :: l) = Ok h ->
  exists s, review (Ok c) battery = Ok s /\ rv_results s = ConvergenceR c :: l /\ rv_score s = h /\
    (rv_status s = FAIL <-> exists r, In r (rv_results s) /\ status_of r = FAIL) /\
    (rv_status s = PASS \/ rv_status s = FAIL) /\
    (rv_message s = Passed <-> forall r, In r (rv_results s) -> status_of r = PASS) /\
    (rv_message s = PassedWithReviews <-> rv_status s = PASS /\ exists r, In r (rv_results s) /\ status_of r = REVIEW) /\
    (rv_message s = FailedAndReviews <-> rv_status s = FAIL /\ exists r, In r (rv_results s) /\ status_of r = REVIEW) /\
    rv_message s <> DidNotConverge.
Proof. exact review_run. Qed.
Print Assumptions C65_run.

(** The default battery of a converged model.  All channels with ROI priors: the three checks of
    the model, then the shift check, then the ROI check if a prior is custom. *)
Theorem C65_default : forall x h gs ts bs draws g ks c,
  accuracy_request x h gs ts bs draws -> baseline_ok x None -> (h <> None -> by_dates ts) ->
  cv_case c <> NotConverged -> ks <> [] -> Forall (fun k => pk_type k = PriorRoi) ks ->
  (forall k, In k ks -> exists dr, shift_ok (shift_kind_of k) dr) ->
  Forall (kind_ok (rg_lower g) (rg_upper g)) (map (fun k => mkKind (pk_names k) (pk_draws k) (pk_quantile k)) ks) ->
  Forall (ordered (rg_lower g) (rg_upper g)) (map (fun k => mkKind (pk_names k) (pk_draws k) (pk_quantile k)) ks) ->
  NoDup (concat (map pk_names ks)) ->
  exists s p q r sh, review (Ok c) (default_battery x h draws bs ks g gs ts) = Ok s /\
    (Forall (fun k => pk_custom k = false) ks ->
       rv_results s = [ConvergenceR c; BaselineR (rg_baseline g) p; PppR (rg_ppp g) q; GofR r; ShiftR sh]) /\
    (Exists (fun k => pk_custom k = true) ks -> exists roi,
       rv_results s = [ConvergenceR c; BaselineR (rg_baseline g) p; PppR (rg_ppp g) q; GofR r; ShiftR sh; RoiR roi]).
Proof.
  intros x h gs ts bs draws g ks c V Vb Vd Hc Hne Ha Hs Hk Ho Hn.
  destruct (default_roi x h gs ts bs draws g ks V Vb Vd c Hc Hne Ha Hs Hk Ho Hn) as (p & q & r & sh & _ & _ & _ & _ & D1 & D2).
  assert (HS : forall a b g' l, exists o, health_score (ConvergenceR c :: BaselineR a p :: PppR b q :: GofR g' :: l) = Ok o).
  { intros a b g' l. unfold health_score. rewrite required_true; [eexists; reflexivity|].
    split; [eexists _, _; right; left; reflexivity|]. split; [eexists _, _; right; right; left; reflexivity|]. eexists; right; right; right; left; reflexivity. }
  destruct (Exists_dec (fun k => pk_custom k = true) ks) as [E|E]; [intros k; destruct (pk_custom k); [left; reflexivity|right; discriminate]| |].
  - destruct (D2 E) as (roi & _ & D). destruct (HS (rg_baseline g) (rg_ppp g) r [ShiftR sh; RoiR roi]) as (o & Eo).
    destruct (review_run c _ _ _ Hc D Eo) as (s & Es & Er & _). exists s, p, q, r, sh. split; [exact Es|]. split.
    + intros F. exfalso. apply Exists_exists in E. destruct E as (k & Hin & E). rewrite Forall_forall in F. rewrite (F k Hin) in E. discriminate.
    + intros _. exists roi. exact Er.
  - assert (F : Forall (fun k => pk_custom k = false) ks).
    { apply Forall_forall. intros k Hin. destruct (pk_custom k) eqn:Ek; [|reflexivity]. elim E. apply Exists_exists. eauto. }
    specialize (D1 F). destruct (HS (rg_baseline g) (rg_ppp g) r [ShiftR sh]) as (o & Eo).
    destruct (review_run c _ _ _ Hc D1 Eo) as (s & Es & Er & _). exists s, p, q, r, sh. split; [exact Es|]. split; [intros _; exact Er|].
    intros X. elim E. exact X.
Qed.
Print Assumptions C65_default.

(** No channel with a ROI prior: the three checks of the model. *)
Theorem C65_default_no_roi : forall x h gs ts bs draws g ks c,
  accuracy_request x h gs ts bs draws -> baseline_ok x None -> (h <> None -> by_dates ts) ->
  cv_case c <> NotConverged -> Forall (fun k => pk_type k <> PriorRoi) ks ->
  exists s p q r, review (Ok c) (default_battery x h draws bs ks g gs ts) = Ok s /\
    rv_results s = [ConvergenceR c; BaselineR (rg_baseline g) p; PppR (rg_ppp g) q; GofR r].
Proof.
  intros x h gs ts bs draws g ks c V Vb Vd Hc Hk.
  destruct (default_no_roi x h gs ts bs draws g ks V Vb Vd Hk) as (p & q & r & _ & _ & _ & D).
  assert (HS : exists o, health_score [ConvergenceR c; BaselineR (rg_baseline g) p; PppR (rg_ppp g) q; GofR r] = Ok o).
  { unfold health_score. rewrite required_true; [eexists; reflexivity|].
    split; [eexists _, _; right; left; reflexivity|]. split; [eexists _, _; right; right; left; reflexivity|]. eexists; right; right; right; left; reflexivity. }
  destruct HS as (o & Eo). destruct (review_run c _ _ _ Hc D Eo) as (s & Es & Er & _). exists s, p, q, r. auto.
Qed.
Print Assumptions C65_default_no_roi.

(** The claim "the default review of a converged model returns a summary" is false: it raises when
    one kind of paid channels has ROI priors and the other another prior type. *)
Theorem C65_mixed_priors_refuted : forall x h gs ts bs draws g ks c,
  accuracy_request x h gs ts bs draws -> baseline_ok x None -> (h <> None -> by_dates ts) ->
  cv_case c <> NotConverged ->
  (exists k, In k ks /\ pk_type k = PriorRoi) -> (exists k, In k ks /\ pk_type k <> PriorRoi) ->
  (forall k, In k ks -> pk_type k = PriorRoi -> exists dr, shift_ok (shift_kind_of k) dr) ->
  review (Ok c) (default_battery x h draws bs ks g gs ts) = Err KeyError.
Proof.
  intros x h gs ts bs draws g ks c V Vb Vd Hc H1 H2 Hs. exact (default_mixed x h gs ts bs draws g ks V Vb Vd c Hc H1 H2 Hs).
Qed.
Print Assumptions C65_mixed_priors_refuted.

(** The claim "any battery of checks can be run" is false: one without the three checks of the
    model raises once its checks have run. *)
Theorem C65_custom_battery_refuted : forall c battery l, cv_case c <> NotConverged ->
  mapM ck_run (filter ck_relevant battery) = Ok l -> ~ has_required l -> review (Ok c) battery = Err ValueError.
Proof. exact review_missing. Qed.
Print Assumptions C65_custom_battery_refuted.

Definition ex_quantiles (q : R) : option (list ext) := Some [Fin q].
Definition ex_stats : prior_stats := mkPriorStats (Some [Fin 1]) (Some [Fin 1]) None None.
Definition ex_paid_kind (p : prior_type) (name : string) (custom : bool) : paid_kind :=
  mkPaid p [name] [[1; 2; 3]] ex_quantiles ex_stats custom [[0; 1; 1]; [2; 2; 0]]%nat.
Definition ex_config : review_config :=
  mkConfig (mkBaseline (2/10) (8/10)) (5/100) 0 (mkTolerance None None) (5/100) (mkTolerance (Some 1%Z) None) (1/100) (99/100).
Lemma ex_shift_ok : forall name custom, shift_ok (shift_kind_of (ex_paid_kind PriorRoi name custom)) [[1; 2; 3]].
Proof.
  intros. constructor; try reflexivity; try discriminate.
  - cbn. intros l stat [E|[E|[E|[E|[]]]]]; try discriminate; injection E as <- _; left; reflexivity.
  - repeat constructor; discriminate.
Qed.
Lemma ex_kind_ok : forall p name custom,
  let k := ex_paid_kind p name custom in
  kind_ok (1/100) (99/100) (mkKind (pk_names k) (pk_draws k) (pk_quantile k)) /\
  ordered (1/100) (99/100) (mkKind (pk_names k) (pk_draws k) (pk_quantile k)).
Proof.
  intros p name custom k. split.
  - split; [reflexivity|]. cbn. intros a b E E'. inversion E. inversion E'. split; left; reflexivity.
  - intros a b i l h r E E' Hl Hh. cbn in E, E'. unfold ex_quantiles in E, E'.
    assert (Ha : a = [Fin (1/100)]) by congruence. assert (Hb : b = [Fin (99/100)]) by congruence. subst a b.
    destruct Hl as [Hl|[Hl _]]; [|elim Hl; reflexivity]. destruct Hh as [Hh|[Hh _]]; [|elim Hh; reflexivity].
    assert (l = Fin (1/100)) by congruence. assert (h = Fin (99/100)) by congruence. subst. cbn. intros [X Y]. lra.
Qed.
Example C65_example :
  accuracy_request ex_rich (Some ex_holdout) None None 1 [ex_rich_draw; ex_rich_draw] /\ baseline_ok ex_rich None /\
  (let ks := [ex_paid_kind PriorRoi "tv" true; ex_paid_kind PriorRoi "video" false] in
   Forall (kind_ok (1/100) (99/100)) (map (fun k => mkKind (pk_names k) (pk_draws k) (pk_quantile k)) ks) /\
   Forall (ordered (1/100) (99/100)) (map (fun k => mkKind (pk_names k) (pk_draws k) (pk_quantile k)) ks) /\
   NoDup (concat (map pk_names ks)) /\ Exists (fun k => pk_custom k = true) ks /\
   (forall k, In k ks -> exists dr, shift_ok (shift_kind_of k) dr)) /\
  (let ks := [ex_paid_kind PriorRoi "tv" false; ex_paid_kind PriorCoefficient "video" false] in
   (exists k, In k ks /\ pk_type k = PriorRoi) /\ (exists k, In k ks /\ pk_type k <> PriorRoi) /\
   (forall k, In k ks -> pk_type k = PriorRoi -> exists dr, shift_ok (shift_kind_of k) dr)) /\
  ~ has_required [OtherR PASS].
Proof.
  split; [apply ex_accuracy; cbn; auto; discriminate|]. split; [exact Logic.I|]. split; [|split].
  - cbv zeta. split; [repeat (apply Forall_nil || apply Forall_cons); apply ex_kind_ok|]. split; [repeat (apply Forall_nil || apply Forall_cons); apply ex_kind_ok|].
    split; [repeat constructor; cbn; intuition discriminate|]. split; [left; reflexivity|].
    intros k [<-|[<-|[]]]; exists [[1; 2; 3]]; apply ex_shift_ok.
  - cbv zeta. split; [eexists; split; [left; reflexivity|reflexivity]|]. split; [eexists; split; [right; left; reflexivity|discriminate]|].
    intros k [<-|[<-|[]]] H; [exists [[1; 2; 3]]; apply ex_shift_ok|discriminate].
  - intros ((c & p & [E|[]]) & _). discriminate.
Qed.

(** ** C67 *)
(** The baseline check reports the share of draws whose baseline is negative, and compares it with
    the two thresholds. *)
Theorem C67_baseline : forall x h gs ts bs draws g,
  accuracy_request x h gs ts bs draws -> baseline_ok x None -> bl_review (rg_baseline g) <= bl_fail (rg_baseline g) ->
  exists p b, let r := BaselineR (rg_baseline g) p in
    baseline_check x draws bs g gs ts = Ok r /\
    (forall c, (c < n_chans (d_non_media (x_data x)))%nat -> is_baseline_value x None c (b c)) /\
    share (fun w => baseline_total x b false (chosen_geos x gs) (chosen_times x ts) w < 0) draws p /\
    (status_of r = FAIL <-> bl_fail (rg_baseline g) < p) /\
    (status_of r = REVIEW <-> bl_review (rg_baseline g) <= p <= bl_fail (rg_baseline g)) /\
    (status_of r = PASS <-> p < bl_review (rg_baseline g)).
Proof.
  intros x h gs ts bs draws g V Vb Hle. destruct (baseline_check_lemma x h gs ts bs draws g V Vb) as (p & b & E & B & S).
  exists p, b. cbv zeta. split; [exact E|]. split; [exact B|]. split; [exact S|]. apply baseline_status. exact Hle.
Qed.
Print Assumptions C67_baseline.

(** The p-value is the share of draws whose total is at least as far from the mean as the observed
    total; the model fails below the threshold. *)
Theorem C67_ppp : forall x h gs ts bs draws g, accuracy_request x h gs ts bs draws ->
  exists p, let r := PppR (rg_ppp g) p in
    bayesian_ppp_check x draws bs g gs ts = Ok r /\
    (let gl := chosen_geos x gs in let tl := chosen_times x ts in
     let E := expected_total x gl tl in let m := average (map E draws) in
     share (fun w => Rabs (observed_total x gl tl - m) <= Rabs (E w - m)) draws p) /\
    (status_of r = FAIL <-> p < rg_ppp g) /\ (status_of r = PASS <-> rg_ppp g <= p).
Proof.
  intros x h gs ts bs draws g V. destruct (ppp_check_lemma x h gs ts bs draws g V) as (p & E & S).
  exists p. cbv zeta. split; [exact E|]. split; [exact S|]. cbn [status_of]. unfold ppp_case.
  destruct (rleb (rg_ppp g) p) eqn:Ep; [apply rleb_true in Ep|apply rleb_false in Ep]; split; split; intros; try congruence; lra.
Qed.
Print Assumptions C67_ppp.

(** The goodness of fit check reports the national metrics; it asks for a review when R-squared is
    at most the threshold on all data or, with a holdout, on one of its parts. *)
Theorem C67_goodness_of_fit : forall x h gs ts bs draws g, accuracy_request x h gs ts bs draws ->
  (h <> None -> by_dates ts) ->
  let P := fun s => pairs x h (chosen_geos x gs) (chosen_times x ts) false draws National s in
  let reports := fun s m => is_r_squared (P s) (gf_r2 m) /\ is_mape (P s) (gf_mape m) /\ is_wmape (P s) (gf_wmape m) in
  exists r, goodness_of_fit_check x h draws bs g gs ts = Ok (GofR r) /\
    reports AllData (gr_all r) /\
    match h with
    | None => gr_train r = None /\ gr_test r = None
    | Some _ => exists a b, gr_train r = Some a /\ gr_test r = Some b /\ reports Train a /\ reports Test b
    end /\
    (gr_case r = REVIEW <-> exists s v, (s = AllData \/ h <> None) /\ is_r_squared (P s) (Some v) /\ v <= rg_gof g) /\
    (gr_case r = PASS \/ gr_case r = REVIEW).
Proof.
  intros x h gs ts bs draws g V Vd P reports. exact (gof_check_lemma x h gs ts bs draws g V Vd).
Qed.
Print Assumptions C67_goodness_of_fit.
Example C67_example :
  accuracy_request ex_rich (Some ex_holdout) None None 1 [ex_rich_draw; ex_rich_draw] /\ baseline_ok ex_rich None /\
  bl_review (rg_baseline ex_config) <= bl_fail (rg_baseline ex_config).
Proof. split; [apply ex_accuracy; cbn; auto; discriminate|]. split; [exact Logic.I|cbn; lra]. Qed.

(** ** C68 *)
Theorem C68_tolerance : forall count ratio,
  (exists t, make_tolerance count ratio = Ok t) <->
  (forall k, count = Some k -> (0 <= k)%Z) /\ (forall q, ratio = Some q -> 0 <= q <= 1).
Proof.
  intros count ratio. unfold make_tolerance, raise_if. split.
  - intros (t & E). split.
    + intros k ->. destruct (Z.ltb k 0) eqn:Ek; [discriminate|]. apply Z.ltb_ge in Ek. exact Ek.
    + intros q ->. destruct (match count with Some k => Z.ltb k 0 | None => false end); [discriminate|].
      destruct (rleb 0 q && rleb q 1) eqn:Eq; [|discriminate]. apply andb_true_iff in Eq. rewrite !rleb_true in Eq. exact Eq.
  - intros [H1 H2]. assert (E1 : match count with Some k => Z.ltb k 0 | None => false end = false).
    { destruct count as [k|]; [|reflexivity]. apply Z.ltb_ge. apply H1. reflexivity. }
    rewrite E1. assert (E2 : match ratio with Some r => negb (rleb 0 r && rleb r 1) | None => false end = false).
    { destruct ratio as [q|]; [|reflexivity]. apply negb_false_iff, andb_true_iff. rewrite !rleb_true. apply H2. reflexivity. }
    rewrite E2. eexists. reflexivity.
Qed.
Print Assumptions C68_tolerance.

(** ROI consistency: every channel appears once with its case; the check passes when every
    quantile is a number and the number of channels in the tails is tolerated. *)
Theorem C68_roi : forall t lo hi ks,
  Forall (kind_ok lo hi) ks -> Forall (ordered lo hi) ks -> NoDup (concat (map rk_names ks)) ->
  exists res, roi_consistency_check t lo hi ks = Ok res /\
    Permutation (map rc_name (ro_channels res)) (concat (map rk_names ks)) /\
    (forall k i name c, In k ks -> nth_error (rk_names k) i = Some name -> In (mkRoiChannel c name) (ro_channels res) ->
       is_roi_case lo hi k i c) /\
    (ro_case res = PASS <->
       (forall k, In k ks -> ~ undefined lo hi k) /\
       (forall name, ~ In (mkRoiChannel QuantileInf name) (ro_channels res)) /\
       tolerated t (length (filter in_tail (ro_channels res))) (length (ro_channels res))) /\
    (ro_case res = PASS \/ ro_case res = REVIEW).
Proof. exact (fun t lo hi => roi_lemma lo hi t). Qed.
Print Assumptions C68_roi.

(** Shift: the channels in order, each with whether its posterior shifted; the check passes when
    the number of channels without shift is tolerated. *)
Theorem C68_shift : forall t alpha ks, (forall k, In k ks -> exists draws, shift_ok k draws) ->
  exists res ls, prior_posterior_shift_check t alpha ks = Ok res /\
    sh_channels res = concat ls /\ Forall2 (kind_result alpha) ks ls /\
    sh_no_shift res = map fst (filter (fun p => negb (snd p)) (sh_channels res)) /\
    (sh_case res = PASS <-> tolerated t (length (sh_no_shift res)) (length (sh_channels res))) /\
    (sh_case res = PASS \/ sh_case res = REVIEW).
Proof. exact shift_lemma. Qed.
Print Assumptions C68_shift.

(** The claim "a posterior equal to the prior is reported as no shift" is false: a constant one
    counts as shifted at every level. *)
Theorem C68_constant_refuted : forall t alpha name v n boots, 0 < alpha -> boots <> [] ->
  Forall (fun cols => cols <> [] /\ Forall (fun i => (i < n)%nat) cols) boots ->
  exists res, prior_posterior_shift_check t alpha
      [mkShift [name] (Some [repeat v n]) (mkPriorStats (Some [Fin v]) None None None) boots] = Ok res /\
    sh_channels res = [(name, true)] /\ sh_no_shift res = [] /\ sh_case res = PASS.
Proof.
  intros t alpha name v n boots Ha Hb Hc.
  set (k := mkShift [name] (Some [repeat v n]) (mkPriorStats (Some [Fin v]) None None None) boots).
  assert (K : shift_ok k [repeat v n]).
  { constructor; try reflexivity; [|exact Hb|].
    - cbn. intros l stat [E|[E|[E|[E|[]]]]]; try discriminate. injection E as <- _. left. reflexivity.
    - eapply Forall_impl; [|exact Hc]. intros cols [H _]. exact H. }
  destruct (shift_lemma t alpha [k]) as (res & ls & E & E1 & F & E2 & E3 & _); [intros u [<-|[]]; eauto|].
  inversion F as [|? l ? ls' [N K1] F']; subst. inversion F'; subst. cbn [concat] in E1. rewrite app_nil_r in E1.
  destruct l as [|[nm b] [|? ?]]; try discriminate. cbn in N. inversion N; subst nm. clear N.
  destruct (K1 0%nat name b eq_refl) as (draws & d & D1 & D2 & D3). cbn in D1. inversion D1; subst draws. cbn in D2. inversion D2; subst d.
  assert (S : shifted alpha (sk_boots k) (sk_prior k) 0 (repeat v n)).
  { exists [Fin v], (fun l w => w = average l), (Fin v), (fun _ => v), 0, 0.
    split; [left; reflexivity|]. split; [left; reflexivity|]. split.
    - intros cols Hin. cbn [sk_boots k] in Hin. rewrite Forall_forall in Hc. destruct (Hc cols Hin) as [Hne Hlt]. unfold resampled, average.
      assert (E0 : map (fun i => nth i (repeat v n) 0) cols = repeat v (length cols)).
      { clear -Hlt. induction Hlt as [|i cols Hi _ IH]; [reflexivity|]. cbn [map length repeat]. rewrite IH. f_equal.
        rewrite (nth_indep _ 0 v) by (rewrite repeat_length; exact Hi). apply nth_repeat. }
      rewrite E0, repeat_length. assert (E4 : forall m, lsum (repeat v m) = INR m * v).
      { induction m; [cbn; ring|]. cbn [repeat]. rewrite S_INR. change (lsum (v :: repeat v m)) with (v + lsum (repeat v m)). rewrite IHm. ring. }
      rewrite E4. field. apply not_0_INR. destruct cols; [congruence|discriminate].
    - assert (Z : share (fun _ : list nat => v < v) (sk_boots k) 0).
      { exists (fun _ => false). split; [intros a _; split; [discriminate|lra]|].
        assert (Ef : filter (fun _ : list nat => false) (sk_boots k) = []) by (clear; induction (sk_boots k) as [|c0 l0 IH0]; [reflexivity|exact IH0]). rewrite Ef. cbn. unfold Rdiv. ring. }
      split; [exact Z|]. split; [exact Z|]. left. exact Ha. }
  apply D3 in S. subst b. exists res. split; [exact E|]. rewrite E1. split; [reflexivity|].
  rewrite E1 in E2. cbn in E2. split; [exact E2|]. apply E3. rewrite E2. left. reflexivity.
Qed.
Print Assumptions C68_constant_refuted.
Example C68_example :
  (let ks := [mkKind ["tv"] [[1; 2; 3]] ex_quantiles; mkKind ["video"] [[0; 1/2]] (fun _ => None)]%string in
   Forall (kind_ok (1/100) (99/100)) ks /\ Forall (ordered (1/100) (99/100)) ks /\ NoDup (concat (map rk_names ks)) /\
   is_roi_case (1/100) (99/100) (mkKind ["tv"] [[1; 2; 3]] ex_quantiles)%string 0 RoiHigh) /\
  shift_ok (shift_kind_of (ex_paid_kind PriorRoi "tv" true)) [[1; 2; 3]] /\
  tolerated (mkTolerance (Some 1%Z) (Some (1/10))) 1 4 /\ ~ tolerated (mkTolerance None (Some (1/10))) 1 4.
Proof.
  split; [|split; [apply ex_shift_ok|]].
  - cbv zeta. destruct (ex_kind_ok PriorRoi "tv" true) as [K O]. split; [|split; [|split]].
    + constructor; [exact K|]. constructor; [|constructor]. split; [reflexivity|]. intros a b E. discriminate.
    + constructor; [exact O|]. constructor; [|constructor]. intros a b i l h r E. discriminate.
    + repeat constructor; cbn; intuition discriminate.
    + exists [Fin (1/100)], [Fin (99/100)], (Fin (1/100)), (Fin (99/100)), [1; 2; 3]. unfold of_channel, average. cbn.
      repeat split; auto; try (intros F; lra); lra.
  - split.
    + right. split; [discriminate|]. left. exists 1%Z. split; [reflexivity|]. cbn. lia.
    + intros [F|[_ [(k & F & _)|(q & F & H)]]]; try discriminate. cbn [tl_ratio] in F. assert (q = 1/10) by congruence. subst. cbn in H. lra.
Qed.

(** ** C69 *)
(** Implausible ROI: high when mean times spend share exceeds the upper bound, low when mean over
    spend share is below the lower bound. *)
Theorem C69_implausible : forall upper lower spend draws, length spend = length draws ->
  exists st flags, implausible_check upper lower spend draws = (st, flags) /\ length flags = length draws /\
    (forall i d s f, nth_error draws i = Some d -> is_spend_share spend i s -> nth_error flags i = Some f ->
       (f = FlagHigh <-> upper < average d * s) /\
       (f = FlagLow <-> average d * s <= upper /\ s <> 0 /\ average d / s < lower)) /\
    (st = REVIEW <-> exists f, In f flags /\ f <> FlagPass) /\ (st = PASS \/ st = REVIEW).
Proof. exact implausible_lemma. Qed.
Print Assumptions C69_implausible.

(** High variance: relative width of the interval, against that of the prior, times spend share. *)
Theorem C69_high_variance : forall threshold prior_width hdi spend draws, length spend = length draws -> prior_width <> 0 ->
  Forall (fun d => d <> []) draws ->
  exists st flags, high_variance_check threshold prior_width hdi spend draws = (st, flags) /\ length flags = length draws /\
    (forall i d s f m, nth_error draws i = Some d -> is_spend_share spend i s -> nth_error flags i = Some f ->
       is_quantile d (1 / 2) m ->
       (m <> 0 -> (f = true <-> threshold < (snd (hdi d) - fst (hdi d)) / Rabs m / prior_width * s)) /\
       (m = 0 -> (f = true <-> threshold < 0))) /\
    (st = REVIEW <-> In true flags) /\ (st = PASS \/ st = REVIEW).
Proof. exact high_variance_lemma. Qed.
Print Assumptions C69_high_variance.

(** The claim "a wide interval is flagged" is false: with median 0 no width is. *)
Theorem C69_zero_median_refuted : forall prior_width lo hi d spend, prior_width <> 0 -> is_quantile d (1 / 2) 0 -> d <> [] ->
  exists flags, high_variance_check 1 prior_width (fun _ => (lo, hi)) [spend] [d] = (PASS, flags).
Proof.
  intros prior_width lo hi d spend Hp Hq Hd.
  destruct (high_variance_lemma 1 prior_width (fun _ => (lo, hi)) [spend] [d] eq_refl Hp) as (st & flags & E & L & H & S & S'); [repeat constructor; exact Hd|].
  exists flags. rewrite E. f_equal. destruct S' as [S'|S']; [exact S'|]. apply S in S'. destruct flags as [|f [|? ?]]; try discriminate.
  destruct S' as [->|[]]. exfalso.
  destruct (Rlt_dec 0 (lsum [spend])) as [G|G].
  - destruct (H 0%nat d (spend / lsum [spend]) true 0 eq_refl) as [_ H0]; [|reflexivity|exact Hq|].
    + exists spend. split; [reflexivity|]. split; [reflexivity|lra].
    + pose proof (proj1 (H0 eq_refl) eq_refl). lra.
  - destruct (H 0%nat d 0 true 0 eq_refl) as [_ H0]; [|reflexivity|exact Hq|].
    + exists spend. split; [reflexivity|]. split; [lra|reflexivity].
    + pose proof (proj1 (H0 eq_refl) eq_refl). lra.
Qed.
Print Assumptions C69_zero_median_refuted.

(** Potential bias: a channel is flagged when its correlations with the controls, where they are
    defined, are all below the threshold in absolute value. *)
Theorem C69_bias : forall threshold media controls, controls <> [] ->
  exists st flags, potential_bias_check threshold media controls = (st, flags) /\ length flags = length media /\
    (forall i m f, nth_error media i = Some m -> nth_error flags i = Some f ->
       (f = true <-> (exists r, correlated m controls r) /\ forall r, correlated m controls r -> Rabs r < threshold)) /\
    (st = REVIEW <-> In true flags) /\ (st = PASS \/ st = REVIEW).
Proof. exact bias_lemma. Qed.
Print Assumptions C69_bias.
Theorem C69_no_controls : forall threshold media, fst (potential_bias_check threshold media []) = REVIEW.
Proof. reflexivity. Qed.
Print Assumptions C69_no_controls.

(** The claim "a channel unrelated to every control is flagged" is false: a channel whose execution
    does not vary over time passes. *)
Theorem C69_constant_refuted : forall threshold controls (levels : list (R * nat)), controls <> [] ->
  exists flags, potential_bias_check threshold [map (fun p => repeat (fst p) (snd p)) levels] controls = (PASS, flags).
Proof.
  intros threshold controls levels Hc. destruct (bias_lemma threshold [map (fun p => repeat (fst p) (snd p)) levels] controls Hc)
    as (st & flags & E & L & H & S & S'). exists flags. rewrite E. f_equal. destruct S' as [S'|S']; [exact S'|]. apply S in S'.
  destruct flags as [|f [|? ?]]; try discriminate. destruct S' as [->|[]]. exfalso.
  destruct (proj1 (H 0%nat _ true eq_refl eq_refl) eq_refl) as ((r & c & i & m & v & _ & Hm & _ & Hr) & _).
  apply nth_error_In, in_map_iff in Hm. destruct Hm as (p & <- & _). exact (const_uncorrelated _ _ _ _ Hr).
Qed.
Print Assumptions C69_constant_refuted.
Example C69_example :
  is_spend_share [1; 3] 1 (3/4) /\ is_quantile [-1; 1] (1/2) 0 /\ correlated [[0; 1]] [[[0; 2]]] 1 /\ [-1; 1] <> [].
Proof.
  split; [exists 3; split; [reflexivity|cbn; split; intros; lra]|]. split; [|split; [|discriminate]].
  - exists [-1; 1], 0%nat, (1/2). cbn. repeat split; try lra; auto.
    + repeat constructor. lra.
  - exists [[0; 2]], 0%nat, [0; 1], [0; 2]. split; [left; reflexivity|]. split; [reflexivity|]. split; [reflexivity|].
    assert (D1 : deviations [0; 1] = [-(1/2); 1/2]) by (unfold deviations, average; cbn; apply f_equal2; [lra|apply f_equal2; [lra|reflexivity]]).
    assert (D2 : deviations [0; 2] = [-(1); 1]) by (unfold deviations, average; cbn; apply f_equal2; [lra|apply f_equal2; [lra|reflexivity]]).
    unfold is_correlation. rewrite D1, D2. unfold dot. cbn.
    split; [lra|]. split; [lra|].
    replace (- (1 / 2) * - (1 / 2) + (1 / 2 * (1 / 2) + 0)) with (1/2) by lra.
    replace (- (1) * - (1) + (1 * 1 + 0)) with 2 by lra. rewrite <- sqrt_mult by lra. replace (1 / 2 * 2) with 1 by lra. rewrite sqrt_1. lra.
Qed.
