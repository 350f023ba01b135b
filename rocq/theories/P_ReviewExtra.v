(** Proofs about the calibration checks and the run of the reviewer. *)
From Coq Require Import Reals ZArith String List Bool Arith Lra Lia.
From Verif Require Import Lib_Sum M_Base M_AdstockHill M_Equations M_Transformers M_Aggregate
  S_Aggregate P_Aggregate S_Adstock S_Media S_Analyzer M_Analyzer P_Analyzer P_AnalyzerIO S_Predictor
  P_Predictor M_Stats S_Stats P_Stats M_Accuracy S_Accuracy P_Accuracy P_AccuracyIO M_Review S_Review P_Review
  P_ReviewScore P_ReviewModel P_ReviewChannels.
Import ListNotations.
Local Open Scope R_scope.

(** ** Calibration checks *)
Lemma spend_share_lemma : forall spend i s, nth_error (spend_share spend) i = Some s <-> is_spend_share spend i s.
Proof.
  intros spend i s. unfold spend_share, is_spend_share. destruct (rltb 0 (lsum spend)) eqn:E.
  - apply rltb_true in E. rewrite nth_error_map. destruct (nth_error spend i) as [v|]; cbn [option_map].
    + split.
      * intros H. exists v. split; [reflexivity|]. split; [congruence|lra].
      * intros (v' & H & H1 & _). rewrite (H1 E). congruence.
    + split; [discriminate|]. intros (v & H & _). discriminate.
  - apply rltb_false in E. rewrite nth_error_map. destruct (nth_error spend i) as [v|]; cbn [option_map].
    + split.
      * intros H. exists v. split; [reflexivity|]. split; [lra|congruence].
      * intros (v' & H & _ & H2). rewrite (H2 E). congruence.
    + split; [discriminate|]. intros (v & H & _). discriminate.
Qed.
Lemma fdiv_some : forall a b, b <> 0 -> fdiv a b = Some (a / b).
Proof. intros a b H. unfold fdiv. destruct (Req_EM_T b 0); [contradiction|reflexivity]. Qed.
Lemma fdiv_none : forall a, fdiv a 0 = None.
Proof. intros a. unfold fdiv. destruct (Req_EM_T 0 0); [reflexivity|congruence]. Qed.
Lemma share_length : forall spend, length (spend_share spend) = length spend.
Proof. intros spend. unfold spend_share. destruct (rltb 0 (lsum spend)); apply map_length. Qed.

Lemma implausible_lemma : forall upper lower spend draws, length spend = length draws ->
  exists st flags, implausible_check upper lower spend draws = (st, flags) /\ length flags = length draws /\
    (forall i d s f, nth_error draws i = Some d -> is_spend_share spend i s -> nth_error flags i = Some f ->
       (f = FlagHigh <-> upper < average d * s) /\
       (f = FlagLow <-> average d * s <= upper /\ s <> 0 /\ average d / s < lower)) /\
    (st = REVIEW <-> exists f, In f flags /\ f <> FlagPass) /\ (st = PASS \/ st = REVIEW).
Proof.
  intros upper lower spend draws HL. unfold implausible_check. eexists _, _. split; [reflexivity|].
  split; [rewrite map_length, combine_length, map_length, share_length, HL, Nat.min_id; reflexivity|]. split.
  - intros i d s f Hd Hs Hf. apply spend_share_lemma in Hs.
    assert (Hm : nth_error (map mean draws) i = Some (mean d)) by (rewrite nth_error_map, Hd; reflexivity).
    pose proof (nth_error_combine _ _ _ _ _ _ _ Hm Hs) as Hc. rewrite nth_error_map, Hc in Hf. cbn [option_map fst snd] in Hf.
    assert (Ef : f = implausible_flag upper lower (mean d) s) by congruence. clear Hf. subst f. unfold implausible_flag.
    change (mean d) with (average d).
    destruct (rltb upper (average d * s)) eqn:E.
    + apply rltb_true in E. split; split; auto; try discriminate. intros (F & _). lra.
    + apply rltb_false in E. destruct (Req_EM_T s 0) as [->|Hs0].
      * rewrite fdiv_none. cbn [olt]. split; split; try discriminate; [lra|tauto].
      * rewrite fdiv_some by exact Hs0. cbn [olt]. destruct (rltb (average d / s) lower) eqn:E2.
        -- apply rltb_true in E2. split; split; auto; try discriminate. lra.
        -- apply rltb_false in E2. split; split; try discriminate; [lra|]. intros (_ & _ & F). lra.
  - set (flags := map _ (combine _ _)). split.
    + destruct (forallb _ flags) eqn:E.
      * split; [discriminate|]. intros (f & Hf & Hn). rewrite forallb_forall in E. specialize (E f Hf). destruct f; [congruence|discriminate|discriminate].
      * split; [|reflexivity]. intros _. clear -E. induction flags as [|f l IH]; [discriminate|]. cbn in E. destruct f.
        -- destruct (IH E) as (f & Hf & Hn). exists f. split; [right; exact Hf|exact Hn].
        -- exists FlagHigh. split; [left; reflexivity|discriminate].
        -- exists FlagLow. split; [left; reflexivity|discriminate].
    + destruct (forallb _ flags); auto.
Qed.

Lemma existsb_flags : forall l : list bool, existsb (fun b => b) l = true <-> In true l.
Proof.
  intros l. rewrite existsb_exists. split; [intros (b & H & E); congruence|]. intros H. exists true. auto.
Qed.
Lemma flags_status : forall l : list bool,
  ((if existsb (fun b => b) l then REVIEW else PASS) = REVIEW <-> In true l) /\
  ((if existsb (fun b => b) l then REVIEW else PASS) = PASS \/ (if existsb (fun b => b) l then REVIEW else PASS) = REVIEW).
Proof.
  intros l. pose proof (existsb_flags l) as H. destruct (existsb (fun b => b) l); split; auto.
  - split; [|reflexivity]. intros _. apply H. reflexivity.
  - split; [discriminate|]. intros Hin. apply H in Hin. discriminate.
Qed.
Lemma median_quantile : forall l, l <> [] -> is_quantile l (1 / 2) (median l).
Proof.
  intros l Hl. rewrite (median_half l Hl). apply quantile_spec. apply quantile_runs; [exact Hl|lra].
Qed.

Lemma high_variance_lemma : forall threshold prior_width hdi spend draws, length spend = length draws -> prior_width <> 0 ->
  Forall (fun d => d <> []) draws ->
  exists st flags, high_variance_check threshold prior_width hdi spend draws = (st, flags) /\ length flags = length draws /\
    (forall i d s f m, nth_error draws i = Some d -> is_spend_share spend i s -> nth_error flags i = Some f ->
       is_quantile d (1 / 2) m ->
       (m <> 0 -> (f = true <-> threshold < (snd (hdi d) - fst (hdi d)) / Rabs m / prior_width * s)) /\
       (m = 0 -> (f = true <-> threshold < 0))) /\
    (st = REVIEW <-> In true flags) /\ (st = PASS \/ st = REVIEW).
Proof.
  intros threshold prior_width hdi spend draws HL Hp Hne. unfold high_variance_check. eexists _, _. split; [reflexivity|].
  split; [rewrite map_length, combine_length, share_length, HL, Nat.min_id; reflexivity|]. split; [|apply flags_status].
  intros i d s f m Hd Hs Hf Hm. apply spend_share_lemma in Hs.
  pose proof (nth_error_combine _ _ _ _ _ _ _ Hd Hs) as Hc. rewrite nth_error_map, Hc in Hf. cbn [option_map fst snd] in Hf.
  assert (Hdn : d <> []) by (rewrite Forall_forall in Hne; apply Hne; eapply nth_error_In; exact Hd).
  assert (Em : median d = m) by (eapply quantile_unique; [apply median_quantile; exact Hdn|exact Hm]). rewrite Em in Hf.
  rewrite (fdiv_some _ prior_width Hp) in Hf.
  assert (Ef : f = rltb threshold (relative_width (hdi d) m / prior_width * s)) by congruence. clear Hf. subst f.
  rewrite rltb_true. unfold relative_width. split.
  - intros Hm0. rewrite fdiv_some by (apply Rabs_no_R0; exact Hm0). reflexivity.
  - intros ->. rewrite Rabs_R0, fdiv_none. unfold Rdiv. rewrite !Rmult_0_l. reflexivity.
Qed.

(** ** Correlation *)
Lemma lsum_sq_nonneg : forall l, 0 <= lsum (map (fun v : R => v * v) l).
Proof.
  induction l as [|v l IH]; cbn; [lra|]. pose proof (Rle_0_sqr v) as H. unfold Rsqr in H. lra.
Qed.
Lemma dot_self : forall l, dot l l = lsum (map (fun v => v * v) l).
Proof. intros l. unfold dot. f_equal. induction l; cbn; [reflexivity|f_equal; assumption]. Qed.
Lemma pearson_lemma : forall a b r, pearson a b = Some r <-> is_correlation a b r.
Proof.
  intros a b r. unfold pearson, is_correlation. cbv zeta. rewrite !dot_self.
  change (map (fun v => v - mean a) a) with (deviations a). change (map (fun v => v - mean b) b) with (deviations b).
  change (lsum (map (fun p : R * R => fst p * snd p) (combine (deviations a) (deviations b)))) with (dot (deviations a) (deviations b)).
  pose proof (lsum_sq_nonneg (deviations a)) as Ha. pose proof (lsum_sq_nonneg (deviations b)) as Hb.
  set (sa := lsum (map (fun v => v * v) (deviations a))) in *. set (sb := lsum (map (fun v => v * v) (deviations b))) in *.
  split.
  - intros H. unfold fdiv in H. destruct (Req_EM_T (sqrt sa * sqrt sb) 0) as [E|E]; [discriminate|].
    assert (sa <> 0) by (intros Z; apply E; rewrite Z, sqrt_0; ring). assert (sb <> 0) by (intros Z; apply E; rewrite Z, sqrt_0; ring).
    split; [lra|]. split; [lra|]. congruence.
  - intros (H1 & H2 & ->). apply fdiv_some. apply sqrt_lt_R0 in H1. apply sqrt_lt_R0 in H2.
    pose proof (Rmult_lt_0_compat _ _ H1 H2). lra.
Qed.

Lemma bias_flag_lemma : forall threshold m controls,
  olt (max_abs_correlation m controls) (Some threshold) = true <->
  (exists r, correlated m controls r) /\ (forall r, correlated m controls r -> Rabs r < threshold).
Proof.
  intros threshold m controls. unfold max_abs_correlation.
  set (l := flat_map _ controls). pose proof (max_seen_from l None) as M.
  assert (Hin : forall v, In (Some v) l <-> exists r, correlated m controls r /\ v = Rabs r).
  { intros v. unfold l. rewrite in_flat_map. split.
    - intros (c & Hc & Hv). apply in_map_iff in Hv. destruct Hv as ([a b] & E & Hp). cbn [fst snd] in E.
      destruct (pearson a b) as [r|] eqn:Er; [|discriminate]. cbn in E. apply In_nth_error in Hp. destruct Hp as (i & Hp).
      destruct (nth_combine_l _ _ _ _ _ _ _ [] Hp) as (N1 & N2 & _). exists r. split; [|congruence].
      exists c, i, a, b. apply pearson_lemma in Er. auto.
    - intros (r & (c & i & a & b & Hc & Ha & Hb & Hr) & ->). exists c. split; [exact Hc|]. apply in_map_iff. exists (a, b). cbn [fst snd].
      apply pearson_lemma in Hr. rewrite Hr. split; [reflexivity|]. eapply nth_error_In. eapply nth_error_combine; eassumption. }
  destruct (fold_left max_seen l None) as [v|]; cbn [olt].
  - destruct M as ([M|M] & _ & Top); [discriminate|]. rewrite rltb_true. apply Hin in M. destruct M as (r0 & C0 & ->). split.
    + intros H. split; [exists r0; exact C0|]. intros r Hr. pose proof (Top (Rabs r) (proj2 (Hin _) (ex_intro _ r (conj Hr eq_refl)))). lra.
    + intros (_ & H). apply H. exact C0.
  - destruct M as (_ & M). split; [discriminate|]. intros ((r & Hr) & _). specialize (M _ (proj2 (Hin _) (ex_intro _ r (conj Hr eq_refl)))). discriminate.
Qed.
Lemma bias_lemma : forall threshold media controls, controls <> [] ->
  exists st flags, potential_bias_check threshold media controls = (st, flags) /\ length flags = length media /\
    (forall i m f, nth_error media i = Some m -> nth_error flags i = Some f ->
       (f = true <-> (exists r, correlated m controls r) /\ forall r, correlated m controls r -> Rabs r < threshold)) /\
    (st = REVIEW <-> In true flags) /\ (st = PASS \/ st = REVIEW).
Proof.
  intros threshold media controls Hc. unfold potential_bias_check. destruct controls as [|c0 cs]; [congruence|].
  eexists _, _. split; [reflexivity|]. split; [apply map_length|]. split; [|apply flags_status].
  intros i m f Hm Hf. rewrite nth_error_map, Hm in Hf. cbn [option_map] in Hf. assert (Ef : f = olt (max_abs_correlation m (c0 :: cs)) (Some threshold)) by congruence.
  subst f. apply bias_flag_lemma.
Qed.
Lemma const_deviations : forall v n, (0 < n)%nat -> deviations (repeat v n) = repeat 0 n.
Proof.
  intros v n Hn. unfold deviations, average. assert (S : lsum (repeat v n) / INR (length (repeat v n)) = v).
  { rewrite repeat_length. assert (E : lsum (repeat v n) = INR n * v).
    { clear Hn. induction n; [cbn; ring|]. cbn [repeat]. rewrite S_INR. change (lsum (v :: repeat v n)) with (v + lsum (repeat v n)). rewrite IHn. ring. }
    rewrite E. field. apply not_0_INR. lia. }
  rewrite S. clear S Hn. induction n as [|n IH]; [reflexivity|]. cbn [repeat map]. rewrite IH. f_equal. ring.
Qed.
Lemma const_uncorrelated : forall v n b r, ~ is_correlation (repeat v n) b r.
Proof.
  intros v n b r (H & _). destruct n as [|n].
  - cbn in H. lra.
  - rewrite const_deviations in H by lia. unfold dot in H. assert (E : lsum (map (fun p : R * R => fst p * snd p) (combine (repeat 0 (S n)) (repeat 0 (S n)))) = 0).
    { clear H. induction (S n) as [|k IH]; cbn; [reflexivity|]. rewrite IH. ring. }
    rewrite E in H. lra.
Qed.

(** ** The run of the reviewer *)
Lemma has_status_spec : forall s r, has_status s r = true <-> status_of r = s.
Proof. intros s r. unfold has_status. destruct s, (status_of r); split; congruence. Qed.
Lemma exists_status : forall s l, existsb (has_status s) l = true <-> exists r, In r l /\ status_of r = s.
Proof.
  intros s l. rewrite existsb_exists. split; intros (r & H & E); exists r; split; auto; apply has_status_spec; exact E.
Qed.
Lemma review_not_converged : forall c battery, cv_case c = NotConverged ->
  review (Ok c) battery = Ok (mkReview FAIL DidNotConverge [ConvergenceR c] (Some 0)).
Proof. intros c battery H. unfold review. cbn [rbind]. rewrite H. reflexivity. Qed.

Lemma review_run : forall c battery l h, cv_case c <> NotConverged ->
  mapM ck_run (filter ck_relevant battery) = Ok l -> health_score (ConvergenceR c :: l) = Ok h ->
  exists s, review (Ok c) battery = Ok s /\ rv_results s = ConvergenceR c :: l /\ rv_score s = h /\
    (rv_status s = FAIL <-> exists r, In r (rv_results s) /\ status_of r = FAIL) /\
    (rv_status s = PASS \/ rv_status s = FAIL) /\
    (rv_message s = Passed <-> forall r, In r (rv_results s) -> status_of r = PASS) /\
    (rv_message s = PassedWithReviews <-> rv_status s = PASS /\ exists r, In r (rv_results s) /\ status_of r = REVIEW) /\
    (rv_message s = FailedAndReviews <-> rv_status s = FAIL /\ exists r, In r (rv_results s) /\ status_of r = REVIEW) /\
    rv_message s <> DidNotConverge.
Proof.
  intros c battery l h Hc El Eh. unfold review. cbn [rbind]. rewrite El. cbn [rbind]. rewrite Eh. cbn [rbind].
  set (rs := ConvergenceR c :: l) in *.
  pose proof (exists_status FAIL rs) as F. pose proof (exists_status REVIEW rs) as G.
  eexists. split; [destruct (cv_case c); try contradiction; reflexivity|]. cbn [rv_results rv_score rv_status rv_message].
  split; [reflexivity|]. split; [reflexivity|].
  destruct (existsb (has_status FAIL) rs) eqn:E1; destruct (existsb (has_status REVIEW) rs) eqn:E2; cbn [andb];
    (repeat split; try discriminate; auto; try (apply F; reflexivity); try (apply G; reflexivity);
     try (intros _; apply F; reflexivity); try (intros _; apply G; reflexivity); try (intros X; apply F in X; discriminate); try (intros (_ & X); apply G in X; discriminate); try (intros (X & _); discriminate)).
  - intros H. destruct (proj1 F eq_refl) as (r & Hr & Es). rewrite (H r Hr) in Es. discriminate.
  - intros H. destruct (proj1 F eq_refl) as (r & Hr & Es). rewrite (H r Hr) in Es. discriminate.
  - intros H. destruct (proj1 G eq_refl) as (r & Hr & Es). rewrite (H r Hr) in Es. discriminate.
  - intros _ r Hr. destruct (status_of r) eqn:Es; [reflexivity| |].
    + assert (X : false = true) by (apply G; exists r; auto). discriminate.
    + assert (X : false = true) by (apply F; exists r; auto). discriminate.
Qed.
Lemma review_missing : forall c battery l, cv_case c <> NotConverged ->
  mapM ck_run (filter ck_relevant battery) = Ok l -> ~ has_required l ->
  review (Ok c) battery = Err ValueError.
Proof.
  intros c battery l Hc El Hn. unfold review. cbn [rbind]. rewrite El. cbn [rbind].
  assert (E : health_score (ConvergenceR c :: l) = Err ValueError).
  { unfold health_score. rewrite required_false; [reflexivity|]. intros ((b & p & H1) & (t & q & H2) & (g & H3)). apply Hn.
    split; [exists b, p|split; [exists t, q|exists g]]; [destruct H1 as [H1|H1]|destruct H2 as [H2|H2]|destruct H3 as [H3|H3]]; congruence || assumption. }
  rewrite E. destruct (cv_case c); try contradiction; reflexivity.
Qed.
Lemma review_error : forall c battery e, cv_case c <> NotConverged ->
  mapM ck_run (filter ck_relevant battery) = Err e -> review (Ok c) battery = Err e.
Proof. intros c battery e Hc E. unfold review. cbn [rbind]. rewrite E. cbn [rbind]. destruct (cv_case c); try contradiction; reflexivity. Qed.

(** ** The default battery *)
Section Default.
Variables (x : model) (h : option (matrix bool)) (gs : option (list string)) (ts : option time_sel)
  (bs : Z) (draws : list draw) (g : review_config) (ks : list paid_kind).
Hypothesis V : accuracy_request x h gs ts bs draws.
Hypothesis Vb : baseline_ok x None.
Hypothesis Vd : h <> None -> by_dates ts.

Lemma model_checks_run : exists p q r,
  baseline_check x draws bs g gs ts = Ok (BaselineR (rg_baseline g) p) /\
  bayesian_ppp_check x draws bs g gs ts = Ok (PppR (rg_ppp g) q) /\
  goodness_of_fit_check x h draws bs g gs ts = Ok (GofR r).
Proof.
  destruct (baseline_check_lemma x h gs ts bs draws g V Vb) as (p & b & E1 & _).
  destruct (ppp_check_lemma x h gs ts bs draws g V) as (q & E2 & _).
  destruct (gof_check_lemma x h gs ts bs draws g V Vd) as (r & E3 & _).
  exists p, q, r. auto.
Qed.

Definition all_roi := Forall (fun k => pk_type k = PriorRoi) ks.
Definition stats_ok (k : paid_kind) : Prop := exists dr, shift_ok (shift_kind_of k) dr.
Lemma roi_kinds_run : all_roi -> roi_kinds_of ks = Ok (map (fun k => mkKind (pk_names k) (pk_draws k) (pk_quantile k)) ks).
Proof.
  unfold all_roi, roi_kinds_of. intros H. induction H as [|k l Hk _ IH]; [reflexivity|]. cbn [mapM map]. unfold pk_posterior at 1. rewrite Hk. cbn [is_roi rbind]. rewrite IH. reflexivity.
Qed.
Lemma mixed_kinds : (exists k, In k ks /\ pk_type k = PriorRoi) -> (exists k, In k ks /\ pk_type k <> PriorRoi) ->
  (forall k, In k ks -> pk_type k = PriorRoi -> stats_ok k) ->
  shift_check ks g = Err KeyError.
Proof.
  intros _ (k & Hk & Ht) Hs. unfold shift_check.
  assert (P : forall k, pk_type k <> PriorRoi -> sk_draws (shift_kind_of k) = None).
  { intros k' Hk'. unfold shift_kind_of, pk_posterior. cbn [sk_draws]. destruct (pk_type k'); [congruence|reflexivity|reflexivity|reflexivity]. }
  rewrite (shift_missing (rg_shift g) (rg_alpha g) (map shift_kind_of ks) (shift_kind_of k)); [reflexivity|apply in_map; exact Hk|apply P; exact Ht|].
  intros u Hu. apply in_map_iff in Hu. destruct Hu as (k' & <- & Hk'). destruct (pk_type k') eqn:E; [left; apply Hs; assumption|right..]; apply P; congruence.
Qed.
Lemma default_mixed : forall c, cv_case c <> NotConverged ->
  (exists k, In k ks /\ pk_type k = PriorRoi) -> (exists k, In k ks /\ pk_type k <> PriorRoi) ->
  (forall k, In k ks -> pk_type k = PriorRoi -> stats_ok k) ->
  review (Ok c) (default_battery x h draws bs ks g gs ts) = Err KeyError.
Proof.
  intros c Hc H1 H2 Hs. apply review_error; [exact Hc|]. destruct model_checks_run as (p & q & r & E1 & E2 & E3).
  unfold default_battery. assert (U : uses_roi_priors ks = true).
  { unfold uses_roi_priors. apply existsb_exists. destruct H1 as (k & Hk & E). exists k. rewrite E. auto. }
  rewrite U. cbn [filter ck_relevant andb mapM ck_run]. rewrite E1. cbn [rbind].
  destruct (has_custom_roi_priors ks); cbn [mapM ck_run]; rewrite E2; cbn [rbind]; rewrite E3; cbn [rbind];
    rewrite (mixed_kinds H1 H2 Hs); reflexivity.
Qed.

(** When all kinds have ROI priors: five results if one of the priors is custom, else four. *)
Definition plain_kind (k : paid_kind) : roi_kind := mkKind (pk_names k) (pk_draws k) (pk_quantile k).
Lemma default_roi : forall c, cv_case c <> NotConverged -> ks <> [] -> all_roi ->
  (forall k, In k ks -> stats_ok k) ->
  Forall (kind_ok (rg_lower g) (rg_upper g)) (map plain_kind ks) ->
  Forall (ordered (rg_lower g) (rg_upper g)) (map plain_kind ks) ->
  NoDup (concat (map pk_names ks)) ->
  exists p q r s, baseline_check x draws bs g gs ts = Ok (BaselineR (rg_baseline g) p) /\
    bayesian_ppp_check x draws bs g gs ts = Ok (PppR (rg_ppp g) q) /\
    goodness_of_fit_check x h draws bs g gs ts = Ok (GofR r) /\
    prior_posterior_shift_check (rg_shift g) (rg_alpha g) (map shift_kind_of ks) = Ok s /\
    (Forall (fun k => pk_custom k = false) ks ->
       mapM ck_run (filter ck_relevant (default_battery x h draws bs ks g gs ts))
         = Ok [BaselineR (rg_baseline g) p; PppR (rg_ppp g) q; GofR r; ShiftR s]) /\
    (Exists (fun k => pk_custom k = true) ks ->
       exists t, roi_consistency_check (rg_roi g) (rg_lower g) (rg_upper g) (map plain_kind ks) = Ok t /\
         mapM ck_run (filter ck_relevant (default_battery x h draws bs ks g gs ts))
         = Ok [BaselineR (rg_baseline g) p; PppR (rg_ppp g) q; GofR r; ShiftR s; RoiR t]).
Proof.
  intros c Hc Hne Ha Hs Hk Ho Hn. destruct model_checks_run as (p & q & r & E1 & E2 & E3).
  destruct (shift_lemma (rg_shift g) (rg_alpha g) (map shift_kind_of ks)) as (s & ls & E4 & _).
  { intros u Hu. apply in_map_iff in Hu. destruct Hu as (k & <- & Hin). apply Hs. exact Hin. }
  destruct (roi_lemma (rg_lower g) (rg_upper g) (rg_roi g) (map plain_kind ks) Hk Ho) as (t & E5 & _).
  { rewrite map_map. cbn [rk_names plain_kind]. exact Hn. }
  exists p, q, r, s. split; [exact E1|]. split; [exact E2|]. split; [exact E3|]. split; [exact E4|].
  assert (U : uses_roi_priors ks = true).
  { unfold uses_roi_priors. unfold all_roi in Ha. destruct ks as [|k l]; [congruence|]. inversion Ha as [|? ? A1 A2]; subst. cbn. rewrite A1. reflexivity. }
  assert (S : shift_check ks g = Ok (ShiftR s)) by (unfold shift_check; rewrite E4; reflexivity).
  unfold default_battery. rewrite U. cbn [filter ck_relevant andb]. split.
  - intros Hcu. assert (C : has_custom_roi_priors ks = false).
    { unfold has_custom_roi_priors. apply not_true_is_false. intros C. apply existsb_exists in C. destruct C as (k & Hin & C).
      rewrite Forall_forall in Hcu. rewrite (Hcu k Hin), andb_false_r in C. discriminate. }
    rewrite C. cbn [mapM ck_run]. rewrite E1. cbn [rbind]. rewrite E2. cbn [rbind]. rewrite E3. cbn [rbind]. rewrite S. reflexivity.
  - intros Hcu. assert (C : has_custom_roi_priors ks = true).
    { unfold has_custom_roi_priors. apply existsb_exists. apply Exists_exists in Hcu. destruct Hcu as (k & Hin & C). exists k. split; [exact Hin|].
      unfold all_roi in Ha. rewrite Forall_forall in Ha. rewrite (Ha k Hin), C. reflexivity. }
    exists t. split; [exact E5|]. rewrite C. cbn [mapM ck_run]. rewrite E1. cbn [rbind]. rewrite E2. cbn [rbind]. rewrite E3. cbn [rbind]. rewrite S. cbn [rbind].
    unfold roi_check. rewrite (roi_kinds_run Ha). cbn [rbind]. change (map (fun k => mkKind (pk_names k) (pk_draws k) (pk_quantile k)) ks) with (map plain_kind ks).
    rewrite E5. reflexivity.
Qed.
(** No ROI priors: the three checks of the model. *)
Lemma default_no_roi : Forall (fun k => pk_type k <> PriorRoi) ks ->
  exists p q r, baseline_check x draws bs g gs ts = Ok (BaselineR (rg_baseline g) p) /\
    bayesian_ppp_check x draws bs g gs ts = Ok (PppR (rg_ppp g) q) /\
    goodness_of_fit_check x h draws bs g gs ts = Ok (GofR r) /\
    mapM ck_run (filter ck_relevant (default_battery x h draws bs ks g gs ts)) = Ok [BaselineR (rg_baseline g) p; PppR (rg_ppp g) q; GofR r].
Proof.
  intros Hn. destruct model_checks_run as (p & q & r & E1 & E2 & E3). exists p, q, r. split; [exact E1|]. split; [exact E2|]. split; [exact E3|].
  assert (U : uses_roi_priors ks = false).
  { unfold uses_roi_priors. apply not_true_is_false. intros C. apply existsb_exists in C. destruct C as (k & Hin & C). rewrite Forall_forall in Hn.
    specialize (Hn k Hin). destruct (pk_type k); [congruence|discriminate..]. }
  unfold default_battery. rewrite U. cbn [filter ck_relevant andb mapM ck_run]. rewrite E1. cbn [rbind]. rewrite E2. cbn [rbind]. rewrite E3. reflexivity.
Qed.
End Default.
