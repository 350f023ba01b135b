(** Property C85: the report of a budget optimization. *)
From Coq Require Import Reals ZArith Lia Lra String List Bool Arith Permutation Sorted.
From Verif Require Import Lib_Sum M_Base M_AdstockHill M_Equations M_Transformers M_Aggregate
  S_Aggregate S_Adstock S_Media S_Analyzer M_Analyzer S_Predictor S_Paid C_Analyzer M_Stats S_Stats M_Summary
  S_Roi P_Roi S_Summary P_Summary M_Report S_Report P_Report.
From Verif Require M_Budget.
Import ListNotations.
Local Open Scope R_scope.

(** *** Concrete cases: one geo, two periods, one channel whose media are not saturated, a KPI without
    revenue, and two draws in which a unit of spend brings 1 and 3. *)
Definition ex_one : model :=
  mkModel (mkCtx 2 2 0 false) ["a"]%string ["2024-01-01"; "2024-01-08"]%string (fun _ => 1)
    (mkT2 1 2 (fun _ t => INR t))
    (mkData (Some (mkT3 1 2 1 (fun _ _ _ => 1))) None None None None None None None None)
    (DOne Geometric) (DOne Geometric) (DOne Geometric) (DOne Geometric)
    (SOne NoSat) (SOne NoSat) (SOne NoSat) (SOne NoSat)
    (Some (mkMediaTr (fun _ => 1) (fun _ _ => 1))) None None None None None None false.
Definition ex_one_draw (b : R) : draw :=
  mkDraw (fun _ => 0) (fun _ => 0) (ex_params 1) (ex_params 0) (ex_params 0) (ex_params 0)
    (fun _ _ => b) (fun _ _ => 0) (fun _ _ => 0) (fun _ _ => 0) (fun _ _ => 0) (fun _ _ => 0).
Definition ex_one_fitted : fitted :=
  mkFitted ex_one (mkSpend None None) ["tv"]%string [] [ex_one_draw 1; ex_one_draw 3] [ex_one_draw 1; ex_one_draw 3].
Definition nothing : data := mkData None None None None None None None None None.
Lemma ex_one_request : forall spend, (forall c, 0 <= spend c) ->
  report_request ex_one_fitted (fun _ => 1) spend nothing true None None None (9 / 10) 10.
Proof.
  intros spend Hs. constructor; auto; try lia; try lra.
  - constructor; cbn; auto; try lia; try (split; reflexivity).
    + left. discriminate.
    + unfold kind_ok, decay_ok, sat_ok, recognised. cbn. repeat split; (discriminate || tauto).
  - unfold transformers_ok, factors_pos; cbn; repeat split; intros; lra.
  - unfold f_draws, f_prior, f_posterior, ex_one_fitted.
    assert (D : forall b, draw_ok ex_one (ex_one_draw b)).
    { intros b. unfold draw_ok. cbn.
      refine (conj _ (conj _ (conj _ (conj _ (conj _ (conj _ (conj _ _)))))));
        try congruence; apply ex_params_ok. }
    repeat (apply Forall_cons; [apply D|]); apply Forall_nil.
  - discriminate.
  - unfold paid_data_ok, fits, fits2, same_shape; cbn; tauto.
  - refine (conj _ (conj _ _)); unfold nonneg, given; cbn; intros; lra.
  - intros y. cbn. intros [E|E]; [|discriminate]. assert (y = mkT3 1 2 1 (fun _ _ _ => 1)) by congruence. subst. cbn. lia.
  - intros c. lra.
  - exact Logic.I.
  - exact Logic.I.
Qed.
Lemma ex_one_std : std_gt 1 2 (fun _ t : nat => divide_no_nan (INR t) 1) = 1 / 2.
Proof.
  unfold std_gt, mean_gt, divide_no_nan. cbn [rsum INR]. destruct (Req_EM_T 1 0); [lra|].
  replace (_ / _) with (Rsqr (1 / 2)); [apply sqrt_Rsqr; lra|]. unfold Rsqr. cbn. field.
Qed.
Lemma ex_one_gain : forall s b uk,
  all_gain ex_one_fitted (report_data ex_one (fun _ => 1) (fun _ => s) nothing None) uk None None (ex_one_draw b) = b * s.
Proof.
  intros s b uk.
  unfold all_gain, in_row, gain, outcome_change, total. cbn [rsum f_x ex_one_fitted ex_one x_data d_media n_chans chans d_reach].
  cbn [chosen_geos chosen_times x_n_geos x_n_times x_geo length x_cx ctx_n_times seq map lsum].
  unfold outcome_per_unit, paid_term. cbn [paid_model x_data d_revenue_per_kpi nothing report_data fill_missing].
  unfold channel_term, given.
  cbn. rewrite ex_one_std.
  replace (M_Budget.divide_no_nan s 1) with s.
  2:{ unfold M_Budget.divide_no_nan. destruct (Req_EM_T 1 0); lra. }
  replace (documented_weight Geometric (1 / 2) 1 0) with 1.
  2:{ unfold documented_weight. cbn. field. }
  field.
Qed.

(** ** C85: the report describes the media that the spend buys at historical prices: in it, every
    figure is the mean, median and interval over the draws of the quantity it is named after. *)
Theorem C85_report : forall f hist spend nd post uk gs ts opt level bs,
  report_request f hist spend nd post gs ts opt level bs ->
  exists r d, create_budget_dataset f hist spend nd post uk gs ts opt level bs = Ok r /\
    data_bought (f_x f) hist spend nd opt d /\ report_ok f spend d post uk gs ts level r.
Proof.
  intros f hist spend nd post uk gs ts opt level bs V.
  destruct (report_lemma f hist spend nd post uk gs ts opt level bs V) as (r & E & B & K & _).
  exists r. eexists. split; [exact E|]. split; [exact B|exact K].
Qed.
Print Assumptions C85_report.

Lemma report_of : forall f hist spend nd post uk gs ts opt level bs r,
  report_request f hist spend nd post gs ts opt level bs ->
  create_budget_dataset f hist spend nd post uk gs ts opt level bs = Ok r ->
  report_ok f spend (report_data (f_x f) hist spend nd opt) post uk gs ts level r /\ f_draws f post <> [] /\
  rp_is_revenue r = (x_kpi_is_revenue (f_x f) || negb uk)%bool.
Proof.
  intros f hist spend nd post uk gs ts opt level bs r V E.
  destruct (report_lemma f hist spend nd post uk gs ts opt level bs V) as (r' & E' & _ & K & Q).
  assert (r' = r) by congruence. subst r'. split; [exact K|]. split; [exact (rq_some _ _ _ _ _ _ _ _ _ _ V)|exact Q].
Qed.

(** The reported totals belong together: the total outcome is the sum of the outcomes of the channels, and
    the total ROI the average of their ROIs weighted with their shares of the spend. *)
Theorem C85_weighted_roi : forall f hist spend nd post uk gs ts opt level bs r,
  report_request f hist spend nd post gs ts opt level bs ->
  create_budget_dataset f hist spend nd post uk gs ts opt level bs = Ok r ->
  rp_total_incremental r = in_row (f_x f) None (fun ch => mean_incremental r (channel_index (f_x f) ch)) /\
  ((forall ch, is_paid (f_x f) ch -> spent f spend ch <> 0) -> all_spent f spend <> 0 ->
   rp_total_roi r = Some (in_row (f_x f) None (fun ch => rp_pct_of_spend r (channel_index (f_x f) ch) *
     match rp_roi r (channel_index (f_x f) ch) with Some s => st_mean s | None => 0 end))).
Proof.
  intros f hist spend nd post uk gs ts opt level bs r V E. destruct (report_of _ _ _ _ _ _ _ _ _ _ _ _ V E) as (K & N & _).
  split; [exact (total_is_sum _ _ _ _ _ _ _ _ _ K N)|exact (weighted_roi _ _ _ _ _ _ _ _ _ K N)].
Qed.
Print Assumptions C85_weighted_roi.

(** Total CPIK and total ROI: their product is never less than one, and it is one only if all draws agree on
    the total outcome. *)
Theorem C85_total_cpik : forall f hist spend nd post uk gs ts opt level bs r,
  report_request f hist spend nd post gs ts opt level bs ->
  create_budget_dataset f hist spend nd post uk gs ts opt level bs = Ok r ->
  exists d, data_bought (f_x f) hist spend nd opt d /\
  ((forall w, In w (f_draws f post) -> 0 < all_gain f d uk gs ts w) -> 0 < all_spent f spend ->
   exists v q, rp_total_cpik r = Some v /\ rp_total_roi r = Some q /\ 1 <= v * q /\
    (v * q = 1 <-> forall w w', In w (f_draws f post) -> In w' (f_draws f post) ->
                     all_gain f d uk gs ts w = all_gain f d uk gs ts w')).
Proof.
  intros f hist spend nd post uk gs ts opt level bs r V E. destruct (report_of _ _ _ _ _ _ _ _ _ _ _ _ V E) as (K & N & _).
  destruct (report_lemma f hist spend nd post uk gs ts opt level bs V) as (_ & _ & B & _).
  exists (report_data (f_x f) hist spend nd opt). split; [exact B|]. exact (cpik_vs_roi _ _ _ _ _ _ _ _ _ K N).
Qed.
Print Assumptions C85_total_cpik.

(** Refuted: the total CPIK is the budget over the total outcome. *)
Theorem C85_reciprocal_refuted : exists f hist spend nd r v,
  report_request f hist spend nd true None None None (9 / 10) 10 /\
  create_budget_dataset f hist spend nd true true None None None (9 / 10) 10 = Ok r /\
  rp_budget r = 1 /\ rp_total_incremental r = 2 /\ rp_total_cpik r = Some v /\ v = 2 / 3.
Proof.
  assert (Hs : forall c : nat, 0 <= (fun _ : nat => 1) c) by (intros; lra).
  destruct (report_lemma _ _ _ _ _ true _ _ _ _ _ (ex_one_request (fun _ => 1) Hs)) as (r & E & _ & K & _).
  change (f_x ex_one_fitted) with ex_one in K.
  destruct (ro_total_cpik _ _ _ _ _ _ _ _ _ K) as (v & Ev & Mv).
  { intros w Hw. cbn in Hw. destruct Hw as [<-|[<-|[]]]; rewrite ex_one_gain; lra. }
  exists ex_one_fitted, (fun _ => 1), (fun _ => 1), nothing, r, v.
  split; [exact (ex_one_request _ Hs)|]. split; [exact E|].
  assert (A : all_spent ex_one_fitted (fun _ => 1) = 1) by (unfold all_spent, spent; cbn; ring).
  split; [rewrite (ro_budget _ _ _ _ _ _ _ _ _ K); exact A|].
  pose proof (ro_total _ _ _ _ _ _ _ _ _ K) as T. cbn [f_draws f_posterior ex_one_fitted map lsum length INR] in T, Mv.
  rewrite !ex_one_gain in T. rewrite !ex_one_gain, A in Mv.
  split; [lra|]. split; [exact Ev|lra].
Qed.
Print Assumptions C85_reciprocal_refuted.

(** Refuted: the report says whether its outcome is revenue.  Here the outcome is the KPI, which is not revenue. *)
Theorem C85_label_refuted : exists f hist spend nd r,
  report_request f hist spend nd true None None None (9 / 10) 10 /\
  create_budget_dataset f hist spend nd true false None None None (9 / 10) 10 = Ok r /\
  x_kpi_is_revenue (f_x f) = false /\ outcome_is_kpi (f_x f) false = true /\ rp_is_revenue r = true.
Proof.
  assert (Hs : forall c : nat, 0 <= (fun _ : nat => 1) c) by (intros; lra).
  destruct (report_lemma _ _ _ _ _ false _ _ _ _ _ (ex_one_request (fun _ => 1) Hs)) as (r & E & _ & _ & Q).
  exists ex_one_fitted, (fun _ => 1), (fun _ => 1), nothing, r.
  split; [exact (ex_one_request _ Hs)|]. split; [exact E|]. split; [reflexivity|]. split; [reflexivity|]. rewrite Q. reflexivity.
Qed.
Print Assumptions C85_label_refuted.

(** C85. Where revenue per KPI is given or the KPI is revenue, the label is right. *)
Theorem C85_label : forall f hist spend nd post uk gs ts opt level bs r,
  report_request f hist spend nd post gs ts opt level bs ->
  create_budget_dataset f hist spend nd post uk gs ts opt level bs = Ok r ->
  d_revenue_per_kpi (x_data (f_x f)) <> None \/ x_kpi_is_revenue (f_x f) = true ->
  (rp_is_revenue r = true <-> x_kpi_is_revenue (f_x f) = true \/ outcome_is_kpi (f_x f) uk = false).
Proof.
  intros f hist spend nd post uk gs ts opt level bs r V E H. destruct (report_of _ _ _ _ _ _ _ _ _ _ _ _ V E) as (_ & _ & Q).
  rewrite Q. unfold outcome_is_kpi. destruct (x_kpi_is_revenue (f_x f)); [cbn; tauto|].
  destruct (d_revenue_per_kpi (x_data (f_x f))) as [y|]; [|destruct H as [H|H]; [contradiction|discriminate]].
  destruct uk; cbn; split; intros H0; try (right; reflexivity); try discriminate; try reflexivity.
  destruct H0; discriminate.
Qed.
Print Assumptions C85_label.

(** ** Warnings.  A target ROI: warned about exactly if the total outcome falls short of it. *)
Theorem C85_target_roi : forall f hist spend nd post uk gs ts opt level bs r target mroi n,
  report_request f hist spend nd post gs ts opt level bs ->
  create_budget_dataset f hist spend nd post uk gs ts opt level bs = Ok r ->
  target <> 0 -> 0 < all_spent f spend ->
  (warns (Some target) mroi r n = true <-> rp_total_incremental r < target * all_spent f spend).
Proof.
  intros f hist spend nd post uk gs ts opt level bs r t m n V E Ht Ha.
  destruct (report_of _ _ _ _ _ _ _ _ _ _ _ _ V E) as (K & _ & _).
  destruct (ro_total_roi _ _ _ _ _ _ _ _ _ K) as [_ Q]. destruct (Q (Rgt_not_eq _ _ Ha)) as (v & Ev & M).
  rewrite (warns_roi t m r n Ht), Ev. rewrite <- M. split.
  - intros (v' & Ev' & L). assert (v' = v) by congruence. subst. apply Rmult_lt_compat_r; assumption.
  - intros L. exists v. split; [reflexivity|]. exact (Rmult_lt_reg_r _ _ _ Ha L).
Qed.
Print Assumptions C85_target_roi.

(** A target for the marginal ROI: warned about exactly if some channel gets nothing or falls short of it. *)
Theorem C85_target_mroi : forall f hist spend nd post uk gs ts opt level bs r target,
  report_request f hist spend nd post gs ts opt level bs ->
  create_budget_dataset f hist spend nd post uk gs ts opt level bs = Ok r -> target <> 0 ->
  exists d, data_bought (f_x f) hist spend nd opt d /\
  (warns None (Some target) r (n_paid (f_x f)) = true <->
   exists ch, is_paid (f_x f) ch /\
     (spent f spend ch = 0 \/
      lsum (map (fun w => extra f d uk gs ts w ch) (f_draws f post))
      < INR (length (f_draws f post)) * (target * (spent f spend ch / 100)))).
Proof.
  intros f hist spend nd post uk gs ts opt level bs r t V E Ht.
  destruct (report_of _ _ _ _ _ _ _ _ _ _ _ _ V E) as (K & N & _).
  destruct (report_lemma f hist spend nd post uk gs ts opt level bs V) as (_ & _ & B & _).
  exists (report_data (f_x f) hist spend nd opt). split; [exact B|].
  pose proof (rq_spend _ _ _ _ _ _ _ _ _ _ V) as Sp.
  set (d := report_data (f_x f) hist spend nd opt) in *. clearbody d.
  rewrite (warns_mroi t r _ Ht).
  assert (Hn : 0 < INR (length (f_draws f post))). { apply lt_0_INR. destruct (f_draws f post); [contradiction|cbn; lia]. }
  assert (M : forall ch, is_paid (f_x f) ch -> spent f spend ch <> 0 -> exists s,
    rp_mroi r (channel_index (f_x f) ch) = Some s /\
    INR (length (f_draws f post)) * (st_mean s * (spent f spend ch / 100)) = lsum (map (fun w => extra f d uk gs ts w ch) (f_draws f post))).
  { intros ch Hc Hs. destruct (ro_mroi _ _ _ _ _ _ _ _ _ K ch Hc Hs) as (s & Es & (Ms & _)).
    exists s. split; [exact Es|]. rewrite map_length in Ms.
    rewrite <- Rmult_assoc, Ms, Rmult_comm, <- lsum_scal. f_equal. apply map_ext. intros w. field. exact Hs. }
  assert (P : forall ch, spent f spend ch <> 0 -> 0 < spent f spend ch / 100).
  { intros ch Hs. pose proof (Sp (channel_index (f_x f) ch)). unfold spent in *. lra. }
  split.
  - intros (c & Hc & H).
    assert (X : exists ch, is_paid (f_x f) ch /\ channel_index (f_x f) ch = c).
    { unfold n_paid in Hc. destruct (Nat.lt_ge_cases c (n_chans (d_media (x_data (f_x f))))) as [L|L].
      - exists (ChMedia c). split; [exact L|reflexivity].
      - exists (ChRf (c - n_chans (d_media (x_data (f_x f))))). split; cbn; lia. }
    destruct X as (ch & Pc & <-). exists ch. split; [exact Pc|].
    destruct (Req_dec (spent f spend ch) 0) as [Z|Z]; [left; exact Z|right].
    destruct (M ch Pc Z) as (s & Es & Ms). rewrite <- Ms. apply Rmult_lt_compat_l; [exact Hn|].
    apply Rmult_lt_compat_r; [exact (P ch Z)|exact (H s Es)].
  - intros (ch & Pc & H). exists (channel_index (f_x f) ch). split; [exact (paid_index _ ch Pc)|].
    intros s Es. destruct (Req_dec (spent f spend ch) 0) as [Z|Z].
    + destruct (ro_undefined _ _ _ _ _ _ _ _ _ K ch Pc Z) as [_ U]. congruence.
    + destruct H as [H|H]; [contradiction|]. destruct (M ch Pc Z) as (s' & Es' & Ms). assert (s' = s) by congruence. subst s'.
      rewrite <- Ms in H. apply Rmult_lt_reg_l in H; [|exact Hn]. exact (Rmult_lt_reg_r _ _ _ (P ch Z) H).
Qed.
Print Assumptions C85_target_mroi.

(** Refuted: missing a target is warned about.  If nothing is spent the total ROI is undefined; a target for it
    passes in silence, while the same target for the marginal ROI is warned about. *)
Theorem C85_silent_refuted : exists f hist spend nd r,
  report_request f hist spend nd true None None None (9 / 10) 10 /\
  create_budget_dataset f hist spend nd true true None None None (9 / 10) 10 = Ok r /\
  rp_budget r = 0 /\ rp_total_incremental r = 0 /\ rp_total_roi r = None /\
  warns (Some 5) None r 1 = false /\ warns None (Some 5) r 1 = true.
Proof.
  assert (Hs : forall c : nat, 0 <= (fun _ : nat => 0) c) by (intros; lra).
  destruct (report_lemma _ _ _ _ _ true _ _ _ _ _ (ex_one_request (fun _ => 0) Hs)) as (r & E & _ & K & _).
  change (f_x ex_one_fitted) with ex_one in K.
  exists ex_one_fitted, (fun _ => 1), (fun _ => 0), nothing, r.
  split; [exact (ex_one_request _ Hs)|]. split; [exact E|].
  assert (A : all_spent ex_one_fitted (fun _ => 0) = 0) by (unfold all_spent, spent; cbn; ring).
  split; [rewrite (ro_budget _ _ _ _ _ _ _ _ _ K); exact A|].
  pose proof (ro_total _ _ _ _ _ _ _ _ _ K) as T. cbn [f_draws f_posterior ex_one_fitted map lsum length INR] in T.
  rewrite !ex_one_gain in T. split; [lra|].
  destruct (ro_total_roi _ _ _ _ _ _ _ _ _ K) as [U _]. specialize (U A). split; [exact U|]. split.
  - destruct (warns (Some 5) None r 1) eqn:W; [|reflexivity]. apply warns_roi in W; [|lra]. destruct W as (v & Ev & _). congruence.
  - apply warns_mroi; [lra|]. exists 0%nat. split; [lia|]. intros s Es.
    destruct (ro_undefined _ _ _ _ _ _ _ _ _ K (ChMedia 0)) as [_ M]; [cbn; lia|reflexivity|]. cbn in M. congruence.
Qed.
Print Assumptions C85_silent_refuted.

(** ** Charts.  The chart of changes has one bar for every channel, ordered. *)
Theorem C85_deltas : forall names optimized nonoptimized,
  Permutation (delta_rows names optimized nonoptimized)
    (map (fun i => (nth i names ""%string, optimized i - nonoptimized i)) (seq 0 (length names))) /\
  StronglySorted row_before (delta_rows names optimized nonoptimized).
Proof. exact delta_lemma. Qed.
Print Assumptions C85_deltas.
Example C85_deltas_example : row_before ("b"%string, -3) ("a"%string, 2) /\ ~ row_before ("a"%string, 2) ("b"%string, -3).
Proof. unfold row_before. cbn. split; [left; lra|]. intros [H|[H|H]]; lra. Qed.

(** The waterfall chart climbs from the total outcome before to the total outcome after, one channel at a time. *)
Theorem C85_waterfall : forall f names histo spendo ndo uko gso tso opto levelo bso ro histn spendn ndn ukn gsn tsn optn leveln bsn rn posto postn,
  report_request f histo spendo ndo posto gso tso opto levelo bso ->
  create_budget_dataset f histo spendo ndo posto uko gso tso opto levelo bso = Ok ro ->
  report_request f histn spendn ndn postn gsn tsn optn leveln bsn ->
  create_budget_dataset f histn spendn ndn postn ukn gsn tsn optn leveln bsn = Ok rn ->
  length names = n_paid (f_x f) -> ~ In "optimized"%string names ->
  exists rows bars,
    waterfall names ro rn
      = ("non_optimized"%string, 0, rp_total_incremental rn) :: bars ++ [("optimized"%string, 0, rp_total_incremental ro)] /\
    Permutation rows (map (fun i => (nth i names ""%string, mean_incremental ro i - mean_incremental rn i)) (seq 0 (length names))) /\
    StronglySorted row_before rows /\
    steps (rp_total_incremental rn) rows bars (rp_total_incremental ro).
Proof.
  intros f names histo spendo ndo uko gso tso opto levelo bso ro histn spendn ndn ukn gsn tsn optn leveln bsn rn posto postn Vo Eo Vn En L N.
  assert (S : forall r, rp_total_incremental r = in_row (f_x f) None (fun ch => mean_incremental r (channel_index (f_x f) ch)) ->
    rp_total_incremental r = rsum (length names) (mean_incremental r)).
  { intros r H. rewrite H, L. symmetry. apply row_sum. reflexivity. }
  destruct (report_of _ _ _ _ _ _ _ _ _ _ _ _ Vo Eo) as (Ko & No & _). destruct (report_of _ _ _ _ _ _ _ _ _ _ _ _ Vn En) as (Kn & Nn & _).
  apply waterfall_lemma; [exact N| |]; apply S; [exact (total_is_sum _ _ _ _ _ _ _ _ _ Ko No)|exact (total_is_sum _ _ _ _ _ _ _ _ _ Kn Nn)].
Qed.
Print Assumptions C85_waterfall.

(** Refuted: the bars join up for every set of channel names.  A channel called "optimized" is drawn from zero. *)
Theorem C85_joins_refuted : exists names ro rn,
  NoDup names /\ rp_total_incremental ro = rsum (length names) (mean_incremental ro) /\
  rp_total_incremental rn = rsum (length names) (mean_incremental rn) /\ rp_total_incremental rn = 7 /\
  waterfall names ro rn = [("non_optimized"%string, 0, 7); ("optimized"%string, 0, 7 + 1); ("optimized"%string, 0, 8)].
Proof.
  set (mk := fun v => mkReport (fun _ => 1) (fun _ => 1) (fun _ => Some (mkStats v v v v)) (fun _ => None) (fun _ => None)
    (fun _ => None) (fun _ => None) 1 (v - 1) v (Some v) None true).
  exists ["optimized"%string], (mk 8), (mk 7). split; [repeat constructor; cbn; tauto|].
  split; [cbn; ring|]. split; [cbn; ring|]. split; [reflexivity|].
  unfold waterfall, waterfall_rows, delta_rows, is_negative. cbn [length seq map nth mean_incremental mk rp_incremental st_mean filter snd].
  destruct (Rlt_dec (8 - 7) 0) as [H|_]; [lra|]. cbn [negb sort_rows insert_row app bars_from rp_total_incremental mk].
  cbn. repeat (f_equal; try ring).
Qed.
Print Assumptions C85_joins_refuted.

(** The limits drawn on the response curves: times the historical spend, they are the limits on the spend. *)
Theorem C85_limits : forall bounds nonoptimized hist c b, bound_for bounds c b ->
  (hist c <> 0 -> drawn_limit bounds nonoptimized hist c * hist c = b * nonoptimized c) /\
  (hist c = 0 -> drawn_limit bounds nonoptimized hist c = 0).
Proof. exact limit_lemma. Qed.
Print Assumptions C85_limits.
Example C85_limits_example : bound_for [2; 3] 1 3 /\ bound_for [2] 1 2.
Proof. split; [right; split; [cbn; lia|reflexivity]|left; reflexivity]. Qed.

(** The curves start at nothing, go on in steps of a hundredth to at least twice the historical spend, and reach
    every limit drawn. *)
Theorem C85_curves : forall n upper nonoptimized hist,
  exists k, curve_multipliers n upper nonoptimized hist = map (fun i => INR i / 100) (seq 0 k) /\ (200 <= k)%nat /\
  forall c, (c < n)%nat -> exists m, In m (curve_multipliers n upper nonoptimized hist) /\ drawn_limit upper nonoptimized hist c <= m.
Proof. exact multipliers_lemma. Qed.
Print Assumptions C85_curves.

Example C85_example :
  report_request ex_one_fitted (fun _ => 1) (fun _ => 2) nothing true None None None (9 / 10) 10 /\
  (forall w, In w (f_draws ex_one_fitted true) ->
    0 < all_gain ex_one_fitted (report_data ex_one (fun _ => 1) (fun _ => 2) nothing None) true None None w) /\
  0 < all_spent ex_one_fitted (fun _ => 2) /\ ~ In "optimized"%string ["tv"%string].
Proof.
  split; [apply ex_one_request; intros; lra|]. split.
  - intros w Hw. cbn in Hw. destruct Hw as [<-|[<-|[]]]; rewrite ex_one_gain; lra.
  - split; [unfold all_spent, spent; cbn; lra|]. cbn. intros [H|[]]. discriminate.
Qed.
