(** Proofs about [optimal_freq]. *)
From Coq Require Import Reals ZArith Lia Lra String List Bool Arith Permutation Sorted FunctionalExtensionality.
From Verif Require Import Lib_Sum M_Base M_AdstockHill M_Equations M_Transformers M_Aggregate
  S_Aggregate S_Adstock S_Media S_Analyzer M_Analyzer S_Predictor P_Aggregate P_Analyzer P_AnalyzerIO
  P_Predictor S_Paid P_Paid P_PaidMono M_Stats S_Stats P_Stats M_Summary S_Roi P_Roi S_Summary P_Summary
  M_Curves S_Curves P_Curves.
From Verif Require P_Budget.
Import ListNotations.
Local Open Scope R_scope.

(** ** The first largest value *)
Definition best_of (l : list R) (i : nat) : Prop :=
  (i < length l)%nat /\ (forall j, (j < length l)%nat -> nth j l 0 <= nth i l 0) /\
  (forall j, (j < i)%nat -> nth j l 0 < nth i l 0).

Lemma argmax_from : forall r done i b, best_of done i -> nth i done 0 = b ->
  exists k v, nanargmax_from (length done) (Some (i, b)) (map Some r) = Some (k, v) /\ best_of (done ++ r) k.
Proof.
  induction r as [|v r IH]; intros done i b H E.
  - exists i, b. split; [reflexivity|]. rewrite app_nil_r. exact H.
  - cbn [map nanargmax_from].
    assert (L : S (length done) = length (done ++ [v])) by (rewrite app_length; cbn; lia).
    replace (done ++ v :: r) with ((done ++ [v]) ++ r) by (rewrite <- app_assoc; reflexivity).
    destruct H as (H1 & H2 & H3).
    assert (Old : forall j, (j < length done)%nat -> nth j (done ++ [v]) 0 = nth j done 0)
      by (intros; apply app_nth1; assumption).
    assert (New : nth (length done) (done ++ [v]) 0 = v) by (rewrite app_nth2, Nat.sub_diag by lia; reflexivity).
    rewrite L. destruct (Rlt_dec b v) as [Hlt|Hge].
    + apply IH; [|exact New]. rewrite <- E in *.
      assert (S : forall j, (j < length done)%nat -> nth j (done ++ [v]) 0 < v).
      { intros j Hj. rewrite Old by exact Hj. specialize (H2 j Hj). lra. }
      refine (conj _ (conj _ _)); [lia| |].
      * intros j Hj. rewrite New. destruct (Nat.eq_dec j (length done)) as [->|N]; [rewrite New; lra|].
        left. apply S. lia.
      * intros j Hj. rewrite New. apply S. exact Hj.
    + apply IH; [|rewrite Old by exact H1; exact E].
      refine (conj _ (conj _ _)); [lia| |].
      * intros j Hj. rewrite (Old i H1). destruct (Nat.eq_dec j (length done)) as [->|N]; [rewrite New; lra|].
        rewrite Old by lia. apply H2. lia.
      * intros j Hj. rewrite !Old by lia. apply H3. exact Hj.
Qed.

Lemma argmax_lemma : forall l, l <> [] -> exists i, nanargmax (map Some l) = Ok i /\ best_of l i.
Proof.
  intros [|a l] H; [congruence|]. unfold nanargmax. cbn [map nanargmax_from].
  destruct (argmax_from l [a] 0%nat a) as (k & v & E & B).
  - refine (conj _ (conj _ _)); [cbn; lia| |lia]. intros j Hj. cbn in Hj. replace j with 0%nat by lia. lra.
  - reflexivity.
  - cbn [length] in E. rewrite E. exists k. split; [reflexivity|exact B].
Qed.

(** ** The draws of a cell *)
Lemma xcell_lemma : forall (F : draw -> R) draws L idx w0 q0, length L = length draws ->
  (forall k, (k < length draws)%nat -> xat (nth k L q0) idx = Some (F (nth k draws w0))) ->
  xcell_draws L idx = Some (map F draws).
Proof.
  intros F draws. induction draws as [|w dr IH]; intros [|a L] idx w0 q0 HL H; try discriminate; [reflexivity|].
  unfold xcell_draws. cbn [fold_right map]. fold (xcell_draws L idx).
  rewrite (IH L idx w0 q0); [|cbn in HL; lia|intros k Hk; apply (H (S k)); cbn; lia].
  pose proof (H 0%nat ltac:(cbn; lia)) as E. cbn [nth] in E. rewrite E. reflexivity.
Qed.

(** ** An RF channel does not see the media of the others *)
Lemma rf_term_same : forall x nd nd' w c f sel br g t,
  d_reach nd = d_reach nd' -> d_frequency nd = d_frequency nd' ->
  paid_term x nd w (ChRf c) f sel br g t = paid_term x nd' w (ChRf c) f sel br g t.
Proof.
  intros x nd nd' w c f sel br g t E1 E2. unfold paid_term, channel_term.
  destruct (given_treatment (paid_model x nd) (ChRf c) f sel br) as (_ & -> & ->).
  destruct (given_treatment (paid_model x nd') (ChRf c) f sel br) as (_ & -> & ->).
  unfold treatment. cbn [d_reach d_frequency paid_model x_data]. unfold given. rewrite E1, E2. reflexivity.
Qed.

(** ** Giving the historical revenue per KPI changes nothing *)
Definition set_revenue (d : data) (r : option T2) : data :=
  mkData (d_media d) (d_reach d) (d_frequency d) (d_organic_media d) (d_organic_reach d)
    (d_organic_frequency d) (d_non_media d) (d_controls d) r.

Lemma set_fill : forall x d a b, d_revenue_per_kpi d = None ->
  fill_missing x (set_revenue d (d_revenue_per_kpi (x_data x))) a b = fill_missing x d a b.
Proof.
  intros x d a b E. unfold fill_missing, set_revenue. cbn [d_media d_reach d_frequency d_revenue_per_kpi
    d_organic_media d_organic_reach d_organic_frequency d_non_media d_controls]. rewrite E.
  cbn [orelse]. destruct (d_revenue_per_kpi (x_data x)); reflexivity.
Qed.
Lemma set_modified : forall x d, d_revenue_per_kpi d = None ->
  get_modified_times x (set_revenue d (d_revenue_per_kpi (x_data x))) = get_modified_times x d.
Proof.
  intros x d E. unfold get_modified_times, set_revenue. cbn [d_media d_reach d_frequency d_revenue_per_kpi
    d_organic_media d_organic_reach d_organic_frequency d_non_media d_controls]. rewrite E.
  destruct (d_revenue_per_kpi (x_data x)) as [r|]; [|reflexivity]. cbn [modified2]. rewrite Nat.eqb_refl. reflexivity.
Qed.
Lemma set_without : forall d r, without_controls (set_revenue d r) = set_revenue (without_controls d) r.
Proof. reflexivity. Qed.

Lemma set_incremental : forall x d o bs draws, d_revenue_per_kpi d = None ->
  incremental_outcome x (set_revenue d (d_revenue_per_kpi (x_data x))) o bs draws = incremental_outcome x d o bs draws.
Proof.
  intros x d o bs draws E. unfold incremental_outcome, build_counterfactual_inputs.
  rewrite set_modified by exact E. cbv zeta. rewrite set_fill by exact E. reflexivity.
Qed.
Lemma set_package : forall x d gs ts (K : option (list nat) -> option (list nat) -> result tensor), d_revenue_per_kpi d = None ->
  rbind (package x (set_revenue d (d_revenue_per_kpi (x_data x))) gs ts None []) (fun i => K (i_geo i) (i_time i))
  = rbind (package x d gs ts None []) (fun i => K (i_geo i) (i_time i)).
Proof.
  intros x d gs ts K E. unfold package. rewrite set_modified by exact E. cbv zeta.
  destruct (resolve_geo_indices (x_geo x) gs) as [gi|]; [|reflexivity]. cbn [rbind].
  destruct (resolve_time_indices (x_time x) _ ts) as [ti|]; reflexivity.
Qed.
Lemma set_labels : forall x d ts, d_revenue_per_kpi d = None ->
  time_labels x (set_revenue d (d_revenue_per_kpi (x_data x))) ts = time_labels x d ts.
Proof.
  intros x d ts E. unfold time_labels, package, time_names. rewrite set_modified by exact E. cbv zeta.
  destruct (resolve_geo_indices (x_geo x) None) as [gi|]; [|reflexivity]. cbn [rbind].
  destruct (resolve_time_indices (x_time x) _ ts) as [ti|]; reflexivity.
Qed.
Lemma set_expected : forall x d gs ts ag at' inv uk bs draws, d_revenue_per_kpi d = None ->
  expected_outcome x (set_revenue d (d_revenue_per_kpi (x_data x))) gs ts ag at' inv uk bs draws
  = expected_outcome x d gs ts ag at' inv uk bs draws.
Proof.
  intros. unfold expected_outcome. rewrite set_modified, set_fill by assumption. reflexivity.
Qed.

Lemma rbind_ext : forall A B (m : result A) (k k' : A -> result B), (forall a, k a = k' a) -> rbind m k = rbind m k'.
Proof. intros A B [a|e] k k' H; cbn; auto. Qed.

Lemma summary_revenue : forall f d s br inc gs ts ag at' q uk level bs np bl, d_revenue_per_kpi d = None ->
  summary_metrics f (mkNew (set_revenue d (d_revenue_per_kpi (x_data (f_x f)))) s) br inc gs ts ag at' q uk level bs np bl
  = summary_metrics f (mkNew d s) br inc gs ts ag at' q uk level bs np bl.
Proof.
  intros f d s br inc gs ts ag at' q uk level bs np bl E. unfold summary_metrics. cbn [nt_data nt_spend]. cbv zeta.
  assert (E' : d_revenue_per_kpi (without_controls d) = None) by exact E.
  rewrite !set_without. unfold get_aggregated_impressions, incremental_outcome_aggregate.
  rewrite (set_fill (f_x f) (without_controls d) np false E'), (set_modified (f_x f) d E).
  rewrite !(set_incremental (f_x f) (without_controls d) _ _ _ E').
  rewrite (set_labels (f_x f) d ts E), !(set_expected (f_x f) d _ _ _ _ _ _ _ _ E).
  apply rbind_ext; intros imp0. apply rbind_ext; intros imp.
  repeat (apply rbind_ext; intros ?). f_equal.
  repeat (apply rbind_ext; intros ?). destruct np; [reflexivity|].
  apply rbind_ext; intros st. apply rbind_ext; intros y.
  unfold package. rewrite set_modified by exact E. cbv zeta.
  destruct (resolve_geo_indices (x_geo (f_x f)) gs) as [gi|]; [|reflexivity]. cbn [rbind].
  destruct (resolve_time_indices (x_time (f_x f)) _ ts) as [ti|]; reflexivity.
Qed.

(** ** The data at a frequency *)
Section Optimal.
Variables (f : fitted) (nd : rf_tensors) (imp : T3) (grid : list R) (post uk : bool)
  (gs : option (list string)) (ts : option time_sel) (level : R).
Hypothesis V : frequency_request f nd imp grid gs ts level.
Let x := f_x f.
Let gl := chosen_geos x gs.
Let tl := chosen_times x ts.
Let n_rf := n_chans (d_reach (x_data x)).
Let m := n_chans (d_media (x_data x)).
Let dummy_media := if (0 <? m)%nat then Some (ones3 (x_n_geos x) (x_n_media_times x) m) else None.
Let dummy_spend := if (0 <? m)%nat then Some (Spend3 (ones3 (x_n_geos x) (x_n_times x) m)) else None.
Definition plain_data (q : nat -> R) : data :=
  mkData dummy_media (d_reach (rf_at imp q)) (d_frequency (rf_at imp q)) None None None None None None.
Definition plain_new (q : nat -> R) : new_tensors :=
  mkNew (plain_data q) (mkSpend dummy_spend (orelse (rn_spend nd) (s_rf (f_spend f)))).

Lemma at_optimal_lemma : forall q,
  at_optimal f nd q = mkNew (set_revenue (plain_data q) (d_revenue_per_kpi (x_data x))) (nt_spend (plain_new q)).
Proof.
  intros q. pose proof (fr_impressions _ _ _ _ _ _ _ V) as Hi. pose proof (fr_shape _ _ _ _ _ _ _ V) as Hs.
  assert (E : orelse (rn_impressions nd) (product (d_reach (x_data x)) (d_frequency (x_data x))) = Some imp).
  { unfold impressions_used in Hi. destruct (rn_impressions nd) as [y|]; [rewrite Hi; reflexivity|].
    destruct Hi as (r & k & Er & Ek & G & T & C & Vv). fold x in Er, Ek. rewrite Er, Ek. cbn [orelse product].
    f_equal. destruct imp as [g t c v]. cbn in *. subst. f_equal.
    extensionality a. extensionality b. extensionality e. symmetry. apply Vv. }
  assert (R : orelse (rn_revenue nd) (d_revenue_per_kpi (x_data x)) = d_revenue_per_kpi (x_data x)).
  { destruct (fr_revenue _ _ _ _ _ _ _ V) as [-> | ->]; fold x; [reflexivity|].
    destruct (d_revenue_per_kpi (x_data x)); reflexivity. }
  unfold at_optimal. cbv zeta. fold x. rewrite E, R. cbn [option_map].
  assert (M : get_modified_times x (mkData None (d_reach (rf_at imp q)) (d_frequency (rf_at imp q)) None None None None None
              (d_revenue_per_kpi (x_data x))) = None).
  { pose proof (wf_rf x (fr_model _ _ _ _ _ _ _ V)) as Prf. cbn in Hs.
    unfold get_modified_times. cbn [d_media d_reach d_frequency d_organic_media d_organic_reach d_organic_frequency
      d_non_media d_controls d_revenue_per_kpi modified3 rf_at]. fold x in Hs.
    destruct (d_reach (x_data x)) as [r|] eqn:Er; [|contradiction]. destruct Hs as (_ & Ht & _).
    pose proof (wf_reach x (fr_model _ _ _ _ _ _ _ V)) as Wr. pose proof (wf_freq x (fr_model _ _ _ _ _ _ _ V)) as Wf.
    rewrite Er in Wr. cbn in Wr. destruct (d_frequency (x_data x)) as [k|]; cbn in Prf, Wf; [|contradiction].
    cbn [times]. destruct Wr as [_ Wr], Wf as [_ Wf].
    rewrite Ht, Nat.eqb_refl. cbn [orelse]. rewrite Wr, Wf, Nat.eqb_refl. cbn [orelse].
    destruct (d_revenue_per_kpi (x_data x)) as [z|]; [|reflexivity]. cbn. rewrite Nat.eqb_refl. reflexivity. }
  cbn [rf_at d_reach d_frequency] in M. rewrite M. reflexivity.
Qed.

Lemma plain_ok : forall q, paid_data_ok x (plain_data q).
Proof.
  intros q. pose proof (fr_shape _ _ _ _ _ _ _ V) as Hs. cbn in Hs. fold x in Hs.
  pose proof (fr_model _ _ _ _ _ _ _ V) as W. fold x in W.
  pose proof (wf_rf x W) as Prf. pose proof (wf_reach x W) as Wr. pose proof (wf_freq x W) as Wf.
  destruct (d_reach (x_data x)) as [r|] eqn:Er; [|contradiction].
  destruct (d_frequency (x_data x)) as [k|] eqn:Ek; cbn in Prf, Wr, Wf; [|contradiction].
  unfold paid_data_ok. rewrite Er, Ek. unfold plain_data, rf_at.
  cbn [d_media d_reach d_frequency d_organic_media d_organic_reach d_organic_frequency
      d_non_media d_controls d_revenue_per_kpi fits fits2].
  split; [|split; [|split; [|tauto]]].
  - unfold dummy_media. destruct (Nat.ltb_spec 0 m) as [L|L]; [|exact Logic.I].
    unfold m in *. pose proof (wf_media x W) as Wm. destruct (d_media (x_data x)) as [y|]; cbn in *; [|lia].
    unfold same_shape. cbn. intuition congruence.
  - exact Hs.
  - unfold same_shape in *. cbn in *. intuition congruence.
Qed.

Lemma plain_nonneg : forall q, (forall c, (c < n_rf)%nat -> 0 < q c) -> paid_nonneg x (plain_data q).
Proof.
  intros q Hq. pose proof (fr_shape _ _ _ _ _ _ _ V) as Hs. cbn in Hs. fold x in Hs.
  assert (C : chans imp = n_rf).
  { unfold n_rf. destruct (d_reach (x_data x)); [|contradiction]. destruct Hs as (_ & _ & ->). reflexivity. }
  pose proof (fr_nonneg _ _ _ _ _ _ _ V) as Hn. unfold nonneg in Hn.
  unfold paid_nonneg, given, plain_data, rf_at. cbn [d_media d_reach d_frequency].
  refine (conj _ (conj _ _)).
  - unfold dummy_media. destruct (0 <? m)%nat; [cbn; intros; lra|exact (fr_media _ _ _ _ _ _ _ V)].
  - cbn. intros g t c Ht Hc. specialize (Hn g t c Ht Hc). specialize (Hq c ltac:(lia)).
    apply Rmult_le_pos; [exact Hn|]. left. apply Rinv_0_lt_compat. exact Hq.
  - cbn. intros g t c Ht Hc. specialize (Hq c ltac:(lia)). lra.
Qed.

Lemma plain_spend : forall q, spend_ok false f (spend_used f (nt_spend (plain_new q))).
Proof.
  intros q. destruct (fr_spend _ _ _ _ _ _ _ V) as [_ S2]. destruct (fr_history _ _ _ _ _ _ _ V) as [S1 _].
  unfold spend_ok, spend_used, plain_new in *. cbn [nt_spend s_media s_rf] in *. fold x in S1, S2 |- *.
  split.
  - unfold dummy_spend. destruct (Nat.ltb_spec 0 m) as [L|L]; [|exact S1].
    unfold m in *. destruct (d_media (x_data x)) as [y|]; cbn in *; [auto|lia].
  - destruct (rn_spend nd); [exact S2|]. cbn [orelse]. destruct (s_rf (f_spend f)); exact S2.
Qed.

Lemma rf_cost_same : forall q c, channel_spend (spend_used f (nt_spend (plain_new q))) (ChRf c) gl tl = rf_cost f nd gs ts c.
Proof.
  intros q c. unfold rf_cost, channel_spend, spend_used, plain_new. cbn [nt_spend s_rf].
  destruct (rn_spend nd); [reflexivity|]. cbn [orelse given_spend]. destruct (s_rf (f_spend f)); reflexivity.
Qed.

Lemma rf_gain_same : forall q r uk' br f0 f1 c w, r = None \/ r = d_revenue_per_kpi (x_data x) ->
  outcome_change x (set_revenue (plain_data q) r) w (ChRf c) uk' br f0 f1 gl tl
  = rf_gain f imp gs ts q uk' br f0 f1 c w.
Proof.
  intros q r uk' br f0 f1 c w Hr. unfold rf_gain, outcome_change. fold x gl tl.
  apply total_ext'. intros g. apply total_ext'. intros t.
  rewrite !(rf_term_same x (set_revenue (plain_data q) r) (rf_at imp q)) by reflexivity.
  f_equal. unfold outcome_per_unit, outcome_is_kpi. cbn [paid_model x_data d_revenue_per_kpi set_revenue rf_at x_kpi_is_revenue].
  destruct Hr as [-> | ->]; [reflexivity|]. destruct (d_revenue_per_kpi (x_data x)) eqn:E; rewrite ?E; reflexivity.
Qed.

Lemma rf_is_paid : forall c, (c < n_rf)%nat -> is_paid x (ChRf c) /\ channel_index x (ChRf c) = (m + c)%nat.
Proof. intros c Hc. split; [exact Hc|reflexivity]. Qed.

(** ** The ROI at one frequency *)
Definition roi_at (q : R) : result (nat -> option stats) :=
  rbind (roi f post (at_optimal f nd (fun _ => q)) gs ts true (resolve_use_kpi x uk) default_batch) (fun I =>
  rbind (summarise level (xcell_draws I)) (fun v => Ok (fun c => v [(m + c)%nat]))).

Lemma resolve_idem : forall y b, well_formed y -> resolve_use_kpi y (resolve_use_kpi y b) = resolve_use_kpi y b.
Proof.
  intros y b W. pose proof (wf_rpk y W) as R. unfold resolve_use_kpi.
  destruct b, (d_revenue_per_kpi (x_data y)), (x_kpi_is_revenue y); try discriminate R; reflexivity.
Qed.
Lemma roi_resolved : forall p nd' gs' ts' ag bs b,
  roi f p nd' gs' ts' ag (resolve_use_kpi (f_x f) b) bs = roi f p nd' gs' ts' ag b bs.
Proof. intros. unfold roi. rewrite resolve_idem by exact (fr_model _ _ _ _ _ _ _ V). reflexivity. Qed.

Lemma roi_at_lemma : forall q, 0 < q -> exists v, roi_at q = Ok v /\
  forall c, (c < n_rf)%nat ->
    reports (v c) level (map (rf_roi f nd imp uk gs ts q c) (f_draws f post)).
Proof.
  intros q Hq. pose proof V as V'. destruct V' as [Wm Tr Dr Ne Nrf Im Sh Nn Md Rv Or Hh Sp Nm Hg Ht Gn Ds Lv Gr Nz].
  assert (RR : roi_request f post false false (at_optimal f nd (fun _ => q)) gs ts true default_batch).
  { rewrite at_optimal_lemma. constructor; auto; try discriminate.
    - reflexivity.
    - cbn [nt_data]. pose proof (plain_ok (fun _ => q)) as (P1 & P2 & P3 & P4 & P5).
      refine (conj P1 (conj P2 (conj P3 (conj _ P5)))). cbn [set_revenue d_revenue_per_kpi]. fold x.
      destruct (d_revenue_per_kpi (x_data x)); cbn; auto.
    - exact (plain_nonneg (fun _ => q) (fun _ _ => Hq)).
    - exact (plain_spend (fun _ => q)). }
  destruct (roi_lemma f post false false _ gs ts true default_batch RR uk) as (L & HL & LL & C).
  unfold roi_at. unfold x at 1. rewrite roi_resolved, HL. cbn [rbind].
  destruct (summarise_runs level (xcell_draws L) Lv) as (v & -> & Sv & _). cbn [rbind].
  eexists. split; [reflexivity|]. intros c Hc. apply Sv; [|destruct (f_draws f post) eqn:E; [exfalso; exact (Ne post E)|discriminate]].
  destruct (f_draws f post) as [|w0 dr] eqn:Ed; [exfalso; exact (Ne post Ed)|]. rewrite <- Ed in *. clear Ed.
  apply (xcell_lemma _ _ _ _ w0 (mkX [] (fun _ => None)) LL). intros k Hk.
  destruct (C k w0 (mkX [] (fun _ => None)) Hk) as [_ Vk].
  destruct (rf_is_paid c Hc) as [Hp Ei].
  destruct (Vk (ChRf c) 0%nat Hp ltac:(discriminate)) as [_ Q]. cbn [position app members] in Q. fold x in Q. rewrite Ei in Q.
  rewrite at_optimal_lemma in Q. cbn [nt_data nt_spend] in Q.
  rewrite (rf_gain_same (fun _ => q) _ _ _ _ _ _ _ (or_intror eq_refl)) in Q.
  change (mkSpend dummy_spend (orelse (rn_spend nd) (s_rf (f_spend f)))) with (nt_spend (plain_new (fun _ => q))) in Q.
  change (nt_spend (plain_new (fun _ => q))) with (nt_spend (plain_new (fun _ => q))) in Q.
  rewrite rf_cost_same in Q. destruct (Q (Nz c Hc)) as (r & Er & Hr). rewrite Er. f_equal.
  unfold rf_roi. rewrite <- Hr. field. exact (Nz c Hc).
Qed.

(** ** Only the frequency of the channel matters *)
Lemma rf_term_local : forall y q q' w c f0 sel br g t, q c = q' c ->
  paid_term y (rf_at imp q) w (ChRf c) f0 sel br g t = paid_term y (rf_at imp q') w (ChRf c) f0 sel br g t.
Proof.
  intros y q q' w c f0 sel br g t E. unfold paid_term, channel_term.
  destruct (given_treatment (paid_model y (rf_at imp q)) (ChRf c) f0 sel br) as (_ & -> & ->).
  destruct (given_treatment (paid_model y (rf_at imp q')) (ChRf c) f0 sel br) as (_ & -> & ->).
  unfold treatment, paid_model, given, rf_at. cbn [d_reach d_frequency x_data].
  destruct br; cbn [option_map]; unfold rf_channel, only, window, in_units; cbn [chans times val geos];
  rewrite E; reflexivity.
Qed.
Lemma rf_gain_local : forall q q' uk' br f0 f1 c w, q c = q' c ->
  rf_gain f imp gs ts q uk' br f0 f1 c w = rf_gain f imp gs ts q' uk' br f0 f1 c w.
Proof.
  intros q q' uk' br f0 f1 c w E. unfold rf_gain, outcome_change.
  apply total_ext'. intros g. apply total_ext'. intros t.
  rewrite !(rf_term_local (f_x f) q q') by exact E. reflexivity.
Qed.

(** ** The search *)
Definition uses_grid (max_frequency : option R) (freq_grid : option (list R)) : Prop :=
  freq_grid = Some grid \/
  (freq_grid = None /\ exists y, d_frequency (x_data (f_x f)) = Some y /\
     grid = default_grid (match max_frequency with
                          | Some v => if Req_EM_T v 0 then max3 y else v | None => max3 y end)).

Lemma grid_lemma : exists mg, mapM roi_at grid = Ok mg /\ length mg = length grid /\
  forall i c, (i < length grid)%nat -> (c < n_rf)%nat ->
    reports (nth i mg (fun _ => None) c) level (map (rf_roi f nd imp uk gs ts (nth i grid 0) c) (f_draws f post)).
Proof.
  destruct (fr_grid _ _ _ _ _ _ _ V) as [_ Gp]. rewrite Forall_forall in Gp.
  destruct (mapM_runs _ _ roi_at grid) as (mg & Hm).
  { intros q Hq. destruct (roi_at_lemma q (Gp q Hq)) as (v & Hv & _). eauto. }
  exists mg. split; [exact Hm|]. split; [exact (mapM_length _ _ _ _ _ Hm)|]. intros i c Hi Hc.
  pose proof (proj2 (mapM_each _ _ _ _ _ Hm) i 0 (fun _ => None) Hi) as E.
  destruct (roi_at_lemma (nth i grid 0) (Gp _ (nth_In _ _ Hi))) as (v & Hv & P).
  assert (Ev : v = nth i mg (fun _ => None)) by congruence. rewrite <- Ev. exact (P c Hc).
Qed.

Lemma mean_of_reports : forall v l F, l <> [] -> reports v level (map F l) ->
  option_map st_mean v = Some (lsum (map F l) / INR (@length draw l)).
Proof.
  intros v l F Hl (s & -> & (E & _)). cbn [option_map]. f_equal. rewrite map_length in E.
  assert (N : INR (length l) <> 0) by (apply not_0_INR; destruct l; [congruence|discriminate]).
  rewrite <- E. field. exact N.
Qed.

Lemma search_lemma : forall mg, length mg = length grid ->
  (forall i c, (i < length grid)%nat -> (c < n_rf)%nat ->
    reports (nth i mg (fun _ => None) c) level (map (rf_roi f nd imp uk gs ts (nth i grid 0) c) (f_draws f post))) ->
  exists idx, mapM (fun c => nanargmax (map (fun v : nat -> option stats => option_map st_mean (v c)) mg)) (seq 0 n_rf) = Ok idx /\
    length idx = n_rf /\
    forall c, (c < n_rf)%nat -> best_of (map (fun q => mean_roi f nd imp post uk gs ts q c) grid) (nth c idx 0%nat).
Proof.
  intros mg L C.
  assert (Each : forall c, (c < n_rf)%nat -> exists i,
    nanargmax (map (fun v : nat -> option stats => option_map st_mean (v c)) mg) = Ok i /\
    best_of (map (fun q => mean_roi f nd imp post uk gs ts q c) grid) i).
  { intros c Hc. 
    assert (E : map (fun v : nat -> option stats => option_map st_mean (v c)) mg
                = map Some (map (fun q => mean_roi f nd imp post uk gs ts q c) grid)).
    { apply (nth_ext _ _ None None); [rewrite !map_length; exact L|]. intros i Hi. rewrite map_length in Hi.
      etransitivity; [exact (map_nth (fun v : nat -> option stats => option_map st_mean (v c)) mg (fun _ => None) i)|].
      rewrite map_map. rewrite (nth_indep (map _ grid) None (Some (mean_roi f nd imp post uk gs ts 0 c))) by (rewrite map_length; lia).
      rewrite (map_nth (fun q => Some (mean_roi f nd imp post uk gs ts q c))).
      rewrite (mean_of_reports _ _ _ (fr_some _ _ _ _ _ _ _ V post) (C i c ltac:(lia) Hc)). reflexivity. }
    rewrite E. apply argmax_lemma. destruct (fr_grid _ _ _ _ _ _ _ V) as [Hg _]. destruct grid; [congruence|discriminate]. }
  destruct (mapM_runs _ _ (fun c => nanargmax (map (fun v : nat -> option stats => option_map st_mean (v c)) mg)) (seq 0 n_rf)) as (idx & Hi).
  { intros c Hc. apply in_seq in Hc. destruct (Each c ltac:(lia)) as (i & Hi & _). eauto. }
  exists idx. split; [exact Hi|]. pose proof (mapM_length _ _ _ _ _ Hi) as Li. rewrite seq_length in Li. split; [exact Li|].
  intros c Hc. pose proof (proj2 (mapM_each _ _ _ _ _ Hi) c 0%nat 0%nat ltac:(rewrite seq_length; exact Hc)) as E.
  rewrite seq_nth in E by exact Hc. cbn [Nat.add] in E. destruct (Each c Hc) as (i & Hn & B). 
  assert (Ei : i = nth c idx 0%nat) by congruence. rewrite <- Ei. exact B.
Qed.

Lemma summary_resolved : forall nd' br inc gs' ts' ag at' q lv bs np bl b,
  summary_metrics f nd' br inc gs' ts' ag at' q (resolve_use_kpi (f_x f) b) lv bs np bl
  = summary_metrics f nd' br inc gs' ts' ag at' q b lv bs np bl.
Proof. intros. unfold summary_metrics. rewrite resolve_idem by exact (fr_model _ _ _ _ _ _ _ V). reflexivity. Qed.

Lemma metrics_lemma : forall q br, (forall c, (c < n_rf)%nat -> 0 < q c) ->
  exists s, summary_metrics f (at_optimal f nd q) br default_increase gs ts true true None (resolve_use_kpi x uk)
              default_level default_batch false None = Ok s /\
    summary_table f (plain_new q) br default_increase gs ts true true uk default_level s.
Proof.
  intros q br Hq. pose proof V as V'. destruct V' as [Wm Tr Dr Ne Nrf Im Sh Nn Md Rv Or Hh Sp Nm Hg Ht Gn Ds Lv Gr Nz].
  assert (R : summary_request f (plain_new q) gs ts default_level default_batch).
  { constructor; auto.
    - reflexivity.
    - exact (plain_ok q).
    - exact (plain_nonneg q Hq).
    - exact (plain_spend q).
    - unfold default_level; lra. }
  unfold x. rewrite summary_resolved, at_optimal_lemma. unfold x. rewrite summary_revenue by reflexivity.
  destruct (table_lemma f (plain_new q) br default_increase gs ts true true uk default_level default_batch None R) as (s & Hs & T & _).
  { unfold default_increase. lra. } { exact Logic.I. }
  exists s. split; [exact Hs|exact T].
Qed.

Lemma rf_seen_same : forall q c, (c < n_rf)%nat -> q c <> 0 ->
  row_impressions f (plain_new q) gs ts true true (Some (ChRf c)) 0 0 = rf_seen f imp gs ts c.
Proof.
  intros q c Hc Hq. unfold row_impressions, in_row, channel_impressions, rf_seen, cell_geos, cell_times. cbn [members].
  apply total_ext'. intros g. apply total_ext'. intros t. unfold impressions_at, given, plain_new, plain_data, rf_at.
  cbn [nt_data d_reach d_frequency val]. field. exact Hq.
Qed.

Lemma select_runs : forall (v : option (bool -> variable)) w, v = Some w -> forall c, select_rf m v post c = w post [(m + c)%nat].
Proof. intros v w -> c. reflexivity. Qed.

Lemma optimal_lemma : forall max_frequency freq_grid, uses_grid max_frequency freq_grid ->
  exists o, optimal_freq f nd max_frequency freq_grid post uk gs ts level = Ok o /\
    optimal_frequencies f nd imp grid post uk gs ts level o.
Proof.
  intros mf fg Hg. unfold optimal_freq. cbv zeta. fold x. fold n_rf. fold m.
  pose proof (fr_rf _ _ _ _ _ _ _ V) as Nrf. fold x in Nrf. fold n_rf in Nrf.
  replace (Nat.eqb n_rf 0) with false by (symmetry; apply Nat.eqb_neq; lia). cbn [raise_if].
  match goal with |- context [mapM _ ?G] => assert (EG : G = grid) end.
  { destruct Hg as [-> |[-> (y & Ey & ->)]]; [reflexivity|]. fold x in Ey. rewrite Ey. destruct mf; reflexivity. }
  rewrite !EG. clear EG.
  destruct grid_lemma as (mg & Hm & Lm & Cm).
  match goal with |- context [mapM ?F grid] => change F with roi_at end.
  rewrite Hm. cbn [rbind]. destruct (search_lemma mg Lm Cm) as (idx & -> & Li & Bi). cbn [rbind].
  set (best := map (fun i => nth i grid 0) idx).
  assert (Nb : forall c, (c < n_rf)%nat -> nth c best 0 = nth (nth c idx 0%nat) grid 0).
  { intros c Hc. unfold best. rewrite (nth_indep _ 0 (nth 0%nat grid 0)) by (rewrite map_length; lia).
    apply (map_nth (fun i => nth i grid 0)). }
  assert (Hi : forall c, (c < n_rf)%nat -> (nth c idx 0%nat < length grid)%nat).
  { intros c Hc. destruct (Bi c Hc) as (B & _). rewrite map_length in B. exact B. }
  assert (Pq : forall c, (c < n_rf)%nat -> 0 < nth c best 0).
  { intros c Hc. rewrite (Nb c Hc). destruct (fr_grid _ _ _ _ _ _ _ V) as [_ Gp]. rewrite Forall_forall in Gp.
    apply Gp. apply nth_In. exact (Hi c Hc). }
  destruct (metrics_lemma (fun c => nth c best 0) true Pq) as (s1 & -> & T1). cbn [rbind].
  destruct (metrics_lemma (fun c => nth c best 0) false Pq) as (s2 & -> & T2). cbn [rbind].
  eexists. split; [reflexivity|].
  assert (IT : forall c, (c < n_rf)%nat -> in_table f gs ts true true (Some (ChRf c)) 0 0).
  { intros c Hc. split; [exact Hc|]. split; discriminate. }
  assert (AC : forall c, at_cell f true true (Some (ChRf c)) 0 0 = [(m + c)%nat]) by reflexivity.
  assert (RG : forall uk' br f0 f1 c w, row_gain f (plain_new (fun k => nth k best 0)) gs ts true true uk' br f0 f1 w (Some (ChRf c)) 0 0
             = rf_gain f imp gs ts (fun k => nth k best 0) uk' br f0 f1 c w).
  { intros. exact (rf_gain_same (fun k => nth k best 0) None uk' br f0 f1 c w (or_introl eq_refl)). }
  assert (RS : forall c, row_spend f (plain_new (fun k => nth k best 0)) gs ts true true (Some (ChRf c)) 0 0 = rf_cost f nd gs ts c).
  { intros. exact (rf_cost_same (fun k => nth k best 0) c). }
  assert (Nz : forall c, (c < n_rf)%nat -> rf_cost f nd gs ts c <> 0) by exact (fr_spent _ _ _ _ _ _ _ V).
  assert (RE : forall v l l', reports v default_level l -> l = l' -> reports v default_level l') by (intros; subst; assumption).
  constructor; cbn [of_grid of_roi of_frequency of_outcome of_effectiveness of_optimized_roi of_mroi_by_reach
    of_mroi_by_frequency of_cpik].
  - reflexivity.
  - split; [exact Lm|]. unfold best. rewrite map_length. exact Li.
  - exact Cm.
  - intros c Hc. exists (nth c idx 0%nat). split; [exact (Hi c Hc)|]. split; [exact (Nb c Hc)|].
    destruct (Bi c Hc) as (B1 & B2 & B3). rewrite map_length in B1, B2.
    assert (E : forall j, (j < length grid)%nat ->
      nth j (map (fun q => mean_roi f nd imp post uk gs ts q c) grid) 0 = mean_roi f nd imp post uk gs ts (nth j grid 0) c).
    { intros j Hj. rewrite (nth_indep _ 0 (mean_roi f nd imp post uk gs ts 0 c)) by (rewrite map_length; exact Hj).
      apply (map_nth (fun q => mean_roi f nd imp post uk gs ts q c)). }
    split.
    + intros j Hj. specialize (B2 j Hj). rewrite !E in B2 by (auto; lia). exact B2.
    + intros j Hj. specialize (B3 j Hj). rewrite !E in B3 by lia. exact B3.
  - intros c Hc. eapply RE; [exact (st_incremental _ _ _ _ _ _ _ _ _ _ _ T1 post _ _ _ (IT c Hc))|].
    apply map_ext. intros w. apply RG.
  - intros c Hc. destruct (st_roi _ _ _ _ _ _ _ _ _ _ _ T1 eq_refl) as (v & Ev & P). rewrite (select_runs _ _ Ev).
    eapply RE; [apply (P post _ _ _ (IT c Hc)); rewrite RS; exact (Nz c Hc)|].
    apply map_ext. intros w. rewrite RG, RS. unfold rf_roi. f_equal; try (apply rf_gain_local; reflexivity).
  - intros c Hc Hs. destruct (st_effectiveness _ _ _ _ _ _ _ _ _ _ _ T1 eq_refl) as (v & Ev & P). rewrite (select_runs _ _ Ev).
    destruct (P post _ _ _ (IT c Hc)) as [_ P1].
    assert (Q : nth c best 0 <> 0) by (specialize (Pq c Hc); lra).
    pose proof (rf_seen_same (fun k => nth k best 0) c Hc Q) as RI.
    eapply RE; [apply P1; [discriminate|rewrite RI; exact Hs]|].
    apply map_ext. intros w. rewrite RG, RI. reflexivity.
  - intros c Hc. destruct (st_mroi _ _ _ _ _ _ _ _ _ _ _ T1 eq_refl) as (v & Ev & P). rewrite (select_runs _ _ Ev).
    destruct (P post _ _ _ (IT c Hc)) as [_ P1].
    eapply RE; [apply P1; [discriminate|rewrite RS; exact (Nz c Hc)]|].
    apply map_ext. intros w. rewrite RG, RS. reflexivity.
  - intros c Hc. destruct (st_mroi _ _ _ _ _ _ _ _ _ _ _ T2 eq_refl) as (v & Ev & P). rewrite (select_runs _ _ Ev).
    destruct (P post _ _ _ (IT c Hc)) as [_ P1].
    eapply RE; [apply P1; [discriminate|rewrite RS; exact (Nz c Hc)]|].
    apply map_ext. intros w. rewrite RG, RS. reflexivity.
  - intros c Hc Hn. destruct (st_cpik _ _ _ _ _ _ _ _ _ _ _ T1 eq_refl) as (v & Ev & P). rewrite (select_runs _ _ Ev).
    eapply RE; [apply (P post _ _ _ (IT c Hc)); intros w Hw; rewrite RG; exact (Hn w Hw)|].
    apply map_ext. intros w. rewrite RG, RS. reflexivity.
Qed.
End Optimal.

(** ** Response curves at the optimal frequency *)
Section OptimalCurves.
Variables (f : fitted) (post flat : bool) (nd : new_tensors) (gs : option (list string)) (ts : option time_sel)
  (ms : list R) (level : R) (bs : Z) (br uk : bool) (imp : T3).
Let x := f_x f.
Let n_rf := n_chans (d_reach (x_data x)).
Definition curve_rf : rf_tensors :=
  mkRf (Some imp) (s_rf (spend_used f (nt_spend nd)))
    (orelse (d_revenue_per_kpi (nt_data nd)) (d_revenue_per_kpi (x_data (f_x f)))) no_data.
Definition curve_grid : list R :=
  match d_frequency (x_data (f_x f)) with Some y => default_grid (max3 y) | None => [] end.
Hypothesis V : curve_request f post flat nd gs ts ms level bs.
Hypothesis I : impressions_curve x (nt_data nd) imp.
Hypothesis F : frequency_request f curve_rf imp curve_grid gs ts default_level.

Lemma T3_ext : forall a b : T3, geos a = geos b -> times a = times b -> chans a = chans b ->
  (forall g t c, val a g t c = val b g t c) -> a = b.
Proof.
  intros [g1 t1 k1 v1] [g2 t2 k2 v2] E1 E2 E3 E4. cbn in *. subst. f_equal.
  apply functional_extensionality. intros g. apply functional_extensionality. intros t.
  apply functional_extensionality. intros c. apply E4.
Qed.

Lemma curve_product : exists r q,
  d_reach (fill_missing x (nt_data nd) false false) = Some r /\
  d_frequency (fill_missing x (nt_data nd) false false) = Some q /\
  geos q = geos imp /\ times q = times imp /\ chans q = chans imp /\
  product (Some r) (Some q) = Some imp.
Proof.
  destruct I as (r & q & Er & Eq & G & T & C & E). exists r, q.
  split; [exact Er|]. split; [exact Eq|].
  assert (S : geos q = geos r /\ times q = times r /\ chans q = chans r).
  { pose proof (vr_model _ _ _ _ _ _ _ _ _ V) as W. pose proof (vr_data _ _ _ _ _ _ _ _ _ V) as (_ & D1 & D2 & _).
    fold x in W. fold x in D1, D2.
    pose proof (wf_rf x W) as P. pose proof (wf_reach x W) as W1. pose proof (wf_freq x W) as W2.
    destruct (d_reach (nt_data nd)) as [r'|], (d_frequency (nt_data nd)) as [q'|],
      (d_reach (x_data x)) as [r0|], (d_frequency (x_data x)) as [q0|]; cbn in *; unfold same_shape in *; try contradiction;
      try discriminate; assert (r = _) by (symmetry; injection Er; auto); assert (q = _) by (symmetry; injection Eq; auto);
      subst; intuition congruence. }
  destruct S as (S1 & S2 & S3).
  split; [congruence|]. split; [congruence|]. split; [congruence|].
  unfold product. f_equal. apply T3_ext; cbn; auto.
Qed.

Lemma optimal_curves_lemma : exists o cv,
  response_curves f nd (Some ms) post gs ts br true uk level bs = Ok cv /\
  optimal_frequencies f curve_rf imp curve_grid true uk gs ts default_level o /\
  curves_of f (with_frequency (nt_data nd) imp (fun c => nth c (of_frequency o) 0)) (spend_used f (nt_spend nd))
    post gs ts br uk level ms cv.
Proof.
  destruct (optimal_lemma f curve_rf imp curve_grid true uk gs ts default_level F None None) as (o & Ho & O).
  { right. split; [reflexivity|]. unfold curve_grid. pose proof (fr_grid _ _ _ _ _ _ _ F) as [N _]. unfold curve_grid in N.
    fold x. fold x in N. destruct (d_frequency (x_data x)) as [y|]; [|congruence]. exists y. auto. }
  destruct curve_product as (r & q & Er & Eq & G & T & C & P).
  set (qs := fun c => nth c (of_frequency o) 0) in *.
  set (d' := with_frequency (nt_data nd) imp qs).
  assert (Qp : forall c, (c < n_rf)%nat -> 0 < qs c).
  { intros c Hc. destruct (oq_best _ _ _ _ _ _ _ _ _ _ O c Hc) as (i & Hi & Eb & _). unfold qs. rewrite Eb.
    destruct (fr_grid _ _ _ _ _ _ _ F) as [_ Gp]. rewrite Forall_forall in Gp. apply Gp. apply nth_In. exact Hi. }
  assert (Dok : paid_data_ok x d').
  { pose proof (vr_data _ _ _ _ _ _ _ _ _ V) as D. fold x in D. pose proof (fr_shape _ _ _ _ _ _ _ F) as S. fold x in S.
    pose proof (vr_model _ _ _ _ _ _ _ _ _ V) as W. fold x in W.
    pose proof (wf_rf x W) as Prf. pose proof (wf_reach x W) as Wr. pose proof (wf_freq x W) as Wf.
    destruct (d_reach (x_data x)) as [r0|] eqn:E0; [|cbn in S; contradiction].
    destruct (d_frequency (x_data x)) as [q0|] eqn:E1; cbn in Prf, Wr, Wf; [|contradiction].
    unfold paid_data_ok in *. rewrite E0, E1 in *. unfold d', with_frequency, rf_at.
    cbn [d_media d_reach d_frequency d_organic_media d_organic_reach d_organic_frequency
      d_non_media d_controls d_revenue_per_kpi]. destruct D as (D1 & _ & _ & D2 & _).
    refine (conj D1 (conj _ (conj _ (conj D2 _)))); [exact S| |tauto].
    cbn in S |- *. unfold same_shape in *. cbn in *. intuition congruence. }
  assert (Dn : paid_nonneg x d').
  { pose proof (vr_nonneg _ _ _ _ _ _ _ _ _ V) as (N1 & _ & _).
    pose proof (fr_nonneg _ _ _ _ _ _ _ F) as N. unfold nonneg in N.
    pose proof (fr_shape _ _ _ _ _ _ _ F) as S. cbn in S. fold x in S.
    assert (K : chans imp = n_rf).
    { unfold n_rf. destruct (d_reach (x_data x)); [|contradiction]. destruct S as (_ & _ & ->). reflexivity. }
    refine (conj N1 (conj _ _)); unfold given, d', with_frequency, rf_at, nonneg; cbn [d_reach d_frequency val geos times chans].
    - intros g t c Ht Hc. pose proof (N g t c Ht Hc) as Hn. rewrite K in Hc. specialize (Qp c Hc).
      apply Rmult_le_pos; [exact Hn|]. left. apply Rinv_0_lt_compat. exact Qp.
    - intros g t c Ht Hc. rewrite K in Hc. specialize (Qp c Hc). lra. }
  destruct (spend_axis_lemma f post flat nd gs ts ms level bs V (fill_missing x (nt_data nd) false false)) as (u & Hu & Vu).
  { apply filled_paid. apply (vr_data _ _ _ _ _ _ _ _ _ V). }
  destruct (curves_lemma f post flat nd gs ts ms level bs br uk V d' u Dok Dn Vu) as (out & Hout & Cv).
  exists o. eexists. split; [|split; [exact O|exact Cv]].
  unfold response_curves. cbv zeta. fold x.
  pose proof (fr_rf _ _ _ _ _ _ _ F) as Nrf.
  replace (Nat.eqb (n_chans (d_reach (x_data x))) 0) with false by (symmetry; apply Nat.eqb_neq; fold x in Nrf; lia).
  cbn [negb andb]. rewrite Er, Eq, P.
  match goal with |- rbind (rbind ?A _) _ = _ => replace A with (Ok o : result optimal) by (symmetry; exact Ho) end.
  cbn [rbind fst snd option_map].
  match goal with |- rbind (mapM ?F ms) _ = _ =>
    replace F with (curve_at f post gs ts level bs br uk (paid_fields (fill_missing x d' false false))) end.
  2:{ unfold curve_at. apply functional_extensionality. intros m0. unfold paid_fields, fill_missing.
      unfold d', with_frequency, rf_at. cbn [d_media d_reach d_frequency d_organic_media d_organic_reach d_organic_frequency
      d_non_media d_controls d_revenue_per_kpi orelse]. rewrite G, T, C. reflexivity. }
  fold x in Hout. rewrite Hout. cbn [rbind].
  unfold spend_axis in Hu. inv_rbind Hu st Hst. rewrite Hst. cbn [rbind].
  match goal with |- rbind ?A _ = _ => replace A with (Ok u : result (nat -> R)) by (symmetry; exact Hu) end.
  reflexivity.
Qed.
End OptimalCurves.
