(** Proofs for C85. *)
From Coq Require Import Reals ZArith Lia Lra String List Bool Arith Permutation Sorted.
From Verif Require Import Lib_Sum M_Base M_AdstockHill M_Equations M_Transformers M_Aggregate
  S_Aggregate S_Adstock S_Media S_Analyzer M_Analyzer S_Predictor P_Aggregate P_Analyzer P_AnalyzerIO
  P_Predictor S_Paid P_Paid P_PaidMono M_Stats S_Stats P_Stats M_Summary S_Roi P_Roi S_Summary P_Summary
  M_Report S_Report.
From Verif Require M_Budget P_Budget P_BudgetRF.
Import ListNotations.
Local Open Scope R_scope.

(** ** The data bought *)
Lemma no_nan_scale : forall s h v, (h <> 0 -> M_Budget.divide_no_nan s h * v * h = s * v) /\
  (h = 0 -> M_Budget.divide_no_nan s h * v = 0).
Proof.
  intros s h v. unfold M_Budget.divide_no_nan. destruct (Req_EM_T h 0) as [E|E]; split; intros H; try contradiction.
  - ring.
  - field. exact E.
Qed.

Lemma no_nan_nonneg : forall s h, 0 <= s -> 0 <= h -> 0 <= M_Budget.divide_no_nan s h.
Proof.
  intros s h S H. unfold M_Budget.divide_no_nan. destruct (Req_EM_T h 0) as [E|E]; [lra|].
  apply Rmult_le_pos; [exact S|]. left. apply Rinv_0_lt_compat. lra.
Qed.

Lemma media_bought : forall spend hist y, bought spend hist y (M_Budget.scaled_media spend hist y).
Proof.
  intros spend hist y. split; [repeat split|]. intros g t c. cbn [M_Budget.scaled_media val]. apply no_nan_scale.
Qed.

Lemma rf_bought : forall spend hist opt r q, match opt with Some o => forall c, 0 < o c | None => True end ->
  same_shape q r ->
  bought_rf spend hist opt r q (fst (M_Budget.dataset_rf spend hist opt r q)) (snd (M_Budget.dataset_rf spend hist opt r q)).
Proof.
  intros spend hist opt r q O Sh.
  split; [repeat split|]. split; [repeat split|]. intros g t c.
  assert (Oc : match opt with Some o => o c <> 0 | None => True end).
  { destruct opt as [o|]; [|exact Logic.I]. pose proof (O c). lra. }
  rewrite (P_BudgetRF.dataset_impressions_lemma spend hist opt r q g t c Oc).
  destruct (no_nan_scale (spend c) (hist c) (val r g t c * val q g t c)) as [A B].
  split; [exact A|]. unfold M_Budget.dataset_rf; cbn [fst snd val].
  set (i := M_Budget.divide_no_nan (spend c) (hist c) * (val r g t c * val q g t c)) in *.
  set (fr := match opt with Some o => o c | None => val q g t c end).
  clearbody i. unfold M_Budget.divide_no_nan. split.
  - intros H. destruct (Req_EM_T fr 0); [reflexivity|]. rewrite (B H). unfold Rdiv. ring.
  - destruct (Req_EM_T fr 0) as [E|E]; intros H; [exfalso; apply H; reflexivity|].
    destruct (Req_EM_T (i / fr) 0) as [E'|E']; [contradiction|]. field. split; [exact E|].
    intros Z. apply E'. rewrite Z. unfold Rdiv. ring.
Qed.

Section Data.
Variables (f : fitted) (hist spend : nat -> R) (nd : data) (post : bool) (gs : option (list string))
  (ts : option time_sel) (opt : option (nat -> R)) (level : R) (bs : Z).
Hypothesis V : report_request f hist spend nd post gs ts opt level bs.
Let x := f_x f.
Let d := report_data x hist spend nd opt.

Lemma data_lemma : paid_data_ok x d /\ paid_nonneg x d /\ data_bought x hist spend nd opt d.
Proof.
  destruct V as [Wm Tr Dr Ne Ba Da Pn Ch Sp Hi Fr Hg Ht Lv]. fold x in Wm, Tr, Da, Pn, Ch.
  pose proof (paid_dims x nd Da) as (L1 & L2 & L3).
  pose proof (paid_well_formed x nd Wm Da) as W'.
  pose proof (wf_rf _ W') as Pr. cbn [paid_model x_data d_media d_reach d_frequency] in Pr.
  pose proof (wf_reach _ W') as Dr'. pose proof (wf_freq _ W') as Df'. cbn [paid_model x_data d_media d_reach d_frequency] in Dr', Df'.
  destruct Pn as (P1 & P2 & P3). destruct Da as (D1 & D2 & D3 & D4 & _).
  assert (Gm : d_media d = if (0 <? n_chans (d_media (x_data x)))%nat then option_map (M_Budget.scaled_media spend hist) (given d_media nd x) else None).
  { unfold d, report_data. cbn [d_media fill_missing]. rewrite orelse_given. reflexivity. }
  set (rf := if (0 <? n_chans (d_reach (x_data x)))%nat then
              match given d_reach nd x, given d_frequency nd x with
              | Some r, Some q =>
                  Some (M_Budget.dataset_rf (fun c => spend (n_chans (d_media (x_data x)) + c)%nat) (fun c => hist (n_chans (d_media (x_data x)) + c)%nat) opt r q)
              | _, _ => None
              end
            else None).
  assert (Gr : d_reach d = option_map fst rf).
  { unfold d, report_data. cbn [d_reach d_frequency fill_missing]. rewrite !orelse_given. reflexivity. }
  assert (Gq : d_frequency d = option_map snd rf).
  { unfold d, report_data. cbn [d_reach d_frequency fill_missing]. rewrite !orelse_given. reflexivity. }
  assert (Gv : d_revenue_per_kpi d = orelse (d_revenue_per_kpi nd) (d_revenue_per_kpi (x_data x))) by reflexivity.
  assert (Gn : d_organic_media d = None /\ d_organic_reach d = None /\ d_organic_frequency d = None /\ d_non_media d = None /\ d_controls d = None)
    by (repeat split; reflexivity).
  unfold paid_data_ok, paid_nonneg, data_bought. cbv zeta.
  change (given d_media d x) with (match d_media d with Some y => Some y | None => d_media (x_data x) end).
  change (given d_reach d x) with (match d_reach d with Some y => Some y | None => d_reach (x_data x) end).
  change (given d_frequency d x) with (match d_frequency d with Some y => Some y | None => d_frequency (x_data x) end).
  rewrite Gm, Gr, Gq, Gv. unfold rf. clear Gm Gr Gq Gv rf.
  set (M := given d_media nd x) in *. set (Rr := given d_reach nd x) in *. set (Q := given d_frequency nd x) in *.
  assert (EM : match M with
    | Some y => exists y0, d_media (x_data x) = Some y0 /\ same_shape y y0 /\ (0 <? n_chans (d_media (x_data x)))%nat = true
    | None => d_media (x_data x) = None end).
  { destruct M as [y|] eqn:E, (d_media (x_data x)) as [y0|]; cbn in L1; try contradiction; [|reflexivity].
    exists y0. split; [reflexivity|]. split; [exact L1|]. apply Nat.ltb_lt. cbn [n_chans].
    destruct L1 as (_ & _ & <-). apply Ch. left. reflexivity. }
  assert (ER : match Rr, Q with
    | Some r, Some q => exists r0 q0, d_reach (x_data x) = Some r0 /\ d_frequency (x_data x) = Some q0 /\
        same_shape r r0 /\ same_shape q q0 /\ same_shape q r /\ (0 <? n_chans (d_reach (x_data x)))%nat = true
    | None, None => d_reach (x_data x) = None /\ d_frequency (x_data x) = None
    | _, _ => False end).
  { destruct Rr as [r|] eqn:E1, Q as [q|] eqn:E2; cbn in Pr; try contradiction.
    - destruct (d_reach (x_data x)) as [r0|]; cbn in L2; [|contradiction].
      destruct (d_frequency (x_data x)) as [q0|]; cbn in L3; [|contradiction].
      exists r0, q0. split; [reflexivity|]. split; [reflexivity|]. split; [exact L2|]. split; [exact L3|]. split.
      + cbn in Dr', Df'. destruct Dr' as [A1 A2], Df' as [B1 B2]. split; [congruence|]. split; congruence.
      + apply Nat.ltb_lt. cbn [n_chans]. destruct L2 as (_ & _ & <-). apply Ch. right. reflexivity.
    - destruct (d_reach (x_data x)); cbn in L2; [contradiction|]. destruct (d_frequency (x_data x)); cbn in L3; [contradiction|].
      split; reflexivity. }
  assert (FR : fits2 (orelse (d_revenue_per_kpi nd) (d_revenue_per_kpi (x_data x))) (d_revenue_per_kpi (x_data x))).
  { destruct (d_revenue_per_kpi nd), (d_revenue_per_kpi (x_data x)); cbn in *; tauto. }
  assert (RR : orelse (d_revenue_per_kpi nd) (d_revenue_per_kpi (x_data x)) =
    match d_revenue_per_kpi nd with Some r => Some r | None => d_revenue_per_kpi (x_data x) end).
  { destruct (d_revenue_per_kpi nd); reflexivity. }
  assert (MR : forall spend' hist' y, (forall c, 0 <= spend' c) -> (forall c, 0 <= hist' c) -> nonneg (Some y) ->
    nonneg (Some (M_Budget.scaled_media spend' hist' y))).
  { intros s h y S H N g t c T C. cbn [M_Budget.scaled_media val times chans] in *. apply Rmult_le_pos; [|exact (N g t c T C)].
    apply no_nan_nonneg; auto. }
  assert (RN : forall r q, nonneg (Some r) -> nonneg (Some q) -> same_shape q r ->
    let p := M_Budget.dataset_rf (fun c => spend (n_chans (d_media (x_data x)) + c)%nat) (fun c => hist (n_chans (d_media (x_data x)) + c)%nat) opt r q in
    nonneg (Some (fst p)) /\ nonneg (Some (snd p))).
  { intros r q N1 N2 (S1 & S2 & S3) p. split; intros g t c T C.
    - unfold p, M_Budget.dataset_rf in *. cbn [fst val times chans] in *. apply no_nan_nonneg.
      + apply Rmult_le_pos; [apply no_nan_nonneg; auto|].
        apply Rmult_le_pos; [exact (N1 g t c T C) | apply (N2 g t c); congruence].
      + destruct opt as [o|]; [left; apply Fr | apply (N2 g t c); congruence].
    - unfold p in *. cbn [M_Budget.dataset_rf snd times chans] in T, C.
      apply P_BudgetRF.rf_freq_nonneg; [intros o ->; left; apply Fr | apply (N2 g t c); congruence]. }
  rewrite RR in *.
  destruct M as [y|].
  - destruct EM as (y0 & E0 & Sy & Em). rewrite Em. cbn [option_map].
    destruct Rr as [r|], Q as [q|]; try contradiction.
    + destruct ER as (r0 & q0 & Er0 & Eq0 & Sr & Sq & Sqr & Ern). rewrite Ern. cbn [option_map].
      rewrite E0, Er0, Eq0 in *. destruct (RN r q P2 P3 Sqr) as [N1 N2].
      split; [|split; [split; [apply MR; assumption | split; assumption] |
        split; [apply media_bought | split; [apply rf_bought; assumption | reflexivity]]]].
      split; [exact Sy|]. split; [exact Sr|]. split; [|split; [exact FR|exact Gn]].
      cbn [fits]. destruct Sr as (A1 & A2 & A3), Sq as (B1 & B2 & B3), Sqr as (C1 & C2 & C3).
      split; [cbn; congruence|]. split; cbn; congruence.
    + destruct ER as [Er Eq]. rewrite E0, Er, Eq in *. cbn [n_chans]. replace (0 <? 0)%nat with false by reflexivity. cbn [option_map].
      split; [|split; [split; [apply MR; assumption | split; exact Logic.I] |
        split; [apply media_bought | split; [exact Logic.I | reflexivity]]]].
      split; [exact Sy|]. split; [exact Logic.I|]. split; [exact Logic.I|]. split; [exact FR|exact Gn].
  - rewrite EM in *. cbn [n_chans] in *. replace (0 <? 0)%nat with false by reflexivity.
    destruct Rr as [r|], Q as [q|]; try contradiction.
    + destruct ER as (r0 & q0 & Er0 & Eq0 & Sr & Sq & Sqr & Ern). rewrite Ern. cbn [option_map].
      rewrite Er0, Eq0 in *. destruct (RN r q P2 P3 Sqr) as [N1 N2].
      split; [|split; [split; [exact Logic.I | split; assumption] |
        split; [exact Logic.I | split; [apply rf_bought; assumption | reflexivity]]]].
      split; [exact Logic.I|]. split; [exact Sr|]. split; [|split; [exact FR|exact Gn]].
      cbn [fits]. destruct Sr as (A1 & A2 & A3), Sq as (B1 & B2 & B3), Sqr as (C1 & C2 & C3).
      split; [cbn; congruence|]. split; cbn; congruence.
    + exfalso. destruct (wf_paid x Wm) as [H|H]; [exact (H EM) | exact (H (proj1 ER))].
Qed.
End Data.

(** ** The outcome *)
Lemma in_row_zero : forall x, in_row x None (fun _ => 0) = 0.
Proof. intros x. cbn [in_row]. rewrite !rsum_zero by reflexivity. ring. Qed.

Lemma in_row_plus : forall x F G, in_row x None (fun ch => F ch + G ch) = in_row x None F + in_row x None G.
Proof. intros x F G. cbn [in_row]. rewrite !rsum_plus. ring. Qed.

Lemma in_row_scal : forall x k F, in_row x None (fun ch => k * F ch) = k * in_row x None F.
Proof. intros x k F. cbn [in_row]. rewrite !rsum_scal. ring. Qed.

Lemma in_row_lsum : forall x (F : draw -> channel -> R) draws,
  in_row x None (fun ch => lsum (map (fun w => F w ch) draws)) = lsum (map (fun w => in_row x None (F w)) draws).
Proof.
  intros x F. induction draws as [|w draws IH]; cbn [map lsum].
  - apply in_row_zero.
  - rewrite in_row_plus, IH. reflexivity.
Qed.

Section Outcome.
Variables (f : fitted) (hist spend : nat -> R) (nd : data) (post uk : bool) (gs : option (list string))
  (ts : option time_sel) (opt : option (nat -> R)) (level : R) (bs : Z).
Hypothesis V : report_request f hist spend nd post gs ts opt level bs.
Let x := f_x f.
Let d := report_data x hist spend nd opt.
Let draws := f_draws f post.

Lemma outcome_lemma : forall f0 f1, 0 <= f0 < f1 ->
  exists I, incremental_outcome x d (mkOptions f0 f1 gs ts None true true true uk true false None) bs draws = Ok I /\
    length I = length draws /\
    forall ch, is_paid x ch -> cell_draws I [channel_index x ch]
      = map (fun w => outcome_change x d w ch uk true f0 f1 (chosen_geos x gs) (chosen_times x ts)) draws.
Proof.
  intros f0 f1 F. destruct (data_lemma _ _ _ _ _ _ _ _ _ _ V) as (Dd & Nn & _).
  destruct V as [Wm Tr Dr Ne Ba Da Pn Ch Sp Hi Fr Hg Ht Lv].
  destruct (paid_documented x d (mkOptions f0 f1 gs ts None true true true uk true false None) bs draws Wm Dd) as (I & HI & L & C); auto.
  { constructor; cbn; auto; try discriminate. }
  exists I. split; [exact HI|]. split; [exact L|]. intros ch Hc. unfold cell_draws.
  destruct draws as [|w0 ds] eqn:E; [exfalso; apply Ne; exact E|]. rewrite <- E in *.
  apply (map_pointwise _ _ _ _ I draws (mkTensor [] (fun _ => 0)) w0 L). intros k Hk.
  destruct (C k w0 (mkTensor [] (fun _ => 0)) Hk) as [_ Vl].
  specialize (Vl ch 0%nat 0%nat Hc ltac:(discriminate) ltac:(discriminate)).
  exact Vl.
Qed.

Lemma report_lemma : exists r, create_budget_dataset f hist spend nd post uk gs ts opt level bs = Ok r /\
  data_bought x hist spend nd opt d /\ report_ok f spend d post uk gs ts level r /\
  rp_is_revenue r = (x_kpi_is_revenue x || negb uk)%bool.
Proof.
  destruct (outcome_lemma 0 1 ltac:(lra)) as (I & HI & L & C).
  destruct (outcome_lemma 1 (1 + 1 / 100) ltac:(lra)) as (J & HJ & LJ & CJ).
  change (forall ch, is_paid x ch -> cell_draws I [channel_index x ch] = map (fun w => gain f d uk gs ts w ch) draws) in C.
  change (forall ch, is_paid x ch -> cell_draws J [channel_index x ch] = map (fun w => extra f d uk gs ts w ch) draws) in CJ.
  destruct (data_lemma _ _ _ _ _ _ _ _ _ _ V) as (Dd & Nn & Bd).
  pose proof (rq_level _ _ _ _ _ _ _ _ _ _ V) as Lv. pose proof (rq_some _ _ _ _ _ _ _ _ _ _ V) as Ne.
  pose proof (rq_model _ _ _ _ _ _ _ _ _ _ V) as Wm. pose proof (rq_geos _ _ _ _ _ _ _ _ _ _ V) as Hg.
  pose proof (rq_spend _ _ _ _ _ _ _ _ _ _ V) as Sp. pose proof (rq_times _ _ _ _ _ _ _ _ _ _ V) as Ht. pose proof (rq_frequency _ _ _ _ _ _ _ _ _ _ V) as Fr.
  fold x in Dd, Nn, Bd, Wm, Hg, Ht. fold d in Dd, Nn, Bd. fold draws in Ne.
  set (d' := mkData (d_media d) (d_reach d) (d_frequency d) None None None None None None).
  assert (Dd' : paid_data_ok x d').
  { destruct Dd as (A & B & E & F & G). unfold d'. split; [exact A|]. split; [exact B|]. split; [exact E|].
    split; [exact Logic.I|]. cbn. tauto. }
  destruct (impressions_lemma x d' gs ts true true Wm Dd' Hg Ht opt) as (P & HP & SP & CP).
  { unfold frequency_ok. destruct opt; [|exact Logic.I]. intros c. apply Rgt_not_eq. apply Fr. }
  unfold create_budget_dataset. cbv zeta. fold x. fold (n_paid x). fold d. fold draws.
  rewrite HI. cbn [rbind]. rewrite HJ. cbn [rbind].
  destruct (summarise_runs level (fun idx => Some (cell_draws I idx)) Lv) as (v1 & E1 & A1 & _). rewrite E1. cbn [rbind].
  fold d'. rewrite HP. cbn [rbind].
  destruct (summarise_runs level (over_fixed I (at_ P)) Lv) as (v2 & E2 & A2 & _). rewrite E2. cbn [rbind].
  destruct (summarise_runs level (over_fixed I (fun idx => spend (hd 0%nat idx))) Lv) as (v3 & E3 & A3 & N3). rewrite E3. cbn [rbind].
  destruct (summarise_runs level (over_fixed J (fun idx => spend (hd 0%nat idx) * (1 / 100))) Lv) as (v4 & E4 & A4 & N4).
  rewrite E4. cbn [rbind].
  destruct (summarise_runs level (fixed_over (fun idx => spend (hd 0%nat idx)) I) Lv) as (v5 & E5 & A5 & _). rewrite E5. cbn [rbind].
  assert (M0 : forall (F : draw -> R), map F draws <> []).
  { intros F E. destruct draws; [contradiction|discriminate]. }
  assert (Len : INR (length draws) <> 0).
  { apply not_0_INR. intros E. apply Ne. destruct draws; [reflexivity|discriminate]. }
  assert (Bu : rsum (n_paid x) spend = all_spent f spend).
  { apply (row_sum x spend (spent f spend)). intros ch Hc. reflexivity. }
  assert (Inc : forall ch, is_paid x ch -> reports (v1 [channel_index x ch]) level (map (fun w => gain f d uk gs ts w ch) draws)).
  { intros ch Hc. rewrite <- (C ch Hc). apply A1; [reflexivity|]. rewrite (C ch Hc). apply M0. }
  assert (Tot : map (fun a => rsum (n_paid x) (fun c => at_ a [c])) I
    = map (all_gain f d uk gs ts) draws).
  { destruct draws as [|w0 ds] eqn:Ed; [contradiction|]. rewrite <- Ed in *.
    apply (map_pointwise _ _ _ _ I draws (mkTensor [] (fun _ => 0)) w0 L). intros k Hk.
    apply (row_sum x (fun c => at_ (nth k I (mkTensor [] (fun _ => 0))) [c])). intros ch Hc.
    pose proof (f_equal (fun l => nth k l 0) (C ch Hc)) as Q. cbv beta in Q. unfold cell_draws in Q.
    rewrite (nth_indep _ 0 (at_ (mkTensor [] (fun _ => 0)) [channel_index x ch])) in Q by (rewrite map_length, L; exact Hk).
    rewrite (map_nth (fun a => at_ a [channel_index x ch])) in Q. rewrite Q.
    rewrite (nth_indep _ 0 (gain f d uk gs ts w0 ch))
      by (rewrite map_length; exact Hk).
    rewrite (map_nth (fun w => gain f d uk gs ts w ch)). reflexivity. }
  assert (Tm : INR (length draws) * rsum (n_paid x)
      (fun c => match v1 [c] with Some s => st_mean s | None => 0 end) = lsum (map (all_gain f d uk gs ts) draws)).
  { rewrite (row_sum x (fun c => match v1 [c] with Some s => st_mean s | None => 0 end)
      (fun ch => / INR (length draws) * lsum (map (fun w => gain f d uk gs ts w ch) draws))).
    - rewrite in_row_scal, in_row_lsum. rewrite <- Rmult_assoc, Rinv_r by exact Len. rewrite Rmult_1_l. reflexivity.
    - intros ch Hc. destruct (Inc ch Hc) as (s & -> & S). destruct S as [Sm _]. rewrite map_length in Sm.
      rewrite <- Sm. field. exact Len. }
  eexists. split; [reflexivity|]. split; [exact Bd|]. split; [|reflexivity].
  constructor; cbn [rp_spend rp_pct_of_spend rp_incremental rp_effectiveness rp_roi rp_mroi rp_cpik rp_budget rp_profit
    rp_total_incremental rp_total_roi rp_total_cpik]; rewrite ?Bu; fold x; fold draws.
  - reflexivity.
  - intros ch Hc. destruct (Rlt_dec 0 (all_spent f spend)) as [H|H].
    + unfold spent. fold x. field. lra.
    + assert (Z0 : rsum (n_paid x) spend = 0).
      { rewrite Bu. pose proof (rsum_nonneg (n_paid x) spend (fun i _ => Sp i)) as N. rewrite Bu in N. lra. }
      unfold spent. fold x. rewrite <- Bu, Z0.
      rewrite (rsum_zero_nonneg (n_paid x) spend (fun i _ => Sp i) Z0 _ (paid_index x ch Hc)). ring.
  - exact Inc.
  - intros ch Hc Hi. specialize (CP ch 0%nat 0%nat Hc ltac:(discriminate) ltac:(discriminate)).
    cbn [position app] in CP.
    rewrite <- (map_map (fun w => gain f d uk gs ts w ch) (fun a => a / impressions f d gs ts ch)).
    apply A2.
    + rewrite <- (C ch Hc). apply over_fixed_some; [exact CP | exact Hi].
    + rewrite map_map. apply M0.
  - intros ch Hc Hs.
    rewrite <- (map_map (fun w => gain f d uk gs ts w ch) (fun a => a / spent f spend ch)).
    apply A3.
    + rewrite <- (C ch Hc). apply over_fixed_some; [reflexivity | exact Hs].
    + rewrite map_map. apply M0.
  - intros ch Hc Hs.
    rewrite <- (map_map (fun w => extra f d uk gs ts w ch) (fun a => a / (spent f spend ch / 100))).
    apply A4.
    + rewrite <- (CJ ch Hc). apply over_fixed_some; [cbn [hd]; unfold spent; fold x; field | lra].
    + rewrite map_map. apply M0.
  - intros ch Hc Hs.
    rewrite <- (map_map (fun w => gain f d uk gs ts w ch) (fun a => spent f spend ch / a)).
    apply A5.
    + rewrite <- (C ch Hc). apply fixed_over_some. rewrite (C ch Hc). intros v Hv. apply in_map_iff in Hv.
      destruct Hv as (w & <- & Hw). exact (Hs w Hw).
    + rewrite map_map. apply M0.
  - intros ch Hc Hs. split; [apply N3 | apply N4]; unfold over_fixed; cbn [hd]; unfold spent in Hs; fold x in Hs; rewrite Hs.
    + destruct (Req_EM_T 0 0); [reflexivity|congruence].
    + destruct (Req_EM_T (0 * (1 / 100)) 0) as [_|N]; [reflexivity|]. exfalso. apply N. ring.
  - reflexivity.
  - exact Tm.
  - reflexivity.
  - apply fdiv_quotient.
  - intros Hn. rewrite Tot. unfold total_cpik.
    replace (forallb nonzero (map (all_gain f d uk gs ts) draws)) with true.
    2:{ symmetry. apply forallb_forall. intros v Hv. apply in_map_iff in Hv. destruct Hv as (w & <- & Hw).
        unfold nonzero. destruct (Req_EM_T (all_gain f d uk gs ts w) 0) as [E|]; [exfalso; exact (Hn w Hw E)|reflexivity]. }
    eexists. split; [reflexivity|]. unfold mean. rewrite !map_length, map_map. field. exact Len.
Qed.
End Outcome.

(** ** Totals *)
Lemma lsum_plus : forall A (F G : A -> R) l, lsum (map (fun a => F a + G a) l) = lsum (map F l) + lsum (map G l).
Proof. intros A F G. induction l as [|a l IH]; cbn [map lsum]; [ring|]. rewrite IH. ring. Qed.

Lemma lsum_scal : forall A k (F : A -> R) l, lsum (map (fun a => k * F a) l) = k * lsum (map F l).
Proof. intros A k F. induction l as [|a l IH]; cbn [map lsum]; [ring|]. rewrite IH. ring. Qed.

Lemma lsum_const : forall A k (l : list A), lsum (map (fun _ => k) l) = INR (length l) * k.
Proof. intros A k. induction l as [|a l IH]; [cbn; ring|]. cbn [map lsum]. rewrite IH. change (length (a :: l)) with (S (length l)). rewrite S_INR. ring. Qed.

Lemma lsum_le : forall A (F G : A -> R) l, (forall a, In a l -> F a <= G a) -> lsum (map F l) <= lsum (map G l).
Proof.
  intros A F G. induction l as [|a l IH]; intros H; cbn [map lsum]; [lra|].
  pose proof (H a (or_introl eq_refl)). specialize (IH (fun b Hb => H b (or_intror Hb))). lra.
Qed.

Lemma lsum_lt : forall A (F G : A -> R) l a, (forall a, In a l -> F a <= G a) -> In a l -> F a < G a ->
  lsum (map F l) < lsum (map G l).
Proof.
  intros A F G. induction l as [|b l IH]; intros a H Ha L; [contradiction|]. cbn [map lsum].
  pose proof (H b (or_introl eq_refl)) as Hb. assert (T : forall c, In c l -> F c <= G c) by (intros c Hc; apply H; right; exact Hc).
  destruct Ha as [->|Ha]; [pose proof (lsum_le A F G l T); lra|].
  specialize (IH a T Ha L). lra.
Qed.

Lemma lsum_pos : forall A (F : A -> R) l, l <> [] -> (forall a, In a l -> 0 < F a) -> 0 < lsum (map F l).
Proof.
  intros A F [|a l] N H; [contradiction|]. cbn [map lsum]. pose proof (H a (or_introl eq_refl)) as Ha.
  assert (0 <= lsum (map F l)); [|lra].
  replace 0 with (lsum (map (fun _ : A => 0) l)) by (rewrite lsum_const; ring). apply lsum_le. intros b Hb. left. apply H. right. exact Hb.
Qed.

Lemma tangent : forall t m, 0 < t -> 0 < m -> / t = 2 / m - t / (m * m) + (t - m) * (t - m) / (t * (m * m)).
Proof. intros t m Ht Hm. field. lra. Qed.

Lemma tangent_le : forall t m, 0 < t -> 0 < m -> 2 / m - t / (m * m) <= / t.
Proof.
  intros t m Ht Hm. rewrite (tangent t m Ht Hm).
  assert (0 <= (t - m) * (t - m) / (t * (m * m))); [|lra].
  apply Rmult_le_pos; [apply Rle_0_sqr|]. left. apply Rinv_0_lt_compat. repeat apply Rmult_lt_0_compat; assumption.
Qed.

Lemma tangent_lt : forall t m, 0 < t -> 0 < m -> t <> m -> 2 / m - t / (m * m) < / t.
Proof.
  intros t m Ht Hm N. rewrite (tangent t m Ht Hm).
  assert (0 < (t - m) * (t - m) / (t * (m * m))); [|lra].
  apply Rmult_lt_0_compat; [apply Rlt_0_sqr; lra|]. apply Rinv_0_lt_compat. repeat apply Rmult_lt_0_compat; assumption.
Qed.

(** The mean of the reciprocals against the reciprocal of the mean. *)
Lemma reciprocals : forall A (F : A -> R) l, l <> [] -> (forall a, In a l -> 0 < F a) ->
  let n := INR (length l) in let S := lsum (map F l) in let T := lsum (map (fun a => / F a) l) in
  n * n <= S * T /\ (S * T = n * n <-> forall a b, In a l -> In b l -> F a = F b).
Proof.
  intros A F l N H n S T.
  assert (Hn : 0 < n). { apply lt_0_INR. destruct l; [contradiction|cbn; lia]. }
  assert (HS : 0 < S) by (apply lsum_pos; assumption).
  set (m := S / n). assert (Hm : 0 < m) by (apply Rmult_lt_0_compat; [exact HS|apply Rinv_0_lt_compat; exact Hn]).
  assert (L : lsum (map (fun a => 2 / m - F a / (m * m)) l) = n / m).
  { rewrite (map_ext _ (fun a => 2 / m + (- / (m * m)) * F a)) by (intros a; unfold Rdiv; ring).
    rewrite lsum_plus, lsum_scal, lsum_const. fold n. fold S. unfold m. field. lra. }
  assert (E : S * (n / m) = n * n) by (unfold m; field; lra).
  assert (Le : n / m <= T). { rewrite <- L. apply lsum_le. intros a Ha. apply tangent_le; auto. }
  split. { rewrite <- E. apply Rmult_le_compat_l; lra. }
  split.
  - intros Eq. assert (Same : forall a, In a l -> F a = m).
    { intros a Ha. destruct (Req_dec (F a) m) as [|Ne]; [assumption|]. exfalso.
      assert (Lt : n / m < T).
      { rewrite <- L. apply (lsum_lt A _ _ l a); [intros b Hb; apply tangent_le; auto|exact Ha|].
        apply tangent_lt; auto. }
      pose proof (Rmult_lt_compat_l S _ _ HS Lt). lra. }
    intros a b Ha Hb. rewrite (Same a Ha), (Same b Hb). reflexivity.
  - intros Eq. destruct l as [|a l]; [contradiction|].
    assert (Ha : F a <> 0). { pose proof (H a (or_introl eq_refl)). lra. }
    assert (ES : S = n * F a).
    { unfold S, n. rewrite <- lsum_const. f_equal. apply map_ext_in. intros b Hb. apply Eq; [exact Hb|left; reflexivity]. }
    assert (ET : T = n * / F a).
    { unfold T, n. rewrite <- lsum_const. f_equal. apply map_ext_in. intros b Hb. f_equal. apply Eq; [exact Hb|left; reflexivity]. }
    rewrite ES, ET. field. exact Ha.
Qed.

Section Totals.
Variables (f : fitted) (spend : nat -> R) (d : data) (post uk : bool) (gs : option (list string))
  (ts : option time_sel) (level : R) (r : report).
Hypotheses (Ok_ : report_ok f spend d post uk gs ts level r) (Ne : f_draws f post <> []).
Let x := f_x f.
Let draws := f_draws f post.

Lemma draws_nonzero : INR (length draws) <> 0.
Proof. apply not_0_INR. intros E. apply Ne. fold draws. destruct draws; [reflexivity|discriminate]. Qed.

Lemma mean_gain : forall ch, is_paid x ch ->
  INR (length draws) * mean_incremental r (channel_index x ch) = lsum (map (fun w => gain f d uk gs ts w ch) draws).
Proof.
  intros ch Hc. destruct (ro_incremental _ _ _ _ _ _ _ _ _ Ok_ ch Hc) as (s & E & (M & _)).
  unfold mean_incremental. fold x in E. rewrite E. rewrite map_length in M. exact M.
Qed.

Lemma total_is_sum : rp_total_incremental r = in_row x None (fun ch => mean_incremental r (channel_index x ch)).
Proof.
  apply (Rmult_eq_reg_l (INR (length draws))); [|exact draws_nonzero].
  etransitivity; [exact (ro_total _ _ _ _ _ _ _ _ _ Ok_)|]. rewrite <- in_row_scal.
  etransitivity; [symmetry; exact (in_row_lsum x (fun w ch => gain f d uk gs ts w ch) draws)|].
  apply in_row_ext; [|exact Logic.I]. intros ch Hc. symmetry. exact (mean_gain ch Hc).
Qed.

Lemma weighted_roi : (forall ch, is_paid x ch -> spent f spend ch <> 0) -> all_spent f spend <> 0 ->
  rp_total_roi r = Some (in_row x None (fun ch => rp_pct_of_spend r (channel_index x ch) *
    match rp_roi r (channel_index x ch) with Some s => st_mean s | None => 0 end)).
Proof.
  intros Hs Ha. destruct (ro_total_roi _ _ _ _ _ _ _ _ _ Ok_) as [_ Q]. destruct (Q Ha) as (v & E & M).
  rewrite E. f_equal. apply (Rmult_eq_reg_r (all_spent f spend)); [|exact Ha]. rewrite M, total_is_sum.
  rewrite Rmult_comm, <- in_row_scal. apply in_row_ext; [|exact Logic.I]. intros ch Hc.
  rewrite <- Rmult_assoc, (Rmult_comm (all_spent f spend)).
  pose proof (ro_pct _ _ _ _ _ _ _ _ _ Ok_ ch Hc) as P. fold x in P. rewrite P.
  destruct (ro_roi _ _ _ _ _ _ _ _ _ Ok_ ch Hc (Hs ch Hc)) as (s & Er & (Mr & _)). fold x in Er. rewrite Er.
  rewrite map_length in Mr. fold draws in Mr. apply (Rmult_eq_reg_l (INR (length draws))); [|exact draws_nonzero].
  rewrite (mean_gain ch Hc). rewrite <- Rmult_assoc, (Rmult_comm (INR _)), Rmult_assoc, Mr, <- lsum_scal.
  f_equal. apply map_ext_in. intros w _. field. exact (Hs ch Hc).
Qed.

Lemma cpik_vs_roi : (forall w, In w draws -> 0 < all_gain f d uk gs ts w) -> 0 < all_spent f spend ->
  exists v q, rp_total_cpik r = Some v /\ rp_total_roi r = Some q /\ 1 <= v * q /\
    (v * q = 1 <-> forall w w', In w draws -> In w' draws -> all_gain f d uk gs ts w = all_gain f d uk gs ts w').
Proof.
  intros Hg Ha. destruct (ro_total_roi _ _ _ _ _ _ _ _ _ Ok_) as [_ Q]. destruct (Q (Rgt_not_eq _ _ Ha)) as (q & E & M).
  destruct (ro_total_cpik _ _ _ _ _ _ _ _ _ Ok_) as (v & Ev & Mv).
  { intros w Hw. apply Rgt_not_eq. exact (Hg w Hw). }
  exists v, q. split; [exact Ev|]. split; [exact E|].
  pose proof (ro_total _ _ _ _ _ _ _ _ _ Ok_) as Tm. fold draws in Mv, Tm.
  rewrite (map_ext (fun w => all_spent f spend / all_gain f d uk gs ts w) (fun w => all_spent f spend * / all_gain f d uk gs ts w)) in Mv
    by (intros; reflexivity).
  rewrite lsum_scal in Mv. rewrite <- M in Tm.
  destruct (reciprocals _ (all_gain f d uk gs ts) draws Ne Hg) as [R1 R2]. cbv zeta in R1, R2.
  rewrite <- Tm in R1, R2. set (n := INR (length draws)) in *.
  assert (Hn : 0 < n * n). { pose proof draws_nonzero. apply Rlt_0_sqr. assumption. }
  set (T := lsum (map (fun a => / all_gain f d uk gs ts a) draws)) in *.
  assert (K : n * (q * all_spent f spend) * T = n * n * (v * q)).
  { transitivity (n * q * (all_spent f spend * T)); [ring|]. rewrite <- Mv. ring. }
  rewrite K in R1, R2. split.
  - apply (Rmult_le_reg_l (n * n) _ _ Hn). lra.
  - rewrite <- R2. split; intros H0; [rewrite H0; ring|]. apply (Rmult_eq_reg_l (n * n)); [lra|lra].
Qed.
End Totals.

(** ** Charts *)
Lemma insert_perm : forall le a l, Permutation (insert_row le a l) (a :: l).
Proof.
  intros le a. induction l as [|b l IH]; cbn [insert_row]; [reflexivity|].
  destruct (le (snd a) (snd b)); [reflexivity|]. rewrite IH. apply perm_swap.
Qed.

Lemma sort_perm : forall le l, Permutation (sort_rows le l) l.
Proof. intros le. induction l as [|a l IH]; cbn [sort_rows]; [reflexivity|]. rewrite insert_perm, IH. reflexivity. Qed.

Lemma insert_sorted : forall (le : R -> R -> bool) (LE : R -> R -> Prop),
  (forall a b, le a b = true -> LE a b) -> (forall a b, le a b = false -> LE b a) ->
  (forall a b c, LE a b -> LE b c -> LE a c) ->
  forall a l, StronglySorted (fun a b => LE (snd a) (snd b)) l -> StronglySorted (fun a b => LE (snd a) (snd b)) (insert_row le a l).
Proof.
  intros le LE T F Tr a. induction l as [|b l IH]; intros S; cbn [insert_row].
  - constructor; constructor.
  - inversion S as [|? ? S' A]; subst. destruct (le (snd a) (snd b)) eqn:E.
    + constructor; [exact S|]. constructor; [exact (T _ _ E)|].
      apply Forall_forall. intros c Hc. apply (Tr _ (snd b)); [exact (T _ _ E)|]. exact (proj1 (Forall_forall _ _) A c Hc).
    + constructor; [exact (IH S')|]. apply Forall_forall. intros c Hc.
      apply (Permutation_in _ (insert_perm le a l)) in Hc. destruct Hc as [<-|Hc]; [exact (F _ _ E)|].
      exact (proj1 (Forall_forall _ _) A c Hc).
Qed.

Lemma sort_sorted : forall (le : R -> R -> bool) (LE : R -> R -> Prop),
  (forall a b, le a b = true -> LE a b) -> (forall a b, le a b = false -> LE b a) ->
  (forall a b c, LE a b -> LE b c -> LE a c) ->
  forall l, StronglySorted (fun a b => LE (snd a) (snd b)) (sort_rows le l).
Proof.
  intros le LE T F Tr. induction l as [|a l IH]; cbn [sort_rows]; [constructor|].
  apply insert_sorted; assumption.
Qed.

Lemma filter_perm : forall A (p : A -> bool) l, Permutation (filter p l ++ filter (fun a => negb (p a)) l) l.
Proof.
  intros A p. induction l as [|a l IH]; cbn [filter]; [reflexivity|]. destruct (p a); cbn [negb app].
  - rewrite IH. reflexivity.
  - rewrite <- Permutation_middle, IH. reflexivity.
Qed.

Lemma sorted_weaken : forall A (P Q : A -> A -> Prop) l, (forall a b, In a l -> In b l -> P a b -> Q a b) ->
  StronglySorted P l -> StronglySorted Q l.
Proof.
  intros A P Q. induction l as [|a l IH]; intros H S; [constructor|]. inversion S as [|? ? S' F]; subst. constructor.
  - apply IH; [|exact S']. intros b c Hb Hc. apply H; right; assumption.
  - apply Forall_forall. intros b Hb. apply H; [left; reflexivity|right; exact Hb|]. exact (proj1 (Forall_forall _ _) F b Hb).
Qed.

Lemma sorted_app : forall A (P : A -> A -> Prop) l l', StronglySorted P l -> StronglySorted P l' ->
  (forall a b, In a l -> In b l' -> P a b) -> StronglySorted P (l ++ l').
Proof.
  intros A P. induction l as [|a l IH]; intros l' S S' H; [exact S'|]. inversion S as [|? ? S0 F]; subst.
  cbn [app]. constructor.
  - apply IH; [exact S0|exact S'|]. intros b c Hb Hc. apply H; [right; exact Hb|exact Hc].
  - apply Forall_forall. intros b Hb. apply in_app_or in Hb. destruct Hb as [Hb|Hb].
    + exact (proj1 (Forall_forall _ _) F b Hb).
    + apply H; [left; reflexivity|exact Hb].
Qed.

Lemma negative_spec : forall a, is_negative a = true <-> snd a < 0.
Proof. intros a. unfold is_negative. destruct (Rlt_dec (snd a) 0); split; intros; try discriminate; auto; contradiction. Qed.

Lemma delta_lemma : forall names o n,
  Permutation (delta_rows names o n) (map (fun i => (nth i names ""%string, o i - n i)) (seq 0 (length names))) /\
  StronglySorted row_before (delta_rows names o n).
Proof.
  intros names o n. unfold delta_rows. cbv zeta. set (rows := map _ (seq 0 (length names))). clearbody rows.
  split. { rewrite !sort_perm. apply filter_perm. }
  assert (N1 : forall a, In a (sort_rows rle (filter is_negative rows)) -> snd a < 0).
  { intros a Ha. apply (Permutation_in _ (sort_perm _ _)) in Ha. apply filter_In in Ha. apply negative_spec. apply Ha. }
  assert (N2 : forall a, In a (sort_rows (fun a b => rle b a) (filter (fun a => negb (is_negative a)) rows)) -> 0 <= snd a).
  { intros a Ha. apply (Permutation_in _ (sort_perm _ _)) in Ha. apply filter_In in Ha. destruct Ha as [_ Ha].
    destruct (Rle_dec 0 (snd a)) as [L|L]; [exact L|]. exfalso. apply Rnot_le_lt in L. apply (proj2 (negative_spec a)) in L.
    rewrite L in Ha. discriminate. }
  apply sorted_app.
  - apply (sorted_weaken _ (fun a b => snd a <= snd b)).
    + intros a b Ha Hb H. right. left. split; [exact (N1 b Hb)|exact H].
    + apply (sort_sorted rle Rle); unfold rle; intros a b; try (destruct (Rle_dec a b)); intros; try discriminate; try lra.
  - apply (sorted_weaken _ (fun a b => snd b <= snd a)).
    + intros a b Ha Hb H. right. right. split; [exact (N2 b Hb)|exact H].
    + apply (sort_sorted (fun a b => rle b a) (fun a b => b <= a)); unfold rle; intros a b; try (destruct (Rle_dec b a)); intros; try discriminate; try lra.
  - intros a b Ha Hb. left. split; [exact (N1 a Ha)|exact (N2 b Hb)].
Qed.

Fixpoint rows_sum (l : list (string * R)) : R := match l with [] => 0 | a :: l' => snd a + rows_sum l' end.

Lemma rows_sum_perm : forall l l', Permutation l l' -> rows_sum l = rows_sum l'.
Proof. intros l l' P. induction P; cbn [rows_sum]; lra. Qed.

Lemma rows_sum_seq : forall (G : nat -> string * R) n a, rows_sum (map G (seq a n)) = rsum n (fun i => snd (G (a + i)%nat)).
Proof.
  intros G. induction n as [|n IH]; intros a; [reflexivity|]. cbn [seq map rows_sum]. rewrite IH, rsum_first.
  rewrite Nat.add_0_r. f_equal. apply rsum_ext. intros i _. f_equal. f_equal. lia.
Qed.

Lemma bars_app : forall l s l', bars_from s (l ++ l') = bars_from s l ++ bars_from (s + rows_sum l) l'.
Proof.
  induction l as [|[name v] l IH]; intros s l'; cbn [app bars_from rows_sum snd].
  - rewrite Rplus_0_r. reflexivity.
  - rewrite IH. replace (s + v + rows_sum l) with (s + (v + rows_sum l)) by ring. reflexivity.
Qed.

Lemma bars_steps : forall rows s, ~ In "optimized"%string (map fst rows) ->
  steps s rows (bars_from s rows) (s + rows_sum rows).
Proof.
  induction rows as [|[name v] rows IH]; intros s N; cbn [bars_from rows_sum snd].
  - rewrite Rplus_0_r. constructor.
  - destruct (String.eqb_spec name "optimized") as [E|_]; [exfalso; apply N; left; exact E|].
    replace (s + v - v) with s by ring. constructor. rewrite <- Rplus_assoc. apply IH.
    intros H. apply N. right. exact H.
Qed.

Lemma waterfall_lemma : forall names ro rn, ~ In "optimized"%string names ->
  rp_total_incremental ro = rsum (length names) (mean_incremental ro) ->
  rp_total_incremental rn = rsum (length names) (mean_incremental rn) ->
  exists rows bars,
    waterfall names ro rn = ("non_optimized"%string, 0, rp_total_incremental rn) :: bars ++ [("optimized"%string, 0, rp_total_incremental ro)] /\
    Permutation rows (map (fun i => (nth i names ""%string, mean_incremental ro i - mean_incremental rn i)) (seq 0 (length names))) /\
    StronglySorted row_before rows /\
    steps (rp_total_incremental rn) rows bars (rp_total_incremental ro).
Proof.
  intros names ro rn N To Tn.
  destruct (delta_lemma names (mean_incremental ro) (mean_incremental rn)) as [P S].
  set (rows := delta_rows names (mean_incremental ro) (mean_incremental rn)) in *.
  exists rows, (bars_from (rp_total_incremental rn) rows).
  assert (E : rp_total_incremental rn + rows_sum rows = rp_total_incremental ro).
  { rewrite (rows_sum_perm _ _ P), rows_sum_seq. cbn [snd Nat.add]. rewrite rsum_minus. rewrite <- To, <- Tn. ring. }
  split; [|split; [exact P|split; [exact S|]]].
  - unfold waterfall, waterfall_rows. fold rows. cbn [app bars_from].
    replace (String.eqb "non_optimized" "optimized") with false by reflexivity.
    rewrite bars_app. cbn [bars_from]. rewrite String.eqb_refl.
    rewrite !Rplus_0_l. unfold Rminus. rewrite Rplus_opp_r. rewrite E, Rplus_0_r. reflexivity.
  - rewrite <- E. apply bars_steps. intros H. apply in_map_iff in H. destruct H as (a & Ea & Ha).
    apply (Permutation_in _ P) in Ha. apply in_map_iff in Ha. destruct Ha as (i & <- & Hi). cbn [fst] in Ea.
    apply in_seq in Hi. apply N. rewrite <- Ea. apply nth_In. lia.
Qed.

(** ** Drawn limits *)
Lemma limit_lemma : forall bounds nonopt hist c b, bound_for bounds c b ->
  (hist c <> 0 -> drawn_limit bounds nonopt hist c * hist c = b * nonopt c) /\
  (hist c = 0 -> drawn_limit bounds nonopt hist c = 0).
Proof.
  intros bounds nonopt hist c b B. unfold drawn_limit.
  assert (E : spread_bound bounds c = b).
  { destruct B as [->|[L Hn]]; [reflexivity|]. unfold spread_bound.
    destruct bounds as [|b0 [|b1 l]]; [destruct c; discriminate|exfalso; apply L; reflexivity|].
    exact (nth_error_nth _ _ 0 Hn). }
  rewrite E. unfold spend_ratio. destruct (Req_EM_T (hist c) 0) as [Z|Z]; split; intros H; try contradiction.
  - ring.
  - field. exact H.
Qed.

Lemma ceiling_spec : forall r, r <= IZR (ceiling r) < r + 1.
Proof.
  intros r. unfold ceiling. rewrite minus_IZR. destruct (archimed (- r)) as [A B]. lra.
Qed.

Lemma fold_max_ge : forall l v, In v l -> v <= fold_right Rmax 0 l.
Proof.
  induction l as [|a l IH]; intros v H; [contradiction|]. cbn [fold_right]. destruct H as [->|H].
  - apply Rmax_l.
  - exact (Rle_trans _ _ _ (IH v H) (Rmax_r _ _)).
Qed.

Lemma multipliers_lemma : forall n upper nonopt hist,
  exists k, curve_multipliers n upper nonopt hist = map (fun i => INR i / 100) (seq 0 k) /\ (200 <= k)%nat /\
  forall c, (c < n)%nat -> exists m, In m (curve_multipliers n upper nonopt hist) /\ drawn_limit upper nonopt hist c <= m.
Proof.
  intros n upper nonopt hist. unfold curve_multipliers. cbv zeta.
  set (top := fold_right Rmax 0 _). set (lim := Rmax (top + 1 / 2) 2).
  destruct (ceiling_spec (lim * 100)) as [C1 C2].
  assert (L2 : 2 <= lim) by apply Rmax_r. assert (Lt : top + 1 / 2 <= lim) by apply Rmax_l.
  set (k := Z.to_nat (ceiling (lim * 100))).
  assert (Kz : (200 <= ceiling (lim * 100))%Z). { apply le_IZR. lra. }
  assert (Ki : INR k = IZR (ceiling (lim * 100))). { unfold k. rewrite INR_IZR_INZ, Z2Nat.id by lia. reflexivity. }
  exists k. split; [apply map_ext; intros i; field|]. split; [unfold k; lia|].
  intros c Hc. exists (INR (k - 1) * (1 / 100)). split.
  - apply in_map_iff. exists (k - 1)%nat. split; [reflexivity|]. apply in_seq. unfold k. lia.
  - assert (drawn_limit upper nonopt hist c <= top).
    { apply fold_max_ge. apply in_map_iff. exists c. split; [reflexivity|]. apply in_seq. lia. }
    rewrite minus_INR by (unfold k; lia). rewrite Ki. cbn [INR]. lra.
Qed.

(** ** Warnings *)
Lemma warns_roi : forall t m r n, t <> 0 ->
  (warns (Some t) m r n = true <-> exists v, rp_total_roi r = Some v /\ v < t).
Proof.
  intros t m r n Ht. unfold warns, nonzero. destruct (Req_EM_T t 0); [contradiction|]. cbn [negb].
  destruct (rp_total_roi r) as [v|].
  - destruct (Rlt_dec v t) as [L|L]; split; intros H; try discriminate; auto.
    + exists v. auto.
    + destruct H as (v' & E & L'). congruence.
  - split; intros H; [discriminate|]. destruct H as (v & E & _). discriminate.
Qed.

Lemma warns_mroi : forall t r n, t <> 0 ->
  (warns None (Some t) r n = true <-> exists c, (c < n)%nat /\ (forall s, rp_mroi r c = Some s -> st_mean s < t)).
Proof.
  intros t r n Ht. unfold warns, nonzero. destruct (Req_EM_T t 0); [contradiction|]. cbn [negb].
  rewrite existsb_exists. split; intros (c & Hc & H); exists c.
  - apply in_seq in Hc. split; [lia|]. intros s E. rewrite E in H. destruct (Rlt_dec (st_mean s) t); [assumption|discriminate].
  - split; [apply in_seq; lia|]. destruct (rp_mroi r c) as [s|]; [|reflexivity].
    destruct (Rlt_dec (st_mean s) t) as [|N]; [reflexivity|]. exfalso. apply N. apply H. reflexivity.
Qed.
