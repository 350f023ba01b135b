(** Properties C34 and C60: the summary tables of the analyzer. *)
From Coq Require Import Reals ZArith Lia Lra String List Bool Arith.
From Verif Require Import Lib_Sum M_Base M_AdstockHill M_Equations M_Transformers M_Aggregate
  S_Aggregate S_Adstock S_Media S_Analyzer M_Analyzer S_Predictor S_Paid C_Predictor C_Paid M_Stats M_Summary
  S_Roi C_Roi S_Summary P_Summary P_Contribution P_Labels.
Import ListNotations.
Local Open Scope R_scope.

(** ** C60: every cell of the table of the paid channels is the documented quantity, for every
    data set, selection, aggregation, metric and set of draws. *)
Theorem C60_table : forall f nd by_reach increase gs ts ag at' use_kpi level bs q,
  summary_request f nd gs ts level bs -> 0 < increase -> frequency_ok q ->
  exists s, summary_metrics f nd by_reach increase gs ts ag at' q use_kpi level bs false None = Ok s /\
    summary_table f nd by_reach increase gs ts ag at' use_kpi level s.
Proof.
  intros f nd br inc gs ts ag at' uk level bs q V H Q.
  destruct (table_lemma f nd br inc gs ts ag at' uk level bs q V H Q) as (s & Hs & T & _). eauto.
Qed.
Print Assumptions C60_table.

(** The shares of spend of the channels add up to 100 percent. *)
Theorem C60_spend_shares : forall f nd by_reach increase gs ts ag at' use_kpi level bs q s v i j
    (share : channel -> R),
  summary_request f nd gs ts level bs -> 0 < increase -> frequency_ok q ->
  summary_metrics f nd by_reach increase gs ts ag at' q use_kpi level bs false None = Ok s ->
  sm_pct_of_spend s = Some v ->
  (ag = false -> (i < length (chosen_geos (f_x f) gs))%nat) ->
  (at' = false -> (j < length (chosen_times (f_x f) ts))%nat) ->
  row_spend f nd gs ts ag at' None i j <> 0 ->
  (forall ch, is_paid (f_x f) ch ->
     v (position ag i ++ position at' j ++ [channel_index (f_x f) ch]) = Some (share ch)) ->
  in_row (f_x f) None share = 100 /\
  v (position ag i ++ position at' j ++ [n_paid (f_x f)]) = Some 100.
Proof.
  intros f nd br inc gs ts ag at' uk level bs q s v i j share V H Q Hs Hv Hi Hj Hz Hsh.
  destruct (table_lemma f nd br inc gs ts ag at' uk level bs q V H Q) as (s' & Hs' & T & _).
  assert (s' = s) by congruence. subst s'. destruct (st_pct_of_spend _ _ _ _ _ _ _ _ _ _ _ T) as (v' & Hv' & P).
  assert (v' = v) by congruence. subst v'.
  set (tot := row_spend f nd gs ts ag at' None i j) in *.
  assert (E : forall ch, is_paid (f_x f) ch -> share ch * tot = 100 * row_spend f nd gs ts ag at' (Some ch) i j).
  { intros ch Hc. destruct (P (Some ch) i j) as [_ P1]; [split; auto|]. destruct (P1 Hz) as (r & Er & Hr).
    unfold at_cell in Er. cbn [row] in Er. rewrite (Hsh ch Hc) in Er. assert (r = share ch) by congruence. subst r. exact Hr. }
  split.
  - apply (Rmult_eq_reg_r tot); [|exact Hz]. unfold tot at 2, row_spend. cbn [in_row].
    rewrite Rmult_plus_distr_r, Rmult_plus_distr_l, <- !rsum_scal_r, <- !rsum_scal.
    f_equal; apply rsum_ext; intros c Hc; [apply (E (ChMedia c))|apply (E (ChRf c))]; exact Hc.
  - destruct (P None i j) as [_ P1]; [split; [exact Logic.I|auto]|]. destruct (P1 Hz) as (r & Er & Hr).
    unfold at_cell in Er. cbn [row] in Er. rewrite Er. f_equal. fold tot in Hr.
    apply (Rmult_eq_reg_r tot); [exact Hr|exact Hz].
Qed.
Print Assumptions C60_spend_shares.

(** All treatments and the baseline together: their mean outcomes add up to the mean expected
    outcome, their mean contributions to 100 percent, in every cell of the two tables. *)
Theorem C60_hundred_percent : forall f baseline by_reach increase gs ts ag at' use_kpi level bs,
  contribution_request f baseline gs ts at' level bs -> 0 < increase ->
  exists s b vc,
  summary_metrics f no_new by_reach increase gs ts ag at' None use_kpi level bs true baseline = Ok s /\
  baseline_summary_metrics f gs ts ag at' baseline use_kpi level bs = Ok b /\
  sm_contribution s = Some vc /\
  let n := n_treatments (f_x f) in
  forall p i j, (ag = false -> (i < length (chosen_geos (f_x f) gs))%nat) ->
    (at' = false -> (j < length (chosen_times (f_x f) ts))%nat) ->
    let pos := position ag i ++ position at' j in
    let expected := mean_outcome f no_new gs ts ag at' use_kpi p i j in
    (exists (out : nat -> stats) (base : stats),
      (forall c, (c <= n)%nat -> sm_incremental s p (pos ++ [c]) = Some (out c)) /\
      bs_outcome b p pos = Some base /\
      st_mean (out n) = rsum n (fun c => st_mean (out c)) /\
      st_mean (out n) + st_mean base = expected) /\
    (expected <> 0 -> exists (pct : nat -> stats) (base : stats),
      (forall c, (c <= n)%nat -> vc p (pos ++ [c]) = Some (pct c)) /\
      bs_contribution b p pos = Some base /\
      st_mean (pct n) = rsum n (fun c => st_mean (pct c)) /\
      st_mean (pct n) + st_mean base = 100).
Proof.
  intros f bl br inc gs ts ag at' uk level bs V H.
  destruct (full_lemma f bl br inc gs ts ag at' uk level bs V H) as (s & b & Hs & Hb & _ & _ & _ & _ & _ & _ & _ & vc & Hc & F).
  exists s, b, vc. split; [exact Hs|]. split; [exact Hb|]. split; [exact Hc|].
  intros n p i j Hi Hj. destruct (F p i j Hi Hj) as [F1 F2]. split; [exact F1|]. intros Hm.
  destruct (F2 Hm) as (pct & pb & P1 & P2 & P3 & P4 & _). exists pct, pb. auto.
Qed.
Print Assumptions C60_hundred_percent.

(** Refuted: "historical frequency is used by default", so that an optimal frequency changes the
    metrics.  It changes no outcome, contribution, ROI, marginal ROI or CPIK, whatever its value. *)
Theorem C60_metrics_follow_optimal_frequency_refuted :
  forall f nd by_reach increase gs ts ag at' q q' use_kpi level bs include_non_paid baseline s s',
  summary_metrics f nd by_reach increase gs ts ag at' q use_kpi level bs include_non_paid baseline = Ok s ->
  summary_metrics f nd by_reach increase gs ts ag at' q' use_kpi level bs include_non_paid baseline = Ok s' ->
  sm_incremental s = sm_incremental s' /\ sm_contribution s = sm_contribution s' /\
  sm_spend s = sm_spend s' /\ sm_roi s = sm_roi s' /\ sm_mroi s = sm_mroi s' /\ sm_cpik s = sm_cpik s'.
Proof. exact frequency_unused. Qed.
Print Assumptions C60_metrics_follow_optimal_frequency_refuted.

(** ** C34: geo and time labels.  The cells of the table belong to the geos and periods of
    [summary_table], in the order of the data; the labels are their names when the user selects the
    geos in the order of the data. *)
Theorem C34_labels : forall f nd by_reach increase gs ts at' use_kpi level bs q,
  summary_request f nd gs ts level bs -> 0 < increase -> frequency_ok q -> in_data_order (f_x f) gs ->
  exists s, summary_metrics f nd by_reach increase gs ts false at' q use_kpi level bs false None = Ok s /\
    sm_geo s = Some (geo_names (f_x f) gs) /\
    sm_time s = (if at' then None else Some (period_names (f_x f) ts)) /\
    summary_table f nd by_reach increase gs ts false at' use_kpi level s.
Proof.
  intros f nd br inc gs ts at' uk level bs q V H Q Ho.
  destruct (table_lemma f nd br inc gs ts false at' uk level bs q V H Q) as (s & Hs & T & G).
  exists s. split; [exact Hs|]. split; [|split; [exact (st_times _ _ _ _ _ _ _ _ _ _ _ T)|exact T]].
  rewrite G, (labels_in_order _ _ (sr_geo_names _ _ _ _ _ _ V) Ho). reflexivity.
Qed.
Print Assumptions C34_labels.

(** The same for the tables of all treatments and of the baseline. *)
Theorem C34_contribution_labels : forall f baseline by_reach increase gs ts at' use_kpi level bs,
  contribution_request f baseline gs ts at' level bs -> 0 < increase -> in_data_order (f_x f) gs ->
  exists s b,
  summary_metrics f no_new by_reach increase gs ts false at' None use_kpi level bs true baseline = Ok s /\
  baseline_summary_metrics f gs ts false at' baseline use_kpi level bs = Ok b /\
  sm_geo s = Some (geo_names (f_x f) gs) /\ bs_geo b = Some (geo_names (f_x f) gs) /\
  sm_time s = (if at' then None else Some (period_names (f_x f) ts)).
Proof.
  intros f bl br inc gs ts at' uk level bs V H Ho.
  destruct (full_lemma f bl br inc gs ts false at' uk level bs V H) as (s & b & Hs & Hb & _ & _ & _ & G1 & T1 & G2 & _ & _).
  exists s, b. split; [exact Hs|]. split; [exact Hb|].
  rewrite G1, G2, (labels_in_order _ _ (cr_geo_names _ _ _ _ _ _ _ V) Ho). auto.
Qed.
Print Assumptions C34_contribution_labels.

(** In any other order some label is wrong. *)
Theorem C34_other_orders_mislabelled : forall f nd by_reach increase gs ts at' use_kpi level bs q s,
  summary_request f nd gs ts level bs -> 0 < increase -> frequency_ok q -> ~ in_data_order (f_x f) gs ->
  summary_metrics f nd by_reach increase gs ts false at' q use_kpi level bs false None = Ok s ->
  sm_geo s <> Some (geo_names (f_x f) gs).
Proof.
  intros f nd br inc gs ts at' uk level bs q s V H Q Ho Hs C.
  destruct (table_lemma f nd br inc gs ts false at' uk level bs q V H Q) as (s' & Hs' & _ & G).
  assert (s' = s) by congruence. subst s'. rewrite G in C. apply Ho. apply labels_out_of_order. congruence.
Qed.
Print Assumptions C34_other_orders_mislabelled.

(** ** Concrete cases *)
Definition ex_summary_data : new_tensors :=
  mkNew (mkData (Some (mkT3 2 3 2 (fun _ t _ => INR t))) None None None None None None None None)
    (mkSpend (Some (ex_spend3 2)) None).
Lemma ex_summary_request : forall gs ts, geos_ok ex_rich gs -> times_ok ex_rich ts ->
  (forall l, gs = Some l -> NoDup l) -> summary_request ex_fitted ex_summary_data gs ts (9 / 10) 10.
Proof.
  destruct C58_example as (W & D & _ & _ & N & T & _). destruct N as (N1 & N2 & N3 & N4).
  intros gs ts Hg Ht Hd. constructor; auto; try lia; try lra.
  - intros []; unfold f_draws, f_prior, f_posterior, ex_fitted;
    repeat (apply Forall_cons; [exact D|]); apply Forall_nil.
  - intros []; discriminate.
  - unfold paid_data_ok, fits, fits2, same_shape; cbn; tauto.
  - refine (conj _ (conj _ _)); unfold nonneg, given; cbn; intros; try apply pos_INR.
    all: try (pose proof (pos_INR t); lra).
  - split; cbn; auto.
  - cbn. repeat constructor; cbn; intuition congruence.
Qed.
Lemma ex_contribution_request : forall gs ts at', geos_ok ex_rich gs -> times_ok ex_rich ts ->
  (forall l, gs = Some l -> NoDup l) -> at' = true -> (forall l, ts <> Some (TDates l)) ->
  contribution_request ex_fitted None gs ts at' (9 / 10) 10.
Proof.
  destruct C58_example as (W & D & _ & _ & N & T & _). destruct N as (N1 & N2 & N3 & N4).
  intros gs ts at' Hg Ht Hd Ha Hn. constructor; auto; try lia; try lra.
  - intros []; unfold f_draws, f_prior, f_posterior, ex_fitted;
    repeat (apply Forall_cons; [exact D|]); apply Forall_nil.
  - intros []; discriminate.
  - refine (conj _ (conj _ _)); unfold nonneg, given; cbn; intros; try apply pos_INR.
    all: try (pose proof (pos_INR t); lra).
  - exact Logic.I.
  - cbn. repeat constructor; cbn; intuition congruence.
  - cbn. repeat constructor; cbn; intuition congruence.
  - destruct ts as [[l|l]|]; auto. exfalso. exact (Hn l eq_refl).
Qed.

Example C60_example :
  summary_request ex_fitted ex_summary_data (Some ["b"]%string) (Some (TBools [false; true])) (9 / 10) 10 /\
  frequency_ok (Some (fun _ : nat => 2)) /\
  contribution_request ex_fitted None (Some ["b"]%string) (Some (TBools [false; true])) true (9 / 10) 10 /\
  n_treatments ex_rich = 6%nat /\
  row_spend ex_fitted ex_summary_data (Some ["b"]%string) (Some (TBools [false; true])) true true None 0 0 <> 0 /\
  in_data_order ex_rich (Some ["b"]%string).
Proof.
  assert (Hd : forall l, Some ["b"%string] = Some l -> NoDup l).
  { intros l E. assert (l = ["b"%string]) by congruence. subst. repeat constructor. cbn. tauto. }
  assert (Hg : geos_ok ex_rich (Some ["b"%string])) by (cbn; repeat constructor; cbn; auto).
  assert (Ht : times_ok ex_rich (Some (TBools [false; true]))) by (cbn; auto).
  split; [exact (ex_summary_request _ _ Hg Ht Hd)|].
  split; [intros c; lra|].
  split; [apply (ex_contribution_request _ _ _ Hg Ht Hd eq_refl); discriminate|].
  split; [reflexivity|]. split; [|exact (sub_skip _ _ _ (sub_keep _ _ _ sub_nil))].
  unfold row_spend, in_row.
  unfold channel_spend, kind_spend, spend_used, given_spend, total. cbn. lra.
Qed.

(** Refuted: labels are right for every selection.  The spend of geo "a" is labelled "b". *)
Theorem C34_every_order_refuted : exists f nd gs s t,
  summary_request f nd gs None (9 / 10) 10 /\ frequency_ok None /\
  summary_metrics f nd true 1 gs None false true None false (9 / 10) 10 false None = Ok s /\
  sm_geo s = Some ["b"; "a"]%string /\ sm_spend s = Some t /\
  at_ t [0; 0]%nat = 3 /\ channel_spend (spend_used f (nt_spend nd)) (ChMedia 0) [0%nat] [0; 1]%nat = 3 /\
  nth 0 (x_geo (f_x f)) ""%string = "a"%string /\
  channel_spend (spend_used f (nt_spend nd)) (ChMedia 0) [1%nat] [0; 1]%nat = 5.
Proof.
  set (gs := Some ["b"; "a"]%string).
  assert (V : summary_request ex_fitted ex_summary_data gs None (9 / 10) 10).
  { apply ex_summary_request; [apply Forall_cons; [cbn; auto|apply Forall_cons; [cbn; auto|apply Forall_nil]]|exact Logic.I|].
    intros l E. assert (l = ["b"; "a"]%string) by (unfold gs in E; congruence). subst.
      repeat constructor; cbn; intuition congruence. }
  destruct (table_lemma ex_fitted ex_summary_data true 1 gs None false true false (9/10) 10 None V ltac:(lra) Logic.I)
    as (s & Hs & T & G).
  destruct (st_spend _ _ _ _ _ _ _ _ _ _ _ T) as (t & Ht & S).
  exists ex_fitted, ex_summary_data, gs, s, t.
  assert (V3 : channel_spend (spend_used ex_fitted (nt_spend ex_summary_data)) (ChMedia 0) [0%nat] [0; 1]%nat = 3).
  { unfold channel_spend, kind_spend, spend_used, given_spend, total. cbn. lra. }
  split; [exact V|]. split; [exact Logic.I|]. split; [exact Hs|]. split; [exact G|]. split; [exact Ht|].
  split; [|split; [exact V3|split; [reflexivity|]]].
  - specialize (S (Some (ChMedia 0)) 0%nat 0%nat). unfold at_cell in S. cbn [position row channel_index app] in S.
    etransitivity; [apply S|].
    + split; [cbn; lia|]. split; intros; [cbn; lia|discriminate].
    + exact V3.
  - unfold channel_spend, kind_spend, spend_used, given_spend, total. cbn. lra.
Qed.
Print Assumptions C34_every_order_refuted.
