(** C63: the aggregated spend table. *)
From Coq Require Import Reals ZArith String List Bool Arith Lra Lia.
From Verif Require Import Lib_Sum M_Base M_AdstockHill M_Equations M_Transformers M_Aggregate
  S_Aggregate S_Adstock S_Media S_Analyzer M_Analyzer S_Predictor S_Paid M_Stats M_Summary S_Roi S_Summary M_Spend S_Spend
  P_Paid P_Roi P_Summary P_Spend C_Analyzer C_Predictor C_Paid C_Roi.
Import ListNotations.
Local Open Scope R_scope.

(** One column per channel asked for, in order; each entry is what was spent on the channel in the
    selected geos and in the period (or all selected periods). *)
Theorem C63_spend : forall f fm fr nd gs ts at' im irf,
  spend_request f fm fr nd gs ts -> im = true \/ irf = true ->
  exists t, get_aggregated_spend f nd gs ts at' im irf = Ok t /\
    tb_channel t = names_included f im irf /\
    tb_time t = (if at' then None else Some (period_names (f_x f) ts)) /\
    forall ch j, is_paid (f_x f) ch -> included im irf ch ->
      (at' = false -> (j < length (chosen_times (f_x f) ts))%nat) ->
      is_spent (f_x f) (nt_data nd) (spend_used f (nt_spend nd)) ch (chosen_geos (f_x f) gs)
        (members (chosen_times (f_x f) ts) at' j)
        (tb_at t (position at' j ++ [column (f_x f) im ch])).
Proof.
  intros f fm fr nd gs ts at' im irf Q H. apply (spend_table_lemma f fm fr); [exact Q|].
  destruct H as [->| ->]; [reflexivity|apply orb_true_r].
Qed.
Print Assumptions C63_spend.

Theorem C63_nothing_asked : forall f nd gs ts at',
  get_aggregated_spend f nd gs ts at' false false = Err ValueError.
Proof. reflexivity. Qed.
Print Assumptions C63_nothing_asked.

(** Without selection, the total spend of the channel. *)
Theorem C63_total : forall f fm fr nd t im irf ch r,
  spend_request f fm fr nd None None -> get_aggregated_spend f nd None None true im irf = Ok t ->
  is_paid (f_x f) ch -> included im irf ch -> tb_at t [column (f_x f) im ch] = Some r ->
  r = channel_spend (spend_used f (nt_spend nd)) ch (seq 0 (x_n_geos (f_x f))) (seq 0 (x_n_times (f_x f))).
Proof.
  intros f fm fr nd t im irf ch r Q E Hc Hi Hr.
  destruct (C63_spend f fm fr nd None None true im irf Q) as (t' & E' & _ & _ & V).
  { destruct ch; cbn in Hi; auto; contradiction. }
  assert (t' = t) by congruence. subst t'.
  specialize (V ch 0%nat Hc Hi ltac:(discriminate)). cbn [position app members chosen_geos chosen_times] in V.
  rewrite Hr in V. unfold is_spent in V. destruct (spend_of _ ch) as [[n u|y]|]; try contradiction; [|congruence].
  cbn [chosen_geos chosen_times] in V. destruct V as [V0 V1].
  destruct (Req_EM_T (channel_impressions (f_x f) (nt_data nd) ch (seq 0 (x_n_geos (f_x f))) (seq 0 (x_n_times (f_x f)))) 0) as [Z|Z].
  - specialize (V0 Z). discriminate.
  - destruct (V1 Z) as (r' & E1 & E2). assert (r' = r) by congruence. subst r'.
    apply (Rmult_eq_reg_r _ _ _ E2 Z).
Qed.
Print Assumptions C63_total.

(** The spend of the selected periods is the sum of the spend of each. *)
Theorem C63_periods_add_up : forall f fm fr nd gs ts im irf a b ch r,
  spend_request f fm fr nd gs ts ->
  get_aggregated_spend f nd gs ts true im irf = Ok a -> get_aggregated_spend f nd gs ts false im irf = Ok b ->
  is_paid (f_x f) ch -> included im irf ch -> tb_at a [column (f_x f) im ch] = Some r ->
  exists v, (forall j, (j < length (chosen_times (f_x f) ts))%nat -> tb_at b [j; column (f_x f) im ch] = Some (v j)) /\
    r = rsum (length (chosen_times (f_x f) ts)) v.
Proof.
  intros f fm fr nd gs ts im irf a b ch r Q Ea Eb Hc Hi Hr.
  assert (On : im = true \/ irf = true) by (destruct ch; cbn in Hi; auto; contradiction).
  destruct (C63_spend f fm fr nd gs ts true im irf Q On) as (a' & Ea' & _ & _ & Va).
  destruct (C63_spend f fm fr nd gs ts false im irf Q On) as (b' & Eb' & _ & _ & Vb).
  assert (a' = a) by congruence. assert (b' = b) by congruence. subst a' b'.
  specialize (Va ch 0%nat Hc Hi ltac:(discriminate)). cbn [position app] in Va. rewrite Hr in Va.
  change (members (chosen_times (f_x f) ts) true 0) with (chosen_times (f_x f) ts) in Va.
  exists (fun j => amount_of (f_x f) (nt_data nd) (spend_used f (nt_spend nd)) ch (chosen_geos (f_x f) gs)
                     (members (chosen_times (f_x f) ts) false j)).
  split.
  - intros j Hj. specialize (Vb ch j Hc Hi (fun _ => Hj)). cbn [position app] in Vb.
    destruct (spent_somewhere _ _ _ _ _ _ _ _ _ _ Va Vb) as (r' & Er). rewrite Er in *. f_equal. apply spent_amount. exact Vb.
  - rewrite amount_sum. { apply spent_amount. exact Va. }
    intros Z. unfold is_spent in Va. rewrite Z in Va. exact Va.
Qed.
Print Assumptions C63_periods_add_up.

(** The spend of all geos is the sum of the spend of two complementary sets of geos. *)
Theorem C63_geos_add_up : forall f fm fr nd l1 l2 ts at' im irf a b c ch j r1 r2 r,
  spend_request f fm fr nd (Some l1) ts -> spend_request f fm fr nd (Some l2) ts ->
  spend_request f fm fr nd None ts ->
  (forall g, In g (x_geo (f_x f)) -> In g l1 <-> ~ In g l2) ->
  get_aggregated_spend f nd (Some l1) ts at' im irf = Ok a ->
  get_aggregated_spend f nd (Some l2) ts at' im irf = Ok b ->
  get_aggregated_spend f nd None ts at' im irf = Ok c ->
  is_paid (f_x f) ch -> included im irf ch -> (at' = false -> (j < length (chosen_times (f_x f) ts))%nat) ->
  tb_at a (position at' j ++ [column (f_x f) im ch]) = Some r1 ->
  tb_at b (position at' j ++ [column (f_x f) im ch]) = Some r2 ->
  tb_at c (position at' j ++ [column (f_x f) im ch]) = Some r -> r = r1 + r2.
Proof.
  intros f fm fr nd l1 l2 ts at' im irf a b c ch j r1 r2 r Q1 Q2 Q H Ea Eb Ec Hc Hi Hj R1 R2 R0.
  assert (On : im = true \/ irf = true) by (destruct ch; cbn in Hi; auto; contradiction).
  destruct (C63_spend f fm fr nd (Some l1) ts at' im irf Q1 On) as (a' & Ea' & _ & _ & Va).
  destruct (C63_spend f fm fr nd (Some l2) ts at' im irf Q2 On) as (b' & Eb' & _ & _ & Vb).
  destruct (C63_spend f fm fr nd None ts at' im irf Q On) as (c' & Ec' & _ & _ & Vc).
  assert (a' = a) by congruence. assert (b' = b) by congruence. assert (c' = c) by congruence. subst a' b' c'.
  specialize (Va ch j Hc Hi Hj). specialize (Vb ch j Hc Hi Hj). specialize (Vc ch j Hc Hi Hj).
  rewrite R1 in Va. rewrite R2 in Vb. rewrite R0 in Vc.
  rewrite (spent_amount _ _ _ _ _ _ _ Va), (spent_amount _ _ _ _ _ _ _ Vb), (spent_amount _ _ _ _ _ _ _ Vc).
  symmetry. apply amount_geos; auto. intros Z. unfold is_spent in Va. rewrite Z in Va. exact Va.
Qed.
Print Assumptions C63_geos_add_up.

Lemma ex_spend_request : forall fm fr nd gs ts, paid_data_ok ex_rich (nt_data nd) ->
  spend_fits fm (s_media (spend_used ex_fitted (nt_spend nd))) (d_media (x_data ex_rich)) 2 2 ->
  spend_fits fr (s_rf (spend_used ex_fitted (nt_spend nd))) (d_reach (x_data ex_rich)) 2 2 ->
  geos_ok ex_rich gs -> times_ok ex_rich ts ->
  spend_request ex_fitted fm fr nd gs ts.
Proof.
  destruct C58_example as (W & _). intros fm fr nd gs ts H1 H2 H3 H4 H5. constructor; auto; cbn; split; discriminate.
Qed.
(** Media spend per channel, spend of the reach channel per geo and period; one geo and period. *)
Definition ex_mixed_spend : new_tensors := mkNew ex_paid (mkSpend (Some (Spend1 2 (fun c => 10 + INR c))) None).
Example C63_example :
  spend_request ex_fitted true false ex_mixed_spend (Some ["b"]%string) (Some (TBools [false; true])) /\
  names_included ex_fitted false true = ["video"]%string /\ column ex_rich true (ChRf 0) = 2%nat /\
  included true true (ChRf 0) /\ is_paid ex_rich (ChRf 0).
Proof.
  destruct C58_paid_example as (P1 & P2 & _). split; [|repeat split; cbn; auto].
  apply ex_spend_request; auto; cbn; auto.
Qed.

(** The known total spend of a channel is not reported when the channel has no impressions: the
    result is not a number. *)
Definition ex_idle : data :=
  mkData (Some (mkT3 2 3 2 (fun _ _ c => INR c))) None None None None None None None None.
Definition ex_idle_spend : new_tensors := mkNew ex_idle (mkSpend (Some (Spend1 2 (fun c => 10 + INR c))) None).
Theorem C63_total_reported_refuted : exists f fm fr nd t,
  spend_request f fm fr nd None None /\ get_aggregated_spend f nd None None true true true = Ok t /\
  is_paid (f_x f) (ChMedia 0) /\
  channel_spend (spend_used f (nt_spend nd)) (ChMedia 0) (seq 0 (x_n_geos (f_x f))) (seq 0 (x_n_times (f_x f))) = 10 /\
  tb_at t [column (f_x f) true (ChMedia 0)] = None.
Proof.
  assert (Q : spend_request ex_fitted true false ex_idle_spend None None).
  { apply ex_spend_request; cbn; auto. repeat split; cbn; auto. }
  destruct (C63_spend ex_fitted true false ex_idle_spend None None true true true Q (or_introl eq_refl)) as (t & E & _ & _ & V).
  exists ex_fitted, true, false, ex_idle_spend, t. split; [exact Q|]. split; [exact E|].
  assert (P : is_paid (f_x ex_fitted) (ChMedia 0)) by (cbn; lia).
  split; [exact P|]. split; [cbn; ring|].
  specialize (V (ChMedia 0) 0%nat P eq_refl ltac:(discriminate)).
  cbn [position app] in V. apply V.
  unfold channel_impressions, total. cbn. lra.
Qed.
Print Assumptions C63_total_reported_refuted.
