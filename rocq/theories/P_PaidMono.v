(** The term of a paid channel is zero without media and grows with the media. *)
From Coq Require Import Reals ZArith Lia Lra String List Bool Arith.
From Verif Require Import Lib_Sum M_Base M_AdstockHill M_Equations M_Transformers M_Aggregate
  S_Aggregate S_Adstock S_Media S_Analyzer M_Analyzer S_Predictor P_Adstock P_Media P_MediaProps P_Aggregate P_Analyzer
  P_AnalyzerIO P_Predictor S_Paid P_Paid.
Import ListNotations.
Local Open Scope R_scope.

Lemma assigned_recognised : forall df n c d, decay_ok df n -> (c < n)%nat ->
  assigned_decay df n c = Some d -> recognised d.
Proof.
  intros [d0|ds] n c d H Hc E; cbn in *; [congruence|]. destruct H as [L F]. rewrite Forall_forall in F.
  destruct (Nat.eqb_spec (length ds) n).
  - apply F. eapply nth_error_In. exact E.
  - destruct ds as [|a [|b r]]; try discriminate. apply F. left. congruence.
Qed.

Lemma in_units_mono : forall tr y z g t c, factors_pos tr -> 0 <= val y g t c <= val z g t c ->
  0 <= in_units tr y g t c <= in_units tr z g t c.
Proof.
  intros [tr|] y z g t c H Hv; cbn; [|exact Hv]. pose proof (H g c).
  assert (0 < / scale_factors_gm tr g c) by (apply Rinv_0_lt_compat; assumption). unfold Rdiv.
  split; [apply Rmult_le_pos; lra|apply Rmult_le_compat_r; lra].
Qed.

Lemma media_channel_mono : forall x tr p df sa y z g t c, same_shape y z -> params_ok p ->
  (c < chans y)%nat -> n_par p = chans y -> decay_ok df (chans y) -> factors_pos tr ->
  (forall u, (u <= x_n_media_times x - x_n_times x + t)%nat -> 0 <= val y g u c <= val z g u c) ->
  0 <= media_channel x tr p df sa y g t c <= media_channel x tr p df sa z g t c.
Proof.
  intros x tr p df sa y z g t c (_ & St & Sc) Hp Hc Hn Hd Hf Hv. unfold media_channel.
  assert (EW : window z (ctx_max_lag (x_cx x)) = window y (ctx_max_lag (x_cx x)))
    by (unfold window; rewrite St; reflexivity).
  rewrite EW, <- Sc.
  destruct (assigned_decay df (chans y) c) as [d|] eqn:Ed; [|lra].
  destruct (assigned_sat sa (chans y) c) as [s|]; [|lra].
  destruct (Hp c ltac:(lia)) as (Ha & He & Hs).
  apply media_response_mono; auto.
  - intros l Hl. apply documented_weight_nonneg; auto. eapply assigned_recognised; eauto.
  - intros u Hu. apply in_units_mono; auto.
Qed.

Lemma lagged_mono : forall W w x y t, (forall l, (l < W)%nat -> 0 <= w l) ->
  (forall u, (u <= t)%nat -> 0 <= x u <= y u) ->
  0 <= lagged_average W w x t <= lagged_average W w y t.
Proof.
  intros W w x y t Hw H. split.
  - apply lagged_average_nonneg; auto. intros; apply H; auto.
  - apply lagged_average_mono; auto. intros u Hu; apply H; auto.
Qed.

Lemma rf_channel_mono : forall x tr p df sa r r' q q' g t c, same_shape r r' -> params_ok p ->
  (c < chans r)%nat -> n_par p = chans r -> decay_ok df (chans r) -> factors_pos tr ->
  (forall u, (u <= x_n_media_times x - x_n_times x + t)%nat ->
     0 <= val r g u c <= val r' g u c /\ 0 <= val q g u c <= val q' g u c) ->
  0 <= rf_channel x tr p df sa r q g t c <= rf_channel x tr p df sa r' q' g t c.
Proof.
  intros x tr p df sa r r' q q' g t c (_ & St & Sc) Hp Hc Hn Hd Hf Hv. unfold rf_channel.
  assert (EW : window r' (ctx_max_lag (x_cx x)) = window r (ctx_max_lag (x_cx x)))
    by (unfold window; rewrite St; reflexivity).
  rewrite EW, <- Sc.
  destruct (assigned_decay df (chans r) c) as [d|] eqn:Ed; [|lra].
  destruct (assigned_sat sa (chans r) c) as [s|]; [|lra].
  destruct (Hp c ltac:(lia)) as (Ha & He & Hs).
  apply lagged_mono.
  - intros l Hl. apply documented_weight_nonneg; auto. eapply assigned_recognised; eauto.
  - intros u Hu. destruct (Hv u Hu) as [V1 V2].
    pose proof (in_units_mono tr r r' g u c Hf V1) as U.
    pose proof (saturate_nonneg s (p_ec p c) (p_slope p c) (val q g u c) He Hs ltac:(lra)).
    pose proof (saturate_mono s (p_ec p c) (p_slope p c) (val q g u c) (val q' g u c) He Hs ltac:(lra) ltac:(lra)).
    split; [apply Rmult_le_pos; lra|apply Rmult_le_compat; lra].
Qed.

(** Multiplying a column by more. *)
Lemma only_mono : forall f f' sel c y g u, 0 <= f <= f' -> 0 <= val y g u c ->
  0 <= val (only f sel c y) g u c <= val (only f' sel c y) g u c.
Proof.
  intros f f' sel c y g u Hf Hv. unfold only. cbn [val]. rewrite Nat.eqb_refl. cbn [andb].
  destruct (executed sel u); [|lra]. split; [apply Rmult_le_pos; lra|apply Rmult_le_compat_r; lra].
Qed.
Lemma only_same : forall f sel c y, same_shape (only f sel c y) y.
Proof. intros. unfold same_shape, only. cbn. auto. Qed.

Lemma given_treatment : forall x ch f sel br,
  let d := treatment x ch f sel br None in
  given d_media d x = d_media d /\ given d_reach d x = d_reach d /\ given d_frequency d x = d_frequency d.
Proof.
  intros x ch f sel br. cbv zeta. unfold given, treatment. cbn [d_media d_reach d_frequency].
  destruct ch; try destruct br; cbn;
  destruct (d_media (x_data x)), (d_reach (x_data x)), (d_frequency (x_data x)); cbn; auto.
Qed.

Lemma paid_term_mono : forall x nd w ch f f' sel br g t,
  well_formed x -> paid_data_ok x nd -> draw_ok x w -> paid_nonneg x nd -> transformers_ok x ->
  is_paid x ch -> (t < x_n_times x)%nat -> 0 <= coefficient w ch g -> 0 <= f <= f' ->
  0 <= paid_term x nd w ch f sel br g t <= paid_term x nd w ch f' sel br g t.
Proof.
  intros x nd w ch f f' sel br g t W H Dw (P1 & P2 & P3) (T1 & _ & T3' & _) Hch Ht Hb Hf.
  pose proof (paid_well_formed x nd W H) as W'. pose proof (paid_draw_ok x nd w H Dw) as Dw'.
  pose proof (paid_dims x nd H) as (L1 & L2 & L3).
  pose proof (wf_times _ W) as Wt.
  pose proof (wf_media _ W') as Dm. pose proof (wf_reach _ W') as Dr. pose proof (wf_freq _ W') as Dq.
  pose proof (wf_rf _ W') as Prf. pose proof (wf_kinds _ W') as (K1 & K2 & _).
  destruct Dw' as (D1 & D2 & _ & _ & Q1 & Q2 & _).
  unfold paid_term, channel_term.
  destruct (given_treatment (paid_model x nd) ch f sel br) as (E1 & E2 & E3).
  destruct (given_treatment (paid_model x nd) ch f' sel br) as (E1' & E2' & E3').
  rewrite E1, E2, E3, E1', E2', E3'. clear E1 E2 E3 E1' E2' E3'.
  change (x_media_transformer (paid_model x nd)) with (x_media_transformer x).
  change (x_reach_transformer (paid_model x nd)) with (x_reach_transformer x).
  change (x_n_media_times (paid_model x nd)) with (x_n_media_times x) in *.
  change (x_n_times (paid_model x nd)) with (x_n_times x) in *.
  assert (St : forall y z, same_shape y z -> same_shape z y) by (unfold same_shape; intuition congruence).
  destruct ch as [c|c|c|c|c]; cbn [is_paid] in Hch; try contradiction; cbn [treatment d_media d_reach d_frequency].
  - cbn [paid_model x_data d_media] in *.
    assert (Hc : (c < n_chans (given d_media nd x))%nat) by (rewrite (like_chans _ _ L1); exact Hch).
    destruct (given d_media nd x) as [y|]; cbn in Hc; [|lia]. cbn [option_map].
    destruct Dm as [_ Dt]. specialize (D1 ltac:(discriminate)). cbn [n_chans] in D1. destruct K1 as [K1 _].
    assert (0 <= media_channel (paid_model x nd) (x_media_transformer x) (w_media w) (x_decay_media (paid_model x nd))
                   (x_sat_media (paid_model x nd)) (only f sel c y) g t c
             <= media_channel (paid_model x nd) (x_media_transformer x) (w_media w) (x_decay_media (paid_model x nd))
                   (x_sat_media (paid_model x nd)) (only f' sel c y) g t c) as M.
    { apply media_channel_mono; auto.
      - unfold same_shape, only. cbn. auto.
      - intros u Hu. apply only_mono; auto. cbn in P1. apply P1; [|exact Hc].
        change (x_n_media_times (paid_model x nd)) with (x_n_media_times x) in *.
        change (x_n_times (paid_model x nd)) with (x_n_times x) in *. lia. }
    cbn [coefficient] in Hb.
    split; [apply Rmult_le_pos; lra|apply Rmult_le_compat_l; lra].
  - cbn [paid_model x_data d_reach d_frequency] in *.
    assert (Hc : (c < n_chans (given d_reach nd x))%nat) by (rewrite (like_chans _ _ L2); exact Hch).
    destruct (given d_reach nd x) as [r|]; cbn in Hc; [|lia].
    destruct (given d_frequency nd x) as [q|]; cbn in Prf; [|contradiction].
    destruct Dr as [_ Drt]. destruct Dq as [_ Dqt]. specialize (D2 ltac:(discriminate)). cbn [n_chans] in D2.
    destruct K2 as [K2 _]. cbn in P2, P3, Hb.
    assert (V : forall u, (u <= x_n_media_times x - x_n_times x + t)%nat -> 0 <= val r g u c /\ 0 <= val q g u c)
      by (intros u Hu; split; [apply P2|apply P3]; lia).
    destruct br; cbn [option_map].
    + assert (0 <= rf_channel (paid_model x nd) (x_reach_transformer x) (w_rf w) (x_decay_rf (paid_model x nd))
                   (x_sat_rf (paid_model x nd)) (only f sel c r) q g t c
             <= rf_channel (paid_model x nd) (x_reach_transformer x) (w_rf w) (x_decay_rf (paid_model x nd))
                   (x_sat_rf (paid_model x nd)) (only f' sel c r) q g t c) as M.
      { apply rf_channel_mono; auto.
        - unfold same_shape, only. cbn. auto.
        - intros u Hu. destruct (V u Hu). split; [apply only_mono; auto|lra]. }
      split; [apply Rmult_le_pos; lra|apply Rmult_le_compat_l; lra].
    + assert (0 <= rf_channel (paid_model x nd) (x_reach_transformer x) (w_rf w) (x_decay_rf (paid_model x nd))
                   (x_sat_rf (paid_model x nd)) r (only f sel c q) g t c
             <= rf_channel (paid_model x nd) (x_reach_transformer x) (w_rf w) (x_decay_rf (paid_model x nd))
                   (x_sat_rf (paid_model x nd)) r (only f' sel c q) g t c) as M.
      { apply rf_channel_mono; auto.
        - unfold same_shape. auto.
        - intros u Hu. destruct (V u Hu). split; [lra|apply only_mono; auto]. }
      split; [apply Rmult_le_pos; lra|apply Rmult_le_compat_l; lra].
Qed.

Lemma paid_term_zero : forall x nd w ch br g t, is_paid x ch -> paid_term x nd w ch 0 None br g t = 0.
Proof.
  intros x nd w ch br g t Hch. unfold paid_term, channel_term.
  destruct (given_treatment (paid_model x nd) ch 0 None br) as (E1 & E2 & E3). rewrite E1, E2, E3.
  destruct ch as [c|c|c|c|c]; cbn [is_paid] in Hch; try contradiction; cbn [treatment d_media d_reach d_frequency].
  - destruct (d_media (x_data (paid_model x nd))) as [y|]; cbn [option_map]; [|reflexivity].
    unfold media_channel. destruct (assigned_decay _ _ _); [|ring]. destruct (assigned_sat _ _ _); [|ring].
    rewrite media_response_0; [ring|]. intros u _. unfold in_units, only. cbn [val executed].
    rewrite Nat.eqb_refl. cbn [andb]. destruct (x_media_transformer _); [unfold Rdiv|]; ring.
  - destruct (d_reach (x_data (paid_model x nd))) as [r|]; [|destruct br; reflexivity].
    destruct (d_frequency (x_data (paid_model x nd))) as [q|]; [|destruct br; reflexivity].
    destruct br; cbn [option_map]; unfold rf_channel;
    (destruct (assigned_decay _ _ _); [|ring]); (destruct (assigned_sat _ _ _); [|ring]);
    (rewrite lagged_average_0; [ring|]); intros u _.
    + unfold in_units, only. cbn [val executed]. rewrite Nat.eqb_refl. cbn [andb].
      destruct (x_reach_transformer _); [unfold Rdiv|]; ring.
    + unfold only. cbn [val executed]. rewrite Nat.eqb_refl. cbn [andb].
      replace (0 * val q g u c) with 0 by ring. rewrite saturate_0. ring.
Qed.
