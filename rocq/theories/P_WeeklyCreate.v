From Coq Require Import Reals ZArith Lia Lra String List Bool Arith Sorted FunctionalExtensionality.
From Verif Require Import Lib_Sum Lib_Pow M_Base M_AdstockHill M_Equations M_Transformers M_Aggregate
  S_Aggregate S_Adstock S_Media P_Adstock P_Media P_MediaProps P_Aggregate M_Analyzer S_Analyzer
  P_Analyzer P_AnalyzerIO S_Predictor P_Predictor S_Paid P_Paid M_Stats M_Summary S_Roi S_Summary M_Spend S_Spend
  P_Summary P_Spend M_ChannelMaps P_ChannelMaps M_WeeklyCreate S_WeeklyCreate.
Import ListNotations.
Local Open Scope R_scope.
Local Open Scope list_scope.

Lemma batches_all : forall A (b : nat) (l : list A) n, (1 <= b)%nat -> (length l <= n)%nat ->
  concat (batches n b l) = l.
Proof.
  intros A b l n Hb. revert l. induction n as [|n IH]; intros l Hn.
  - destruct l; [reflexivity|cbn in Hn; lia].
  - destruct l as [|a l]; [reflexivity|].
    change (batches (S n) b (a :: l)) with (firstn b (a :: l) :: batches n b (skipn b (a :: l))).
    change (concat (firstn b (a :: l) :: batches n b (skipn b (a :: l))))
      with (firstn b (a :: l) ++ concat (batches n b (skipn b (a :: l)))).
    rewrite IH.
    + apply firstn_skipn.
    + rewrite skipn_length. cbn [length] in *. lia.
Qed.

Lemma only_units : forall tr m y g u c, in_units tr (only m None c y) g u c = in_units tr y g u c * m.
Proof.
  intros tr m y g u c. unfold in_units, only, executed. cbn [val]. rewrite Nat.eqb_refl. cbn [andb].
  destruct tr as [k|]; [unfold Rdiv; ring|ring].
Qed.

Section Kinds.
Variable x : model.
Hypothesis Hn : (1 <= x_n_times x <= x_n_media_times x)%nat.
Hypothesis Hlag : (0 <= ctx_max_lag (x_cx x))%Z.

Lemma media_value : forall tr p df sa y y' m,
  times y = x_n_media_times x -> n_par p = chans y -> params_ok p ->
  decay_ok df (chans y) -> sat_ok sa (chans y) -> factors_pos tr -> nonneg (Some y) -> 0 <= m ->
  same_shape y' y -> (forall g t c, val y' g t c = in_units tr y g t c) ->
  exists a, adstock_hill_media (x_cx x) (times_multiplier m y') p df sa (Some (Z.of_nat (x_n_times x))) = Ok a /\
    geos a = geos y /\ times a = x_n_times x /\ chans a = chans y /\
    forall g t c, (c < chans y)%nat -> (t < x_n_times x)%nat ->
      val a g t c = media_channel x tr p df sa (only m None c y) g t c.
Proof.
  intros tr p df sa y y' m Ht Hp Hpar Hd Hs Htr Hpos Hm (Sg & St & Sc) V.
  assert (A : media_args_ok (x_cx x) (times_multiplier m y') p df sa (Z.of_nat (x_n_times x))).
  { unfold media_args_ok. cbn [times_multiplier times chans val]. split; [exact Hlag|]. split; [lia|].
    rewrite Sc. split; [exact Hp|]. split; [exact Hpar|]. split; [exact Hd|]. split; [exact Hs|].
    intros g t c Htt Hcc. rewrite V. apply Rmult_le_pos; [|exact Hm].
    apply in_units_nonneg; [exact Htr|]. apply Hpos; lia. }
  pose proof A as (H1 & H2 & H3 & H4 & H5 & H6 & H7).
  destruct (adstock_hill_media_lemma _ _ _ _ _ _ H1 H2 H3 H4 H5 H6 H7) as (a & Ha & _).
  destruct (media_val_lemma _ _ _ _ _ _ _ A Ha) as (Og & Ot & Oc & Va).
  cbn [times_multiplier geos times chans] in Og, Ot, Oc, Va.
  exists a. split; [exact Ha|]. split; [congruence|]. split; [lia|]. split; [congruence|].
  intros g t c Hc Htt. destruct (Va c ltac:(lia)) as (d & s & Hd' & _ & Hs' & _ & Vc).
  rewrite Vc by lia. unfold media_channel. cbn [only chans]. rewrite <- Sc, Hd', Hs'.
  unfold window. cbn [times_multiplier times only]. rewrite St, Ht.
  replace (times a) with (x_n_times x) by lia.
  apply response_ext. intros u _. cbn [times_multiplier val]. rewrite V, only_units. reflexivity.
Qed.

Lemma rf_value : forall tr p df sa r r' f m,
  times r = x_n_media_times x -> n_par p = chans r -> params_ok p ->
  decay_ok df (chans r) -> sat_ok sa (chans r) -> nonneg (Some f) -> same_shape f r ->
  same_shape r' r -> (forall g t c, val r' g t c = in_units tr r g t c) ->
  exists a, adstock_hill_rf (x_cx x) (times_multiplier m r') f p df sa (Some (Z.of_nat (x_n_times x))) = Ok a /\
    geos a = geos r /\ times a = x_n_times x /\ chans a = chans r /\
    forall g t c, (c < chans r)%nat -> (t < x_n_times x)%nat ->
      val a g t c = rf_channel x tr p df sa (only m None c r) f g t c.
Proof.
  intros tr p df sa r r' f m Ht Hp Hpar Hd Hs Hpos (Fg & Ft & Fc) (Sg & St & Sc) V.
  assert (A : rf_args_ok (x_cx x) (times_multiplier m r') f p df sa (Z.of_nat (x_n_times x))).
  { unfold rf_args_ok, same_shape. cbn [times_multiplier geos times chans val]. split; [exact Hlag|]. split; [lia|].
    split; [repeat split; congruence|]. rewrite Sc.
    split; [exact Hp|]. split; [exact Hpar|]. split; [exact Hd|]. split; [exact Hs|].
    intros g t c Htt Hcc. apply Hpos; lia. }
  pose proof A as (H1 & H2 & (S1 & S2 & S3) & H3 & H4 & H5 & H6 & H7).
  destruct (adstock_hill_rf_lemma _ _ _ _ _ _ _ H1 H2 S1 S2 S3 H3 H4 H5 H6 H7) as (a & Ha & _).
  destruct (rf_val_lemma _ _ _ _ _ _ _ _ A Ha) as (Og & Ot & Oc & Va).
  cbn [times_multiplier geos times chans] in Og, Ot, Oc, Va.
  exists a. split; [exact Ha|]. split; [congruence|]. split; [lia|]. split; [congruence|].
  intros g t c Hc Htt. destruct (Va c ltac:(lia)) as (d & s & Hd' & _ & Hs' & _ & Vc).
  rewrite Vc by lia. unfold rf_channel. cbn [only chans]. rewrite <- Sc, Hd', Hs'.
  unfold window. cbn [times_multiplier times only]. rewrite St, Ht.
  replace (times a) with (x_n_times x) by lia.
  apply lagged_ext. intros u _. cbn [times_multiplier val]. rewrite V, only_units. reflexivity.
Qed.
End Kinds.

Lemma paid_term_media : forall x nd w c m br g t y, given d_media nd x = Some y ->
  paid_term x nd w (ChMedia c) m None br g t
  = w_beta_gm w g c * media_channel x (x_media_transformer x) (w_media w) (x_decay_media x) (x_sat_media x)
                        (only m None c y) g t c.
Proof.
  intros x nd w c m br g t y E. unfold paid_term, channel_term, treatment, given at 1.
  cbn [paid_model x_data d_media]. rewrite E. cbn [option_map]. reflexivity.
Qed.
Lemma paid_term_rf : forall x nd w c m g t r f, given d_reach nd x = Some r -> given d_frequency nd x = Some f ->
  paid_term x nd w (ChRf c) m None true g t
  = w_beta_grf w g c * rf_channel x (x_reach_transformer x) (w_rf w) (x_decay_rf x) (x_sat_rf x)
                         (only m None c r) f g t c.
Proof.
  intros x nd w c m g t r f E E'. unfold paid_term, channel_term, treatment, given at 1 2.
  cbn [paid_model x_data d_reach d_frequency]. rewrite E, E'. cbn [option_map]. reflexivity.
Qed.

Lemma channel_cases : forall x ch, is_paid x ch ->
  (exists c, ch = ChMedia c /\ (c < n_chans (d_media (x_data x)))%nat /\ channel_index x ch = c) \/
  (exists c, ch = ChRf c /\ (c < n_chans (d_reach (x_data x)))%nat /\
             channel_index x ch = (n_chans (d_media (x_data x)) + c)%nat).
Proof.
  intros x [c|c|c|c|c] H; cbn in H; try contradiction; [left|right]; exists c; repeat split; exact H.
Qed.

Section Change.
Variables (x : model) (nd : data) (w : draw) (m : R) (d : weekly_data).
Hypotheses (W : well_formed x) (D : paid_data_ok x nd) (Dw : draw_ok x w) (P : paid_nonneg x nd)
  (T : transformers_ok x) (Hm : 0 <= m).
Hypothesis E1 : wd_media d = transform_media (given d_media nd x) (x_media_transformer x).
Hypothesis E2 : wd_reach d = transform_media (given d_reach nd x) (x_reach_transformer x).
Hypothesis E3 : wd_frequency d = given d_frequency nd x.

Lemma media_change_lemma : exists p, media_change x d w m = Ok p /\
  geos (fst p) = x_n_geos x /\ times (fst p) = x_n_times x /\ chans (fst p) = n_paid x /\ fst (snd p) = n_paid x /\
  forall ch g t, is_paid x ch -> (t < x_n_times x)%nat ->
    val (fst p) g t (channel_index x ch) * snd (snd p) g (channel_index x ch)
    = paid_term x nd w ch m None true g t - paid_term x nd w ch 0 None true g t.
Proof.
  destruct Dw as (Dm & Dr & _ & _ & P1 & P2 & _). destruct P as (N1 & _ & N3). destruct T as (T1 & _ & T3' & _).
  destruct (paid_dims x nd D) as (L1 & L2 & L3).
  pose proof (wf_times _ W) as Ht. pose proof (wf_lag _ W) as Hl.
  destruct (wf_kinds _ W) as (K1 & K2 & _).
  pose proof (wf_media _ W) as Wm. pose proof (wf_reach _ W) as Wr. pose proof (wf_freq _ W) as Wq.
  pose proof (wf_rf _ W) as Wp.
  assert (MM : given d_media nd x = None /\ d_media (x_data x) = None \/
    exists y, given d_media nd x = Some y /\
    exists z, media_part (wd_media d)
           (fun y => rbind (adstock_hill_media (x_cx x) (times_multiplier m y) (w_media w) (x_decay_media x) (x_sat_media x) (Some (Z.of_nat (length (x_time x))))) (fun a =>
                     rbind (adstock_hill_media (x_cx x) (times_multiplier 0 y) (w_media w) (x_decay_media x) (x_sat_media x) (Some (Z.of_nat (length (x_time x))))) (fun b =>
                     Ok (minus3 a b)))) (n_par (w_media w), w_beta_gm w) = Ok [(z, (n_par (w_media w), w_beta_gm w))] /\
      geos z = x_n_geos x /\ times z = x_n_times x /\ chans z = n_chans (d_media (x_data x)) /\
      n_par (w_media w) = n_chans (d_media (x_data x)) /\
      forall g t c, (c < n_chans (d_media (x_data x)))%nat -> (t < x_n_times x)%nat ->
        val z g t c * w_beta_gm w g c
        = paid_term x nd w (ChMedia c) m None true g t - paid_term x nd w (ChMedia c) 0 None true g t).
  { destruct (given d_media nd x) as [y|] eqn:G.
    2:{ left. split; [reflexivity|]. destruct (d_media (x_data x)); [contradiction|reflexivity]. }
    right. exists y. split; [reflexivity|].
    destruct (d_media (x_data x)) as [y0|] eqn:G0; [|contradiction]. cbn [n_chans].
    destruct L1 as (Lg & Lt & Lc). destruct Wm as [Wg Wt]. destruct K1 as [Kd Ks].
    specialize (Dm ltac:(discriminate)). cbn [n_chans] in Dm.
    destruct (in_units_transform (x_media_transformer x) y T1) as (y' & Ey & Sy & Vy).
    rewrite E1, Ey. cbn [media_part]. rewrite (wf_time _ W).
    rewrite <- Lc in Kd, Ks.
    destruct (media_value x Ht Hl (x_media_transformer x) (w_media w) (x_decay_media x) (x_sat_media x) y y' m
      ltac:(congruence) ltac:(congruence) P1 Kd Ks T1 N1 Hm Sy Vy) as (a & Ha & Ag & At & Ac & Av).
    destruct (media_value x Ht Hl (x_media_transformer x) (w_media w) (x_decay_media x) (x_sat_media x) y y' 0
      ltac:(congruence) ltac:(congruence) P1 Kd Ks T1 N1 (Rle_refl 0) Sy Vy) as (b & Hb & Bg & Bt & Bc & Bv).
    rewrite Ha. cbn [rbind]. rewrite Hb. cbn [rbind].
    exists (minus3 a b). split; [reflexivity|]. cbn [minus3 geos times chans val].
    split; [congruence|]. split; [exact At|]. split; [congruence|]. split; [exact Dm|].
    intros g t c Hc Htt. rewrite (Av g t c ltac:(lia) Htt), (Bv g t c ltac:(lia) Htt).
    rewrite !(paid_term_media x nd w c _ _ g t y G). ring. }
  assert (RR : given d_reach nd x = None /\ d_reach (x_data x) = None \/
    exists r, given d_reach nd x = Some r /\
    exists z, rf_part (wd_reach d) (wd_frequency d)
           (fun r f => rbind (adstock_hill_rf (x_cx x) (times_multiplier m r) f (w_rf w) (x_decay_rf x) (x_sat_rf x) (Some (Z.of_nat (length (x_time x))))) (fun a =>
                       rbind (adstock_hill_rf (x_cx x) (times_multiplier 0 r) f (w_rf w) (x_decay_rf x) (x_sat_rf x) (Some (Z.of_nat (length (x_time x))))) (fun b =>
                       Ok (minus3 a b)))) (n_par (w_rf w), w_beta_grf w) = Ok [(z, (n_par (w_rf w), w_beta_grf w))] /\
      geos z = x_n_geos x /\ times z = x_n_times x /\ chans z = n_chans (d_reach (x_data x)) /\
      n_par (w_rf w) = n_chans (d_reach (x_data x)) /\
      forall g t c, (c < n_chans (d_reach (x_data x)))%nat -> (t < x_n_times x)%nat ->
        val z g t c * w_beta_grf w g c
        = paid_term x nd w (ChRf c) m None true g t - paid_term x nd w (ChRf c) 0 None true g t).
  { destruct (given d_reach nd x) as [r|] eqn:G.
    2:{ left. split; [reflexivity|]. destruct (d_reach (x_data x)); [contradiction|reflexivity]. }
    right. exists r. split; [reflexivity|].
    destruct (d_reach (x_data x)) as [r0|] eqn:G0; [|contradiction]. cbn [n_chans].
    destruct (d_frequency (x_data x)) as [q0|] eqn:G1; cbn [paired] in Wp; [|contradiction].
    destruct (given d_frequency nd x) as [q|] eqn:G2; cbn [like] in L3; [|contradiction].
    destruct L2 as (Lg & Lt & Lc). destruct L3 as (Lg' & Lt' & Lc').
    destruct Wr as [Wg Wt]. destruct Wq as [Wg' Wt']. destruct K2 as [Kd Ks].
    specialize (Dr ltac:(discriminate)). cbn [n_chans] in Dr.
    destruct (in_units_transform (x_reach_transformer x) r T3') as (r' & Ey & Sy & Vy).
    rewrite E2, E3, Ey. cbn [rf_part]. rewrite (wf_time _ W).
    rewrite <- Lc in Kd, Ks.
    assert (Sq : same_shape q r) by (unfold same_shape; repeat split; congruence).
    destruct (rf_value x Ht Hl (x_reach_transformer x) (w_rf w) (x_decay_rf x) (x_sat_rf x) r r' q m
      ltac:(congruence) ltac:(congruence) P2 Kd Ks N3 Sq Sy Vy) as (a & Ha & Ag & At & Ac & Av).
    destruct (rf_value x Ht Hl (x_reach_transformer x) (w_rf w) (x_decay_rf x) (x_sat_rf x) r r' q 0
      ltac:(congruence) ltac:(congruence) P2 Kd Ks N3 Sq Sy Vy) as (b & Hb & Bg & Bt & Bc & Bv).
    rewrite Ha. cbn [rbind]. rewrite Hb. cbn [rbind].
    exists (minus3 a b). split; [reflexivity|]. cbn [minus3 geos times chans val].
    split; [congruence|]. split; [exact At|]. split; [congruence|]. split; [exact Dr|].
    intros g t c Hc Htt. rewrite (Av g t c ltac:(lia) Htt), (Bv g t c ltac:(lia) Htt).
    rewrite !(paid_term_rf x nd w c _ g t r q G G2). ring. }
  unfold media_change, n_paid.
  destruct MM as [[M1 M2]|(y & M1 & z & M2 & Zg & Zt & Zc & Zp & Zv)].
  - destruct RR as [[R1 R2]|(r & R1 & z' & R2 & Zg' & Zt' & Zc' & Zp' & Zv')].
    { exfalso. destruct (wf_paid _ W); congruence. }
    rewrite R2, E1, M1, M2. cbn [n_chans]. destruct (x_media_transformer x); cbn [transform_media media_part rbind app concat_parts].
    all: eexists; split; [reflexivity|]; cbn [fst snd]; split; [exact Zg'|]; split; [exact Zt'|];
      split; [exact Zc'|]; split; [exact Zp'|].
    all: intros ch g t Hc Htt; destruct (channel_cases x ch Hc) as [(c & -> & Hcc & ->)|(c & -> & Hcc & ->)];
      rewrite M2 in *; cbn [n_chans] in *; [lia|].
    all: rewrite Nat.add_0_l; exact (Zv' g t c Hcc Htt).
  - rewrite M2. cbn [rbind].
    destruct RR as [[R1 R2]|(r & R1 & z' & R2 & Zg' & Zt' & Zc' & Zp' & Zv')].
    + rewrite E2, R1, R2. cbn [n_chans]. rewrite Nat.add_0_r.
      destruct (x_reach_transformer x); cbn [transform_media rf_part rbind app concat_parts].
      all: eexists; split; [reflexivity|]; cbn [fst snd]; split; [exact Zg|]; split; [exact Zt|];
        split; [exact Zc|]; split; [exact Zp|].
      all: intros ch g t Hc Htt; destruct (channel_cases x ch Hc) as [(c & -> & Hcc & ->)|(c & -> & Hcc & ->)].
      all: try exact (Zv g t c Hcc Htt). all: rewrite R2 in Hcc; cbn [n_chans] in Hcc; lia.
    + rewrite R2. cbn [rbind app concat_parts fst snd]. unfold append3. rewrite Zg, Zt, Zg', Zt', !Nat.eqb_refl.
      cbn [andb rbind]. eexists. split; [reflexivity|]. cbn [fst snd geos times chans append_beta val].
      split; [reflexivity|]. split; [reflexivity|]. split; [congruence|]. split; [congruence|].
      intros ch g t Hc Htt. rewrite Zc, Zp.
      destruct (channel_cases x ch Hc) as [(c & -> & Hcc & ->)|(c & -> & Hcc & ->)].
      * destruct (Nat.ltb_spec c (n_chans (d_media (x_data x)))) as [_|X]; [|lia]. exact (Zv g t c Hcc Htt).
      * destruct (Nat.ltb_spec (n_chans (d_media (x_data x)) + c) (n_chans (d_media (x_data x)))) as [X|_]; [lia|].
        replace (n_chans (d_media (x_data x)) + c - n_chans (d_media (x_data x)))%nat with c by lia.
        exact (Zv' g t c Hcc Htt).
Qed.
End Change.

(** *** One multiplier *)
Definition n_weeks (x : model) (idx : option (list nat)) : nat :=
  match idx with None => x_n_times x | Some l => length l end.
Definition week (idx : option (list nat)) (j : nat) : nat :=
  match idx with None => j | Some l => nth j l 0%nat end.
Definition idx_ok (x : model) (idx : option (list nat)) : Prop :=
  match idx with None => True | Some l => Forall (fun t => (t < x_n_times x)%nat) l end.
Lemma week_lt : forall x idx j, idx_ok x idx -> (j < n_weeks x idx)%nat -> (week idx j < x_n_times x)%nat.
Proof.
  intros x [l|] j H Hj; cbn in *; [|exact Hj]. rewrite Forall_forall in H. apply H, nth_In, Hj.
Qed.

Definition used_or_one (x : model) (nd : data) : T2 :=
  match revenue_used x nd with Some r => r | None => mkT2 (x_n_geos x) (length (x_time x)) (fun _ _ => 1) end.

Lemma used_dims : forall x nd, well_formed x -> paid_data_ok x nd ->
  geos2 (used_or_one x nd) = x_n_geos x /\ times2 (used_or_one x nd) = x_n_times x.
Proof.
  intros x nd W D. unfold used_or_one, revenue_used.
  destruct D as (_ & _ & _ & F & _). pose proof (wf_rpk _ W) as R. pose proof (wf_time _ W) as Wt.
  destruct (d_revenue_per_kpi nd) as [r|].
  - destruct (d_revenue_per_kpi (x_data x)) as [r0|]; cbn in F; [|contradiction]. destruct F, R. split; congruence.
  - destruct (d_revenue_per_kpi (x_data x)) as [r0|]; [exact R|]. cbn. auto.
Qed.

Lemma total_rsum : forall n f, total (seq 0 n) f = rsum n f.
Proof.
  intros n f. unfold total. induction n as [|n IH]; [reflexivity|].
  rewrite seq_S, map_app. cbn [map rsum plus].
  replace (lsum (map f (seq 0 n) ++ [f n])) with (lsum (map f (seq 0 n)) + f n).
  - rewrite IH. reflexivity.
  - generalize (map f (seq 0 n)). induction l as [|a l IH']; cbn [app lsum]; [ring|].
    rewrite <- IH'. ring.
Qed.
Lemma rsum_lsum : forall A (l : list A) n (F : A -> nat -> R),
  rsum n (fun g => lsum (map (fun a => F a g) l)) = lsum (map (fun a => rsum n (F a)) l).
Proof.
  intros A l n F. induction l as [|a l IH]; [cbn; apply rsum_zero; reflexivity|].
  cbn [map lsum]. rewrite <- IH.
  exact (rsum_plus n (F a) (fun g => lsum (map (fun a0 => F a0 g) l))).
Qed.

Section Multiplier.
Variables (x : model) (nd : data) (d : weekly_data) (idx : option (list nat)) (uk : bool) (m : R).
Hypotheses (W : well_formed x) (D : paid_data_ok x nd) (P : paid_nonneg x nd) (T : transformers_ok x) (Hm : 0 <= m).
Hypothesis E1 : wd_media d = transform_media (given d_media nd x) (x_media_transformer x).
Hypothesis E2 : wd_reach d = transform_media (given d_reach nd x) (x_reach_transformer x).
Hypothesis E3 : wd_frequency d = given d_frequency nd x.
Hypothesis E4 : wd_revenue d = gather2 idx (used_or_one x nd).
Hypothesis Hidx : idx_ok x idx.

Definition cell_of (w : draw) (ch : channel) (j g : nat) : R :=
  weekly_unit x nd uk g (week idx j)
  * (paid_term x nd w ch m None true g (week idx j) - paid_term x nd w ch 0 None true g (week idx j)).

Lemma weekly_outcome_lemma : forall w, draw_ok x w ->
  exists y, weekly_outcome x d idx uk m w = Ok y /\
    geos y = x_n_geos x /\ times y = n_weeks x idx /\ chans y = n_paid x /\
    forall ch g j, is_paid x ch -> (j < n_weeks x idx)%nat -> val y g j (channel_index x ch) = cell_of w ch j g.
Proof.
  intros w Dw. destruct (media_change_lemma x nd w m d W D Dw P T Hm E1 E2 E3) as (p & Hp & Pg & Pt & Pc & Pb & Pv).
  unfold weekly_outcome. rewrite Hp. cbn [rbind].
  assert (Y : geos (gather3 idx (fst p)) = x_n_geos x /\ times (gather3 idx (fst p)) = n_weeks x idx /\
              chans (gather3 idx (fst p)) = n_paid x /\
              forall g j c, val (gather3 idx (fst p)) g j c = val (fst p) g (week idx j) c).
  { destruct idx; cbn; auto. }
  destruct Y as (Yg & Yt & Yc & Yv).
  rewrite Yc, Pb, Nat.eqb_refl. cbn [negb raise_if].
  assert (K : forall ch g j, is_paid x ch -> (j < n_weeks x idx)%nat ->
     kpi_inverse (kpi_tr x) g (val (gather3 idx (fst p)) g j (channel_index x ch) * snd (snd p) g (channel_index x ch))
     - kpi_inverse (kpi_tr x) g 0
     = k_stdev (kpi_tr x) * x_population x g
       * (paid_term x nd w ch m None true g (week idx j) - paid_term x nd w ch 0 None true g (week idx j))).
  { intros ch g j Hc Hj. rewrite Yv, (Pv ch g (week idx j) Hc (week_lt _ _ _ Hidx Hj)).
    unfold kpi_inverse. change (k_population (kpi_tr x) g) with (x_population x g). ring. }
  destruct uk eqn:Euk.
  - eexists. split; [reflexivity|]. cbn [geos times chans val]. split; [exact Yg|]. split; [exact Yt|]. split; [reflexivity|].
    intros ch g j Hc Hj. rewrite (K ch g j Hc Hj). unfold cell_of, weekly_unit. rewrite Euk. ring.
  - destruct (used_dims x nd W D) as [Ug Ut].
    assert (G2 : geos2 (wd_revenue d) = x_n_geos x /\ times2 (wd_revenue d) = n_weeks x idx /\
                 forall g j, val2 (wd_revenue d) g j = val2 (used_or_one x nd) g (week idx j)).
    { rewrite E4. destruct idx; cbn; auto. }
    destruct G2 as (Rg & Rt & Rv). rewrite Rg, Rt, Yg, Yt, !Nat.eqb_refl. cbn [andb negb raise_if].
    eexists. split; [reflexivity|]. cbn [geos times chans val]. split; [reflexivity|]. split; [reflexivity|]. split; [reflexivity|].
    intros ch g j Hc Hj. rewrite (K ch g j Hc Hj), Rv. unfold cell_of, weekly_unit, used_or_one. rewrite Euk.
    destruct (revenue_used x nd) as [r|]; cbn [val2]; ring.
Qed.

Lemma draws_lemma : forall draws, Forall (draw_ok x) draws ->
  exists ys, mapM (weekly_outcome x d idx uk m) draws = Ok ys /\ length ys = length draws /\
    Forall (fun y => geos y = x_n_geos x /\ times y = n_weeks x idx /\ chans y = n_paid x) ys /\
    forall ch g j, is_paid x ch -> (j < n_weeks x idx)%nat ->
      map (fun y => val y g j (channel_index x ch)) ys = map (fun w => cell_of w ch j g) draws.
Proof.
  induction draws as [|w ws IH]; intros H.
  - exists []. repeat split; auto.
  - inversion H as [|? ? Hw Hws]; subst. destruct (IH Hws) as (ys & Ey & Ly & Fy & Vy).
    destruct (weekly_outcome_lemma w Hw) as (y & E & Yg & Yt & Yc & Yv).
    exists (y :: ys). cbn [mapM]. rewrite E. cbn [rbind]. rewrite Ey. cbn [rbind].
    split; [reflexivity|]. split; [cbn; lia|]. split; [constructor; auto|].
    intros ch g j Hc Hj. cbn [map]. rewrite (Yv ch g j Hc Hj), (Vy ch g j Hc Hj). reflexivity.
Qed.

Lemma index_lt : forall ch, is_paid x ch -> (channel_index x ch < n_paid x)%nat.
Proof.
  intros ch H. unfold n_paid. destruct (channel_cases x ch H) as [(c & -> & Hc & ->)|(c & -> & Hc & ->)]; lia.
Qed.

Lemma multiplier_lemma : forall draws, Forall (draw_ok x) draws -> draws <> [] ->
  exists o, outcome_of_multiplier x d idx uk draws m = Ok o /\ length o = n_weeks x idx /\
    (forall j, (j < n_weeks x idx)%nat -> length (nth j o []) = n_paid x) /\
    forall ch j, is_paid x ch -> (j < n_weeks x idx)%nat ->
      nth (channel_index x ch) (nth j o []) 0 = average (map (weekly_change x nd uk ch m (week idx j)) draws).
Proof.
  intros draws H Hne. destruct (draws_lemma draws H) as (ys & Ey & Ly & Fy & Vy).
  unfold outcome_of_multiplier. rewrite Ey. cbn [rbind].
  destruct ys as [|y ys']; [destruct draws; [congruence|discriminate]|].
  inversion Fy as [|? ? (Yg & Yt & Yc) _]; subst. rewrite Yg, Yt, Yc.
  eexists. split; [reflexivity|]. split; [rewrite map_length, seq_length; reflexivity|].
  match goal with |- context [map ?F (seq 0 (n_weeks x idx))] => set (row := F) end.
  assert (N : forall j, (j < n_weeks x idx)%nat -> nth j (map row (seq 0 (n_weeks x idx))) [] = row j).
  { intros j Hj. rewrite (nth_indep _ [] (row 0%nat)) by (rewrite map_length, seq_length; exact Hj).
    rewrite map_nth, seq_nth by exact Hj. reflexivity. }
  split.
  { intros j Hj. rewrite (N j Hj). unfold row. rewrite map_length, seq_length. reflexivity. }
  intros ch j Hc Hj. rewrite (N j Hj). unfold row. pose proof (index_lt ch Hc) as Hi.
  match goal with |- nth ?i (map ?F _) 0 = _ => set (col := F) end.
  rewrite (nth_indep _ 0 (col 0%nat)) by (rewrite map_length, seq_length; exact Hi).
  rewrite map_nth, seq_nth by exact Hi. unfold col. cbn [plus].
  rewrite (rsum_ext _ _ (fun g => lsum (map (fun w => cell_of w ch j g) draws) / INR (length draws))).
  2:{ intros g _. rewrite (Vy ch g j Hc Hj), Ly. reflexivity. }
  rewrite rsum_div, rsum_lsum. unfold average. rewrite map_length. f_equal. f_equal.
  apply map_ext. intros w. unfold weekly_change. rewrite total_rsum. reflexivity.
Qed.
End Multiplier.

(** *** The tensors *)
Lemma positions_lemma : forall all l, NoDup all -> Forall (fun t => In t all) l ->
  exists idx, mapM (position_of all) l = Ok idx /\ length idx = length l /\
    Forall (fun t => (t < length all)%nat) idx /\
    forall j s, nth_error l j = Some s -> nth_error all (nth j idx 0%nat) = Some s.
Proof.
  intros all l ND. induction l as [|a l IH]; intros H.
  - exists []. repeat split; auto. intros [|j] s E; discriminate.
  - inversion H as [|? ? Ha Hl]; subst. destruct (IH Hl) as (idx & E & L & F & V).
    destruct (In_nth_error _ _ Ha) as [k Hk].
    assert (I : index_of a all = Some k) by (apply P_ChannelMaps.index_of_nodup; assumption).
    exists (k :: idx). cbn [mapM]. unfold position_of at 1. rewrite I. cbn [rbind]. rewrite E. cbn [rbind].
    split; [reflexivity|]. split; [cbn; lia|]. split.
    { constructor; [apply nth_error_Some; congruence|exact F]. }
    intros [|j] s Es; cbn in Es |- *; [congruence|exact (V j s Es)].
Qed.

Section Tensors.
Variables (x : model) (nd : data) (opt : option (nat -> R)).
Hypotheses (W : well_formed x) (D : paid_data_ok x nd) (P : paid_nonneg x nd)
  (Q : forall q, opt = Some q -> forall c, 0 < q c).
Let nd' := at_frequency x nd opt.

Lemma frequency_data_ok : paid_data_ok x nd'.
Proof.
  unfold nd', at_frequency. destruct opt as [q|]; [|exact D].
  destruct (given d_reach nd x) as [r|] eqn:G1; [|exact D].
  destruct (given d_frequency nd x) as [f|] eqn:G2; [|exact D].
  destruct (paid_dims x nd D) as (_ & L2 & L3). rewrite G1 in L2. rewrite G2 in L3.
  destruct D as (D1 & D2 & D3 & D4 & _).
  unfold paid_data_ok. cbn [d_media d_reach d_frequency d_revenue_per_kpi d_organic_media d_organic_reach
    d_organic_frequency d_non_media d_controls].
  split; [exact D1|]. split.
  { destruct (d_reach (x_data x)); cbn in L2 |- *; [|contradiction]. exact L2. }
  split.
  { destruct (d_frequency (x_data x)); cbn in L3 |- *; [|contradiction]. exact L3. }
  split; [exact D4|]. repeat split.
Qed.

Lemma frequency_nonneg : paid_nonneg x nd'.
Proof.
  pose proof (paid_dims x nd D) as (_ & L2 & L3). pose proof (wf_rf _ W) as Wp.
  pose proof (wf_reach _ W) as Wr. pose proof (wf_freq _ W) as Wf.
  pose proof P as (P1 & P2 & P3).
  unfold nd', at_frequency. destruct opt as [q|]; [|exact P].
  destruct (given d_reach nd x) as [r|] eqn:G1; [|exact P].
  destruct (given d_frequency nd x) as [f|] eqn:G2; [|exact P].
  specialize (Q q eq_refl).
  unfold paid_nonneg, given. cbn [d_media d_reach d_frequency].
  split; [exact P1|]. split.
  - intros g t c Ht Hc. cbn [val times chans] in *.
    destruct (d_reach (x_data x)) as [r0|]; cbn in L2; [|contradiction].
    destruct (d_frequency (x_data x)) as [f0|]; cbn in L3; [|contradiction]. cbn in Wp.
    destruct L2 as (A1 & A2 & A3). destruct L3 as (B1 & B2 & B3). destruct Wr. destruct Wf.
    apply Rmult_le_pos; [apply Rmult_le_pos|].
    + apply P2; assumption.
    + apply P3; congruence.
    + apply Rlt_le, Rinv_0_lt_compat, Q.
  - intros g t c _ _. cbn [val]. apply Rlt_le, Q.
Qed.

Lemma tensors_lemma : forall idx, let t := weekly_tensors x (fill_missing x nd false false) opt idx in
  wd_media t = transform_media (given d_media nd' x) (x_media_transformer x) /\
  wd_reach t = transform_media (given d_reach nd' x) (x_reach_transformer x) /\
  wd_frequency t = given d_frequency nd' x /\
  wd_revenue t = gather2 idx (used_or_one x nd').
Proof.
  intros idx. cbv zeta.
  assert (Fd : forall f, orelse (f nd) (f (x_data x)) = given f nd x) by (intros f; unfold given, orelse; destruct (f nd); reflexivity).
  unfold weekly_tensors, fill_missing. cbn [d_media d_reach d_frequency d_revenue_per_kpi wd_media wd_reach wd_frequency wd_revenue].
  rewrite !(Fd d_media), !(Fd d_reach), !(Fd d_frequency).
  assert (R : revenue_used x nd' = orelse (d_revenue_per_kpi nd) (d_revenue_per_kpi (x_data x))).
  { unfold revenue_used, orelse, nd', at_frequency. destruct opt, (given d_reach nd x), (given d_frequency nd x);
    cbn [d_revenue_per_kpi]; destruct (d_revenue_per_kpi nd); reflexivity. }
  unfold used_or_one. rewrite R.
  unfold nd', at_frequency in *. destruct opt as [q|].
  2:{ repeat split; destruct (orelse (d_revenue_per_kpi nd) (d_revenue_per_kpi (x_data x))); reflexivity. }
  destruct (given d_reach nd x) as [r|] eqn:G1; [|rewrite ?G1; repeat split; destruct (orelse (d_revenue_per_kpi nd) (d_revenue_per_kpi (x_data x))); reflexivity].
  destruct (given d_frequency nd x) as [f|] eqn:G2; [|rewrite ?G1, ?G2; repeat split; destruct (orelse (d_revenue_per_kpi nd) (d_revenue_per_kpi (x_data x))); reflexivity].
  cbn [fst snd]. unfold given. cbn [d_media d_reach d_frequency]. split; [reflexivity|]. split; [|split].
  - f_equal. f_equal. f_equal. extensionality g. extensionality t. extensionality c.
    unfold divide_no_nan. destruct (Req_EM_T (q c) 0) as [Z|]; [|reflexivity].
    exfalso. pose proof (Q q eq_refl c). lra.
  - reflexivity.
  - destruct (orelse (d_revenue_per_kpi nd) (d_revenue_per_kpi (x_data x))); reflexivity.
Qed.
End Tensors.

(** *** The table *)
Lemma mapM_batches : forall A B (F : A -> result B) ls bs,
  mapM (mapM F) ls = Ok bs -> mapM F (concat ls) = Ok (concat bs).
Proof.
  intros A B F ls. induction ls as [|l ls IH]; intros bs H; cbn [mapM] in H.
  - injection H as <-. reflexivity.
  - destruct (mapM F l) as [b|] eqn:E; cbn [rbind] in H; [|discriminate].
    destruct (mapM (mapM F) ls) as [r|] eqn:E'; cbn [rbind] in H; [|discriminate].
    injection H as <-. cbn [concat]. specialize (IH r eq_refl).
    revert b E. induction l as [|a l IHl]; intros b E; cbn [mapM app] in E |- *.
    + injection E as <-. exact IH.
    + destruct (F a) as [y|]; cbn [rbind] in E |- *; [|discriminate].
      destruct (mapM F l) as [ys|]; cbn [rbind] in E; [|discriminate]. injection E as <-.
      rewrite (IHl ys eq_refl). reflexivity.
Qed.
Lemma mapM_each : forall A B (F : A -> result B) l, Forall (fun a => exists b, F a = Ok b) l -> exists bs, mapM F l = Ok bs.
Proof.
  induction l as [|a l IH]; intros H; [exists []; reflexivity|]. inversion H as [|? ? (b & E) Hl]; subst.
  destruct (IH Hl) as (bs & Ebs). exists (b :: bs). cbn [mapM]. rewrite E. cbn [rbind]. rewrite Ebs. reflexivity.
Qed.
Lemma mapM_nth' : forall A B (F : A -> result B) l bs, mapM F l = Ok bs ->
  length bs = length l /\ forall i a b, (i < length l)%nat -> F (nth i l a) = Ok (nth i bs b).
Proof.
  induction l as [|a l IH]; intros bs H; cbn [mapM] in H.
  - injection H as <-. split; [reflexivity|]. intros i ? ? Hi. cbn in Hi. lia.
  - destruct (F a) as [b|] eqn:E; cbn [rbind] in H; [|discriminate].
    destruct (mapM F l) as [r|] eqn:E'; cbn [rbind] in H; [|discriminate]. injection H as <-.
    destruct (IH r eq_refl) as [L V]. split; [cbn; lia|]. intros [|i] a0 b0 Hi; cbn [nth]; [exact E|].
    apply V. cbn in Hi. lia.
Qed.
Lemma mapM_batched : forall A B (F : A -> result B) l b, (1 <= b)%nat -> Forall (fun a => exists y, F a = Ok y) l ->
  exists outs, mapM (mapM F) (batches (length l) b l) = Ok outs /\ mapM F l = Ok (concat outs).
Proof.
  intros A B F l b Hb H. pose proof (batches_all A b l (length l) Hb (Nat.le_refl _)) as C.
  assert (H' : Forall (Forall (fun a => exists y, F a = Ok y)) (batches (length l) b l)).
  { rewrite Forall_forall. intros k Hk. rewrite Forall_forall. intros a Ha. rewrite Forall_forall in H. apply H.
    rewrite <- C. apply in_concat. exists k. split; assumption. }
  destruct (mapM_each _ _ (mapM F) (batches (length l) b l)) as (outs & E).
  { rewrite Forall_forall in *. intros k Hk. apply mapM_each, H', Hk. }
  exists outs. split; [exact E|]. pose proof (mapM_batches _ _ F _ _ E) as M. rewrite C in M. exact M.
Qed.

Section Create.
Variables (f : fitted) (fm fr : bool) (nd : new_tensors) (post uk : bool) (opt : option (nat -> R))
  (sel : option (list string)) (ms : list R) (bs : Z).
Hypothesis V : create_request f fm fr nd post opt sel ms.
Let x := f_x f.
Let nd' := at_frequency x (nt_data nd) opt.
Let weeks := match sel with None => x_time x | Some l => l end.

Lemma all_chosen : chosen_times x (Some (TDates (x_time x))) = seq 0 (x_n_times x).
Proof.
  pose proof (wf_time _ (sq_model _ _ _ _ _ _ (cq_spend _ _ _ _ _ _ _ _ V))) as Wt. fold x in Wt.
  unfold chosen_times. rewrite <- Wt.
  assert (F : forall l, (forall i, In i l -> (i < length (x_time x))%nat) ->
    filter (fun i => if in_dec string_dec (nth i (x_time x) ""%string) (x_time x) then true else false) l = l).
  { induction l as [|i l IH]; intros H; [reflexivity|]. cbn [filter].
    destruct (in_dec string_dec (nth i (x_time x) ""%string) (x_time x)) as [_|N].
    - rewrite IH; [reflexivity|]. intros k Hk. apply H. right. exact Hk.
    - exfalso. apply N, nth_In, H. left. reflexivity. }
  apply F. intros i Hi. apply in_seq in Hi. lia.
Qed.

Lemma create_lemma : exists T, create f nd post uk opt sel ms bs = Ok T /\
  wt_channel T = f_paid_names f /\ wt_multiplier T = ms /\ wt_time T = weeks /\
  length (wt_outcome T) = length (f_paid_names f) /\ length (wt_spend T) = length (f_paid_names f) /\
  Forall (fun rows => length rows = length ms /\ Forall (fun row => length row = length weeks) rows) (wt_outcome T) /\
  Forall (fun row => length row = length weeks) (wt_spend T) /\
  forall ch j t label, is_paid x ch -> nth_error weeks j = Some label -> nth_error (x_time x) t = Some label ->
    (forall i, (i < length ms)%nat ->
       nth j (nth i (nth (channel_index x ch) (wt_outcome T) []) []) 0
       = average (map (weekly_change x nd' uk ch (nth i ms 0) t) (f_draws f post))) /\
    is_spent x (nt_data nd) (spend_used f (nt_spend nd)) ch (seq 0 (x_n_geos x)) [t]
      (nth j (nth (channel_index x ch) (wt_spend T) []) None).
Proof.
  pose proof V as [Vs Vd Vne Vn Vt Vw Vc Vsel Vq [Vm0 Vm]].
  pose proof Vs as [W Hn D Pm Pr Fm Fr Hg Ht].
  change (f_x f) with x in W, Hn, D, Pm, Pr, Fm, Fr, Hg, Ht, Vd, Vn, Vt, Vw, Vc, Vsel.
  pose proof (wf_time _ W) as Wt. fold x in Wt.
  unfold create. cbv zeta. change (f_x f) with x.
  assert (I : exists idx, (match sel with
         | None => Ok None
         | Some l => rbind (mapM (position_of (x_time x)) l) (fun idx => Ok (Some idx))
         end) = Ok idx /\ idx_ok x idx /\ n_weeks x idx = length weeks /\ (0 < length weeks)%nat /\
         forall j label, nth_error weeks j = Some label -> nth_error (x_time x) (week idx j) = Some label).
  { unfold weeks. destruct sel as [l|].
    - destruct (Vsel l eq_refl) as [Nl Fl]. destruct (positions_lemma (x_time x) l Vw Fl) as (idx & E & L & F & Vp).
      exists (Some idx). rewrite E. split; [reflexivity|]. split; [cbn; rewrite <- Wt; exact F|].
      split; [exact L|]. split; [destruct l; [congruence|cbn; lia]|]. exact Vp.
    - exists None. split; [reflexivity|]. split; [exact Logic.I|]. split; [cbn; congruence|].
      split; [pose proof (wf_times _ W); lia|]. intros j label E. exact E. }
  destruct I as (idx & -> & Iok & In' & Iw & Iv). cbn [rbind].
  assert (Q2 : spend_request f fm fr nd None (Some (TDates (x_time x)))).
  { constructor; change (f_x f) with x; try assumption. cbn. rewrite Forall_forall. auto. }
  set (im := (0 <? n_chans (d_media (x_data x)))%nat). set (irf := (0 <? n_chans (d_reach (x_data x)))%nat).
  assert (Hon : im || irf = true).
  { unfold im, irf. unfold n_paid in Vc. destruct (Nat.ltb_spec 0 (n_chans (d_media (x_data x)))); [reflexivity|].
    destruct (Nat.ltb_spec 0 (n_chans (d_reach (x_data x)))); [reflexivity|lia]. }
  destruct (spend_table_lemma f fm fr nd None (Some (TDates (x_time x))) false Q2 im irf Hon)
    as (sp & -> & Sc & _ & Sv). cbn [rbind]. change (f_x f) with x in Sv.
  rewrite all_chosen in Sv.
  assert (Nm : names_included f im irf = f_paid_names f).
  { unfold names_included. change (f_x f) with x. unfold n_paid in Hn. unfold im, irf.
    destruct (Nat.ltb_spec 0 (n_chans (d_media (x_data x)))); destruct (Nat.ltb_spec 0 (n_chans (d_reach (x_data x)))).
    - apply firstn_skipn.
    - rewrite app_nil_r. apply firstn_all2. lia.
    - replace (n_chans (d_media (x_data x))) with 0%nat by lia. reflexivity.
    - destruct (f_paid_names f); [|cbn in Hn; lia]. rewrite ?firstn_nil, ?skipn_nil; reflexivity. }
  assert (Col : forall ch, is_paid x ch -> column x im ch = channel_index x ch /\ included im irf ch).
  { intros ch Hc. destruct (channel_cases x ch Hc) as [(c & -> & Hcc & ->)|(c & -> & Hcc & ->)]; cbn [column included].
    - split; [reflexivity|]. unfold im. apply Nat.ltb_lt. lia.
    - split; [|unfold irf; apply Nat.ltb_lt; lia]. unfold im.
      destruct (Nat.ltb_spec 0 (n_chans (d_media (x_data x)))); [reflexivity|lia]. }
  rewrite Sc, Nm.
  destruct (tensors_lemma x (nt_data nd) opt Vq idx) as (E1 & E2 & E3 & E4).
  set (wd := weekly_tensors x (fill_missing x (nt_data nd) false false) opt idx) in *.
  pose proof (frequency_data_ok x (nt_data nd) opt D Vq) as D'. pose proof (frequency_nonneg x (nt_data nd) opt W D Vn Vq) as P'.
  fold nd' in E1, E2, E3, E4, D', P'.
  assert (Mult : forall m, 0 <= m -> exists o, outcome_of_multiplier x wd idx uk (f_draws f post) m = Ok o /\
     length o = n_weeks x idx /\ (forall j, (j < n_weeks x idx)%nat -> length (nth j o []) = n_paid x) /\
     forall ch j, is_paid x ch -> (j < n_weeks x idx)%nat ->
       nth (channel_index x ch) (nth j o []) 0 = average (map (weekly_change x nd' uk ch m (week idx j)) (f_draws f post))).
  { intros m Hm. apply (multiplier_lemma x nd' wd idx uk m W D' P' Vt Hm E1 E2 E3 E4 Iok); assumption. }
  assert (Hb : (1 <= Z.to_nat (Z.max 1 bs))%nat) by lia.
  destruct (mapM_batched _ _ (outcome_of_multiplier x wd idx uk (f_draws f post)) ms (Z.to_nat (Z.max 1 bs)) Hb) as (outs & -> & Eo).
  { rewrite Forall_forall in *. intros m Hm. destruct (Mult m (Vm m Hm)) as (o & E & _). exists o. exact E. }
  cbn [rbind]. set (os := concat outs) in *.
  destruct (mapM_nth' _ _ _ _ _ Eo) as [Lo Vo].
  assert (Each : forall i, (i < length ms)%nat ->
     length (nth i os []) = n_weeks x idx /\ (forall j, (j < n_weeks x idx)%nat -> length (nth j (nth i os []) []) = n_paid x) /\
     forall ch j, is_paid x ch -> (j < n_weeks x idx)%nat ->
       nth (channel_index x ch) (nth j (nth i os []) []) 0 = average (map (weekly_change x nd' uk ch (nth i ms 0) (week idx j)) (f_draws f post))).
  { intros i Hi. destruct (Mult (nth i ms 0)) as (o & E & R1 & R2 & R3).
    { rewrite Forall_forall in Vm. apply Vm, nth_In, Hi. }
    rewrite (Vo i 0 [] Hi) in E. injection E as E. rewrite E. auto. }
  destruct os as [|o0 os'] eqn:Eos.
  { exfalso. destruct ms; [congruence|discriminate]. }
  assert (H0 : (0 < length ms)%nat) by (cbn in Lo; lia).
  destruct (Each 0%nat H0) as (A1 & A2 & _). cbn [nth] in A1, A2.
  assert (Hh : length (hd [] o0) = length (f_paid_names f)).
  { rewrite Hn. rewrite <- (A2 0%nat ltac:(lia)). destruct o0; [reflexivity|reflexivity]. }
  rewrite A1, In', Hh. fold weeks. rewrite !Nat.eqb_refl. cbn [andb negb raise_if].
  rewrite <- Eos in *.
  eexists. split; [reflexivity|]. cbn [wt_channel wt_multiplier wt_time wt_outcome wt_spend].
  split; [reflexivity|]. split; [reflexivity|]. split; [reflexivity|].
  split; [rewrite map_length, seq_length; reflexivity|]. split; [rewrite map_length, seq_length; reflexivity|].
  set (wk := match idx with None => seq 0 (length (x_time x)) | Some l => l end).
  assert (Wk : length wk = length weeks /\ forall j, (j < length weeks)%nat -> nth j wk 0%nat = week idx j).
  { unfold wk. rewrite <- In'. destruct idx as [l|]; cbn [n_weeks week]; [auto|].
    rewrite Wt. split; [apply seq_length|]. intros j Hj. rewrite seq_nth by exact Hj. reflexivity. }
  destruct Wk as [Wl Wv].
  split.
  { rewrite Forall_forall. intros rows Hr. apply in_map_iff in Hr. destruct Hr as (c & <- & _).
    split; [rewrite map_length; exact Lo|]. rewrite Forall_forall. intros row Hrow. apply in_map_iff in Hrow.
    destruct Hrow as (table & <- & Ht'). rewrite map_length.
    destruct (In_nth _ _ [] Ht') as (i & Hi & <-). rewrite Lo in Hi. destruct (Each i Hi) as (B & _). rewrite B. exact In'. }
  split.
  { rewrite Forall_forall. intros row Hrow. apply in_map_iff in Hrow. destruct Hrow as (c & <- & _).
    rewrite map_length. exact Wl. }
  intros ch j t label Hc Hj Hlt.
  assert (Hj' : (j < length weeks)%nat) by (apply nth_error_Some; congruence).
  assert (Hw : week idx j = t).
  { apply (proj1 (NoDup_nth_error (x_time x)) Vw).
    - apply nth_error_Some. rewrite (Iv j label Hj). discriminate.
    - rewrite (Iv j label Hj), Hlt. reflexivity. }
  pose proof (index_lt x ch Hc) as Hi. rewrite <- Hn in Hi.
  assert (Nc : forall B (F : nat -> list B), nth (channel_index x ch) (map F (seq 0 (length (f_paid_names f)))) [] = F (channel_index x ch)).
  { intros B F. rewrite (nth_indep _ [] (F 0%nat)) by (rewrite map_length, seq_length; exact Hi).
    rewrite map_nth, seq_nth by exact Hi. reflexivity. }
  split.
  - intros i Hii. rewrite Nc.
    destruct (Each i Hii) as (B1 & _ & B3).
    match goal with |- context [nth i (map ?F os) []] => set (FF := F) end.
    rewrite (nth_indep _ [] (FF [])) by (rewrite map_length, Lo; exact Hii).
    rewrite map_nth. unfold FF.
    match goal with |- nth j (map ?G ?l) 0 = _ => set (GG := G); rewrite (nth_indep _ 0 (GG [])) by (rewrite map_length, B1, In'; exact Hj') end.
    rewrite map_nth. unfold GG. rewrite (B3 ch j Hc ltac:(lia)), Hw. reflexivity.
  - rewrite Nc.
    match goal with |- context [nth j (map ?F wk) None] => set (FF := F) end.
    rewrite (nth_indep _ None (FF 0%nat)) by (rewrite map_length, Wl; exact Hj').
    rewrite map_nth, (Wv j Hj'), Hw. unfold FF.
    destruct (Col ch Hc) as [C1 C2]. rewrite <- C1.
    assert (Ht' : (t < x_n_times x)%nat) by (rewrite <- Wt; apply nth_error_Some; congruence).
    specialize (Sv ch t Hc C2 ltac:(intros _; rewrite seq_length; exact Ht')).
    cbn [members position app] in Sv. rewrite seq_nth in Sv by exact Ht'. cbn [chosen_geos] in Sv. exact Sv.
Qed.
End Create.
