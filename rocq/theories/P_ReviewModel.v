(** Proofs about the checks of the whole model: baseline, Bayesian p-value, goodness of fit. *)
From Coq Require Import Reals ZArith String List Bool Arith Lra Lia.
From Verif Require Import Lib_Sum M_Base M_AdstockHill M_Equations M_Transformers M_Aggregate
  S_Aggregate P_Aggregate S_Adstock S_Media S_Analyzer M_Analyzer P_Analyzer P_AnalyzerIO S_Predictor
  P_Predictor M_Stats S_Stats M_Accuracy S_Accuracy P_Accuracy P_AccuracyIO M_Review S_Review P_Review.
Import ListNotations.
Local Open Scope R_scope.

(** Mean of indicators. *)
Lemma mean_indicator : forall A (b : A -> bool) l, mean (map (fun a => if b a then 1 else 0) l) = INR (length (filter b l)) / INR (length l).
Proof.
  intros A b l. unfold mean. rewrite map_length. f_equal. induction l as [|a l IH]; [reflexivity|].
  cbn [map lsum filter]. rewrite IH. destruct (b a); cbn [length]; [rewrite S_INR; ring|ring].
Qed.
Lemma share_intro : forall A (P : A -> Prop) (b : A -> bool) l, (forall a, In a l -> (b a = true <-> P a)) ->
  share P l (INR (length (filter b l)) / INR (length l)).
Proof. intros A P b l H. exists b. split; [exact H|reflexivity]. Qed.

Lemma baseline_status : forall c p, bl_review c <= bl_fail c ->
  (baseline_case c p = FAIL <-> bl_fail c < p) /\ (baseline_case c p = REVIEW <-> bl_review c <= p <= bl_fail c) /\
  (baseline_case c p = PASS <-> p < bl_review c).
Proof.
  intros c p H. unfold baseline_case. destruct (rltb (bl_fail c) p) eqn:E1; [apply rltb_true in E1|apply rltb_false in E1];
    [|destruct (rleb (bl_review c) p) eqn:E2; [apply rleb_true in E2|apply rleb_false in E2]];
    repeat split; intros; try congruence; lra.
Qed.
Lemma n_geos_pos : forall x gs, chosen_geos x gs <> [] -> (0 < x_n_geos x)%nat.
Proof.
  intros x gs H. destruct (x_n_geos x) eqn:E; [|lia]. elim H. destruct gs; cbn [chosen_geos]; rewrite E; reflexivity.
Qed.

Section Checks.
Variables (x : model) (h : option (matrix bool)) (gs : option (list string)) (ts : option time_sel)
  (bs : Z) (draws : list draw) (g : review_config).
Hypothesis V : accuracy_request x h gs ts bs draws.
Let gl := chosen_geos x gs.
Let tl := chosen_times x ts.

Lemma baseline_check_lemma : baseline_ok x None -> exists p b,
  baseline_check x draws bs g gs ts = Ok (BaselineR (rg_baseline g) p) /\
  (forall c, (c < n_chans (d_non_media (x_data x)))%nat -> is_baseline_value x None c (b c)) /\
  share (fun w => baseline_total x b false gl tl w < 0) draws p.
Proof.
  intros Hb. destruct V as [W K Ho Dr Ne Hbs Hg Hgl Ht Mn Tr].
  destruct (negative_baseline_lemma x None gs ts false bs draws W Dr Ne Hbs Hg Ht Hb (n_geos_pos x gs Hgl) Mn Tr) as (p & b & E & B & Ep).
  exists p, b. unfold baseline_check. rewrite E. split; [reflexivity|]. split; [exact B|]. rewrite Ep. apply share_intro.
  intros w _. fold gl tl. destruct (Rlt_dec _ 0); split; intros; auto; discriminate.
Qed.

Lemma observed_sum : exists i a, package x (x_data x) gs ts None [] = Ok i /\
  filter_and_aggregate (counts x) (x_n_geos x) (x_n_times x) (observed_outcome x) (i_geo i) (i_time i) false false false false = Ok a /\
  sum_all (matrix_of a) = observed_total x gl tl.
Proof.
  destruct (actual_runs x h gs ts false bs draws V) as (input & i & at0 & Ei & Ep & Ef & Hm).
  assert (E : observed_outcome x = input).
  { pose proof (ar_model _ _ _ _ _ _ V) as W. rewrite (resolve_kpi_spec x false W) in Ei. unfold outcome_is_kpi in Ei. unfold observed_outcome.
    destruct (d_revenue_per_kpi (x_data x)); cbn in Ei; congruence. }
  exists i, at0. split; [exact Ep|]. split; [rewrite E; exact Ef|]. destruct Hm as (R1 & C1 & V1). unfold sum_all, observed_total.
  rewrite R1, C1. fold gl tl in R1, C1, V1 |- *.
  assert (T : forall l (f : nat -> R), total l f = rsum (length l) (fun i => f (nth i l 0%nat))).
  { intros l f. unfold total. rewrite <- (map_nth_seq _ 0%nat l) at 1. rewrite map_map. apply (lsum_seq (length l) 0). }
  rewrite T. apply rsum_ext. intros a Ha. rewrite T. apply rsum_ext. intros b Hb. apply V1; assumption.
Qed.

Lemma ppp_check_lemma : exists p, bayesian_ppp_check x draws bs g gs ts = Ok (PppR (rg_ppp g) p) /\
  (let E := expected_total x gl tl in
   let m := average (map E draws) in
   share (fun w => Rabs (observed_total x gl tl - m) <= Rabs (E w - m)) draws p).
Proof.
  destruct observed_sum as (i & a & Ep & Ea & Es). destruct V as [W K Ho Dr Ne Hbs Hg Hgl Ht Mn Tr].
  destruct (expected_documented x no_data gs ts true true true false bs draws W Dr Ne Hbs Hg Ht
    (or_introl eq_refl) (new_none x) Mn Tr) as (E & HE & HL & VE).
  assert (EM : map (fun t : tensor => at_ t []) E = map (expected_total x gl tl) draws).
  { assert (Hw0 : exists w0 : draw, True) by (destruct draws as [|w0 dr0]; [congruence|exists w0; exact Logic.I]).
    destruct Hw0 as [w0 _]. set (z := mkTensor [] (fun _ => 0)).
    set (FE := fun t : tensor => at_ t []). set (FD := expected_total x gl tl).
    apply (nth_ext _ _ 0 0); [rewrite !map_length; exact HL|]. intros k Hk. rewrite map_length in Hk.
    rewrite (nth_indep (map FE E) 0 (FE z)) by (rewrite map_length; exact Hk). rewrite (map_nth FE E z k).
    rewrite (nth_indep (map FD draws) 0 (FD w0)) by (rewrite map_length; lia). rewrite (map_nth FD draws w0 k).
    unfold FE, FD. destruct (VE k w0 z ltac:(lia)) as [_ Vk].
    specialize (Vk 0%nat 0%nat ltac:(discriminate) ltac:(discriminate)). cbn [position app members] in Vk.
    rewrite Vk. reflexivity. }
  eexists. unfold bayesian_ppp_check. rewrite Ep. cbn [rbind]. rewrite Ea. cbn [rbind]. rewrite HE. cbn [rbind]. split; [reflexivity|].
  cbv zeta. rewrite EM, Es. unfold ppp_value. cbv zeta. rewrite map_map.
  change (mean (map (expected_total x gl tl) draws)) with (average (map (expected_total x gl tl) draws)).
  set (m := average (map (expected_total x gl tl) draws)).
  rewrite (mean_indicator _ (fun w => rleb (Rabs (observed_total x gl tl - m)) (Rabs (expected_total x gl tl w - m)))).
  apply share_intro. intros w _. apply rleb_true.
Qed.

(** ** Goodness of fit *)
Lemma find_index : forall A (eqb : A -> A -> bool) a l i, find_label eqb a l = Some i -> index_of (eqb a) l = Ok i.
Proof.
  intros A eqb a l. induction l as [|b l IH]; intros i H; [discriminate|]. cbn in *. destruct (eqb a b); [congruence|].
  destruct (find_label eqb a l) as [j|]; [|discriminate]. cbn in H. rewrite (IH j eq_refl). cbn [rbind]. congruence.
Qed.
Lemma lookup_gof : forall d m s v, lookup d m National s = Some v ->
  (match ds_set d with
   | Some sets => rbind (index_of (same_set s) sets) (fun k => gof_value d k m) = Ok v
   | None => s = AllData /\ gof_value d 0 m = Ok v
   end).
Proof.
  intros d m s v H. unfold lookup in H. destruct (find_label metric_eqb m (ds_metric d)) as [i|] eqn:E1; [|discriminate].
  destruct (find_label gran_eqb National (ds_granularity d)) as [j|] eqn:E2; [|discriminate].
  assert (G : forall k, match nth_error (ds_value d) i with
      | Some row => match nth_error row j with Some cell => nth_error cell k | None => None end
      | None => None end = Some v -> gof_value d k m = Ok v).
  { intros k Hk. unfold gof_value. rewrite (find_index _ _ _ _ _ E1 : index_of (same_metric m) (ds_metric d) = Ok i). cbn [rbind].
    assert (E2' : index_of is_national_row (ds_granularity d) = Ok j).
    { rewrite <- (find_index _ _ _ _ _ E2). clear. induction (ds_granularity d) as [|a l IH]; [reflexivity|]. cbn. destruct a; cbn; [rewrite IH; reflexivity|reflexivity]. }
    rewrite E2'. cbn [rbind].
    destruct (nth_error (ds_value d) i) as [row|] eqn:R1; [|discriminate]. destruct (nth_error row j) as [cell|] eqn:R2; [|discriminate].
    rewrite (nth_error_nth _ _ [] R1), (nth_error_nth _ _ [] R2), (nth_error_nth _ _ None Hk). reflexivity. }
  destruct (ds_set d) as [sets|].
  - destruct (find_label set_eqb s sets) as [k|] eqn:E3; [|discriminate]. rewrite (find_index _ _ _ _ _ E3 : index_of (same_set s) sets = Ok k). cbn [rbind].
    apply G. exact H.
  - destruct s; try discriminate. split; [reflexivity|]. apply G. exact H.
Qed.

Lemma accuracy_sets : forall uk d, predictive_accuracy x h gs ts uk bs draws = Ok d -> (ds_set d = None <-> h = None).
Proof.
  intros uk d H. unfold predictive_accuracy in H. cbv zeta in H.
  apply rbind_inv in H. destruct H as (input & _ & H). apply rbind_inv in H. destruct H as (i & _ & H).
  apply rbind_inv in H. destruct H as (a & _ & H). apply rbind_inv in H. destruct H as (E & _ & H).
  apply rbind_inv in H. destruct H as (d0 & H0 & H). assert (S0 : ds_set d0 = None <-> h = None).
  { destruct h as [m|].
    - apply rbind_inv in H0. destruct H0 as (? & _ & H0). apply rbind_inv in H0. destruct H0 as (? & _ & H0).
      apply rbind_inv in H0. destruct H0 as (? & _ & H0). apply rbind_inv in H0. destruct H0 as (? & _ & H0).
      assert (d0 = d0) by reflexivity. inversion H0. cbn [ds_set]. split; discriminate.
    - inversion H0. cbn [ds_set]. split; reflexivity. }
  inversion H. destruct (x_is_national x); exact S0.
Qed.

Definition is_gof_metrics (s : evaluation_set) (m : gof_metrics) : Prop :=
  let P := pairs x h gl tl false draws National s in
  is_r_squared P (gf_r2 m) /\ is_mape P (gf_mape m) /\ is_wmape P (gf_wmape m).

Lemma r_squared_unique : forall P v w, is_r_squared P v -> is_r_squared P w -> v = w.
Proof.
  intros P [v|] [w|] H1 H2; cbn in *.
  - destruct H1 as [_ ->], H2 as [_ ->]. reflexivity.
  - destruct H1 as [H1 _]. elim (H1 H2).
  - destruct H2 as [H2 _]. elim (H2 H1).
  - reflexivity.
Qed.

Lemma gof_check_lemma : (h <> None -> by_dates ts) -> exists r,
  goodness_of_fit_check x h draws bs g gs ts = Ok (GofR r) /\
  is_gof_metrics AllData (gr_all r) /\
  (match h with
   | None => gr_train r = None /\ gr_test r = None
   | Some _ => exists a b, gr_train r = Some a /\ gr_test r = Some b /\ is_gof_metrics Train a /\ is_gof_metrics Test b
   end) /\
  (gr_case r = REVIEW <-> exists s v, (s = AllData \/ h <> None) /\
     is_r_squared (pairs x h gl tl false draws National s) (Some v) /\ v <= rg_gof g) /\
  (gr_case r = PASS \/ gr_case r = REVIEW).
Proof.
  intros Hd. destruct (accuracy_lemma x h gs ts false bs draws V Hd) as (d & Ed & HL).
  assert (A : forall s, (s = AllData \/ h <> None) -> forall m, exists v, lookup d m National s = Some v /\
    is_metric m (pairs x h gl tl false draws National s) v).
  { intros s Hs m. destruct (HL m National s) as [H1 H2]. destruct (lookup d m National s) as [v|] eqn:E.
    - exists v. split; [reflexivity|]. apply H2. reflexivity.
    - destruct (proj1 H1 eq_refl) as [[F _]|[F1 F2]]; [discriminate|]. destruct Hs; contradiction. }
  pose proof (accuracy_sets false d Ed) as HS.
  unfold goodness_of_fit_check. rewrite Ed. cbn [rbind]. unfold gof_check.
  destruct (ds_set d) as [sets|] eqn:Es.
  - assert (Hh : h <> None) by (intros E; apply HS in E; discriminate).
    assert (G : forall s, exists m, rbind (index_of (same_set s) sets) (gof_set d) = Ok m /\ is_gof_metrics s m).
    { intros s. destruct (A s (or_intror Hh) RSquared) as (v1 & L1 & M1). destruct (A s (or_intror Hh) Mape) as (v2 & L2 & M2).
      destruct (A s (or_intror Hh) WMape) as (v3 & L3 & M3). apply lookup_gof in L1, L2, L3. rewrite Es in L1, L2, L3.
      destruct (index_of (same_set s) sets) as [k|]; [|discriminate]. cbn [rbind] in *. unfold gof_set. rewrite L1, L2, L3. cbn [rbind].
      exists (mkGof v1 v2 v3). split; [reflexivity|]. split; [exact M1|]. split; [exact M2|exact M3]. }
    destruct (G AllData) as (ma & -> & Ma). destruct (G Train) as (mb & -> & Mb). destruct (G Test) as (mc & -> & Mc). cbn [rbind].
    eexists. split; [reflexivity|]. cbn [gr_all gr_train gr_test gr_case]. split; [exact Ma|]. split.
    { destruct h; [|congruence]. exists mb, mc. auto. }
    assert (L : forall s m, is_gof_metrics s m ->
      (ole (gf_r2 m) (Some (rg_gof g)) = true <-> exists v, is_r_squared (pairs x h gl tl false draws National s) (Some v) /\ v <= rg_gof g)).
    { intros s m (M & _). destruct (gf_r2 m) as [r2|] eqn:E; cbn [ole].
      - rewrite rleb_true. split; [intros Hle; exists r2; auto|]. intros (v & Hv & Hle). pose proof (r_squared_unique _ _ _ M Hv) as Q. congruence.
      - split; [discriminate|]. intros (v & Hv & _). pose proof (r_squared_unique _ _ _ M Hv). discriminate. }
    split; [|destruct (ole (gf_r2 ma) _ || _ || _); auto].
    pose proof (L AllData ma Ma) as La. pose proof (L Train mb Mb) as Lb. pose proof (L Test mc Mc) as Lc.
    destruct (ole (gf_r2 ma) (Some (rg_gof g)) || ole (gf_r2 mb) (Some (rg_gof g)) || ole (gf_r2 mc) (Some (rg_gof g))) eqn:E.
    + split; [|reflexivity]. intros _. apply orb_true_iff in E. destruct E as [E|E]; [apply orb_true_iff in E; destruct E as [E|E]|].
      * destruct (proj1 La E) as (v & ? & ?). exists AllData, v. auto.
      * destruct (proj1 Lb E) as (v & ? & ?). exists Train, v. auto.
      * destruct (proj1 Lc E) as (v & ? & ?). exists Test, v. auto.
    + apply orb_false_iff in E. destruct E as [E Ec]. apply orb_false_iff in E. destruct E as [Ea Eb].
      split; [discriminate|]. intros (s & v & _ & Hv & Hle). exfalso.
      assert (Q : exists v, is_r_squared (pairs x h gl tl false draws National s) (Some v) /\ v <= rg_gof g) by eauto.
      destruct s; [apply Lb in Q|apply Lc in Q|apply La in Q]; congruence.
  - assert (Hh : h = None) by (apply HS; reflexivity).
    destruct (A AllData (or_introl eq_refl) RSquared) as (v1 & L1 & M1). destruct (A AllData (or_introl eq_refl) Mape) as (v2 & L2 & M2).
    destruct (A AllData (or_introl eq_refl) WMape) as (v3 & L3 & M3). apply lookup_gof in L1, L2, L3. rewrite Es in L1, L2, L3.
    unfold gof_set. rewrite (proj2 L1), (proj2 L2), (proj2 L3). cbn [rbind]. eexists. split; [reflexivity|].
    cbn [gr_all gr_train gr_test gr_case]. split; [split; [exact M1|split; [exact M2|exact M3]]|].
    split; [rewrite Hh; auto|]. cbn [gf_r2]. split; [|destruct (ole v1 _); auto].
    destruct v1 as [r2|]; cbn [ole].
    + destruct (rleb r2 (rg_gof g)) eqn:E.
      * apply rleb_true in E. split; [|reflexivity]. intros _. exists AllData, r2. auto.
      * apply rleb_false in E. split; [discriminate|]. intros (s & v & [->|Hs] & Hv & Hle); [|congruence].
        pose proof (r_squared_unique _ _ _ M1 Hv) as Q. assert (r2 = v) by congruence. lra.
    + split; [discriminate|]. intros (s & v & [->|Hs] & Hv & Hle); [|congruence].
      pose proof (r_squared_unique _ _ _ M1 Hv). discriminate.
Qed.
End Checks.
