(** The incremental outcome of the paid channels on new data is that of the model holding the
    new data. *)
From Coq Require Import Reals ZArith Lia Lra String List Bool Arith.
From Verif Require Import Lib_Sum M_Base M_AdstockHill M_Equations M_Transformers M_Aggregate
  S_Aggregate S_Adstock S_Media S_Analyzer M_Analyzer S_Predictor P_Aggregate P_Analyzer P_AnalyzerIO
  P_Predictor S_Paid.
From Verif Require P_Budget.
Import ListNotations.
Local Open Scope R_scope.

Definition all_paid (o : options) : options :=
  mkOptions (o_scaling_factor0 o) (o_scaling_factor1 o) (o_selected_geos o) (o_selected_times o)
    (o_media_selected_times o) (o_aggregate_geos o) (o_aggregate_times o) (o_inverse o) (o_use_kpi o)
    (o_by_reach o) true None.

Lemma fits_like' : forall y y0, fits y y0 -> like (match y with Some a => Some a | None => y0 end) y0.
Proof.
  intros [a|] [b|] H; cbn in *; try contradiction; try exact Logic.I; auto.
Qed.

Lemma like_dims : forall y y0 G T, like y y0 -> dims y0 G T -> dims y G T.
Proof. intros [a|] [b|] G T H D; cbn in *; try contradiction; auto. intuition congruence. Qed.
Lemma like_chans : forall y y0, like y y0 -> n_chans y = n_chans y0.
Proof. intros [a|] [b|] H; cbn in *; try contradiction; auto. intuition congruence. Qed.
Lemma like_none : forall y y0, like y y0 -> y <> None -> y0 <> None.
Proof. intros [a|] [b|] H; cbn in *; try contradiction; congruence. Qed.
Lemma like_none' : forall y y0, like y y0 -> y0 <> None -> y <> None.
Proof. intros [a|] [b|] H; cbn in *; try contradiction; congruence. Qed.
Lemma like_kind : forall y y0 df sa, like y y0 -> kind_ok y0 df sa -> kind_ok y df sa.
Proof.
  intros [a|] [b|] df sa H K; cbn in *; try contradiction; auto.
  destruct H as (_ & _ & ->). exact K.
Qed.

Lemma paid_dims : forall x nd, paid_data_ok x nd ->
  like (given d_media nd x) (d_media (x_data x)) /\
  like (given d_reach nd x) (d_reach (x_data x)) /\
  like (given d_frequency nd x) (d_frequency (x_data x)).
Proof.
  intros x nd (H1 & H2 & H3 & _). unfold given.
  refine (conj _ (conj _ _)); apply fits_like'; assumption.
Qed.

Lemma paid_well_formed : forall x nd, well_formed x -> paid_data_ok x nd -> well_formed (paid_model x nd).
Proof.
  intros x nd W H. pose proof (paid_dims x nd H) as (L1 & L2 & L3).
  destruct H as (_ & _ & _ & H4 & _).
  destruct W as [Wt Wl Wtime Wp Wm Wr Wf Wom Wor Wof Wnm Wc Wk Wrf Worf (K1 & K2 & K3 & K4) Wpop].
  constructor; cbn [paid_model x_data x_cx x_time x_geo d_media d_reach d_frequency d_organic_media
    d_organic_reach d_organic_frequency d_non_media d_controls d_revenue_per_kpi x_decay_media x_decay_rf
    x_sat_media x_sat_rf]; try exact Logic.I; auto.
  - destruct Wp as [Wp|Wp]; [left|right]; eapply like_none'; eauto.
  - eapply like_dims; eauto.
  - eapply like_dims; eauto.
  - eapply like_dims; eauto.
  - unfold x_n_geos, x_n_times in *. cbn [x_geo x_cx x_kpi_is_revenue paid_model].
    destruct (d_revenue_per_kpi nd) as [r|], (d_revenue_per_kpi (x_data x)) as [r0|]; cbn in H4; try contradiction; auto.
    intuition congruence.
  - destruct (given d_reach nd x) as [a|], (d_reach (x_data x)) as [b|]; cbn in L2; try contradiction;
    destruct (given d_frequency nd x) as [c|], (d_frequency (x_data x)) as [e|]; cbn in L3; try contradiction;
    cbn in *; auto. intuition congruence.
  - split; [eapply like_kind; eauto|]. split; [eapply like_kind; eauto|]. split; exact Logic.I.
Qed.

Lemma paid_draw_ok : forall x nd w, paid_data_ok x nd -> draw_ok x w -> draw_ok (paid_model x nd) w.
Proof.
  intros x nd w H (D1 & D2 & _ & _ & D5). pose proof (paid_dims x nd H) as (L1 & L2 & L3).
  unfold draw_ok. cbn [paid_model x_data d_media d_reach d_organic_media d_organic_reach].
  split; [|split; [|split; [|split]]].
  - intros N. rewrite (like_chans _ _ L1). apply D1. eapply like_none; eauto.
  - intros N. rewrite (like_chans _ _ L2). apply D2. eapply like_none; eauto.
  - congruence.
  - congruence.
  - exact D5.
Qed.

Lemma paid_valid : forall x nd o bs draws, paid_data_ok x nd -> paid_request x o bs draws ->
  valid_request (paid_model x nd) (all_paid o) bs draws.
Proof.
  intros x nd o bs draws H V. destruct V. constructor; cbn [all_paid o_include_non_paid o_scaling_factor0
    o_scaling_factor1 o_selected_geos o_selected_times o_media_selected_times o_baseline_values o_inverse
    o_use_kpi]; auto.
  - eapply Forall_impl; [|eassumption]. intros w. apply paid_draw_ok. exact H.
  - exact Logic.I.
Qed.

(** ** The two runs coincide *)
Lemma use_kpi_same : forall x nd uk, paid_data_ok x nd ->
  resolve_use_kpi (paid_model x nd) uk = resolve_use_kpi x uk.
Proof.
  intros x nd uk (_ & _ & _ & H & _). unfold resolve_use_kpi.
  cbn [paid_model x_kpi_is_revenue x_data d_revenue_per_kpi].
  destruct (d_revenue_per_kpi nd), (d_revenue_per_kpi (x_data x)); cbn in H; try contradiction; reflexivity.
Qed.

Lemma modified3_fits : forall y y0, fits y y0 -> modified3 y y0 = None.
Proof.
  intros [a|] [b|] H; cbn in *; try contradiction; auto. destruct H as (_ & -> & _).
  rewrite Nat.eqb_refl. reflexivity.
Qed.
Lemma modified3_given : forall y y0, fits y y0 -> modified3 (orelse y y0) y0 = None.
Proof.
  intros [a|] [b|] H; cbn in *; try contradiction; auto; [destruct H as (_ & -> & _)|];
  rewrite Nat.eqb_refl; reflexivity.
Qed.
Lemma modified2_fits : forall y y0, fits2 y y0 -> modified2 y y0 = None.
Proof.
  intros [a|] [b|] H; cbn in *; try contradiction; auto. destruct H as (_ & ->).
  rewrite Nat.eqb_refl. reflexivity.
Qed.
Lemma modified2_given : forall y y0, fits2 y y0 -> modified2 (orelse y y0) y0 = None.
Proof.
  intros [a|] [b|] H; cbn in *; try contradiction; auto; [destruct H as (_ & ->)|];
  rewrite Nat.eqb_refl; reflexivity.
Qed.

Lemma fill_paid : forall x nd, paid_data_ok x nd ->
  fill_missing x nd false true = x_data (paid_model x nd) /\
  get_modified_times x nd = None /\
  get_modified_times x (x_data (paid_model x nd)) = None.
Proof.
  intros x nd (H1 & H2 & H3 & H4 & H5 & H6 & H7 & H8 & H9).
  split; [|split].
  - unfold fill_missing, paid_model, given, orelse. cbn [x_data]. rewrite H9.
    destruct (d_media nd), (d_reach nd), (d_frequency nd), (d_revenue_per_kpi nd); reflexivity.
  - unfold get_modified_times. rewrite H5, H6, H7, H8, H9.
    rewrite !modified3_fits by assumption. rewrite modified2_fits by assumption. reflexivity.
  - unfold get_modified_times, paid_model, given. cbn [x_data d_media d_reach d_frequency d_organic_media
      d_organic_reach d_organic_frequency d_non_media d_controls d_revenue_per_kpi].
    assert (E : forall (A : Type) (a b : option A), match a with Some r => Some r | None => b end = orelse a b)
      by (intros A [u|] b; reflexivity).
    rewrite !E. rewrite !modified3_given by assumption. rewrite modified2_given by assumption.
    destruct (d_controls (x_data x)) as [c|]; cbn; [rewrite Nat.eqb_refl|]; reflexivity.
Qed.

Lemma modified_scaled : forall x d f br np, 
  get_modified_times x (scale_data_tensors x (scale_tensors_by_multiplier d f br) np)
  = get_modified_times x (if np then d else mkData (d_media d) (d_reach d) (d_frequency d) None None None None
                            (d_controls d) (d_revenue_per_kpi d)).
Proof.
  intros x d f br np. unfold get_modified_times, scale_data_tensors, scale_tensors_by_multiplier.
  cbn [d_media d_reach d_frequency d_organic_media d_organic_reach d_organic_frequency d_non_media d_controls
    d_revenue_per_kpi].
  assert (M : forall y tr o, modified3 (transform_media y tr) o = modified3 y o)
    by (intros [y|] [tr|] o; reflexivity).
  assert (C : forall y tr o, modified3 (transform_centered y tr) o = modified3 y o)
    by (intros [y|] [tr|] o; reflexivity).
  assert (S : forall y o, modified3 (option_map (scale3 f) y) o = modified3 y o)
    by (intros [y|] o; reflexivity).
  assert (B : forall (b : bool) y o, modified3 (if b then option_map (scale3 f) y else y) o = modified3 y o)
    by (intros [] y o; [apply S|reflexivity]).
  rewrite !M, !C, !B. destruct np; cbn [d_media d_reach d_frequency d_organic_media d_organic_reach
    d_organic_frequency d_non_media d_controls d_revenue_per_kpi]; rewrite ?M, ?C, ?S, ?B; reflexivity.
Qed.

Lemma build_paid : forall x nd o f isb, paid_data_ok x nd -> o_include_non_paid o = false ->
  o_baseline_values o = None ->
  build_counterfactual_inputs x nd o f isb
  = build_counterfactual_inputs (paid_model x nd) no_data (all_paid o) f isb.
Proof.
  intros x nd o f isb H Hinc Hbase. pose proof (fill_paid x nd H) as (F1 & F2 & F3).
  unfold build_counterfactual_inputs. rewrite Hbase, Hinc. cbn [all_paid o_baseline_values o_include_non_paid
    o_media_selected_times o_selected_geos o_selected_times o_by_reach validate_baseline_numbers rbind].
  rewrite modified_no_data, F2. cbv zeta. cbn [negb]. rewrite F1, fill_no_data, F3, modified_data.
  change (validate_times (paid_model x nd) (all_paid o) None) with (validate_times x o None).
  change (x_n_media_times (paid_model x nd)) with (x_n_media_times x).
  destruct (validate_times x o None); [|reflexivity]. cbn [rbind].
  destruct (negb _); [reflexivity|]. cbn [raise_if].
  change (d_non_media (x_data (paid_model x nd))) with (@None T3). cbn [rbind].
  match goal with |- context [scale_data_tensors x (scale_tensors_by_multiplier _ ?d _) false] =>
    set (mlt := d) end.
  set (D := x_data (paid_model x nd)).
  assert (Sc : scale_data_tensors x (scale_tensors_by_multiplier D mlt (o_by_reach o)) false
             = scale_data_tensors (paid_model x nd) (scale_tensors_by_multiplier D mlt (o_by_reach o)) true).
  { unfold scale_data_tensors, scale_tensors_by_multiplier, D. cbn [paid_model x_data d_media d_reach d_frequency
      d_organic_media d_organic_reach d_organic_frequency d_non_media d_controls d_revenue_per_kpi
      x_media_transformer x_reach_transformer x_organic_media_transformer x_organic_reach_transformer
      option_map transform_media transform_centered]. reflexivity. }
  rewrite Sc. unfold package.
  assert (P1 : get_modified_times x (scale_data_tensors (paid_model x nd)
            (scale_tensors_by_multiplier D mlt (o_by_reach o)) true) = None).
  { rewrite <- Sc, modified_scaled. exact F3. }
  assert (P2 : get_modified_times (paid_model x nd) (scale_data_tensors (paid_model x nd)
            (scale_tensors_by_multiplier D mlt (o_by_reach o)) true) = None).
  { rewrite modified_scaled. apply modified_data. }
  destruct isb; rewrite P1, P2; reflexivity.
Qed.

Lemma values_paid : forall x nd o i w, paid_data_ok x nd ->
  d_revenue_per_kpi (i_data i) = d_revenue_per_kpi (x_data (paid_model x nd)) ->
  incremental_values x o i w = incremental_values (paid_model x nd) (all_paid o) i w.
Proof.
  intros x nd o i w H Hr. unfold incremental_values. cbn [all_paid o_use_kpi o_inverse].
  rewrite !use_kpi_same by exact H.
  change (get_incremental_kpi (paid_model x nd) (i_data i) w (i_baseline i))
    with (get_incremental_kpi x (i_data i) w (i_baseline i)).
  cbv zeta. destruct (get_incremental_kpi x (i_data i) w (i_baseline i)) as [y|]; [|reflexivity].
  cbn [rbind]. destruct (o_inverse o); [|reflexivity].
  unfold inverse_outcome. rewrite use_kpi_same by exact H. rewrite Hr. cbv zeta.
  change (kpi_tr (paid_model x nd)) with (kpi_tr x).
  destruct H as (_ & _ & _ & H & _). cbn [paid_model x_data d_revenue_per_kpi].
  destruct (d_revenue_per_kpi nd), (d_revenue_per_kpi (x_data x)); cbn in H; try contradiction; reflexivity.
Qed.

Lemma filter_counts : forall k k' G NT y gi ti ag at', geos y = G ->
  In (chans y) (allowed_channel_dim k) -> In (chans y) (allowed_channel_dim k') ->
  filter_and_aggregate k G NT (of3 y) gi ti ag at' true true
  = filter_and_aggregate k' G NT (of3 y) gi ti ag at' true true.
Proof.
  intros k k' G NT y gi ti ag at' Hg H H'. unfold filter_and_aggregate, resolve_media_dim.
  assert (E : forall kk, In (chans y) (allowed_channel_dim kk) ->
    shape_with_media kk G (nth (ndim (of3 y) - 2) (shape (of3 y)) 0%nat) (last_dims 3 (shape (of3 y))) = true).
  { intros kk Hk. apply shape_with_media_spec. exists (chans y). split; [exact Hk|]. cbn. congruence. }
  cbv zeta. rewrite (E k H), (E k' H'). reflexivity.
Qed.

Lemma paid_impl : forall x nd o f isb i gi ti w, well_formed x -> paid_data_ok x nd -> draw_ok x w ->
  build_counterfactual_inputs (paid_model x nd) no_data (all_paid o) f isb = Ok i ->
  incremental_outcome_impl x o i gi ti w = incremental_outcome_impl (paid_model x nd) (all_paid o) i gi ti w.
Proof.
  intros x nd o f isb i gi ti w W H Dw Hi.
  pose proof (paid_well_formed x nd W H) as W'. pose proof (paid_draw_ok x nd w H Dw) as Dw'.
  pose proof (build_rpk (paid_model x nd) (all_paid o) f isb i eq_refl Hi) as Rk.
  pose proof (build_inv (paid_model x nd) (all_paid o) f isb i eq_refl Hi) as (_ & _ & _ & _ & Hd).
  cbn [paid_model x_data d_non_media] in Hd. destruct Hd as [_ Hd]. fold (paid_model x nd) in Hd.
  unfold incremental_outcome_impl. rewrite (values_paid x nd o i w H Rk).
  destruct (incremental_values (paid_model x nd) (all_paid o) i w) as [y|] eqn:Ey; [|reflexivity]. cbn [rbind].
  unfold incremental_values in Ey. cbv zeta in Ey. inv_rbind Ey y0 Hy0.
  destruct (incremental_kpi_runs (paid_model x nd) (i_data i) w (i_baseline i) W' Dw') as (y1 & Hy1 & Yg & Yt & Yc).
  { rewrite Hd. apply scaled_scenario_same. }
  { cbn [paid_model x_data d_non_media]. congruence. }
  assert (y1 = y0) by congruence. subst y1.
  assert (E : geos y = geos y0 /\ chans y = chans y0).
  { destruct (o_inverse (all_paid o)).
    - apply inverse_inv in Ey. intuition.
    - assert (y0 = y) by congruence. subst. auto. }
  destruct E as [Eg Ec].
  pose proof (paid_dims x nd H) as (L1 & L2 & _).
  cbn [paid_model x_data d_media d_reach d_non_media d_organic_media d_organic_reach] in Yc.
  change (@n_chans (@None T3)) with 0%nat in Yc || cbn [n_chans] in Yc.
  cbn [all_paid o_aggregate_geos o_aggregate_times].
  change (x_n_geos (paid_model x nd)) with (x_n_geos x) in *.
  change (x_n_times (paid_model x nd)) with (x_n_times x) in *.
  apply filter_counts; [congruence| |];
    rewrite Ec, Yc; unfold allowed_channel_dim, allowed_n_channels, counts;
    cbn [paid_model x_data d_media d_reach d_non_media d_organic_media d_organic_reach n_media n_rf n_non_media
       n_organic_media n_organic_rf n_chans map].
  - rewrite (like_chans _ _ L1), (like_chans _ _ L2). rewrite !Nat.add_0_r. cbn. tauto.
  - rewrite !Nat.add_0_r. cbn. tauto.
Qed.

Lemma mapM_ext_in : forall A B (f g : A -> result B) l, (forall a, In a l -> f a = g a) -> mapM f l = mapM g l.
Proof.
  intros A B f g l. induction l as [|a l IH]; intros H; [reflexivity|].
  cbn [mapM]. rewrite (H a (or_introl eq_refl)). destruct (g a); [|reflexivity]. cbn [rbind].
  rewrite IH; [reflexivity|]. intros; apply H; right; assumption.
Qed.

Lemma incremental_paid : forall x nd o bs draws, well_formed x -> paid_data_ok x nd ->
  paid_request x o bs draws ->
  incremental_outcome x nd o bs draws
  = incremental_outcome (paid_model x nd) no_data (all_paid o) bs draws.
Proof.
  intros x nd o bs draws W H V. unfold incremental_outcome.
  rewrite use_kpi_same by exact H. cbn [all_paid o_use_kpi o_inverse o_scaling_factor0 o_scaling_factor1].
  change (validate_scaling (all_paid o)) with (validate_scaling o). cbv zeta.
  rewrite !(build_paid x nd o) by (exact H || exact (pr_paid _ _ _ _ V) || exact (pr_baseline _ _ _ _ V)).
  destruct (check_kpi_transformation _ _); [|reflexivity]. cbn [rbind].
  destruct (validate_scaling o); [|reflexivity]. cbn [rbind].
  fold (all_paid o).
  destruct (build_counterfactual_inputs (paid_model x nd) no_data (all_paid o) (o_scaling_factor1 o) false)
    as [i1|] eqn:E1; [|reflexivity]. cbn [rbind].
  pose proof (pr_draws _ _ _ _ V) as Hd. rewrite Forall_forall in Hd.
  match goal with |- context [rbind (if ?c then _ else _) _] => destruct c end.
  - destruct (build_counterfactual_inputs (paid_model x nd) no_data (all_paid o) (o_scaling_factor0 o) true)
      as [i0|] eqn:E0; [|reflexivity]. cbn [rbind].
    rewrite !run_batched_lemma by (exact (pr_batch _ _ _ _ V) || exact (pr_some _ _ _ _ V)).
    apply mapM_ext_in. intros w Hin.
    rewrite (paid_impl x nd o _ _ i1 _ _ w W H (Hd w Hin) E1).
    rewrite (paid_impl x nd o _ _ i0 _ _ w W H (Hd w Hin) E0). reflexivity.
  - cbn [rbind].
    rewrite !run_batched_lemma by (exact (pr_batch _ _ _ _ V) || exact (pr_some _ _ _ _ V)).
    apply mapM_ext_in. intros w Hin.
    rewrite (paid_impl x nd o _ _ i1 _ _ w W H (Hd w Hin) E1). reflexivity.
Qed.

Definition n_all (x : model) : nat :=
  (n_chans (d_media (x_data x)) + n_chans (d_reach (x_data x)) + n_chans (d_non_media (x_data x))
   + n_chans (d_organic_media (x_data x)) + n_chans (d_organic_reach (x_data x)))%nat.

Lemma incremental_shape : forall x o bs draws I k z, well_formed x -> Forall (draw_ok x) draws ->
  geos_ok x (o_selected_geos o) -> times_ok x (o_selected_times o) ->
  o_include_non_paid o = true -> incremental_outcome x no_data o bs draws = Ok I ->
  (k < length draws)%nat ->
  shape (nth k I z) = (if o_aggregate_geos o then [] else [length (chosen_geos x (o_selected_geos o))])
              ++ (if o_aggregate_times o then [] else [length (chosen_times x (o_selected_times o))])
              ++ [n_all x].
Proof.
  intros x o bs draws I k z W Hd Hg Ht Hinc HI Hk.
  destruct draws as [|w0 dr] eqn:Edr; [cbn in Hk; lia|]. rewrite <- Edr in *. clear dr Edr.
  apply (incremental_inv x o bs draws I Hinc) in HI. destruct HI as (_ & _ & i1 & Hi1 & i0 & _ & HI).
  destruct (HI k w0 z Hk) as (y1 & Hy1 & _ & _ & _ & Sh & _).
  rewrite Sh.
  unfold incremental_values in Hy1. cbv zeta in Hy1. inv_rbind Hy1 y0 Hy0.
  assert (E : chans y1 = chans y0 /\ times y1 = times y0).
  { destruct (o_inverse o).
    - apply inverse_inv in Hy1. intuition.
    - assert (y0 = y1) by congruence. subst. auto. }
  destruct E as [Ec Et].
  apply (build_inv x o _ _ i1 Hinc) in Hi1. destruct Hi1 as (_ & _ & Gi & (n & Ti) & Hi).
  assert (H : same_dims (i_data i1) (x_data x) /\ (d_non_media (x_data x) <> None -> i_baseline i1 <> None)).
  { pose proof (scaled_scenario_same x (o_scaling_factor1 o) o) as S.
    destruct (d_non_media (x_data x)) as [nm|] eqn:En.
    - destruct Hi as (tr & b & _ & _ & Hb & Hd'). split; [|rewrite Hb; discriminate]. rewrite Hd'. exact S.
    - destruct Hi as [_ Hd']. split; [rewrite Hd'; exact S|congruence]. }
  destruct H as [S Hb].
  destruct (incremental_kpi_runs x (i_data i1) (nth k draws w0) (i_baseline i1) W) as (y & Hy & _ & Yt & Yc); auto.
  { rewrite Forall_forall in Hd. apply Hd. apply nth_In. exact Hk. }
  assert (y = y0) by congruence. subst y. rewrite Ec, Et, Yc, Yt. unfold dimension.
  rewrite (chosen_geos_lemma x _ _ Gi).
  destruct (time_runs x (o_selected_times o) W Ht) as (ti & Hti & _).
  assert (ti = i_time i1) by (eapply resolve_time_indep; eauto). subst ti.
  rewrite (chosen_times_lemma x _ _ W Ht Hti). reflexivity.
Qed.

Lemma paid_documented : forall x nd o bs draws,
  well_formed x -> paid_data_ok x nd -> paid_request x o bs draws ->
  paid_nonneg x nd -> transformers_ok x ->
  exists I, incremental_outcome x nd o bs draws = Ok I /\ length I = length draws /\
    forall k w0 z, (k < length draws)%nat ->
      shape (nth k I z) = (if o_aggregate_geos o then [] else [length (chosen_geos x (o_selected_geos o))])
              ++ (if o_aggregate_times o then [] else [length (chosen_times x (o_selected_times o))])
              ++ [n_paid x] /\
      forall ch i j, is_paid x ch ->
        (o_aggregate_geos o = false -> (i < length (chosen_geos x (o_selected_geos o)))%nat) ->
        (o_aggregate_times o = false -> (j < length (chosen_times x (o_selected_times o)))%nat) ->
        at_ (nth k I z) (position (o_aggregate_geos o) i ++ position (o_aggregate_times o) j
                         ++ [channel_index x ch])
        = total (members (chosen_geos x (o_selected_geos o)) (o_aggregate_geos o) i) (fun g =>
          total (members (chosen_times x (o_selected_times o)) (o_aggregate_times o) j) (fun t =>
            outcome_per_unit (paid_model x nd) (o_inverse o) (o_use_kpi o) g t
            * (paid_term x nd (nth k draws w0) ch (o_scaling_factor1 o) (o_media_selected_times o) (o_by_reach o) g t
               - paid_term x nd (nth k draws w0) ch (o_scaling_factor0 o) (o_media_selected_times o) (o_by_reach o) g t))).
Proof.
  intros x nd o bs draws W H V Hpos Htr.
  pose proof (paid_well_formed x nd W H) as W'. pose proof (paid_valid x nd o bs draws H V) as V'.
  assert (Hpos' : media_nonneg (paid_model x nd) (x_data (paid_model x nd))).
  { destruct Hpos as (P1 & _ & P3). unfold media_nonneg, given. cbn [paid_model x_data d_media d_frequency
      d_organic_media d_organic_frequency]. fold (given d_media nd x). fold (given d_frequency nd x).
    refine (conj _ (conj _ (conj _ _))); try exact Logic.I.
    - destruct (given d_media nd x); assumption.
    - destruct (given d_frequency nd x); assumption. }
  assert (Htr' : transformers_ok (paid_model x nd)) by exact Htr.
  pose proof (paid_dims x nd H) as (L1 & L2 & _).
  assert (Hch : forall ch, is_paid x ch -> is_channel (paid_model x nd) ch /\
             channel_index (paid_model x nd) ch = channel_index x ch).
  { intros ch. destruct ch; cbn [is_paid is_channel channel_index paid_model x_data d_media d_reach]; try contradiction;
    rewrite ?(like_chans _ _ L1), ?(like_chans _ _ L2); auto. }
  rewrite (incremental_paid x nd o bs draws W H V).
  destruct (request_runs (paid_model x nd) (all_paid o) bs draws W' V') as (I & HI).
  exists I. split; [exact HI|].
  split.
  { apply (incremental_inv _ (all_paid o) bs draws I eq_refl) in HI. intuition. }
  intros k w0 z Hk. split.
  - rewrite (incremental_shape (paid_model x nd) (all_paid o) bs draws I k z W' (vr_draws _ _ _ _ V')
      (vr_geos _ _ _ _ V') (vr_times _ _ _ _ V') eq_refl HI Hk).
    unfold n_all. cbn [paid_model x_data d_media d_reach d_non_media d_organic_media d_organic_reach n_chans].
    rewrite (like_chans _ _ L1), (like_chans _ _ L2), !Nat.add_0_r. reflexivity.
  - intros ch i j Hp Hi Hj. destruct (Hch ch Hp) as [Hc Hx].
    destruct (channel_documented (paid_model x nd) (all_paid o) bs draws ch 0 W' V' Hc) as (I' & HI' & _ & HV); auto.
    { intros c E. subst ch. contradiction. }
    assert (I' = I) by congruence. subst I'.
    destruct (HV k w0 z Hk) as [_ HC]. specialize (HC i j Hi Hj). rewrite Hx in HC.
    etransitivity; [exact HC|]. unfold paid_term.
    apply total_ext'. intros g. apply total_ext'. intros t.
    cbn [all_paid o_inverse o_use_kpi o_scaling_factor1 o_scaling_factor0 o_media_selected_times o_by_reach].
    destruct ch; try contradiction; reflexivity.
Qed.
