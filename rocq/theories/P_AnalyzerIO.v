From Coq Require Import Reals ZArith Lia Lra String List Bool Arith Sorted FunctionalExtensionality.
From Verif Require Import Lib_Sum Lib_Pow M_Base M_AdstockHill M_Equations M_Transformers M_Aggregate
  S_Aggregate S_Adstock S_Media P_Adstock P_Media P_MediaProps P_Aggregate M_Analyzer S_Analyzer P_Analyzer.
From Verif Require P_Budget.
Import ListNotations.
Local Open Scope R_scope.

(** Scaled historical data of a scenario, as [build_counterfactual_inputs] packages it. *)
Definition scaled_scenario (x : model) (f : R) (o : options) : data :=
  scale_data_tensors x
    (scale_tensors_by_multiplier (x_data x)
       (multiplier f (o_media_selected_times o) (x_n_media_times x)) (o_by_reach o)) true.
Definition with_non_media (d : data) (nm : option T3) : data :=
  mkData (d_media d) (d_reach d) (d_frequency d) (d_organic_media d) (d_organic_reach d)
    (d_organic_frequency d) nm (d_controls d) (d_revenue_per_kpi d).

Lemma build_inv : forall x o f isb i,
  o_include_non_paid o = true ->
  build_counterfactual_inputs x no_data o f isb = Ok i ->
  i_mask i = match o_media_selected_times o with
             | None => repeat true (x_n_media_times x) | Some l => l end /\
  length (i_mask i) = x_n_media_times x /\
  resolve_geo_indices (x_geo x) (o_selected_geos o) = Ok (i_geo i) /\
  (exists n, resolve_time_indices (x_time x) n (o_selected_times o) = Ok (i_time i)) /\
  match d_non_media (x_data x) with
  | None => i_baseline i = None /\ i_data i = scaled_scenario x f o
  | Some n => exists tr b, non_media_transformer x = Some tr /\
      compute_non_media_baseline x (o_baseline_values o) = Ok b /\
      i_baseline i = Some (fun c => centering_forward tr false 0%nat c (b c)) /\
      i_data i = if isb then with_non_media (scaled_scenario x f o)
                   (Some (mkT3 (geos n) (times n) (chans n)
                      (fun _ _ c => centering_forward tr false 0%nat c (b c))))
                 else scaled_scenario x f o
  end.
Proof.
  intros x o f isb i Hinc H. unfold build_counterfactual_inputs in H. inv_rbind H u Hu.
  rewrite modified_no_data in H. cbv zeta in H. rewrite Hinc in H. cbn [negb] in H.
  rewrite fill_no_data, modified_data in H.
  inv_rbind H v Hv. apply raise_if_inv in H. destruct H as [Hlen H].
  apply negb_false_iff, Nat.eqb_eq in Hlen. inv_rbind H base Hb.
  apply package_inv in H. destruct H as (Hd & Hbase & Hm & Hg & Ht).
  assert (ES : scale_data_tensors x
     (scale_tensors_by_multiplier (x_data x)
        (fun t : nat =>
         1 + (f - 1) * (if nth t match o_media_selected_times o with
                                 | Some l => l
                                 | None => repeat true (x_n_media_times x)
                                 end true then 1 else 0)) (o_by_reach o)) true
    = scaled_scenario x f o) by reflexivity.
  rewrite ES in Hd.
  split; [exact Hm|]. split; [rewrite Hm; exact Hlen|]. split; [exact Hg|]. split; [exact Ht|].
  destruct (d_non_media (x_data x)) as [n|] eqn:En.
  - destruct (non_media_transformer x) as [tr|]; [|discriminate].
    inv_rbind Hb b Hcb.
    assert (HB : i_baseline i = Some (fun c => centering_forward tr false 0%nat c (b c))) by congruence.
    exists tr, b. repeat (split; [assumption || reflexivity|]).
    rewrite Hd. try rewrite <- Hbase. rewrite HB. destruct isb; reflexivity.
  - assert (HB : i_baseline i = None) by congruence. split; [exact HB|].
    rewrite Hd. destruct isb; [destruct (i_baseline i); [discriminate|]|]; reflexivity.
Qed.

Lemma filter_of3_inv : forall k G NT y gi ti ag at' out,
  filter_and_aggregate k G NT (of3 y) gi ti ag at' true true = Ok out ->
  geos y = G /\ in_range G gi /\ in_range (times y) ti /\
  shape out = dimension G gi ag ++ dimension (times y) ti at' ++ [chans y] /\
  forall i j c, (ag = false -> (i < length (selection G gi))%nat) ->
      (at' = false -> (j < length (selection (times y) ti))%nat) ->
      at_ out (position ag i ++ position at' j ++ [c])
      = cell G (times y) gi ti ag at' (fun g t => val y g t c) i j.
Proof.
  intros k G NT y gi ti ag at' out H.
  assert (E : geos y = G).
  { unfold filter_and_aggregate in H. inv_rbind H md Hmd. unfold resolve_media_dim in Hmd.
    apply raise_if_inv in Hmd. destruct Hmd as [_ Hmd]. cbv zeta in Hmd.
    apply raise_if_inv in Hmd. destruct Hmd as [Hm _]. cbn [andb] in Hm. apply negb_false_iff in Hm.
    apply shape_with_media_spec in Hm. destruct Hm as (c & _ & E). cbn in E. congruence. }
  split; [exact E|].
  assert (S : shape (of3 y) = [G; times y; chans y]) by (cbn; congruence).
  exact (filter_media_inv k G NT (times y) (chans y) (of3 y) gi ti ag at' out S H).
Qed.

(** [inverse_outcome], cell by cell. *)
Lemma inverse_inv : forall x y uk rpk z, inverse_outcome x y uk rpk = Ok z ->
  geos z = geos y /\ times z = times y /\ chans z = chans y /\
  forall g t c, val z g t c =
    val y g t c * k_stdev (kpi_tr x) * k_population (kpi_tr x) g *
    (if resolve_use_kpi x uk then 1
     else match orelse rpk (d_revenue_per_kpi (x_data x)) with Some r => val2 r g t | None => 0 end).
Proof.
  intros x y uk rpk z H. unfold inverse_outcome in H. cbv zeta in H.
  replace (match rpk with Some r => Some r | None => d_revenue_per_kpi (x_data x) end)
    with (orelse rpk (d_revenue_per_kpi (x_data x))) in H by (destruct rpk; reflexivity).
  destruct (resolve_use_kpi x uk).
  - injection H as <-. cbn [geos times chans val]. repeat split. intros. unfold kpi_inverse. ring.
  - destruct (orelse rpk (d_revenue_per_kpi (x_data x))) as [r|]; [|discriminate].
    destruct (Nat.eqb (geos2 r) (geos y) && Nat.eqb (times2 r) (times y)); [|discriminate].
    injection H as <-. cbn [geos times chans val]. repeat split. intros. unfold kpi_inverse. ring.
Qed.

(** The factor from modelled KPI differences to outcome differences. *)
Definition slope_of (x : model) (inverse use_kpi : bool) (g t : nat) : R :=
  if inverse then
    k_stdev (kpi_tr x) * k_population (kpi_tr x) g
    * (if resolve_use_kpi x use_kpi then 1
       else match d_revenue_per_kpi (x_data x) with Some r => val2 r g t | None => 0 end)
  else 1.

Lemma outcome_diff : forall x inv uk g t v v',
  outcome_of x inv uk g t v - outcome_of x inv uk g t v' = slope_of x inv uk g t * (v - v').
Proof.
  intros. unfold outcome_of, slope_of. destruct inv; [|ring]. unfold kpi_inverse. ring.
Qed.

Lemma resolve_idem : forall x uk, well_formed x ->
  resolve_use_kpi x (resolve_use_kpi x uk) = resolve_use_kpi x uk.
Proof.
  intros x uk W. unfold resolve_use_kpi. pose proof (wf_rpk x W) as R.
  destruct (d_revenue_per_kpi (x_data x)).
  - destruct uk, (x_kpi_is_revenue x); reflexivity.
  - rewrite R. destruct uk; reflexivity.
Qed.

Lemma incremental_values_inv : forall x o i w y,
  well_formed x -> d_revenue_per_kpi (i_data i) = d_revenue_per_kpi (x_data x) ->
  incremental_values x o i w = Ok y ->
  exists k, get_incremental_kpi x (i_data i) w (i_baseline i) = Ok k /\
    geos y = geos k /\ times y = times k /\ chans y = chans k /\
    forall g t c, val y g t c = slope_of x (o_inverse o) (o_use_kpi o) g t * val k g t c.
Proof.
  intros x o i w y W Hr H. unfold incremental_values in H. cbv zeta in H. inv_rbind H k Hk.
  exists k. split; [exact Hk|]. unfold slope_of. destruct (o_inverse o).
  - apply inverse_inv in H. destruct H as (H1 & H2 & H3 & H4). repeat (split; [assumption|]).
    intros g t c. rewrite H4, !resolve_idem by exact W. rewrite Hr.
    replace (orelse (d_revenue_per_kpi (x_data x)) (d_revenue_per_kpi (x_data x)))
      with (d_revenue_per_kpi (x_data x)) by (destruct (d_revenue_per_kpi (x_data x)); reflexivity).
    ring.
  - assert (y = k) by congruence. subst. repeat split. intros; ring.
Qed.

(** The whole call on the historical data. *)
Definition scenario_values (x : model) (o : options) (i : inputs) (w : draw) (y : T3) : Prop :=
  incremental_values x o i w = Ok y.

Lemma incremental_inv : forall x o bs draws I,
  o_include_non_paid o = true ->
  incremental_outcome x no_data o bs draws = Ok I ->
  0 <= o_scaling_factor0 o < o_scaling_factor1 o /\
  length I = length draws /\
  exists i1, build_counterfactual_inputs x no_data o (o_scaling_factor1 o) false = Ok i1 /\
  exists i0, match i0 with
             | Some j => build_counterfactual_inputs x no_data o (o_scaling_factor0 o) true = Ok j /\
                 ~ (o_scaling_factor0 o = 0 /\ forallb (fun b => b) (i_mask i1) = true)
             | None => o_scaling_factor0 o = 0 /\ forallb (fun b => b) (i_mask i1) = true
             end /\
  forall k w0 I0, (k < length draws)%nat ->
    exists y1, incremental_values x o i1 (nth k draws w0) = Ok y1 /\
      geos y1 = x_n_geos x /\ in_range (x_n_geos x) (i_geo i1) /\ in_range (times y1) (i_time i1) /\
      shape (nth k I I0) = dimension (x_n_geos x) (i_geo i1) (o_aggregate_geos o)
        ++ dimension (times y1) (i_time i1) (o_aggregate_times o) ++ [chans y1] /\
      exists v0, 
      match i0 with
      | Some j => exists y0, incremental_values x o j (nth k draws w0) = Ok y0 /\
                    geos y0 = x_n_geos x /\ chans y0 = chans y1 /\
                    (times y1 = times y0 -> forall g t c, v0 g t c = val y0 g t c)
      | None => forall g t c, v0 g t c = 0
      end /\
      forall a b c, (o_aggregate_geos o = false -> (a < length (selection (x_n_geos x) (i_geo i1)))%nat) ->
        (o_aggregate_times o = false -> (b < length (selection (times y1) (i_time i1)))%nat) ->
        (match i0 with Some j => forall y0, incremental_values x o j (nth k draws w0) = Ok y0 ->
                                  times y1 = times y0 | None => True end) ->
        at_ (nth k I I0) (position (o_aggregate_geos o) a ++ position (o_aggregate_times o) b ++ [c])
        = cell (x_n_geos x) (times y1) (i_geo i1) (i_time i1) (o_aggregate_geos o) (o_aggregate_times o)
            (fun g t => val y1 g t c - v0 g t c) a b.
Proof.
  intros x o bs draws I Hinc H. unfold incremental_outcome in H. cbv zeta in H.
  inv_rbind H u Hu. inv_rbind H v Hv. inv_rbind H i1 Hi1. inv_rbind H i0 Hi0.
  apply run_batched_inv in H. destruct H as (_ & _ & H).
  split.
  { unfold validate_scaling in Hv.
    destruct (Rlt_dec (o_scaling_factor1 o) 0); [discriminate|].
    destruct (Rlt_dec (o_scaling_factor0 o) 0); [discriminate|].
    destruct (Rle_dec (o_scaling_factor1 o) (o_scaling_factor0 o)); [discriminate|]. lra. }
  split; [exact (mapM_length _ _ _ _ _ H)|].
  exists i1. split; [exact Hi1|]. exists i0. split.
  { destruct (Req_EM_T (o_scaling_factor0 o) 0) as [E|E]; cbn [negb orb] in Hi0.
    - destruct (forallb (fun b => b) (i_mask i1)) eqn:F; cbn [negb] in Hi0.
      + assert (i0 = None) by congruence. subst i0. auto.
      + inv_rbind Hi0 j Hj. assert (i0 = Some j) by congruence. subst i0. split; [exact Hj|].
        intros [_ F']. discriminate.
    - inv_rbind Hi0 j Hj. assert (i0 = Some j) by congruence. subst i0. split; [exact Hj|].
      intros [E' _]. contradiction. }
  intros k w0 I0 Hk.
  pose proof (mapM_nth _ _ _ _ _ H k w0 I0 Hk) as HE. cbv beta in HE.
  inv_rbind HE a Ha. unfold incremental_outcome_impl in Ha. inv_rbind Ha y1 Hy1.
  apply filter_of3_inv in Ha. destruct Ha as (G1 & R1 & R2 & S1 & V1).
  exists y1. split; [exact Hy1|]. split; [exact G1|]. split; [exact R1|]. split; [exact R2|].
  destruct i0 as [j|].
  - inv_rbind HE a0 Ha0. unfold incremental_outcome_impl in Ha0. inv_rbind Ha0 y0 Hy0.
    apply filter_of3_inv in Ha0. destruct Ha0 as (G0 & _ & _ & S0 & V0).
    unfold sub_tensor, M_Budget.zip_tensor in HE.
    destruct (shape_eqb (shape a) (shape a0)) eqn:ES; [|discriminate].
    apply P_Budget.shape_eqb_iff in ES. injection HE as HE.
    rewrite <- HE. cbn [M_Budget.shape M_Budget.at_]. split; [exact S1|].
    assert (C : chans y0 = chans y1).
    { rewrite S1, S0 in ES. apply (f_equal (@rev nat)) in ES. rewrite !rev_app_distr in ES.
      cbn in ES. congruence. }
    exists (fun g t c => val y0 g t c). split.
    + exists y0. split; [exact Hy0|]. split; [exact G0|]. split; [exact C|]. intros; reflexivity.
    + intros p q c Hp Hq Ht. specialize (Ht y0 Hy0). rewrite V1 by assumption.
      rewrite V0 by (assumption || (rewrite <- Ht; assumption)). rewrite <- Ht.
      apply Rminus_diag_uniq.
      assert (L : cell (x_n_geos x) (times y1) (i_geo i1) (i_time i1) (o_aggregate_geos o) (o_aggregate_times o)
                   (fun g t => val y1 g t c) p q
                = cell (x_n_geos x) (times y1) (i_geo i1) (i_time i1) (o_aggregate_geos o) (o_aggregate_times o)
                   (fun g t => val y1 g t c - val y0 g t c) p q
                + cell (x_n_geos x) (times y1) (i_geo i1) (i_time i1) (o_aggregate_geos o) (o_aggregate_times o)
                   (fun g t => val y0 g t c) p q).
      { rewrite <- cell_plus. apply cell_ext; auto. intros; ring. }
      rewrite L. ring.
  - assert (a = nth k I I0) by congruence. subst a. split; [exact S1|].
    exists (fun _ _ _ => 0). split; [reflexivity|]. intros p q c Hp Hq _. rewrite V1 by assumption.
    apply cell_ext; auto. intros; ring.
Qed.

(** ** Two scenarios, one draw *)
Lemma geos_of_incremental : forall x d w base y, get_incremental_kpi x d w base = Ok y ->
  exists p, (transformed_media_and_beta x d w None = Ok p \/ exists n, transformed_media_and_beta x d w (Some n) = Ok p)
    /\ geos y = geos (fst p).
Proof.
  intros x d w base y H. unfold get_incremental_kpi in H.
  inv_rbind H u Hu. inv_rbind H nt Hnt. cbv zeta in H. inv_rbind H p Hp.
  exists p. split; [destruct (Nat.eqb nt (x_n_media_times x)); eauto|].
  destruct (d_non_media d) as [n|]; [destruct base as [b|]; [|discriminate]|].
  - apply append3_inv in H. destruct H as (_ & _ & ->). reflexivity.
  - injection H as <-. reflexivity.
Qed.

(** The historical scaled scenario keeps the number of media periods. *)
Lemma incremental_transformed : forall x d w base y,
  (forall m, d_media d = Some m -> times m = x_n_media_times x) ->
  (forall m, d_reach d = Some m -> times m = x_n_media_times x) ->
  get_incremental_kpi x d w base = Ok y ->
  exists p, transformed_media_and_beta x d w None = Ok p.
Proof.
  intros x d w base y Hm Hr H. unfold get_incremental_kpi in H.
  inv_rbind H u Hu. inv_rbind H nt Hnt. cbv zeta in H. inv_rbind H p Hp.
  assert (E : nt = x_n_media_times x).
  { destruct (d_media d) as [m|]; [|destruct (d_reach d) as [r|]; [|discriminate]].
    - assert (times m = nt) by congruence. rewrite <- H0. apply Hm. reflexivity.
    - assert (times r = nt) by congruence. rewrite <- H0. apply Hr. reflexivity. }
  rewrite E, Nat.eqb_refl in Hp. eauto.
Qed.

Lemma transform_media_dims : forall y tr m, transform_media y tr = Some m ->
  exists y0, y = Some y0 /\ times m = times y0.
Proof.
  intros [y|] [tr|] m H; cbn in H; try discriminate; injection H as <-; eauto.
Qed.

Lemma scaled_media_times : forall x f o, well_formed x ->
  (forall m, d_media (scaled_scenario x f o) = Some m -> times m = x_n_media_times x) /\
  (forall m, d_reach (scaled_scenario x f o) = Some m -> times m = x_n_media_times x).
Proof.
  intros x f o W. pose proof (wf_media x W) as M. pose proof (wf_reach x W) as Rr.
  unfold scaled_scenario, scale_data_tensors. cbn [d_media d_reach].
  split; intros m H; apply transform_media_dims in H; destruct H as (y & E & ->);
  unfold scale_tensors_by_multiplier in E; cbn [d_media d_reach] in E.
  - destruct (d_media (x_data x)) as [y0|]; [|discriminate]. cbn in E. injection E as <-. cbn. apply M.
  - destruct (d_reach (x_data x)) as [y0|]; [|destruct (_ && _) in E; discriminate].
    destruct (_ && _) in E; cbn in E; injection E as <-; cbn; apply Rr.
Qed.

(** All treatments of every period multiplied by zero: nothing transformed is left. *)
Lemma zero_scenario : forall x o w p,
  well_formed x -> draw_slopes_pos w ->
  forallb (fun b => b) (match o_media_selected_times o with
             | None => repeat true (x_n_media_times x) | Some l => l end) = true ->
  transformed_media_and_beta x (scaled_scenario x 0 o) w None = Ok p -> zero3 (fst p).
Proof.
  intros x o w p W Hs Hall Hp.
  assert (M0 : forall t, multiplier 0 (o_media_selected_times o) (x_n_media_times x) t = 0).
  { intros t. unfold multiplier.
    assert (E : nth t match o_media_selected_times o with
              | Some l => l | None => repeat true (x_n_media_times x) end true = true).
    { destruct (Nat.lt_ge_cases t (length match o_media_selected_times o with
              | Some l => l | None => repeat true (x_n_media_times x) end)) as [L|L].
      - rewrite forallb_forall in Hall. apply Hall. apply nth_In. exact L.
      - apply nth_overflow. exact L. }
    rewrite E. ring. }
  assert (Z : forall y, opt_all_zero (option_map (scale3 (multiplier 0 (o_media_selected_times o) (x_n_media_times x))) y)).
  { intros [y|]; cbn; [|exact I]. intros. rewrite M0. ring. }
  pose proof (wf_rf x W) as P1. pose proof (wf_orf x W) as P2.
  apply transformed_inv in Hp. destruct Hp as (_ & _ & Hz). apply Hz; [exact Hs| | | |];
  unfold scaled_scenario, scale_data_tensors, scale_tensors_by_multiplier;
  cbn [d_media d_reach d_frequency d_organic_media d_organic_reach d_organic_frequency].
  - apply transform_media_zero, Z.
  - apply transform_media_zero, Z.
  - unfold paired in P1. destruct (d_reach (x_data x)), (d_frequency (x_data x)); try contradiction.
    + cbn [andb]. destruct (o_by_reach o); cbn [negb]; [left; apply transform_media_zero, Z|right; apply Z].
    + left. cbn. exact I.
  - unfold paired in P2. destruct (d_organic_reach (x_data x)), (d_organic_frequency (x_data x)); try contradiction.
    + cbn [andb]. destruct (o_by_reach o); cbn [negb]; [left; apply transform_media_zero, Z|right; apply Z].
    + left. cbn. exact I.
Qed.

Lemma fill_scenario1 : forall x f o, well_formed x ->
  scale_data_tensors x
    (fill_missing x (scenario x f (o_media_selected_times o) (o_by_reach o) None) true true) true
  = scaled_scenario x f o.
Proof.
  intros x f o W.
  rewrite (scenario_fill x f (o_media_selected_times o) (x_n_media_times x) (o_by_reach o) None
             (wf_rf x W) (wf_orf x W)).
  unfold scaled_scenario. f_equal.
Qed.

Lemma fill_scenario0 : forall x f o nm, well_formed x ->
  scale_data_tensors x
    (fill_missing x (scenario x f (o_media_selected_times o) (o_by_reach o) nm) true true) true
  = with_non_media (scaled_scenario x f o)
      (transform_centered (orelse nm (d_non_media (x_data x))) (non_media_transformer x)).
Proof.
  intros x f o nm W.
  rewrite (scenario_fill x f (o_media_selected_times o) (x_n_media_times x) (o_by_reach o) nm
             (wf_rf x W) (wf_orf x W)).
  reflexivity.
Qed.

(** [y0] is what is subtracted: the scenario of factor [f0] if it was evaluated, else 0. *)
Lemma two_scenarios : forall x o b f1 f0 w e1 e0 y1 i1 (i0 : option inputs) v0,
  well_formed x -> draw_slopes_pos w ->
  o_include_non_paid o = true ->
  build_counterfactual_inputs x no_data o f1 false = Ok i1 ->
  match i0 with
  | Some j => build_counterfactual_inputs x no_data o f0 true = Ok j
  | None => f0 = 0 /\ forallb (fun b => b) (i_mask i1) = true
  end ->
  (forall c, (c < n_chans (d_non_media (x_data x)))%nat -> is_baseline_value x (o_baseline_values o) c (b c)) ->
  let d1 := scale_data_tensors x (fill_missing x
    (scenario x f1 (o_media_selected_times o) (o_by_reach o) None) true true) true in
  let d0 := scale_data_tensors x (fill_missing x
    (scenario x f0 (o_media_selected_times o) (o_by_reach o) (held_at x b)) true true) true in
  kpi_means x d1 w = Ok e1 -> kpi_means x d0 w = Ok e0 ->
  get_incremental_kpi x (i_data i1) w (i_baseline i1) = Ok y1 ->
  match i0 with
  | Some j => exists y0, get_incremental_kpi x (i_data j) w (i_baseline j) = Ok y0 /\
                chans y0 = chans y1 /\ forall g t c, v0 g t c = val y0 g t c
  | None => forall g t c, v0 g t c = 0
  end ->
  geos y1 = x_n_geos x /\ times y1 = x_n_times x /\
  forall g t, (g < x_n_geos x)%nat ->
    rsum (chans y1) (fun c => val y1 g t c - v0 g t c) = val2 e1 g t - val2 e0 g t.
Proof.
  intros x o b f1 f0 w e1 e0 y1 i1 i0 v0 W Hs Hinc Hb1 Hb0 Hbv d1 d0 He1 He0 Hy1 Hy0.
  unfold d1 in He1. rewrite (fill_scenario1 x f1 o W) in He1.
  unfold d0 in He0. rewrite (fill_scenario0 x f0 o _ W) in He0. clear d1 d0.
  apply (build_inv x o f1 false i1 Hinc) in Hb1.
  destruct Hb1 as (Hmask & _ & _ & _ & Hb1).
  apply kpi_means_inv in He1. destruct He1 as (p1 & Hp1 & Hd1 & Hn1 & _ & _ & V1).
  apply kpi_means_inv in He0. destruct He0 as (p0 & Hp0 & Hd0 & _ & _ & _ & V0).
  rewrite (transformed_ext x _ (scaled_scenario x f0 o)) in Hp0 by reflexivity.
  apply check_dims_inv in Hd1, Hd0. destruct Hd1 as [G1 T1]. destruct Hd0 as [G0 T0].
  assert (Dn1 : d_non_media (scaled_scenario x f1 o)
                = transform_centered (d_non_media (x_data x)) (non_media_transformer x)) by reflexivity.
  assert (Dc : d_controls (with_non_media (scaled_scenario x f0 o)
      (transform_centered (orelse (held_at x b) (d_non_media (x_data x))) (non_media_transformer x)))
      = d_controls (scaled_scenario x f1 o)) by reflexivity.
  assert (Dn0 : d_non_media (with_non_media (scaled_scenario x f0 o)
      (transform_centered (orelse (held_at x b) (d_non_media (x_data x))) (non_media_transformer x)))
      = transform_centered (orelse (held_at x b) (d_non_media (x_data x))) (non_media_transformer x))
    by reflexivity.
  (* the media part of the subtracted scenario *)
  assert (M0 : forall g t, match i0 with
     | Some j => True
     | None => contract (fst p0) (snd (snd p0)) g t = 0 end).
  { intros g t. destruct i0; [exact I|]. destruct Hb0 as [-> Hall]. rewrite Hmask in Hall.
    apply contract_zero. exact (zero_scenario x o w p0 W Hs Hall Hp0). }
  destruct (d_non_media (x_data x)) as [n|] eqn:En.
  - destruct Hb1 as (tr & bb & Htr & Hbb & Hbase1 & Hdata1).
    assert (Ebb : forall c, (c < chans n)%nat -> bb c = b c).
    { intros c Hc. pose proof (wf_nm x W) as Wn. rewrite En in Wn. destruct Wn as [Wg _].
      apply (baseline_value_unique x (o_baseline_values o) n bb c (b c)); auto.
      all: try exact (wf_population x W). }
    rewrite Hdata1, Hbase1 in Hy1.
    destruct (get_incremental_inv x _ w _ y1 p1 Hy1 Hp1) as (Yg & Yt & HY).
    rewrite Htr in *. cbn [transform_centered] in Dn1. rewrite Dn1 in HY, V1.
    destruct HY as (b' & Hb' & Yc & _ & _ & VY).
    assert (b' = fun c => centering_forward tr false 0%nat c (bb c)) by congruence. subst b'.
    split; [congruence|]. split; [congruence|]. intros g t Hg.
    unfold held_at in Dn0, V0. rewrite En in Dn0, V0. cbn [option_map orelse transform_centered] in Dn0, V0.
    rewrite V1, V0.
    assert (Dc' : match d_controls (x_data x) with
       | Some _ => match d_controls (scaled_scenario x f1 o) with
                   | Some c => contract c (w_gamma_gc w) g t | None => 0 end | None => 0 end
     = match d_controls (x_data x) with
       | Some _ => match d_controls (scaled_scenario x f0 o) with
                   | Some c => contract c (w_gamma_gc w) g t | None => 0 end | None => 0 end) by reflexivity.
    cbn [with_non_media d_controls d_non_media]. rewrite Dc'.
    match goal with |- _ = _ + _ + _ + _ + contract ?m _ _ _ - (_ + _ + _ + _ + contract ?m' _ _ _) =>
      change (contract m (w_gamma_gn w) g t) with
       (rsum (chans n) (fun c => centering_forward tr true g c (val n g t c) * w_gamma_gn w g c));
      change (contract m' (w_gamma_gn w) g t) with
       (rsum (chans n) (fun c => centering_forward tr true g c (b c * non_media_factor x g c) * w_gamma_gn w g c)) end.
    rewrite (rsum_ext (chans n) (fun c => centering_forward tr true g c (b c * non_media_factor x g c) * w_gamma_gn w g c)
              (fun c => centering_forward tr false 0%nat c (bb c) * w_gamma_gn w g c))
      by (intros c Hc; rewrite (baseline_forward x tr (b c) g c Htr (wf_population x W g c Hg)), (Ebb c Hc); reflexivity).
    assert (EY : rsum (chans y1) (fun c => val y1 g t c)
      = contract (fst p1) (snd (snd p1)) g t
        + (rsum (chans n) (fun c => centering_forward tr true g c (val n g t c) * w_gamma_gn w g c)
           - rsum (chans n) (fun c => centering_forward tr false 0%nat c (bb c) * w_gamma_gn w g c))).
    { rewrite Yc. cbn [map3 chans]. rewrite <- rsum_minus. unfold contract.
      rewrite <- (rsum_if_app (chans (fst p1)) (chans n) (fun c => val (fst p1) g t c * snd (snd p1) g c)).
      apply rsum_ext. intros c _. rewrite VY. cbn [map3 val].
      destruct (c <? chans (fst p1))%nat; [reflexivity|]. ring. }
    assert (E0 : rsum (chans y1) (fun c => v0 g t c) = contract (fst p0) (snd (snd p0)) g t).
    { destruct i0 as [j|].
      - apply (build_inv x o f0 true j Hinc) in Hb0. destruct Hb0 as (_ & _ & _ & _ & Hb0).
        rewrite En in Hb0. destruct Hb0 as (tr' & bb' & Htr' & Hbb' & Hbase0 & Hdata0).
        assert (tr' = tr) by congruence. subst tr'.
        assert (bb' = bb) by congruence. subst bb'.
        destruct Hy0 as (y0 & Hy0 & C0 & Hv). rewrite Hdata0, Hbase0 in Hy0.
        rewrite (transformed_ext x (scaled_scenario x f0 o) (with_non_media (scaled_scenario x f0 o)
                   (Some (mkT3 (geos n) (times n) (chans n)
                      (fun _ _ c => centering_forward tr false 0%nat c (bb c)))))) in Hp0 by reflexivity.
        destruct (get_incremental_inv x _ w _ y0 p0 Hy0 Hp0) as (_ & _ & HY0).
        cbn [with_non_media d_non_media] in HY0. destruct HY0 as (b0 & Hb0' & Yc0 & _ & _ & VY0).
        assert (b0 = fun c => centering_forward tr false 0%nat c (bb c)) by congruence. subst b0.
        rewrite <- C0, Yc0. cbn [chans val] in *. unfold contract.
        rewrite <- (Rplus_0_r (rsum (chans (fst p0)) (fun c => val (fst p0) g t c * snd (snd p0) g c))).
        rewrite <- (rsum_zero (chans n) (fun _ => 0) (fun _ _ => eq_refl)).
        rewrite <- (rsum_if_app (chans (fst p0)) (chans n) (fun c => val (fst p0) g t c * snd (snd p0) g c) (fun _ => 0)).
        apply rsum_ext. intros c _. rewrite Hv, VY0.
        destruct (c <? chans (fst p0))%nat; [reflexivity|]. ring.
      - rewrite (M0 g t). rewrite (rsum_ext _ _ (fun _ => 0)) by (intros; apply Hy0). apply rsum_zero. reflexivity. }
    rewrite (rsum_minus (chans y1) (fun c => val y1 g t c) (fun c => v0 g t c)), EY, E0. ring.
  - destruct Hb1 as (Hbase1 & Hdata1). rewrite Hdata1, Hbase1 in Hy1.
    destruct (get_incremental_inv x _ w _ y1 p1 Hy1 Hp1) as (Yg & Yt & HY).
    rewrite Dn1 in HY, V1. cbn [transform_centered] in HY, V1. destruct HY as (Yc & VY).
    split; [congruence|]. split; [congruence|]. intros g t Hg.
    unfold held_at in Dn0, V0. rewrite En in Dn0, V0. cbn [option_map orelse transform_centered] in Dn0, V0.
    rewrite V1, V0. cbn [with_non_media d_controls d_non_media].
    assert (Dc' : match d_controls (x_data x) with
       | Some _ => match d_controls (scaled_scenario x f1 o) with
                   | Some c => contract c (w_gamma_gc w) g t | None => 0 end | None => 0 end
     = match d_controls (x_data x) with
       | Some _ => match d_controls (scaled_scenario x f0 o) with
                   | Some c => contract c (w_gamma_gc w) g t | None => 0 end | None => 0 end) by reflexivity.
    rewrite Dc'.
    assert (EY : rsum (chans y1) (fun c => val y1 g t c) = contract (fst p1) (snd (snd p1)) g t).
    { rewrite Yc. apply rsum_ext. intros c _. apply VY. }
    assert (E0 : rsum (chans y1) (fun c => v0 g t c) = contract (fst p0) (snd (snd p0)) g t).
    { destruct i0 as [j|].
      - apply (build_inv x o f0 true j Hinc) in Hb0. destruct Hb0 as (_ & _ & _ & _ & Hb0).
        rewrite En in Hb0. destruct Hb0 as (Hbase0 & Hdata0).
        destruct Hy0 as (y0 & Hy0 & C0 & Hv). rewrite Hdata0, Hbase0 in Hy0.
        destruct (get_incremental_inv x _ w _ y0 p0 Hy0 Hp0) as (_ & _ & HY0).
        assert (D : d_non_media (scaled_scenario x f0 o) = None).
        { unfold scaled_scenario, scale_data_tensors, scale_tensors_by_multiplier. cbn [d_non_media].
          rewrite En. reflexivity. }
        rewrite D in HY0. destruct HY0 as (Yc0 & VY0).
        rewrite <- C0, Yc0. unfold contract. apply rsum_ext. intros c _. rewrite Hv. apply VY0.
      - rewrite (M0 g t). rewrite (rsum_ext _ _ (fun _ => 0)) by (intros; apply Hy0). apply rsum_zero. reflexivity. }
    rewrite (rsum_minus (chans y1) (fun c => val y1 g t c) (fun c => v0 g t c)), EY, E0. ring.
Qed.

(** ** The two calls compared, position by position *)
Lemma position_split : forall G T gi ti ag at' pos,
  valid_position pos (dimension G gi ag ++ dimension T ti at') ->
  exists i j, pos = position ag i ++ position at' j /\
    (ag = false -> (i < length (selection G gi))%nat) /\
    (at' = false -> (j < length (selection T ti))%nat).
Proof.
  intros G T gi ti ag at' pos H. unfold valid_position, dimension, position in *.
  destruct ag, at'; cbn [app] in H.
  - exists 0%nat, 0%nat. inversion H. subst. repeat split; discriminate.
  - inversion H as [|j s l1 l2 Hj H' E1 E2]. subst. inversion H'. subst.
    exists 0%nat, j. repeat split; try discriminate. intros _. exact Hj.
  - inversion H as [|j s l1 l2 Hj H' E1 E2]. subst. inversion H'. subst.
    exists j, 0%nat. repeat split; try discriminate. intros _. exact Hj.
  - inversion H as [|i s l1 l2 Hi H' E1 E2]. subst.
    inversion H' as [|j s' l3 l4 Hj H'' E3 E4]. subst. inversion H''. subst.
    exists i, j. repeat split; intros _; assumption.
Qed.

Lemma cell_minus : forall G T gi ti ag at' f h i j,
  cell G T gi ti ag at' (fun g t => f g t - h g t) i j
  = cell G T gi ti ag at' f i j - cell G T gi ti ag at' h i j.
Proof.
  intros. assert (E : cell G T gi ti ag at' f i j
    = cell G T gi ti ag at' (fun g t => (f g t - h g t) + h g t) i j).
  { f_equal. extensionality g. extensionality t. ring. }
  rewrite E, cell_plus. ring.
Qed.

Lemma draw_ok_slopes : forall x w, draw_ok x w -> draw_slopes_pos w.
Proof.
  intros x w (_ & _ & _ & _ & P1 & P2 & P3 & P4).
  repeat split; intros c Hc; [apply P1|apply P2|apply P3|apply P4]; exact Hc.
Qed.

Lemma build_rpk : forall x o f isb i, o_include_non_paid o = true ->
  build_counterfactual_inputs x no_data o f isb = Ok i ->
  d_revenue_per_kpi (i_data i) = d_revenue_per_kpi (x_data x).
Proof.
  intros x o f isb i Hinc H. apply (build_inv x o f isb i Hinc) in H.
  destruct H as (_ & _ & _ & _ & H). destruct (d_non_media (x_data x)).
  - destruct H as (tr & b & _ & _ & _ & H). rewrite H. destruct isb; reflexivity.
  - destruct H as [_ H]. rewrite H. reflexivity.
Qed.

Lemma baseline_exp_inv : forall x v gs ts ag at' inv uk bs draws E,
  baseline_expected_outcome x v gs ts ag at' inv uk bs draws = Ok E ->
  exists b, (d_non_media (x_data x) <> None -> compute_non_media_baseline x v = Ok b) /\
    expected_outcome x (baseline_data x b) gs ts ag at' inv uk bs draws = Ok E.
Proof.
  intros x v gs ts ag at' inv uk bs draws E H. unfold baseline_expected_outcome in H.
  inv_rbind H d Hd. apply build_baseline_inv in Hd. destruct Hd as (_ & b & -> & Hb). eauto.
Qed.

(** Times of the incremental KPI of a scenario of the historical data. *)
Lemma build_times : forall x o f isb i w y, well_formed x -> o_include_non_paid o = true ->
  build_counterfactual_inputs x no_data o f isb = Ok i ->
  get_incremental_kpi x (i_data i) w (i_baseline i) = Ok y -> times y = x_n_times x.
Proof.
  intros x o f isb i w y W Hinc Hb Hy. apply (build_inv x o f isb i Hinc) in Hb.
  destruct Hb as (_ & _ & _ & _ & Hb).
  assert (Hd : exists nm, i_data i = with_non_media (scaled_scenario x f o) nm).
  { destruct (d_non_media (x_data x)).
    - destruct Hb as (tr & b & _ & _ & _ & Hd). destruct isb; [eauto|].
      exists (d_non_media (scaled_scenario x f o)). rewrite Hd. reflexivity.
    - destruct Hb as [_ Hd]. exists (d_non_media (scaled_scenario x f o)). rewrite Hd. reflexivity. }
  destruct Hd as [nm Hd]. rewrite Hd in Hy.
  destruct (scaled_media_times x f o W) as [Hm Hr].
  destruct (incremental_transformed x (with_non_media (scaled_scenario x f o) nm) w _ y Hm Hr Hy) as [p Hp].
  destruct (get_incremental_inv x _ w _ y p Hy Hp) as (_ & Yt & _). rewrite Yt.
  apply transformed_inv in Hp. destruct Hp as (_ & Ht & _). apply Ht. reflexivity.
Qed.

Lemma total_is_difference_lemma : forall x o b bs bs1 bs0 draws I E1 E0,
  well_formed x -> Forall (draw_ok x) draws -> o_include_non_paid o = true ->
  (forall c, (c < n_chans (d_non_media (x_data x)))%nat ->
     is_baseline_value x (o_baseline_values o) c (b c)) ->
  incremental_outcome x no_data o bs draws = Ok I ->
  expected_outcome x
    (scenario x (o_scaling_factor1 o) (o_media_selected_times o) (o_by_reach o) None)
    (o_selected_geos o) (o_selected_times o) (o_aggregate_geos o) (o_aggregate_times o)
    (o_inverse o) (o_use_kpi o) bs1 draws = Ok E1 ->
  expected_outcome x
    (scenario x (o_scaling_factor0 o) (o_media_selected_times o) (o_by_reach o) (held_at x b))
    (o_selected_geos o) (o_selected_times o) (o_aggregate_geos o) (o_aggregate_times o)
    (o_inverse o) (o_use_kpi o) bs0 draws = Ok E0 ->
  length I = length draws /\ length E1 = length draws /\ length E0 = length draws /\
  forall k z, (k < length draws)%nat ->
    shape (nth k E0 z) = shape (nth k E1 z) /\
    exists C, shape (nth k I z) = shape (nth k E1 z) ++ [C] /\
    forall pos, valid_position pos (shape (nth k E1 z)) ->
      rsum C (fun c => at_ (nth k I z) (pos ++ [c])) = at_ (nth k E1 z) pos - at_ (nth k E0 z) pos.
Proof.
  intros x o b bs bs1 bs0 draws I E1 E0 W Hw Hinc Hbv HI HE1 HE0.
  destruct (incremental_inv x o bs draws I Hinc HI) as (_ & LI & i1 & Hi1 & i0 & Hi0 & HIk).
  destruct (expected_inv _ (scenario x (o_scaling_factor1 o) (o_media_selected_times o) (o_by_reach o) None)
              _ _ _ _ _ _ _ _ _ eq_refl HE1) as (LE1 & gi1 & ti1 & n1 & G1 & T1 & HE1k).
  destruct (expected_inv _ (scenario x (o_scaling_factor0 o) (o_media_selected_times o) (o_by_reach o) (held_at x b))
              _ _ _ _ _ _ _ _ _ eq_refl HE0) as (LE0 & gi0 & ti0 & n0 & G0 & T0 & HE0k).
  repeat (split; [assumption|]). intros k z Hk.
  pose proof (build_inv x o _ _ i1 Hinc Hi1) as (_ & _ & Gi & (n & Ti) & _).
  assert (gi1 = i_geo i1) by congruence. assert (gi0 = i_geo i1) by congruence. subst gi1 gi0.
  assert (ti1 = i_time i1) by (eapply resolve_time_indep; eauto).
  assert (ti0 = i_time i1) by (eapply resolve_time_indep; eauto). subst ti1 ti0.
  destruct draws as [|w0 draws']; [cbn in Hk; lia|]. set (draws := w0 :: draws') in *.
  destruct (HE1k k w0 z Hk) as (e1 & Hm1 & Rg & Rt & S1 & V1).
  destruct (HE0k k w0 z Hk) as (e0 & Hm0 & _ & _ & S0 & V0).
  destruct (HIk k w0 z Hk) as (y1 & Hy1 & Yg & _ & _ & SI & v0 & Hv0 & VI).
  assert (Hwk : draw_slopes_pos (nth k draws w0)).
  { apply (draw_ok_slopes x). rewrite Forall_forall in Hw. apply Hw, nth_In. exact Hk. }
  pose proof (build_rpk x o _ _ i1 Hinc Hi1) as R1.
  destruct (incremental_values_inv x o i1 _ y1 W R1 Hy1) as (k1 & Hk1 & K1g & K1t & K1c & K1v).
  assert (Ty1 : times y1 = x_n_times x)
    by (rewrite K1t; eapply build_times; eauto).
  (* what is subtracted, in modelled units *)
  assert (Hsub : exists u0,
    match i0 with
    | Some j => exists y0, get_incremental_kpi x (i_data j) (nth k draws w0) (i_baseline j) = Ok y0 /\
                  chans y0 = chans k1 /\ forall g t c, u0 g t c = val y0 g t c
    | None => forall g t c, u0 g t c = 0
    end /\ (forall g t c, v0 g t c = slope_of x (o_inverse o) (o_use_kpi o) g t * u0 g t c) /\
    match i0 with Some j => forall y0, incremental_values x o j (nth k draws w0) = Ok y0 ->
                                  times y1 = times y0 | None => True end).
  { destruct i0 as [j|].
    - destruct Hi0 as [Hj _]. destruct Hv0 as (y0 & Hy0 & Y0g & Y0c & Hv0).
      pose proof (build_rpk x o _ _ j Hinc Hj) as R0.
      destruct (incremental_values_inv x o j _ y0 W R0 Hy0) as (k0 & Hk0 & K0g & K0t & K0c & K0v).
      assert (Ty0 : times y0 = x_n_times x)
        by (rewrite K0t; eapply build_times; eauto).
      exists (fun g t c => val k0 g t c). split.
      { exists k0. split; [exact Hk0|]. split; [congruence|]. reflexivity. }
      split.
      { intros g t c. rewrite Hv0 by congruence. apply K0v. }
      { intros y' Hy'. assert (y' = y0) by congruence. subst. congruence. }
    - exists (fun _ _ _ => 0). split; [reflexivity|]. split; [|exact Logic.I].
      intros g t c. rewrite Hv0. ring. }
  destruct Hsub as (u0 & Hu0 & Hvu & Htimes).
  assert (Hi0' : match i0 with
    | Some j => build_counterfactual_inputs x no_data o (o_scaling_factor0 o) true = Ok j
    | None => o_scaling_factor0 o = 0 /\ forallb (fun b => b) (i_mask i1) = true
    end) by (destruct i0; [apply Hi0|exact Hi0]).
  destruct (two_scenarios x o b (o_scaling_factor1 o) (o_scaling_factor0 o) (nth k draws w0)
              e1 e0 k1 i1 i0 u0 W Hwk Hinc Hi1 Hi0' Hbv Hm1 Hm0 Hk1 Hu0) as (_ & _ & HD).
  split; [congruence|]. exists (chans y1). rewrite Ty1 in *.
  split; [rewrite SI, S1, app_assoc; reflexivity|].
  intros pos Hpos. rewrite S1 in Hpos. apply position_split in Hpos.
  destruct Hpos as (a & d & -> & Ha & Hd).
  rewrite V1, V0 by assumption.
  rewrite <- cell_minus.
  rewrite (rsum_ext (chans y1) (fun c => at_ (nth k I z) ((position (o_aggregate_geos o) a ++ position (o_aggregate_times o) d) ++ [c]))
     (fun c => cell (x_n_geos x) (x_n_times x) (i_geo i1) (i_time i1) (o_aggregate_geos o) (o_aggregate_times o)
        (fun g t => val y1 g t c - v0 g t c) a d))
    by (intros c _; rewrite <- app_assoc; apply VI; assumption).
  rewrite <- (cell_rsum _ _ _ _ _ _ (chans y1) (fun c g t => val y1 g t c - v0 g t c)).
  apply cell_ext; try assumption. intros g t Hg Ht.
  rewrite outcome_diff, <- (HD g t Hg), <- rsum_scal. rewrite K1c. apply rsum_ext. intros c _.
  rewrite K1v, Hvu. ring.
Qed.

Lemma decomposition_lemma : forall x o bs bs1 bs0 draws I E Eb,
  well_formed x -> Forall (draw_ok x) draws -> o_include_non_paid o = true ->
  o_scaling_factor0 o = 0 -> o_scaling_factor1 o = 1 ->
  (forall t, executed (o_media_selected_times o) t = true) ->
  incremental_outcome x no_data o bs draws = Ok I ->
  expected_outcome x no_data
    (o_selected_geos o) (o_selected_times o) (o_aggregate_geos o) (o_aggregate_times o)
    (o_inverse o) (o_use_kpi o) bs1 draws = Ok E ->
  baseline_expected_outcome x (o_baseline_values o)
    (o_selected_geos o) (o_selected_times o) (o_aggregate_geos o) (o_aggregate_times o)
    (o_inverse o) (o_use_kpi o) bs0 draws = Ok Eb ->
  length I = length draws /\ length E = length draws /\ length Eb = length draws /\
  forall k z, (k < length draws)%nat ->
    shape (nth k Eb z) = shape (nth k E z) /\
    exists C, shape (nth k I z) = shape (nth k E z) ++ [C] /\
    forall pos, valid_position pos (shape (nth k E z)) ->
      at_ (nth k E z) pos
      = at_ (nth k Eb z) pos + rsum C (fun c => at_ (nth k I z) (pos ++ [c])).
Proof.
  intros x o bs bs1 bs0 draws I E Eb W Hw Hinc Hf0 Hf1 Hex HI HE HEb.
  destruct (incremental_inv x o bs draws I Hinc HI) as (_ & LI & i1 & Hi1 & i0 & Hi0 & HIk).
  destruct (expected_inv _ no_data _ _ _ _ _ _ _ _ _ eq_refl HE) as (LE1 & gi1 & ti1 & n1 & G1 & T1 & HE1k).
  apply baseline_exp_inv in HEb. destruct HEb as (b & Hb & HEb).
  destruct (expected_inv _ (baseline_data x b) _ _ _ _ _ _ _ _ _ eq_refl HEb)
    as (LE0 & gi0 & ti0 & n0 & G0 & T0 & HE0k).
  repeat (split; [assumption|]). intros k z Hk.
  pose proof (build_inv x o _ _ i1 Hinc Hi1) as (Hmask & Hlen & Gi & (n & Ti) & Hbase).
  assert (gi1 = i_geo i1) by congruence. assert (gi0 = i_geo i1) by congruence. subst gi1 gi0.
  assert (ti1 = i_time i1) by (eapply resolve_time_indep; eauto).
  assert (ti0 = i_time i1) by (eapply resolve_time_indep; eauto). subst ti1 ti0.
  destruct draws as [|w0 draws']; [cbn in Hk; lia|]. set (draws := w0 :: draws') in *.
  destruct (HE1k k w0 z Hk) as (e1 & Hm1 & Rg & Rt & S1 & V1).
  destruct (HE0k k w0 z Hk) as (e0 & Hm0 & _ & _ & S0 & V0).
  destruct (HIk k w0 z Hk) as (y1 & Hy1 & Yg & _ & _ & SI & v0 & Hv0 & VI).
  assert (Hwk : draw_slopes_pos (nth k draws w0)).
  { apply (draw_ok_slopes x). rewrite Forall_forall in Hw. apply Hw, nth_In. exact Hk. }
  pose proof (build_rpk x o _ _ i1 Hinc Hi1) as R1.
  destruct (incremental_values_inv x o i1 _ y1 W R1 Hy1) as (k1 & Hk1 & K1g & K1t & K1c & K1v).
  assert (Ty1 : times y1 = x_n_times x)
    by (rewrite K1t; eapply build_times; eauto).
  assert (Hall : forallb (fun b => b) (i_mask i1) = true).
  { rewrite Hmask. apply forallb_forall. intros m Hm.
    destruct (o_media_selected_times o) as [l|].
    - destruct (In_nth l m true Hm) as (t & _ & <-). exact (Hex t).
    - apply repeat_spec in Hm. exact Hm. }
  destruct i0 as [j|].
  { destruct Hi0 as [_ N]. exfalso. apply N. auto. }
  assert (Hd1 : i_data i1 = scale_data_tensors x (x_data x) true /\ i_baseline i1 = baseline_of x b).
  { assert (ES : scaled_scenario x (o_scaling_factor1 o) o = scale_data_tensors x (x_data x) true).
    { unfold scaled_scenario. rewrite scale_by_one; [reflexivity|]. intros t. unfold multiplier.
      rewrite Hf1. ring. }
    unfold baseline_of. destruct (d_non_media (x_data x)) as [nm|] eqn:En.
    - destruct Hbase as (tr & bb & Htr & Hbb & Hbase & Hdata).
      assert (bb = b) by (assert (compute_non_media_baseline x (o_baseline_values o) = Ok b)
                            by (apply Hb; discriminate); congruence). subst bb.
      rewrite Htr. split; [rewrite Hdata; exact ES|exact Hbase].
    - destruct Hbase as [Hbase Hdata]. split; [rewrite Hdata; exact ES|]. rewrite Hbase.
      unfold non_media_transformer. rewrite En. reflexivity. }
  destruct Hd1 as [Hd1 Hb1]. rewrite Hd1, Hb1 in Hk1. rewrite fill_no_data in Hm1.
  destruct (one_draw_decomposition x b (nth k draws w0) e1 e0 k1 Hwk (wf_population x W) Hm1 Hm0 Hk1)
    as (_ & _ & HD).
  split; [congruence|]. exists (chans y1). rewrite Ty1 in *.
  split; [rewrite SI, S1, app_assoc; reflexivity|].
  intros pos Hpos. rewrite S1 in Hpos. apply position_split in Hpos.
  destruct Hpos as (a & d & -> & Ha & Hd).
  rewrite V1, V0 by assumption.
  rewrite (rsum_ext (chans y1) (fun c => at_ (nth k I z) ((position (o_aggregate_geos o) a ++ position (o_aggregate_times o) d) ++ [c]))
     (fun c => cell (x_n_geos x) (x_n_times x) (i_geo i1) (i_time i1) (o_aggregate_geos o) (o_aggregate_times o)
        (fun g t => val y1 g t c - v0 g t c) a d))
    by (intros c _; rewrite <- app_assoc; apply VI; assumption || exact Logic.I).
  rewrite <- (cell_rsum _ _ _ _ _ _ (chans y1) (fun c g t => val y1 g t c - v0 g t c)).
  rewrite <- cell_plus. apply cell_ext; try assumption. intros g t Hg Ht.
  apply Rminus_diag_uniq.
  match goal with |- ?A - (?B + ?C) = 0 => replace (A - (B + C)) with ((A - B) - C) by ring end.
  rewrite outcome_diff, (HD g t Hg).
  replace (val2 e0 g t + rsum (chans k1) (fun c => val k1 g t c) - val2 e0 g t)
    with (rsum (chans k1) (fun c => val k1 g t c)) by ring.
  rewrite <- rsum_scal, K1c, <- rsum_minus. apply rsum_zero. intros c _. rewrite K1v, Hv0. ring.
Qed.

(** ** The calls succeed *)
Definition like (y y0 : option T3) : Prop :=
  match y, y0 with
  | Some a, Some b => geos a = geos b /\ times a = times b /\ chans a = chans b
  | None, None => True
  | _, _ => False
  end.
Definition same_dims (d d0 : data) : Prop :=
  like (d_media d) (d_media d0) /\ like (d_reach d) (d_reach d0) /\
  like (d_frequency d) (d_frequency d0) /\ like (d_organic_media d) (d_organic_media d0) /\
  like (d_organic_reach d) (d_organic_reach d0) /\
  like (d_organic_frequency d) (d_organic_frequency d0) /\
  like (d_non_media d) (d_non_media d0) /\ like (d_controls d) (d_controls d0).

Lemma like_refl : forall y, like y y.
Proof. intros [y|]; cbn; auto. Qed.
Lemma like_media : forall y y0 tr, like y y0 -> like (transform_media y tr) y0.
Proof. intros [y|] [y0|] [tr|] H; cbn in *; auto. Qed.
Lemma like_centered : forall y y0 tr, like y y0 -> like (transform_centered y tr) y0.
Proof. intros [y|] [y0|] [tr|] H; cbn in *; auto. Qed.
Lemma like_map : forall (f : T3 -> T3) y y0,
  (forall a, geos (f a) = geos a /\ times (f a) = times a /\ chans (f a) = chans a) ->
  like y y0 -> like (option_map f y) y0.
Proof.
  intros f [y|] [y0|] Hf H; cbn in *; auto. destruct (Hf y) as (A & B & C). intuition congruence.
Qed.
Lemma like_orelse : forall y y0, like y y0 -> like (orelse y y0) y0.
Proof. intros [y|] [y0|] H; cbn in *; auto. Qed.

Lemma scale_same : forall x d, same_dims d (x_data x) -> same_dims (scale_data_tensors x d true) (x_data x).
Proof.
  intros x d (H1 & H2 & H3 & H4 & H5 & H6 & H7 & H8). unfold same_dims, scale_data_tensors. cbn.
  repeat split; auto using like_media, like_centered.
Qed.
Lemma multiplier_same : forall x m br, same_dims (scale_tensors_by_multiplier (x_data x) m br) (x_data x).
Proof.
  intros x m br. unfold same_dims, scale_tensors_by_multiplier. cbv zeta.
  cbn [d_media d_reach d_frequency d_organic_media d_organic_reach d_organic_frequency d_non_media d_controls].
  assert (L : forall y, like (option_map (scale3 m) y) y)
    by (intros; apply like_map; [intros; cbn; auto|apply like_refl]).
  repeat split; auto using like_refl;
  match goal with |- like (if ?c then _ else _) _ => destruct c; auto using like_refl end.
Qed.
Lemma scaled_scenario_same : forall x f o, same_dims (scaled_scenario x f o) (x_data x).
Proof. intros. apply scale_same, multiplier_same. Qed.

Lemma media_runs : forall cx m p df sa,
  (0 <= ctx_max_lag cx)%Z -> (1 <= ctx_n_times cx <= ctx_n_media_times cx)%nat ->
  times m = ctx_n_media_times cx -> n_par p = chans m -> params_ok p ->
  decay_ok df (chans m) -> sat_ok sa (chans m) ->
  exists out, adstock_hill_media cx m p df sa None = Ok out /\
    geos out = geos m /\ times out = ctx_n_times cx /\ chans out = chans m.
Proof.
  intros cx media p df sa Hlag Hn Ht Hp Hpar Hdf Hsa.
  unfold adstock_hill_media, resolve_n_times_output. rewrite Ht, Nat.eqb_refl. cbn [rbind].
  destruct (saturation_where_spec _ _ Hsa) as [mask [-> Hmask]]. cbn [rbind].
  assert (Halpha : forall c, (c < chans media)%nat -> 0 <= p_alpha p c <= 1)
    by (intros; apply Hpar; lia).
  assert (Hn' : (1 <= Z.of_nat (ctx_n_times cx) <= Z.of_nat (times media))%Z) by lia.
  destruct (ctx_hill_before_adstock cx) eqn:Ehb.
  - unfold hill_forward. rewrite Nat.eqb_refl, Hp, Nat.eqb_refl. cbn [negb rbind].
    match goal with |- context [where_chan mask ?a media] =>
      destruct (Hmask a media eq_refl) as [sel [-> [Sg [St [Sc Sv]]]]] end.
    cbn in Sg, St. cbn [rbind].
    destruct (adstock_lagged_average_lemma sel (p_alpha p) (ctx_max_lag cx) (Z.of_nat (ctx_n_times cx)) df)
      as [out [Ho [Hg [Ht' [Hc Hv]]]]]; auto; try (rewrite ?Sc, ?St; auto; fail).
    rewrite Sc in *. exists out. repeat split; [exact Ho|congruence|lia|congruence].
  - rewrite Hp.
    destruct (adstock_lagged_average_lemma media (p_alpha p) (ctx_max_lag cx) (Z.of_nat (ctx_n_times cx)) df)
      as [ads [Ho [Hg [Ht' [Hc Hv]]]]]; auto.
    rewrite Ho. cbn [rbind]. unfold hill_forward.
    rewrite Nat.eqb_refl, Hc, Nat.eqb_refl. cbn [negb rbind].
    match goal with |- context [where_chan mask ?a ads] =>
      destruct (Hmask a ads eq_refl) as [sel [-> [Sg [St [Sc Sv]]]]] end.
    cbn in Sg, St.
    exists sel. repeat split; [congruence|lia|congruence].
Qed.

Lemma rf_runs : forall cx reach freq p df sa,
  (0 <= ctx_max_lag cx)%Z -> (1 <= ctx_n_times cx <= ctx_n_media_times cx)%nat ->
  times reach = ctx_n_media_times cx ->
  geos freq = geos reach -> times freq = times reach -> chans freq = chans reach ->
  n_par p = chans reach -> params_ok p ->
  decay_ok df (chans reach) -> sat_ok sa (chans reach) ->
  exists out, adstock_hill_rf cx reach freq p df sa None = Ok out /\
    geos out = geos reach /\ times out = ctx_n_times cx /\ chans out = chans reach.
Proof.
  intros cx reach freq p df sa Hlag Hn Ht Hfg Hft Hfc Hp Hpar Hdf Hsa.
  unfold adstock_hill_rf, resolve_n_times_output. rewrite Ht, Nat.eqb_refl. cbn [rbind].
  unfold hill_forward. rewrite Nat.eqb_refl, Hfc, Hp, Nat.eqb_refl. cbn [negb rbind].
  destruct (saturation_where_spec _ _ Hsa) as [mask [-> Hmask]]. cbn [rbind].
  assert (Halpha : forall c, (c < chans reach)%nat -> 0 <= p_alpha p c <= 1)
    by (intros; apply Hpar; lia).
  match goal with |- context [where_chan mask ?a freq] =>
    destruct (Hmask a freq eq_refl) as [sel [-> [Sg [St [Sc Sv]]]]] end.
  cbn [rbind].
  destruct (adstock_lagged_average_lemma (mul3 reach sel) (p_alpha p) (ctx_max_lag cx) (Z.of_nat (ctx_n_times cx)) df)
    as [out [Ho [Hg [Ht' [Hc Hv]]]]]; auto; try (cbn; lia).
  exists out. repeat split; [exact Ho|exact Hg|lia|exact Hc].
Qed.

(** Parts of agreeing dimensions concatenate. *)
Definition part_ok (G T : nat) (q : part) : Prop :=
  geos (fst q) = G /\ times (fst q) = T /\ chans (fst q) = fst (snd q).
Definition n_of (l : list part) : nat := list_sum (map (fun q => chans (fst q)) l).

Lemma n_of_app : forall a b, n_of (a ++ b) = (n_of a + n_of b)%nat.
Proof. intros. unfold n_of. rewrite map_app. apply list_sum_app. Qed.

Lemma concat_runs : forall G T l, l <> [] -> Forall (part_ok G T) l ->
  exists p, concat_parts l = Ok p /\ part_ok G T p /\ chans (fst p) = n_of l.
Proof.
  intros G T l. induction l as [|q l IH]; intros Hne Hall; [congruence|].
  inversion Hall as [|? ? Hq Hl]; subst. destruct l as [|q' l'].
  - exists q. split; [reflexivity|]. split; [exact Hq|]. unfold n_of. cbn. lia.
  - destruct (IH ltac:(discriminate) Hl) as (p & Hp & (Pg & Pt & Pc) & Pn).
    change (concat_parts (q :: q' :: l')) with
      (rbind (concat_parts (q' :: l')) (fun r => rbind (append3 (fst q) (fst r)) (fun m =>
        Ok (m, append_beta (snd q) (snd r))))).
    rewrite Hp. cbn [rbind]. destruct Hq as (Qg & Qt & Qc).
    unfold append3. rewrite Qg, Qt, Pg, Pt, !Nat.eqb_refl. cbn [andb rbind].
    eexists. split; [reflexivity|]. unfold part_ok, append_beta. cbn [fst snd geos times chans].
    split; [repeat split; congruence|]. unfold n_of in *. cbn [map list_sum fold_right] in *. rewrite Pn. reflexivity.
Qed.

Lemma transformed_runs : forall x d w, well_formed x -> draw_ok x w -> same_dims d (x_data x) ->
  exists p, transformed_media_and_beta x d w None = Ok p /\
    geos (fst p) = x_n_geos x /\ times (fst p) = x_n_times x /\
    chans (fst p) = (n_chans (d_media (x_data x)) + n_chans (d_reach (x_data x))
                     + n_chans (d_organic_media (x_data x)) + n_chans (d_organic_reach (x_data x)))%nat.
Proof.
  intros x d w W (D1 & D2 & D3 & D4 & P1 & P2 & P3 & P4) (L1 & L2 & L3 & L4 & L5 & L6 & _ & _).
  destruct W as [Wt Wl _ Wp Wm Wr Wf Wom Wor Wof _ _ _ Wrf Worf (K1 & K2 & K3 & K4) _].
  assert (Media : forall m m0 p df sa b,
    like m m0 -> dims m0 (x_n_geos x) (x_n_media_times x) -> kind_ok m0 df sa ->
    (m0 <> None -> n_par p = n_chans m0) -> params_ok p ->
    exists l, media_part m (fun y => adstock_hill_media (x_cx x) y p df sa None) (n_par p, b) = Ok l /\
      Forall (part_ok (x_n_geos x) (x_n_times x)) l /\ n_of l = n_chans m0 /\ (m0 <> None -> l <> [])).
  { intros m m0 p df sa b L Hd Hk Hn Hp. destruct m as [m|], m0 as [m0|]; cbn in L; try contradiction.
    - destruct L as (Lg & Lt & Lc). destruct Hd as [Dg Dt]. destruct Hk as [Kd Ks].
      specialize (Hn ltac:(discriminate)). cbn [n_chans] in Hn |- *.
      unfold x_n_media_times in *.
      destruct (media_runs (x_cx x) m p df sa) as (out & Ho & Og & Ot & Oc); auto; try congruence; try (rewrite Lc; assumption).
      cbn [media_part]. rewrite Ho. cbn [rbind].
      eexists. split; [reflexivity|]. split.
      { constructor; [|constructor]. unfold part_ok. cbn [fst snd]. unfold x_n_times. repeat split; congruence. }
      split; [unfold n_of; cbn; lia|intros _; discriminate].
    - exists []. repeat split; auto. }
  assert (RF : forall r q r0 q0 p df sa b,
    like r r0 -> like q q0 -> paired r0 q0 ->
    dims r0 (x_n_geos x) (x_n_media_times x) -> dims q0 (x_n_geos x) (x_n_media_times x) ->
    kind_ok r0 df sa ->
    (r0 <> None -> n_par p = n_chans r0) -> params_ok p ->
    exists l, rf_part r q (fun y z => adstock_hill_rf (x_cx x) y z p df sa None) (n_par p, b) = Ok l /\
      Forall (part_ok (x_n_geos x) (x_n_times x)) l /\ n_of l = n_chans r0 /\ (r0 <> None -> l <> [])).
  { intros r q r0 q0 p df sa b L L' Hpair Hd Hd' Hk Hn Hp.
    destruct r as [r|], r0 as [r0|]; cbn in L; try contradiction.
    - destruct q0 as [q0|]; cbn in Hpair; [|contradiction]. destruct q as [q|]; cbn in L'; [|contradiction].
      destruct L as (Lg & Lt & Lc). destruct L' as (Lg' & Lt' & Lc').
      destruct Hd as [Dg Dt]. destruct Hd' as [Dg' Dt']. destruct Hk as [Kd Ks].
      specialize (Hn ltac:(discriminate)). cbn [n_chans] in Hn |- *.
      unfold x_n_media_times in *.
      destruct (rf_runs (x_cx x) r q p df sa) as (out & Ho & Og & Ot & Oc); auto; try congruence; try (rewrite Lc; assumption).
      cbn [rf_part]. rewrite Ho. cbn [rbind].
      eexists. split; [reflexivity|]. split.
      { constructor; [|constructor]. unfold part_ok. cbn [fst snd]. unfold x_n_times. repeat split; congruence. }
      split; [unfold n_of; cbn; lia|intros _; discriminate].
    - exists []. repeat split; auto. }
  unfold transformed_media_and_beta.
  destruct (Media (d_media d) _ (w_media w) (x_decay_media x) (x_sat_media x) (w_beta_gm w) L1 Wm K1 D1 P1)
    as (l1 & -> & F1 & N1 & E1). cbn [rbind].
  destruct (RF (d_reach d) (d_frequency d) _ _ (w_rf w) (x_decay_rf x) (x_sat_rf x) (w_beta_grf w) L2 L3 Wrf Wr Wf K2 D2 P2)
    as (l2 & -> & F2 & N2 & E2). cbn [rbind].
  destruct (Media (d_organic_media d) _ (w_organic_media w) (x_decay_organic_media x) (x_sat_organic_media x) (w_beta_gom w) L4 Wom K3 D3 P3)
    as (l3 & -> & F3 & N3 & E3). cbn [rbind].
  destruct (RF (d_organic_reach d) (d_organic_frequency d) _ _ (w_organic_rf w) (x_decay_organic_rf x) (x_sat_organic_rf x) (w_beta_gorf w) L5 L6 Worf Wor Wof K4 D4 P4)
    as (l4 & -> & F4 & N4 & E4). cbn [rbind].
  assert (Hne : l1 ++ l2 ++ l3 ++ l4 <> []).
  { intros E. apply app_eq_nil in E. destruct E as [-> E]. apply app_eq_nil in E. destruct E as [-> _].
    destruct Wp as [Wp|Wp]; [exact (E1 Wp eq_refl)|exact (E2 Wp eq_refl)]. }
  destruct (concat_runs (x_n_geos x) (x_n_times x) _ Hne) as (p & -> & (Pg & Pt & Pc) & Pn).
  { rewrite !Forall_app. auto. }
  cbn [rbind]. rewrite Pc, Nat.eqb_refl. exists p. repeat split; auto.
  rewrite Pn, !n_of_app, N1, N2, N3, N4. lia.
Qed.

Lemma kpi_means_runs : forall x d w, well_formed x -> draw_ok x w -> same_dims d (x_data x) ->
  exists e, kpi_means x d w = Ok e.
Proof.
  intros x d w W Dw S. destruct (transformed_runs x d w W Dw S) as (p & Hp & Pg & Pt & _).
  unfold kpi_means. rewrite Hp. cbn [rbind]. unfold check_dims at 1. rewrite Pg, Pt, !Nat.eqb_refl.
  cbn [andb negb raise_if].
  destruct S as (_ & _ & _ & _ & _ & _ & Ln & Lc).
  pose proof (wf_nm x W) as Wn. pose proof (wf_controls x W) as Wc.
  assert (C : exists c, match d_controls (x_data x) with
     | Some _ => match d_controls d with
        | Some c => raise_if (negb (check_dims c (x_n_geos x) (x_n_times x))) ValueError
                     (Ok (contract c (w_gamma_gc w)))
        | None => Err ValueError end
     | None => Ok (fun _ _ => 0) end = Ok c).
  { destruct (d_controls (x_data x)) as [c0|]; [|eauto].
    destruct (d_controls d) as [c|]; cbn in Lc; [|contradiction].
    destruct Lc as (A & B & _). destruct Wc as [A' B']. unfold check_dims.
    rewrite A, B, A', B', !Nat.eqb_refl. cbn. eauto. }
  destruct C as [c ->]. cbn [rbind].
  destruct (d_non_media d) as [n|]; [|cbn; eauto].
  destruct (d_non_media (x_data x)) as [n0|]; cbn in Ln; [|contradiction].
  destruct Ln as (A & B & _). destruct Wn as [A' B']. unfold check_dims.
  rewrite A, B, A', B', !Nat.eqb_refl. cbn. eauto.
Qed.

Lemma incremental_kpi_runs : forall x d w b, well_formed x -> draw_ok x w -> same_dims d (x_data x) ->
  (d_non_media (x_data x) <> None -> b <> None) ->
  exists y, get_incremental_kpi x d w b = Ok y /\ geos y = x_n_geos x /\ times y = x_n_times x /\
    chans y = (n_chans (d_media (x_data x)) + n_chans (d_reach (x_data x))
               + n_chans (d_non_media (x_data x))
               + n_chans (d_organic_media (x_data x)) + n_chans (d_organic_reach (x_data x)))%nat.
Proof.
  intros x d w b W Dw S Hb. destruct (transformed_runs x d w W Dw S) as (p & Hp & Pg & Pt & Pc).
  pose proof S as (Lm & Lr & _ & _ & _ & _ & Ln & _).
  pose proof (wf_nm x W) as Wn. pose proof (wf_media x W) as Wm. pose proof (wf_reach x W) as Wr.
  pose proof (wf_paid x W) as Wp.
  unfold get_incremental_kpi.
  assert (E1 : match d_non_media d, b with Some _, None => Err ValueError | _, _ => Ok tt end = Ok tt).
  { destruct (d_non_media d), b; try reflexivity.
    destruct (d_non_media (x_data x)); cbn in Ln; [|contradiction].
    exfalso. apply Hb; [discriminate|reflexivity]. }
  rewrite E1. cbn [rbind].
  assert (E2 : match d_media d, d_reach d with
         | Some m, _ => Ok (times m)
         | None, Some r => Ok (times r)
         | None, None => Err ValueError
         end = Ok (x_n_media_times x)).
  { destruct (d_media d) as [m|], (d_media (x_data x)) as [m0|]; cbn in Lm; try contradiction.
    - f_equal. destruct Lm as (_ & -> & _). apply Wm.
    - destruct (d_reach d) as [r|], (d_reach (x_data x)) as [r0|]; cbn in Lr; try contradiction.
      + f_equal. destruct Lr as (_ & -> & _). apply Wr.
      + destruct Wp as [Wp|Wp]; congruence. }
  rewrite E2. cbn [rbind]. rewrite Nat.eqb_refl. cbv zeta. rewrite Hp. cbn [rbind].
  destruct (d_non_media d) as [n|], (d_non_media (x_data x)) as [n0|]; cbn in Ln; try contradiction.
  - destruct b as [b|]; [|discriminate]. destruct Ln as (A & B & C). destruct Wn as [A' B'].
    unfold append3. cbn [geos times chans]. rewrite Pg, Pt, A, B, A', B', !Nat.eqb_refl. cbn [andb].
    eexists. split; [reflexivity|]. cbn [geos times chans n_chans]. repeat split. rewrite Pc, C. lia.
  - eexists. split; [reflexivity|]. cbn [geos times chans n_chans]. repeat split; auto. rewrite Pc. lia.
Qed.

Lemma baseline_runs : forall x v, baseline_ok x v -> d_non_media (x_data x) <> None ->
  exists b, compute_non_media_baseline x v = Ok b.
Proof.
  intros x v Hv Hn. unfold compute_non_media_baseline.
  unfold baseline_ok, n_chans in Hv.
  destruct (d_non_media (x_data x)) as [n|]; [|congruence]. cbv zeta.
  assert (H : length match orelse v (x_non_media_baseline_values x) with
                | Some l => l | None => repeat BMin (chans n) end = chans n /\
              existsb (fun b => match b with BOther => true | _ => false end)
                match orelse v (x_non_media_baseline_values x) with
                | Some l => l | None => repeat BMin (chans n) end = false).
  { destruct v as [l|]; cbn [orelse].
    - destruct Hv as [Hl Hf]. split; [exact Hl|]. clear Hl. induction Hf as [|b l [r ->] _ IH]; [reflexivity|exact IH].
    - destruct (x_non_media_baseline_values x) as [l|].
      + destruct Hv as [Hl Hf]. split; [exact Hl|]. clear Hl. induction Hf as [|b l Hb _ IH]; [reflexivity|].
        cbn. rewrite IH. destruct b; try reflexivity; congruence.
      + split; [apply repeat_length|]. generalize (chans n) as k. induction k; [reflexivity|exact IHk]. }
  destruct H as [H1 H2]. rewrite H1, Nat.eqb_refl, H2. cbn. eauto.
Qed.

Lemma numbers_run : forall x v, baseline_ok x v -> validate_baseline_numbers v = Ok tt.
Proof.
  intros x [l|] H; [|reflexivity]. destruct H as [_ Hf]. cbn.
  assert (E : existsb (fun b => match b with BNum _ => false | _ => true end) l = false).
  { induction Hf as [|b l [r ->] _ IH]; [reflexivity|exact IH]. }
  rewrite E. reflexivity.
Qed.

Lemma geo_runs : forall x s, geos_ok x s ->
  exists gi, resolve_geo_indices (x_geo x) s = Ok gi /\ in_range (x_n_geos x) gi.
Proof.
  intros x [l|] H; [|exists None; cbn; auto]. unfold resolve_geo_indices.
  assert (E : existsb (fun g => negb (mem g (x_geo x))) l = false).
  { cbn in H. induction H as [|g l Hg _ IH]; [reflexivity|]. cbn. rewrite IH.
    apply mem_spec in Hg. rewrite Hg. reflexivity. }
  rewrite E. cbn [raise_if]. eexists. split; [reflexivity|]. cbn. apply positions_in_range.
Qed.

Lemma time_runs : forall x s, well_formed x -> times_ok x s ->
  exists ti, resolve_time_indices (x_time x) (x_n_times x) s = Ok ti /\ in_range (x_n_times x) ti /\
    match s with Some s' => validate_selected_times s' (x_time x) (x_n_times x) = Ok tt | None => True end.
Proof.
  intros x [s|] W H; [|exists None; cbn; auto].
  assert (V : validate_selected_times s (x_time x) (x_n_times x) = Ok tt).
  { destruct s as [l|l]; cbn in H.
    - destruct l as [|a l]; [reflexivity|]. unfold validate_selected_times.
      assert (E : existsb (fun d => negb (mem d (x_time x))) (a :: l) = false).
      { revert H. generalize (a :: l). intros l' H. induction H as [|g r Hg _ IH]; [reflexivity|].
        cbn. rewrite IH. apply mem_spec in Hg. rewrite Hg. reflexivity. }
      rewrite E. reflexivity.
    - destruct l as [|a l]; [reflexivity|]. destruct H as [H|H]; [discriminate|].
      cbn [validate_selected_times]. rewrite H, Nat.eqb_refl. reflexivity. }
  cbn [resolve_time_indices]. rewrite V. cbn [rbind]. eexists. split; [reflexivity|]. split; [|reflexivity].
  destruct s as [l|l]; cbn [in_range].
  - rewrite <- (wf_time x W). apply positions_in_range.
  - destruct H as [->|H]; [constructor|]. rewrite <- H. apply positions_in_range.
Qed.

Lemma modified_same : forall x d, same_dims d (x_data x) ->
  d_revenue_per_kpi d = None \/ d_revenue_per_kpi d = d_revenue_per_kpi (x_data x) ->
  get_modified_times x d = None.
Proof.
  intros x d (H1 & H2 & H3 & H4 & H5 & H6 & H7 & H8) Hr. unfold get_modified_times.
  assert (M : forall a b, like a b -> modified3 a b = None).
  { intros [a|] [b|] H; cbn in *; auto. destruct H as (_ & -> & _). rewrite Nat.eqb_refl. reflexivity. }
  rewrite !M by assumption. cbn [orelse]. destruct Hr as [->| ->]; [|apply modified2_same].
  reflexivity.
Qed.

Lemma mapM_runs : forall A B (f : A -> result B) l, (forall a, In a l -> exists b, f a = Ok b) ->
  exists r, mapM f l = Ok r.
Proof.
  intros A B f l. induction l as [|a l IH]; intros H; [exists []; reflexivity|].
  destruct (H a (or_introl eq_refl)) as [b Hb]. destruct IH as [r Hr]; [intros; apply H; right; assumption|].
  cbn. rewrite Hb, Hr. cbn. eauto.
Qed.

Lemma mapM_runs_in : forall A B (f : A -> result B) l r, mapM f l = Ok r ->
  forall b, In b r -> exists a, In a l /\ f a = Ok b.
Proof.
  intros A B f l. induction l as [|a l IH]; intros r H b Hb; cbn in H.
  - injection H as <-. destruct Hb.
  - inv_rbind H b' Hb'. inv_rbind H r' Hr'. injection H as <-. destruct Hb as [<-|Hb]; [exists a; cbn; auto|].
    destruct (IH r' Hr' b Hb) as (a' & I1 & I2). exists a'. cbn. auto.
Qed.

(** New data that only replaces treatments by tensors of the same size. *)
Lemma expected_runs : forall x nd gs ts ag at' inv uk bs draws,
  well_formed x -> Forall (draw_ok x) draws -> draws <> [] -> (0 < bs)%Z ->
  geos_ok x gs -> times_ok x ts -> (inv = true \/ resolve_use_kpi x uk = true) ->
  same_dims (fill_missing x nd true true) (x_data x) -> get_modified_times x nd = None ->
  d_revenue_per_kpi nd = None ->
  exists E, expected_outcome x nd gs ts ag at' inv uk bs draws = Ok E.
Proof.
  intros x nd gs ts ag at' inv uk bs draws W Hw Hne Hbs Hg Ht Hinv Hs Hm Hr.
  unfold expected_outcome. cbv zeta.
  assert (E1 : check_kpi_transformation inv (resolve_use_kpi x uk) = Ok tt).
  { unfold check_kpi_transformation. destruct Hinv as [->| ->]; [reflexivity|]. destruct inv; reflexivity. }
  rewrite E1. cbn [rbind]. rewrite Hm. cbn [raise_if].
  set (d := scale_data_tensors x (fill_missing x nd true true) true) in *.
  assert (Sd : same_dims d (x_data x)) by (apply scale_same; exact Hs).
  assert (Rd : d_revenue_per_kpi d = d_revenue_per_kpi (x_data x)).
  { subst d. unfold scale_data_tensors, fill_missing. cbn [d_revenue_per_kpi]. rewrite Hr. reflexivity. }
  destruct (geo_runs x gs Hg) as (gi & Hgi & Rg). destruct (time_runs x ts W Ht) as (ti & Hti & Rt & _).
  unfold package. rewrite (modified_same x d Sd (or_intror Rd)). cbv zeta. rewrite Hgi, Hti. cbn [rbind i_geo i_time].
  rewrite run_batched_lemma by assumption.
  destruct (mapM_runs _ _ (kpi_means x d) draws) as [means Hmeans].
  { intros w Hin. apply kpi_means_runs; auto. rewrite Forall_forall in Hw. auto. }
  rewrite Hmeans. cbn [rbind]. apply mapM_runs. intros m Hin.
  destruct (mapM_runs_in _ _ _ _ _ Hmeans m Hin) as (w & _ & Hk).
  destruct (kpi_means_inv x d w m Hk) as (_ & _ & _ & _ & Mg & Mt & _).
  assert (M' : exists m', (if inv
     then if resolve_use_kpi x uk
          then Ok (mkT2 (geos2 m) (times2 m) (fun g t => kpi_inverse (kpi_tr x) g (val2 m g t)))
          else match d_revenue_per_kpi d with
               | Some r => if Nat.eqb (geos2 r) (geos2 (mkT2 (geos2 m) (times2 m) (fun g t => kpi_inverse (kpi_tr x) g (val2 m g t)))) && Nat.eqb (times2 r) (times2 (mkT2 (geos2 m) (times2 m) (fun g t => kpi_inverse (kpi_tr x) g (val2 m g t))))
                 then Ok (mkT2 (geos2 (mkT2 (geos2 m) (times2 m) (fun g t => kpi_inverse (kpi_tr x) g (val2 m g t)))) (times2 (mkT2 (geos2 m) (times2 m) (fun g t => kpi_inverse (kpi_tr x) g (val2 m g t))))
                   (fun g t => val2 (mkT2 (geos2 m) (times2 m) (fun g t => kpi_inverse (kpi_tr x) g (val2 m g t))) g t * val2 r g t))
                 else Err ValueError
               | None => Err ValueError end
     else Ok m) = Ok m' /\ geos2 m' = x_n_geos x /\ times2 m' = x_n_times x).
  { cbn [geos2 times2 val2]. destruct inv; [|eauto]. destruct (resolve_use_kpi x uk) eqn:Eu.
    - eexists. split; [reflexivity|]. cbn. auto.
    - rewrite Rd. pose proof (wf_rpk x W) as Wr. destruct (d_revenue_per_kpi (x_data x)) as [r|] eqn:Er.
      + destruct Wr as [A B]. rewrite A, B, Mg, Mt, !Nat.eqb_refl. cbn [andb].
        eexists. split; [reflexivity|]. cbn. auto.
      + exfalso. unfold resolve_use_kpi in Eu. rewrite Er, Wr in Eu. destruct uk; discriminate. }
  destruct M' as (m' & HM & Mg' & Mt'). rewrite HM. cbn [rbind].
  destruct (filter_no_media_lemma (counts x) (x_n_geos x) (x_n_times x) (x_n_times x) (of2 m') [] gi ti ag at' false false)
    as (out & Ho & _); auto.
  - cbn. congruence.
  - split; [reflexivity|]. intros c _. cbn. discriminate.
  - eauto.
Qed.

Lemma build_runs : forall x o f isb, well_formed x -> o_include_non_paid o = true ->
  geos_ok x (o_selected_geos o) -> times_ok x (o_selected_times o) ->
  (forall l, o_media_selected_times o = Some l -> length l = x_n_media_times x) ->
  (d_non_media (x_data x) <> None -> baseline_ok x (o_baseline_values o)) ->
  validate_baseline_numbers (o_baseline_values o) = Ok tt ->
  exists i, build_counterfactual_inputs x no_data o f isb = Ok i.
Proof.
  intros x o f isb W Hinc Hg Ht Hl Hb Hv. unfold build_counterfactual_inputs. rewrite Hv. cbn [rbind].
  rewrite modified_no_data. cbv zeta. rewrite Hinc. cbn [negb]. rewrite fill_no_data, modified_data.
  destruct (time_runs x (o_selected_times o) W Ht) as (ti & Hti & _ & Vt).
  assert (E1 : validate_times x o None = Ok tt).
  { unfold validate_times. destruct (o_selected_times o) as [s|]; [rewrite Vt|]; cbn [rbind];
    (destruct (o_media_selected_times o) as [l|]; [|reflexivity]);
    unfold validate_selected_times; (destruct l as [|a l]; [reflexivity|]);
    rewrite (Hl _ eq_refl), Nat.eqb_refl; reflexivity. }
  rewrite E1. cbn [rbind].
  assert (E2 : length match o_media_selected_times o with
     | Some l => l | None => repeat true (x_n_media_times x) end = x_n_media_times x).
  { destruct (o_media_selected_times o) as [l|]; [apply Hl; reflexivity|apply repeat_length]. }
  rewrite E2, Nat.eqb_refl. cbn [negb raise_if].
  assert (E3 : exists base, match d_non_media (x_data x) with
         | None => Ok None
         | Some _ =>
             match non_media_transformer x with
             | None => Err ValueError
             | Some tr =>
                 rbind (compute_non_media_baseline x (o_baseline_values o)) (fun b =>
                 Ok (Some (fun c => centering_forward tr false 0%nat c (b c))))
             end
         end = Ok base).
  { destruct (d_non_media (x_data x)) as [n|] eqn:En; [|eauto].
    assert (exists tr, non_media_transformer x = Some tr) as [tr Htr].
    { unfold non_media_transformer. rewrite En. eexists. reflexivity. }
    rewrite Htr. destruct (baseline_runs x (o_baseline_values o)) as [b ->]; [apply Hb; discriminate|congruence|].
    cbn. eauto. }
  destruct E3 as [base ->]. cbn [rbind]. unfold package.
  destruct (geo_runs x (o_selected_geos o) Hg) as (gi & Hgi & _). rewrite Hgi. cbn [rbind]. cbv zeta.
  match goal with |- context [get_modified_times x ?d] =>
    assert (E4 : get_modified_times x d = None) end.
  { apply modified_same; [|right; destruct isb; [destruct (d_non_media (x_data x)), base|]; reflexivity].
    pose proof (scaled_scenario_same x f o) as S.
    change (scale_data_tensors x (scale_tensors_by_multiplier (x_data x)
              (fun t => 1 + (f - 1) * (if nth t match o_media_selected_times o with
                 | Some l => l | None => repeat true (x_n_media_times x) end true then 1 else 0)) (o_by_reach o)) true)
      with (scaled_scenario x f o).
    destruct isb; [|exact S]. destruct (d_non_media (x_data x)) as [n|] eqn:En; [|exact S].
    destruct base; [|exact S].
    destruct S as (H1 & H2 & H3 & H4 & H5 & H6 & H7 & H8). repeat split; try assumption.
    cbn [d_non_media]. rewrite En. cbn. auto. }
  rewrite E4, Hti. cbn. eauto.
Qed.

Lemma inverse_runs : forall x y uk rpk, well_formed x ->
  geos y = x_n_geos x -> times y = x_n_times x ->
  rpk = d_revenue_per_kpi (x_data x) ->
  exists z, inverse_outcome x y uk rpk = Ok z /\ geos z = geos y /\ times z = times y /\ chans z = chans y.
Proof.
  intros x y uk rpk W Hg Ht ->. unfold inverse_outcome. cbv zeta.
  destruct (resolve_use_kpi x uk) eqn:Eu; [eexists; split; [reflexivity|]; cbn; auto|].
  pose proof (wf_rpk x W) as Wr. destruct (d_revenue_per_kpi (x_data x)) as [r|] eqn:Er.
  - destruct Wr as [A B]. rewrite A, B, Hg, Ht, !Nat.eqb_refl. cbn [andb].
    eexists. split; [reflexivity|]. cbn. auto.
  - exfalso. unfold resolve_use_kpi in Eu. rewrite Er, Wr in Eu. destruct uk; discriminate.
Qed.

Lemma impl_runs : forall x o f isb i gi ti w, well_formed x -> draw_ok x w -> o_include_non_paid o = true ->
  build_counterfactual_inputs x no_data o f isb = Ok i ->
  in_range (x_n_geos x) gi -> in_range (x_n_times x) ti ->
  exists a, incremental_outcome_impl x o i gi ti w = Ok a /\
    shape a = dimension (x_n_geos x) gi (o_aggregate_geos o)
      ++ dimension (x_n_times x) ti (o_aggregate_times o)
      ++ [n_chans (d_media (x_data x)) + n_chans (d_reach (x_data x)) + n_chans (d_non_media (x_data x))
          + n_chans (d_organic_media (x_data x)) + n_chans (d_organic_reach (x_data x))]%nat.
Proof.
  intros x o f isb i gi ti w W Dw Hinc Hi Rg Rt.
  pose proof (build_rpk x o f isb i Hinc Hi) as Rk.
  apply (build_inv x o f isb i Hinc) in Hi. destruct Hi as (_ & _ & _ & _ & Hi).
  assert (H : same_dims (i_data i) (x_data x) /\ (d_non_media (x_data x) <> None -> i_baseline i <> None)).
  { pose proof (scaled_scenario_same x f o) as S.
    destruct (d_non_media (x_data x)) as [n|] eqn:En.
    - destruct Hi as (tr & b & _ & _ & Hb & Hd). split; [|rewrite Hb; discriminate].
      rewrite Hd. destruct isb; [|exact S].
      destruct S as (H1 & H2 & H3 & H4 & H5 & H6 & H7 & H8). repeat split; try assumption.
      cbn [with_non_media d_non_media]. rewrite En. cbn. auto.
    - destruct Hi as [_ Hd]. split; [rewrite Hd; exact S|congruence]. }
  destruct H as [S Hb].
  destruct (incremental_kpi_runs x (i_data i) w (i_baseline i) W Dw S Hb) as (y & Hy & Yg & Yt & Yc).
  unfold incremental_outcome_impl, incremental_values. cbv zeta. rewrite Hy. cbn [rbind].
  assert (Z : exists z, (if o_inverse o
     then inverse_outcome x y (resolve_use_kpi x (resolve_use_kpi x (o_use_kpi o))) (d_revenue_per_kpi (i_data i))
     else Ok y) = Ok z /\ geos z = x_n_geos x /\ times z = x_n_times x /\ chans z = chans y).
  { destruct (o_inverse o); [|eauto].
    destruct (inverse_runs x y (resolve_use_kpi x (resolve_use_kpi x (o_use_kpi o))) _ W Yg Yt Rk)
      as (z & Hz & A & B & C). exists z. repeat split; congruence. }
  destruct Z as (z & -> & Zg & Zt & Zc). cbn [rbind].
  destruct (filter_media_lemma (counts x) (x_n_geos x) (x_n_times x) (times z) (chans z) (of3 z) [] gi ti
              (o_aggregate_geos o) (o_aggregate_times o) true true) as (out & Ho & So & _); auto.
  - cbn. congruence.
  - rewrite Zc, Yc. unfold allowed_channel_dim, allowed_n_channels, counts. cbn. tauto.
  - rewrite Zt. exact Rt.
  - exists out. split; [exact Ho|]. rewrite So, Zt, Zc, Yc. reflexivity.
Qed.

Lemma incremental_runs : forall x o bs draws, well_formed x -> Forall (draw_ok x) draws ->
  draws <> [] -> (0 < bs)%Z -> o_include_non_paid o = true ->
  0 <= o_scaling_factor0 o < o_scaling_factor1 o ->
  geos_ok x (o_selected_geos o) -> times_ok x (o_selected_times o) ->
  (forall l, o_media_selected_times o = Some l -> length l = x_n_media_times x) ->
  (d_non_media (x_data x) <> None -> baseline_ok x (o_baseline_values o)) ->
  validate_baseline_numbers (o_baseline_values o) = Ok tt ->
  (o_inverse o = true \/ resolve_use_kpi x (o_use_kpi o) = true) ->
  exists I, incremental_outcome x no_data o bs draws = Ok I.
Proof.
  intros x o bs draws W Hw Hne Hbs Hinc Hf Hg Ht Hl Hb Hv Hinv. unfold incremental_outcome. cbv zeta.
  assert (E1 : check_kpi_transformation (o_inverse o) (resolve_use_kpi x (o_use_kpi o)) = Ok tt).
  { unfold check_kpi_transformation. destruct Hinv as [->| ->]; [reflexivity|]. destruct (o_inverse o); reflexivity. }
  rewrite E1. cbn [rbind].
  assert (E2 : validate_scaling o = Ok tt).
  { unfold validate_scaling.
    destruct (Rlt_dec (o_scaling_factor1 o) 0); [lra|].
    destruct (Rlt_dec (o_scaling_factor0 o) 0); [lra|].
    destruct (Rle_dec (o_scaling_factor1 o) (o_scaling_factor0 o)); [lra|]. reflexivity. }
  rewrite E2. cbn [rbind].
  destruct (build_runs x o (o_scaling_factor1 o) false W Hinc Hg Ht Hl Hb Hv) as (i1 & Hi1). rewrite Hi1. cbn [rbind].
  destruct (build_runs x o (o_scaling_factor0 o) true W Hinc Hg Ht Hl Hb Hv) as (i0 & Hi0).
  destruct (geo_runs x (o_selected_geos o) Hg) as (gi & Hgi & Rg).
  destruct (time_runs x (o_selected_times o) W Ht) as (ti & Hti & Rt & _).
  pose proof (build_inv x o _ _ i1 Hinc Hi1) as (_ & _ & Gi & (n & Ti) & _).
  assert (gi = i_geo i1) by congruence. assert (ti = i_time i1) by (eapply resolve_time_indep; eauto). subst gi ti.
  match goal with |- context [rbind (if ?c then _ else _) _] => destruct c end.
  - rewrite Hi0. cbn [rbind]. rewrite run_batched_lemma by assumption.
    apply mapM_runs. intros w Hin. rewrite Forall_forall in Hw.
    destruct (impl_runs x o _ _ i1 (i_geo i1) (i_time i1) w W (Hw w Hin) Hinc Hi1 Rg Rt) as (a1 & -> & S1).
    destruct (impl_runs x o _ _ i0 (i_geo i1) (i_time i1) w W (Hw w Hin) Hinc Hi0 Rg Rt) as (a0 & -> & S0).
    cbn [rbind]. unfold sub_tensor, M_Budget.zip_tensor.
    assert (E : shape_eqb (shape a1) (shape a0) = true) by (apply P_Budget.shape_eqb_iff; congruence).
    rewrite E. eauto.
  - cbn [rbind]. rewrite run_batched_lemma by assumption.
    apply mapM_runs. intros w Hin. rewrite Forall_forall in Hw.
    destruct (impl_runs x o _ _ i1 (i_geo i1) (i_time i1) w W (Hw w Hin) Hinc Hi1 Rg Rt) as (a1 & -> & S1).
    cbn [rbind]. eauto.
Qed.

(** ** The decompositions, for every valid request *)
Lemma units_ok : forall x o bs draws, valid_request x o bs draws ->
  o_inverse o = true \/ resolve_use_kpi x (o_use_kpi o) = true.
Proof.
  intros x o bs draws V. destruct (vr_units _ _ _ _ V) as [H|[H1 H2]]; [left; exact H|right].
  unfold resolve_use_kpi. rewrite H1, H2. reflexivity.
Qed.

Lemma request_runs : forall x o bs draws, well_formed x -> valid_request x o bs draws ->
  exists I, incremental_outcome x no_data o bs draws = Ok I.
Proof.
  intros x o bs draws W V. pose proof (units_ok x o bs draws V) as U. destruct V.
  apply incremental_runs; auto. apply (numbers_run x). assumption.
Qed.

Lemma historical_runs : forall x o bs draws, well_formed x -> valid_request x o bs draws ->
  exists E, expected_outcome x no_data (o_selected_geos o) (o_selected_times o) (o_aggregate_geos o)
    (o_aggregate_times o) (o_inverse o) (o_use_kpi o) bs draws = Ok E.
Proof.
  intros x o bs draws W V. pose proof (units_ok x o bs draws V) as U. destruct V.
  apply expected_runs; auto; try apply modified_no_data.
  rewrite fill_no_data. repeat split; apply like_refl.
Qed.

Lemma baseline_data_runs : forall x o bs draws, well_formed x -> valid_request x o bs draws ->
  exists E, baseline_expected_outcome x (o_baseline_values o) (o_selected_geos o) (o_selected_times o)
    (o_aggregate_geos o) (o_aggregate_times o) (o_inverse o) (o_use_kpi o) bs draws = Ok E.
Proof.
  intros x o bs draws W V. pose proof (units_ok x o bs draws V) as U. destruct V.
  unfold baseline_expected_outcome.
  assert (H : exists b, build_baseline_data x (o_baseline_values o) = Ok (baseline_data x b)).
  { unfold build_baseline_data. rewrite (numbers_run x) by assumption. cbn [rbind]. cbv zeta.
    unfold baseline_data. destruct (d_non_media (x_data x)) as [n|] eqn:En.
    - destruct (baseline_runs x (o_baseline_values o)) as [b ->]; [assumption|congruence|].
      exists b. reflexivity.
    - exists (fun _ => 0). reflexivity. }
  destruct H as [b ->]. cbn [rbind]. apply expected_runs; auto.
  - unfold same_dims, fill_missing, baseline_data. cbn.
    assert (L : forall y, like (orelse (option_map zeros_like y) y) y) by (intros [y|]; cbn; auto).
    repeat split; auto using like_refl.
    + destruct (d_non_media (x_data x)); cbn; auto.
    + destruct (d_controls (x_data x)); cbn; auto.
  - unfold get_modified_times, baseline_data. cbn [d_media d_reach d_frequency d_organic_media
      d_organic_reach d_organic_frequency d_non_media d_controls d_revenue_per_kpi].
    assert (L : forall y, modified3 (option_map zeros_like y) y = None)
      by (intros [y|]; cbn; rewrite ?Nat.eqb_refl; reflexivity).
    rewrite !L, !modified3_same.
    assert (M : modified3 (option_map (fun n => mkT3 (geos n) (times n) (chans n)
       (fun g _ c => b c * non_media_factor x g c)) (d_non_media (x_data x))) (d_non_media (x_data x)) = None)
      by (destruct (d_non_media (x_data x)); cbn; rewrite ?Nat.eqb_refl; reflexivity).
    rewrite M. reflexivity.
Qed.

Lemma scenario_runs : forall x o bs draws f nm, well_formed x -> valid_request x o bs draws ->
  (nm = None \/ exists b, nm = held_at x b) ->
  exists E, expected_outcome x (scenario x f (o_media_selected_times o) (o_by_reach o) nm)
    (o_selected_geos o) (o_selected_times o) (o_aggregate_geos o)
    (o_aggregate_times o) (o_inverse o) (o_use_kpi o) bs draws = Ok E.
Proof.
  intros x o bs draws f nm W V Hnm. pose proof (units_ok x o bs draws V) as U. destruct V.
  assert (Ln : like (orelse nm (d_non_media (x_data x))) (d_non_media (x_data x))).
  { destruct Hnm as [->|[b ->]]; [apply like_refl|]. unfold held_at.
    destruct (d_non_media (x_data x)); cbn; auto. }
  assert (Mn : modified3 nm (d_non_media (x_data x)) = None).
  { destruct Hnm as [->|[b ->]]; [destruct (d_non_media (x_data x)); reflexivity|]. unfold held_at.
    destruct (d_non_media (x_data x)); cbn; rewrite ?Nat.eqb_refl; reflexivity. }
  apply expected_runs; auto.
  - rewrite (scenario_fill x f (o_media_selected_times o) (x_n_media_times x) (o_by_reach o) nm
             (wf_rf x W) (wf_orf x W)).
    destruct (multiplier_same x (multiplier f (o_media_selected_times o) (x_n_media_times x)) (o_by_reach o))
      as (H1 & H2 & H3 & H4 & H5 & H6 & _ & _).
    repeat split; try assumption. apply like_refl.
  - unfold get_modified_times, scenario. cbn [d_media d_reach d_frequency d_organic_media
      d_organic_reach d_organic_frequency d_non_media d_controls d_revenue_per_kpi].
    assert (L : forall y, modified3 (option_map (times_f f (o_media_selected_times o)) y) y = None)
      by (intros [y|]; cbn; rewrite ?Nat.eqb_refl; reflexivity).
    rewrite !L, Mn. destruct (o_by_reach o); rewrite ?L, ?modified3_same; reflexivity.
Qed.

Lemma decomposition_total : forall x o bs draws,
  well_formed x -> valid_request x o bs draws ->
  o_scaling_factor0 o = 0 -> o_scaling_factor1 o = 1 ->
  (forall t, executed (o_media_selected_times o) t = true) ->
  exists I E Eb,
    incremental_outcome x no_data o bs draws = Ok I /\
    expected_outcome x no_data (o_selected_geos o) (o_selected_times o) (o_aggregate_geos o)
      (o_aggregate_times o) (o_inverse o) (o_use_kpi o) bs draws = Ok E /\
    baseline_expected_outcome x (o_baseline_values o) (o_selected_geos o) (o_selected_times o)
      (o_aggregate_geos o) (o_aggregate_times o) (o_inverse o) (o_use_kpi o) bs draws = Ok Eb /\
    length I = length draws /\ length E = length draws /\ length Eb = length draws /\
    forall k z, (k < length draws)%nat ->
      shape (nth k Eb z) = shape (nth k E z) /\
      exists C, shape (nth k I z) = shape (nth k E z) ++ [C] /\
      forall pos, valid_position pos (shape (nth k E z)) ->
        at_ (nth k E z) pos
        = at_ (nth k Eb z) pos + rsum C (fun c => at_ (nth k I z) (pos ++ [c])).
Proof.
  intros x o bs draws W V H0 H1 Hex.
  destruct (request_runs x o bs draws W V) as [I HI].
  destruct (historical_runs x o bs draws W V) as [E HE].
  destruct (baseline_data_runs x o bs draws W V) as [Eb HEb].
  exists I, E, Eb. repeat (split; [assumption|]).
  exact (decomposition_lemma x o bs bs bs draws I E Eb W (vr_draws _ _ _ _ V) (vr_paid _ _ _ _ V) H0 H1 Hex HI HE HEb).
Qed.

Lemma difference_total : forall x o b bs draws,
  well_formed x -> valid_request x o bs draws ->
  (forall c, (c < n_chans (d_non_media (x_data x)))%nat ->
     is_baseline_value x (o_baseline_values o) c (b c)) ->
  exists I E1 E0,
    incremental_outcome x no_data o bs draws = Ok I /\
    expected_outcome x
      (scenario x (o_scaling_factor1 o) (o_media_selected_times o) (o_by_reach o) None)
      (o_selected_geos o) (o_selected_times o) (o_aggregate_geos o) (o_aggregate_times o)
      (o_inverse o) (o_use_kpi o) bs draws = Ok E1 /\
    expected_outcome x
      (scenario x (o_scaling_factor0 o) (o_media_selected_times o) (o_by_reach o) (held_at x b))
      (o_selected_geos o) (o_selected_times o) (o_aggregate_geos o) (o_aggregate_times o)
      (o_inverse o) (o_use_kpi o) bs draws = Ok E0 /\
    length I = length draws /\ length E1 = length draws /\ length E0 = length draws /\
    forall k z, (k < length draws)%nat ->
      shape (nth k E0 z) = shape (nth k E1 z) /\
      exists C, shape (nth k I z) = shape (nth k E1 z) ++ [C] /\
      forall pos, valid_position pos (shape (nth k E1 z)) ->
        rsum C (fun c => at_ (nth k I z) (pos ++ [c])) = at_ (nth k E1 z) pos - at_ (nth k E0 z) pos.
Proof.
  intros x o b bs draws W V Hb.
  destruct (request_runs x o bs draws W V) as [I HI].
  destruct (scenario_runs x o bs draws (o_scaling_factor1 o) None W V (or_introl eq_refl)) as [E1 HE1].
  destruct (scenario_runs x o bs draws (o_scaling_factor0 o) (held_at x b) W V
              (or_intror (ex_intro _ b eq_refl))) as [E0 HE0].
  exists I, E1, E0. repeat (split; [assumption|]).
  exact (total_is_difference_lemma x o b bs bs bs draws I E1 E0 W (vr_draws _ _ _ _ V)
           (vr_paid _ _ _ _ V) Hb HI HE1 HE0).
Qed.

(** ** Batches *)
Lemma expected_batches : forall x nd gs ts ag at' inv uk bs bs' draws,
  (0 < bs)%Z -> (0 < bs')%Z -> draws <> [] ->
  expected_outcome x nd gs ts ag at' inv uk bs draws = expected_outcome x nd gs ts ag at' inv uk bs' draws.
Proof.
  intros. unfold expected_outcome. cbv zeta. rewrite !run_batched_lemma by assumption. reflexivity.
Qed.
Lemma incremental_batches : forall x nd o bs bs' draws,
  (0 < bs)%Z -> (0 < bs')%Z -> draws <> [] ->
  incremental_outcome x nd o bs draws = incremental_outcome x nd o bs' draws.
Proof.
  intros. unfold incremental_outcome. cbv zeta.
  repeat match goal with |- rbind ?a _ = rbind ?a _ => destruct a; [|reflexivity]; cbn [rbind] end.
  rewrite !run_batched_lemma by assumption. reflexivity.
Qed.
Lemma mapM_each : forall A B (f : A -> result B) l r, mapM f l = Ok r ->
  length r = length l /\ forall k a b, (k < length l)%nat -> f (nth k l a) = Ok (nth k r b).
Proof.
  intros A B f l r H. split; [exact (mapM_length _ _ _ _ _ H)|].
  intros. exact (mapM_nth _ _ _ _ _ H k a b H0).
Qed.

(** ** The reported total *)
Lemma with_total_spec : forall y lead n, shape y = lead ++ [n] ->
  exists z, with_total y = Ok z /\ shape z = lead ++ [S n] /\
    forall pos, (forall c, (c < n)%nat -> at_ z (pos ++ [c]) = at_ y (pos ++ [c])) /\
      at_ z (pos ++ [n]) = rsum n (fun c => at_ y (pos ++ [c])).
Proof.
  intros y lead n H. unfold with_total. rewrite H, rev_app_distr. cbn [rev app].
  eexists. split; [reflexivity|]. cbn [M_Budget.shape M_Budget.at_]. rewrite rev_involutive.
  split; [reflexivity|]. intros pos. split.
  - intros c Hc. rewrite last_last. apply Nat.ltb_lt in Hc. rewrite Hc. reflexivity.
  - rewrite last_last, Nat.ltb_irrefl, removelast_last. reflexivity.
Qed.

(** ** A channel's transformed media depend on that channel only *)
Lemma adstock_local : forall x y n a ml no df ox oy c,
  adstock x n a ml no df = Ok ox -> adstock y n a ml no df = Ok oy ->
  times x = times y -> chans x = chans y ->
  (forall g u, val x g u c = val y g u c) -> forall g t, val ox g t c = val oy g t c.
Proof.
  intros x y n a ml no df ox oy c Hx Hy Ht Hc He g t. unfold adstock, adstock_with in *.
  destruct (validate_arguments x n ml no); [|discriminate].
  destruct (validate_arguments y n ml no); [|discriminate].
  cbv zeta in *. rewrite <- Ht in Hy. inv_rbind Hx wx Hwx. inv_rbind Hy wy Hwy.
  assert (wx = wy) by congruence. subst wy.
  unfold adstock_process_window in *.
  match type of Hx with (if ?c then _ else _) = _ => destruct c; [|discriminate] end.
  match type of Hy with (if ?c then _ else _) = _ => destruct c; [|discriminate] end.
  injection Hx as <-. injection Hy as <-. cbn [val].
  apply rsum_ext. intros i _. f_equal. rewrite <- ?Ht.
  repeat match goal with |- context [(?a <? ?b)%nat] => destruct (a <? b)%nat end;
  unfold pad_left, take_last; cbn [val times]; rewrite <- ?Ht;
  repeat match goal with |- context [(?a <? ?b)%nat] => destruct (a <? b)%nat end;
  try reflexivity; try apply He.
Qed.

Lemma where_chan_local : forall mask a b a' b' o o' c,
  where_chan mask a b = Ok o -> where_chan mask a' b' = Ok o' ->
  chans a = chans a' -> (c < chans a)%nat ->
  (forall g u, val a g u c = val a' g u c) -> (forall g u, val b g u c = val b' g u c) ->
  forall g t, val o g t c = val o' g t c.
Proof.
  intros mask a b a' b' o o' c H H' Hc Hlt Ha Hb g t. unfold where_chan in *. cbv zeta in *.
  rewrite <- Hc in H'.
  destruct (Nat.eqb (m_len mask) (chans a)); [|destruct (Nat.eqb (m_len mask) 1);
    [|destruct (Nat.eqb (chans a) 1) eqn:E3; [|discriminate]]];
  injection H as <-; injection H' as <-; cbn [val].
  - rewrite Ha, Hb. reflexivity.
  - rewrite Ha, Hb. reflexivity.
  - apply Nat.eqb_eq in E3. assert (c = 0%nat) by lia. subst c. rewrite Ha, Hb. reflexivity.
Qed.

Lemma media_local : forall cx m m' p df sa no o o' c,
  adstock_hill_media cx m p df sa no = Ok o -> adstock_hill_media cx m' p df sa no = Ok o' ->
  times m = times m' -> chans m = chans m' -> (c < chans m)%nat ->
  (forall g u, val m g u c = val m' g u c) -> forall g t, val o g t c = val o' g t c.
Proof.
  intros cx m m' p df sa no o o' c H H' Ht Hc Hlt He. unfold adstock_hill_media in *.
  rewrite <- Ht, <- Hc in H'. inv_rbind H n Hn. inv_rbind H' n' Hn'. assert (n' = n) by congruence. subst n'.
  inv_rbind H mask Hm. inv_rbind H' mask' Hm'. assert (mask' = mask) by congruence. subst mask'.
  destruct (ctx_hill_before_adstock cx).
  - inv_rbind H h Hh. inv_rbind H' h' Hh'. inv_rbind H s Hs. inv_rbind H' s' Hs'.
    apply hill_forward_inv in Hh, Hh'. destruct Hh as (_ & Hc1 & ->). destruct Hh' as (_ & Hc2 & ->).
    assert (S : forall g t, val s g t c = val s' g t c).
    { eapply where_chan_local; [exact Hs|exact Hs'|exact Hc|exact Hlt| |exact He].
      intros g u. cbn. rewrite He. reflexivity. }
    pose proof (adstock_inv _ _ _ _ _ _ _ H) as (E1 & _). pose proof (adstock_inv _ _ _ _ _ _ _ H') as (E2 & _).
    apply where_chan_inv in Hs, Hs'. cbn [geos times] in *.
    eapply adstock_local; [exact H|exact H'| | |exact S]; [|congruence].
    destruct Hs as (_ & -> & _). destruct Hs' as (_ & -> & _). exact Ht.
  - inv_rbind H a Ha. inv_rbind H' a' Ha'. inv_rbind H h Hh. inv_rbind H' h' Hh'.
    pose proof (adstock_inv _ _ _ _ _ _ _ Ha) as (_ & _ & _ & E1 & _).
    pose proof (adstock_inv _ _ _ _ _ _ _ Ha') as (_ & _ & _ & E2 & _).
    assert (S : forall g t, val a g t c = val a' g t c).
    { eapply adstock_local; [exact Ha|exact Ha'|exact Ht|exact Hc|exact He]. }
    apply hill_forward_inv in Hh, Hh'. destruct Hh as (_ & Hc1 & ->). destruct Hh' as (_ & Hc2 & ->).
    eapply where_chan_local; [exact H|exact H'| | | |exact S].
    + cbn. congruence.
    + cbn. congruence.
    + intros g u. cbn. rewrite S. reflexivity.
Qed.

Lemma rf_local : forall cx r f r' f' p df sa no o o' c,
  adstock_hill_rf cx r f p df sa no = Ok o -> adstock_hill_rf cx r' f' p df sa no = Ok o' ->
  times r = times r' -> chans r = chans r' -> chans f = chans f' -> (c < chans f)%nat ->
  (forall g u, val r g u c = val r' g u c) -> (forall g u, val f g u c = val f' g u c) ->
  forall g t, val o g t c = val o' g t c.
Proof.
  intros cx r f r' f' p df sa no o o' c H H' Ht Hc Hcf Hlt Hr Hf. unfold adstock_hill_rf in *.
  rewrite <- Ht, <- Hcf in H'. inv_rbind H n Hn. inv_rbind H' n' Hn'. assert (n' = n) by congruence. subst n'.
  inv_rbind H h Hh. inv_rbind H' h' Hh'.
  inv_rbind H mask Hm. inv_rbind H' mask' Hm'. assert (mask' = mask) by congruence. subst mask'.
  inv_rbind H s Hs. inv_rbind H' s' Hs'.
  apply hill_forward_inv in Hh, Hh'. destruct Hh as (_ & Hc1 & ->). destruct Hh' as (_ & Hc2 & ->).
  assert (S : forall g t, val s g t c = val s' g t c).
  { eapply where_chan_local; [exact Hs|exact Hs'|exact Hcf|exact Hlt| |exact Hf].
    intros g u. cbn. rewrite Hf. reflexivity. }
  eapply adstock_local; [exact H|exact H'|exact Ht|exact Hc|].
  intros g u. cbn. rewrite Hr, S. reflexivity.
Qed.

(** Entry [c] of concatenated parts. *)
Fixpoint pl_val (l : list part) (g t c : nat) : R :=
  match l with
  | [] => 0
  | q :: r => if (c <? chans (fst q))%nat then val (fst q) g t c else pl_val r g t (c - chans (fst q))%nat
  end.
Lemma concat_val : forall l p, concat_parts l = Ok p ->
  chans (fst p) = n_of l /\ forall g t c, (c < chans (fst p))%nat -> val (fst p) g t c = pl_val l g t c.
Proof.
  induction l as [|q l IH]; intros p H; [discriminate|]. destruct l as [|q' l'].
  - assert (q = p) by (cbn in H; congruence). subst q. split; [unfold n_of; cbn; lia|].
    intros g t c Hc. cbn [pl_val]. apply Nat.ltb_lt in Hc. rewrite Hc. reflexivity.
  - change (concat_parts (q :: q' :: l')) with
      (rbind (concat_parts (q' :: l')) (fun r => rbind (append3 (fst q) (fst r)) (fun m =>
        Ok (m, append_beta (snd q) (snd r))))) in H.
    inv_rbind H r Hr. inv_rbind H m Hm. injection H as <-. destruct (IH r Hr) as [Hn Hv].
    apply append3_inv in Hm. destruct Hm as (_ & _ & ->). cbn [fst chans val]. split.
    + unfold n_of in *. cbn [map list_sum fold_right] in *. rewrite Hn. reflexivity.
    + intros g t c Hc. cbn [pl_val]. destruct (c <? chans (fst q))%nat eqn:E; [reflexivity|].
      apply Nat.ltb_ge in E. apply Hv. lia.
Qed.
Lemma concat_beta : forall l l' p p', map snd l = map snd l' ->
  concat_parts l = Ok p -> concat_parts l' = Ok p' -> snd p = snd p'.
Proof.
  induction l as [|q l IH]; intros l' p p' E H H'; [discriminate|].
  destruct l' as [|r l']; [discriminate|]. cbn [map] in E. injection E as E1 E2.
  destruct l as [|q2 l]; destruct l' as [|r2 l']; try discriminate.
  - cbn in H, H'. congruence.
  - change (concat_parts (q :: q2 :: l)) with
      (rbind (concat_parts (q2 :: l)) (fun r => rbind (append3 (fst q) (fst r)) (fun m =>
        Ok (m, append_beta (snd q) (snd r))))) in H.
    change (concat_parts (r :: r2 :: l')) with
      (rbind (concat_parts (r2 :: l')) (fun r' => rbind (append3 (fst r) (fst r')) (fun m =>
        Ok (m, append_beta (snd r) (snd r'))))) in H'.
    inv_rbind H a Ha. inv_rbind H m Hm. inv_rbind H' a' Ha'. inv_rbind H' m' Hm'.
    injection H as <-. injection H' as <-. cbn [snd]. rewrite E1, (IH _ _ _ E2 Ha Ha'). reflexivity.
Qed.
Lemma pl_val_app : forall l l' g t c, pl_val (l ++ l') g t (n_of l + c) = pl_val l' g t c.
Proof.
  induction l as [|q l IH]; intros l' g t c; [reflexivity|]. cbn [app pl_val].
  unfold n_of in *. cbn [map list_sum fold_right].
  replace (chans (fst q) + fold_right Nat.add 0 (map (fun q => chans (fst q)) l) + c <? chans (fst q))%nat
    with false by (symmetry; apply Nat.ltb_ge; lia).
  replace (chans (fst q) + fold_right Nat.add 0 (map (fun q => chans (fst q)) l) + c - chans (fst q))%nat
    with (fold_right Nat.add 0 (map (fun q => chans (fst q)) l) + c)%nat by lia.
  apply IH.
Qed.

Definition col_eq (y y' : option T3) (c : nat) : Prop :=
  match y, y' with
  | Some a, Some b => forall g u, val a g u c = val b g u c
  | None, None => True
  | _, _ => False
  end.
Definition columns_agree (d d' : data) (ch : channel) : Prop :=
  match ch with
  | ChMedia c => col_eq (d_media d) (d_media d') c
  | ChRf c => col_eq (d_reach d) (d_reach d') c /\ col_eq (d_frequency d) (d_frequency d') c
  | ChOrganicMedia c => col_eq (d_organic_media d) (d_organic_media d') c
  | ChOrganicRf c => col_eq (d_organic_reach d) (d_organic_reach d') c /\
                     col_eq (d_organic_frequency d) (d_organic_frequency d') c
  | ChNonMedia c => col_eq (d_non_media d) (d_non_media d') c
  end.
Definition is_media (ch : channel) : Prop := match ch with ChNonMedia _ => False | _ => True end.
Definition n_treated (x : model) : nat :=
  (n_chans (d_media (x_data x)) + n_chans (d_reach (x_data x))
   + n_chans (d_organic_media (x_data x)) + n_chans (d_organic_reach (x_data x)))%nat.

Lemma decode : forall x i, (i < n_treated x)%nat ->
  exists ch, is_media ch /\ is_channel x ch /\ channel_index x ch = i.
Proof.
  intros x i Hi. unfold n_treated in Hi.
  set (m := n_chans (d_media (x_data x))) in *. set (r := n_chans (d_reach (x_data x))) in *.
  set (om := n_chans (d_organic_media (x_data x))) in *. set (q := n_chans (d_organic_reach (x_data x))) in *.
  destruct (Nat.lt_ge_cases i m); [exists (ChMedia i); cbn; auto|].
  destruct (Nat.lt_ge_cases i (m + r)); [exists (ChRf (i - m)); cbn; fold m r; repeat split; lia|].
  destruct (Nat.lt_ge_cases i (m + r + om)); [exists (ChOrganicMedia (i - (m + r))); cbn; fold m r om; repeat split; lia|].
  exists (ChOrganicRf (i - (m + r + om))). cbn. fold m r om q. repeat split; lia.
Qed.
Lemma index_lt : forall x ch, is_media ch -> is_channel x ch -> (channel_index x ch < n_treated x)%nat.
Proof. intros x [c|c|c|c|c] Hm H; cbn in *; unfold n_treated; lia || contradiction. Qed.

Lemma media_part_pair : forall m m' m0 f b l l', like m m0 -> like m' m0 ->
  media_part m f b = Ok l -> media_part m' f b = Ok l' ->
  (forall y o, like (Some y) m0 -> f y = Ok o -> chans o = chans y) ->
  map snd l = map snd l' /\ n_of l = n_chans m0 /\ n_of l' = n_chans m0 /\
  (forall c, (c < n_chans m0)%nat ->
     (forall y y' o o', m = Some y -> m' = Some y' -> f y = Ok o -> f y' = Ok o' ->
        forall g t, val o g t c = val o' g t c) ->
     forall tl tl' g t, pl_val (l ++ tl) g t c = pl_val (l' ++ tl') g t c).
Proof.
  intros m m' m0 f b l l' L L' H H' Hf.
  destruct m as [y|], m' as [y'|], m0 as [y0|]; cbn in L, L'; try contradiction; cbn [media_part] in *.
  - inv_rbind H o Ho. inv_rbind H' o' Ho'. injection H as <-. injection H' as <-.
    pose proof (Hf _ _ L Ho) as C. pose proof (Hf _ _ L' Ho') as C'.
    destruct L as (_ & _ & L). destruct L' as (_ & _ & L').
    unfold n_of. cbn [map list_sum fold_right fst snd n_chans].
    split; [reflexivity|]. split; [lia|]. split; [lia|].
    intros c Hc Hval tl tl' g t. cbn [app pl_val fst].
    replace (c <? chans o)%nat with true by (symmetry; apply Nat.ltb_lt; lia).
    replace (c <? chans o')%nat with true by (symmetry; apply Nat.ltb_lt; lia).
    eapply Hval; eauto.
  - injection H as <-. injection H' as <-. cbn. repeat (split; [reflexivity|]). intros; lia.
Qed.
Lemma rf_part_pair : forall r r' r0 q q' f b l l', like r r0 -> like r' r0 ->
  rf_part r q f b = Ok l -> rf_part r' q' f b = Ok l' ->
  (forall y z o, like (Some y) r0 -> r = Some y /\ q = Some z \/ r' = Some y /\ q' = Some z -> f y z = Ok o -> chans o = chans y) ->
  map snd l = map snd l' /\ n_of l = n_chans r0 /\ n_of l' = n_chans r0 /\
  (forall c, (c < n_chans r0)%nat ->
     (forall y y' z z' o o', r = Some y -> r' = Some y' -> q = Some z -> q' = Some z' ->
        f y z = Ok o -> f y' z' = Ok o' ->
        forall g t, val o g t c = val o' g t c) ->
     forall tl tl' g t, pl_val (l ++ tl) g t c = pl_val (l' ++ tl') g t c).
Proof.
  intros m m' m0 q q' f b l l' L L' H H' Hf.
  destruct m as [y|], m' as [y'|], m0 as [y0|]; cbn in L, L'; try contradiction; cbn [rf_part] in *.
  - destruct q as [z|]; [|discriminate]. destruct q' as [z'|]; [|discriminate].
    inv_rbind H o Ho. inv_rbind H' o' Ho'. injection H as <-. injection H' as <-.
    pose proof (Hf _ _ _ L (or_introl (conj eq_refl eq_refl)) Ho) as C.
    pose proof (Hf _ _ _ L' (or_intror (conj eq_refl eq_refl)) Ho') as C'.
    destruct L as (_ & _ & L). destruct L' as (_ & _ & L').
    unfold n_of. cbn [map list_sum fold_right fst snd n_chans].
    split; [reflexivity|]. split; [lia|]. split; [lia|].
    intros c Hc Hval tl tl' g t. cbn [app pl_val fst].
    replace (c <? chans o)%nat with true by (symmetry; apply Nat.ltb_lt; lia).
    replace (c <? chans o')%nat with true by (symmetry; apply Nat.ltb_lt; lia).
    eapply Hval; eauto.
  - injection H as <-. injection H' as <-. cbn. repeat (split; [reflexivity|]). intros; lia.
Qed.

Lemma transformed_local : forall x d d' w p p', well_formed x -> draw_ok x w ->
  same_dims d (x_data x) -> same_dims d' (x_data x) ->
  transformed_media_and_beta x d w None = Ok p -> transformed_media_and_beta x d' w None = Ok p' ->
  snd p = snd p' /\
  forall ch, is_media ch -> is_channel x ch -> columns_agree d d' ch ->
    forall g t, val (fst p) g t (channel_index x ch) = val (fst p') g t (channel_index x ch).
Proof.
  intros x d d' w p p' W Dw S S' H H'.
  destruct (transformed_runs x d w W Dw S) as (p1 & Hp1 & _ & _ & Pc).
  assert (p1 = p) by congruence. subst p1.
  destruct (transformed_runs x d' w W Dw S') as (p1 & Hp1' & _ & _ & Pc').
  assert (p1 = p') by congruence. subst p1. clear Hp1 Hp1'.
  destruct Dw as (D1 & D2 & D3 & D4 & P1 & P2 & P3 & P4).
  destruct S as (L1 & L2 & L3 & L4 & L5 & L6 & _ & _).
  destruct S' as (L1' & L2' & L3' & L4' & L5' & L6' & _ & _).
  destruct W as [Wt Wl _ Wp Wm Wr Wf Wom Wor Wof _ _ _ Wrf Worf (K1 & K2 & K3 & K4) _].
  unfold transformed_media_and_beta in H, H'.
  inv_rbind H l1 H1. inv_rbind H l2 H2. inv_rbind H l3 H3. inv_rbind H l4 H4. inv_rbind H q Hq.
  destruct (Nat.eqb (chans (fst q)) (fst (snd q))); [|discriminate].
  assert (q = p) by congruence. subst q. clear H.
  inv_rbind H' l1' H1'. inv_rbind H' l2' H2'. inv_rbind H' l3' H3'. inv_rbind H' l4' H4'. inv_rbind H' q' Hq'.
  destruct (Nat.eqb (chans (fst q')) (fst (snd q'))); [|discriminate].
  assert (q' = p') by congruence. subst q'. clear H'.
  assert (Mc : forall m0 pp df sa, dims m0 (x_n_geos x) (x_n_media_times x) -> kind_ok m0 df sa ->
    (m0 <> None -> n_par pp = n_chans m0) -> params_ok pp ->
    forall y o, like (Some y) m0 -> adstock_hill_media (x_cx x) y pp df sa None = Ok o -> chans o = chans y).
  { intros m0 pp df sa Hd Hk Hn Hpp y o L Ho. destruct m0 as [y0|]; cbn in L; [|contradiction].
    destruct L as (Lg & Lt & Lc). destruct Hd as [_ Dt]. destruct Hk as [Kd Ks].
    specialize (Hn ltac:(discriminate)). cbn [n_chans] in Hn. unfold x_n_media_times in *.
    destruct (media_runs (x_cx x) y pp df sa) as (out & Ho' & _ & _ & Oc); auto; try congruence;
      try (rewrite Lc; assumption). }
  assert (Rc : forall r r' r0 q q' q0 pp df sa, like q q0 -> like q' q0 -> paired r0 q0 ->
    dims r0 (x_n_geos x) (x_n_media_times x) -> dims q0 (x_n_geos x) (x_n_media_times x) -> kind_ok r0 df sa ->
    (r0 <> None -> n_par pp = n_chans r0) -> params_ok pp ->
    forall y z o, like (Some y) r0 -> r = Some y /\ q = Some z \/ r' = Some y /\ q' = Some z ->
      adstock_hill_rf (x_cx x) y z pp df sa None = Ok o -> chans o = chans y).
  { intros r r' r0 q q' q0 pp df sa Lq Lq' Hpair Hd Hd' Hk Hn Hpp y z o L Hz Ho.
    destruct r0 as [y0|]; cbn in L; [|contradiction]. destruct q0 as [z0|]; cbn in Hpair; [|contradiction].
    assert (LZ : geos z = geos z0 /\ times z = times z0 /\ chans z = chans z0)
      by (destruct Hz as [[_ ->]|[_ ->]]; assumption).
    destruct LZ as (Zg & Zt & Zc).
    destruct L as (Lg & Lt & Lc). destruct Hd as [Dg Dt]. destruct Hd' as [Dg' Dt']. destruct Hk as [Kd Ks].
    specialize (Hn ltac:(discriminate)). cbn [n_chans] in Hn. unfold x_n_media_times in *.
    destruct (rf_runs (x_cx x) y z pp df sa) as (out & Ho' & _ & _ & Oc); auto; try congruence;
      try (rewrite Lc; assumption). }
  destruct (media_part_pair _ _ _ _ _ _ _ L1 L1' H1 H1' (Mc _ _ _ _ Wm K1 D1 P1)) as (B1 & N1 & N1' & V1).
  destruct (rf_part_pair _ _ _ _ _ _ _ _ _ L2 L2' H2 H2'
             (Rc _ _ _ _ _ _ _ _ _ L3 L3' Wrf Wr Wf K2 D2 P2)) as (B2 & N2 & N2' & V2).
  destruct (media_part_pair _ _ _ _ _ _ _ L4 L4' H3 H3' (Mc _ _ _ _ Wom K3 D3 P3)) as (B3 & N3 & N3' & V3).
  destruct (rf_part_pair _ _ _ _ _ _ _ _ _ L5 L5' H4 H4'
             (Rc _ _ _ _ _ _ _ _ _ L6 L6' Worf Wor Wof K4 D4 P4)) as (B4 & N4 & N4' & V4).
  split.
  { eapply concat_beta; [|exact Hq|exact Hq']. unfold part in *. rewrite !map_app. rewrite B1, B2, B3, B4. reflexivity. }
  apply concat_val in Hq, Hq'. destruct Hq as [_ Vq]. destruct Hq' as [_ Vq'].
  intros ch Hm Hch Hcol g t.
  pose proof (index_lt x ch Hm Hch) as Hlt. unfold n_treated in Hlt.
  rewrite Vq by lia. rewrite Vq' by lia.
  destruct ch as [c|c|c|c|c]; cbn [channel_index is_channel columns_agree] in *.
  - apply (V1 c Hch).
    intros y y' o o' Ey Ey' Ho Ho'. rewrite Ey, Ey' in Hcol. rewrite Ey in L1. rewrite Ey' in L1'.
    destruct (d_media (x_data x)) as [y0|]; cbn in L1, L1', Hch; [|contradiction].
    eapply media_local; [exact Ho|exact Ho'| | | |exact Hcol]; try lia; intuition congruence.
  - rewrite <- N1 at 1. rewrite <- N1' at 1. rewrite !pl_val_app. apply (V2 c Hch).
    intros y y' z z' o o' Ey Ey' Ez Ez' Ho Ho'. rewrite Ey, Ey', Ez, Ez' in Hcol.
    rewrite Ey in L2. rewrite Ey' in L2'. rewrite Ez in L3. rewrite Ez' in L3'. destruct Hcol as [Cr Cf].
    destruct (d_reach (x_data x)) as [y0|]; cbn in L2, L2', Hch; [|contradiction].
    destruct (d_frequency (x_data x)) as [z0|]; cbn in L3, L3', Wrf; [|contradiction].
    destruct L2 as (? & ? & ?). destruct L2' as (? & ? & ?). destruct L3 as (? & ? & ?). destruct L3' as (? & ? & ?).
    eapply rf_local; [exact Ho|exact Ho'| | | | |exact Cr|exact Cf]; lia.
  - replace (n_chans (d_media (x_data x)) + n_chans (d_reach (x_data x)) + c)%nat
      with (n_of l1 + (n_of l2 + c))%nat at 1 by lia.
    replace (n_chans (d_media (x_data x)) + n_chans (d_reach (x_data x)) + c)%nat
      with (n_of l1' + (n_of l2' + c))%nat by lia.
    rewrite !pl_val_app. apply (V3 c Hch).
    intros y y' o o' Ey Ey' Ho Ho'. rewrite Ey, Ey' in Hcol. rewrite Ey in L4. rewrite Ey' in L4'.
    destruct (d_organic_media (x_data x)) as [y0|]; cbn in L4, L4', Hch; [|contradiction].
    eapply media_local; [exact Ho|exact Ho'| | | |exact Hcol]; try lia; intuition congruence.
  - replace (n_chans (d_media (x_data x)) + n_chans (d_reach (x_data x)) + n_chans (d_organic_media (x_data x)) + c)%nat
      with (n_of l1 + (n_of l2 + (n_of l3 + c)))%nat at 1 by lia.
    replace (n_chans (d_media (x_data x)) + n_chans (d_reach (x_data x)) + n_chans (d_organic_media (x_data x)) + c)%nat
      with (n_of l1' + (n_of l2' + (n_of l3' + c)))%nat by lia.
    rewrite !pl_val_app. rewrite <- (app_nil_r l4), <- (app_nil_r l4'). apply (V4 c Hch).
    intros y y' z z' o o' Ey Ey' Ez Ez' Ho Ho'. rewrite Ey, Ey', Ez, Ez' in Hcol.
    rewrite Ey in L5. rewrite Ey' in L5'. rewrite Ez in L6. rewrite Ez' in L6'. destruct Hcol as [Cr Cf].
    destruct (d_organic_reach (x_data x)) as [y0|]; cbn in L5, L5', Hch; [|contradiction].
    destruct (d_organic_frequency (x_data x)) as [z0|]; cbn in L6, L6', Worf; [|contradiction].
    destruct L5 as (? & ? & ?). destruct L5' as (? & ? & ?). destruct L6 as (? & ? & ?). destruct L6' as (? & ? & ?).
    eapply rf_local; [exact Ho|exact Ho'| | | | |exact Cr|exact Cf]; lia.
  - contradiction.
Qed.

Lemma fill_treatment : forall x ch f sel br b,
  fill_missing x (treatment x ch f sel br b) true true
  = mkData (d_media (treatment x ch f sel br b)) (d_reach (treatment x ch f sel br b))
      (d_frequency (treatment x ch f sel br b)) (d_organic_media (treatment x ch f sel br b))
      (d_organic_reach (treatment x ch f sel br b)) (d_organic_frequency (treatment x ch f sel br b))
      (d_non_media (treatment x ch f sel br b)) (d_controls (x_data x)) (d_revenue_per_kpi (x_data x)).
Proof.
  intros x ch f sel br b. unfold fill_missing, treatment. cbn [d_media d_reach d_frequency d_organic_media
      d_organic_reach d_organic_frequency d_non_media d_controls d_revenue_per_kpi].
  assert (O : forall y : option T3, orelse y y = y) by (intros [y|]; reflexivity).
  assert (M : forall g y, orelse (option_map g y) y = (option_map g y : option T3)) by (intros g [y|]; reflexivity).
  destruct ch, br, b; rewrite ?O, ?M; reflexivity.
Qed.

Lemma treatment_dims : forall x ch f sel br b,
  same_dims (fill_missing x (treatment x ch f sel br b) true true) (x_data x) /\
  get_modified_times x (treatment x ch f sel br b) = None.
Proof.
  intros x ch f sel br b.
  assert (L : forall c y, like (option_map (only f sel c) y) y) by (intros c [y|]; cbn; auto).
  assert (N : forall c v, like (option_map (fun n => mkT3 (geos n) (times n) (chans n)
           (fun g t c' => if Nat.eqb c' c then v * non_media_factor x g c' else val n g t c'))
           (d_non_media (x_data x))) (d_non_media (x_data x)))
    by (intros c v; destruct (d_non_media (x_data x)); cbn; auto).
  assert (S : same_dims (mkData (d_media (treatment x ch f sel br b)) (d_reach (treatment x ch f sel br b))
      (d_frequency (treatment x ch f sel br b)) (d_organic_media (treatment x ch f sel br b))
      (d_organic_reach (treatment x ch f sel br b)) (d_organic_frequency (treatment x ch f sel br b))
      (d_non_media (treatment x ch f sel br b)) (d_controls (x_data x)) (d_revenue_per_kpi (x_data x)))
      (x_data x)).
  { unfold same_dims, treatment. cbn [d_media d_reach d_frequency d_organic_media
      d_organic_reach d_organic_frequency d_non_media d_controls d_revenue_per_kpi].
    destruct ch, br, b; repeat split; auto using like_refl. }
  split; [rewrite fill_treatment; exact S|].
  destruct S as (S1 & S2 & S3 & S4 & S5 & S6 & S7 & _). cbn [d_media d_reach d_frequency d_organic_media
      d_organic_reach d_organic_frequency d_non_media] in *.
  assert (M : forall a a0, like a a0 -> modified3 a a0 = None).
  { intros [a|] [a0|] H; cbn in *; auto. destruct H as (_ & -> & _). rewrite Nat.eqb_refl. reflexivity. }
  unfold get_modified_times. rewrite !M by assumption. reflexivity.
Qed.

(** Columns after scaling. *)
Lemma col_map : forall tr y y' c, col_eq y y' c -> col_eq (transform_media y tr) (transform_media y' tr) c.
Proof.
  intros [tr|] [y|] [y'|] c H; cbn in *; auto; try contradiction. intros g u. rewrite H. reflexivity.
Qed.
Lemma col_refl : forall y c, col_eq y y c.
Proof. intros [y|] c; cbn; auto. Qed.

(** Other channels are untouched. *)
Lemma others_agree : forall x ch ch' f1 f0 sel br b1 b0, is_media ch -> is_media ch' -> ch' <> ch ->
  columns_agree (scale_data_tensors x (fill_missing x (treatment x ch f1 sel br b1) true true) true)
    (scale_data_tensors x (fill_missing x (treatment x ch f0 sel br b0) true true) true) ch'.
Proof.
  intros x ch ch' f1 f0 sel br b1 b0 Hm Hm' Hne. rewrite !fill_treatment.
  assert (O : forall c c' y, c' <> c -> col_eq (option_map (only f1 sel c) y) (option_map (only f0 sel c) y) c').
  { intros c c' [y|] Hc; cbn; auto. intros g u. apply Nat.eqb_neq in Hc. rewrite Hc. reflexivity. }
  unfold columns_agree, scale_data_tensors, treatment. cbn [d_media d_reach d_frequency d_organic_media
      d_organic_reach d_organic_frequency d_non_media d_controls d_revenue_per_kpi].
  destruct ch as [c|c|c|c|c], ch' as [c'|c'|c'|c'|c']; try contradiction;
  try (assert (c' <> c) by congruence);
  repeat split; try apply col_map; try (destruct br); auto using col_refl.
Qed.

(** Non-media channel changed: the media columns are untouched. *)
Lemma media_untouched : forall x c ch' f1 f0 sel br b1 b0, is_media ch' ->
  columns_agree (scale_data_tensors x (fill_missing x (treatment x (ChNonMedia c) f1 sel br b1) true true) true)
    (scale_data_tensors x (fill_missing x (treatment x (ChNonMedia c) f0 sel br b0) true true) true) ch'.
Proof.
  intros x c ch' f1 f0 sel br b1 b0 Hm'. rewrite !fill_treatment.
  unfold columns_agree, scale_data_tensors, treatment. cbn [d_media d_reach d_frequency d_organic_media
      d_organic_reach d_organic_frequency d_non_media d_controls d_revenue_per_kpi].
  destruct ch'; try contradiction; auto using col_refl.
Qed.

(** The changed channel is as in the scenario that changes all channels. *)
Lemma changed_agrees : forall x o ch f b, well_formed x -> is_media ch ->
  columns_agree (scaled_scenario x f o)
    (scale_data_tensors x (fill_missing x
       (treatment x ch f (o_media_selected_times o) (o_by_reach o) b) true true) true) ch.
Proof.
  intros x o ch f b W Hm. rewrite <- (fill_scenario1 x f o W), fill_treatment.
  rewrite (scenario_fill x f (o_media_selected_times o) (x_n_media_times x) (o_by_reach o) None
             (wf_rf x W) (wf_orf x W)).
  set (sel := o_media_selected_times o).
  assert (O : forall c y, col_eq (option_map (scale3 (multiplier f sel (x_n_media_times x))) y)
                            (option_map (only f sel c) y) c).
  { intros c [y|]; cbn; auto. intros g u. rewrite Nat.eqb_refl. cbn [andb].
    pose proof (times_f_scale f sel (x_n_media_times x) y) as E.
    change (val (scale3 (multiplier f sel (x_n_media_times x)) y) g u c = 
            if executed sel u then f * val y g u c else val y g u c).
    rewrite <- E. reflexivity. }
  unfold columns_agree, scale_data_tensors, treatment, scale_tensors_by_multiplier. cbv zeta. cbn [d_media d_reach d_frequency d_organic_media
      d_organic_reach d_organic_frequency d_non_media d_controls d_revenue_per_kpi].
  pose proof (wf_rf x W) as P1. pose proof (wf_orf x W) as P2. unfold paired in P1, P2.
  destruct ch as [c|c|c|c|c]; try contradiction.
  - apply col_map, O.
  - destruct (d_reach (x_data x)), (d_frequency (x_data x)); try contradiction; cbn [andb];
    destruct (o_by_reach o); cbn [negb]; split; try apply col_map; auto using col_refl.
  - apply col_map, O.
  - destruct (d_organic_reach (x_data x)), (d_organic_frequency (x_data x)); try contradiction; cbn [andb];
    destruct (o_by_reach o); cbn [negb]; split; try apply col_map; auto using col_refl.
Qed.

(** ** The entry of one channel *)
Lemma build_values : forall x o f isb i w y p, well_formed x -> draw_ok x w -> o_include_non_paid o = true ->
  build_counterfactual_inputs x no_data o f isb = Ok i ->
  transformed_media_and_beta x (scaled_scenario x f o) w None = Ok p ->
  get_incremental_kpi x (i_data i) w (i_baseline i) = Ok y ->
  chans y = (n_treated x + n_chans (d_non_media (x_data x)))%nat /\
  (forall g t c, (c < n_treated x)%nat -> val y g t c = val (fst p) g t c * snd (snd p) g c) /\
  (forall n g t c, d_non_media (x_data x) = Some n -> (c < chans n)%nat ->
     if isb then val y g t (n_treated x + c)%nat = 0
     else exists tr b, non_media_transformer x = Some tr /\
       compute_non_media_baseline x (o_baseline_values o) = Ok b /\
       val y g t (n_treated x + c)%nat
       = (centering_forward tr true g c (val n g t c) - centering_forward tr false 0%nat c (b c))
         * w_gamma_gn w g c).
Proof.
  intros x o f isb i w y p W Dw Hinc Hb Hp Hy.
  assert (Pc : chans (fst p) = n_treated x).
  { destruct (transformed_runs x (scaled_scenario x f o) w W Dw (scaled_scenario_same x f o))
      as (p' & Hp' & _ & _ & Hc). assert (p' = p) by congruence. subst p'. exact Hc. }
  apply (build_inv x o f isb i Hinc) in Hb. destruct Hb as (_ & _ & _ & _ & Hb).
  destruct (d_non_media (x_data x)) as [n|] eqn:En.
  - destruct Hb as (tr & b & Htr & Hbb & Hbase & Hdata). rewrite Hdata, Hbase in Hy.
    assert (Hp' : transformed_media_and_beta x (if isb then with_non_media (scaled_scenario x f o)
                   (Some (mkT3 (geos n) (times n) (chans n)
                      (fun _ _ c => centering_forward tr false 0%nat c (b c))))
                 else scaled_scenario x f o) w None = Ok p).
    { rewrite <- Hp. apply transformed_ext; destruct isb; reflexivity. }
    destruct (get_incremental_inv x _ w _ y p Hy Hp') as (_ & _ & HY).
    assert (Dn : d_non_media (scaled_scenario x f o)
      = Some (map3 (fun g c v => centering_forward tr true g c v) n)).
    { unfold scaled_scenario, scale_data_tensors, scale_tensors_by_multiplier. cbn [d_non_media].
      rewrite En, Htr. reflexivity. }
    cbn [n_chans].
    destruct isb.
    + cbn [with_non_media d_non_media] in HY. destruct HY as (b' & Hb' & Yc & _ & _ & VY).
      assert (b' = fun c => centering_forward tr false 0%nat c (b c)) by congruence. subst b'.
      rewrite Pc in *. cbn [chans] in Yc. split; [exact Yc|]. split.
      * intros g t c Hc. rewrite VY. apply Nat.ltb_lt in Hc. rewrite Hc. reflexivity.
      * intros n' g t c E Hc. rewrite VY.
        replace (n_treated x + c <? n_treated x)%nat with false by (symmetry; apply Nat.ltb_ge; lia).
        cbn [val]. ring.
    + rewrite Dn in HY. destruct HY as (b' & Hb' & Yc & _ & _ & VY).
      assert (b' = fun c => centering_forward tr false 0%nat c (b c)) by congruence. subst b'.
      rewrite Pc in *. cbn [chans map3] in Yc. split; [exact Yc|]. split.
      * intros g t c Hc. rewrite VY. apply Nat.ltb_lt in Hc. rewrite Hc. reflexivity.
      * intros n' g t c E Hc. assert (n' = n) by congruence. subst n'.
        exists tr, b. repeat (split; [assumption|]). rewrite VY.
        replace (n_treated x + c <? n_treated x)%nat with false by (symmetry; apply Nat.ltb_ge; lia).
        replace (n_treated x + c - n_treated x)%nat with c by lia.
        cbn [map3 val]. reflexivity.
  - destruct Hb as (Hbase & Hdata). rewrite Hdata, Hbase in Hy.
    destruct (get_incremental_inv x _ w _ y p Hy Hp) as (_ & _ & HY).
    assert (D : d_non_media (scaled_scenario x f o) = None).
    { unfold scaled_scenario, scale_data_tensors, scale_tensors_by_multiplier. cbn [d_non_media].
      rewrite En. reflexivity. }
    rewrite D in HY. destruct HY as (Yc & VY). rewrite Pc in Yc. cbn [n_chans].
    split; [lia|]. split; [intros; apply VY|]. discriminate.
Qed.

Lemma treated_runs : forall x ch f sel br b w, well_formed x -> draw_ok x w ->
  exists q, transformed_media_and_beta x
      (scale_data_tensors x (fill_missing x (treatment x ch f sel br b) true true) true) w None = Ok q /\
    chans (fst q) = n_treated x.
Proof.
  intros x ch f sel br b w W Dw.
  destruct (transformed_runs x (scale_data_tensors x (fill_missing x (treatment x ch f sel br b) true true) true)
              w W Dw) as (q & Hq & _ & _ & Hc); [|exists q; split; [exact Hq|exact Hc]].
  apply scale_same. apply treatment_dims.
Qed.

Lemma contract_single : forall y y' b g t k, chans y = chans y' -> (k < chans y)%nat ->
  (forall c, (c < chans y)%nat -> c <> k -> val y g t c = val y' g t c) ->
  contract y b g t - contract y' b g t = val y g t k * b g k - val y' g t k * b g k.
Proof.
  intros y y' b g t k Hc Hk H. unfold contract. rewrite <- Hc, <- rsum_minus.
  apply (rsum_single (chans y) k (fun c => val y g t c * b g c - val y' g t c * b g c) Hk).
  intros c Hcc Hn. rewrite (H c Hcc Hn). ring.
Qed.

Lemma one_channel : forall x o ch bv f1 f0 w e1 e0 y1 i1 (i0 : option inputs) v0,
  well_formed x -> draw_ok x w -> o_include_non_paid o = true -> is_channel x ch ->
  build_counterfactual_inputs x no_data o f1 false = Ok i1 ->
  match i0 with
  | Some j => build_counterfactual_inputs x no_data o f0 true = Ok j
  | None => f0 = 0 /\ forallb (fun b => b) (i_mask i1) = true
  end ->
  (forall c, ch = ChNonMedia c -> is_baseline_value x (o_baseline_values o) c bv) ->
  kpi_means x (scale_data_tensors x (fill_missing x
    (treatment x ch f1 (o_media_selected_times o) (o_by_reach o) None) true true) true) w = Ok e1 ->
  kpi_means x (scale_data_tensors x (fill_missing x
    (treatment x ch f0 (o_media_selected_times o) (o_by_reach o) (Some bv)) true true) true) w = Ok e0 ->
  get_incremental_kpi x (i_data i1) w (i_baseline i1) = Ok y1 ->
  match i0 with
  | Some j => exists y0, get_incremental_kpi x (i_data j) w (i_baseline j) = Ok y0 /\
                chans y0 = chans y1 /\ forall g t c, v0 g t c = val y0 g t c
  | None => forall g t c, v0 g t c = 0
  end ->
  chans y1 = (n_treated x + n_chans (d_non_media (x_data x)))%nat /\
  forall g t, (g < x_n_geos x)%nat ->
    val y1 g t (channel_index x ch) - v0 g t (channel_index x ch) = val2 e1 g t - val2 e0 g t.
Proof.
  intros x o ch bv f1 f0 w e1 e0 y1 i1 i0 v0 W Dw Hinc Hch Hb1 Hb0 Hbv He1 He0 Hy1 Hy0.
  set (sel := o_media_selected_times o) in *. set (br := o_by_reach o) in *.
  pose proof (build_inv x o f1 false i1 Hinc Hb1) as (Hmask & _).
  destruct (transformed_runs x (scaled_scenario x f1 o) w W Dw (scaled_scenario_same x f1 o)) as (p1 & Hp1 & _ & _ & P1c).
  destruct (transformed_runs x (scaled_scenario x f0 o) w W Dw (scaled_scenario_same x f0 o)) as (p0 & Hp0 & _ & _ & P0c).
  fold (n_treated x) in P1c, P0c.
  destruct (build_values x o f1 false i1 w y1 p1 W Dw Hinc Hb1 Hp1 Hy1) as (Yc & Ym & Yn).
  split; [exact Yc|].
  set (D1 := scale_data_tensors x (fill_missing x (treatment x ch f1 sel br None) true true) true) in *.
  set (D0 := scale_data_tensors x (fill_missing x (treatment x ch f0 sel br (Some bv)) true true) true) in *.
  assert (S1 : same_dims D1 (x_data x)) by (apply scale_same, treatment_dims).
  assert (S0 : same_dims D0 (x_data x)) by (apply scale_same, treatment_dims).
  destruct (kpi_means_inv x D1 w e1 He1) as (q1 & Hq1 & _ & _ & _ & _ & V1).
  destruct (kpi_means_inv x D0 w e0 He0) as (q0 & Hq0 & _ & _ & _ & _ & V0).
  destruct (transformed_runs x D1 w W Dw S1) as (q & Hq & _ & _ & Q1c). assert (q = q1) by congruence. subst q.
  destruct (transformed_runs x D0 w W Dw S0) as (q & Hq' & _ & _ & Q0c). assert (q = q0) by congruence. subst q.
  fold (n_treated x) in Q1c, Q0c. clear Hq Hq'.
  destruct (transformed_local x D1 D0 w q1 q0 W Dw S1 S0 Hq1 Hq0) as [B10 L10].
  assert (Dc : d_controls D1 = d_controls D0) by (unfold D1, D0; rewrite !fill_treatment; reflexivity).
  intros g t Hg. rewrite V1, V0, Dc.
  assert (Hcase : is_media ch \/ exists c, ch = ChNonMedia c) by (destruct ch; cbn; eauto).
  destruct Hcase as [Hm|[c Ec]].
  - (* a media channel *)
    assert (Dn : d_non_media D1 = d_non_media D0).
    { unfold D1, D0. rewrite !fill_treatment. destruct ch; try reflexivity. contradiction. }
    rewrite Dn. pose proof (index_lt x ch Hm Hch) as Hlt.
    assert (EC : contract (fst q1) (snd (snd q1)) g t - contract (fst q0) (snd (snd q1)) g t
      = val (fst q1) g t (channel_index x ch) * snd (snd q1) g (channel_index x ch)
        - val (fst q0) g t (channel_index x ch) * snd (snd q1) g (channel_index x ch)).
    { apply contract_single; [congruence|congruence|]. intros c Hc Hne.
      rewrite Q1c in Hc. destruct (decode x c Hc) as (ch' & Hm' & Hch' & Ei). rewrite <- Ei.
      apply L10; [exact Hm'|exact Hch'|]. apply others_agree; [exact Hm|exact Hm'|].
      intros E. subst ch'. congruence. }
    destruct (transformed_local x (scaled_scenario x f1 o) D1 w p1 q1 W Dw
                (scaled_scenario_same x f1 o) S1 Hp1 Hq1) as [B1 L1].
    destruct (transformed_local x (scaled_scenario x f0 o) D0 w p0 q0 W Dw
                (scaled_scenario_same x f0 o) S0 Hp0 Hq0) as [B0 L0].
    specialize (L1 ch Hm Hch (changed_agrees x o ch f1 None W Hm) g t).
    specialize (L0 ch Hm Hch (changed_agrees x o ch f0 (Some bv) W Hm) g t).
    rewrite (Ym g t _ Hlt).
    assert (EV : v0 g t (channel_index x ch)
                 = val (fst p0) g t (channel_index x ch) * snd (snd p0) g (channel_index x ch)).
    { destruct i0 as [j|].
      - destruct Hy0 as (y0 & Hy0 & C0 & Hv). rewrite Hv.
        destruct (build_values x o f0 true j w y0 p0 W Dw Hinc Hb0 Hp0 Hy0) as (_ & Ym0 & _).
        apply Ym0. exact Hlt.
      - rewrite Hy0. destruct Hb0 as [E Hall]. subst f0. rewrite Hmask in Hall.
        pose proof (zero_scenario x o w p0 W (draw_ok_slopes x w Dw) Hall Hp0) as Z.
        unfold zero3 in Z. rewrite Z. { ring. } all: try assumption; try congruence; try lia. }
    rewrite EV, L1, L0, B1, B0, <- B10.
    lra.
  - (* a non-media treatment *)
    subst ch. specialize (Hbv c eq_refl). cbn [is_channel] in Hch.
    destruct (d_non_media (x_data x)) as [n|] eqn:En; [|cbn in Hch; lia]. cbn [n_chans] in Hch.
    change (channel_index x (ChNonMedia c)) with (n_treated x + c)%nat.
    destruct (Yn n g t c eq_refl Hch) as (tr & b & Htr & Hbb & Ev). rewrite Ev.
    assert (EV : v0 g t (n_treated x + c)%nat = 0).
    { destruct i0 as [j|]; [|apply Hy0].
      destruct Hy0 as (y0 & Hy0 & C0 & Hv). rewrite Hv.
      destruct (build_values x o f0 true j w y0 p0 W Dw Hinc Hb0 Hp0 Hy0) as (_ & _ & Yn0).
      exact (Yn0 n g t c En Hch). }
    assert (Ebb : b c = bv).
    { pose proof (wf_nm x W) as Wn. rewrite En in Wn. destruct Wn as [Wg _].
      apply (baseline_value_unique x (o_baseline_values o) n b c bv); auto.
      all: try exact (wf_population x W). }
    assert (EC : contract (fst q1) (snd (snd q1)) g t = contract (fst q0) (snd (snd q0)) g t).
    { unfold contract. rewrite B10, Q1c, Q0c. apply rsum_ext. intros c' Hc'.
      destruct (decode x c' Hc') as (ch' & Hm' & Hch' & Ei). rewrite <- Ei.
      rewrite (L10 ch' Hm' Hch'); [reflexivity|]. apply media_untouched. exact Hm'. }
    assert (E1 : d_non_media D1 = Some (map3 (fun g c v => centering_forward tr true g c v) n)).
    { unfold D1. rewrite fill_treatment. unfold scale_data_tensors, treatment. cbn [d_non_media].
      rewrite En, Htr. reflexivity. }
    assert (E0 : d_non_media D0 = Some (map3 (fun g c v => centering_forward tr true g c v)
       (mkT3 (geos n) (times n) (chans n)
          (fun g t c' => if Nat.eqb c' c then bv * non_media_factor x g c' else val n g t c')))).
    { unfold D0. rewrite fill_treatment. unfold scale_data_tensors, treatment. cbn [d_non_media].
      rewrite En, Htr. reflexivity. }
    rewrite EV, EC, E1, E0.
    match goal with |- _ = _ + contract ?m ?h g t - (_ + contract ?m' _ g t) =>
      assert (ES : contract m h g t - contract m' h g t = val m g t c * h g c - val m' g t c * h g c) end.
    { apply contract_single; [reflexivity|exact Hch|]. intros c' _ Hne. cbn [map3 val].
      apply Nat.eqb_neq in Hne. rewrite Hne. reflexivity. }
    cbn [map3 val] in ES. rewrite Nat.eqb_refl in ES.
    rewrite (baseline_forward x tr bv g c Htr (wf_population x W g c Hg)) in ES. rewrite Ebb.
    lra.
Qed.

(** Each entry of the result, in modelled units. *)
Lemma entry_of_result : forall x o bs draws I,
  well_formed x -> o_include_non_paid o = true ->
  incremental_outcome x no_data o bs draws = Ok I ->
  length I = length draws /\
  exists i1, build_counterfactual_inputs x no_data o (o_scaling_factor1 o) false = Ok i1 /\
  in_range (x_n_geos x) (i_geo i1) /\ in_range (x_n_times x) (i_time i1) /\
  exists i0, match i0 with
             | Some j => build_counterfactual_inputs x no_data o (o_scaling_factor0 o) true = Ok j
             | None => o_scaling_factor0 o = 0 /\ forallb (fun b => b) (i_mask i1) = true
             end /\
  forall k w0 z, (k < length draws)%nat ->
    exists k1 u0, get_incremental_kpi x (i_data i1) (nth k draws w0) (i_baseline i1) = Ok k1 /\
      match i0 with
      | Some j => exists y0, get_incremental_kpi x (i_data j) (nth k draws w0) (i_baseline j) = Ok y0 /\
                    chans y0 = chans k1 /\ forall g t c, u0 g t c = val y0 g t c
      | None => forall g t c, u0 g t c = 0
      end /\
      shape (nth k I z) = dimension (x_n_geos x) (i_geo i1) (o_aggregate_geos o)
        ++ dimension (x_n_times x) (i_time i1) (o_aggregate_times o) ++ [chans k1] /\
      forall a d c, (o_aggregate_geos o = false -> (a < length (selection (x_n_geos x) (i_geo i1)))%nat) ->
        (o_aggregate_times o = false -> (d < length (selection (x_n_times x) (i_time i1)))%nat) ->
        at_ (nth k I z) (position (o_aggregate_geos o) a ++ position (o_aggregate_times o) d ++ [c])
        = cell (x_n_geos x) (x_n_times x) (i_geo i1) (i_time i1) (o_aggregate_geos o) (o_aggregate_times o)
            (fun g t => slope_of x (o_inverse o) (o_use_kpi o) g t * (val k1 g t c - u0 g t c)) a d.
Proof.
  intros x o bs draws I W Hinc HI.
  destruct (incremental_inv x o bs draws I Hinc HI) as (_ & LI & i1 & Hi1 & i0 & Hi0 & HIk).
  split; [exact LI|]. exists i1. split; [exact Hi1|].
  destruct draws as [|w draws'].
  { (* without draws there is no run *)
    exfalso. unfold incremental_outcome in HI. cbv zeta in HI.
    inv_rbind HI u Hu. inv_rbind HI v Hv. inv_rbind HI i1' Hi1'. inv_rbind HI i0' Hi0'.
    apply run_batched_inv in HI. destruct HI as (_ & Hne & _). congruence. }
  set (draws := w :: draws') in *.
  assert (Hlen : (0 < length draws)%nat) by (cbn; lia).
  assert (R : in_range (x_n_geos x) (i_geo i1) /\ in_range (x_n_times x) (i_time i1)).
  { destruct (HIk 0%nat w (mkTensor [] (fun _ => 0)) Hlen) as (y1 & Hy1 & _ & Rg & Rt & _).
    pose proof (build_rpk x o _ _ i1 Hinc Hi1) as R1.
    destruct (incremental_values_inv x o i1 _ y1 W R1 Hy1) as (k1 & Hk1 & K1g & K1t & K1c & K1v).
    assert (Ty1 : times y1 = x_n_times x) by (rewrite K1t; eapply build_times; eauto).
    rewrite Ty1 in Rt. split; assumption. }
  destruct R as [Rg Rt]. split; [exact Rg|]. split; [exact Rt|].
  exists i0. split; [destruct i0; [apply Hi0|exact Hi0]|].
  intros k w0 z Hk.
  destruct (HIk k w0 z Hk) as (y1 & Hy1 & Yg & _ & _ & SI & v0 & Hv0 & VI).
  pose proof (build_rpk x o _ _ i1 Hinc Hi1) as R1.
  destruct (incremental_values_inv x o i1 _ y1 W R1 Hy1) as (k1 & Hk1 & K1g & K1t & K1c & K1v).
  assert (Ty1 : times y1 = x_n_times x)
    by (rewrite K1t; eapply build_times; eauto).
  assert (Hsub : exists u0,
    match i0 with
    | Some j => exists y0, get_incremental_kpi x (i_data j) (nth k draws w0) (i_baseline j) = Ok y0 /\
                  chans y0 = chans k1 /\ forall g t c, u0 g t c = val y0 g t c
    | None => forall g t c, u0 g t c = 0
    end /\ (forall g t c, v0 g t c = slope_of x (o_inverse o) (o_use_kpi o) g t * u0 g t c) /\
    match i0 with Some j => forall y0, incremental_values x o j (nth k draws w0) = Ok y0 ->
                                  times y1 = times y0 | None => True end).
  { destruct i0 as [j|].
    - destruct Hi0 as [Hj _]. destruct Hv0 as (y0 & Hy0 & Y0g & Y0c & Hv0).
      pose proof (build_rpk x o _ _ j Hinc Hj) as R0.
      destruct (incremental_values_inv x o j _ y0 W R0 Hy0) as (k0 & Hk0 & K0g & K0t & K0c & K0v).
      assert (Ty0 : times y0 = x_n_times x)
        by (rewrite K0t; eapply build_times; eauto).
      exists (fun g t c => val k0 g t c). split.
      { exists k0. split; [exact Hk0|]. split; [congruence|]. reflexivity. }
      split.
      { intros g t c. rewrite Hv0 by congruence. apply K0v. }
      { intros y' Hy'. assert (y' = y0) by congruence. subst. congruence. }
    - exists (fun _ _ _ => 0). split; [reflexivity|]. split; [|exact Logic.I].
      intros g t c. rewrite Hv0. ring. }
  destruct Hsub as (u0 & Hu0 & Hvu & Htimes).
  exists k1, u0. split; [exact Hk1|]. split; [exact Hu0|]. rewrite Ty1 in *. split; [congruence|].
  intros a d c Ha Hd. rewrite VI by assumption.
  apply cell_ext; try assumption. intros g t Hg Ht. rewrite K1v, Hvu. ring.
Qed.

Lemma treatment_runs : forall x o bs draws ch f b, well_formed x -> valid_request x o bs draws ->
  exists E, expected_outcome x (treatment x ch f (o_media_selected_times o) (o_by_reach o) b)
    (o_selected_geos o) (o_selected_times o) (o_aggregate_geos o)
    (o_aggregate_times o) (o_inverse o) (o_use_kpi o) bs draws = Ok E.
Proof.
  intros x o bs draws ch f b W V. pose proof (units_ok x o bs draws V) as U. destruct V.
  apply expected_runs; auto; apply treatment_dims.
Qed.

Lemma channel_total : forall x o bs draws ch bv,
  well_formed x -> valid_request x o bs draws -> is_channel x ch ->
  (forall c, ch = ChNonMedia c -> is_baseline_value x (o_baseline_values o) c bv) ->
  exists I E1 E0,
    incremental_outcome x no_data o bs draws = Ok I /\
    expected_outcome x
      (treatment x ch (o_scaling_factor1 o) (o_media_selected_times o) (o_by_reach o) None)
      (o_selected_geos o) (o_selected_times o) (o_aggregate_geos o) (o_aggregate_times o)
      (o_inverse o) (o_use_kpi o) bs draws = Ok E1 /\
    expected_outcome x
      (treatment x ch (o_scaling_factor0 o) (o_media_selected_times o) (o_by_reach o) (Some bv))
      (o_selected_geos o) (o_selected_times o) (o_aggregate_geos o) (o_aggregate_times o)
      (o_inverse o) (o_use_kpi o) bs draws = Ok E0 /\
    length I = length draws /\ length E1 = length draws /\ length E0 = length draws /\
    forall k z, (k < length draws)%nat ->
      shape (nth k E0 z) = shape (nth k E1 z) /\
      (exists C, (channel_index x ch < C)%nat /\ shape (nth k I z) = shape (nth k E1 z) ++ [C]) /\
      forall pos, valid_position pos (shape (nth k E1 z)) ->
        at_ (nth k I z) (pos ++ [channel_index x ch]) = at_ (nth k E1 z) pos - at_ (nth k E0 z) pos.
Proof.
  intros x o bs draws ch bv W V Hch Hbv.
  destruct (request_runs x o bs draws W V) as [I HI].
  destruct (treatment_runs x o bs draws ch (o_scaling_factor1 o) None W V) as [E1 HE1].
  destruct (treatment_runs x o bs draws ch (o_scaling_factor0 o) (Some bv) W V) as [E0 HE0].
  exists I, E1, E0. repeat (split; [assumption|]).
  pose proof (vr_paid _ _ _ _ V) as Hinc. pose proof (vr_draws _ _ _ _ V) as Hw.
  destruct (entry_of_result x o bs draws I W Hinc HI) as (LI & i1 & Hi1 & Rg & Rt & i0 & Hi0 & HIk).
  destruct (expected_inv _ (treatment x ch (o_scaling_factor1 o) (o_media_selected_times o) (o_by_reach o) None)
              _ _ _ _ _ _ _ _ _ eq_refl HE1) as (LE1 & gi1 & ti1 & n1 & G1 & T1 & HE1k).
  destruct (expected_inv _ (treatment x ch (o_scaling_factor0 o) (o_media_selected_times o) (o_by_reach o) (Some bv))
              _ _ _ _ _ _ _ _ _ eq_refl HE0) as (LE0 & gi0 & ti0 & n0 & G0 & T0 & HE0k).
  repeat (split; [assumption|]). intros k z Hk.
  pose proof (build_inv x o _ _ i1 Hinc Hi1) as (_ & _ & Gi & (n & Ti) & _).
  assert (gi1 = i_geo i1) by congruence. assert (gi0 = i_geo i1) by congruence. subst gi1 gi0.
  assert (ti1 = i_time i1) by (eapply resolve_time_indep; eauto).
  assert (ti0 = i_time i1) by (eapply resolve_time_indep; eauto). subst ti1 ti0.
  destruct draws as [|w0 draws']; [cbn in Hk; lia|]. set (draws := w0 :: draws') in *.
  destruct (HE1k k w0 z Hk) as (e1 & Hm1 & _ & _ & S1 & V1).
  destruct (HE0k k w0 z Hk) as (e0 & Hm0 & _ & _ & S0 & V0).
  destruct (HIk k w0 z Hk) as (k1 & u0 & Hk1 & Hu0 & SI & VI).
  assert (Dw : draw_ok x (nth k draws w0)) by (rewrite Forall_forall in Hw; apply Hw, nth_In; exact Hk).
  destruct (one_channel x o ch bv (o_scaling_factor1 o) (o_scaling_factor0 o) (nth k draws w0)
              e1 e0 k1 i1 i0 u0 W Dw Hinc Hch Hi1 Hi0 Hbv Hm1 Hm0 Hk1 Hu0) as (C1 & HD).
  split; [congruence|]. split.
  { exists (chans k1). split; [|rewrite SI, S1, app_assoc; reflexivity]. rewrite C1.
    destruct ch as [c|c|c|c|c]; cbn [is_channel channel_index] in *; unfold n_treated; lia. }
  intros pos Hpos. rewrite S1 in Hpos. apply position_split in Hpos.
  destruct Hpos as (a & d & -> & Ha & Hd). rewrite V1, V0 by assumption.
  rewrite <- app_assoc, VI, <- cell_minus by assumption.
  apply cell_ext; try assumption. intros g t Hg Ht.
  rewrite outcome_diff, <- (HD g t Hg). reflexivity.
Qed.

(** Non-media entries do not depend on how the media are scaled. *)
Lemma non_media_independent : forall x o o' bs draws c bv,
  well_formed x -> valid_request x o bs draws -> valid_request x o' bs draws ->
  o_selected_geos o = o_selected_geos o' -> o_selected_times o = o_selected_times o' ->
  o_aggregate_geos o = o_aggregate_geos o' -> o_aggregate_times o = o_aggregate_times o' ->
  o_inverse o = o_inverse o' -> o_use_kpi o = o_use_kpi o' ->
  o_baseline_values o = o_baseline_values o' ->
  (c < n_chans (d_non_media (x_data x)))%nat ->
  is_baseline_value x (o_baseline_values o) c bv ->
  exists I I', incremental_outcome x no_data o bs draws = Ok I /\
    incremental_outcome x no_data o' bs draws = Ok I' /\
    forall k z lead C, (k < length draws)%nat -> shape (nth k I z) = lead ++ [C] ->
      shape (nth k I' z) = lead ++ [C] /\
      forall pos, valid_position pos lead ->
        at_ (nth k I z) (pos ++ [channel_index x (ChNonMedia c)])
        = at_ (nth k I' z) (pos ++ [channel_index x (ChNonMedia c)]).
Proof.
  intros x o o' bs draws c bv W V V' A1 A2 A3 A4 A5 A6 A7 Hc Hb.
  assert (Hbv : forall c', ChNonMedia c = ChNonMedia c' -> is_baseline_value x (o_baseline_values o) c' bv)
    by (intros c' E; injection E as <-; exact Hb).
  assert (Hbv' : forall c', ChNonMedia c = ChNonMedia c' -> is_baseline_value x (o_baseline_values o') c' bv)
    by (rewrite <- A7; exact Hbv).
  destruct (channel_total x o bs draws (ChNonMedia c) bv W V Hc Hbv)
    as (I & E1 & E0 & HI & HE1 & HE0 & LI & LE1 & LE0 & H).
  destruct (channel_total x o' bs draws (ChNonMedia c) bv W V' Hc Hbv')
    as (I' & E1' & E0' & HI' & HE1' & HE0' & LI' & LE1' & LE0' & H').
  rewrite <- A1, <- A2, <- A3, <- A4, <- A5, <- A6 in HE1', HE0'.
  change (treatment x (ChNonMedia c) (o_scaling_factor1 o') (o_media_selected_times o') (o_by_reach o') None)
    with (treatment x (ChNonMedia c) (o_scaling_factor1 o) (o_media_selected_times o) (o_by_reach o) None) in HE1'.
  change (treatment x (ChNonMedia c) (o_scaling_factor0 o') (o_media_selected_times o') (o_by_reach o') (Some bv))
    with (treatment x (ChNonMedia c) (o_scaling_factor0 o) (o_media_selected_times o) (o_by_reach o) (Some bv)) in HE0'.
  assert (E1' = E1) by congruence. assert (E0' = E0) by congruence. subst E1' E0'.
  exists I, I'. split; [exact HI|]. split; [exact HI'|].
  intros k z lead C Hk HS.
  destruct (entry_of_result x o bs draws I W (vr_paid _ _ _ _ V) HI) as (_ & i1 & Hi1 & _ & _ & i0 & Hi0 & HIk).
  destruct (entry_of_result x o' bs draws I' W (vr_paid _ _ _ _ V') HI') as (_ & i1' & Hi1' & _ & _ & i0' & Hi0' & HIk').
  destruct (H k z Hk) as (_ & _ & Hv). destruct (H' k z Hk) as (_ & (C' & _ & S') & Hv').
  destruct (H k z Hk) as (_ & (C1 & _ & S) & _).
  rewrite S in HS. apply app_inj_tail in HS. destruct HS as [HL HC].
  pose proof (vr_draws _ _ _ _ V) as Hw.
  assert (EC : C1 = (n_treated x + n_chans (d_non_media (x_data x)))%nat /\
               C' = (n_treated x + n_chans (d_non_media (x_data x)))%nat).
  { destruct draws as [|w0 draws']; [cbn in Hk; lia|]. set (draws := w0 :: draws') in *.
    assert (Dw : draw_ok x (nth k draws w0)) by (rewrite Forall_forall in Hw; apply Hw, nth_In; exact Hk).
    destruct (HIk k w0 z Hk) as (k1 & u0 & Hk1 & _ & SI & _).
    destruct (HIk' k w0 z Hk) as (k1' & u0' & Hk1' & _ & SI' & _).
    destruct (transformed_runs x (scaled_scenario x (o_scaling_factor1 o) o) (nth k draws w0) W Dw
      (scaled_scenario_same x _ o)) as (p1 & Hp1 & _).
    destruct (transformed_runs x (scaled_scenario x (o_scaling_factor1 o') o') (nth k draws w0) W Dw
      (scaled_scenario_same x _ o')) as (p1' & Hp1' & _).
    destruct (build_values x o _ false i1 _ k1 p1 W Dw (vr_paid _ _ _ _ V) Hi1 Hp1 Hk1) as (Y & _).
    destruct (build_values x o' _ false i1' _ k1' p1' W Dw (vr_paid _ _ _ _ V') Hi1' Hp1' Hk1') as (Y' & _).
    rewrite S, app_assoc in SI. apply app_inj_tail in SI. rewrite S', app_assoc in SI'. apply app_inj_tail in SI'.
    destruct SI, SI'. split; congruence. }
  destruct EC as [EC1 EC2]. split; [rewrite S', HL; f_equal; congruence|].
  intros pos Hpos. rewrite <- HL in Hpos. rewrite Hv, Hv' by exact Hpos. reflexivity.
Qed.

(** The sign of the non-media entries. *)
Lemma rsum_l_nonneg : forall A (f : A -> R) l, (forall a, In a l -> 0 <= f a) -> 0 <= fold_right Rplus 0 (map f l).
Proof.
  induction l as [|a l IH]; intros H; cbn; [lra|].
  pose proof (H a (or_introl eq_refl)). assert (0 <= fold_right Rplus 0 (map f l)) by (apply IH; intros; apply H; right; assumption). lra.
Qed.
Lemma cell_nonneg : forall G T gi ti ag at' f i j,
  in_range G gi -> in_range T ti ->
  (ag = false -> (i < length (selection G gi))%nat) ->
  (at' = false -> (j < length (selection T ti))%nat) ->
  (forall g t, (g < G)%nat -> (t < T)%nat -> 0 <= f g t) ->
  0 <= cell G T gi ti ag at' f i j.
Proof.
  intros G T gi ti ag at' f i j Hg Ht Hi Hj H.
  rewrite (cell_ext G T gi ti ag at' f (fun g t => Rabs (f g t)) i j Hg Ht Hi Hj)
    by (intros g t Hgg Htt; symmetry; apply Rabs_right; specialize (H g t Hgg Htt); lra).
  unfold cell, total. apply rsum_l_nonneg. intros g _. apply rsum_l_nonneg. intros t _. apply Rabs_pos.
Qed.

Lemma divide_mono : forall a b s, 0 <= s -> b <= a -> 0 <= divide_no_nan a s - divide_no_nan b s.
Proof.
  intros a b s Hs H. unfold divide_no_nan. destruct (Req_EM_T s 0); [lra|].
  assert (E : a / s - b / s = (a - b) * / s) by (field; assumption). rewrite E.
  apply Rmult_le_pos; [lra|]. left. apply Rinv_0_lt_compat. lra.
Qed.

Lemma non_media_sign : forall x o bs draws c bv,
  well_formed x -> valid_request x o bs draws ->
  (c < n_chans (d_non_media (x_data x)))%nat ->
  is_baseline_value x (o_baseline_values o) c bv ->
  (forall v, In v (per_capita x c) -> bv <= v) ->
  (forall g, 0 <= x_population x g) ->
  (forall r g t, d_revenue_per_kpi (x_data x) = Some r -> 0 <= val2 r g t) ->
  exists I, incremental_outcome x no_data o bs draws = Ok I /\
    forall k w0 z lead C, (k < length draws)%nat -> shape (nth k I z) = lead ++ [C] ->
      (forall g, 0 <= w_gamma_gn (nth k draws w0) g c) ->
      forall pos, valid_position pos lead ->
        0 <= at_ (nth k I z) (pos ++ [channel_index x (ChNonMedia c)]).
Proof.
  intros x o bs draws c bv W V Hc Hb Hmin Hpop Hrpk.
  destruct (request_runs x o bs draws W V) as [I HI]. exists I. split; [exact HI|].
  pose proof (vr_paid _ _ _ _ V) as Hinc. pose proof (vr_draws _ _ _ _ V) as Hw.
  destruct (entry_of_result x o bs draws I W Hinc HI) as (LI & i1 & Hi1 & Rg & Rt & i0 & Hi0 & HIk).
  intros k w0 z lead C Hk HS Hgam pos Hpos.
  destruct (HIk k w0 z Hk) as (k1 & u0 & Hk1 & Hu0 & SI & VI).
  assert (Dw : draw_ok x (nth k draws w0)) by (rewrite Forall_forall in Hw; apply Hw, nth_In; exact Hk).
  rewrite SI, app_assoc in HS. apply app_inj_tail in HS. destruct HS as [HL _].
  rewrite <- HL in Hpos. apply position_split in Hpos. destruct Hpos as (a & d & -> & Ha & Hd).
  rewrite <- app_assoc, VI by assumption.
  destruct (d_non_media (x_data x)) as [n|] eqn:En; [|cbn in Hc; lia]. cbn [n_chans] in Hc.
  pose proof (wf_nm x W) as Wn. rewrite En in Wn. destruct Wn as [Wg Wt].
  destruct (transformed_runs x (scaled_scenario x (o_scaling_factor1 o) o) (nth k draws w0) W Dw
      (scaled_scenario_same x _ o)) as (p1 & Hp1 & _).
  destruct (transformed_runs x (scaled_scenario x (o_scaling_factor0 o) o) (nth k draws w0) W Dw
      (scaled_scenario_same x _ o)) as (p0 & Hp0 & _).
  destruct (build_values x o _ false i1 _ k1 p1 W Dw Hinc Hi1 Hp1 Hk1) as (_ & _ & Yn).
  apply cell_nonneg; try assumption. intros g t Hg Ht.
  change (channel_index x (ChNonMedia c)) with (n_treated x + c)%nat.
  destruct (Yn n g t c En Hc) as (tr & b & Htr & Hbb & Ev). rewrite Ev.
  assert (EV : u0 g t (n_treated x + c)%nat = 0).
  { destruct i0 as [j|]; [|apply Hu0].
    destruct Hu0 as (y0 & Hy0 & C0 & Hv). rewrite Hv.
    destruct (build_values x o _ true j _ y0 p0 W Dw Hinc Hi0 Hp0 Hy0) as (_ & _ & Yn0).
    exact (Yn0 n g t c En Hc). }
  assert (Ebb : b c = bv).
  { apply (baseline_value_unique x (o_baseline_values o) n b c bv); auto.
    all: try exact (wf_population x W). }
  rewrite EV, Ebb, Rminus_0_r.
  apply Rmult_le_pos.
  { unfold slope_of. destruct (o_inverse o); [|lra].
    apply Rmult_le_pos; [apply Rmult_le_pos|].
    - unfold kpi_tr, kpi_init. cbn [k_stdev]. apply sqrt_pos.
    - unfold kpi_tr, kpi_init. cbn [k_population]. apply Hpop.
    - destruct (resolve_use_kpi x (o_use_kpi o)); [lra|].
      destruct (d_revenue_per_kpi (x_data x)) as [r|] eqn:Er; [exact (Hrpk r g t eq_refl)|lra]. }
  apply Rmult_le_pos; [|apply Hgam].
  rewrite <- (baseline_forward x tr bv g c Htr (wf_population x W g c Hg)).
  assert (Hle : bv <= val n g t c / non_media_factor x g c).
  { apply Hmin. unfold per_capita. rewrite En. apply in_flat_map. exists g.
    split; [apply in_seq; lia|]. apply in_map_iff. exists t. split; [reflexivity|]. apply in_seq. lia. }
  pose proof (wf_population x W g c Hg) as Hf.
  unfold non_media_transformer in Htr. rewrite En in Htr. cbn [option_map] in Htr.
  assert (Etr : tr = centering_init n (x_population x) (x_non_media_scaling_id x)) by congruence. subst tr.
  unfold centering_forward, centering_init, non_media_factor in *.
  destruct (x_non_media_scaling_id x) as [id|]; cbn [c_factors c_means c_stdevs] in *.
  - apply divide_mono; [apply sqrt_pos|].
    replace (bv * scaling_factors (x_population x) id g c / scaling_factors (x_population x) id g c) with bv
      by (field; exact Hf). lra.
  - apply divide_mono; [apply sqrt_pos|]. lra.
Qed.

(** ** Draws are processed independently *)
Lemma mapM_one : forall A B (f : A -> result B) l r k a b, mapM f l = Ok r -> (k < length l)%nat ->
  mapM f [nth k l a] = Ok [nth k r b].
Proof.
  intros A B f l r k a b H Hk. cbn [mapM]. rewrite (mapM_nth _ _ _ _ _ H k a b Hk). reflexivity.
Qed.
Lemma incremental_single : forall x nd o bs bs' draws I k w0 z,
  (0 < bs')%Z -> incremental_outcome x nd o bs draws = Ok I -> (k < length draws)%nat ->
  incremental_outcome x nd o bs' [nth k draws w0] = Ok [nth k I z].
Proof.
  intros x nd o bs bs' draws I k w0 z Hb H Hk. unfold incremental_outcome in *. cbv zeta in *.
  inv_rbind H u Hu. inv_rbind H v Hv. inv_rbind H i1 Hi1. inv_rbind H i0 Hi0.
  apply run_batched_inv in H. destruct H as (_ & _ & H).
  rewrite Hu. cbn [rbind]. rewrite Hv. cbn [rbind]. rewrite Hi1. cbn [rbind]. rewrite Hi0. cbn [rbind].
  rewrite run_batched_lemma by (assumption || discriminate).
  exact (mapM_one _ _ _ _ _ k w0 z H Hk).
Qed.
Lemma expected_single : forall x nd gs ts ag at' inv uk bs bs' draws E k w0 z,
  (0 < bs')%Z -> expected_outcome x nd gs ts ag at' inv uk bs draws = Ok E -> (k < length draws)%nat ->
  expected_outcome x nd gs ts ag at' inv uk bs' [nth k draws w0] = Ok [nth k E z].
Proof.
  intros x nd gs ts ag at' inv uk bs bs' draws E k w0 z Hb H Hk. unfold expected_outcome in *. cbv zeta in *.
  inv_rbind H u Hu. rewrite Hu. cbn [rbind]. apply raise_if_inv in H. destruct H as [Hm H].
  unfold raise_if. rewrite Hm. inv_rbind H i Hi. rewrite Hi. cbn [rbind]. inv_rbind H ms Hms.
  apply run_batched_inv in Hms. destruct Hms as (_ & _ & Hms).
  rewrite run_batched_lemma by (assumption || discriminate).
  pose proof (mapM_length _ _ _ _ _ Hms) as Lm.
  rewrite (mapM_one _ _ _ _ _ k w0 (mkT2 0 0 (fun _ _ => 0)) Hms Hk). cbn [rbind].
  apply (mapM_one _ _ _ _ _ k _ z H). congruence.
Qed.
Lemma batch_size_positive : forall x nd o bs draws I,
  incremental_outcome x nd o bs draws = Ok I -> (0 < bs)%Z.
Proof.
  intros x nd o bs draws I H. unfold incremental_outcome in *. cbv zeta in *.
  inv_rbind H u Hu. inv_rbind H v Hv. inv_rbind H i1 Hi1. inv_rbind H i0 Hi0.
  apply run_batched_inv in H. apply H.
Qed.

(** ** Sums of cells *)
Lemma nth_map_sum : forall (l : list nat) (f : nat -> R),
  lsum (map f l) = rsum (length l) (fun i => f (nth i l 0%nat)).
Proof.
  intros l f. rewrite <- (rsum_ext (length l) (fun i => nth i (map f l) 0)).
  - rewrite <- (map_length f l). generalize (map f l). clear l f. intros l.
    induction l as [|a l IH]; [reflexivity|]. cbn [length lsum fold_right].
    rewrite rsum_first. cbn [nth]. rewrite <- IH. reflexivity.
  - intros i Hi. rewrite (nth_indep (map f l) 0 (f 0%nat)) by (rewrite map_length; exact Hi). apply map_nth.
Qed.
Lemma aggregate_sums_cells : forall G T gi ti f,
  cell G T gi ti true true f 0 0
  = rsum (length (selection G gi)) (fun i => rsum (length (selection T ti)) (fun j =>
      cell G T gi ti false false f i j)).
Proof.
  intros G T gi ti f. unfold cell, total, members. rewrite nth_map_sum. apply rsum_ext. intros i _.
  cbn [map]. rewrite nth_map_sum. cbn [lsum fold_right]. apply rsum_ext. intros j _.
  cbn [map lsum fold_right]. ring.
Qed.
Lemma aggregation_lemma : forall k G NT T C x lead gi ti flex,
  shape x = lead ++ [G; T; C] -> In C (allowed_channel_dim k) ->
  in_range G gi -> in_range T ti -> (flex = false -> T = NT) ->
  exists each all,
    filter_and_aggregate k G NT x gi ti false false flex true = Ok each /\
    filter_and_aggregate k G NT x gi ti true true flex true = Ok all /\
    shape each = lead ++ [length (selection G gi); length (selection T ti); C] /\
    shape all = lead ++ [C] /\
    forall l c, length l = length lead ->
      at_ all (l ++ [c])
      = rsum (length (selection G gi)) (fun i => rsum (length (selection T ti)) (fun j =>
          at_ each (l ++ [i; j; c]))).
Proof.
  intros k G NT T C x lead gi ti flex Hs Hc Hg Ht Hf.
  assert (Hf' : if flex then true = true else T = NT) by (destruct flex; auto).
  destruct (filter_media_lemma k G NT T C x lead gi ti false false flex true Hs Hc Hg Ht Hf') as (each & He & Se & Ve).
  destruct (filter_media_lemma k G NT T C x lead gi ti true true flex true Hs Hc Hg Ht Hf') as (all & Ha & Sa & Va).
  exists each, all. repeat (split; [assumption|]). intros l c Hl.
  pose proof (Va l 0%nat 0%nat c Hl ltac:(discriminate) ltac:(discriminate)) as E. cbn [position app] in E.
  rewrite E, aggregate_sums_cells. apply rsum_ext. intros i Hi. apply rsum_ext. intros j Hj.
  symmetry. exact (Ve l i j c Hl (fun _ => Hi) (fun _ => Hj)).
Qed.

(** Disjoint selections. *)
Lemma positions_split : forall A (f f1 f2 : A -> bool) h (l : list A),
  (forall a, In a l -> f a = orb (f1 a) (f2 a) /\ andb (f1 a) (f2 a) = false) ->
  total (positions f l) h = total (positions f1 l) h + total (positions f2 l) h.
Proof.
  intros A f f1 f2 h l. unfold positions, total. generalize 0%nat.
  induction l as [|a l IH]; intros s H; [cbn; ring|].
  cbn [length seq combine filter snd]. destruct (H a (or_introl eq_refl)) as [E1 E2].
  specialize (IH (S s) (fun a Ha => H a (or_intror Ha))).
  rewrite E1. destruct (f1 a), (f2 a); try discriminate; cbn [orb filter map fst lsum fold_right] in *;
    unfold lsum in *; cbn [map fst fold_right] in *; lra.
Qed.

Lemma disjoint_lemma : forall k n_times geo x C s1 s2 g1 g2 g12 ti at' T y1 y2 y12,
  shape x = [length geo; T; C] ->
  (forall g, In g s1 -> ~ In g s2) ->
  resolve_geo_indices geo (Some s1) = Ok g1 -> resolve_geo_indices geo (Some s2) = Ok g2 ->
  resolve_geo_indices geo (Some (s1 ++ s2)) = Ok g12 ->
  filter_and_aggregate k (length geo) n_times x g1 ti true at' true true = Ok y1 ->
  filter_and_aggregate k (length geo) n_times x g2 ti true at' true true = Ok y2 ->
  filter_and_aggregate k (length geo) n_times x g12 ti true at' true true = Ok y12 ->
  shape y1 = shape y12 /\ shape y2 = shape y12 /\
  forall pos, valid_position pos (shape y12) -> at_ y12 pos = at_ y1 pos + at_ y2 pos.
Proof.
  intros k NT geo x C s1 s2 g1 g2 g12 ti at' T y1 y2 y12 Hs Hd R1 R2 R12 H1 H2 H12.
  assert (P : forall s g, resolve_geo_indices geo (Some s) = Ok g -> g = Some (positions (fun a => mem a s) geo)).
  { intros s g H. unfold resolve_geo_indices in H. apply raise_if_inv in H. destruct H as [_ H]. congruence. }
  apply P in R1, R2, R12. subst g1 g2 g12.
  destruct (filter_media_inv k _ NT T C x _ ti true at' y1 Hs H1) as (_ & _ & S1 & V1).
  destruct (filter_media_inv k _ NT T C x _ ti true at' y2 Hs H2) as (_ & _ & S2 & V2).
  destruct (filter_media_inv k _ NT T C x _ ti true at' y12 Hs H12) as (_ & _ & S12 & V12).
  cbn [dimension app] in S1, S2, S12. split; [congruence|]. split; [congruence|].
  intros pos Hp. rewrite S12 in Hp.
  assert (Hpos : exists j c, pos = position true 0 ++ position at' j ++ [c] /\
            (at' = false -> (j < length (selection T ti))%nat)).
  { destruct at'; cbn [dimension app] in Hp.
    - inversion Hp as [|c s l1 l2 Hc Hr]. subst. inversion Hr. subst. exists 0%nat, c. split; [reflexivity|discriminate].
    - inversion Hp as [|j s l1 l2 Hj Hr]. subst. inversion Hr as [|c s' l3 l4 Hc Hr']. subst. inversion Hr'. subst.
      exists j, c. split; [reflexivity|intros _; exact Hj]. }
  destruct Hpos as (j & c & -> & Hj).
  rewrite V1, V2, V12 by (assumption || discriminate). unfold cell. cbn [selection members].
  apply positions_split. intros a Ha. unfold mem. rewrite existsb_app. split; [reflexivity|].
  destruct (existsb (String.eqb a) s1) eqn:E1; [|reflexivity]. cbn [andb].
  destruct (existsb (String.eqb a) s2) eqn:E2; [|reflexivity]. exfalso.
  apply existsb_exists in E1, E2. destruct E1 as (b & B1 & B2). destruct E2 as (b' & B3 & B4).
  apply String.eqb_eq in B2, B4. subst b b'. exact (Hd a B1 B3).
Qed.

Lemma selected_geos_lemma : forall geo s g, resolve_geo_indices geo (Some s) = Ok (Some g) ->
  StronglySorted lt g /\ (forall a, In a s -> In a geo) /\
  forall i d, In i g <-> (i < length geo)%nat /\ In (nth i geo d) s.
Proof.
  intros geo s g H. unfold resolve_geo_indices in H. apply raise_if_inv in H. destruct H as [He H].
  assert (g = positions (fun a => mem a s) geo) by congruence. subst g.
  split; [apply positions_sorted|]. split.
  - intros a Ha. destruct (mem a geo) eqn:E; [apply mem_spec; exact E|].
    assert (existsb (fun g => negb (mem g geo)) s = true); [|congruence].
    apply existsb_exists. exists a. rewrite E. auto.
  - intros i d. rewrite (positions_spec _ _ _ _ d), mem_spec. reflexivity.
Qed.
Lemma selected_times_lemma : forall time n l ti, resolve_time_indices time n (Some (TDates l)) = Ok (Some ti) ->
  StronglySorted lt ti /\ (forall a, In a l -> In a time) /\
  forall i d, In i ti <-> (i < length time)%nat /\ In (nth i time d) l.
Proof.
  intros time n l ti H. unfold resolve_time_indices in H. inv_rbind H u Hu.
  assert (ti = positions (fun t => mem t l) time) by congruence. subst ti.
  split; [apply positions_sorted|]. split.
  - intros a Ha. destruct (mem a time) eqn:E; [apply mem_spec; exact E|].
    unfold validate_selected_times in Hu. destruct l as [|a0 l]; [contradiction|].
    apply raise_if_inv in Hu. destruct Hu as [Hu _].
    assert (existsb (fun d => negb (mem d time)) (a0 :: l) = true); [|congruence].
    apply existsb_exists. exists a. rewrite E. auto.
  - intros i d. rewrite (positions_spec _ _ _ _ d), mem_spec. reflexivity.
Qed.
