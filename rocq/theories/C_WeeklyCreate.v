(** C97: the weekly optimization grid. *)
From Coq Require Import Reals ZArith String List Bool Arith Lra Lia.
From Verif Require Import Lib_Sum M_Base M_AdstockHill M_Equations M_Transformers M_Aggregate
  S_Aggregate S_Adstock S_Media S_Analyzer M_Analyzer S_Predictor S_Paid M_Stats M_Summary S_Roi S_Summary M_Spend S_Spend
  P_Paid P_PaidMono P_Predictor M_WeeklyCreate S_WeeklyCreate P_WeeklyCreate C_Analyzer C_Predictor C_Paid C_Roi C_Spend.
Import ListNotations.
Local Open Scope R_scope.
Local Open Scope list_scope.

(** One row per paid channel, multiplier and selected week, labelled accordingly.  The entry of a
    channel at a multiplier in a week is the mean over the draws of what the channel brings in that
    week, over all geos, when its media are multiplied in every period, against none; beside it
    stands what was spent on the channel in that week. *)
Theorem C97_table : forall f fm fr nd post uk opt sel ms bs,
  create_request f fm fr nd post opt sel ms ->
  let x := f_x f in
  let weeks := match sel with None => x_time x | Some l => l end in
  exists T, create f nd post uk opt sel ms bs = Ok T /\
    wt_channel T = f_paid_names f /\ wt_multiplier T = ms /\ wt_time T = weeks /\
    length (wt_outcome T) = length (f_paid_names f) /\ length (wt_spend T) = length (f_paid_names f) /\
    Forall (fun rows => length rows = length ms /\ Forall (fun row => length row = length weeks) rows) (wt_outcome T) /\
    Forall (fun row => length row = length weeks) (wt_spend T) /\
    forall ch j t label, is_paid x ch -> nth_error weeks j = Some label -> nth_error (x_time x) t = Some label ->
      (forall i, (i < length ms)%nat ->
         nth j (nth i (nth (channel_index x ch) (wt_outcome T) []) []) 0
         = average (map (weekly_change x (at_frequency x (nt_data nd) opt) uk ch (nth i ms 0) t) (f_draws f post))) /\
      is_spent x (nt_data nd) (spend_used f (nt_spend nd)) ch (seq 0 (x_n_geos x)) [t]
        (nth j (nth (channel_index x ch) (wt_spend T) []) None).
Proof. intros f fm fr nd post uk opt sel ms bs V. exact (create_lemma f fm fr nd post uk opt sel ms bs V). Qed.
Print Assumptions C97_table.

(** The size of the batches does not matter. *)
Lemma mapM_concat : forall A B (F : A -> result B) ls,
  rbind (mapM (mapM F) ls) (fun o => Ok (concat o)) = mapM F (concat ls).
Proof.
  intros A B F ls. induction ls as [|l ls IH]; [reflexivity|]. cbn [mapM concat].
  assert (Ap : forall l r, mapM F (l ++ r) = rbind (mapM F l) (fun a => rbind (mapM F r) (fun b => Ok (a ++ b)))).
  { clear. induction l as [|a l IH]; intros r; cbn [mapM app rbind].
    - destruct (mapM F r); reflexivity.
    - destruct (F a); cbn [rbind]; [|reflexivity]. rewrite IH. destruct (mapM F l); cbn [rbind]; [|reflexivity].
      destruct (mapM F r); reflexivity. }
  rewrite Ap. destruct (mapM F l); cbn [rbind]; [|reflexivity].
  rewrite <- IH. destruct (mapM (mapM F) ls); reflexivity.
Qed.
Theorem C97_batch_size : forall f nd post uk opt sel ms bs bs',
  create f nd post uk opt sel ms bs = create f nd post uk opt sel ms bs'.
Proof.
  intros f nd post uk opt sel ms bs bs'. unfold create. cbv zeta.
  destruct (match sel with None => Ok None | Some l => _ end) as [idx|]; [|reflexivity]. cbn [rbind].
  destruct (get_aggregated_spend _ _ _ _ _ _ _) as [sp|]; [|reflexivity]. cbn [rbind].
  set (F := outcome_of_multiplier _ _ _ _ _).
  assert (E : forall b, (1 <= b)%nat -> rbind (mapM (mapM F) (batches (length ms) b ms)) (fun o => Ok (concat o)) = mapM F ms).
  { intros b Hb. rewrite mapM_concat, (batches_all _ b ms (length ms) Hb (Nat.le_refl _)). reflexivity. }
  pose proof (E (Z.to_nat (Z.max 1 bs)) ltac:(lia)) as E1. pose proof (E (Z.to_nat (Z.max 1 bs')) ltac:(lia)) as E2.
  rewrite <- E2 in E1. clear E E2.
  destruct (mapM (mapM F) (batches (length ms) (Z.to_nat (Z.max 1 bs)) ms)) as [a|ea];
  destruct (mapM (mapM F) (batches (length ms) (Z.to_nat (Z.max 1 bs')) ms)) as [b|eb]; cbn [rbind] in E1 |- *;
  try discriminate E1.
  - injection E1 as ->. reflexivity.
  - injection E1 as ->. reflexivity.
Qed.
Print Assumptions C97_batch_size.

(** The entries agree with [Analyzer.incremental_outcome] at the same multiplier, averaged over the
    draws, unless the KPI of a revenue model is asked for. *)
Definition compared (m : R) (uk : bool) : options :=
  mkOptions 0 m None None None true false true uk true false None.
Lemma unit_same : forall x nd uk g t, (uk = true -> x_kpi_is_revenue x = false) ->
  outcome_per_unit (paid_model x nd) true uk g t = weekly_unit x nd uk g t.
Proof.
  intros x nd uk g t H. unfold outcome_per_unit, weekly_unit, revenue_used, outcome_is_kpi.
  change (kpi_tr (paid_model x nd)) with (kpi_tr x).
  cbn [paid_model x_data d_revenue_per_kpi x_population x_kpi_is_revenue].
  destruct uk; [rewrite (H eq_refl)|]; cbn [andb negb];
  destruct (d_revenue_per_kpi nd); [| |reflexivity|]; destruct (d_revenue_per_kpi (x_data x)); reflexivity.
Qed.
Theorem C97_agrees_with_analyzer : forall f fm fr nd post uk opt sel ms bs T i j t label ch batch,
  create_request f fm fr nd post opt sel ms -> (uk = true -> x_kpi_is_revenue (f_x f) = false) ->
  create f nd post uk opt sel ms bs = Ok T ->
  (0 < batch)%Z -> is_paid (f_x f) ch -> (i < length ms)%nat -> 0 < nth i ms 0 ->
  nth_error (wt_time T) j = Some label -> nth_error (x_time (f_x f)) t = Some label ->
  exists I, incremental_outcome (f_x f) (at_frequency (f_x f) (nt_data nd) opt) (compared (nth i ms 0) uk) batch (f_draws f post) = Ok I /\
    nth j (nth i (nth (channel_index (f_x f) ch) (wt_outcome T) []) []) 0
    = average (map (fun y => at_ y [t; channel_index (f_x f) ch]) I).
Proof.
  intros f fm fr nd post uk opt sel ms bs T i j t label ch batch V Hu E Hb Hc Hi Hm Hj Ht.
  destruct (C97_table f fm fr nd post uk opt sel ms bs V) as (T' & E' & _ & _ & Wk & _ & _ & _ & _ & C).
  assert (T' = T) by congruence. subst T'. rewrite Wk in Hj.
  destruct (C ch j t label Hc Hj Ht) as [Co _]. rewrite (Co i Hi).
  pose proof V as [[W Hn D _ _ _ _ _ _] Vd Vne Vn Vt Vw Vc Vsel Vq _].
  set (x := f_x f) in *. set (m := nth i ms 0) in *. set (nd' := at_frequency x (nt_data nd) opt) in *.
  pose proof (frequency_data_ok x (nt_data nd) opt D Vq) as D'. pose proof (frequency_nonneg x (nt_data nd) opt W D Vn Vq) as P'.
  fold nd' in D', P'.
  assert (Q : paid_request x (compared m uk) batch (f_draws f post)).
  { constructor; cbn; auto; try lra; try exact Logic.I; discriminate. }
  destruct (C58_paid_channels x nd' (compared m uk) batch (f_draws f post) W D' Q P' Vt) as (I & EI & LI & VI).
  exists I. split; [exact EI|]. f_equal.
  assert (Ht' : (t < x_n_times x)%nat) by (rewrite <- (wf_time _ W); apply nth_error_Some; congruence).
  apply nth_ext with (d := weekly_change x nd' uk ch m t (ex_rich_draw)) (d' := at_ (mkTensor [] (fun _ => 0)) [t; channel_index x ch]);
    [rewrite !map_length; congruence|].
  intros k Hk. rewrite map_length in Hk.
  rewrite (map_nth (weekly_change x nd' uk ch m t)), (map_nth (fun y => at_ y [t; channel_index x ch])).
  destruct (VI k ex_rich_draw (mkTensor [] (fun _ => 0)) Hk) as [_ Vk].
  specialize (Vk ch 0%nat t Hc ltac:(discriminate) ltac:(intros _; cbn; rewrite seq_length; exact Ht')).
  cbn [compared o_aggregate_geos o_aggregate_times position app members o_selected_geos o_selected_times chosen_geos chosen_times
       o_inverse o_use_kpi o_scaling_factor1 o_scaling_factor0 o_media_selected_times o_by_reach] in Vk.
  rewrite seq_nth in Vk by exact Ht'. etransitivity; [|symmetry; exact Vk].
  unfold weekly_change. apply total_ext'. intros g. unfold total. cbn [map lsum plus].
  rewrite (unit_same x nd' uk g t Hu). ring.
Qed.
Print Assumptions C97_agrees_with_analyzer.

(** Nothing comes from a channel at multiplier zero. *)
Lemma lsum_zeros : forall A (l : list A), lsum (map (fun _ => 0) l) = 0.
Proof. induction l as [|a l IH]; [reflexivity|]. cbn [map lsum]. rewrite IH. ring. Qed.
Theorem C97_zero : forall f fm fr nd post uk opt sel ms bs T i j ch,
  create_request f fm fr nd post opt sel ms -> create f nd post uk opt sel ms bs = Ok T ->
  is_paid (f_x f) ch -> (i < length ms)%nat -> nth i ms 0 = 0 -> (j < length (wt_time T))%nat ->
  nth j (nth i (nth (channel_index (f_x f) ch) (wt_outcome T) []) []) 0 = 0.
Proof.
  intros f fm fr nd post uk opt sel ms bs T i j ch V E Hc Hi H0 Hj.
  destruct (C97_table f fm fr nd post uk opt sel ms bs V) as (T' & E' & _ & _ & Wk & _ & _ & _ & _ & C).
  assert (T' = T) by congruence. subst T'. rewrite Wk in Hj.
  destruct (nth_error (match sel with None => x_time (f_x f) | Some l => l end) j) as [label|] eqn:El.
  2:{ apply nth_error_None in El. lia. }
  assert (Il : In label (x_time (f_x f))).
  { apply nth_error_In in El. destruct sel as [l|]; [|exact El].
    destruct (cq_selected _ _ _ _ _ _ _ _ V l eq_refl) as [_ F]. rewrite Forall_forall in F. apply F, El. }
  destruct (In_nth_error _ _ Il) as [t Et].
  destruct (C ch j t label Hc El Et) as [Co _]. rewrite (Co i Hi), H0.
  unfold average. replace (map (weekly_change (f_x f) (at_frequency (f_x f) (nt_data nd) opt) uk ch 0 t) (f_draws f post))
    with (map (fun _ : draw => 0) (f_draws f post)).
  - rewrite lsum_zeros. unfold Rdiv. ring.
  - apply map_ext. intros w. unfold weekly_change. symmetry.
    rewrite (total_ext' _ _ (fun _ => 0)); [|intros g; ring].
    apply lsum_zeros.
Qed.
Print Assumptions C97_zero.

(** Where every coefficient is non-negative and so is the revenue per KPI, more media never bring
    less. *)
Theorem C97_nondecreasing : forall f fm fr nd post uk opt sel ms bs T i i' j ch,
  create_request f fm fr nd post opt sel ms -> create f nd post uk opt sel ms bs = Ok T ->
  is_paid (f_x f) ch -> (i < length ms)%nat -> (i' < length ms)%nat -> nth i ms 0 <= nth i' ms 0 ->
  (j < length (wt_time T))%nat ->
  (forall w g, In w (f_draws f post) -> 0 <= coefficient w ch g) ->
  (forall g, 0 <= x_population (f_x f) g) ->
  (forall r g t, revenue_used (f_x f) (nt_data nd) = Some r -> 0 <= val2 r g t) ->
  nth j (nth i (nth (channel_index (f_x f) ch) (wt_outcome T) []) []) 0
  <= nth j (nth i' (nth (channel_index (f_x f) ch) (wt_outcome T) []) []) 0.
Proof.
  intros f fm fr nd post uk opt sel ms bs T i i' j ch V E Hc Hi Hi' Hle Hj Hbeta Hpop Hrev.
  destruct (C97_table f fm fr nd post uk opt sel ms bs V) as (T' & E' & _ & _ & Wk & _ & _ & _ & _ & C).
  assert (T' = T) by congruence. subst T'. rewrite Wk in Hj.
  destruct (nth_error (match sel with None => x_time (f_x f) | Some l => l end) j) as [label|] eqn:El.
  2:{ apply nth_error_None in El. lia. }
  assert (Il : In label (x_time (f_x f))).
  { apply nth_error_In in El. destruct sel as [l|]; [|exact El].
    destruct (cq_selected _ _ _ _ _ _ _ _ V l eq_refl) as [_ F]. rewrite Forall_forall in F. apply F, El. }
  destruct (In_nth_error _ _ Il) as [t Et].
  destruct (C ch j t label Hc El Et) as [Co _]. rewrite (Co i Hi), (Co i' Hi').
  pose proof V as [[W Hn D _ _ _ _ _ _] Vd Vne Vn Vt Vw Vc Vsel Vq [_ Vm]].
  set (x := f_x f) in *. set (nd' := at_frequency x (nt_data nd) opt) in *.
  pose proof (frequency_data_ok x (nt_data nd) opt D Vq) as D'. pose proof (frequency_nonneg x (nt_data nd) opt W D Vn Vq) as P'.
  fold nd' in D', P'.
  assert (Ht' : (t < x_n_times x)%nat) by (rewrite <- (wf_time _ W); apply nth_error_Some; congruence).
  assert (M0 : 0 <= nth i ms 0) by (rewrite Forall_forall in Vm; apply Vm, nth_In, Hi).
  assert (Un : forall g, 0 <= weekly_unit x nd' uk g t).
  { intros g. unfold weekly_unit. apply Rmult_le_pos; [apply Rmult_le_pos; [|apply Hpop]|].
    - apply sqrt_pos.
    - destruct uk; [lra|].
      assert (R : revenue_used x nd' = revenue_used x (nt_data nd)).
      { unfold nd', at_frequency. destruct opt, (given d_reach (nt_data nd) x), (given d_frequency (nt_data nd) x); reflexivity. }
      rewrite R. destruct (revenue_used x (nt_data nd)) as [r|] eqn:Er; [exact (Hrev r g t eq_refl)|lra]. }
  assert (Each : forall w, In w (f_draws f post) -> weekly_change x nd' uk ch (nth i ms 0) t w <= weekly_change x nd' uk ch (nth i' ms 0) t w).
  { intros w Hw. unfold weekly_change. rewrite !total_rsum. apply rsum_le. intros g _.
    apply Rmult_le_compat_l; [apply Un|].
    rewrite Forall_forall in Vd.
    pose proof (paid_term_mono x nd' w ch (nth i ms 0) (nth i' ms 0) None true g t W D' (Vd w Hw) P' Vt Hc Ht' (Hbeta w g Hw) (conj M0 Hle)).
    lra. }
  unfold average. rewrite !map_length. unfold Rdiv. apply Rmult_le_compat_r.
  { apply Rlt_le, Rinv_0_lt_compat, lt_0_INR. destruct (f_draws f post); [congruence|cbn; lia]. }
  clear - Each. induction (f_draws f post) as [|w l IH]; cbn [map lsum]; [lra|].
  pose proof (Each w (or_introl eq_refl)). specialize (IH (fun v Hv => Each v (or_intror Hv))). lra.
Qed.
Print Assumptions C97_nondecreasing.

(** The entries of a channel at a multiplier, over distinct weeks, add up to what the channel brings
    in these weeks together (the outcome of a point of its response curve). *)
Lemma average_add : forall A (F : A -> draw -> R) (l : list A) (ws : list draw),
  lsum (map (fun a => average (map (F a) ws)) l) = average (map (fun w => lsum (map (fun a => F a w) l)) ws).
Proof.
  intros A F l ws. unfold average. rewrite map_length.
  assert (S : lsum (map (fun a => lsum (map (F a) ws)) l) = lsum (map (fun w => lsum (map (fun a => F a w) l)) ws)).
  { induction l as [|a l IH]; cbn [map lsum]; [symmetry; apply lsum_zeros|]. rewrite IH. clear IH.
    induction ws as [|w ws IH]; cbn [map lsum]; [ring|]. rewrite <- IH. ring. }
  rewrite <- S. clear S. induction l as [|a l IH]; cbn [map lsum]; [unfold Rdiv; ring|].
  rewrite IH, map_length. unfold Rdiv. ring.
Qed.
Theorem C97_weeks_add_up : forall f fm fr nd post uk opt ms bs T i ch,
  create_request f fm fr nd post opt None ms -> (uk = true -> x_kpi_is_revenue (f_x f) = false) ->
  create f nd post uk opt None ms bs = Ok T -> is_paid (f_x f) ch -> (i < length ms)%nat ->
  lsum (nth i (nth (channel_index (f_x f) ch) (wt_outcome T) []) [])
  = average (map (fun w => outcome_change (f_x f) (at_frequency (f_x f) (nt_data nd) opt) w ch uk true 0 (nth i ms 0)
                             (seq 0 (x_n_geos (f_x f))) (seq 0 (x_n_times (f_x f)))) (f_draws f post)).
Proof.
  intros f fm fr nd post uk opt ms bs T i ch V Hu E Hc Hi.
  destruct (C97_table f fm fr nd post uk opt None ms bs V) as (T' & E' & _ & _ & Wk & L1 & _ & F1 & _ & C).
  assert (T' = T) by congruence. subst T'. cbv zeta in *.
  pose proof V as [[W Hn _ _ _ _ _ _ _] _ _ _ _ _ _ _ _ _].
  pose proof (wf_time _ W) as Wt. set (x := f_x f) in *. set (nd' := at_frequency x (nt_data nd) opt) in *.
  set (row := nth i (nth (channel_index x ch) (wt_outcome T) []) []).
  assert (Lr : length row = x_n_times x).
  { rewrite Forall_forall in F1. pose proof (index_lt x ch Hc) as Hx. rewrite <- Hn, <- L1 in Hx.
    destruct (F1 (nth (channel_index x ch) (wt_outcome T) []) (nth_In _ _ Hx)) as [Lm Fm].
    rewrite Forall_forall in Fm. rewrite <- Wt. apply Fm, nth_In. rewrite Lm. exact Hi. }
  assert (Er : row = map (fun t => average (map (weekly_change x nd' uk ch (nth i ms 0) t) (f_draws f post))) (seq 0 (x_n_times x))).
  { apply nth_ext with (d := 0) (d' := average (map (weekly_change x nd' uk ch (nth i ms 0) 0) (f_draws f post)));
      [rewrite map_length, seq_length; exact Lr|].
    intros j Hj. rewrite Lr in Hj.
    rewrite (map_nth (fun t => average (map (weekly_change x nd' uk ch (nth i ms 0) t) (f_draws f post)))), seq_nth by exact Hj.
    destruct (nth_error (x_time x) j) as [label|] eqn:El.
    2:{ apply nth_error_None in El. lia. }
    exact (proj1 (C ch j j label Hc El El) i Hi). }
  rewrite Er, (average_add nat (fun t w => weekly_change x nd' uk ch (nth i ms 0) t w)).
  f_equal. apply map_ext. intros w. unfold outcome_change, weekly_change.
  rewrite total_rsum.
  rewrite (rsum_ext _ _ (fun g => rsum (x_n_times x) (fun t => weekly_unit x nd' uk g t
    * (paid_term x nd' w ch (nth i ms 0) None true g t - paid_term x nd' w ch 0 None true g t)))).
  2:{ intros g _. rewrite total_rsum. apply rsum_ext. intros t _. rewrite (unit_same x nd' uk g t Hu). reflexivity. }
  rewrite rsum_swap. change (lsum (map ?F (seq 0 (x_n_times x)))) with (total (seq 0 (x_n_times x)) F).
  rewrite total_rsum. apply rsum_ext. intros t _. rewrite total_rsum. reflexivity.
Qed.
Print Assumptions C97_weeks_add_up.

(** *** Examples *)
Lemma ex_create_request : forall f sel opt ms nd, f_x f = ex_rich \/ x_data (f_x f) = x_data ex_rich ->
  forall fm fr, spend_request f fm fr nd None None -> Forall (draw_ok (f_x f)) (f_draws f true) -> f_draws f true <> [] ->
  paid_nonneg (f_x f) (nt_data nd) -> transformers_ok (f_x f) -> x_time (f_x f) = x_time ex_rich ->
  (forall l, sel = Some l -> l <> [] /\ Forall (fun t => In t (x_time ex_rich)) l) ->
  (forall q, opt = Some q -> forall c, 0 < q c) -> ms <> [] -> Forall (fun m => 0 <= m) ms ->
  create_request f fm fr nd true opt sel ms.
Proof.
  intros f sel opt ms nd Hx fm fr Q D Dn P T Ti Hs Ho Hm Hf. constructor; auto.
  - rewrite Ti. cbn. repeat constructor; cbn; intuition congruence.
  - unfold n_paid. destruct Hx as [->| ->]; cbn; lia.
  - rewrite Ti. exact Hs.
Qed.
(** New media, flat spend of the media channels, the second week, every frequency three. *)
Example C97_example :
  create_request ex_fitted true false ex_mixed_spend true (Some (fun _ => 3)) (Some ["2024-01-08"]%string) [0; 1 / 2; 2] /\
  is_paid (f_x ex_fitted) (ChRf 0) /\ nth_error (x_time (f_x ex_fitted)) 1 = Some "2024-01-08"%string /\
  (false = true -> x_kpi_is_revenue (f_x ex_fitted) = false).
Proof.
  destruct C58_paid_example as (P1 & P2 & _). destruct C58_example as (_ & D & _ & _ & _ & T & _).
  split; [|split; [cbn; lia|split; [reflexivity|reflexivity]]].
  apply ex_create_request; auto.
  - apply ex_spend_request; auto; cbn; auto.
  - unfold f_draws. change (f_x ex_fitted) with ex_rich.
    repeat (apply Forall_cons; [exact D|]). apply Forall_nil.
  - discriminate.
  - intros l E. inversion E. split; [discriminate|]. apply Forall_cons; [right; left; reflexivity|apply Forall_nil].
  - intros q E c. inversion E. lra.
  - discriminate.
  - repeat constructor; lra.
Qed.

(** Refuted: the entries are always those of [incremental_outcome].  [use_kpi] is read as it is
    given; for a revenue model the analyzer ignores it and multiplies by the new revenue per KPI. *)
Definition ex_sales : model :=
  mkModel (mkCtx 3 2 2 false) ["a"; "b"]%string ["2024-01-01"; "2024-01-08"]%string (fun g => 1 + INR g)
    (x_kpi ex_rich)
    (mkData (d_media (x_data ex_rich)) None None None None None None None (Some (mkT2 2 2 (fun _ _ => 1))))
    (DOne Geometric) (DOne Binomial) (DOne Binomial) (DOne Geometric)
    (SSeq [Hill; NoSat]) (SOne Hill) (SOne Hill) (SOne Hill)
    (Some ex_factor) None None None None None None true.
Definition ex_effect : draw :=
  mkDraw (fun _ => 0) (fun _ => 0) (ex_params 2) (ex_params 1) (ex_params 1) (ex_params 1)
    (fun _ c => INR c) (fun _ _ => 0) (fun _ _ => 0) (fun _ _ => 0) (fun _ _ => 0) (fun _ _ => 0).
Definition ex_sold : fitted :=
  mkFitted ex_sales (mkSpend (Some (ex_spend3 2)) None) ["tv"; "radio"]%string [] [] [ex_effect].
Definition ex_prices : new_tensors :=
  mkNew (mkData None None None None None None None None (Some (mkT2 2 2 (fun _ _ => 3)))) no_spend.
Lemma ex_sales_stdev : k_stdev (kpi_tr ex_sales) > 0.
Proof.
  cbn [k_stdev kpi_tr kpi_init]. unfold std_gt. apply sqrt_lt_R0.
  unfold mean_gt, divide_no_nan. cbn [geos2 times2 val2 x_kpi ex_sales ex_rich rsum x_population Nat.add Nat.mul].
  cbn [INR]. repeat destruct (Req_EM_T _ _); lra.
Qed.
Lemma ex_sales_term : forall f g, exists K, K > 0 /\
  paid_term ex_sales (nt_data ex_prices) ex_effect (ChMedia 1) f None true g 0 = f * K.
Proof.
  intros f g. unfold paid_term, channel_term.
  cbn [given d_media treatment paid_model x_data ex_sales ex_rich nt_data ex_prices w_beta_gm ex_effect].
  assert (Pg : forall n, 0 < INR (g + n + 1)) by (intros n; apply lt_0_INR; lia).
  exists ((INR (g + 1 + 1) / 2 + INR (g + 0 + 1) / 4) * 4 / 7).
  pose proof (Pg 1%nat). pose proof (Pg 0%nat). split; [lra|].
  cbn -[INR]; unfold lagged_average, documented_weight, past, window; cbn -[INR].
  change (Nat.min (Pos.to_nat 2 + 1) 3) with 3%nat. cbn [rsum documented_decay Nat.leb]. change (INR 1) with 1. field.
Qed.
Lemma ex_sales_wf : well_formed ex_sales.
Proof.
  constructor; cbn; auto; try lia; try (split; reflexivity).
  - left. discriminate.
  - unfold kind_ok, decay_ok, sat_ok, recognised. cbn.
    repeat split; try discriminate; try tauto. repeat constructor; discriminate.
Qed.
Lemma ex_effect_ok : draw_ok ex_sales ex_effect.
Proof.
  unfold draw_ok. cbn.
  refine (conj _ (conj _ (conj _ (conj _ (conj _ (conj _ (conj _ _))))))); try congruence; apply ex_params_ok.
Qed.
Lemma ex_sold_request : create_request ex_sold false false ex_prices true None None [1].
Proof.
  constructor.
  - constructor; try exact ex_sales_wf; try exact Logic.I; try reflexivity.
    + unfold paid_data_ok, fits, fits2, same_shape; cbn; tauto.
    + cbn. split; congruence.
    + cbn. split; congruence.
    + cbn. auto.
  - apply Forall_cons; [exact ex_effect_ok|apply Forall_nil].
  - discriminate.
  - unfold paid_nonneg, nonneg, given; cbn; repeat split; intros; try apply pos_INR; auto.
  - unfold transformers_ok, factors_pos; cbn; repeat split; intros; lra.
  - cbn. repeat constructor; cbn; intuition congruence.
  - cbn. lia.
  - discriminate.
  - discriminate.
  - split; [discriminate|repeat constructor; lra].
Qed.
Theorem C97_agrees_for_revenue_refuted : exists f nd T I ch,
  create_request f false false nd true None None [1] /\ x_kpi_is_revenue (f_x f) = true /\ is_paid (f_x f) ch /\
  create f nd true true None None [1] 10 = Ok T /\
  incremental_outcome (f_x f) (nt_data nd) (compared 1 true) 10 (f_draws f true) = Ok I /\
  nth 0 (nth 0 (nth (channel_index (f_x f) ch) (wt_outcome T) []) []) 0
  <> average (map (fun y => at_ y [0%nat; channel_index (f_x f) ch]) I).
Proof.
  pose proof ex_sold_request as V.
  destruct (C97_table ex_sold false false ex_prices true true None None [1] 10 V) as (T & E & _ & _ & Wk & _ & _ & _ & _ & C).
  pose proof V as [[W Hn D _ _ _ _ _ _] Vd Vne Vn Vt _ _ _ _ _].
  assert (Q : paid_request ex_sales (compared 1 true) 10 (f_draws ex_sold true)).
  { constructor; cbn; auto; try lra; try lia; try exact Logic.I; try discriminate. }
  destruct (C58_paid_channels ex_sales (nt_data ex_prices) (compared 1 true) 10 (f_draws ex_sold true) W D Q Vn Vt) as (I & EI & LI & VI).
  assert (P : is_paid ex_sales (ChMedia 1)) by (cbn; lia).
  exists ex_sold, ex_prices, T, I, (ChMedia 1).
  split; [exact V|]. split; [reflexivity|]. split; [exact P|]. split; [exact E|]. split; [exact EI|].
  destruct (C (ChMedia 1) 0%nat 0%nat "2024-01-01"%string P eq_refl eq_refl) as [Co _].
  rewrite (Co 0%nat ltac:(cbn; lia)).
  destruct I as [|y [|y' I]]; try discriminate LI.
  destruct (VI 0%nat ex_effect (mkTensor [] (fun _ => 0)) ltac:(cbn; lia)) as [_ Vk].
  specialize (Vk (ChMedia 1) 0%nat 0%nat P ltac:(discriminate) ltac:(cbn; lia)).
  cbn [compared o_aggregate_geos o_aggregate_times position app members o_selected_geos o_selected_times chosen_geos chosen_times
       o_inverse o_use_kpi o_scaling_factor1 o_scaling_factor0 o_media_selected_times o_by_reach nth] in Vk.
  unfold average. change (f_draws ex_sold true) with [ex_effect]. cbn [map lsum length INR].
  change (f_x ex_sold) with ex_sales. rewrite Vk.
  change (f_draws ex_sold true) with [ex_effect]. cbn [nth at_frequency].
  destruct (ex_sales_term 1 0) as (K0 & P0 & E0). destruct (ex_sales_term 1 1) as (K1 & P1 & E1).
  destruct (ex_sales_term 0 0) as (L0 & _ & F0). destruct (ex_sales_term 0 1) as (L1 & _ & F1).
  unfold weekly_change, total. change (seq 0 (x_n_geos ex_sales)) with [0; 1]%nat.
  change (nth 0 (seq 0 (x_n_times ex_sales)) 0%nat) with 0%nat. cbn [map lsum].
  rewrite E0, E1, F0, F1.
  pose proof ex_sales_stdev as Sd.
  unfold weekly_unit, outcome_per_unit. change (kpi_tr (paid_model ex_sales (nt_data ex_prices))) with (kpi_tr ex_sales).
  set (k := k_stdev (kpi_tr ex_sales)) in *.
  cbn [paid_model x_data d_revenue_per_kpi nt_data ex_prices outcome_is_kpi x_kpi_is_revenue ex_sales andb negb val2 x_population INR].
  pose proof (Rmult_gt_0_compat k K0 Sd P0). pose proof (Rmult_gt_0_compat k K1 Sd P1). nra.
Qed.
Print Assumptions C97_agrees_for_revenue_refuted.
