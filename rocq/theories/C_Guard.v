(** Property C80: a model is accepted exactly when its data can be told apart. *)
From Coq Require Import Reals ZArith List Bool Lia Lra.
From Verif Require Import Lib_Sum M_Base M_Transformers S_Transformers P_Transformers M_Guard S_Guard P_Guard.
Import ListNotations.
Local Open Scope R_scope.

(** The exact condition for acceptance, and when the prior on the total contribution is set. *)
Theorem C80_exact : forall threshold d s flag, good_data d -> 0 < threshold <= 1 ->
  (construct threshold d s = Ok flag <->
   shapes_fit d s /\
   (in_revenue d = false /\ in_rpk d = false -> ~ default_mroi d s) /\
   (in_revenue d = false /\ in_rpk d = false -> some_default_roi d s -> all_default_roi d s) /\
   sp_support s = Ok tt /\
   (forall v x m, data_of d v = Some x -> (m < chans x)%nat -> varies_over_time d s v x m) /\
   (in_geos d <> 1%nat ->
    (forall v x m, data_of d v = Some x -> (m < chans x)%nat -> varies_over_geos d s v x m) \/
    (exists k, sp_knots s = Ok k /\ k <> in_times d)) /\
   (forall x p m, In (Some x, Some p) (units_of d) -> (m < chans x)%nat -> spent d x p m <> 0) /\
   (constant_kpi d -> ~ needs_kpi d s) /\
   (flag = true <-> in_revenue d = false /\ in_rpk d = false /\ all_default_roi d s)).
Proof. exact construct_lemma. Qed.
Print Assumptions C80_exact.

Lemma spread_pos_differs : forall n f, 0 < spread n f -> exists i j, (i < n)%nat /\ (j < n)%nat /\ f i <> f j.
Proof.
  intros n f H. destruct n as [|n]; [unfold spread, mean in H; cbn in H; unfold Rdiv in H; rewrite Rmult_0_l, sqrt_0 in H; lra|].
  destruct (Classical_Prop.classic (exists i j, (i < S n)%nat /\ (j < S n)%nat /\ f i <> f j)) as [C|C]; [auto|].
  exfalso. assert (E : spread (S n) f = 0).
  { rewrite (spread_ext (S n) f (fun _ => f 0%nat)); [apply spread_const; lia|]. intros i Hi.
    destruct (Req_EM_T (f i) (f 0%nat)) as [Q|Q]; [auto|]. exfalso. apply C. exists i, 0%nat. repeat split; auto. lia. }
  lra.
Qed.

(** In an accepted model every channel of every variable really changes over time in some geo. *)
Theorem C80_time_varies : forall threshold d s flag v x m, good_data d -> 0 < threshold <= 1 ->
  construct threshold d s = Ok flag -> data_of d v = Some x -> (m < chans x)%nat ->
  exists g t t', (g < geos x)%nat /\ (t < times x)%nat /\ (t' < times x)%nat /\ val x g t m <> val x g t' m.
Proof.
  intros threshold d s flag v x m Hd Hth H Hx Hm. apply (C80_exact threshold d s flag Hd Hth) in H.
  destruct H as (_ & _ & _ & _ & Ht & _). destruct (Ht v x m Hx Hm) as [g [Hg [Hu Hs]]].
  destruct (spread_pos_differs (times x) (fun t => level d s v x g t m)) as [t [t' [H1 [H2 H3]]]]; [lra|].
  exists g, t, t'. repeat split; auto. intros E. apply H3. unfold level. rewrite E. reflexivity.
Qed.
Print Assumptions C80_time_varies.

(** With a knot for every period, every channel differs between geos in some period, per capita where
    it is modelled per capita. *)
Theorem C80_geo_varies : forall threshold d s flag v x m, good_data d -> 0 < threshold <= 1 ->
  construct threshold d s = Ok flag -> in_geos d <> 1%nat -> sp_knots s = Ok (in_times d) ->
  data_of d v = Some x -> (m < chans x)%nat ->
  exists t g g', (t < times x)%nat /\ (g < geos x)%nat /\ (g' < geos x)%nat /\ level d s v x g t m <> level d s v x g' t m.
Proof.
  intros threshold d s flag v x m Hd Hth H Hn Hk Hx Hm. apply (C80_exact threshold d s flag Hd Hth) in H.
  destruct H as (_ & _ & _ & _ & _ & Hg & _). destruct (Hg Hn) as [G|[k [K1 K2]]]; [|congruence].
  destruct (G v x m Hx Hm) as [t [Ht [Hu Hs]]].
  destruct (spread_pos_differs (geos x) (fun g => level d s v x g t m)) as [g [g' [H1 [H2 H3]]]]; [lra|].
  exists t, g, g'. auto.
Qed.
Print Assumptions C80_geo_varies.

(** Without revenue, an accepted model with ROI priors has default ones on all paid channels or on none;
    with revenue the total contribution prior is never set. *)
Theorem C80_non_revenue : forall threshold d s flag, good_data d -> 0 < threshold <= 1 ->
  construct threshold d s = Ok flag ->
  (in_revenue d = true \/ in_rpk d = true -> flag = false) /\
  (in_revenue d = false -> in_rpk d = false ->
   ~ default_mroi d s /\ (flag = true /\ all_default_roi d s \/ flag = false /\ ~ some_default_roi d s)).
Proof.
  intros threshold d s flag Hd Hth H. apply (C80_exact threshold d s flag Hd Hth) in H.
  destruct H as (_ & Hm & Hr & _ & _ & _ & _ & _ & Hf). split.
  - intros Hrev. destruct flag; [|reflexivity]. destruct (proj1 Hf eq_refl) as (H1 & H2 & _). destruct Hrev; congruence.
  - intros H1 H2. split; [auto|]. destruct flag.
    + left. split; [auto|]. apply Hf. auto.
    + right. split; [auto|]. intros S. assert (false = true) by (apply Hf; auto). discriminate.
Qed.
Print Assumptions C80_non_revenue.

(** *** A model that is accepted *)
Definition g_media : T3 := mkT3 2 2 1 (fun g t _ => INR g + 2 * INR t + 1).
Definition g_data : inputs :=
  mkInputs 2 2 2 (fun _ => 1) (fun g t => INR t) false false None None (Some g_media) (Some (PerCell (fun _ _ _ => 1)))
    None None None None None None.
Definition g_spec : specs :=
  mkSpecs None None (Some [2%nat; 2%nat]) None None Roi Roi Contribution Contribution Contribution true true false false (Ok tt) (Ok 2%nat).

Lemma median_bounds : forall x population m k lo hi, 0 < lo -> (forall g, (g < geos x)%nat -> population g = 1) ->
  (forall g t, (g < geos x)%nat -> (t < times x)%nat -> lo <= val x g t m <= hi) ->
  channel_median x population m = Some k -> lo <= k <= hi.
Proof.
  intros x population m k lo hi Hlo Hp Hv H. apply nanmedian_spec in H. eapply median_in_range; [exact H|].
  intros y Hy. apply filter_In in Hy. destruct Hy as [Hy _]. apply in_channel_values in Hy.
  destruct Hy as [g [t [Hg [Ht ->]]]]. cbn in *. rewrite Hp by auto. rewrite divide_no_nan_nz by lra.
  specialize (Hv g t Hg Ht). lra.
Qed.
Lemma median_exists : forall x population m lo, 0 < lo -> (0 < geos x)%nat -> (0 < times x)%nat ->
  population 0%nat = 1 -> lo <= val x 0 0 m -> exists k, channel_median x population m = Some k.
Proof.
  intros x population m lo Hlo Hg Ht Hp Hv. destruct (channel_median x population m) as [k|] eqn:E; [eauto|]. exfalso.
  unfold channel_median in E. apply nanmedian_none in E.
  assert (I : In (val x 0 0 m) (filter nonzero (channel_values (population_scaled x population) m))).
  { apply filter_In. split; [|apply nonzero_true; lra]. apply in_channel_values. exists 0%nat, 0%nat. cbn. repeat split; auto.
    rewrite Hp, divide_no_nan_nz by lra. field. }
  rewrite E in I. destruct I.
Qed.

Lemma nat2 : forall n, (n < 2)%nat -> n = 0%nat \/ n = 1%nat. Proof. intros; lia. Qed.
Ltac two := repeat match goal with H : (?n < 2)%nat |- _ => apply nat2 in H; destruct H as [-> | ->] | H : (?n < 1)%nat |- _ => replace n with 0%nat in * by lia; clear H end.

Lemma spread2 : forall f, spread 2 f = Rabs (f 1%nat - f 0%nat) / 2.
Proof.
  intros f. unfold spread, mean. cbn [rsum INR].
  set (a := f 0%nat). set (b := f 1%nat).
  replace ((0 + (a - (0 + a + b) / (1 + 1)) ^ 2 + (b - (0 + a + b) / (1 + 1)) ^ 2) / (1 + 1)) with (Rsqr ((b - a) / 2)) by (unfold Rsqr; field).
  rewrite sqrt_Rsqr_abs. unfold Rdiv. rewrite Rabs_mult. f_equal. apply Rabs_right. lra.
Qed.

Example C80_example_good : good_data g_data.
Proof.
  constructor; cbn.
  - lia.
  - lia.
  - intros; lra.
  - intros v x H. destruct v; cbn in H; try discriminate. injection H as <-. cbn. auto.
  - intros v x g t m H _ Hg Ht Hm. destruct v; cbn in H; try discriminate. injection H as <-. cbn.
    pose proof (pos_INR g). pose proof (pos_INR t). lra.
  - discriminate.
  - left. unfold has. cbn. lia.
Qed.
Example C80_example : construct (1 / 10000) g_data g_spec = Ok true.
Proof.
  apply C80_exact; [apply C80_example_good|lra|].
  destruct (median_exists g_media (in_population g_data) 0 1) as [k Hk]; cbn; try lia; try lra.
  assert (Hb : 1 <= k <= 4).
  { apply (median_bounds g_media (in_population g_data) 0 k 1 4); auto; try lra.
    intros g t Hg Ht. cbn in Hg, Ht. two; cbn; lra. }
  assert (HU : unit_of g_data g_spec VMedia g_media 0 = k) by (unfold unit_of; cbn [is_media]; rewrite Hk; reflexivity).
  split; [constructor; intros l Hl; try discriminate Hl; cbn in Hl; injection Hl as <-; reflexivity|].
  split; [intros _ [(_ & H & _)|(H & _)]; [discriminate H|unfold has in H; cbn in H; lia]|].
  assert (All : all_default_roi g_data g_spec).
  { split; intros H; [split; reflexivity|unfold has in H; cbn in H; lia]. }
  split; [auto|]. split; [reflexivity|].
  split; [|split; [|split; [|split]]].
  - intros v x m Hx Hm. destruct v; cbn in Hx; try discriminate. injection Hx as <-. cbn in Hm. two.
    exists 0%nat. split; [cbn; lia|]. rewrite HU. split; [lra|]. cbn [times g_media]. rewrite spread2. unfold level. cbn.
    rewrite Rabs_right by lra. lra.
  - intros _. left. intros v x m Hx Hm. destruct v; cbn in Hx; try discriminate. injection Hx as <-. cbn in Hm. two.
    exists 0%nat. split; [cbn; lia|]. rewrite HU. split; [lra|]. cbn [geos g_media]. rewrite spread2. unfold level. cbn.
    rewrite Rabs_right by lra. lra.
  - intros x p m [H|[H|[]]] Hm; cbn in H; [injection H as <- <-; cbn; lra|discriminate].
  - intros [c Hc]. exfalso. pose proof (Hc 0%nat 0%nat ltac:(cbn; lia) ltac:(cbn; lia)) as H0.
    pose proof (Hc 0%nat 1%nat ltac:(cbn; lia) ltac:(cbn; lia)) as H1. cbn in H0, H1. lra.
  - split; auto.
Qed.

(** *** Findings *)
(** A reach-and-frequency channel whose impressions vary only through its frequency is refused,
    whatever the specification. *)
Definition r_reach : T3 := mkT3 2 2 1 (fun _ _ _ => 1).
Definition r_frequency : T3 := mkT3 2 2 1 (fun g t _ => INR g + 2 * INR t + 1).
Definition r_data : inputs :=
  mkInputs 2 2 2 (fun _ => 1) (fun g t => INR t) true false None None None None
    (Some r_reach) (Some r_frequency) (Some (PerCell (fun _ _ _ => 1))) None None None.
Theorem C80_frequency_refuted : ~ (forall threshold d s r f, good_data d -> 0 < threshold <= 1 ->
  in_reach d = Some r -> in_frequency d = Some f -> chans r = 1%nat ->
  (exists g t t', (g < geos r)%nat /\ (t < times r)%nat /\ (t' < times r)%nat /\
     val r g t 0 * val f g t 0 <> val r g t' 0 * val f g t' 0) ->
  in_controls d = None -> in_non_media d = None -> in_media d = None -> in_organic_media d = None -> in_organic_reach d = None ->
  sp_support s = Ok tt -> shapes_fit d s -> in_revenue d = true -> ~ constant_kpi d -> sp_knots s = Ok 1%nat ->
  (forall x p m, In (Some x, Some p) (units_of d) -> (m < chans x)%nat -> spent d x p m <> 0) ->
  exists flag, construct threshold d s = Ok flag).
Proof.
  intros H.
  assert (Hg : good_data r_data).
  { constructor; cbn; try lia; try discriminate.
    - intros; lra.
    - intros v x E. destruct v; cbn in E; try discriminate. injection E as <-. cbn. auto.
    - intros v x g t m E _ _ _ _. destruct v; cbn in E; try discriminate. injection E as <-. cbn. lra.
    - intros r f E1 E2 g t m _ _ _. injection E2 as <-. cbn. pose proof (pos_INR g). pose proof (pos_INR t). lra.
    - right. unfold has. cbn. lia. }
  set (sp := mkSpecs None None None None None Roi Roi Contribution Contribution Contribution true true false false (Ok tt) (Ok 1%nat)).
  destruct (H (1 / 10000) r_data sp r_reach r_frequency) as [flag K]; auto; try lra; try reflexivity.
  - exists 0%nat, 0%nat, 1%nat. cbn. repeat split; auto; lra.
  - constructor; intros l E; discriminate E.
  - intros [c Hc]. pose proof (Hc 0%nat 0%nat ltac:(cbn; lia) ltac:(cbn; lia)) as H0.
    pose proof (Hc 0%nat 1%nat ltac:(cbn; lia) ltac:(cbn; lia)) as H1. cbn in H0, H1. lra.
  - intros x p m [E|[E|[]]] Hm; cbn in E; [discriminate|injection E as <- <-; cbn; lra].
  - destruct (C80_time_varies (1 / 10000) r_data sp flag VReach r_reach 0 Hg ltac:(lra) K eq_refl ltac:(cbn; lia)) as [g [t [t' (_ & _ & _ & D)]]].
    apply D. reflexivity.
Qed.
Print Assumptions C80_frequency_refuted.

(** A channel that varies by too little next to its median is refused, whatever the specification. *)
Definition s_media : T3 := mkT3 1 2 1 (fun g t _ => 1 + INR t / 100000).
Definition s_data : inputs :=
  mkInputs 1 2 2 (fun _ => 1) (fun g t => INR t) true false None None (Some s_media) (Some (PerCell (fun _ _ _ => 1)))
    None None None None None None.
Theorem C80_small_variation_refuted : exists d x, good_data d /\ in_media d = Some x /\
  (exists t t', (t < times x)%nat /\ (t' < times x)%nat /\ val x 0 t 0 <> val x 0 t' 0) /\
  forall threshold s flag, 0 < threshold <= 1 -> construct threshold d s <> Ok flag.
Proof.
  exists s_data, s_media.
  assert (Hg : good_data s_data).
  { constructor; cbn; try lia; try discriminate.
    - intros; lra.
    - intros v x E. destruct v; cbn in E; try discriminate. injection E as <-. cbn. auto.
    - intros v x g t m E _ _ _ _. destruct v; cbn in E; try discriminate. injection E as <-. cbn. pose proof (pos_INR t). lra.
    - left. unfold has. cbn. lia. }
  split; [exact Hg|]. split; [reflexivity|]. split.
  - exists 0%nat, 1%nat. cbn. repeat split; auto. lra.
  - intros threshold s flag Hth K. apply C80_exact in K; auto. destruct K as (_ & _ & _ & _ & Ht & _).
    destruct (Ht VMedia s_media 0%nat eq_refl ltac:(cbn; lia)) as [g [Hg' [Hu Hs]]]. cbn in Hg'. replace g with 0%nat in * by lia.
    destruct (median_exists s_media (in_population s_data) 0 1) as [k Hk]; cbn; try lia; try lra.
    assert (Hb : 1 <= k <= 2).
    { apply (median_bounds s_media (in_population s_data) 0 k 1 2); auto; try lra.
      intros g0 t Hg0 Ht0. cbn in Hg0, Ht0. two; cbn; lra. }
    unfold unit_of in Hs. cbn [is_media] in Hs. rewrite Hk in Hs. cbn [times s_media] in Hs. rewrite spread2 in Hs. unfold level in Hs. cbn in Hs.
    rewrite Rabs_right in Hs by lra. lra.
Qed.
Print Assumptions C80_small_variation_refuted.

(** Acceptance does not mean that scaled media are numbers: the population is not checked. *)
Definition z_population (g : nat) : R := match g with 0%nat => 1 | _ => 0 end.
Definition z_data : inputs :=
  mkInputs 2 2 2 z_population (fun g t => INR t) true false None None (Some g_media) (Some (PerCell (fun _ _ _ => 1)))
    None None None None None None.
Definition z_spec : specs :=
  mkSpecs None None None None None Coefficient Coefficient Contribution Contribution Contribution true true false false (Ok tt) (Ok 2%nat).
Theorem C80_zero_population_refuted : exists d s x c flag, in_media d = Some x /\
  construct (1 / 10000) d s = Ok flag /\ media_scaled (in_population d) x = Ok c /\
  exists g t m, (g < geos x)%nat /\ (t < times x)%nat /\ (m < chans x)%nat /\ val x g t m > 0 /\ c g t m = None.
Proof.
  destruct (median_exists g_media z_population 0 1) as [k Hk]; cbn; try lia; try lra.
  assert (Hi : exists c, media_scaled z_population g_media = Ok c /\ forall t m, c 1%nat t m = None).
  { unfold media_scaled, media_transformer_init. cbn [chans g_media seq forallb]. rewrite Hk. cbn [andb rbind].
    eexists. split; [reflexivity|]. intros t m. unfold media_forward, fdiv. cbn [scale_factors_gm z_population].
    destruct (Req_EM_T _ 0) as [_|N]; [reflexivity|]. exfalso. apply N. ring. }
  destruct Hi as [c [Hc Hn]]. exists z_data, z_spec, g_media, c, false. split; [reflexivity|].
  assert (HV : forall chk, chk g_media c = Ok tt -> validate_variation z_data z_spec chk = Ok tt).
  { intros chk E. apply validate_variation_ok. intros v x Hx. destruct v; cbn in Hx; try discriminate. injection Hx as <-.
    exists c. split; [exact Hc|exact E]. }
  split; [|split; [exact Hc|]].
  - unfold construct, context_init. cbn [is_national z_data in_geos Nat.eqb].
    rewrite (HV (check_geo z_data z_spec)).
    2:{ unfold check_geo. cbn [chans g_media seq existsb times geos]. unfold all_below. cbn [seq filter].
        unfold reduce_std. cbn [seq map]. rewrite !Hn. cbn [all_some].
        destruct (c 0%nat 0%nat 0%nat), (c 0%nat 1%nat 0%nat); cbn [all_some below filter length Nat.eqb negb andb orb]; reflexivity. }
    rewrite (HV (check_time z_data)).
    2:{ unfold check_time. cbn [chans g_media seq existsb times geos]. cbn [filter].
        assert (L : below (reduce_std 2 (fun t => c 1%nat t 0%nat)) epsilon = false).
        { unfold reduce_std. cbn [seq map]. rewrite !Hn. reflexivity. }
        rewrite L. clear L. destruct (below (reduce_std 2 (fun t => c 0%nat t 0%nat)) epsilon); reflexivity. }
    assert (S1 : validate_spend z_data (in_media z_data) (in_media_spend z_data) = Ok tt).
    { cbn. destruct (Req_EM_T _ 0) as [E|_]; [exfalso; lra|reflexivity]. }
    rewrite S1. assert (K : validate_kpi (1 / 10000) z_data z_spec = Ok tt) by (unfold validate_kpi; destruct (kpi_has_variability _ _); reflexivity).
    rewrite K. reflexivity.
  - exists 1%nat, 0%nat, 0%nat. cbn. repeat split; auto; try lia; try lra.
Qed.
Print Assumptions C80_zero_population_refuted.
