(** C106: the table behind the chart of expected and actual outcomes. *)
From Coq Require Import Reals QArith ZArith String Lia Lra List Bool Arith Permutation Sorted.
From Verif Require Import Lib_Sum M_Base M_AdstockHill M_Equations M_Transformers M_Aggregate
  S_Aggregate S_Adstock S_Media S_Analyzer M_Analyzer S_Predictor M_Stats S_Stats M_Accuracy S_Accuracy M_FitTable S_FitTable
  S_Transformers P_Transformers P_Stats P_FitTable C_Analyzer C_Predictor C_Accuracy C_FitTable Lib_Sort M_FitChart S_FitChart P_FitChart P_FitChart2.
Import ListNotations.
Local Open Scope R_scope.

(** One row for each period shown and each line (with [by_geo], for each geo shown too).  With [by_geo] the columns
    are the observed outcome, or the mean and the bounds over the draws, of the geo; without, the mean is that of the
    geos together, and each column is the sum of the geos' columns. *)
Theorem C106_chart : forall x h nc nd level draws uk v population times geos by_geo baseline rows,
  fit_request x h nc nd None level 100 draws -> (0 < x_n_geos x)%nat -> ~ lookalike x nd -> NoDup (x_geo x) -> NoDup (x_time x) ->
  new_view x h nc nd draws uk level = Ok v -> chart_data v population times geos None by_geo baseline = Ok rows ->
  exists b gs ts, (forall c, (c < n_chans (d_non_media (x_data x)))%nat -> is_baseline_value x None c (b c)) /\
    shown (x_geo x) geos gs /\ shown (x_time x) times ts /\
    length rows = ((if by_geo then length gs else 1) * length ts * (if baseline then 3 else 2))%nat /\
    forall t l, In t ts -> (l = Baseline -> baseline = true) ->
      (by_geo = true -> forall g, In g gs -> exists r, In r rows /\ w_geo r = Some (nth g (x_geo x) ""%string) /\
         w_time r = nth t (x_time x) ""%string /\ w_line r = l /\
         forall m, exists a, col r m = Some a /\ value_of x uk level draws b l [g] t m a) /\
      (by_geo = false -> exists r, In r rows /\ w_geo r = None /\ w_time r = nth t (x_time x) ""%string /\ w_line r = l /\
         (exists a, w_mean r = Some a /\ value_of x uk level draws b l gs t Mean a) /\
         forall m, exists u, (forall g, In g gs -> value_of x uk level draws b l [g] t m (u g)) /\ col r m = Some (total gs u)).
Proof. exact chart_lemma. Qed.
Print Assumptions C106_chart.

(** What is accepted, and how the rest is refused. *)
Theorem C106_accepted : forall x h nc nd level draws uk v population times geos n by_geo baseline,
  fit_request x h nc nd None level 100 draws -> (0 < x_n_geos x)%nat -> ~ lookalike x nd -> NoDup (x_geo x) -> NoDup (x_time x) ->
  map fst population = x_geo x ->
  new_view x h nc nd draws uk level = Ok v ->
  (request_ok x times geos n by_geo -> exists rows, chart_data v population times geos n by_geo baseline = Ok rows) /\
  (~ request_ok x times geos n by_geo -> chart_data v population times geos n by_geo baseline = Err ValueError).
Proof. exact accepted_lemma. Qed.
Print Assumptions C106_accepted.

Lemma view_labels : forall x h nc nd level draws uk v,
  fit_request x h nc nd None level 100 draws -> (0 < x_n_geos x)%nat -> ~ lookalike x nd ->
  new_view x h nc nd draws uk level = Ok v -> f_geo (v_data v) = Some (x_geo x) /\ f_time (v_data v) = Some (x_time x).
Proof.
  intros x h nc nd level draws uk v V G0 L Ev.
  unfold new_view in Ev. destruct (fit_data x h nc nd draws (resolve_use_kpi x uk) level) as [f|] eqn:Ef; cbn [rbind] in Ev; [|discriminate].
  injection Ev as <-. destruct (data_cells _ _ _ _ _ _ _ _ V G0 L Ef) as (b & _ & Eg & Et & _). split; assumption.
Qed.
Lemma validate_some : forall f all times l by_geo, f_geo f = Some all -> l <> [] -> (forall a, In a l -> In a all) ->
  validate f times (Some l) None by_geo = raise_if (given times && negb (all_inside times (labels (f_time f)))) ValueError (Ok tt).
Proof.
  intros f all times l by_geo Eg Hl Hi. unfold validate. rewrite Eg. cbn [n_given labels].
  destruct l as [|a l]; [congruence|]. cbn [given]. rewrite (proj2 (inside_all _ _) Hi : all_inside (Some (a :: l)) all = true).
  cbn [negb andb]. rewrite !andb_false_r. reflexivity.
Qed.
Lemma validate_number : forall f all times k by_geo, f_geo f = Some all -> k <> 0%Z -> (k <= Z.of_nat (length all))%Z ->
  validate f times None (Some k) by_geo = raise_if (given times && negb (all_inside times (labels (f_time f)))) ValueError (Ok tt).
Proof.
  intros f all times k by_geo Eg Hk Hl. unfold validate. rewrite Eg. cbn [n_given labels given].
  rewrite (proj2 (Z.eqb_neq k 0) Hk), (proj2 (Z.ltb_ge _ _) Hl). cbn [negb andb]. rewrite !andb_false_r. reflexivity.
Qed.

(** Asking for the [k] largest geos is asking for [k] geos by name, none of which is smaller than one left out. *)
Theorem C106_largest : forall x h nc nd level draws uk v population times k by_geo baseline,
  fit_request x h nc nd None level 100 draws -> (0 < x_n_geos x)%nat -> ~ lookalike x nd -> NoDup (x_geo x) ->
  map fst population = x_geo x -> new_view x h nc nd draws uk level = Ok v -> (0 < k <= Z.of_nat (x_n_geos x))%Z ->
  exists l, length l = Z.to_nat k /\ NoDup l /\ (forall g, In g l -> In g (x_geo x)) /\
    (forall g p g' p', In (g, p) population -> In (g', p') population -> In g l -> ~ In g' l -> (p' <= p)%Q) /\
    chart_data v population times None (Some k) by_geo baseline = chart_data v population times (Some l) None by_geo baseline.
Proof.
  intros x h nc nd level draws uk v population times k by_geo baseline V G0 L Ng Ep Ev Hk.
  destruct (view_labels _ _ _ _ _ _ _ _ V G0 L Ev) as [Eg _].
  assert (Lp : length population = x_n_geos x) by (unfold x_n_geos; rewrite <- Ep, map_length; reflexivity).
  assert (Np : NoDup (map fst population)) by (rewrite Ep; exact Ng).
  destruct (largest_spec population k Np) as [H1 H2]; [rewrite Lp; lia|].
  exists (largest_geos population k). split; [exact H1|]. split; [apply largest_nodup; exact Np|].
  assert (I : forall g, In g (largest_geos population k) -> In g (x_geo x)) by (intros g Hg; rewrite <- Ep; eapply largest_in; exact Hg).
  split; [exact I|]. split; [intros g p g' p' A B C D; exact (H2 g p g' p' A B C D)|].
  unfold chart_data. rewrite (validate_number (v_data v) (x_geo x) times k by_geo Eg) by (unfold x_n_geos in *; lia).
  rewrite (validate_some (v_data v) (x_geo x) times _ by_geo Eg); [|intros C; rewrite C in H1; cbn in H1; lia|exact I].
  cbn [n_given]. rewrite (proj2 (Z.eqb_neq k 0)) by lia. reflexivity.
Qed.
Print Assumptions C106_largest.

(** A negative number is not refused: it asks for all geos but so many; when that leaves none, for all of them. *)
Theorem C106_negative_refuted : forall x h nc nd level draws uk v population times j by_geo baseline,
  fit_request x h nc nd None level 100 draws -> (0 < x_n_geos x)%nat -> ~ lookalike x nd ->
  map fst population = x_geo x -> new_view x h nc nd draws uk level = Ok v -> (0 < j)%Z ->
  ((j < Z.of_nat (x_n_geos x))%Z ->
     chart_data v population times None (Some (- j)%Z) by_geo baseline
     = chart_data v population times None (Some (Z.of_nat (x_n_geos x) - j)%Z) by_geo baseline) /\
  ((Z.of_nat (x_n_geos x) <= j)%Z ->
     chart_data v population times None (Some (- j)%Z) by_geo baseline
     = chart_data v population times (Some (x_geo x)) None by_geo baseline).
Proof.
  intros x h nc nd level draws uk v population times j by_geo baseline V G0 L Ep Ev Hj.
  destruct (view_labels _ _ _ _ _ _ _ _ V G0 L Ev) as [Eg _].
  assert (Lp : length (map fst (isort (fun a b => Qle_bool (snd b) (snd a)) population)) = x_n_geos x).
  { rewrite map_length, isort_length. unfold x_n_geos. rewrite <- Ep, map_length. reflexivity. }
  assert (Eneg : largest_geos population (- j) = largest_geos population (Z.max 0 (Z.of_nat (x_n_geos x) - j))).
  { unfold largest_geos. rewrite slice_negative by exact Hj. rewrite Lp. reflexivity. }
  split; intros H; unfold chart_data; rewrite (validate_number (v_data v) (x_geo x) times (- j) by_geo Eg) by (unfold x_n_geos in *; lia);
    cbn [n_given]; rewrite (proj2 (Z.eqb_neq (- j) 0)) by lia; cbn [negb]; rewrite Eneg.
  - rewrite (validate_number (v_data v) (x_geo x) times _ by_geo Eg) by (unfold x_n_geos in *; lia).
    rewrite (proj2 (Z.eqb_neq (Z.of_nat (x_n_geos x) - j) 0)) by lia. rewrite Z.max_r by lia. reflexivity.
  - rewrite (validate_some (v_data v) (x_geo x) times _ by_geo Eg); [|unfold x_n_geos in G0; destruct (x_geo x); [cbn in G0; lia|discriminate]|auto].
    rewrite Z.max_l by lia. unfold raise_if. destruct (given times && negb (all_inside times (labels (f_time (v_data v)))))%bool; [reflexivity|]. cbn [rbind].
    unfold to_rows. rewrite Eg. cbn [labels]. unfold largest_geos. rewrite slice_pos by lia. cbn [Z.to_nat firstn or_all].
    destruct (x_geo x) eqn:E; reflexivity.
Qed.
Print Assumptions C106_negative_refuted.

(** Changing the confidence level of a view is making a new one with that level, when the outcome is the default one. *)
Theorem C106_update : forall x h nc nd draws uk v level level',
  well_formed x -> outcome_is_kpi x uk = outcome_is_kpi x false -> new_view x h nc nd draws uk level = Ok v ->
  update_level x h nc nd draws v level' = new_view x h nc nd draws uk level'.
Proof.
  intros x h nc nd draws uk v level level' W E Ev.
  assert (R : resolve_use_kpi x uk = resolve_use_kpi x false).
  { pose proof (wf_rpk x W) as H. unfold outcome_is_kpi in E. unfold resolve_use_kpi.
    destruct (d_revenue_per_kpi (x_data x)); [|rewrite H; destruct uk; reflexivity].
    destruct uk, (x_kpi_is_revenue x); try reflexivity; discriminate. }
  assert (Ek : v_kpi v = resolve_use_kpi x false).
  { unfold new_view in Ev. destruct (fit_data x h nc nd draws (resolve_use_kpi x uk) level); cbn [rbind] in Ev; [|discriminate].
    injection Ev as <-. exact R. }
  assert (F : fit_data x h nc nd draws (resolve_use_kpi x false) level' = fit_data x h nc nd draws false level').
  { unfold fit_data, expected_vs_actual. cbv zeta. replace (resolve_use_kpi x (resolve_use_kpi x false)) with (resolve_use_kpi x false); [reflexivity|].
    unfold resolve_use_kpi. pose proof (wf_rpk x W) as H. destruct (d_revenue_per_kpi (x_data x)); [reflexivity|].
    rewrite H. reflexivity. }
  unfold update_level, new_view. cbv zeta. rewrite R, F, Ek. reflexivity.
Qed.
Print Assumptions C106_update.

(** Not otherwise: a view of the KPI becomes one that still says it shows the KPI and shows the revenue. *)
Theorem C106_update_refuted : forall x h nc nd draws uk v v' level level',
  outcome_is_kpi x uk = true -> outcome_is_kpi x false = false ->
  new_view x h nc nd draws uk level = Ok v -> update_level x h nc nd draws v level' = Ok v' ->
  v_kpi v' = true /\ exists w, new_view x h nc nd draws false level' = Ok w /\ v_kpi w = false /\
    forall population times geos n by_geo baseline,
      chart_data v' population times geos n by_geo baseline = chart_data w population times geos n by_geo baseline.
Proof.
  intros x h nc nd draws uk v v' level level' E E0 Ev Eu.
  assert (R0 : resolve_use_kpi x false = false).
  { unfold outcome_is_kpi in E0. unfold resolve_use_kpi. destruct (d_revenue_per_kpi (x_data x)); [reflexivity|discriminate]. }
  assert (R : resolve_use_kpi x uk = true).
  { unfold outcome_is_kpi in E, E0. unfold resolve_use_kpi. destruct (d_revenue_per_kpi (x_data x)); [|discriminate].
    destruct uk, (x_kpi_is_revenue x); try reflexivity; discriminate. }
  unfold new_view in *. cbv zeta in *. rewrite R in Ev. rewrite R0. unfold update_level in Eu.
  destruct (fit_data x h nc nd draws true level); cbn [rbind] in Ev; [|discriminate]. injection Ev as <-.
  destruct (fit_data x h nc nd draws false level') as [f'|]; cbn [rbind] in *; [|discriminate]. injection Eu as <-.
  split; [reflexivity|]. eexists. split; [reflexivity|]. split; reflexivity.
Qed.
Print Assumptions C106_update_refuted.

(** The band of the national chart: three draws of which one geo's outcome rises as the other's falls. *)
Definition seesaw (e : R) : draw :=
  mkDraw (fun g => 1 + e * (if Nat.eqb g 0 then 2 else -1)) (fun _ => 2) (ex_params 2) (ex_params 1) (ex_params 1) (ex_params 1)
    (fun _ c => 1 + INR c) (fun _ _ => 1) (fun _ _ => 4) (fun _ _ => 5) (fun _ _ => 6) (fun _ _ => 2).
Definition ex_seesaw : list draw := [seesaw 0; seesaw 1; seesaw 2].
Lemma seesaw_request : fit_request ex_rich None 1 3 None (9 / 10) 100 ex_seesaw.
Proof.
  destruct C58_example as (W & D & _ & _ & M & T & _). constructor; auto; try exact Logic.I; try (split; reflexivity); try discriminate; try lia; try lra.
  apply Forall_forall. intros w [<-|[<-|[<-|[]]]]; unfold draw_ok in D |- *; cbn [seesaw ex_rich_draw w_media w_rf w_organic_media w_organic_rf] in D |- *; exact D.
Qed.
Definition spread : R := k_stdev (kpi_tr ex_rich).
Lemma spread_pos : 0 < spread.
Proof.
  assert (N : spread <> 0).
  { unfold spread, kpi_tr, kpi_init. cbn [k_stdev]. intros C. apply std_gt_zero_iff in C; cbn [geos2 times2 x_kpi ex_rich]; try lia.
    destruct C as [k C]. cbn [val2 x_population ex_rich x_kpi geos2 times2] in C.
    pose proof (C 0%nat 0%nat ltac:(lia) ltac:(lia)) as C0. pose proof (C 0%nat 1%nat ltac:(lia) ltac:(lia)) as C1.
    unfold divide_no_nan in C0, C1. cbn in C0, C1.
    destruct (Req_EM_T (1 + 0) 0); [lra|]. rewrite <- C0 in C1. lra. }
  assert (G : 0 <= spread) by (unfold spread, kpi_tr, kpi_init; cbn [k_stdev]; apply sqrt_pos). lra.
Qed.
Lemma seesaw_cell : forall g e, (g < 2)%nat ->
  cell_outcome ex_rich no_data false [g] [0%nat] (seesaw e)
  = cell_outcome ex_rich no_data false [g] [0%nat] (seesaw 0) + e * (if Nat.eqb g 0 then 6 else -6) * spread.
Proof.
  intros g e Hg. unfold cell_outcome, total. cbn [map lsum]. unfold outcome_in_units. fold spread.
  cbn [d_revenue_per_kpi x_data ex_rich outcome_is_kpi andb val2 x_population].
  assert (P : predictor ex_rich no_data (seesaw e) g 0 = predictor ex_rich no_data (seesaw 0) g 0 + e * (if Nat.eqb g 0 then 2 else -1)).
  { unfold predictor. cbn [seesaw w_tau_g w_mu_t w_beta_gm w_beta_grf w_beta_gom w_beta_gorf w_gamma_gc w_gamma_gn w_media w_rf w_organic_media w_organic_rf]. ring. }
  rewrite P. destruct g as [|[|g]]; [cbn; ring|cbn; ring|lia].
Qed.

Lemma list3 : forall a b c a' b' c' : R, a = a' -> b = b' -> c = c' -> [a; b; c] = [a'; b'; c'].
Proof. intros. congruence. Qed.
(** The bounds of three values in order, at level 9/10. *)
Lemma low3 : forall l a b c v, Permutation l [a; b; c] -> a <= b <= c -> is_stat (9 / 10) l CiLo v -> v = 9 / 10 * a + 1 / 10 * b.
Proof.
  intros l a b c v P H Q. cbn [is_stat] in Q. destruct Q as (s & i & frac & Ps & Ss & Hi & Hf & E & ->).
  assert (S3 : StronglySorted Rle [a; b; c]) by (apply SSorted_cons; [apply SSorted_cons; [apply SSorted_cons; [apply SSorted_nil|apply Forall_nil]|apply Forall_cons; [lra|apply Forall_nil]]|apply Forall_cons; [lra|apply Forall_cons; [lra|apply Forall_nil]]]).
  assert (s = [a; b; c]) by (apply P_Stats.sorted_unique; [exact Ss|exact S3|eapply Permutation_trans; [apply Permutation_sym, Ps|exact P]]). subst s.
  rewrite (Permutation_length P) in E. cbn [length Nat.sub INR] in E.
  destruct i as [|i]; [|rewrite S_INR in E; pose proof (pos_INR i); lra]. cbn [length Nat.sub Nat.eqb nth]. cbn [INR] in E.
  replace frac with (1 / 10) by lra. lra.
Qed.
Lemma high3 : forall l a b c v, Permutation l [a; b; c] -> a <= b <= c -> is_stat (9 / 10) l CiHi v -> v = 1 / 10 * b + 9 / 10 * c.
Proof.
  intros l a b c v P H Q. cbn [is_stat] in Q. destruct Q as (s & i & frac & Ps & Ss & Hi & Hf & E & ->).
  assert (S3 : StronglySorted Rle [a; b; c]) by (apply SSorted_cons; [apply SSorted_cons; [apply SSorted_cons; [apply SSorted_nil|apply Forall_nil]|apply Forall_cons; [lra|apply Forall_nil]]|apply Forall_cons; [lra|apply Forall_cons; [lra|apply Forall_nil]]]).
  assert (s = [a; b; c]) by (apply P_Stats.sorted_unique; [exact Ss|exact S3|eapply Permutation_trans; [apply Permutation_sym, Ps|exact P]]). subst s.
  rewrite (Permutation_length P) in E. cbn [length Nat.sub INR] in E.
  destruct i as [|[|i]]; [cbn [INR] in E; lra| |rewrite !S_INR in E; pose proof (pos_INR i); lra]. cbn [length Nat.sub Nat.eqb nth]. cbn [INR] in E.
  replace frac with (9 / 10) by lra. lra.
Qed.

(** The band of the national chart is not the credible interval of the national outcome (which the analyzer's own
    table, summed over the geos, has): here the interval is a point, and the band is wide. *)
Theorem C106_band_refuted : exists v rows r d lo hi a,
  new_view ex_rich None 1 3 ex_seesaw false (9 / 10) = Ok v /\
  chart_data v [("a"%string, 1%Q); ("b"%string, 2%Q)] None None None false true = Ok rows /\
  In r rows /\ w_geo r = None /\ w_time r = nth 0 (x_time ex_rich) ""%string /\ w_line r = Expected /\
  w_lo r = Some lo /\ w_hi r = Some hi /\
  expected_vs_actual ex_rich None 1 3 true false false false None (9 / 10) 100 ex_seesaw = Ok d /\
  n_at (f_expected d) (place true false None 0 0 CiLo AllData) = Some a /\
  n_at (f_expected d) (place true false None 0 0 CiHi AllData) = Some a /\ lo < a < hi.
Proof.
  pose proof seesaw_request as V. pose proof spread_pos as SP.
  assert (G0 : (0 < x_n_geos ex_rich)%nat) by (cbn; lia).
  assert (L : ~ lookalike ex_rich 3) by (intros (H & _); cbn in H; discriminate).
  assert (Ng : NoDup (x_geo ex_rich)) by (cbn; repeat constructor; cbn; intuition discriminate).
  assert (Nt : NoDup (x_time ex_rich)) by (cbn; repeat constructor; cbn; intuition discriminate).
  assert (Ev : exists v, new_view ex_rich None 1 3 ex_seesaw false (9 / 10) = Ok v).
  { destruct (C91_table ex_rich None 1 3 None (9 / 10) 100 ex_seesaw false false (resolve_use_kpi ex_rich false) false V G0 L) as (f & _ & Ef & _).
    unfold new_view, fit_data. rewrite Ef. eexists. reflexivity. }
  destruct Ev as [v Ev].
  assert (RO : request_ok ex_rich None None None false).
  { unfold request_ok. cbv zeta. split; [intros t []|]. split; [apply NoDup_nil|]. split; [intros t []|]. split; [apply NoDup_nil|].
    split; [intros H; discriminate H|]. split; [left; reflexivity|cbn; lia]. }
  destruct (proj1 (C106_accepted _ _ _ _ _ _ _ _ [("a"%string, 1%Q); ("b"%string, 2%Q)] None None None false true V G0 L Ng Nt eq_refl Ev) RO) as [rows Er].
  destruct (C106_chart _ _ _ _ _ _ _ _ _ _ _ _ _ _ V G0 L Ng Nt Ev Er) as (b & gs & ts & _ & Sg & St & _ & Rows).
  assert (It : In 0%nat ts) by (apply (proj2 St); cbn; split; [lia|exact Logic.I]).
  destruct (Rows 0%nat Expected It (fun H => eq_refl)) as [_ R]. destruct (R eq_refl) as (r & Ir & Wg & Wt & Wl & _ & C).
  destruct (C CiLo) as (ul & Hul & El). destruct (C CiHi) as (uh & Huh & Eh). cbn [col] in El, Eh.
  assert (Pg : Permutation gs [0%nat; 1%nat]).
  { apply NoDup_Permutation; [exact (proj1 Sg)|repeat constructor; cbn; intuition discriminate|]. intros i. rewrite (proj2 Sg i). cbn. split; [lia|]. intros [<-|[<-|[]]]; split; auto. }
  assert (T : forall u, total gs u = u 0%nat + u 1%nat).
  { intros u. unfold total. rewrite (lsum_perm _ _ (Permutation_map u Pg)). cbn [map lsum]. ring. }
  assert (I0 : In 0%nat gs) by (eapply Permutation_in; [apply Permutation_sym, Pg|left; reflexivity]).
  assert (I1 : In 1%nat gs) by (eapply Permutation_in; [apply Permutation_sym, Pg|right; left; reflexivity]).
  destruct (C91_table ex_rich None 1 3 None (9 / 10) 100 ex_seesaw true false false false V G0 L) as (d & b' & Ed & _ & _ & _ & _ & Es & _ & D).
  cbv zeta in D. specialize (D 0%nat 0%nat ltac:(discriminate) ltac:(cbn; lia)). destruct D as [_ D].
  destruct (proj1 (D CiLo AllData (fun _ => eq_refl)) (fun _ _ _ _ => eq_refl)) as (al & _ & Eal & _ & Sal & _).
  destruct (proj1 (D CiHi AllData (fun _ => eq_refl)) (fun _ _ _ _ => eq_refl)) as (ah & _ & Eah & _ & Sah & _).
  cbn [f_set] in Es. rewrite Es in Eal, Eah.
  set (A := cell_outcome ex_rich no_data false [0%nat] [0%nat] (seesaw 0)) in *.
  set (B := cell_outcome ex_rich no_data false [1%nat] [0%nat] (seesaw 0)) in *.
  assert (LA : map (cell_outcome ex_rich no_data false [0%nat] [0%nat]) ex_seesaw = [A; A + 6 * spread; A + 12 * spread]).
  { unfold ex_seesaw. cbn [map]. rewrite (seesaw_cell 0 1), (seesaw_cell 0 2) by lia. fold A. cbn [Nat.eqb]. apply list3; ring. }
  assert (LB : map (cell_outcome ex_rich no_data false [1%nat] [0%nat]) ex_seesaw = [B; B - 6 * spread; B - 12 * spread]).
  { unfold ex_seesaw. cbn [map]. rewrite (seesaw_cell 1 1), (seesaw_cell 1 2) by lia. fold B. cbn [Nat.eqb]. apply list3; ring. }
  assert (PB : Permutation [B; B - 6 * spread; B - 12 * spread] [B - 12 * spread; B - 6 * spread; B]).
  { change [B - 12 * spread; B - 6 * spread; B] with (rev [B; B - 6 * spread; B - 12 * spread]). apply Permutation_rev. }
  assert (LS : map (cell_outcome ex_rich no_data false (members (seq 0 (x_n_geos ex_rich)) true 0) (members (seq 0 (x_n_times ex_rich)) false 0)) ex_seesaw = [A + B; A + B; A + B]).
  { transitivity (map (fun w => cell_outcome ex_rich no_data false [0%nat] [0%nat] w + cell_outcome ex_rich no_data false [1%nat] [0%nat] w) ex_seesaw).
    - apply map_ext. intros w. change (members (seq 0 (x_n_geos ex_rich)) true 0) with [0%nat; 1%nat]. change (members (seq 0 (x_n_times ex_rich)) false 0) with [0%nat].
      rewrite outcome_split. cbn [map lsum]. ring.
    - unfold ex_seesaw. cbn [map]. rewrite (seesaw_cell 0 1), (seesaw_cell 0 2), (seesaw_cell 1 1), (seesaw_cell 1 2) by lia.
      fold A B. cbn [Nat.eqb]. apply list3; ring. }
  rewrite LS in Sal, Sah.
  pose proof (low3 _ _ _ _ _ (Permutation_refl _) (conj (Rle_refl _) (Rle_refl _)) Sal) as Va.
  pose proof (high3 _ _ _ _ _ (Permutation_refl _) (conj (Rle_refl _) (Rle_refl _)) Sah) as Vh.
  assert (al = A + B) by lra. assert (ah = A + B) by lra. clear Va Vh. subst al ah.
  pose proof (Hul 0%nat I0) as L0. pose proof (Hul 1%nat I1) as L1. pose proof (Huh 0%nat I0) as H0. pose proof (Huh 1%nat I1) as H1.
  cbn [value_of] in L0, L1, H0, H1. rewrite LA in L0, H0. rewrite LB in L1, H1.
  apply (low3 _ _ _ _ _ (Permutation_refl _)) in L0; [|lra]. apply (high3 _ _ _ _ _ (Permutation_refl _)) in H0; [|lra].
  apply (low3 _ _ _ _ _ PB) in L1; [|lra]. apply (high3 _ _ _ _ _ PB) in H1; [|lra].
  rewrite T in El, Eh.
  exists v, rows, r, d, (ul 0%nat + ul 1%nat), (uh 0%nat + uh 1%nat), (A + B).
  do 9 (split; [assumption|]). split; [exact Eal|]. split; [exact Eah|]. lra.
Qed.
Print Assumptions C106_band_refuted.

(** The hypotheses are met by a model with two geos and two periods, of a KPI that is not revenue and with a revenue
    per unit; a request that is met and one that is not. *)
Example C106_example :
  fit_request ex_rich None 1 3 None (9 / 10) 100 ex_seesaw /\ (0 < x_n_geos ex_rich)%nat /\ ~ lookalike ex_rich 3 /\
  NoDup (x_geo ex_rich) /\ NoDup (x_time ex_rich) /\
  (exists v v', new_view ex_rich None 1 3 ex_seesaw true (9 / 10) = Ok v /\ update_level ex_rich None 1 3 ex_seesaw v (1 / 2) = Ok v') /\
  outcome_is_kpi ex_rich true = true /\ outcome_is_kpi ex_rich false = false /\
  actual_outcome ex_rich true 0 1 = 2 /\ actual_outcome ex_rich false 0 1 = 6 /\
  request_ok ex_rich (Some ["2024-01-08"%string]) None (Some 1%Z) true /\
  ~ request_ok ex_rich None (Some ["a"; "a"]%string) None true /\
  largest_geos [("a"%string, 1%Q); ("b"%string, 2%Q)] 1 = ["b"%string].
Proof.
  pose proof seesaw_request as V.
  assert (V' : fit_request ex_rich None 1 3 None (1 / 2) 100 ex_seesaw) by (destruct V; constructor; auto; lra).
  assert (G0 : (0 < x_n_geos ex_rich)%nat) by (cbn; lia).
  assert (L : ~ lookalike ex_rich 3) by (intros (H & _); cbn in H; discriminate).
  split; [exact V|]. split; [exact G0|]. split; [exact L|].
  split; [cbn; repeat constructor; cbn; intuition discriminate|]. split; [cbn; repeat constructor; cbn; intuition discriminate|].
  split.
  { destruct (C91_table ex_rich None 1 3 None (9 / 10) 100 ex_seesaw false false (resolve_use_kpi ex_rich true) false V G0 L) as (f & _ & Ef & _).
    destruct (C91_table ex_rich None 1 3 None (1 / 2) 100 ex_seesaw false false false false V' G0 L) as (f' & _ & Ef' & _).
    eexists. eexists. split.
    - unfold new_view, fit_data. rewrite Ef. reflexivity.
    - unfold update_level, fit_data. rewrite Ef'. reflexivity. }
  do 2 (split; [reflexivity|]). split; [unfold actual_outcome; cbn [d_revenue_per_kpi x_data ex_rich outcome_is_kpi andb negb x_kpi_is_revenue val2 x_kpi Nat.mul Nat.add INR]; lra|].
  split; [unfold actual_outcome; cbn [d_revenue_per_kpi x_data ex_rich outcome_is_kpi andb negb x_kpi_is_revenue val2 x_kpi Nat.mul Nat.add INR]; lra|].
  split.
  { unfold request_ok. cbv zeta. split; [intros t [<-|[]]; right; left; reflexivity|].
    split; [apply NoDup_cons; [intros []|apply NoDup_nil]|]. split; [intros t []|]. split; [apply NoDup_nil|].
    split; [intros _; right; lia|]. split; [left; reflexivity|cbn; lia]. }
  split; [|reflexivity]. intros (_ & _ & _ & N & _). inversion N as [|? ? H _]. apply H. left. reflexivity.
Qed.
