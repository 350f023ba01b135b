(** Properties C95 and C96: the tables of [MediaSummary] and the calls that produce them. *)
From Coq Require Import Reals ZArith Lia Lra String List Bool Arith Permutation Sorted.
From Verif Require Import Lib_Sum Lib_Sort M_Base M_AdstockHill M_Equations M_Transformers M_Aggregate
  S_Aggregate S_Adstock S_Media S_Analyzer M_Analyzer S_Predictor S_Paid C_Analyzer C_Predictor C_Paid M_Stats S_Stats M_Summary
  S_Roi C_Roi S_Summary P_Summary P_Contribution C_Summary M_MediaSummary S_MediaSummary P_MediaSummary P_MediaCalls
  P_MediaTables.
Import ListNotations.
Local Open Scope R_scope.
Local Open Scope string_scope.
Local Open Scope list_scope.

(** ** C95: the table of contributions.  For the paid channels each row is the posterior mean of what
    the channel adds; the baseline is the rest. *)
Theorem C95_paid : forall l o f g at' selected,
  unchanged_object l o f g -> media_request f g at' ->
  Forall (fun a => In a (f_paid_names f ++ ["All Channels"])) (rows_shown (f_paid_names f) selected) ->
  exists T out, answer l (AContribution o selected false at') = RTable (Ok T) /\
    contribution_table f g at' (rows_shown (f_paid_names f) selected) out T /\
    forall r j, is_row (f_x f) r -> (j < n_periods f g at')%nat ->
      out j (nth (row (f_x f) r) (f_paid_names f ++ ["All Channels"]) "") = mean_gain f g at' r j.
Proof.
  intros l o f g at' sel U V S. destruct (paid_lemma f g at' V) as (s & pct & out & Hs & _ & Hch & Ht & Hpc & Hinc & Hpct & Ho).
  destruct (build f g at' V false s pct out Hs Hch Ht Hpc Hinc Hpct sel S) as (T & ET & HT).
  exists T, (out_of f false out). split; [rewrite (proj2 (answer_right l o f g U)), ET; reflexivity|].
  split; [exact HT|]. intros r j Hr Hj. rewrite <- (Ho j r Hj Hr).
  apply (out_of_nth f g at' V false out j (row (f_x f) r)). cbn [np_names]. rewrite (sr_names _ _ _ _ _ _ (mr_paid _ _ _ V)).
  destruct r as [ch|]; [|apply le_n]. cbn [row]. destruct ch; cbn in Hr |- *; try contradiction; unfold n_paid; lia.
Qed.
Print Assumptions C95_paid.

(** With the other treatments, the rows are the means of the summary of all channels and the
    outcome they leave is the mean of the table of the baseline. *)
Theorem C95_all : forall l o f g at' selected,
  unchanged_object l o f g -> media_request f g at' ->
  let names := f_paid_names f ++ f_other_names f in
  Forall (fun a => In a (names ++ ["All Channels"])) (rows_shown names selected) ->
  exists T out s b, answer l (AContribution o selected true at') = RTable (Ok T) /\
    answer l (AGet true o (Keyword at')) = RSummary (Ok s) /\
    baseline_summary_metrics f None (dates g) true at' (g_baseline g) (g_use_kpi g) (g_level g) 100 = Ok b /\
    contribution_table f g at' (rows_shown names selected) out T /\
    forall j, (j < n_periods f g at')%nat ->
      (forall c, (c <= length names)%nat -> exists st, sm_incremental s true (position at' j ++ [c]) = Some st /\
         out j (nth c (names ++ ["All Channels"]) "") = st_mean st) /\
      out j "All Channels" = lsum (map (out j) names) /\
      exists st, bs_outcome b true (position at' j) = Some st /\
        st_mean st = expected f g at' j - out j "All Channels".
Proof.
  intros l o f g at' sel U V names S.
  destruct (all_lemma f g at' V) as (s & b & pct & out & Hs & Hb & Hch & Ht & Hpc & Hst & Hpct & Hsum).
  assert (Hinc : forall j c, (j < n_periods f g at')%nat -> (c <= length (np_names f true))%nat ->
    mean_at (sm_incremental s true) (position at' j ++ [c]) = Some (out j c)).
  { intros j c Hj Hc. destruct (Hst j c Hj Hc) as (st & E1 & E2). unfold mean_at. rewrite E1, E2. reflexivity. }
  destruct (build f g at' V true s pct out Hs Hch Ht Hpc Hinc Hpct sel S) as (T & ET & HT).
  exists T, (out_of f true out), s, b. split; [rewrite (proj2 (answer_right l o f g U)), ET; reflexivity|].
  split; [rewrite (proj1 (answer_right l o f g U)); cbn [aggregated]; rewrite Hs; reflexivity|].
  split; [exact Hb|]. split; [exact HT|]. intros j Hj. destruct (Hsum j Hj) as (S1 & st & S2 & S3). split; [|split].
  - intros c Hc. destruct (Hst j c Hj Hc) as (st' & E1 & E2). exists st'. split; [exact E1|]. rewrite <- E2.
    exact (out_of_nth f g at' V true out j c Hc).
  - symmetry. exact (out_sum f g at' V true out j S1).
  - exists st. split; [exact S2|]. rewrite (out_of_all f g at' V true out j).
    change (expected f g at' j) with (E_ f g at' j). rewrite <- S3. ring.
Qed.
Print Assumptions C95_all.

(** With no selection of channels, the shares of a period add up to one, and the outcomes to what the model
    expects. *)
Lemma paid_sum : forall f g at' out j, media_request f g at' -> (j < n_periods f g at')%nat ->
  (forall r, is_row (f_x f) r -> out j (row (f_x f) r) = mean_gain f g at' r j) ->
  out j (n_paid (f_x f)) = rsum (n_paid (f_x f)) (fun c => out j c).
Proof.
  intros f g at' out j V Hj H. change (n_paid (f_x f)) with (row (f_x f) None) at 1.
  rewrite (H None Logic.I), gain_sum. unfold in_row, n_paid. rewrite rsum_app. f_equal.
  - apply rsum_ext. intros c Hc. rewrite <- (H (Some (ChMedia c))); [reflexivity|exact Hc].
  - apply rsum_ext. intros c Hc. rewrite <- (H (Some (ChRf c))); [reflexivity|exact Hc].
Qed.
Theorem C95_adds_up : forall l o f g at' include_non_paid,
  unchanged_object l o f g -> media_request f g at' ->
  exists T, answer l (AContribution o None include_non_paid at') = RTable (Ok T) /\
    forall j, (j < n_periods f g at')%nat -> expected f g at' j <> 0 ->
      lsum (map (fun r => number (c_pct r)) (rows_of (period_label f g at' j) T)) = 1 /\
      ((forall r, In r T -> c_outcome r <> None) ->
       lsum (map (fun r => number (c_outcome r)) (rows_of (period_label f g at' j) T)) = expected f g at' j).
Proof.
  intros l o f g at' np U V. destruct np.
  - destruct (C95_all l o f g at' None U V) as (T & out & s & b & A1 & _ & _ & HT & K).
    { apply Forall_forall. intros a Ha. apply in_or_app. left. exact Ha. }
    exists T. split; [exact A1|]. intros j Hj He. destruct (K j Hj) as (_ & K2 & _).
    exact (adds_up f g at' _ out T j V HT (eq_sym K2) Hj He).
  - destruct (paid_lemma f g at' V) as (s & pct & out & Hs & _ & Hch & Ht & Hpc & Hinc & Hpct & Ho).
    assert (Sel : Forall (fun a => In a (np_names f false ++ [ALL_CHANNELS])) (rows_shown (np_names f false) None)).
    { apply Forall_forall. intros a Ha. apply in_or_app. left. exact Ha. }
    destruct (build f g at' V false s pct out Hs Hch Ht Hpc Hinc Hpct None Sel) as (T & ET & HT).
    exists T. split; [rewrite (proj2 (answer_right l o f g U)), ET; reflexivity|]. intros j Hj He.
    apply (adds_up f g at' _ (out_of f false out) T j V HT); [|exact Hj|exact He].
    apply (out_sum f g at' V false out j). cbn [np_names]. rewrite (sr_names _ _ _ _ _ _ (mr_paid _ _ _ V)).
    apply (paid_sum f g at' out j V Hj). intros r Hr. exact (Ho j r Hj Hr).
Qed.
Print Assumptions C95_adds_up.

(** A channel the table does not have is refused. *)
Theorem C95_unknown : forall l o f g at' (include_non_paid : bool) selected,
  unchanged_object l o f g -> media_request f g at' -> selected <> [] ->
  ~ Forall (fun a => In a ((f_paid_names f ++ if include_non_paid then f_other_names f else []) ++ ["All Channels"])) selected ->
  answer l (AContribution o (Some selected) include_non_paid at') = RTable (Err KeyError).
Proof.
  intros l o f g at' np [|a sel] U V Hn Hu; [congruence|]. rewrite (proj2 (answer_right l o f g U)). f_equal.
  destruct np.
  - destruct (all_lemma f g at' V) as (s & b & pct & out & Hs & Hb & Hch & Ht & Hpc & _).
    exact (build_unknown f g at' V true s pct Hs Hch Hpc a sel Hu).
  - destruct (paid_lemma f g at' V) as (s & pct & out & Hs & _ & Hch & Ht & Hpc & _).
    rewrite app_nil_r in Hu. exact (build_unknown f g at' V false s pct Hs Hch Hpc a sel Hu).
Qed.
Print Assumptions C95_unknown.

(** The chart of spend and contribution: for every paid channel its share of the outcome the paid
    channels add, its share of their spend, its return, and its return on the scale of the shares. *)
Theorem C95_spend : forall l o f g, unchanged_object l o f g -> media_request f g true ->
  let gain r := mean_gain f g true r 0 in
  let cost r := row_spend f no_new None (dates g) true true r 0 0 in
  gain None <> 0 -> cost None <> 0 -> (forall ch, is_paid (f_x f) ch -> cost (Some ch) <> 0) ->
  exists s rows, answer l (AGet false o Default) = RSummary (Ok s) /\
    spend_table (new_media_summary f g) s = Ok rows /\
    length rows = (2 * n_paid (f_x f))%nat /\
    (forall ch, is_paid (f_x f) ch -> let c := channel_index (f_x f) ch in exists u v,
       nth_error rows c = Some u /\ nth_error rows (n_paid (f_x f) + c) = Some v /\
       v_channel u = nth c (f_paid_names f) "" /\ v_channel v = v_channel u /\
       v_label u = (if outcome_is_kpi (f_x f) (g_use_kpi g) then "% KPI" else "% Revenue") /\ v_label v = "% Spend" /\
       v_pct u = Some (gain (Some ch) / gain None) /\ v_pct v = Some (cost (Some ch) / cost None) /\
       v_roi u = Some (gain (Some ch) / cost (Some ch)) /\ v_roi v = v_roi u) /\
    (forall M k, is_largest M (map (fun r => number (v_pct r)) rows) ->
       is_largest k (map (fun r => number (v_roi r)) rows) -> k <> 0 ->
       forall r, In r rows -> v_roi_scaled r = Some (number (v_roi r) * (M / k))).
Proof.
  intros l o f g U V gain cost Hg Hc Hs.
  destruct (spend_lemma f g V Hg Hc Hs) as (s & rows & E1 & E2 & E3 & E4 & E5).
  exists s, rows. split; [rewrite (proj1 (answer_right l o f g U)); cbn [aggregated]; rewrite E1; reflexivity|].
  split; [exact E2|]. split; [exact E3|]. split; [|exact E5].
  intros ch Hr c. destruct (E4 ch Hr) as (u & v & P1 & P2 & P3 & P4 & P5 & P6 & P7 & P8 & P9 & P10).
  exists u, v. split; [exact P1|]. split; [exact P2|]. split; [exact P3|]. split; [exact P4|].
  split; [|repeat (split; [assumption|]); assumption]. rewrite P5.
  assert (Same : g_use_kpi (ms_settings (new_media_summary f g)) = outcome_is_kpi (f_x f) (g_use_kpi g)).
  { cbn [ms_settings new_media_summary g_use_kpi]. pose proof (mr_units _ _ _ V) as Un. unfold resolve_use_kpi, outcome_is_kpi.
    destruct (d_revenue_per_kpi (x_data (f_x f))), (x_kpi_is_revenue (f_x f)), (g_use_kpi g); cbn; try reflexivity;
      exfalso; exact (Un eq_refl eq_refl). }
  rewrite Same. reflexivity.
Qed.
Print Assumptions C95_spend.

(** *** Concrete cases *)
Definition ex_settings (times : option (list string)) : settings := mkSettings (9 / 10) times true None false.
Definition ex_with (d : draw) : fitted :=
  mkFitted ex_rich (mkSpend (Some (ex_spend3 2)) (Some (ex_spend3 1)))
    ["tv"; "radio"; "video"]%string ["blog"; "search"; "price"]%string [d; d] [d].
Lemma ex_media_request : forall d times at', draw_ok ex_rich d -> times_ok ex_rich (option_map TDates times) ->
  (forall l, times = Some l -> NoDup l) -> media_request (ex_with d) (ex_settings times) at'.
Proof.
  destruct C58_example as (W & _ & _ & _ & N & T & _). destruct N as (N1 & N2 & N3 & N4).
  intros d times at' D Ht Hd.
  assert (D' : forall p, Forall (draw_ok ex_rich) (f_draws (ex_with d) p)).
  { intros []; unfold f_draws, f_prior, f_posterior, ex_with; repeat (apply Forall_cons; [exact D|]); apply Forall_nil. }
  assert (P : paid_nonneg ex_rich no_data).
  { refine (conj _ (conj _ _)); unfold nonneg, given; cbn; intros; try apply pos_INR.
    all: try (pose proof (pos_INR t); lra). }
  constructor.
  - constructor; auto; try lia; try (cbn; lra); try discriminate; try exact Logic.I.
    + intros []; discriminate.
    + unfold paid_data_ok, fits, fits2, same_shape; cbn; tauto.
    + split; cbn; auto.
    + cbn. repeat constructor; cbn; intuition congruence.
  - constructor; auto; try lia; try (cbn; lra); try discriminate; try exact Logic.I.
    + intros []; discriminate.
    + cbn. repeat constructor; cbn; intuition congruence.
    + cbn. repeat constructor; cbn; intuition congruence.
    + unfold dates. destruct times as [l|]; cbn; [exact (Hd l eq_refl)|exact Logic.I].
  - cbn. repeat constructor; cbn; intuition congruence.
  - cbn. discriminate.
Qed.
Definition ex_beta (b : R) : draw :=
  mkDraw (fun _ => 0) (fun _ => 0) (ex_params 2) (ex_params 1) (ex_params 1) (ex_params 1)
    (fun _ c => b * INR c) (fun _ _ => 0) (fun _ _ => 0) (fun _ _ => 0) (fun _ _ => 0) (fun _ _ => 0).
Lemma ex_beta_ok : forall b, draw_ok ex_rich (ex_beta b).
Proof.
  intros b. unfold draw_ok. cbn.
  refine (conj _ (conj _ (conj _ (conj _ (conj _ (conj _ (conj _ _))))))); try congruence; apply ex_params_ok.
Qed.
Lemma ex_mean : k_mean (kpi_tr ex_rich) > 0.
Proof.
  cbn [k_mean kpi_tr kpi_init]. unfold mean_gt, divide_no_nan. cbn [geos2 times2 val2 x_kpi ex_rich rsum x_population Nat.add Nat.mul].
  cbn [INR]. repeat destruct (Req_EM_T _ _); lra.
Qed.
Lemma ex_stdev : k_stdev (kpi_tr ex_rich) > 0.
Proof.
  cbn [k_stdev kpi_tr kpi_init]. unfold std_gt. apply sqrt_lt_R0.
  unfold mean_gt, divide_no_nan. cbn [geos2 times2 val2 x_kpi ex_rich rsum x_population Nat.add Nat.mul].
  cbn [INR]. repeat destruct (Req_EM_T _ _); lra.
Qed.
Lemma ex_term0 : forall b f by_reach g t, paid_term ex_rich no_data (ex_beta b) (ChMedia 0) f None by_reach g t = 0.
Proof. intros. unfold paid_term, channel_term. cbn. ring. Qed.
Lemma ex_term_rf : forall b f by_reach g t, paid_term ex_rich no_data (ex_beta b) (ChRf 0) f None by_reach g t = 0.
Proof. intros. unfold paid_term, channel_term. destruct by_reach; cbn; ring. Qed.
Lemma ex_term1 : forall b f by_reach g t, (t < 2)%nat ->
  exists K, K > 0 /\ paid_term ex_rich no_data (ex_beta b) (ChMedia 1) f None by_reach g t = b * f * K.
Proof.
  intros b f br g t Ht. unfold paid_term, channel_term.
  cbn [given d_media treatment paid_model x_data ex_rich w_beta_gm ex_beta].
  assert (Pg : forall n, 0 < INR (g + n + 1)) by (intros n; apply lt_0_INR; lia).
  destruct t as [|[|t]]; [| |lia].
  - exists ((INR (g + 1 + 1) / 2 + INR (g + 0 + 1) / 4) * 4 / 7).
    pose proof (Pg 1%nat). pose proof (Pg 0%nat). split; [lra|].
    cbn -[INR]; unfold lagged_average, documented_weight, past, window; cbn -[INR].
    change (Nat.min (Pos.to_nat 2 + 1) 3) with 3%nat. cbn [rsum documented_decay Nat.leb]. change (INR 1) with 1. field.
  - exists ((INR (g + 2 + 1) / 2 + INR (g + 1 + 1) / 4 + INR (g + 0 + 1) / 8) * 4 / 7).
    pose proof (Pg 2%nat). pose proof (Pg 1%nat). pose proof (Pg 0%nat). split; [lra|].
    cbn -[INR]; unfold lagged_average, documented_weight, past, window; cbn -[INR].
    change (Nat.min (Pos.to_nat 2 + 1) 3) with 3%nat. cbn [rsum documented_decay Nat.leb]. change (INR 1) with 1. field.
Qed.
Lemma ex_gain : forall b, exists K, K > 0 /\
  mean_gain (ex_with (ex_beta b)) (ex_settings None) true None 0 = b * K.
Proof.
  intros b. unfold mean_gain, posterior_mean. cbn [f_posterior ex_with map lsum length INR].
  unfold row_gain, in_row. cbn [f_x ex_with].
  change (cell_geos (ex_with (ex_beta b)) None true 0) with [0; 1]%nat.
  change (cell_times (ex_with (ex_beta b)) (dates (ex_settings None)) true 0) with [0; 1]%nat.
  cbn [n_chans d_media d_reach x_data ex_rich chans ex_media ex_reach rsum].
  unfold outcome_change, total. cbn [map lsum nt_data no_new]. rewrite !ex_term0, !ex_term_rf.
  destruct (ex_term1 b 1 true 0 0 ltac:(lia)) as (K1 & P1 & E1). destruct (ex_term1 b 1 true 0 1 ltac:(lia)) as (K2 & P2 & E2).
  destruct (ex_term1 b 1 true 1 0 ltac:(lia)) as (K3 & P3 & E3). destruct (ex_term1 b 1 true 1 1 ltac:(lia)) as (K4 & P4 & E4).
  destruct (ex_term1 b 0 true 0 0 ltac:(lia)) as (L1 & _ & F1). destruct (ex_term1 b 0 true 0 1 ltac:(lia)) as (L2 & _ & F2).
  destruct (ex_term1 b 0 true 1 0 ltac:(lia)) as (L3 & _ & F3). destruct (ex_term1 b 0 true 1 1 ltac:(lia)) as (L4 & _ & F4).
  change (nt_data no_new) with no_data. rewrite E1, E2, E3, E4, F1, F2, F3, F4.
  pose proof ex_stdev as Sd. set (k := k_stdev (kpi_tr ex_rich)) in *.
  unfold outcome_per_unit. change (k_stdev (kpi_tr (paid_model ex_rich no_data))) with k.
  cbn -[INR k]. exists (k * 3 * ((K1 + K2) + 2 * (K3 + K4))). split.
  - apply Rmult_gt_0_compat; [lra|lra].
  - cbn [INR]. field.
Qed.
Lemma ex_expected : expected (ex_with (ex_beta 0)) (ex_settings None) true 0 > 0.
Proof.
  unfold expected, mean_outcome. cbn [f_draws f_posterior ex_with map lsum length INR].
  change (cell_geos (ex_with (ex_beta 0)) None true 0) with [0; 1]%nat.
  change (cell_times (ex_with (ex_beta 0)) (dates (ex_settings None)) true 0) with [0; 1]%nat.
  unfold outcome_total, total. cbn [map lsum nt_data no_new f_x ex_with].
  assert (Z : forall g t, predictor ex_rich no_data (ex_beta 0) g t = 0).
  { intros g t. unfold predictor, over, over2.
    cbn [given d_media d_reach d_frequency d_organic_media d_organic_reach d_organic_frequency d_controls d_non_media
         no_data x_data ex_rich w_tau_g w_mu_t w_beta_gm w_beta_grf w_beta_gom w_beta_gorf w_gamma_gc w_gamma_gn ex_beta
         chans ex_media ex_reach ex_price rsum]. ring. }
  change (nt_data no_new) with no_data. rewrite !Z. unfold outcome_in_units. pose proof ex_mean as M.
  set (k := k_mean (kpi_tr ex_rich)) in *. cbn -[INR k]. cbn [INR]. lra.
Qed.
(** Two objects; the first one's settings are changed, the second one's are not. *)
Definition ex_history (d : draw) (times : option (list string)) : list action :=
  [ANew (ex_with d) (ex_settings None); ANew (ex_with d) (ex_settings times); AGet false 0 Default;
   AUpdate 0 None (Some ["2024-01-01"]) false None; AContribution 1 None true false].
Lemma ex_unchanged : forall d times, unchanged_object (ex_history d times) 1 (ex_with d) (ex_settings times).
Proof.
  intros d times. exists [ANew (ex_with d) (ex_settings None)],
    [AGet false 0 Default; AUpdate 0 None (Some ["2024-01-01"]) false None; AContribution 1 None true false].
  split; [reflexivity|]. split; [reflexivity|]. repeat constructor; cbn; try tauto. lia.
Qed.
Lemma ex_one_date : NoDup ["2024-01-08"].
Proof. repeat constructor. cbn. tauto. Qed.
Lemma ex_one_date_ok : times_ok ex_rich (option_map TDates (Some ["2024-01-08"])).
Proof. apply Forall_cons; [right; left; reflexivity|apply Forall_nil]. Qed.
Example C95_example :
  unchanged_object (ex_history ex_rich_draw (Some ["2024-01-08"])) 1 (ex_with ex_rich_draw) (ex_settings (Some ["2024-01-08"])) /\
  media_request (ex_with ex_rich_draw) (ex_settings (Some ["2024-01-08"])) false /\
  n_periods (ex_with ex_rich_draw) (ex_settings (Some ["2024-01-08"])) false = 1%nat /\
  Forall (fun a => In a (f_paid_names (ex_with ex_rich_draw) ++ ["All Channels"])) ["radio"; "All Channels"] /\
  ~ Forall (fun a => In a (f_paid_names (ex_with ex_rich_draw) ++ ["All Channels"])) ["radio"; "blog"].
Proof.
  split; [apply ex_unchanged|]. split.
  { apply ex_media_request; [exact (proj1 (proj2 C58_example))|exact ex_one_date_ok|].
    intros l E. inversion E. exact ex_one_date. }
  split; [reflexivity|]. split.
  { apply Forall_cons; [cbn; auto|apply Forall_cons; [cbn; auto|apply Forall_nil]]. }
  intros H. inversion H as [|? ? _ H2]; subst. inversion H2 as [|? ? H3 _]; subst. cbn in H3. intuition discriminate.
Qed.
Example C95_spend_example :
  let f := ex_with (ex_beta 1) in let g := ex_settings None in
  unchanged_object (ex_history (ex_beta 1) None) 1 f g /\ media_request f g true /\
  mean_gain f g true None 0 <> 0 /\ row_spend f no_new None (dates g) true true None 0 0 <> 0 /\
  (forall ch, is_paid (f_x f) ch -> row_spend f no_new None (dates g) true true (Some ch) 0 0 <> 0).
Proof.
  intros f g. split; [apply ex_unchanged|]. split; [apply ex_media_request; [apply ex_beta_ok|exact Logic.I|discriminate]|].
  split; [destruct (ex_gain 1) as (K & P & E); unfold f, g; rewrite E; lra|].
  split.
  - unfold row_spend, in_row, channel_spend, kind_spend, spend_used, given_spend, total. cbn. lra.
  - intros [c|c|c|c|c] H; cbn in H; try contradiction.
    + destruct c as [|[|c]]; [| |lia]; unfold row_spend, in_row, channel_spend, kind_spend, spend_used, given_spend, total; cbn; lra.
    + destruct c as [|c]; [|lia]. unfold row_spend, in_row, channel_spend, kind_spend, spend_used, given_spend, total; cbn; lra.
Qed.

(** Refuted: the baseline's outcome is always in the table.  The code finds the total by dividing the
    outcome of the media by their share: with media that add nothing, 0 / 0. *)
Theorem C95_baseline_present_refuted : exists l o f g T r, unchanged_object l o f g /\ media_request f g true /\
  0 < expected f g true 0 /\ answer l (AContribution o None false true) = RTable (Ok T) /\
  In r T /\ c_channel r = "baseline" /\ c_pct r = Some 1 /\ c_outcome r = None.
Proof.
  set (f := ex_with (ex_beta 0)). set (g := ex_settings None).
  assert (U : unchanged_object (ex_history (ex_beta 0) None) 1 f g) by apply ex_unchanged.
  assert (V : media_request f g true) by (apply ex_media_request; [apply ex_beta_ok|exact Logic.I|discriminate]).
  destruct (C95_paid _ 1%nat f g true None U V) as (T & out & A & HT & Ho).
  { apply Forall_forall. intros a Ha. apply in_or_app. left. exact Ha. }
  destruct (period_rows f g true _ out T 0 V HT ltac:(cbn; lia)) as (base & chan & _ & B1 & _ & B2 & _ & B3 & B4).
  assert (Z : out 0%nat "All Channels" = 0).
  { transitivity (mean_gain f g true None 0); [exact (Ho None 0%nat Logic.I ltac:(cbn; lia))|].
    destruct (ex_gain 0) as (K & _ & E). unfold f, g. rewrite E. ring. }
  assert (E : expected f g true 0 > 0) by exact ex_expected.
  exists (ex_history (ex_beta 0) None), 1%nat, f, g, T, base.
  split; [exact U|]. split; [exact V|]. split; [exact E|]. split; [exact A|]. split; [exact B4|]. split; [exact B1|].
  assert (Ne : expected f g true 0 <> 0) by lra. split.
  - rewrite (proj1 (B2 Ne)), Z. f_equal. field. exact Ne.
  - exact (B3 Ne Z).
Qed.
Print Assumptions C95_baseline_present_refuted.

(** ** C96: repeated calls.  An object whose settings were not changed answers by its settings,
    whatever calls are made before, of this and of other objects. *)
Theorem C96_current : forall l o f g include_non_paid a,
  unchanged_object l o f g ->
  (x_kpi_is_revenue (f_x f) = true -> d_revenue_per_kpi (x_data (f_x f)) <> None) ->
  answer l (AGet include_non_paid o a) =
    RSummary (summary_metrics f no_new (if include_non_paid then true else g_by_reach g) (1 / 100) None (dates g) true
      (aggregated a) None (g_use_kpi g) (g_level g) 100 include_non_paid (if include_non_paid then g_baseline g else None)).
Proof.
  intros l o f g np a U Un. rewrite (proj1 (answer_right l o f g U)). f_equal. unfold compute, compute_all, compute_paid.
  destruct np; cbn [ms_model ms_settings new_media_summary g_by_reach g_use_kpi g_times g_level g_baseline];
    apply summary_units; apply resolve_twice; exact Un.
Qed.
Print Assumptions C96_current.

(** Whatever happens, an answer is the answer by settings the object had at some moment. *)
Theorem C96_some_moment : forall l o include_non_paid a s,
  answer l (AGet include_non_paid o a) = RSummary (Ok s) ->
  exists l1 l2 m, l = l1 ++ l2 /\ nth_error (w_objects (after l1)) o = Some m /\
    compute include_non_paid m (aggregated a) = Ok s.
Proof.
  intros l o np a s H. unfold answer, perform in H. destruct (nth_error (w_objects (after l)) o) as [m|] eqn:E; [|discriminate].
  destruct (get_spec np (after l) o m a) as (_ & _ & [G|(s' & G & Q)]).
  - destruct (get np (after l) o m a) as [r w]. cbn [fst] in *. exists l, [], m.
    rewrite app_nil_r. split; [reflexivity|]. split; [exact E|]. congruence.
  - destruct (get np (after l) o m a) as [r w]. cbn [fst] in *. assert (s' = s) by congruence. subst s'.
    destruct (Q (right_once l) (once_state l)) as (l1 & l2 & m' & P). exists l1, l2, m'. exact P.
Qed.
Print Assumptions C96_some_moment.

(** The results kept are bounded in number, over any history. *)
Theorem C96_bounded : forall l, (length (w_paid (after l)) <= 128)%nat /\ (length (w_all (after l)) <= 128)%nat.
Proof. exact sizes. Qed.
Print Assumptions C96_bounded.

(** A call that is repeated after changes of settings, of whatever kind, returns the old result. *)
Definition is_update (a : action) : Prop := match a with AUpdate _ _ _ _ _ => True | _ => False end.
Lemma hit_get : forall np w o m a s, lookup (o, a) (if (np : bool) then w_all w else w_paid w) = Some s ->
  fst (get np w o m a) = Ok s.
Proof. intros [] w o m a s H; unfold get, cached; rewrite H; reflexivity. Qed.
Lemma key_eqb_refl : forall k, key_eqb k k = true.
Proof. intros k. apply key_eqb_iff. reflexivity. Qed.
Theorem C96_stale : forall l o include_non_paid a s changes,
  answer l (AGet include_non_paid o a) = RSummary (Ok s) -> Forall is_update changes ->
  answer (l ++ AGet include_non_paid o a :: changes) (AGet include_non_paid o a) = RSummary (Ok s).
Proof.
  intros l o np a s changes H F.
  assert (K : lookup (o, a) (if (np : bool) then w_all (after (l ++ AGet np o a :: changes)) else w_paid (after (l ++ AGet np o a :: changes))) = Some s /\
              exists m, nth_error (w_objects (after (l ++ AGet np o a :: changes))) o = Some m).
  { induction changes as [|c changes IH] using rev_ind.
    - rewrite after_snoc. unfold answer, perform in *. destruct (nth_error (w_objects (after l)) o) as [m|] eqn:E; [|discriminate].
      destruct (get_spec np (after l) o m a) as (G & _). unfold get, cached in *. destruct np.
      + destruct (lookup (o, a) (w_all (after l))) as [s'|] eqn:L.
        * cbn [fst snd w_all w_objects] in *. split; [|exists m; exact E]. cbn [lookup]. rewrite key_eqb_refl. congruence.
        * destruct (compute_all m (aggregated a)) as [s'|e]; [|discriminate]. cbn [fst snd w_all w_objects] in *.
          split; [|exists m; exact E]. unfold MAXSIZE. cbn [firstn lookup]. rewrite key_eqb_refl. congruence.
      + destruct (lookup (o, a) (w_paid (after l))) as [s'|] eqn:L.
        * cbn [fst snd w_paid w_objects] in *. split; [|exists m; exact E]. cbn [lookup]. rewrite key_eqb_refl. congruence.
        * destruct (compute_paid m (aggregated a)) as [s'|e]; [|discriminate]. cbn [fst snd w_paid w_objects] in *.
          split; [|exists m; exact E]. unfold MAXSIZE. cbn [firstn lookup]. rewrite key_eqb_refl. congruence.
    - apply Forall_app in F. destruct F as [F1 F2]. specialize (IH F1). destruct IH as (I1 & m & I2).
      replace (l ++ AGet np o a :: changes ++ [c]) with ((l ++ AGet np o a :: changes) ++ [c]) by (rewrite <- app_assoc; reflexivity).
      rewrite after_snoc. set (w := after (l ++ AGet np o a :: changes)) in *.
      inversion F2 as [|? ? Fc _]; subst. destruct c as [| p lv ts br bl | |]; cbn in Fc; try contradiction.
      assert (Q : w_all (snd (perform w (AUpdate p lv ts br bl))) = w_all w /\ w_paid (snd (perform w (AUpdate p lv ts br bl))) = w_paid w).
      { unfold perform. destruct (nth_error (w_objects w) p); split; reflexivity. }
      destruct Q as [-> ->]. split; [exact I1|]. rewrite perform_objects.
      destruct (nth_error (w_objects w) p) as [m'|] eqn:E; [|exists m; exact I2].
      destruct (nth_error (set_nth (w_objects w) p (update m' lv ts br bl)) o) as [m2|] eqn:E2; [exists m2; reflexivity|].
      exfalso. apply nth_error_None in E2. rewrite set_nth_length in E2.
      assert (o < length (w_objects w))%nat by (apply nth_error_Some; congruence). lia. }
  destruct K as (K1 & m & K2). unfold answer, perform. rewrite K2.
  pose proof (hit_get np (after (l ++ AGet np o a :: changes)) o m a s K1) as G.
  destruct (get np (after (l ++ AGet np o a :: changes)) o m a) as [r w]. cbn [fst] in G. subst. reflexivity.
Qed.
Print Assumptions C96_stale.

(** Refuted: after [update_summary_metrics] the object answers by its new settings, and the call
    means the same however its argument is passed. *)
Lemma ex_draw_ok : draw_ok ex_rich ex_rich_draw.
Proof. exact (proj1 (proj2 C58_example)). Qed.
Definition ex_now : fitted := ex_with ex_rich_draw.
Lemma ex_request_now : forall at', media_request ex_now (ex_settings None) at' /\
  media_request ex_now (ex_settings (Some ["2024-01-08"])) at'.
Proof.
  intros at'. split; apply ex_media_request; try exact ex_draw_ok.
  - exact Logic.I.
  - discriminate.
  - exact ex_one_date_ok.
  - intros l E. inversion E. exact ex_one_date.
Qed.
Theorem C96_update_effective_refuted : exists f g times s s', let l := [ANew f g; AGet false 0 (Keyword false);
    AUpdate 0 None (Some times) (g_by_reach g) (g_baseline g)] in
  media_request f g false /\
  media_request f (mkSettings (g_level g) (Some times) (g_by_reach g) (g_baseline g) (g_use_kpi g)) false /\
  answer l (AGet false 0 (Keyword false)) = RSummary (Ok s) /\ sm_time s = Some ["2024-01-01"; "2024-01-08"] /\
  answer l (AGet false 0 (Positional false)) = RSummary (Ok s') /\ sm_time s' = Some times /\ times = ["2024-01-08"].
Proof.
  destruct (ex_request_now false) as [V V'].
  destruct (paid_lemma ex_now (ex_settings None) false V) as (s & _ & _ & Hs & _ & _ & Ht & _).
  destruct (paid_lemma ex_now (ex_settings (Some ["2024-01-08"])) false V') as (s' & _ & _ & Hs' & _ & _ & Ht' & _).
  exists ex_now, (ex_settings None), ["2024-01-08"], s, s'. intros l. split; [exact V|]. split; [exact V'|].
  unfold compute in Hs, Hs'.
  assert (A1 : after [ANew ex_now (ex_settings None); AGet false 0 (Keyword false)]
    = mkState [new_media_summary ex_now (ex_settings None)] [((0%nat, Keyword false), s)] []).
  { unfold after. cbn [fold_left perform snd start w_objects w_paid w_all app nth_error get cached lookup aggregated].
    rewrite Hs. reflexivity. }
  assert (A : after l = mkState [new_media_summary ex_now (ex_settings (Some ["2024-01-08"]))] [((0%nat, Keyword false), s)] []).
  { unfold l. change [ANew ex_now (ex_settings None); AGet false 0 (Keyword false);
      AUpdate 0 None (Some ["2024-01-08"]) (g_by_reach (ex_settings None)) (g_baseline (ex_settings None))]
      with ([ANew ex_now (ex_settings None); AGet false 0 (Keyword false)] ++
        [AUpdate 0 None (Some ["2024-01-08"]) (g_by_reach (ex_settings None)) (g_baseline (ex_settings None))]).
    rewrite after_snoc, A1. reflexivity. }
  unfold answer. rewrite A. split; [reflexivity|]. split; [exact Ht|].
  cbn [perform w_objects nth_error get cached lookup w_paid key_eqb fst snd Nat.eqb form_eqb andb aggregated].
  rewrite Hs'. split; [reflexivity|]. split; [exact Ht'|reflexivity].
Qed.
Print Assumptions C96_update_effective_refuted.

(** Refuted: the table of contributions after a change covers the periods selected.  It has the
    channels for the old periods and the baseline for the new ones only. *)
Theorem C96_table_after_update_refuted : exists f g T, let l := [ANew f g; AGet true 0 (Keyword false);
    AUpdate 0 None (Some ["2024-01-08"]) (g_by_reach g) (g_baseline g)] in
  media_request f g false /\ answer l (AContribution 0 None true false) = RTable (Ok T) /\
  (exists r, In r T /\ c_time r = Some "2024-01-01" /\ c_channel r = "tv") /\
  (forall r, In r T -> c_channel r = "baseline" -> c_time r = Some "2024-01-08").
Proof.
  destruct (ex_request_now false) as [V _].
  destruct (all_lemma ex_now (ex_settings None) false V) as (s & b & pct & o & Hs & _ & Hch & Ht & Hpc & Hst & Hpct & _).
  assert (Hinc : forall j c, (j < n_periods ex_now (ex_settings None) false)%nat -> (c <= length (np_names ex_now true))%nat ->
    mean_at (sm_incremental s true) (position false j ++ [c]) = Some (o j c)).
  { intros j c Hj Hc. destruct (Hst j c Hj Hc) as (st & E1 & E2). unfold mean_at. rewrite E1, E2. reflexivity. }
  set (L := period_names (f_x ex_now) (dates (ex_settings None))) in *.
  assert (EL : L = ["2024-01-01"; "2024-01-08"]) by reflexivity.
  assert (Nd : NoDup (np_names ex_now true ++ [ALL_CHANNELS])) by exact (names_nodup ex_now (ex_settings None) false V true).
  destruct (shown_ok s (np_names ex_now true) L false 2 Hch Nd eq_refl None) as (ks & Ek & _ & Nk).
  { apply Forall_forall. intros a Ha. apply in_or_app. left. exact Ha. }
  cbn [shown_names] in Nk.
  assert (Ch : channel_rows s None = Ok (flat_map (fun p : option string * list nat => map (fun k =>
     mkCrow (fst p) (nth k (sm_channel s) "") (mean_at (sm_incremental s true) (snd p ++ [k]))
       (option_map (fun v => v / 100) (mean_at (pct true) (snd p ++ [k])))) ks)
       [(Some "2024-01-01", [0%nat]); (Some "2024-01-08", [1%nat])])).
  { unfold channel_rows. rewrite Hpc. cbn [rbind]. rewrite Ek. cbn [rbind]. unfold periods. rewrite Ht, EL. reflexivity. }
  set (rows := flat_map _ _) in Ch.
  assert (Ba : exists base, baseline_rows s (Some ["2024-01-08"]) (Some ["2024-01-08"]) = Ok [base] /\
    c_time base = Some "2024-01-08").
  { unfold baseline_rows. rewrite Hpc. cbn [rbind]. rewrite (all_found s (np_names ex_now true) L false 2 Hch Nd eq_refl). cbn [rbind].
    rewrite Ht, EL. eexists. split; [reflexivity|reflexivity]. }
  destruct Ba as (base & Eb & Tb).
  exists ex_now, (ex_settings None), (sort_rows false ([base] ++ rows)). intros l. split; [exact V|].
  unfold compute in Hs. split.
  - assert (A1 : after [ANew ex_now (ex_settings None); AGet true 0 (Keyword false)]
      = mkState [new_media_summary ex_now (ex_settings None)] [] [((0%nat, Keyword false), s)]).
    { unfold after. cbn [fold_left perform snd start w_objects w_paid w_all app nth_error get cached lookup aggregated].
      rewrite Hs. reflexivity. }
    unfold answer, l. change [ANew ex_now (ex_settings None); AGet true 0 (Keyword false);
      AUpdate 0 None (Some ["2024-01-08"]) (g_by_reach (ex_settings None)) (g_baseline (ex_settings None))]
      with ([ANew ex_now (ex_settings None); AGet true 0 (Keyword false)] ++
        [AUpdate 0 None (Some ["2024-01-08"]) (g_by_reach (ex_settings None)) (g_baseline (ex_settings None))]).
    rewrite after_snoc, A1. cbn [perform w_objects nth_error snd set_nth w_paid w_all].
    unfold contribution_metrics.
    cbn [get cached lookup w_all key_eqb fst snd Nat.eqb form_eqb andb Bool.eqb].
    rewrite Ch. cbn [chosen_labels update new_media_summary ms_settings g_times ms_model]. rewrite Eb. reflexivity.
  - assert (Base : forall r, In r (sort_rows false ([base] ++ rows)) <-> In r ([base] ++ rows)).
    { intros r. unfold sort_rows. apply isort_in. }
    split.
    + destruct ks as [|k0 ks]; [discriminate|]. eexists. split; [apply Base; right; unfold rows; cbn [flat_map map fst snd]; left; reflexivity|].
      cbn [c_time c_channel]. split; [reflexivity|]. rewrite Hch. cbn [map] in Nk.
      transitivity (hd "" (np_names ex_now true)); [exact (f_equal (hd "") Nk)|reflexivity].
    + intros r Hr Hb. apply Base in Hr. destruct Hr as [<-|Hr]; [exact Tb|]. exfalso. unfold rows in Hr.
      apply in_flat_map in Hr. destruct Hr as (p & _ & Hr). apply in_map_iff in Hr. destruct Hr as (k & <- & Hk).
      cbn [c_channel] in Hb. rewrite Hch in Hb.
      assert (Hin : In (nth k (np_names ex_now true ++ [ALL_CHANNELS]) "") (np_names ex_now true)).
      { rewrite <- Nk at 2. apply (in_map (fun k => nth k (np_names ex_now true ++ [ALL_CHANNELS]) "")). exact Hk. }
      rewrite Hb in Hin. cbn in Hin. intuition discriminate.
Qed.
Print Assumptions C96_table_after_update_refuted.
Example C96_example : forall d,
  unchanged_object (ex_history d None) 1 (ex_with d) (ex_settings None) /\
  Forall is_update [AUpdate 0 (Some (1 / 2)) None true None; AUpdate 1 None (Some ["2024-01-08"]) false None] /\
  exists s, answer (ex_history ex_rich_draw None) (AGet true 1 Default) = RSummary (Ok s).
Proof.
  intros d. split; [apply ex_unchanged|]. split; [repeat constructor|].
  destruct (ex_request_now true) as [V _].
  destruct (all_lemma ex_now (ex_settings None) true V) as (s & _ & _ & _ & Hs & _). exists s.
  rewrite (proj1 (answer_right _ _ _ _ (ex_unchanged ex_rich_draw None))). cbn [aggregated]. f_equal. exact Hs.
Qed.
