(** Proofs about the tables of contributions: all treatments plus the baseline make 100 percent. *)
From Coq Require Import Reals ZArith Lia Lra String List Bool Arith Permutation.
From Verif Require Import Lib_Sum M_Base M_AdstockHill M_Equations M_Transformers M_Aggregate
  S_Aggregate S_Adstock S_Media S_Analyzer M_Analyzer S_Predictor P_Aggregate P_Analyzer P_AnalyzerIO
  P_Predictor S_Paid P_Paid P_PaidMono M_Stats S_Stats P_Stats M_Summary S_Roi P_Roi S_Summary P_Summary.
From Verif Require P_Budget.
Import ListNotations.
Local Open Scope R_scope.

Lemma n_treatments_all : forall x, n_treatments x = n_all x.
Proof. intros x. unfold n_treatments, n_all. lia. Qed.

(** ** Impressions of all treatments *)
Lemma concat3_runs : forall G T l, l <> [] -> Forall (fun y => geos y = G /\ times y = T) l ->
  exists y, concat3 l = Ok y /\ geos y = G /\ times y = T /\ chans y = list_sum (map chans l).
Proof.
  intros G T l. induction l as [|y l IH]; intros Hne HF; [congruence|].
  apply Forall_cons_iff in HF. destruct HF as [[Hg Ht] HF]. destruct l as [|z l].
  - exists y. cbn. rewrite Nat.add_0_r. auto.
  - destruct IH as (r & Hr & Rg & Rt & Rc); [discriminate|exact HF|].
    change (concat3 (y :: z :: l)) with (rbind (concat3 (z :: l)) (fun w => append3 y w)).
    rewrite Hr. cbn [rbind]. rewrite append3_runs by congruence. eexists. split; [reflexivity|].
    cbn [geos times chans]. split; [exact Hg|]. split; [exact Ht|]. rewrite Rc. reflexivity.
Qed.

Lemma impressions_rf_runs : forall x r q, (1 <= x_n_times x <= x_n_media_times x)%nat -> paired r q ->
  dims r (x_n_geos x) (x_n_media_times x) -> dims q (x_n_geos x) (x_n_media_times x) ->
  exists l, impressions_rf (x_n_times x) r q = Ok l /\
    Forall (fun y => geos y = x_n_geos x /\ times y = x_n_times x) l /\ list_sum (map chans l) = n_chans r /\
    (r <> None -> l <> []).
Proof.
  intros x [r|] [q|] Wt Hp Hr Hq; cbn in Hp; try contradiction.
  - destruct Hr as [R1 R2], Hq as [Q1 Q2]. cbn [impressions_rf]. unfold times3. cbn [last_times geos times chans].
    rewrite R1, R2, Q1, Q2, Hp, !Nat.eqb_refl. cbn [andb rbind].
    eexists. split; [reflexivity|]. split; [|split; [cbn; lia|discriminate]].
    constructor; [cbn; split; [reflexivity|lia]|constructor].
  - exists []. split; [reflexivity|]. split; [constructor|]. split; [reflexivity|congruence].
Qed.

Lemma all_impressions_run : forall x gs ts ag at', well_formed x -> geos_ok x gs -> times_ok x ts ->
  exists I, get_aggregated_impressions x no_data gs ts ag at' None true = Ok I /\
    shape I = ((if ag then [] else [length (chosen_geos x gs)])
               ++ (if at' then [] else [length (chosen_times x ts)])) ++ [n_treatments x].
Proof.
  intros x gs ts ag at' W Hg Ht. unfold get_aggregated_impressions. cbv zeta. cbn [with_frequency].
  pose proof (wf_times x W) as Wt.
  set (d := fill_missing x no_data true false).
  assert (Ed : d_media d = d_media (x_data x) /\ d_reach d = d_reach (x_data x) /\
    d_frequency d = d_frequency (x_data x) /\ d_organic_media d = d_organic_media (x_data x) /\
    d_organic_reach d = d_organic_reach (x_data x) /\ d_organic_frequency d = d_organic_frequency (x_data x) /\
    d_non_media d = d_non_media (x_data x) /\ d_controls d = None /\ d_revenue_per_kpi d = d_revenue_per_kpi (x_data x)).
  { unfold d, fill_missing, no_data, orelse. cbn. auto 12. }
  destruct Ed as (E1 & E2 & E3 & E4 & E5 & E6 & E7 & E8 & E9).
  assert (M : get_modified_times x d = None).
  { unfold get_modified_times. cbv zeta. rewrite E1, E2, E3, E4, E5, E6, E7, E8, E9.
    assert (S3 : forall o, modified3 o o = None).
    { intros [y|]; [|reflexivity]. cbn. rewrite Nat.eqb_refl. reflexivity. }
    assert (S2 : forall o, modified2 o o = None).
    { intros [y|]; [|reflexivity]. cbn. rewrite Nat.eqb_refl. reflexivity. }
    rewrite !S3, S2. destruct (d_controls (x_data x)); reflexivity. }
  destruct (package_runs x d gs ts W M Hg Ht) as (i & -> & Gi & Rg & Ti & Rt). cbn [rbind]. rewrite M.
  rewrite E1, E2, E3, E4, E5, E6, E7.
  destruct (impressions_rf_runs x _ _ Wt (wf_rf x W) (wf_reach x W) (wf_freq x W)) as (rf & -> & F1 & S1 & N1).
  cbn [rbind].
  destruct (impressions_rf_runs x _ _ Wt (wf_orf x W) (wf_or x W) (wf_of x W)) as (orf & -> & F2 & S2 & N2).
  cbn [rbind].
  assert (Lm : forall o, dims o (x_n_geos x) (x_n_media_times x) ->
    Forall (fun y => geos y = x_n_geos x /\ times y = x_n_times x) (map (last_times (x_n_times x)) (opt_list o)) /\
    list_sum (map chans (map (last_times (x_n_times x)) (opt_list o))) = n_chans o).
  { intros [y|] Hd; [|split; [constructor|reflexivity]]. destruct Hd as [D1 D2]. cbn. split; [|lia].
    constructor; [cbn; split; [exact D1|lia]|constructor]. }
  destruct (Lm _ (wf_media x W)) as [F3 S3]. destruct (Lm _ (wf_om x W)) as [F4 S4].
  assert (F5 : Forall (fun y => geos y = x_n_geos x /\ times y = x_n_times x) (opt_list (d_non_media (x_data x))) /\
     list_sum (map chans (opt_list (d_non_media (x_data x)))) = n_chans (d_non_media (x_data x))).
  { pose proof (wf_nm x W) as Hd. destruct (d_non_media (x_data x)) as [y|]; [|split; [constructor|reflexivity]].
    cbn. split; [constructor; [exact Hd|constructor]|lia]. }
  destruct F5 as [F5 S5].
  destruct (concat3_runs (x_n_geos x) (x_n_times x)
    (map (last_times (x_n_times x)) (opt_list (d_media (x_data x))) ++ rf
      ++ map (last_times (x_n_times x)) (opt_list (d_organic_media (x_data x))) ++ orf
      ++ opt_list (d_non_media (x_data x)))) as (y & -> & Gy & Ty & Cy).
  { intros C. apply app_eq_nil in C. destruct C as [C1 C]. apply app_eq_nil in C. destruct C as [C2 _].
    destruct (wf_paid x W) as [P|P].
    - destruct (d_media (x_data x)); [discriminate|congruence].
    - exact (N1 P C2). }
  { rewrite !Forall_app. auto 10. }
  cbn [rbind]. rewrite !map_app, !list_sum_app, S1, S2, S3, S4, S5 in Cy.
  destruct (filter_media_lemma (counts x) (x_n_geos x) (x_n_times x) (times y) (chans y) (of3 y) []
              (i_geo i) (i_time i) ag at' true true) as (out & Ho & So & _).
  { cbn. rewrite Gy. reflexivity. }
  { rewrite Cy. unfold allowed_channel_dim, allowed_n_channels, counts. cbn.
    do 3 right. left. lia. }
  { exact Rg. } { rewrite Ty. exact Rt. } { reflexivity. }
  exists out. split; [exact Ho|].
  pose proof (chosen_geos_lemma _ _ _ Gi) as Eg. pose proof (chosen_times_lemma _ _ _ W Ht Ti) as Et.
  rewrite So. unfold dimension, n_treatments. rewrite Ty, Eg, Et, Cy. cbn [app]. rewrite <- app_assoc.
  do 3 f_equal. lia.
Qed.

Lemma lsum_nth : forall A (F : A -> R) l z, lsum (map F l) = rsum (length l) (fun k => F (nth k l z)).
Proof.
  intros A F l z. induction l as [|a l IH]; [reflexivity|]. cbn [map lsum length]. rewrite rsum_first, IH.
  reflexivity.
Qed.

Lemma user_labels_length : forall x ts, well_formed x -> times_ok x ts -> NoDup (x_time x) ->
  match ts with Some (TDates l) => NoDup l | Some (TBools _) => False | None => True end ->
  length (user_time_labels x ts) = length (chosen_times x ts).
Proof.
  intros x [[l|l]|] W Ht Hn Hd; cbn [user_time_labels chosen_times]; [|contradiction|].
  - rewrite (Permutation_length (filter_sublist_length (x_time x) l Hn Hd Ht)), map_length, (wf_time x W). reflexivity.
  - rewrite seq_length. apply wf_time. exact W.
Qed.

Section Contribution.
Variables (f : fitted) (baseline : option (list baseline_value)) (br : bool) (increase : R)
  (gs : option (list string)) (ts : option time_sel) (ag at' uk : bool) (level : R) (bs : Z).
Hypotheses (V : contribution_request f baseline gs ts at' level bs) (Hinc : 0 < increase).
Let x := f_x f.
Let N := n_treatments x.
Let lead := (if ag then [] else [length (chosen_geos x gs)]) ++ (if at' then [] else [length (chosen_times x ts)]).

Lemma full_request : forall f0 f1 b p, 0 <= f0 < f1 ->
  valid_request x (mkOptions f0 f1 gs ts None ag at' true (resolve_use_kpi x uk) b true baseline) bs (f_draws f p).
Proof.
  intros f0 f1 b p F. destruct V. constructor; cbn; auto; discriminate.
Qed.

Lemma full_aggregate : forall f0 f1 b p, 0 <= f0 < f1 ->
  exists I0 I, incremental_outcome x no_data
     (mkOptions f0 f1 gs ts None ag at' true (resolve_use_kpi x uk) b true baseline) bs (f_draws f p) = Ok I0 /\
    incremental_outcome_aggregate x no_data
     (mkOptions f0 f1 gs ts None ag at' true (resolve_use_kpi x uk) b true baseline) bs (f_draws f p) = Ok I /\
    length I0 = length (f_draws f p) /\ length I = length (f_draws f p) /\
    forall k z, (k < length (f_draws f p))%nat -> shape (nth k I0 z) = lead ++ [N] /\
      forall pos, (forall c, (c < N)%nat -> at_ (nth k I z) (pos ++ [c]) = at_ (nth k I0 z) (pos ++ [c])) /\
        at_ (nth k I z) (pos ++ [N]) = rsum N (fun c => at_ (nth k I0 z) (pos ++ [c])).
Proof.
  intros f0 f1 b p F. pose proof (full_request f0 f1 b p F) as R.
  pose proof V as [Wm Tr Dr Ne Ba Pn On Bl Na Hg Ht Ng Nt Ds Dd Lv]. fold x in Wm, Dr, Hg, Ht.
  destruct (request_runs x _ bs _ Wm R) as (I0 & HI).
  assert (L : length I0 = length (f_draws f p)).
  { pose proof HI as HI'. apply incremental_inv in HI'; [|reflexivity]. intuition. }
  assert (Sh : forall k z, (k < length (f_draws f p))%nat -> shape (nth k I0 z) = lead ++ [N]).
  { intros k z Hk. rewrite (incremental_shape x (mkOptions f0 f1 gs ts None ag at' true (resolve_use_kpi x uk) b true baseline) bs (f_draws f p) I0 k z Wm (Dr p) Hg Ht eq_refl HI Hk).
    cbn [o_aggregate_geos o_aggregate_times o_selected_geos o_selected_times]. unfold lead, N. rewrite n_treatments_all, app_assoc.
    reflexivity. }
  exists I0. unfold incremental_outcome_aggregate. rewrite HI. cbn [rbind].
  destruct (mapM_runs _ _ with_total I0) as (I & HM).
  { intros a Ha. destruct (In_nth I0 a a Ha) as (k & Hk & E).
    pose proof (Sh k a ltac:(lia)) as S. rewrite E in S.
    destruct (with_total_spec a _ _ S) as (z & Hz & _). eauto. }
  exists I. destruct (mapM_each _ _ _ _ _ HM) as [LM VM].
  split; [reflexivity|]. split; [exact HM|]. split; [lia|]. split; [lia|]. intros k z Hk.
  split; [exact (Sh k z Hk)|].
  destruct (with_total_spec (nth k I0 z) _ _ (Sh k z Hk)) as (y & Hy & _ & Vy).
  assert (E : nth k I z = y) by (pose proof (VM k z z ltac:(lia)); congruence). rewrite E. exact Vy.
Qed.

Lemma full_lemma : exists s b,
  summary_metrics f no_new br increase gs ts ag at' None uk level bs true baseline = Ok s /\
  baseline_summary_metrics f gs ts ag at' baseline uk level bs = Ok b /\
  sm_shape s = lead ++ [S N] /\ bs_shape b = lead /\
  sm_channel s = f_paid_names f ++ f_other_names f ++ ["All Channels"%string] /\
  sm_geo s = (if ag then None else Some (geo_labels x gs)) /\
  sm_time s = (if at' then None else Some (period_names x ts)) /\
  bs_geo b = (if ag then None else Some (geo_labels x gs)) /\
  bs_time b = (if at' then None else Some (user_time_labels x ts)) /\
  exists vc, sm_contribution s = Some vc /\
  forall p i j, (ag = false -> (i < length (chosen_geos x gs))%nat) ->
    (at' = false -> (j < length (chosen_times x ts))%nat) ->
    let pos := position ag i ++ position at' j in
    (exists (out : nat -> stats) (ob : stats),
      (forall c, (c <= N)%nat -> sm_incremental s p (pos ++ [c]) = Some (out c)) /\
      bs_outcome b p pos = Some ob /\
      st_mean (out N) = rsum N (fun c => st_mean (out c)) /\
      st_mean (out N) + st_mean ob = mean_outcome f no_new gs ts ag at' uk p i j) /\
    (mean_outcome f no_new gs ts ag at' uk p i j <> 0 ->
     exists (pct : nat -> stats) (pb : stats),
      (forall c, (c <= N)%nat -> vc p (pos ++ [c]) = Some (pct c)) /\
      bs_contribution b p pos = Some pb /\
      st_mean (pct N) = rsum N (fun c => st_mean (pct c)) /\
      st_mean (pct N) + st_mean pb = 100 /\
      forall c o, (c <= N)%nat -> sm_incremental s p (pos ++ [c]) = Some o ->
        st_mean (pct c) = 100 * st_mean o / mean_outcome f no_new gs ts ag at' uk p i j).
Proof.
  pose proof V as [Wm Tr Dr Ne Ba Pn (O1 & O2) Bl Na Hg Ht Ng Nt Ds Dd Lv]. fold x in Wm, Tr, Dr, Pn, O1, O2, Bl, Na, Hg, Ht, Ng, Nt.
  destruct (all_impressions_run x gs ts ag at' Wm Hg Ht) as (imp0 & Him & Shm).
  destruct (with_total_spec imp0 _ _ Shm) as (imp & Hit & Shi & _).
  change (((if ag then [] else [length (chosen_geos x gs)]) ++ (if at' then [] else [length (chosen_times x ts)]))) with lead in Shi.
  fold N in Shi.
  assert (Agg : forall p, exists I E Eb,
    incremental_outcome_aggregate x no_data
     (mkOptions 0 1 gs ts None ag at' true (resolve_use_kpi x uk) true true baseline) bs (f_draws f p) = Ok I /\
    expected_outcome x no_data gs ts ag at' true (resolve_use_kpi x uk) bs (f_draws f p) = Ok E /\
    baseline_expected_outcome x baseline gs ts ag at' true (resolve_use_kpi x uk) bs (f_draws f p) = Ok Eb /\
    length I = length (f_draws f p) /\ length E = length (f_draws f p) /\ length Eb = length (f_draws f p) /\
    (forall k z, (k < length (f_draws f p))%nat -> shape (nth k Eb z) = lead) /\
    forall i j, (ag = false -> (i < length (chosen_geos x gs))%nat) ->
      (at' = false -> (j < length (chosen_times x ts))%nat) ->
      let pos := position ag i ++ position at' j in
      lsum (cell_draws E pos) = lsum (cell_draws I (pos ++ [N])) + lsum (cell_draws Eb pos) /\
      lsum (cell_draws I (pos ++ [N])) = rsum N (fun c => lsum (cell_draws I (pos ++ [c]))) /\
      mean (cell_draws E pos) = mean_outcome f no_new gs ts ag at' uk p i j).
  { intros p. destruct (full_aggregate 0 1 true p ltac:(lra)) as (I0 & I & HI0 & HI & L0 & L & VI).
    destruct (decomposition_total x (mkOptions 0 1 gs ts None ag at' true (resolve_use_kpi x uk) true true baseline) bs (f_draws f p)
      Wm (full_request 0 1 true p ltac:(lra)) eq_refl eq_refl (fun _ => eq_refl)) as (I0' & E & Eb & HI0' & HE & HEb & _ & LE & LEb & D).
    cbn [o_selected_geos o_selected_times o_aggregate_geos o_aggregate_times o_inverse o_use_kpi o_baseline_values] in HE, HEb.
    assert (I0' = I0) by congruence. subst I0'.
    destruct (expected_lemma x no_data gs ts ag at' bs (f_draws f p) Wm) with (uk := uk) as (E' & HE' & CE); auto.
    { unfold paid_data_ok, no_data. cbn. repeat split. }
    assert (E' = E) by congruence. subst E'.
    assert (ShE : forall k z, (k < length (f_draws f p))%nat -> shape (nth k E z) = lead /\ shape (nth k Eb z) = lead).
    { intros k z Hk. destruct (D k z Hk) as (S1 & C & S2 & _). destruct (VI k z Hk) as (S3 & _).
      rewrite S3 in S2. apply app_inj_tail in S2. destruct S2 as [S2 _]. rewrite S1. auto. }
    exists I, E, Eb. split; [exact HI|]. split; [exact HE|]. split; [exact HEb|]. split; [exact L|]. split; [exact LE|].
    split; [exact LEb|]. split; [intros k z Hk; apply (ShE k z Hk)|].
    intros i j Hi Hj pos. set (z0 := mkTensor [] (fun _ => 0)).
    unfold cell_draws. rewrite !(lsum_nth _ _ _ z0), L, LE, LEb.
    refine (conj _ (conj _ _)).
    - rewrite <- rsum_plus. apply rsum_ext. intros k Hk. destruct (VI k z0 Hk) as (S3 & T3).
      destruct (D k z0 Hk) as (_ & C & S2 & Dk). rewrite S3 in S2. apply app_inj_tail in S2. destruct S2 as [S2 <-].
      destruct (T3 pos) as [_ ->]. rewrite Dk; [ring|]. rewrite (proj1 (ShE k z0 Hk)).
      unfold lead, pos. apply valid_position_cells; assumption.
    - transitivity (rsum (length (f_draws f p)) (fun k => rsum N (fun c => at_ (nth k I z0) (pos ++ [c])))).
      + apply rsum_ext. intros k Hk. destruct (VI k z0 Hk) as (_ & T3). destruct (T3 pos) as [T1 ->].
        apply rsum_ext. intros c Hc. symmetry. apply T1. exact Hc.
      + rewrite rsum_swap. apply rsum_ext. intros c _. rewrite (lsum_nth _ _ _ z0), L. reflexivity.
    - unfold mean, mean_outcome. fold (cell_draws E pos). unfold pos. rewrite (CE i j Hi Hj), map_length. reflexivity. }
  destruct (Agg false) as (inc_prior & e_prior & b_prior & A1 & A2 & A3 & A4 & A5 & A6 & A7 & A8).
  destruct (Agg true) as (inc_post & e_post & b_post & B1 & B2 & B3 & B4 & B5 & B6 & B7 & B8).
  destruct (full_aggregate 1 (1 + increase) br false ltac:(lra)) as (_ & m_prior & _ & M1 & _).
  destruct (full_aggregate 1 (1 + increase) br true ltac:(lra)) as (_ & m_post & _ & M2 & _).
  assert (Mt : get_modified_times x no_data = None) by apply modified_no_data.
  assert (Tl : (if at' then Ok None else rbind (time_labels x no_data ts) (fun l => Ok (Some l)))
               = Ok (if at' then None else Some (period_names x ts))).
  { destruct at'; [reflexivity|]. rewrite (time_labels_lemma x no_data ts Wm Mt Ht). reflexivity. }
  assert (Nl : length ((f_paid_names f ++ f_other_names f) ++ ["All Channels"%string]) = S N).
  { rewrite app_length, Na. cbn. unfold N. lia. }
  pose proof (geo_labels_length x gs Hg Ng Ds) as GL.
  assert (PL : length (period_names x ts) = length (chosen_times x ts)) by apply map_length.
  assert (Cf : coords_fit [if ag then None else Some (geo_labels x gs);
                 if at' then None else Some (period_names x ts); Some ((f_paid_names f ++ f_other_names f) ++ ["All Channels"%string])]
                 (shape imp) = true).
  { unfold coords_fit. rewrite Shi. apply P_Budget.shape_eqb_iff. unfold lead.
    destruct ag, at'; cbn [flat_map app]; rewrite ?Nl, ?GL, ?PL; reflexivity. }
  destruct b_post as [|b0 b_post'] eqn:Eb0.
  { exfalso. pose proof (Ne true) as Nt'. destruct (f_draws f true); [congruence|discriminate B6]. }
  rewrite <- Eb0 in *.
  assert (Shb : shape b0 = lead).
  { specialize (B7 0%nat b0). rewrite Eb0 in B7, B6. cbn [nth length] in B7, B6. apply B7. lia. }
  assert (Cb : coords_fit [if ag then None else Some (geo_labels x gs);
                 if at' then None else Some (user_time_labels x ts)] lead = true).
  { unfold coords_fit. apply P_Budget.shape_eqb_iff. unfold lead.
    assert (UL : at' = false -> length (user_time_labels x ts) = length (chosen_times x ts)).
    { intros Ha. apply user_labels_length; auto. destruct ts as [[l|l]|]; auto. congruence. }
    destruct ag, at'; cbn [flat_map app]; rewrite ?GL, ?(UL eq_refl); reflexivity. }
  destruct (summarise_both level (fun (p : bool) idx => Some (cell_draws (if p then inc_post else inc_prior) idx)) Lv) as (v_inc & Ev1 & Hv1).
  destruct (summarise_both level (fun p : bool => over_fixed (if p then inc_post else inc_prior) (at_ imp)) Lv) as (v_eff & Ev2 & _).
  destruct (summarise_both level (fun p : bool => percent (over_fixed (if p then inc_post else inc_prior)
     (mean_expected (if p then e_post else e_prior)))) Lv) as (v_pct & Ev3 & Hv3).
  destruct (summarise_both level (fun (p : bool) idx => Some (cell_draws (if p then b_post else b_prior) idx)) Lv) as (v_b & Ev4 & Hv4).
  destruct (summarise_both level (fun p : bool => percent (over_fixed (if p then b_post else b_prior)
     (fun idx => mean (cell_draws (if p then e_post else e_prior) idx)))) Lv) as (v_bp & Ev5 & Hv5).
  unfold summary_metrics, baseline_summary_metrics. cbv zeta. fold x. cbn [no_new nt_data].
  change (without_controls no_data) with no_data.
  rewrite Him. cbn [rbind]. rewrite Hit. cbn [rbind]. rewrite A1. cbn [rbind]. rewrite B1. cbn [rbind].
  rewrite M1. cbn [rbind]. rewrite M2. cbn [rbind]. rewrite Tl. cbn [rbind].
  rewrite Cf. cbn [negb raise_if]. rewrite Ev1. cbn [rbind]. rewrite Ev2. cbn [rbind].
  rewrite Mt, A2. cbn [rbind]. rewrite B2. cbn [rbind]. rewrite Ev3. cbn [rbind].
  rewrite A3. cbn [rbind]. rewrite B3. cbn [rbind].
  rewrite Eb0, Shb, <- Eb0. rewrite Cb. cbn [negb raise_if]. rewrite Ev4. cbn [rbind]. rewrite Ev5. cbn [rbind].
  eexists. eexists. split; [reflexivity|]. split; [reflexivity|].
  cbn [sm_shape bs_shape sm_channel sm_geo sm_time bs_geo bs_time sm_contribution sm_incremental bs_outcome bs_contribution].
  split; [exact Shi|]. split; [reflexivity|]. split; [rewrite app_assoc; reflexivity|].
  do 4 (split; [reflexivity|]).
  exists v_pct. split; [reflexivity|]. intros p i j Hi Hj. set (pos := position ag i ++ position at' j).
  set (Ip := if p then inc_post else inc_prior). set (Ep := if p then e_post else e_prior).
  set (Bp := if p then b_post else b_prior). set (n := length (f_draws f p)).
  assert (Lens : length Ip = n /\ length Ep = n /\ length Bp = n) by (unfold Ip, Ep, Bp, n; destruct p; auto).
  destruct Lens as (LI & LE & LB).
  assert (Facts : lsum (cell_draws Ep pos) = lsum (cell_draws Ip (pos ++ [N])) + lsum (cell_draws Bp pos) /\
      lsum (cell_draws Ip (pos ++ [N])) = rsum N (fun c => lsum (cell_draws Ip (pos ++ [c]))) /\
      mean (cell_draws Ep pos) = mean_outcome f no_new gs ts ag at' uk p i j).
  { unfold Ip, Ep, Bp, pos. destruct p; [exact (B8 i j Hi Hj)|exact (A8 i j Hi Hj)]. }
  destruct Facts as (Fa & Fb & Fc).
  assert (Hn : INR n <> 0).
  { apply not_0_INR. unfold n. pose proof (Ne p). destruct (f_draws f p); [congruence|discriminate]. }
  assert (Cne : forall (l : list tensor) (g : R -> R) idx, length l = n -> map g (cell_draws l idx) <> []).
  { intros l g idx Hl E. apply (f_equal (@length R)) in E. unfold cell_draws in E. rewrite !map_length, Hl in E. cbn in E.
    apply Hn. rewrite E. reflexivity. }
  assert (Cne' : forall (l : list tensor) idx, length l = n -> cell_draws l idx <> []).
  { intros l idx Hl E. apply (Cne l (fun v => v) idx Hl). rewrite E. reflexivity. }
  set (m := mean_outcome f no_new gs ts ag at' uk p i j) in *.
  assert (Em : lsum (cell_draws Ep pos) = m * INR n).
  { unfold mean in Fc. unfold cell_draws in Fc at 2. rewrite map_length, LE in Fc. rewrite <- Fc. field. exact Hn. }
  assert (Pick : forall (T : nat -> list R) (vv : nat -> option stats),
     (forall c, (c <= N)%nat -> reports (vv c) level (T c)) ->
     exists out : nat -> stats, forall c, (c <= N)%nat -> vv c = Some (out c) /\ is_summary level (T c) (out c)).
  { intros T vv HT. exists (fun c => match vv c with Some s => s | None => mkStats 0 0 0 0 end).
    intros c Hc. destruct (HT c Hc) as (s & Es & Hs). rewrite Es. auto. }
  split.
  - destruct (Pick (fun c => cell_draws Ip (pos ++ [c])) (fun c => v_inc p (pos ++ [c]))) as (out & Hout).
    { intros c Hc. apply (proj1 (Hv1 p)); [reflexivity|apply Cne'; exact LI]. }
    destruct (proj1 (Hv4 p) pos (cell_draws Bp pos) eq_refl (Cne' Bp pos LB)) as (ob & Eob & Sob).
    exists out, ob. split; [intros c Hc; apply (Hout c Hc)|]. split; [exact Eob|].
    assert (Mo : forall c, (c <= N)%nat -> INR n * st_mean (out c) = lsum (cell_draws Ip (pos ++ [c]))).
    { intros c Hc. destruct (Hout c Hc) as (_ & Sc & _). unfold cell_draws in Sc at 1. rewrite map_length, LI in Sc. exact Sc. }
    assert (Mb : INR n * st_mean ob = lsum (cell_draws Bp pos)).
    { destruct Sob as (Sc & _). unfold cell_draws in Sc at 1. rewrite map_length, LB in Sc. exact Sc. }
    split.
    + apply (Rmult_eq_reg_l (INR n)); [|exact Hn]. rewrite Mo by lia. rewrite Fb, <- rsum_scal. apply rsum_ext.
      intros c Hc. symmetry. apply Mo. lia.
    + apply (Rmult_eq_reg_l (INR n)); [|exact Hn]. rewrite Rmult_plus_distr_l, Mo, Mb by lia. lra.
  - intros Hm.
    assert (Sc : forall l idx, length l = n -> lsum (map (fun v => v / m * 100) (cell_draws l idx)) = 100 / m * lsum (cell_draws l idx)).
    { intros l idx _. rewrite (map_ext _ (fun v => 100 / m * v)) by (intros; field; exact Hm).
      rewrite lsum_map_scal, map_id. reflexivity. }
    destruct (Pick (fun c => map (fun v => v / m * 100) (cell_draws Ip (pos ++ [c]))) (fun c => v_pct p (pos ++ [c]))) as (out & Hout).
    { intros c Hc. apply (proj1 (Hv3 p)); [|apply Cne; exact LI]. unfold percent.
      rewrite (over_fixed_some _ _ _ m); [cbn [option_map]; rewrite map_map; reflexivity| |exact Hm].
      unfold mean_expected. rewrite removelast_last. exact Fc. }
    destruct (proj1 (Hv5 p) pos (map (fun v => v / m * 100) (cell_draws Bp pos))) as (ob & Eob & Sob).
    { unfold percent. rewrite (over_fixed_some _ _ _ m); [cbn [option_map]; rewrite map_map; reflexivity|exact Fc|exact Hm]. }
    { apply Cne. exact LB. }
    exists out, ob. split; [intros c Hc; apply (Hout c Hc)|]. split; [exact Eob|].
    assert (Mo : forall c, (c <= N)%nat -> INR n * st_mean (out c) = 100 / m * lsum (cell_draws Ip (pos ++ [c]))).
    { intros c Hc. destruct (Hout c Hc) as (_ & Sm & _). rewrite (Sc Ip _ LI) in Sm.
      unfold cell_draws in Sm at 1. rewrite !map_length, LI in Sm. exact Sm. }
    assert (Mb : INR n * st_mean ob = 100 / m * lsum (cell_draws Bp pos)).
    { destruct Sob as (Sm & _). rewrite (Sc Bp _ LB) in Sm. unfold cell_draws in Sm at 1. rewrite !map_length, LB in Sm. exact Sm. }
    split.
    + apply (Rmult_eq_reg_l (INR n)); [|exact Hn]. rewrite Mo by lia. rewrite Fb, <- !rsum_scal. apply rsum_ext.
      intros c Hc. symmetry. apply Mo. lia.
    + split.
      * apply (Rmult_eq_reg_l (INR n)); [|exact Hn]. rewrite Rmult_plus_distr_l, Mo, Mb by lia.
        rewrite <- Rmult_plus_distr_l, <- Fa, Em. field. exact Hm.
      * intros c o Hc Eo.
        destruct (proj1 (Hv1 p) (pos ++ [c]) (cell_draws Ip (pos ++ [c])) eq_refl (Cne' Ip _ LI)) as (o' & Eo' & So & _).
        assert (o' = o) by congruence. subst o'. unfold cell_draws in So at 1. rewrite map_length, LI in So.
        apply (Rmult_eq_reg_l (INR n)); [|exact Hn]. rewrite (Mo c Hc), <- So. field. exact Hm.
Qed.
End Contribution.
