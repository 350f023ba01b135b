(** Proofs about [response_curves]. *)
From Coq Require Import Reals ZArith Lia Lra String List Bool Arith Permutation Sorted.
From Verif Require Import Lib_Sum M_Base M_AdstockHill M_Equations M_Transformers M_Aggregate
  S_Aggregate S_Adstock S_Media S_Analyzer M_Analyzer S_Predictor P_Aggregate P_Analyzer P_AnalyzerIO
  P_Predictor S_Paid P_Paid P_PaidMono P_Transformers M_Stats S_Stats P_Stats M_Summary S_Roi P_Roi S_Summary P_Summary
  M_Curves S_Curves.
From Verif Require P_Budget.
Import ListNotations.
Local Open Scope R_scope.

(** ** Summaries *)
Lemma quantile_determined : forall l q v, l <> [] -> is_quantile l q v ->
  v = interpolate (sort_values l) (INR (length l - 1) * q).
Proof.
  intros l q v Hl (s & i & fr & P & Ss & Hi & Hf & E & ->).
  assert (Es : s = sort_values l).
  { apply sorted_unique; [exact Ss|apply sort_values_sorted|]. rewrite <- P. apply sort_values_perm. }
  rewrite E. unfold interpolate. cbv zeta. rewrite int_part_INR by exact Hf. rewrite Nat2Z.id, <- INR_IZR_INZ.
  rewrite <- Es. destruct (Nat.eqb_spec i (length s - 1)) as [->|N].
  - replace (Nat.min (S (length s - 1)) (length s - 1)) with (length s - 1)%nat by lia. ring.
  - replace (Nat.min (S i) (length s - 1)) with (S i) by lia. ring.
Qed.

Lemma point_mono : forall level a b p p', -1 <= level <= 1 -> a <> [] -> dominated a b ->
  is_point level a p -> is_point level b p' -> point_le p p'.
Proof.
  intros level a b p p' Hc Ha D (M & L & H) (M' & L' & H').
  pose proof (Forall2_len _ _ D) as Len.
  assert (Hb : b <> []) by (destruct a; [congruence|destruct b; [discriminate|congruence]]).
  unfold point_le.
  rewrite (quantile_determined _ _ _ Ha L), (quantile_determined _ _ _ Ha H),
    (quantile_determined _ _ _ Hb L'), (quantile_determined _ _ _ Hb H').
  rewrite <- Len. assert (N : 0 < INR (length a)) by (apply lt_0_INR; destruct a; [congruence|cbn; lia]).
  pose proof (lsum_dominated _ _ D) as LD. pose proof (sort_dominated _ _ D) as SD.
  assert (PR : forall q, 0 <= q <= 1 -> 0 <= INR (length a - 1) * q).
  { intros q Hq. apply Rmult_le_pos; [apply pos_INR|lra]. }
  refine (conj _ (conj _ _)).
  - apply (Rmult_le_reg_l (INR (length a))); [exact N|]. rewrite M, Len, M'. exact LD.
  - apply interpolate_dominated; [exact SD|]. apply PR. lra.
  - apply interpolate_dominated; [exact SD|]. apply PR. lra.
Qed.

Lemma zeros_point : forall A (l : list A) F level, l <> [] -> -1 <= level <= 1 -> (forall a, In a l -> F a = 0) ->
  is_point level (map F l) zero_point.
Proof.
  intros A l F level Hl Hc H.
  destruct (central_runs level (map F l)) as (s & Hs); [destruct l; [congruence|discriminate]|exact Hc|].
  destruct (within_lemma level (map F l) s 0 0 Hs) as (B1 & B2 & B3 & B4).
  { intros v Hv. apply in_map_iff in Hv. destruct Hv as (a & <- & Ha). rewrite (H a Ha). lra. }
  pose proof (central_summary _ _ _ Hs) as (S1 & S2 & S3 & S4).
  replace (st_mean s) with 0 in S1 by lra. replace (st_lo s) with 0 in S3 by lra.
  replace (st_hi s) with 0 in S4 by lra. exact (conj S1 (conj S3 S4)).
Qed.

Lemma summary_point : forall level l s, is_summary level l s -> is_point level l (to_point s).
Proof. intros level l s (A & B & C & D). exact (conj A (conj C D)). Qed.

(** ** One multiplier *)
Lemma curve_numerator : forall x nd f0 f1 gs ts uk br bs draws,
  well_formed x -> paid_data_ok x nd -> paid_nonneg x nd -> transformers_ok x ->
  Forall (draw_ok x) draws -> draws <> [] -> (0 < bs)%Z -> 0 <= f0 < f1 ->
  geos_ok x gs -> times_ok x ts ->
  exists I, incremental_outcome x (paid_fields (fill_missing x nd false false))
              (roi_options f0 f1 gs ts true uk br) bs draws = Ok I /\ length I = length draws /\
    forall ch, is_paid x ch -> cell_draws I [channel_index x ch]
      = map (fun w => outcome_change x nd w ch uk br f0 f1 (chosen_geos x gs) (chosen_times x ts)) draws.
Proof.
  intros x nd f0 f1 gs ts uk br bs draws W H P T D Ne B F Hg Ht.
  destruct (filled_paid x nd H) as (H' & M & P' & Tm & _).
  destruct (paid_documented x (paid_fields (fill_missing x nd false false))
              (roi_options f0 f1 gs ts true uk br) bs draws W H') as (I & HI & L & C); auto.
  { constructor; cbn; auto; try discriminate. }
  exists I. split; [exact HI|]. split; [exact L|]. intros ch Hc.
  destruct draws as [|w0 dr] eqn:Ed; [congruence|]. rewrite <- Ed in *. clear Ed.
  unfold cell_draws. apply (map_pointwise _ _ _ _ _ _ (mkTensor [] (fun _ => 0)) w0); [exact L|].
  intros k Hk. destruct (C k w0 (mkTensor [] (fun _ => 0)) Hk) as [_ V].
  specialize (V ch 0%nat 0%nat Hc ltac:(discriminate) ltac:(discriminate)).
  cbn [roi_options o_aggregate_geos o_aggregate_times
    o_selected_geos o_selected_times o_inverse o_use_kpi o_scaling_factor1 o_scaling_factor0
    o_media_selected_times o_by_reach position app members] in V.
  etransitivity; [exact V|]. unfold outcome_change.
  apply total_ext'. intros g. apply total_ext'. intros t. rewrite M, !Tm. reflexivity.
Qed.

(** ** The curves on given data *)
Section Curves.
Variables (f : fitted) (post flat : bool) (nd : new_tensors) (gs : option (list string)) (ts : option time_sel)
  (ms : list R) (level : R) (bs : Z) (br uk : bool).
Hypothesis V : curve_request f post flat nd gs ts ms level bs.
Let x := f_x f.
Let gl := chosen_geos x gs.
Let tl := chosen_times x ts.

Definition curve_at (d : data) (m : R) : result (nat -> option point) :=
  if Req_EM_T m 0 then Ok (fun _ => Some zero_point) else
  rbind (incremental_outcome (f_x f) d (roi_options 0 m gs ts true uk br) bs (f_draws f post)) (fun I =>
  rbind (summarise level (fun idx => Some (cell_draws I idx))) (fun v =>
  Ok (fun c => option_map to_point (v [c])))).

Lemma curve_at_lemma : forall d m, 0 <= m -> paid_data_ok x d -> paid_nonneg x d ->
  exists v, curve_at (paid_fields (fill_missing x d false false)) m = Ok v /\
  forall ch, is_paid x ch -> exists p, v (channel_index x ch) = Some p /\
    is_point level (map (fun w => outcome_change x d w ch uk br 0 m gl tl) (f_draws f post)) p.
Proof.
  intros d m Hm Hd Hn. destruct V as [Wm Tr Dr Ne Ba _ _ Sp Hg Ht Mu Lv]. unfold curve_at.
  destruct (Req_EM_T m 0) as [->|Z].
  - eexists. split; [reflexivity|]. intros ch Hc. exists zero_point. split; [reflexivity|].
    apply zeros_point; auto. intros w _. unfold outcome_change.
    rewrite <- (total_zero gl). apply total_ext'. intros g. rewrite <- (total_zero tl). apply total_ext'. intros t. ring.
  - destruct (curve_numerator x d 0 m gs ts uk br bs (f_draws f post)) as (I & HI & L & C); auto; [lra|].
    fold x. rewrite HI. cbn [rbind].
    destruct (summarise_runs level (fun idx => Some (cell_draws I idx)) Lv) as (v & -> & Sv & _). cbn [rbind].
    eexists. split; [reflexivity|]. intros ch Hc.
    destruct (Sv [channel_index x ch] _ eq_refl) as (s & Es & Hs).
    { rewrite (C ch Hc). destruct (f_draws f post); [congruence|discriminate]. }
    exists (to_point s). rewrite Es. split; [reflexivity|]. rewrite (C ch Hc) in Hs. apply summary_point. exact Hs.
Qed.

Definition spend_axis (d : data) : result (nat -> R) :=
  rbind (total_spend (fill_spend f (nt_spend nd))) (fun t =>
  match t with
  | None => Err TypeError
  | Some (Spend1 n u) => Ok u
  | Some (Spend3 y) =>
      rbind (package (f_x f) d gs ts None []) (fun i =>
      rbind (filter_and_aggregate (counts (f_x f)) (x_n_geos (f_x f)) (x_n_times (f_x f)) (of3 y) (i_geo i) (i_time i)
               true true true true) (fun a =>
      Ok (fun c => at_ a [c])))
  end).

Lemma spend_axis_lemma : forall d, get_modified_times x d = None ->
  exists u, spend_axis d = Ok u /\ forall ch, is_paid x ch ->
    u (channel_index x ch) = channel_spend (spend_used f (nt_spend nd)) ch gl tl.
Proof.
  intros d Hd. destruct V as [Wm Tr Dr Ne Ba _ _ Sp Hg Ht Mu Lv].
  destruct (denominator_lemma flat f (spend_used f (nt_spend nd)) d gs ts true Wm Sp Hd Hg Ht) as (t & Et & _ & Vt); [auto|].
  unfold spend_axis. change (fill_spend f (nt_spend nd)) with (spend_used f (nt_spend nd)).
  unfold spend_denominator in Et. inv_rbind Et st Hst. rewrite Hst. cbn [rbind].
  destruct st as [[n u|y]|]; [| |discriminate].
  - cbn [negb raise_if] in Et. exists u. split; [reflexivity|]. intros ch Hc.
    pose proof (Vt ch 0%nat Hc ltac:(discriminate)) as E. etransitivity; [|exact E].
    assert (t = mkTensor [n] (fun idx => u (hd 0%nat idx))) by congruence. subst t. reflexivity.
  - inv_rbind Et i Hi. rewrite Hi. cbn [rbind]. rewrite Et. cbn [rbind]. eexists. split; [reflexivity|].
    intros ch Hc. exact (Vt ch 0%nat Hc ltac:(discriminate)).
Qed.

Lemma curves_lemma : forall d u, paid_data_ok x d -> paid_nonneg x d ->
  (forall ch, is_paid x ch -> u (channel_index x ch) = channel_spend (spend_used f (nt_spend nd)) ch gl tl) ->
  exists out, mapM (curve_at (paid_fields (fill_missing x d false false))) ms = Ok out /\
    curves_of f d (spend_used f (nt_spend nd)) post gs ts br uk level ms
      (mkCurves ms (f_paid_names f) (map (fun m c => m * u c) ms) out).
Proof.
  intros d u Hd Hn Hu. pose proof (vr_multipliers _ _ _ _ _ _ _ _ _ V) as Mu. rewrite Forall_forall in Mu.
  destruct (mapM_runs _ _ (curve_at (paid_fields (fill_missing x d false false))) ms) as (out & Ho).
  { intros m Hm. destruct (curve_at_lemma d m (Mu m Hm) Hd Hn) as (v & Hv & _). eauto. }
  exists out. split; [exact Ho|]. unfold curves_of. cbn [cv_multipliers cv_channels cv_spend cv_outcome].
  refine (conj eq_refl (conj eq_refl (conj _ (conj _ _)))).
  { apply map_length. } { exact (mapM_length _ _ _ _ _ Ho). }
  intros i ch Hi Hc. split.
  - rewrite (nth_indep (map (fun m c => m * u c) ms) (fun _ => 0) ((fun m c => m * u c) 0)) by (rewrite map_length; exact Hi).
    rewrite (map_nth (fun m c => m * u c)). cbv beta. f_equal. exact (Hu ch Hc).
  - pose proof (proj2 (mapM_each _ _ _ _ _ Ho) i 0 (fun _ => None) Hi) as E.
    destruct (curve_at_lemma d (nth i ms 0) (Mu _ (nth_In _ _ Hi)) Hd Hn) as (v & Hv & P).
    assert (Ev : v = nth i out (fun _ => None)) by congruence. rewrite <- Ev. exact (P ch Hc).
Qed.

Lemma plain_lemma : exists cv, response_curves f nd (Some ms) post gs ts br false uk level bs = Ok cv /\
  curves_of f (nt_data nd) (spend_used f (nt_spend nd)) post gs ts br uk level ms cv.
Proof.
  destruct (spend_axis_lemma (fill_missing x (nt_data nd) false false)) as (u & Hu & Vu).
  { apply filled_paid. apply (vr_data _ _ _ _ _ _ _ _ _ V). }
  destruct (curves_lemma (nt_data nd) u (vr_data _ _ _ _ _ _ _ _ _ V) (vr_nonneg _ _ _ _ _ _ _ _ _ V) Vu) as (out & Ho & C).
  eexists. split; [|exact C].
  unfold response_curves. cbv zeta. rewrite andb_false_r. cbn [rbind fst snd].
  match goal with |- rbind (mapM ?F ms) _ = _ =>
    change F with (curve_at (paid_fields (fill_missing x (nt_data nd) false false))) end.
  rewrite Ho. cbn [rbind].
  unfold spend_axis in Hu. inv_rbind Hu st Hst. rewrite Hst. cbn [rbind].
  match goal with |- rbind ?A _ = _ => replace A with (Ok u : result (nat -> R)) by (symmetry; exact Hu) end.
  reflexivity.
Qed.
End Curves.
