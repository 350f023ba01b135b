(** Proofs about the comparison of expected and actual outcomes. *)
From Coq Require Import Reals ZArith String Lia Lra List Bool Arith.
From Verif Require Import Lib_Sum M_Base M_AdstockHill M_Equations M_Transformers M_Aggregate
  S_Aggregate P_Aggregate S_Adstock S_Media S_Analyzer M_Analyzer P_Analyzer S_Predictor P_AnalyzerIO P_Predictor M_Stats S_Stats
  P_Stats M_Accuracy S_Accuracy P_Accuracy P_AccuracyIO M_FitTable S_FitTable.
Import ListNotations.
Local Open Scope R_scope.
Local Open Scope nat_scope.
Local Open Scope list_scope.

Lemma nan_sum_some : forall A (f : A -> option R) (v : A -> R) l, (forall a, In a l -> f a = Some (v a)) ->
  nan_sum (map f l) = Some (lsum (map v l)).
Proof.
  intros A f v l. induction l as [|a l IH]; intros H; [reflexivity|]. cbn [map nan_sum fold_right lsum].
  rewrite (H a (or_introl eq_refl)). fold (nan_sum (map f l)). rewrite IH by (intros b Hb; apply H; right; exact Hb). reflexivity.
Qed.
Lemma nan_sum_none : forall l, In None l -> nan_sum l = None.
Proof.
  induction l as [|a l IH]; intros H; [destruct H|]. cbn [nan_sum fold_right]. fold (nan_sum l). destruct H as [->|H]; [reflexivity|].
  rewrite (IH H). destruct a; reflexivity.
Qed.
Lemma nan_sum_one : forall v, nan_sum [v] = v.
Proof. intros [v|]; cbn; [f_equal; ring|reflexivity]. Qed.

(** The contents of an aggregated cell. *)
Definition nan_cell (gl tl : list nat) (f : nat -> nat -> option R) : option R :=
  nan_sum (map (fun g => nan_sum (map (fun t => f g t) tl)) gl).
Lemma nan_cell_some : forall gl tl f v, (forall g t, In g gl -> In t tl -> f g t = Some (v g t)) ->
  nan_cell gl tl f = Some (total gl (fun g => total tl (fun t => v g t))).
Proof.
  intros gl tl f v H. unfold nan_cell, total. apply nan_sum_some. intros g Hg. apply nan_sum_some. intros t Ht. apply H; assumption.
Qed.
Lemma nan_cell_none : forall gl tl f g t, In g gl -> In t tl -> f g t = None -> nan_cell gl tl f = None.
Proof.
  intros gl tl f g t Hg Ht H. unfold nan_cell. apply nan_sum_none. apply in_map_iff. exists g. split; [|exact Hg].
  apply nan_sum_none. apply in_map_iff. exists t. split; assumption.
Qed.

Lemma nth_seq0 : forall n i, i < n -> nth i (seq 0 n) 0 = i.
Proof. intros n i H. rewrite seq_nth by exact H. reflexivity. Qed.

Lemma insert_end : forall l v, insert_at (length l) v l = l ++ [v].
Proof. intros l v. pose proof (insert_exact l v []) as H. rewrite app_nil_r in H. exact H. Qed.

Lemma n_aggregate_lemma : forall k G T x lead ag at',
  n_shape x = lead ++ [G; T] ->
  resolve_media_dim k G T (mkTensor (n_shape x) (fun _ => 0%R)) false false = Ok false ->
  exists out, n_aggregate k G T x ag at' = Ok out /\
    n_shape out = lead ++ (if ag then [] else [G]) ++ (if at' then [] else [T]) /\
    forall l i j, length l = length lead -> (ag = false -> i < G) -> (at' = false -> j < T) ->
      n_at out (l ++ position ag i ++ position at' j)
      = nan_cell (members (seq 0 G) ag i) (members (seq 0 T) at' j) (fun g t => n_at x (l ++ [g; t])).
Proof.
  intros k G T x lead ag at' Hs Hr.
  assert (N : length (n_shape x) = length lead + 2) by (rewrite Hs, app_length; reflexivity).
  unfold n_aggregate. rewrite Hr. cbn [rbind]. cbv zeta. rewrite N.
  replace (length lead + 2 - 2 - 0) with (length lead) by lia.
  replace (length lead + 2 - 1 - 0) with (S (length lead)) by lia.
  assert (Hs1 : n_shape x = (lead ++ [G]) ++ T :: []) by (rewrite Hs, <- app_assoc; reflexivity).
  assert (L1 : length (lead ++ [G]) = S (length lead)) by (rewrite app_length; cbn; lia).
  eexists. split; [reflexivity|].
  assert (A1 : n_shape (n_sum_axis x (S (length lead))) = lead ++ [G]).
  { unfold n_sum_axis. cbn [n_shape]. rewrite Hs1, <- L1, remove_exact, app_nil_r. reflexivity. }
  assert (V1 : forall l g, length l = length lead ->
            n_at (n_sum_axis x (S (length lead))) (l ++ [g]) = nan_sum (map (fun t => n_at x (l ++ [g; t])) (seq 0 T))).
  { intros l g Hl. unfold n_sum_axis. cbn [n_at]. rewrite Hs1, <- L1, nth_exact. f_equal. apply map_ext. intros t.
    replace (length (lead ++ [G])) with (length (l ++ [g])) by (rewrite !app_length; cbn; lia).
    rewrite insert_end, <- app_assoc. reflexivity. }
  unfold nan_cell.
  destruct ag, at'.
  - split.
    + unfold n_sum_axis at 1. cbn [n_shape]. rewrite A1, remove_exact. reflexivity.
    + intros l i j Hl _ _. cbn [position app]. rewrite app_nil_r. unfold n_sum_axis at 1. cbn [n_at].
      rewrite A1, nth_exact. unfold members. f_equal. apply map_ext. intros g.
      rewrite <- Hl. rewrite insert_end. rewrite Hl. apply V1. exact Hl.
  - split.
    + unfold n_sum_axis at 1. cbn [n_shape]. rewrite Hs, remove_exact. reflexivity.
    + intros l i j Hl _ Hj. cbn [position app]. unfold n_sum_axis at 1. cbn [n_at].
      rewrite Hs, nth_exact. unfold members. f_equal. apply map_ext. intros g.
      rewrite <- Hl, insert_exact. cbn [map]. rewrite nan_sum_one, nth_seq0 by (apply Hj; reflexivity). reflexivity.
  - split.
    + rewrite A1. reflexivity.
    + intros l i j Hl Hi _. cbn [position app]. rewrite V1 by exact Hl.
      unfold members. cbn [map]. rewrite nan_sum_one, nth_seq0 by (apply Hi; reflexivity). reflexivity.
  - split.
    + rewrite Hs. reflexivity.
    + intros l i j Hl Hi Hj. cbn [position app]. unfold members. cbn [map].
      rewrite !nan_sum_one, !nth_seq0 by auto. reflexivity.
Qed.

Lemma all_some_map : forall A (f : A -> option R) (v : A -> R) l, (forall a, In a l -> f a = Some (v a)) ->
  all_some (map f l) = Some (map v l).
Proof.
  intros A f v l. induction l as [|a l IH]; intros H; [reflexivity|]. cbn [map all_some].
  rewrite (H a (or_introl eq_refl)), IH by (intros b Hb; apply H; right; exact Hb). reflexivity.
Qed.
Lemma all_some_none : forall l, In None l -> all_some l = None.
Proof.
  induction l as [|a l IH]; intros H; [destruct H|]. destruct H as [->|H]; [reflexivity|]. cbn [all_some]. destruct a; [|reflexivity].
  rewrite (IH H). reflexivity.
Qed.

Lemma cell_stat_some : forall A level (f : A -> option R) (v : A -> R) l m, l <> [] -> (-1 <= level <= 1)%R ->
  (forall a, In a l -> f a = Some (v a)) ->
  exists r, cell_stat level (map f l) m = Some r /\ is_stat level (map v l) m r.
Proof.
  intros A level f v l m Hl Hc H. unfold cell_stat. rewrite (all_some_map A f v l H).
  assert (Hn : map v l <> []) by (destruct l; [congruence|discriminate]).
  destruct (central_runs level (map v l) Hn Hc) as [s Es]. rewrite Es.
  pose proof (central_inv level (map v l) s Es) as (_ & _ & E1 & E2 & E3 & E4).
  eexists. split; [reflexivity|]. destruct m; cbn [is_stat].
  - rewrite E1. unfold mean. field. apply not_0_INR. destruct (map v l); [congruence|discriminate].
  - apply quantile_spec. rewrite quantile_runs by (auto; lra). rewrite E3. reflexivity.
  - apply quantile_spec. rewrite quantile_runs by (auto; lra). rewrite E4. reflexivity.
Qed.
Lemma cell_stat_none : forall A level (f : A -> option R) l m, l <> [] -> (forall a, In a l -> f a = None) ->
  cell_stat level (map f l) m = None.
Proof.
  intros A level f l m Hl H. unfold cell_stat. rewrite all_some_none; [reflexivity|].
  destruct l as [|a l]; [congruence|]. left. apply H. left. reflexivity.
Qed.

Lemma flat_index : forall A (f : nat -> A) a b,
  flat_map (fun c => map (fun d => f (c * b + d)) (seq 0 b)) (seq 0 a) = map f (seq 0 (a * b)).
Proof.
  intros A f a b. induction a as [|a IH]; [reflexivity|].
  rewrite seq_S, flat_map_app, IH. cbn [flat_map Nat.add]. rewrite app_nil_r.
  replace (S a * b) with (a * b + b) by lia. rewrite seq_app, map_app. f_equal. cbn [Nat.add].
  rewrite <- (map_map (fun d => a * b + d) f). f_equal.
  clear. generalize (a * b) as s. intros s.
  apply (nth_ext _ _ 0 0); [rewrite map_length, !seq_length; reflexivity|]. intros n Hn.
  rewrite map_length, seq_length in Hn. rewrite (nth_indep _ 0 (s + 0)) by (rewrite map_length, seq_length; exact Hn).
  rewrite (map_nth (fun d => s + d)). rewrite !seq_nth by exact Hn. reflexivity.
Qed.

Lemma check_level_ok : forall A level n (r : result A), (-1 <= level <= 1)%R -> n <> 0 -> check_level level n r = r.
Proof.
  intros A level n r Hc Hn. unfold check_level, outside.
  destruct (Rlt_dec ((1 - level) / 2) 0); [lra|]. destruct (Rlt_dec 1 ((1 - level) / 2)); [lra|].
  destruct (Rlt_dec ((1 + level) / 2) 0); [lra|]. destruct (Rlt_dec 1 ((1 + level) / 2)); [lra|].
  cbn [orb raise_if]. apply Nat.eqb_neq in Hn. rewrite Hn. reflexivity.
Qed.

Lemma not_lookalike : forall x n_draws c, ~ lookalike x n_draws -> In c (allowed_channel_dim (counts x)) ->
  [n_draws; x_n_geos x; x_n_times x] <> [x_n_geos x; x_n_times x; c].
Proof.
  intros x n c H Hc E. injection E as E1 E2 E3. apply H. split; [exact E1|]. split; [congruence|].
  unfold allowed_channel_dim in Hc. apply in_app_or in Hc. destruct Hc as [Hc|Hc].
  - exists c. split; [exact Hc|]. left. exact E3.
  - apply in_map_iff in Hc. destruct Hc as (c0 & <- & Hc). exists c0. split; [exact Hc|]. right. exact E3.
Qed.
Lemma resolve_false : forall x n_draws lead, ~ lookalike x n_draws ->
  resolve_media_dim (counts x) (x_n_geos x) (x_n_times x)
    (mkTensor (lead ++ [n_draws; x_n_geos x; x_n_times x]) (fun _ => 0%R)) false false = Ok false.
Proof.
  intros x n lead H. unfold resolve_media_dim. cbn [M_Budget.shape].
  rewrite (last_dims_exact 3 lead [n; x_n_geos x; x_n_times x] eq_refl).
  replace (lead ++ [n; x_n_geos x; x_n_times x]) with ((lead ++ [n]) ++ [x_n_geos x; x_n_times x])
    by (rewrite <- app_assoc; reflexivity).
  rewrite (last_dims_exact 2 (lead ++ [n]) [x_n_geos x; x_n_times x] eq_refl).
  destruct (shape_with_media (counts x) (x_n_geos x) (x_n_times x) [n; x_n_geos x; x_n_times x]) eqn:E.
  - apply shape_with_media_spec in E. destruct E as (c & Hc & E). exfalso. exact (not_lookalike x n c H Hc E).
  - replace (shape_eqb [x_n_geos x; x_n_times x] [x_n_geos x; x_n_times x]) with true
      by (symmetry; apply P_Budget.shape_eqb_iff; reflexivity). reflexivity.
Qed.

Lemma cell_split : forall (p : list nat) a, removelast (p ++ [a]) = p /\ last (p ++ [a]) 0 = a.
Proof. intros p a. split; [apply removelast_last|apply last_last]. Qed.

Section Table.
Variables (x : model) (n_chains n_draws : nat) (E : list tensor) (F : nat -> nat -> nat -> R).
Let G := x_n_geos x.
Let T := x_n_times x.
Let z : tensor := mkTensor [] (fun _ => 0%R).
Hypothesis HL : length E = n_chains * n_draws.
Hypothesis Hpos : n_chains * n_draws <> 0.
Hypothesis HS : forall k, k < n_chains * n_draws -> shape (nth k E z) = [G; T].
Hypothesis HV : forall k g t, k < n_chains * n_draws -> g < G -> t < T -> at_ (nth k E z) [g; t] = F k g t.

Lemma by_chain_shape : n_shape (by_chain n_chains n_draws E) = [n_chains; n_draws; G; T].
Proof.
  unfold by_chain. cbn [n_shape]. do 2 f_equal. change (mkTensor [] (fun _ => 0%R)) with z.
  replace (hd z E) with (nth 0 E z) by (destruct E; reflexivity). apply HS. lia.
Qed.

Definition sets_of (h : option (matrix bool)) : option (list evaluation_set) :=
  match h with Some _ => Some [Train; Test; AllData] | None => None end.

Lemma member_range : forall n ag i u, (ag = false -> i < n) -> In u (members (seq 0 n) ag i) -> u < n.
Proof.
  intros n ag i u H Hu. destruct ag; cbn [members] in Hu.
  - apply in_seq in Hu. lia.
  - destruct Hu as [<-|[]]. rewrite nth_seq0 by auto. auto.
Qed.

Lemma index_in_range : forall c d, c < n_chains -> d < n_draws -> c * n_draws + d < n_chains * n_draws.
Proof. intros c d Hc Hd. assert (c * n_draws + n_draws <= n_chains * n_draws) by (replace (c * n_draws + n_draws) with (S c * n_draws) by lia; apply Nat.mul_le_mono_r; lia). lia. Qed.

(** The values of the draws in a cell: either all summed, or all NaN. *)
Lemma cell_values : forall (f : nat -> nat -> option R) (v : nat -> option R),
  (forall c d, c < n_chains -> d < n_draws -> f c d = v (c * n_draws + d)) ->
  flat_map (fun c => map (fun d => f c d) (seq 0 n_draws)) (seq 0 n_chains) = map v (seq 0 (n_chains * n_draws)).
Proof.
  intros f v H. rewrite <- flat_index. apply flat_map_ext_in. intros c Hc. apply in_seq in Hc.
  apply map_ext_in. intros d Hd. apply in_seq in Hd. apply H; lia.
Qed.

Lemma table_lemma : forall h ag at' level, ~ lookalike x n_draws -> (-1 <= level <= 1)%R -> holdout_ok x h ->
  exists out, mean_and_ci_by_eval_set x (by_chain n_chains n_draws E) h ag at' level = Ok out /\
    n_shape out = (if ag then [] else [G]) ++ (if at' then [] else [T]) ++ [3] ++ coord_dim (sets_of h) /\
    forall i j m s, (ag = false -> i < G) -> (at' = false -> j < T) ->
      (h = None -> s = AllData) ->
      let gl := members (seq 0 G) ag i in
      let tl := members (seq 0 T) at' j in
      ((forall g t, In g gl -> In t tl -> in_set h s g t = true) ->
       exists r, n_at out (place ag at' (sets_of h) i j m s) = Some r /\
         is_stat level (map (fun k => total gl (fun g => total tl (fun t => F k g t))) (seq 0 (n_chains * n_draws))) m r) /\
      ((exists g t, In g gl /\ In t tl /\ in_set h s g t = false) ->
       n_at out (place ag at' (sets_of h) i j m s) = None).
Proof.
  intros h ag at' level Hla Hc Hh.
  pose proof by_chain_shape as Sh.
  assert (Hne : seq 0 (n_chains * n_draws) <> []).
  { intros H. apply (f_equal (@length nat)) in H. rewrite seq_length in H. cbn in H. lia. }
  destruct h as [h|]; cbn [mean_and_ci_by_eval_set sets_of coord_dim].
  - destruct Hh as [Hr Hcl]. fold G in Hr. fold T in Hcl.
    assert (W : forall held, exists y, n_where held h (by_chain n_chains n_draws E) = Ok y /\
              n_shape y = [n_chains; n_draws; G; T] /\
              forall c d g t, g < G -> t < T -> n_at y [c; d; g; t]
                = if Bool.eqb (m_at h g t) held then n_at (by_chain n_chains n_draws E) [c; d; g; t] else None).
    { intros held. unfold n_where. rewrite Sh, Hr, Hcl, !broadcast_same. cbn [rbind]. eexists. split; [reflexivity|].
      split; [reflexivity|]. intros c d g t Hg Ht. cbn [n_at]. rewrite !bidx_same by assumption. reflexivity. }
    destruct (W false) as (train & Et & St & Vt). destruct (W true) as (test & Ee & Se & Ve).
    rewrite Et, Ee. cbn [rbind]. unfold stack3. rewrite St, Se, Sh.
    replace (shape_eqb [n_chains; n_draws; G; T] [n_chains; n_draws; G; T]) with true
      by (symmetry; apply P_Budget.shape_eqb_iff; reflexivity).
    cbn [andb negb raise_if rbind].
    set (both := mkN (3 :: [n_chains; n_draws; G; T]) _).
    assert (Vb : forall c d g t s, c < n_chains -> d < n_draws -> g < G -> t < T ->
              n_at both [set_place s; c; d; g; t]
              = if in_set (Some h) s g t then Some (F (c * n_draws + d) g t) else None).
    { intros c d g t s Hcc Hd Hg Ht. unfold both. cbn [n_at].
      assert (Base : n_at (by_chain n_chains n_draws E) [c; d; g; t] = Some (F (c * n_draws + d) g t)).
      { unfold by_chain. cbn [n_at]. f_equal. apply HV; auto. apply index_in_range; assumption. }
      destruct s; cbn [set_place nth in_set].
      - rewrite Vt, Base by assumption. destruct (m_at h g t); reflexivity.
      - rewrite Ve, Base by assumption. destruct (m_at h g t); reflexivity.
      - exact Base. }
    destruct (n_aggregate_lemma (counts x) G T both [3; n_chains; n_draws] ag at' eq_refl) as (y & Ey & Sy & Vy).
    { unfold both. cbn [n_shape]. exact (resolve_false x n_draws [3; n_chains] Hla). }
    fold G T. rewrite Ey. cbn [rbind]. unfold reduce_draws_by_set. rewrite Sy. cbn [app].
    rewrite check_level_ok by (assumption || exact Hpos).
    eexists. split; [reflexivity|]. split; [cbn [n_shape]; rewrite <- app_assoc; reflexivity|].
    intros i j m s Hi Hj _. cbv zeta.
    set (gl := members (seq 0 G) ag i). set (tl := members (seq 0 T) at' j).
    assert (Hgl : forall g, In g gl -> g < G) by (intros g; apply member_range; exact Hi).
    assert (Htl : forall t, In t tl -> t < T) by (intros t; apply member_range; exact Hj).
    cbn [n_at]. unfold place.
    replace (position ag i ++ position at' j ++ [stat_place m] ++ [set_place s])
      with (((position ag i ++ position at' j) ++ [stat_place m]) ++ [set_place s])
      by (rewrite <- !app_assoc; reflexivity).
    destruct (cell_split ((position ag i ++ position at' j) ++ [stat_place m]) (set_place s)) as [-> ->].
    destruct (cell_split (position ag i ++ position at' j) (stat_place m)) as [-> ->].
    replace (nth (stat_place m) stats_order Mean) with m by (destruct m; reflexivity).
    assert (Val : forall c d, n_at y (set_place s :: c :: d :: position ag i ++ position at' j)
              = nan_cell gl tl (fun g t => n_at both [set_place s; c; d; g; t])).
    { intros c d. exact (Vy [set_place s; c; d] i j eq_refl Hi Hj). }
    split.
    + intros Hin.
      rewrite (cell_values _ (fun k => Some (total gl (fun g => total tl (fun t => F k g t))))).
      * apply cell_stat_some; auto.
      * intros c d Hcc Hd. rewrite Val. apply nan_cell_some. intros g t Hg Ht.
        rewrite Vb by auto. rewrite Hin by assumption. reflexivity.
    + intros (g & t & Hg & Ht & Hout).
      rewrite (cell_values _ (fun _ => None)).
      * apply cell_stat_none; auto.
      * intros c d Hcc Hd. rewrite Val. apply (nan_cell_none gl tl _ g t Hg Ht). rewrite Vb by auto. rewrite Hout. reflexivity.
  - destruct (n_aggregate_lemma (counts x) G T (by_chain n_chains n_draws E) [n_chains; n_draws] ag at' Sh) as (y & Ey & Sy & Vy).
    { rewrite Sh. exact (resolve_false x n_draws [n_chains] Hla). }
    fold G T. rewrite Ey. cbn [rbind]. unfold reduce_draws. rewrite Sy. cbn [app].
    rewrite check_level_ok by (assumption || exact Hpos).
    eexists. split; [reflexivity|]. split; [cbn [n_shape]; rewrite <- app_assoc; reflexivity|].
    intros i j m s Hi Hj Hs. cbv zeta. rewrite (Hs eq_refl).
    set (gl := members (seq 0 G) ag i). set (tl := members (seq 0 T) at' j).
    assert (Hgl : forall g, In g gl -> g < G) by (intros g; apply member_range; exact Hi).
    assert (Htl : forall t, In t tl -> t < T) by (intros t; apply member_range; exact Hj).
    cbn [n_at]. unfold place. rewrite app_nil_r.
    replace (position ag i ++ position at' j ++ [stat_place m])
      with ((position ag i ++ position at' j) ++ [stat_place m]) by (rewrite <- !app_assoc; reflexivity).
    destruct (cell_split (position ag i ++ position at' j) (stat_place m)) as [-> ->].
    replace (nth (stat_place m) stats_order Mean) with m by (destruct m; reflexivity).
    split.
    + intros _.
      rewrite (cell_values _ (fun k => Some (total gl (fun g => total tl (fun t => F k g t))))).
      * apply cell_stat_some; auto.
      * intros c d Hcc Hd. rewrite (Vy [c; d] i j eq_refl Hi Hj : n_at y (c :: d :: position ag i ++ position at' j) = _).
        apply nan_cell_some. intros g t Hg Ht. cbn [app]. unfold by_chain. cbn [n_at]. f_equal.
        apply HV; auto. apply index_in_range; assumption.
    + intros (g & t & _ & _ & Hout). discriminate.
Qed.
End Table.

(** The scenario without media is admissible new data. *)
Lemma scenario_lemma : forall x v, well_formed x -> baseline_ok x v -> 0 < x_n_geos x -> media_nonneg x no_data ->
  exists b, build_baseline_data x v = Ok (no_media_scenario x b) /\
    (forall c, c < n_chans (d_non_media (x_data x)) -> is_baseline_value x v c (b c)) /\
    new_data_ok x (no_media_scenario x b) /\ media_nonneg x (no_media_scenario x b).
Proof.
  intros x v W Hv G0 Mn.
  assert (H : exists b, build_baseline_data x v = Ok (no_media_scenario x b) /\
    (forall c, (c < n_chans (d_non_media (x_data x)))%nat -> is_baseline_value x v c (b c))).
  { unfold build_baseline_data. rewrite (numbers_run x) by assumption. cbn [rbind]. cbv zeta.
    unfold no_media_scenario, held_at. pose proof (wf_nm x W) as Dn.
    destruct (d_non_media (x_data x)) as [n|] eqn:En.
    - destruct (baseline_runs x v Hv ltac:(congruence)) as [b Hbb]. rewrite Hbb.
      exists b. split; [reflexivity|]. cbn [n_chans]. intros c Hc. cbn in Dn. destruct Dn as [D1 D2].
      pose proof (wf_times x W). apply (baseline_value_computed x v n b c En D1); auto; try lia.
      intros g k Hgk. apply (wf_population x W). exact Hgk.
    - exists (fun _ => 0%R). split; [reflexivity|]. cbn. intros c Hc. lia. }
  destruct H as (b & Hbd & Hbv). exists b. split; [exact Hbd|]. split; [exact Hbv|].
  split.
  - unfold new_data_ok, no_media_scenario, held_at. cbn [d_media d_reach d_frequency d_organic_media d_organic_reach d_organic_frequency d_non_media d_controls d_revenue_per_kpi].
    assert (Z : forall y, fits (option_map zeroed y) y) by (intros [y|]; cbn; unfold same_shape; auto).
    assert (Z1 : forall y, fits y y) by (intros [y|]; cbn; unfold same_shape; auto).
    assert (Z0 : forall y, fits None y) by (intros [y|]; exact Logic.I).
    repeat split; auto. destruct (d_non_media (x_data x)); cbn; unfold same_shape; auto.
  - destruct Mn as (M1 & M2 & M3 & M4). unfold media_nonneg, given, no_media_scenario in *.
    cbn [d_media d_reach d_frequency d_organic_media d_organic_reach d_organic_frequency no_data] in *.
    assert (Z : forall y, nonneg (option_map zeroed y)) by (intros [y|]; cbn; auto; intros; lra).
    refine (conj _ (conj M2 (conj _ M4))).
    + pose proof (Z (d_media (x_data x))) as Q. destruct (d_media (x_data x)); exact Q.
    + pose proof (Z (d_organic_media (x_data x))) as Q. destruct (d_organic_media (x_data x)); exact Q.
Qed.

Section Request.
Variables (x : model) (h : option (matrix bool)) (n_chains n_draws : nat) (values : option (list baseline_value))
  (level : R) (bs : Z) (draws : list draw).
Hypothesis V : fit_request x h n_chains n_draws values level bs draws.
Hypothesis G0 : 0 < x_n_geos x.
Let G := x_n_geos x.
Let T := x_n_times x.
Let z : tensor := mkTensor [] (fun _ => 0%R).

Lemma acc_request : accuracy_request x h None None bs draws.
Proof.
  destruct V. constructor; auto; try exact Logic.I. cbn [chosen_geos]. intros H. apply (f_equal (@length nat)) in H.
  rewrite seq_length in H. cbn in H. lia.
Qed.

Lemma draws_lemma : forall nd uk, new_data_ok x nd -> media_nonneg x nd -> forall w0,
  exists E, expected_outcome x nd None None false false true (resolve_use_kpi x uk) bs draws = Ok E /\
    length E = n_chains * n_draws /\
    (forall k, k < n_chains * n_draws -> shape (nth k E z) = [G; T]) /\
    forall k g t, k < n_chains * n_draws -> g < G -> t < T ->
      at_ (nth k E z) [g; t] = outcome_in_units x true uk g t (predictor x nd (nth k draws w0) g t).
Proof.
  intros nd uk Hnd Hmn w0. destruct V as [W K Ho Dr Nb Ne Hb Hl Hv Mn Tr].
  destruct (expected_documented x nd None None false false true (resolve_use_kpi x uk) bs draws W Dr Ne Hb
    Logic.I Logic.I (or_introl eq_refl) Hnd Hmn Tr) as (E & HE & HLE & VE).
  exists E. split; [exact HE|]. split; [congruence|].
  cbn [chosen_geos chosen_times] in VE. rewrite !seq_length in VE. rewrite <- Nb.
  split.
  - intros k Hk. destruct (VE k w0 z Hk) as [S _]. exact S.
  - intros k g t Hk Hg Ht. destruct (VE k w0 z Hk) as [_ Vk]. specialize (Vk g t (fun _ => Hg) (fun _ => Ht)).
    cbn [position app] in Vk. rewrite Vk. unfold members, total. cbn [map lsum]. rewrite !nth_seq0 by assumption.
    rewrite (outcome_twice x h None None uk bs draws acc_request). ring.
Qed.

Lemma map_draws : forall (f : draw -> R) w0, map (fun k => f (nth k draws w0)) (seq 0 (n_chains * n_draws)) = map f draws.
Proof.
  intros f w0. rewrite <- (fr_number _ _ _ _ _ _ _ _ V). rewrite <- (map_map (fun k => nth k draws w0) f).
  rewrite map_nth_seq. reflexivity.
Qed.

Lemma actual_lemma : forall uk ag at', exists input out,
  (if resolve_use_kpi x uk then Ok (of2 (x_kpi x))
   else match d_revenue_per_kpi (x_data x) with
        | Some r => Ok (of2 (mkT2 (geos2 (x_kpi x)) (times2 (x_kpi x)) (fun g t => (val2 (x_kpi x) g t * val2 r g t)%R)))
        | None => Err TypeError end) = Ok input /\
  filter_and_aggregate (counts x) G T input None None ag at' false false = Ok out /\
  shape out = (if ag then [] else [G]) ++ (if at' then [] else [T]) /\
  forall i j, (ag = false -> i < G) -> (at' = false -> j < T) ->
    at_ out (position ag i ++ position at' j)
    = total (members (seq 0 G) ag i) (fun g => total (members (seq 0 T) at' j) (fun t => actual_outcome x uk g t)).
Proof.
  intros uk ag at'. pose proof (fr_model _ _ _ _ _ _ _ _ V) as W. pose proof (fr_kpi _ _ _ _ _ _ _ _ V) as [Kg Kt].
  assert (I : exists input, (if resolve_use_kpi x uk then Ok (of2 (x_kpi x))
   else match d_revenue_per_kpi (x_data x) with
        | Some r => Ok (of2 (mkT2 (geos2 (x_kpi x)) (times2 (x_kpi x)) (fun g t => (val2 (x_kpi x) g t * val2 r g t)%R)))
        | None => Err TypeError end) = Ok input /\ shape input = [x_n_geos x; x_n_times x] /\
        forall g t, at_ input [g; t] = actual_outcome x uk g t).
  { rewrite (resolve_kpi_spec x uk W). unfold actual_outcome. pose proof (wf_rpk x W) as Wr. unfold outcome_is_kpi.
    destruct (d_revenue_per_kpi (x_data x)) as [r|].
    - destruct (uk && negb (x_kpi_is_revenue x)); eexists; (split; [reflexivity|]); cbn; rewrite Kg, Kt;
        (split; [reflexivity|]); intros; ring.
    - eexists. split; [reflexivity|]. cbn. rewrite Kg, Kt. split; [reflexivity|]. intros. ring. }
  destruct I as (input & Ei & Es & Ev).
  destruct (filter_no_media_lemma (counts x) (x_n_geos x) (x_n_times x) (x_n_times x) input [] None None ag at' false false)
    as (out & Ho & So & Vo); [exact Es|exact Logic.I|exact Logic.I| |].
  { split; [reflexivity|]. intros c _. rewrite Es. cbn. discriminate. }
  exists input, out. split; [exact Ei|]. split; [exact Ho|]. split.
  - rewrite So. unfold dimension, selection. rewrite !seq_length. reflexivity.
  - intros i j Hi Hj. specialize (Vo [] i j eq_refl). cbn [app] in Vo. unfold selection in Vo. rewrite !seq_length in Vo.
    rewrite (Vo Hi Hj). unfold cell, selection. unfold total. f_equal. apply map_ext. intros g. f_equal. apply map_ext.
    intros t. apply Ev.
Qed.

Lemma fit_lemma : forall ag at' uk split, ~ lookalike x n_draws ->
  let sp := can_split split h in
  exists d b, expected_vs_actual x h n_chains n_draws ag at' uk split values level bs draws = Ok d /\
    (forall c, c < n_chans (d_non_media (x_data x)) -> is_baseline_value x values c (b c)) /\
    f_metric d = [Mean; CiLo; CiHi] /\
    f_geo d = (if ag then None else Some (x_geo x)) /\ f_time d = (if at' then None else Some (x_time x)) /\
    f_set d = sets_of sp /\ f_level d = level /\
    forall i j, (ag = false -> i < G) -> (at' = false -> j < T) ->
      let gl := members (seq 0 G) ag i in
      let tl := members (seq 0 T) at' j in
      at_ (f_actual d) (position ag i ++ position at' j) = total gl (fun g => total tl (fun t => actual_outcome x uk g t)) /\
      forall m s, (sp = None -> s = AllData) ->
        ((forall g t, In g gl -> In t tl -> in_set sp s g t = true) ->
         exists e r, n_at (f_expected d) (place ag at' (f_set d) i j m s) = Some e /\
           n_at (f_baseline d) (place ag at' (f_set d) i j m s) = Some r /\
           is_stat level (map (cell_outcome x no_data uk gl tl) draws) m e /\
           is_stat level (map (cell_outcome x (no_media_scenario x b) uk gl tl) draws) m r) /\
        ((exists g t, In g gl /\ In t tl /\ in_set sp s g t = false) ->
         n_at (f_expected d) (place ag at' (f_set d) i j m s) = None /\
         n_at (f_baseline d) (place ag at' (f_set d) i j m s) = None).
Proof.
  intros ag at' uk split Hla sp.
  assert (Hw0 : exists w0 : draw, True).
  { pose proof (fr_some _ _ _ _ _ _ _ _ V). destruct draws as [|w0 dr]; [congruence|exists w0; exact Logic.I]. }
  destruct Hw0 as [w0 _].
  assert (Hpos : n_chains * n_draws <> 0).
  { rewrite <- (fr_number _ _ _ _ _ _ _ _ V). pose proof (fr_some _ _ _ _ _ _ _ _ V). destruct draws; [congruence|discriminate]. }
  destruct (scenario_lemma x values (fr_model _ _ _ _ _ _ _ _ V) (fr_baseline _ _ _ _ _ _ _ _ V) G0 (fr_media _ _ _ _ _ _ _ _ V))
    as (b & Hbd & Hbv & Hnd & Hmn).
  destruct (draws_lemma no_data uk (new_none x) (fr_media _ _ _ _ _ _ _ _ V) w0) as (E & HE & LE & SE & VE).
  destruct (draws_lemma (no_media_scenario x b) uk Hnd Hmn w0) as (B & HB & LB & SB & VB).
  assert (Hsp : holdout_ok x sp).
  { unfold sp, can_split. destruct split; [exact (fr_holdout _ _ _ _ _ _ _ _ V)|exact Logic.I]. }
  destruct (table_lemma x n_chains n_draws E _ LE Hpos SE VE sp ag at' level Hla (fr_level _ _ _ _ _ _ _ _ V) Hsp) as (oe & Ee & Soe & Voe).
  destruct (table_lemma x n_chains n_draws B _ LB Hpos SB VB sp ag at' level Hla (fr_level _ _ _ _ _ _ _ _ V) Hsp) as (ob & Eb & Sob & Vob).
  destruct (actual_lemma uk ag at') as (input & oa & Ei & Ea & Soa & Voa).
  fold G T in Soe, Sob, Voe, Vob.
  pose proof (wf_time x (fr_model _ _ _ _ _ _ _ _ V)) as Wt.
  assert (Dg : coord_dim (if ag then None else Some (x_geo x)) = (if ag then [] else [G])) by (destruct ag; reflexivity).
  assert (Dt : coord_dim (if at' then None else Some (x_time x)) = (if at' then [] else [T])) by (destruct at'; cbn [coord_dim]; rewrite ?Wt; reflexivity).
  eexists (mkFit _ _ _ _ _ _ _ _), b. split.
  { unfold expected_vs_actual. cbv zeta. fold sp. rewrite HE. cbn [rbind]. rewrite Ee. cbn [rbind].
    unfold baseline_expected_outcome. rewrite Hbd. cbn [rbind]. rewrite HB. cbn [rbind]. rewrite Eb. cbn [rbind].
    rewrite Ei. cbn [rbind]. fold G T. rewrite Ea. cbn [rbind]. rewrite Dg, Dt.
    fold (sets_of sp). rewrite Soe, Sob, Soa, <- !app_assoc. cbn [length stats_order].
    assert (R : forall l, shape_eqb l l = true) by (intros l; apply P_Budget.shape_eqb_iff; reflexivity).
    rewrite !R. cbn [andb negb raise_if]. reflexivity. }
  split; [exact Hbv|]. cbn [f_metric f_geo f_time f_set f_level f_expected f_baseline f_actual].
  do 5 (split; [reflexivity|]).
  intros i j Hi Hj. cbv zeta. split; [exact (Voa i j Hi Hj)|].
  intros m s Hs. destruct (Voe i j m s Hi Hj Hs) as [Pe Ne]. destruct (Vob i j m s Hi Hj Hs) as [Pb Nb].
  split.
  - intros Hin. destruct (Pe Hin) as (e & Ie & Te). destruct (Pb Hin) as (r & Ir & Tr).
    exists e, r. split; [exact Ie|]. split; [exact Ir|]. split.
    + rewrite <- (map_draws (cell_outcome x no_data uk (members (seq 0 G) ag i) (members (seq 0 T) at' j)) w0). exact Te.
    + rewrite <- (map_draws (cell_outcome x (no_media_scenario x b) uk (members (seq 0 G) ag i) (members (seq 0 T) at' j)) w0). exact Tr.
  - intros Hout. split; [exact (Ne Hout)|exact (Nb Hout)].
Qed.

(** When the shape of the draws looks like values by channel, summing over the periods sums over
    the geos instead. *)
Lemma lookalike_media : lookalike x n_draws -> forall lead,
  resolve_media_dim (counts x) G T (mkTensor (lead ++ [n_draws; G; T]) (fun _ => 0%R)) false false = Ok true.
Proof.
  intros (E1 & E2 & c & Hc & Ec) lead. unfold resolve_media_dim. cbn [M_Budget.shape].
  rewrite (last_dims_exact 3 lead [n_draws; G; T] eq_refl).
  assert (S : shape_with_media (counts x) G T [n_draws; G; T] = true); [|rewrite S; reflexivity].
  apply shape_with_media_spec. exists T. split.
  - unfold allowed_channel_dim, T. apply in_or_app. destruct Ec as [Ec|Ec]; [left|right]; rewrite Ec; [exact Hc|].
    apply in_map. exact Hc.
  - unfold G, T. congruence.
Qed.

Lemma swapped_lemma : forall nd uk E, lookalike x n_draws -> forall w0,
  length E = n_chains * n_draws ->
  (forall k, k < n_chains * n_draws -> shape (nth k E z) = [G; T]) ->
  (forall k g t, k < n_chains * n_draws -> g < G -> t < T ->
      at_ (nth k E z) [g; t] = outcome_in_units x true uk g t (predictor x nd (nth k draws w0) g t)) ->
  exists out, mean_and_ci_by_eval_set x (by_chain n_chains n_draws E) None false true level = Ok out /\
    n_shape out = [T; 3] /\
    forall i m, i < T -> exists r, n_at out (place false true None i 0 m AllData) = Some r /\
      is_stat level (map (cell_outcome x nd uk (seq 0 G) [i]) draws) m r.
Proof.
  intros nd uk E Hla w0 LE SE VE.
  assert (Hpos : n_chains * n_draws <> 0).
  { rewrite <- (fr_number _ _ _ _ _ _ _ _ V). pose proof (fr_some _ _ _ _ _ _ _ _ V). destruct draws; [congruence|discriminate]. }
  pose proof (by_chain_shape x n_chains n_draws E _ LE Hpos SE VE) as Sh. fold G T in Sh.
  cbn [mean_and_ci_by_eval_set]. unfold n_aggregate. fold G T. rewrite Sh.
  rewrite (lookalike_media Hla [n_chains] : resolve_media_dim _ _ _ (mkTensor [n_chains; n_draws; G; T] _) _ _ = Ok true).
  cbn [rbind length Nat.sub]. unfold reduce_draws.
  replace (n_shape (n_sum_axis (by_chain n_chains n_draws E) 2)) with [n_chains; n_draws; T]
    by (unfold n_sum_axis; cbn [n_shape]; rewrite Sh; reflexivity).
  rewrite check_level_ok by (exact (fr_level _ _ _ _ _ _ _ _ V) || exact Hpos).
  eexists. split; [reflexivity|]. split; [reflexivity|].
  intros i m Hi. cbn [n_at place position app removelast last].
  replace (nth (stat_place m) stats_order Mean) with m by (destruct m; reflexivity).
  rewrite (cell_values x n_chains n_draws E LE Hpos _ (fun k => Some (cell_outcome x nd uk (seq 0 G) [i] (nth k draws w0)))).
  - rewrite <- (map_draws (cell_outcome x nd uk (seq 0 G) [i]) w0). apply cell_stat_some; auto.
    + intros H. apply (f_equal (@length nat)) in H. rewrite seq_length in H. cbn in H. lia.
    + exact (fr_level _ _ _ _ _ _ _ _ V).
  - intros c d Hc Hd. unfold n_sum_axis. cbn [n_at]. rewrite Sh. cbn [nth].
    unfold cell_outcome, total. apply nan_sum_some. intros g Hg. apply in_seq in Hg.
    unfold insert_at. cbn [firstn skipn app]. unfold by_chain. cbn [n_at]. change (mkTensor [] (fun _ => 0%R)) with z.
    rewrite VE by (try (apply (index_in_range x n_chains n_draws E LE Hpos); assumption); lia). cbn [map lsum]. f_equal. ring.
Qed.

Lemma swapped_table : forall uk split, can_split split h = None -> lookalike x n_draws ->
  exists d, expected_vs_actual x h n_chains n_draws false true uk split values level bs draws = Ok d /\
    f_geo d = Some (x_geo x) /\
    forall i m, i < G -> exists e, n_at (f_expected d) (place false true (f_set d) i 0 m AllData) = Some e /\
      is_stat level (map (cell_outcome x no_data uk (seq 0 G) [i]) draws) m e.
Proof.
  intros uk split Hsp Hla.
  assert (Hw0 : exists w0 : draw, True).
  { pose proof (fr_some _ _ _ _ _ _ _ _ V). destruct draws as [|w0 dr]; [congruence|exists w0; exact Logic.I]. }
  destruct Hw0 as [w0 _].
  destruct (scenario_lemma x values (fr_model _ _ _ _ _ _ _ _ V) (fr_baseline _ _ _ _ _ _ _ _ V) G0 (fr_media _ _ _ _ _ _ _ _ V))
    as (b & Hbd & Hbv & Hnd & Hmn).
  destruct (draws_lemma no_data uk (new_none x) (fr_media _ _ _ _ _ _ _ _ V) w0) as (E & HE & LE & SE & VE).
  destruct (draws_lemma (no_media_scenario x b) uk Hnd Hmn w0) as (B & HB & LB & SB & VB).
  destruct (swapped_lemma no_data uk E Hla w0 LE SE VE) as (oe & Ee & Soe & Voe).
  destruct (swapped_lemma (no_media_scenario x b) uk B Hla w0 LB SB VB) as (ob & Eb & Sob & Vob).
  destruct (actual_lemma uk false true) as (input & oa & Ei & Ea & Soa & Voa).
  assert (GT : T = G) by (destruct Hla as (_ & H & _); exact H).
  eexists (mkFit _ _ _ _ _ _ _ _). split.
  { unfold expected_vs_actual. cbv zeta. rewrite Hsp, HE. cbn [rbind]. rewrite Ee. cbn [rbind].
    unfold baseline_expected_outcome. rewrite Hbd. cbn [rbind]. rewrite HB. cbn [rbind]. rewrite Eb. cbn [rbind].
    rewrite Ei. cbn [rbind]. fold G T. rewrite Ea. cbn [rbind].
    rewrite Soe, Sob, Soa, GT. cbn [coord_dim app length stats_order]. fold (x_n_geos x). fold G.
    assert (R : forall l, shape_eqb l l = true) by (intros l; apply P_Budget.shape_eqb_iff; reflexivity).
    rewrite !R. cbn [andb negb raise_if]. reflexivity. }
  cbn [f_geo f_set f_expected]. split; [reflexivity|]. intros i m Hi. apply Voe. rewrite GT. exact Hi.
Qed.
End Request.
