(** Proofs about the tables of contributions: what the numbers in them are. *)
From Coq Require Import Reals ZArith Lia Lra String List Bool Arith Permutation Sorted.
From Verif Require Import Lib_Sum Lib_Sort M_Base M_AdstockHill M_Equations M_Transformers M_Aggregate
  S_Aggregate S_Adstock S_Media S_Analyzer M_Analyzer S_Predictor S_Paid M_Stats S_Stats M_Summary S_Roi
  S_Summary P_Summary P_Contribution M_MediaSummary S_MediaSummary P_MediaSummary P_MediaCalls.
Import ListNotations.
Local Open Scope R_scope.
Local Open Scope string_scope.
Local Open Scope list_scope.

Lemma resolve_twice : forall x uk, (x_kpi_is_revenue x = true -> d_revenue_per_kpi (x_data x) <> None) ->
  resolve_use_kpi x (resolve_use_kpi x uk) = resolve_use_kpi x uk.
Proof.
  intros x uk H. unfold resolve_use_kpi. destruct (x_kpi_is_revenue x); destruct (d_revenue_per_kpi (x_data x)); destruct uk;
    cbn; try reflexivity; exfalso; apply H; reflexivity.
Qed.
Lemma summary_units : forall f nd br inc gs ts ag at' q uk1 uk2 level bs np bl,
  resolve_use_kpi (f_x f) uk1 = resolve_use_kpi (f_x f) uk2 ->
  summary_metrics f nd br inc gs ts ag at' q uk1 level bs np bl = summary_metrics f nd br inc gs ts ag at' q uk2 level bs np bl.
Proof. intros. unfold summary_metrics. cbv zeta. rewrite H. reflexivity. Qed.

Lemma dates_perm : forall x l, well_formed x -> NoDup (x_time x) -> NoDup l -> Forall (fun t => In t (x_time x)) l ->
  Permutation l (period_names x (Some (TDates l))).
Proof.
  intros x l W N1 N2 H. unfold period_names. cbn [chosen_times]. rewrite <- (wf_time x W).
  apply filter_sublist_length; assumption.
Qed.
Lemma periods_nodup : forall x ts, well_formed x -> NoDup (x_time x) -> times_ok x ts -> NoDup (period_names x ts).
Proof.
  intros x ts W N T. unfold period_names.
  assert (G : forall l : list nat, NoDup l -> (forall i, In i l -> (i < length (x_time x))%nat) ->
    NoDup (map (fun t => nth t (x_time x) "") l)).
  { induction l as [|i l IH]; intros Hl Hi; [constructor|]. inversion Hl as [|? ? Hn Hl']; subst. cbn [map].
    constructor; [|apply IH; [exact Hl'|intros; apply Hi; right; assumption]].
    intros C. apply in_map_iff in C. destruct C as (k & E & Hk). apply Hn.
    assert (k = i); [|subst; exact Hk]. apply (nodup_nth_inj (x_time x) k i N); auto using in_eq, in_cons. }
  destruct ts as [[l|l]|]; cbn [chosen_times]; apply G; try (apply NoDup_filter); try apply seq_NoDup;
    intros i Hi; try (apply filter_In in Hi; destruct Hi as [Hi _]); apply in_seq in Hi; rewrite (wf_time x W); lia.
Qed.

Lemma rsum_zero' : forall n, rsum n (fun _ => 0) = 0.
Proof. induction n as [|n IH]; [reflexivity|]. cbn [rsum]. rewrite IH. ring. Qed.

(** The table, once its summary is known. *)
Section Now.
Variables (m : media_summary) (np at' : bool) (s : summary) (names L : list string) (pct : bool -> variable)
  (o : nat -> nat -> R) (E : nat -> R).
Let n := if at' then 1%nat else length L.
Let all := names ++ [ALL_CHANNELS].
Hypotheses (Hs : compute np m at' = Ok s)
  (Hch : sm_channel s = all) (Hnd : NoDup all)
  (Htime : sm_time s = if at' then None else Some L) (HL : NoDup L)
  (Hpc : sm_contribution s = Some pct)
  (Hinc : forall j c, (j < n)%nat -> (c <= length names)%nat ->
     mean_at (sm_incremental s true) (position at' j ++ [c]) = Some (o j c))
  (Hpct : forall j c, (j < n)%nat -> (c <= length names)%nat -> E j <> 0 ->
     mean_at (pct true) (position at' j ++ [c]) = Some (100 * o j c / E j))
  (Hsel : forall l, at' = false -> chosen_labels m = Some l -> Permutation l L)
  (Hall : at' = false -> chosen_labels m = None -> exists a, compute true m false = Ok a /\ sm_time a = Some L).

Lemma now_unknown : forall a l, ~ Forall (fun b => In b all) (a :: l) ->
  table_now m (Some (a :: l)) np at' = Err KeyError.
Proof.
  intros a l H. unfold table_now. rewrite Hs. cbn [rbind]. unfold channel_rows. rewrite Hpc. cbn [rbind shown].
  rewrite Hch, (locs_unknown all (a :: l) Hnd H). reflexivity.
Qed.
Lemma now_table : forall selected, Forall (fun a => In a all) (rows_shown names selected) ->
  exists T, table_now m selected np at' = Ok T /\ StronglySorted precedes T /\
    Permutation T (flat_map (fun j => base_row s names L at' pct j ::
      map (fun a => chan_row s names L at' pct j (where_ names a)) (rows_shown names selected)) (seq 0 n)).
Proof.
  intros selected H. unfold table_now. rewrite Hs. cbn [rbind].
  destruct (channel_rows_ok s names L at' n pct o E Hch Hnd Htime eq_refl Hpc Hinc Hpct selected H) as (ks & _ & _ & Ec).
  rewrite Ec. cbn [rbind].
  assert (B : exists base is_, (if at' then baseline_rows s None None
         else match chosen_labels m with
              | Some l => baseline_rows s (Some l) (Some l)
              | None => rbind (compute true m false) (fun a => rbind (times_or_none a) (fun ts =>
                        rbind (times_or_none s) (fun ls => baseline_rows s (Some ts) (Some ls))))
              end) = Ok base /\ Permutation is_ (seq 0 n) /\ base = map (base_row s names L at' pct) is_).
  { destruct (Bool.bool_dec at' true) as [A|A].
    - exists (map (base_row s names L at' pct) (seq 0 n)), (seq 0 n).
      rewrite (baseline_aggregated s names L at' n pct Hch Hnd eq_refl Hpc A).
      rewrite A. auto.
    - apply not_true_is_false in A.
      assert (R : forall l, Permutation l L -> exists base is_, baseline_rows s (Some l) (Some l) = Ok base /\
                 Permutation is_ (seq 0 n) /\ base = map (base_row s names L at' pct) is_).
      { intros l P. destruct (baseline_periods s names L at' n pct Hch Hnd Htime HL eq_refl Hpc l A P) as (is_ & P1 & P2).
        exists (map (base_row s names L at' pct) is_), is_. auto. }
      assert (Eat : at' = false) by exact A.
      destruct (chosen_labels m) as [l|] eqn:C.
      + destruct (R l (Hsel l A eq_refl)) as (base & is_ & R1 & R2 & R3). exists base, is_. rewrite A at 1. auto.
      + destruct (Hall A eq_refl) as (a & Ea & Ta). destruct (R L (Permutation_refl _)) as (base & is_ & R1 & R2 & R3).
        exists base, is_. rewrite A at 1. rewrite Ea. cbn [rbind]. unfold times_or_none. rewrite Ta. cbn [rbind].
        rewrite Htime, A. cbn [rbind]. rewrite <- A at 1. auto. }
  destruct B as (base & is_ & -> & P & Eb). cbn [rbind]. eexists. split; [reflexivity|].
  apply (table_rows s names L at' n pct o E Hch Hnd Htime eq_refl Hpc Hinc Hpct selected base _ H); [exists is_; auto|exact Ec].
Qed.
End Now.

Section Tables.
Variables (f : fitted) (g : settings) (at' : bool).
Hypothesis V : media_request f g at'.
Let x := f_x f.
Let m := new_media_summary f g.
Let ts := dates g.

Lemma all_named : chosen_labels m = match g_times g with Some (a :: l) => Some (a :: l) | _ => None end.
Proof. reflexivity. Qed.
Lemma chosen_perm : forall l, chosen_labels m = Some l -> Permutation l (period_names x ts).
Proof.
  intros l H. rewrite all_named in H. destruct V as [_ [W _ _ _ _ _ _ _ _ _ Ht _ Nt _ Hd _] _ _].
  unfold ts, dates in *. destruct (g_times g) as [[|a k]|]; try discriminate. inversion H; subst l.
  cbn [option_map] in *. apply dates_perm; assumption.
Qed.

Lemma compute_raw : forall np b, compute np m b =
  summary_metrics f no_new (if np then true else g_by_reach g) (1 / 100) None ts true b None (g_use_kpi g) (g_level g) 100
    np (if np then g_baseline g else None).
Proof.
  intros np b. destruct np; unfold compute, compute_all, compute_paid, m, new_media_summary, ts, dates;
    cbn [ms_settings ms_model g_use_kpi g_level g_by_reach g_baseline g_times]; apply summary_units; apply resolve_twice;
    exact (mr_units _ _ _ V).
Qed.

(** The summary of all channels when times are not aggregated: only its periods are used. *)
Lemma all_periods : at' = false -> exists a, compute true m false = Ok a /\ sm_time a = Some (period_names x ts).
Proof.
  intros A. rewrite compute_raw. pose proof (mr_all _ _ _ V) as C. rewrite A in C.
  destruct (full_lemma f (g_baseline g) true (1 / 100) None ts true false (g_use_kpi g) (g_level g) 100 C ltac:(lra))
    as (s & b & Hs & _ & _ & _ & _ & _ & T & _). exists s. split; [exact Hs|exact T].
Qed.

Definition np_names (np : bool) : list string := if np then f_paid_names f ++ f_other_names f else f_paid_names f.
Lemma nodup_drop : forall A (l k r : list A), NoDup (l ++ k ++ r) -> NoDup (l ++ r).
Proof.
  intros A l k. induction k as [|a k IH]; intros r H; [exact H|]. apply IH. exact (NoDup_remove_1 l (k ++ r) a H).
Qed.
Lemma names_nodup : forall np, NoDup (np_names np ++ [ALL_CHANNELS]).
Proof.
  intros np. pose proof (mr_names _ _ _ V) as N. unfold np_names. destruct np.
  - rewrite <- app_assoc. exact N.
  - exact (nodup_drop _ _ _ _ N).
Qed.

Definition E_ (j : nat) : R := expected f g at' j.
Lemma n_periods_names : (if at' then 1%nat else length (period_names x ts)) = n_periods f g at'.
Proof. unfold n_periods, period_names. destruct at'; [reflexivity|apply map_length]. Qed.
Lemma names_lab : forall j, lab (period_names x ts) at' j = period_label f g at' j.
Proof. intros j. reflexivity. Qed.

Section Build.
Variables (np : bool) (s : summary) (pct : bool -> variable) (o : nat -> nat -> R).
Hypotheses (Hs : compute np m at' = Ok s)
  (Hch : sm_channel s = np_names np ++ [ALL_CHANNELS])
  (Htime : sm_time s = if at' then None else Some (period_names x ts))
  (Hpc : sm_contribution s = Some pct)
  (Hinc : forall j c, (j < n_periods f g at')%nat -> (c <= length (np_names np))%nat ->
     mean_at (sm_incremental s true) (position at' j ++ [c]) = Some (o j c))
  (Hpct : forall j c, (j < n_periods f g at')%nat -> (c <= length (np_names np))%nat -> E_ j <> 0 ->
     mean_at (pct true) (position at' j ++ [c]) = Some (100 * o j c / E_ j)).

Definition out_of (j : nat) (a : string) : R := o j (where_ (np_names np) a).
Lemma out_of_nth : forall j c, (c <= length (np_names np))%nat ->
  out_of j (nth c (np_names np ++ [ALL_CHANNELS]) "") = o j c.
Proof.
  intros j c Hc. unfold out_of. rewrite (where_nth (np_names np) (period_names x ts) at' (n_periods f g at') (names_nodup np)); auto.
  symmetry. apply n_periods_names.
Qed.
Lemma out_of_all : forall j, out_of j "All Channels" = o j (length (np_names np)).
Proof.
  intros j. rewrite <- (out_of_nth j (length (np_names np)) (le_n _)). f_equal.
  rewrite app_nth2 by lia. rewrite Nat.sub_diag. reflexivity.
Qed.
Lemma build : forall selected, Forall (fun a => In a (np_names np ++ [ALL_CHANNELS])) (rows_shown (np_names np) selected) ->
  exists T, table_now m selected np at' = Ok T /\
    contribution_table f g at' (rows_shown (np_names np) selected) out_of T.
Proof.
  intros selected H. pose proof n_periods_names as Np. pose proof (mr_all _ _ _ V) as C.
  assert (HL : NoDup (period_names x ts)).
  { apply periods_nodup; [exact (cr_model _ _ _ _ _ _ _ C)|exact (cr_time_names _ _ _ _ _ _ _ C)|exact (cr_times _ _ _ _ _ _ _ C)]. }
  pose proof (now_table m np at' s (np_names np) (period_names x ts) pct o E_ Hs Hch (names_nodup np) Htime HL Hpc) as NT.
  rewrite Np in NT.
  destruct (NT Hinc Hpct (fun l _ Cl => chosen_perm l Cl) (fun A _ => all_periods A) selected H) as (T & ET & ST & PT).
  exists T. split; [exact ET|]. constructor; [exact ST|].
  exists (base_row s (np_names np) (period_names x ts) at' pct),
    (fun j a => chan_row s (np_names np) (period_names x ts) at' pct j (where_ (np_names np) a)).
  split; [exact PT|]. intros j Hj.
  destruct (base_row_ok s (np_names np) (period_names x ts) at' (n_periods f g at') pct o E_ Hinc Hpct j Hj) as (B1 & B2 & B3 & B4 & B5).
  assert (R : forall a, In a (rows_shown (np_names np) selected) -> exists k, (k <= length (np_names np))%nat /\
      where_ (np_names np) a = k /\ nth k (np_names np ++ [ALL_CHANNELS]) "" = a).
  { intros a Ha. rewrite Forall_forall in H. specialize (H a Ha).
    destruct (In_nth _ _ "" H) as (k & Hk & Ek). rewrite app_length in Hk. cbn in Hk. exists k. split; [lia|].
    split; [|exact Ek]. rewrite <- Ek.
    apply (where_nth (np_names np) (period_names x ts) at' (n_periods f g at') (names_nodup np)); [symmetry; exact Np|lia]. }
  rewrite out_of_all. split; [exact B1|]. split; [exact B2|]. split.
  { intros a Ha. destruct (R a Ha) as (k & Hk & Ek & Nk).
    destruct (chan_row_ok s (np_names np) (period_names x ts) at' (n_periods f g at') pct o E_ Hinc Hpct j k Hj Hk) as (C1 & C2 & C3 & _).
    unfold out_of. rewrite Ek. split; [exact C1|]. split; [rewrite C2; exact Nk|exact C3]. }
  split.
  { intros He. split; [exact (B3 He)|]. intros a Ha. destruct (R a Ha) as (k & Hk & Ek & Nk).
    destruct (chan_row_ok s (np_names np) (period_names x ts) at' (n_periods f g at') pct o E_ Hinc Hpct j k Hj Hk) as (_ & _ & _ & C4).
    unfold out_of. rewrite Ek. exact (C4 He). }
  split; [exact B4|exact B5].
Qed.
Lemma build_unknown : forall a l, ~ Forall (fun b => In b (np_names np ++ [ALL_CHANNELS])) (a :: l) ->
  table_now m (Some (a :: l)) np at' = Err KeyError.
Proof. intros a l H. exact (now_unknown m np at' s (np_names np) pct Hs Hch (names_nodup np) Hpc a l H). Qed.
Lemma out_sum : forall j, o j (length (np_names np)) = rsum (length (np_names np)) (fun c => o j c) ->
  lsum (map (out_of j) (np_names np)) = out_of j "All Channels".
Proof.
  intros j H. rewrite out_of_all, H, (lsum_nth _ (out_of j) (np_names np) ""). apply rsum_ext. intros c Hc.
  rewrite <- (out_of_nth j c) by lia. f_equal. symmetry. apply app_nth1. exact Hc.
Qed.
End Build.

(** ** All channels *)
Lemma all_lemma : exists s b pct o,
  compute true m at' = Ok s /\
  baseline_summary_metrics f None ts true at' (g_baseline g) (g_use_kpi g) (g_level g) 100 = Ok b /\
  sm_channel s = np_names true ++ [ALL_CHANNELS] /\
  sm_time s = (if at' then None else Some (period_names x ts)) /\
  sm_contribution s = Some pct /\
  (forall j c, (j < n_periods f g at')%nat -> (c <= length (np_names true))%nat ->
     exists st, sm_incremental s true (position at' j ++ [c]) = Some st /\ o j c = st_mean st) /\
  (forall j c, (j < n_periods f g at')%nat -> (c <= length (np_names true))%nat -> E_ j <> 0 ->
     mean_at (pct true) (position at' j ++ [c]) = Some (100 * o j c / E_ j)) /\
  (forall j, (j < n_periods f g at')%nat ->
     o j (length (np_names true)) = rsum (length (np_names true)) (fun c => o j c) /\
     exists ob, bs_outcome b true (position at' j) = Some ob /\ o j (length (np_names true)) + st_mean ob = E_ j).
Proof.
  pose proof (mr_all _ _ _ V) as C.
  destruct (full_lemma f (g_baseline g) true (1 / 100) None ts true at' (g_use_kpi g) (g_level g) 100 C ltac:(lra))
    as (s & b & Hs & Hb & _ & _ & Hch & _ & Ht & _ & _ & pct & Hp & F).
  assert (Nn : length (np_names true) = n_treatments (f_x f)) by exact (cr_names _ _ _ _ _ _ _ C).
  exists s, b, pct, (fun j c => number (mean_at (sm_incremental s true) (position at' j ++ [c]))).
  split; [rewrite compute_raw; exact Hs|]. split; [exact Hb|].
  split; [rewrite Hch; unfold np_names; rewrite app_assoc; reflexivity|]. split; [exact Ht|]. split; [exact Hp|].
  assert (F' : forall j, (j < n_periods f g at')%nat -> _) by
    (intros j Hj; apply (F true 0%nat j); [discriminate|intros A; unfold n_periods in Hj; rewrite A in Hj; exact Hj]).
  cbn [position app] in F'. rewrite Nn. split; [|split].
  - intros j c Hj Hc. destruct (F' j Hj) as [(out & ob & O1 & _) _]. exists (out c).
    split; [exact (O1 c Hc)|]. unfold mean_at. rewrite (O1 c Hc). reflexivity.
  - intros j c Hj Hc He. destruct (F' j Hj) as [(out & ob & O1 & _) F2]. destruct (F2 He) as (pc & pb & P1 & _ & _ & _ & P5).
    unfold mean_at. rewrite (P1 c Hc), (O1 c Hc). cbn [option_map number]. rewrite (P5 c (out c) Hc (O1 c Hc)). reflexivity.
  - intros j Hj. destruct (F' j Hj) as [(out & ob & O1 & O2 & O3 & O4) _]. unfold mean_at. rewrite (O1 _ (le_n _)).
    cbn [option_map number]. split.
    + rewrite O3. apply rsum_ext. intros c Hc. rewrite (O1 c) by lia. reflexivity.
    + exists ob. split; [exact O2|exact O4].
Qed.

(** ** Paid channels *)
Lemma paid_row : forall c, (c <= n_paid x)%nat -> exists r, is_row x r /\ row x r = c.
Proof.
  intros c Hc. destruct (Nat.eq_dec c (n_paid x)) as [->|Ne]; [exists None; split; [exact Logic.I|reflexivity]|].
  unfold n_paid in *. destruct (lt_dec c (n_chans (d_media (x_data x)))) as [L|L].
  - exists (Some (ChMedia c)). split; [exact L|reflexivity].
  - exists (Some (ChRf (c - n_chans (d_media (x_data x))))). split; cbn [is_row is_paid is_channel row channel_index]; lia.
Qed.
Lemma mean_reports : forall v level l (F : draw -> R), l <> [] -> reports v level (map F l) ->
  option_map st_mean v = Some (lsum (map F l) / INR (length l)).
Proof.
  intros v level l F Hl (st & -> & M & _). cbn [option_map]. f_equal. rewrite map_length in M.
  assert (INR (length l) <> 0) by (apply not_0_INR; destruct l; [congruence|discriminate]).
  apply (Rmult_eq_reg_l (INR (length l))); [|assumption]. rewrite M. field. assumption.
Qed.
Lemma paid_lemma : exists s pct (o : nat -> nat -> R),
  compute false m at' = Ok s /\
  summary_table f no_new (g_by_reach g) (1 / 100) None ts true at' (g_use_kpi g) (g_level g) s /\
  sm_channel s = np_names false ++ [ALL_CHANNELS] /\
  sm_time s = (if at' then None else Some (period_names x ts)) /\
  sm_contribution s = Some pct /\
  (forall j c, (j < n_periods f g at')%nat -> (c <= length (np_names false))%nat ->
     mean_at (sm_incremental s true) (position at' j ++ [c]) = Some (o j c)) /\
  (forall j c, (j < n_periods f g at')%nat -> (c <= length (np_names false))%nat -> E_ j <> 0 ->
     mean_at (pct true) (position at' j ++ [c]) = Some (100 * o j c / E_ j)) /\
  (forall j r, (j < n_periods f g at')%nat -> is_row x r -> o j (row x r) = mean_gain f g at' r j).
Proof.
  pose proof (mr_paid _ _ _ V) as C.
  destruct (table_lemma f no_new (g_by_reach g) (1 / 100) None ts true at' (g_use_kpi g) (g_level g) 100 None C ltac:(lra) Logic.I)
    as (s & Hs & T & _).
  destruct (st_contribution _ _ _ _ _ _ _ _ _ _ _ T) as (pct & Hp & P).
  assert (Nn : length (np_names false) = n_paid x) by exact (sr_names _ _ _ _ _ _ C).
  pose proof (sr_some _ _ _ _ _ _ C true) as Ne.
  assert (Tab : forall j r, (j < n_periods f g at')%nat -> is_row x r -> in_table f None ts true at' r 0 j).
  { intros j r Hj Hr. split; [exact Hr|]. split; [discriminate|]. intros A. unfold n_periods in Hj. rewrite A in Hj. exact Hj. }
  assert (Inc : forall j r, (j < n_periods f g at')%nat -> is_row x r ->
    mean_at (sm_incremental s true) (position at' j ++ [row x r]) = Some (mean_gain f g at' r j)).
  { intros j r Hj Hr. pose proof (st_incremental _ _ _ _ _ _ _ _ _ _ _ T true r 0%nat j (Tab j r Hj Hr)) as I.
    unfold mean_at. unfold at_cell in I. cbn [position app] in I. exact (mean_reports _ _ _ _ Ne I). }
  exists s, pct, (fun j c => number (mean_at (sm_incremental s true) (position at' j ++ [c]))).
  split; [rewrite compute_raw; exact Hs|]. split; [exact T|].
  split; [rewrite (st_channels _ _ _ _ _ _ _ _ _ _ _ T); reflexivity|].
  split; [exact (st_times _ _ _ _ _ _ _ _ _ _ _ T)|]. split; [exact Hp|]. rewrite Nn. split; [|split].
  - intros j c Hj Hc. destruct (paid_row c Hc) as (r & Hr & <-). rewrite (Inc j r Hj Hr). reflexivity.
  - intros j c Hj Hc He. destruct (paid_row c Hc) as (r & Hr & <-). rewrite (Inc j r Hj Hr). cbn [number].
    pose proof (P true r 0%nat j (Tab j r Hj Hr) He) as Q. unfold at_cell in Q. cbn [position app] in Q.
    unfold mean_at. etransitivity; [exact (mean_reports _ _ _ _ Ne Q)|]. f_equal.
    unfold mean_gain, posterior_mean. fold x.
    rewrite (map_ext _ (fun w => 100 / E_ j * row_gain f no_new None ts true at' (g_use_kpi g) true 0 1 w r 0 j)).
    + rewrite lsum_map_scal. unfold E_. cbn [f_draws] in Ne |- *.
      assert (INR (length (f_posterior f)) <> 0) by (apply not_0_INR; destruct (f_posterior f); [congruence|discriminate]).
      fold ts. field. split; assumption.
    + intros w. unfold E_, expected. fold ts. field. exact He.
  - intros j r Hj Hr. rewrite (Inc j r Hj Hr). reflexivity.
Qed.
Lemma gain_sum : forall j, mean_gain f g at' None j = in_row x None (fun ch => mean_gain f g at' (Some ch) j).
Proof.
  intros j. unfold mean_gain, posterior_mean, row_gain. fold x. cbn [in_row]. unfold Rdiv.
  set (k := / INR (length (f_posterior f))). set (l := f_posterior f).
  rewrite !rsum_scal_r, <- Rmult_plus_distr_r. f_equal. clear k. induction l as [|w l IH].
  - cbn [map lsum]. rewrite !rsum_zero'. ring.
  - cbn [map lsum]. rewrite IH, !rsum_plus. ring.
Qed.
End Tables.

(** ** The rows of one period *)
Lemma filter_flat_map : forall A B (p : B -> bool) (F : A -> list B) l,
  filter p (flat_map F l) = flat_map (fun a => filter p (F a)) l.
Proof. intros A B p F l. induction l as [|a l IH]; [reflexivity|]. cbn [flat_map]. rewrite filter_app, IH. reflexivity. Qed.
Lemma flat_map_one : forall A B (G : A -> list B) l j, NoDup l -> In j l ->
  (forall i, In i l -> i <> j -> G i = []) -> flat_map G l = G j.
Proof.
  intros A B G l j Hn Hj H. induction l as [|a l IH]; [contradiction|]. inversion Hn as [|? ? Ha Hl]; subst. cbn [flat_map].
  destruct Hj as [->|Hj].
  - assert (Z : flat_map G l = []).
    { assert (K : forall k, In k l -> G k = []) by (intros k Hk; apply H; [right; exact Hk|intros ->; contradiction]).
      clear -K. induction l as [|b l IH]; [reflexivity|]. cbn [flat_map]. rewrite (K b) by (left; reflexivity).
      apply IH. intros; apply K; right; assumption. }
    rewrite Z, app_nil_r. reflexivity.
  - rewrite (H a) by (try (left; reflexivity); intros ->; contradiction). cbn [app]. apply IH; auto.
    intros i Hi. apply H. right. exact Hi.
Qed.
Lemma filter_all : forall A (p : A -> bool) l, (forall a, In a l -> p a = true) -> filter p l = l.
Proof.
  intros A p l. induction l as [|a l IH]; intros H; [reflexivity|]. cbn [filter]. rewrite (H a (or_introl eq_refl)), IH; [reflexivity|].
  intros; apply H; right; assumption.
Qed.
Lemma filter_none : forall A (p : A -> bool) l, (forall a, In a l -> p a = false) -> filter p l = [].
Proof.
  intros A p l. induction l as [|a l IH]; intros H; [reflexivity|]. cbn [filter]. rewrite (H a (or_introl eq_refl)).
  apply IH. intros; apply H; right; assumption.
Qed.
Lemma filter_perm : forall A (p : A -> bool) l k, Permutation l k -> Permutation (filter p l) (filter p k).
Proof.
  intros A p l k P. induction P; cbn [filter].
  - constructor.
  - destruct (p x); [constructor|]; assumption.
  - destruct (p y), (p x); try apply perm_swap; apply Permutation_refl.
  - etransitivity; eassumption.
Qed.
Lemma lsum_permutation : forall l k, Permutation l k -> lsum l = lsum k.
Proof. intros l k P. induction P; cbn [lsum]; lra. Qed.

Lemma period_rows : forall f g at' names out T j, media_request f g at' ->
  contribution_table f g at' names out T -> (j < n_periods f g at')%nat ->
  exists base chan, Permutation (rows_of (period_label f g at' j) T) (base :: map chan names) /\
    c_channel base = "baseline" /\
    (forall a, In a names -> c_channel (chan a) = a /\ c_outcome (chan a) = Some (out j a)) /\
    (expected f g at' j <> 0 ->
       c_pct base = Some (1 - out j "All Channels" / expected f g at' j) /\
       forall a, In a names -> c_pct (chan a) = Some (out j a / expected f g at' j)) /\
    (expected f g at' j <> 0 -> out j "All Channels" <> 0 ->
       c_outcome base = Some (expected f g at' j - out j "All Channels")) /\
    (expected f g at' j <> 0 -> out j "All Channels" = 0 -> c_outcome base = None) /\
    In base T.
Proof.
  intros f g at' names out T j V [_ (base & chan & P & H)] Hj.
  exists (base j), (chan j). destruct (H j Hj) as (H1 & H2 & H3 & H4 & H5 & H6).
  assert (HL : NoDup (period_names (f_x f) (dates g))).
  { pose proof (mr_all _ _ _ V) as C.
    apply periods_nodup; [exact (cr_model _ _ _ _ _ _ _ C)|exact (cr_time_names _ _ _ _ _ _ _ C)|exact (cr_times _ _ _ _ _ _ _ C)]. }
  split; [|split; [exact H2|split; [intros a Ha; apply (H3 a Ha)|split; [exact H4|split; [exact H5|split; [exact H6|]]]]]].
  - unfold rows_of. etransitivity; [apply filter_perm; exact P|]. rewrite filter_flat_map.
    rewrite (flat_map_one _ _ _ (seq 0 (n_periods f g at')) j); [| apply seq_NoDup | apply in_seq; lia |].
    + rewrite filter_all; [apply Permutation_refl|]. intros r Hr.
      assert (E : c_time r = period_label f g at' j).
      { destruct Hr as [<-|Hr]; [exact H1|]. apply in_map_iff in Hr. destruct Hr as (a & <- & Ha). apply (H3 a Ha). }
      rewrite E. destruct (period_label f g at' j) as [t|]; [|reflexivity]. destruct (string_dec t t); congruence.
    + intros i Hi Hne. apply in_seq in Hi. apply filter_none. intros r Hr. destruct (H i ltac:(lia)) as (K1 & _ & K3 & _).
      assert (E : c_time r = period_label f g at' i).
      { destruct Hr as [<-|Hr]; [exact K1|]. apply in_map_iff in Hr. destruct Hr as (a & <- & Ha). apply (K3 a Ha). }
      rewrite E. unfold period_label, n_periods in *. destruct at'; [exfalso; apply Hne; lia|].
      destruct (string_dec _ _) as [Q|Q]; [|reflexivity]. exfalso. apply Hne. symmetry.
      assert (Ln : length (period_names (f_x f) (dates g)) = length (chosen_times (f_x f) (dates g))) by apply map_length.
      apply (nodup_nth_inj _ j i HL); rewrite ?Ln; try lia. exact Q.
  - apply (Permutation_in _ (Permutation_sym P)). apply in_flat_map. exists j. split; [apply in_seq; lia|left; reflexivity].
Qed.

Lemma adds_up : forall f g at' names out T j, media_request f g at' ->
  contribution_table f g at' names out T -> lsum (map (out j) names) = out j "All Channels" ->
  (j < n_periods f g at')%nat -> expected f g at' j <> 0 ->
  lsum (map (fun r => number (c_pct r)) (rows_of (period_label f g at' j) T)) = 1 /\
  ((forall r, In r T -> c_outcome r <> None) ->
   lsum (map (fun r => number (c_outcome r)) (rows_of (period_label f g at' j) T)) = expected f g at' j).
Proof.
  intros f g at' names out T j V C S Hj He.
  destruct (period_rows f g at' names out T j V C Hj) as (base & chan & P & _ & H1 & H2 & H3 & H4 & Hb).
  destruct (H2 He) as [Hp Hq]. split.
  - rewrite (lsum_permutation _ _ (Permutation_map (fun r => number (c_pct r)) P)). cbn [map lsum]. rewrite Hp, map_map.
    rewrite (map_ext_in _ (fun a => / expected f g at' j * out j a)) by
      (intros a Ha; rewrite (Hq a Ha); cbn [number]; field; exact He).
    rewrite lsum_map_scal, S. cbn [number]. field. exact He.
  - intros D. assert (Ho : out j "All Channels" <> 0).
    { intros Z. apply (D base Hb). exact (H4 He Z). }
    rewrite (lsum_permutation _ _ (Permutation_map (fun r => number (c_outcome r)) P)). cbn [map lsum].
    rewrite (H3 He Ho), map_map. rewrite (map_ext_in _ (out j)) by
      (intros a Ha; destruct (H1 a Ha) as [_ ->]; reflexivity).
    rewrite S. cbn [number]. ring.
Qed.

(** ** Spend and contribution *)
Lemma max_of_some : forall l, l <> [] -> exists M, max_of (map Some l) = Some M /\ is_largest M l.
Proof.
  induction l as [|a l IH]; intros H; [congruence|]. destruct l as [|b l].
  - exists a. cbn. split; [reflexivity|]. split; [left; reflexivity|]. intros u [->|[]]. lra.
  - destruct (IH ltac:(discriminate)) as (M & E & HM & HU). exists (Rmax a M).
    change (max_of (map Some (a :: b :: l))) with
      (match max_of (map Some (b :: l)) with Some v => Some (Rmax a v) | None => Some a end).
    rewrite E. split; [reflexivity|]. split.
    + unfold Rmax. destruct (Rle_dec a M); [right; exact HM|left; reflexivity].
    + intros u [<-|Hu]; [apply Rmax_l|]. apply Rle_trans with M; [exact (HU u Hu)|apply Rmax_r].
Qed.
Lemma largest_unique : forall M M' l, is_largest M l -> is_largest M' l -> M = M'.
Proof. intros M M' l [H1 H2] [K1 K2]. apply Rle_antisym; auto. Qed.

Section SpendTable.
Variables (f : fitted) (g : settings).
Hypothesis V : media_request f g true.
Let x := f_x f.
Let m := new_media_summary f g.
Let ts := dates g.
Let gain (r : option channel) : R := mean_gain f g true r 0.
Let cost (r : option channel) : R := row_spend f no_new None ts true true r 0 0.
Hypotheses (Hg : gain None <> 0) (Hc : cost None <> 0) (Hs : forall ch, is_paid x ch -> cost (Some ch) <> 0).

Lemma spend_lemma : exists s rows, compute false m true = Ok s /\ spend_table m s = Ok rows /\
  length rows = (2 * n_paid x)%nat /\
  (forall ch, is_paid x ch -> exists u v,
     nth_error rows (channel_index x ch) = Some u /\ nth_error rows (n_paid x + channel_index x ch) = Some v /\
     v_channel u = nth (channel_index x ch) (f_paid_names f) "" /\ v_channel v = v_channel u /\
     v_label u = (if g_use_kpi (ms_settings m) then "% KPI" else "% Revenue") /\ v_label v = "% Spend" /\
     v_pct u = Some (gain (Some ch) / gain None) /\ v_pct v = Some (cost (Some ch) / cost None) /\
     v_roi u = Some (gain (Some ch) / cost (Some ch)) /\ v_roi v = v_roi u) /\
  (forall M k, is_largest M (map (fun r => number (v_pct r)) rows) ->
     is_largest k (map (fun r => number (v_roi r)) rows) -> k <> 0 ->
     forall r, In r rows -> v_roi_scaled r = Some (number (v_roi r) * (M / k))).
Proof.
  destruct (paid_lemma f g true V) as (s & pct & o & Ecs & T & Hch & Htime & Hpc & Hinc & _ & Ho).
  pose proof (mr_paid _ _ _ V) as C. pose proof (sr_some _ _ _ _ _ _ C true) as Ne.
  assert (Nn : length (f_paid_names f) = n_paid x) by exact (sr_names _ _ _ _ _ _ C).
  pose proof (names_nodup f g true V false) as Nd. cbn [np_names] in Nd, Hch, Hinc.
  exists s. destruct (st_pct_of_spend _ _ _ _ _ _ _ _ _ _ _ T) as (sp & Esp & Psp).
  destruct (st_roi _ _ _ _ _ _ _ _ _ _ _ T eq_refl) as (roi & Eroi & Proi).
  assert (One : (0 < n_periods f g true)%nat) by (cbn; lia).
  assert (Tab : forall r, is_row x r -> in_table f None ts true true r 0 0) by
    (intros r Hr; split; [exact Hr|split; discriminate]).
  set (names := f_paid_names f) in *.
  assert (Gain : forall r, is_row x r -> mean_at (sm_incremental s true) [row x r] = Some (gain r)).
  { intros r Hr. unfold gain. rewrite <- (Ho 0%nat r One Hr). apply (Hinc 0%nat (row x r) One). rewrite Nn.
    destruct r as [ch|]; [|apply le_n]. cbn [row]. destruct ch; cbn in Hr |- *; try contradiction; unfold n_paid; fold x in Hr; lia. }
  assert (Spend : forall ch, is_paid x ch -> option_map (fun v => v / 100) (sp [channel_index x ch]) = Some (cost (Some ch) / cost None)).
  { intros ch Hr. destruct (Psp (Some ch) 0%nat 0%nat (Tab (Some ch) Hr)) as [_ Q]. destruct (Q Hc) as (r & Er & Hr').
    change (at_cell f true true (Some ch) 0 0) with [channel_index x ch] in Er. rewrite Er. cbn [option_map]. f_equal.
    assert (Q2 : r * cost None = 100 * cost (Some ch)) by exact Hr'.
    replace r with (100 * cost (Some ch) / cost None) by (rewrite <- Q2; field; exact Hc). field. exact Hc. }
  assert (Roi : forall ch, is_paid x ch -> mean_at (roi true) [channel_index x ch] = Some (gain (Some ch) / cost (Some ch))).
  { intros ch Hr. pose proof (Proi true (Some ch) 0%nat 0%nat (Tab (Some ch) Hr) (Hs ch Hr)) as Q.
    unfold mean_at. etransitivity; [exact (mean_reports _ _ _ _ Ne Q)|]. f_equal.
    rewrite (map_ext _ (fun w => / cost (Some ch) * row_gain f no_new None ts true true (g_use_kpi g) true 0 1 w (Some ch) 0 0)).
    - rewrite lsum_map_scal. unfold gain, mean_gain, posterior_mean. fold ts. cbn [f_draws] in Ne |- *.
      assert (INR (length (f_posterior f)) <> 0) by (apply not_0_INR; destruct (f_posterior f); [congruence|discriminate]).
      field. split; [assumption|exact (Hs ch Hr)].
    - intros w. cbv beta. unfold Rdiv. rewrite Rmult_comm. reflexivity. }
  destruct (shown_ok s names [] true 1 Hch Nd eq_refl None) as (ks & Ek & Hk & Nk).
  { apply Forall_forall. intros a Ha. apply in_or_app. left. exact Ha. }
  assert (Eks : ks = seq 0 (n_paid x)).
  { cbn [shown_names] in Nk. rewrite <- Nn. apply (nth_ext _ _ 0%nat 0%nat).
    - rewrite <- (map_length (fun k => nth k (names ++ [ALL_CHANNELS]) "") ks), Nk, seq_length. reflexivity.
    - intros i Hi. assert (Li : (i < length names)%nat) by (rewrite <- Nk, map_length; exact Hi).
      rewrite seq_nth by exact Li. cbn [plus].
      apply (nodup_nth_inj (names ++ [ALL_CHANNELS]) _ i Nd).
      + rewrite Forall_forall in Hk. specialize (Hk (nth i ks 0%nat) (nth_In _ _ Hi)). rewrite app_length. cbn. lia.
      + rewrite app_length. lia.
      + rewrite (app_nth1 names [ALL_CHANNELS] "" Li). transitivity (nth i (map (fun k => nth k (names ++ [ALL_CHANNELS]) "") ks) "").
        * rewrite (nth_indep (map (fun k => nth k (names ++ [ALL_CHANNELS]) "") ks) "" (nth 0%nat (names ++ [ALL_CHANNELS]) "")) by (rewrite map_length; exact Hi).
          rewrite (map_nth (fun k => nth k (names ++ [ALL_CHANNELS]) "")). reflexivity.
        * rewrite Nk. reflexivity. }
  subst ks. unfold spend_table. rewrite Ek. cbn [rbind]. rewrite (all_found s names [] true 1 Hch Nd eq_refl). cbn [rbind].
  rewrite Esp, Eroi. cbn [rbind].
  set (oc := ("% " ++ (if g_use_kpi (ms_settings m) then "KPI" else "Revenue"))%string).
  set (parts := _ ++ _). set (scale := divide _ _). eexists. split; [exact Ecs|]. split; [reflexivity|].
  assert (Lp : length parts = (2 * n_paid x)%nat) by (unfold parts; rewrite app_length, !map_length, seq_length; lia).
  split; [rewrite map_length; exact Lp|].
  assert (Idx : forall ch, is_paid x ch -> (channel_index x ch < n_paid x)%nat).
  { intros ch Hr. destruct ch; cbn in Hr |- *; try contradiction; unfold n_paid; lia. }
  assert (Part : forall ch, is_paid x ch ->
    nth_error parts (channel_index x ch) = Some (channel_index x ch, oc, Some (gain (Some ch) / gain None)) /\
    nth_error parts (n_paid x + channel_index x ch) = Some (channel_index x ch, "% Spend", Some (cost (Some ch) / cost None))).
  { intros ch Hr. specialize (Idx ch Hr). unfold parts. split.
    - rewrite nth_error_app1 by (rewrite map_length, seq_length; exact Idx).
      rewrite nth_error_map, (nth_error_nth' _ 0%nat) by (rewrite seq_length; exact Idx).
      rewrite seq_nth by exact Idx. cbn [option_map plus].
      change [channel_index x ch] with [row x (Some ch)]. rewrite (Gain (Some ch) Hr).
      rewrite Nn. change [n_paid x] with [row x None]. rewrite (Gain None Logic.I). cbn [divide]. unfold fdiv.
      destruct (Req_EM_T (gain None) 0); [contradiction|reflexivity].
    - rewrite nth_error_app2 by (rewrite map_length, seq_length; lia). rewrite map_length, seq_length.
      replace (n_paid x + channel_index x ch - n_paid x)%nat with (channel_index x ch) by lia.
      rewrite nth_error_map, (nth_error_nth' _ 0%nat) by (rewrite seq_length; exact Idx).
      rewrite seq_nth by exact Idx. cbn [option_map plus]. rewrite (Spend ch Hr). reflexivity. }
  assert (Who : forall p, In p parts -> exists ch, is_paid x ch /\ fst (fst p) = channel_index x ch /\ exists v, snd p = Some v).
  { intros p Hp. destruct (In_nth_error _ _ Hp) as (i & Ei).
    assert (Li : (i < 2 * n_paid x)%nat) by (rewrite <- Lp; apply nth_error_Some; congruence).
    assert (Ch : forall c, (c < n_paid x)%nat -> exists ch, is_paid x ch /\ channel_index x ch = c).
    { intros c Hcc. destruct (paid_row f c (Nat.lt_le_incl _ _ Hcc)) as ([ch|] & R1 & R2); [exists ch; auto|].
      exfalso. cbn [row] in R2. fold x in R2. lia. }
    destruct (lt_dec i (n_paid x)) as [L|L].
    - destruct (Ch i L) as (ch & R1 & R2). destruct (Part ch R1) as [P1 _]. rewrite R2 in P1.
      assert (Ep : p = (i, oc, Some (gain (Some ch) / gain None))) by congruence. subst p. exists ch.
      split; [exact R1|]. split; [symmetry; exact R2|eexists; reflexivity].
    - destruct (Ch (i - n_paid x)%nat ltac:(lia)) as (ch & R1 & R2). destruct (Part ch R1) as [_ P2]. rewrite R2 in P2.
      replace (n_paid x + (i - n_paid x))%nat with i in P2 by lia.
      assert (Ep : p = ((i - n_paid x)%nat, "% Spend", Some (cost (Some ch) / cost None))) by congruence. subst p. exists ch.
      split; [exact R1|]. split; [symmetry; exact R2|eexists; reflexivity]. }
  split.
  - intros ch Hr. destruct (Part ch Hr) as [P1 P2]. eexists. eexists.
    split; [apply map_nth_error; exact P1|]. split; [apply map_nth_error; exact P2|].
    cbn [v_channel v_label v_pct v_roi fst snd]. rewrite (Roi ch Hr), Hch. rewrite app_nth1 by (rewrite Nn; exact (Idx ch Hr)).
    split; [reflexivity|]. split; [reflexivity|]. split; [unfold oc; destruct (g_use_kpi (ms_settings m)); reflexivity|].
    split; [reflexivity|]. split; [reflexivity|]. split; [reflexivity|]. split; reflexivity.
  - intros M k HM Hk' Hk0 r Hr. apply in_map_iff in Hr. destruct Hr as (p & <- & Hp).
    cbn [v_roi_scaled v_roi]. rewrite map_map in HM, Hk'. cbn [v_pct v_roi] in HM, Hk'.
    assert (PM : map snd parts = map Some (map (fun q => number (snd q)) parts)).
    { rewrite map_map. apply map_ext_in. intros q Hq. destruct (Who q Hq) as (_ & _ & _ & v & ->). reflexivity. }
    assert (PK : map (fun q => mean_at (roi true) [fst (fst q)]) parts
                 = map Some (map (fun q => number (mean_at (roi true) [fst (fst q)])) parts)).
    { rewrite map_map. apply map_ext_in. intros q Hq. destruct (Who q Hq) as (ch & R1 & -> & _). rewrite (Roi ch R1). reflexivity. }
    assert (Np : forall B (h : nat * string * option R -> B), map h parts <> []) by (intros B h Q; destruct parts; [contradiction|discriminate]).
    destruct (max_of_some (map (fun q => number (snd q)) parts) (Np _ _)) as (M' & EM & LM).
    destruct (max_of_some (map (fun q => number (mean_at (roi true) [fst (fst q)])) parts) (Np _ _)) as (k' & EK & LK).
    assert (Esc : scale = Some (M / k)).
    { unfold scale. rewrite PM, PK, EM, EK. rewrite (largest_unique M M' _ HM LM), (largest_unique k k' _ Hk' LK).
      cbn [divide]. unfold fdiv. destruct (Req_EM_T k' 0) as [Z|Z]; [|reflexivity].
      exfalso. apply Hk0. rewrite (largest_unique k k' _ Hk' LK). exact Z. }
    rewrite Esc. destruct (Who p Hp) as (ch & R1 & -> & _). rewrite (Roi ch R1). reflexivity.
Qed.
End SpendTable.
