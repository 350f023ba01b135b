(** Proofs about the summary of results. *)
From Coq Require Import QArith ZArith Lia String Ascii List Bool Arith Permutation Sorted.
From Verif Require Import M_Base Lib_Sort M_Time S_Time P_Time M_Summarizer S_Summarizer.
From Verif Require P_CurveCharts.
Import ListNotations.
Local Open Scope nat_scope.
Local Open Scope list_scope.

Lemma from_unique : forall a r s s0, from_date (a :: r) s s0 -> match s with Some d => d | None => min_date a r end = s0.
Proof.
  intros a r [d|] s0 H; cbn in H; [auto|]. destruct H as [H1 H2]. destruct (min_date_spec r a) as [M1 M2].
  apply before_total; [apply H2; exact M1|apply M2; exact H1].
Qed.
Lemma to_unique : forall a r e e0, to_date (a :: r) e e0 -> match e with Some d => d | None => max_date a r end = e0.
Proof.
  intros a r [d|] e0 H; cbn in H; [auto|]. destruct H as [H1 H2]. destruct (max_date_spec r a) as [M1 M2].
  apply before_total; [apply M2; exact H1|apply H2; exact M1].
Qed.
Lemma between_filter : forall s e all, between s e all (filter (fun d => date_leb s d && date_leb d e) all).
Proof.
  intros s e all. induction all as [|d r IH]; cbn [filter between]; [reflexivity|].
  destruct (date_leb s d) eqn:E1; destruct (date_leb d e) eqn:E2; cbn [andb];
    try (apply date_leb_iff in E1); try (apply date_leb_iff in E2).
  - left. split; [exact E1|]. split; [exact E2|]. eexists. split; [reflexivity|exact IH].
  - right. split; [|exact IH]. right. destruct (date_ltb e d) eqn:L; [apply date_ltb_iff in L; exact L|].
    apply date_ltb_nlt in L. apply date_leb_iff in L. congruence.
  - right. split; [|exact IH]. left. destruct (date_ltb d s) eqn:L; [apply date_ltb_iff in L; exact L|].
    apply date_ltb_nlt in L. apply date_leb_iff in L. congruence.
  - right. split; [|exact IH]. left. destruct (date_ltb d s) eqn:L; [apply date_ltb_iff in L; exact L|].
    apply date_ltb_nlt in L. apply date_leb_iff in L. congruence.
Qed.

Lemma period_lemma : forall all interval s e s0 e0, from_date all s s0 -> to_date all e e0 ->
  (In s0 all /\ In e0 all /\ ~ before e0 s0 ->
    exists p periods, report_period all interval s e = Ok p /\ sp_from p = s0 /\ sp_to p = (ordinal e0 + interval)%Z /\
      between s0 e0 all periods /\ match sp_times p with None => periods = all | Some l => periods = l end /\
      (sp_quarterly p = true <-> 52 <= length periods)) /\
  (~ (In s0 all /\ In e0 all /\ ~ before e0 s0) -> report_period all interval s e = Err ValueError).
Proof.
  intros all interval s e s0 e0 Hs He. destruct all as [|a r].
  { split; [intros [[] _]|reflexivity]. }
  unfold report_period. rewrite (from_unique _ _ _ _ Hs), (to_unique _ _ _ _ He). cbv zeta. set (all := a :: r) in *.
  split.
  - intros (Is & Ie & Nb). rewrite (proj2 (date_in_iff _ _) Is), (proj2 (date_in_iff _ _) Ie). cbn [negb raise_if].
    rewrite (proj2 (date_ltb_nlt _ _) Nb). cbn [raise_if].
    assert (E : expand_selected_time_dims all (Some s0) (Some e0) =
      if date_eqb s0 (min_date a r) && date_eqb e0 (max_date a r) then Ok None else Ok (Some (filter (fun d => date_leb s0 d && date_leb d e0) all))).
    { unfold expand_selected_time_dims, all. fold all. rewrite (proj2 (date_in_iff _ _) Is), (proj2 (date_in_iff _ _) Ie). cbn [negb raise_if rbind].
      rewrite (proj2 (date_ltb_nlt _ _) Nb). reflexivity. }
    rewrite E. assert (Q : forall n, negb (Nat.ltb n 52) = true <-> 52 <= n).
    { intros n. destruct (Nat.ltb_spec n 52); cbn; split; intros; try lia; congruence. }
    destruct (date_eqb s0 (min_date a r) && date_eqb e0 (max_date a r)) eqn:B; cbn [rbind].
    + apply andb_true_iff in B. destruct B as [B1 B2]. apply date_eqb_iff in B1. apply date_eqb_iff in B2.
      eexists. exists all. split; [reflexivity|]. cbn [sp_from sp_to sp_times sp_quarterly]. split; [reflexivity|]. split; [reflexivity|].
      split; [|split; [reflexivity|apply Q]].
      assert (F : filter (fun d => date_leb s0 d && date_leb d e0) all = all).
      { apply filter_id. intros d Hd. apply andb_true_iff. rewrite !date_leb_iff. rewrite B1, B2.
        split; [apply min_date_spec; exact Hd|apply max_date_spec; exact Hd]. }
      rewrite <- F at 2. apply between_filter.
    + eexists. eexists. split; [reflexivity|]. cbn [sp_from sp_to sp_times sp_quarterly]. split; [reflexivity|]. split; [reflexivity|].
      split; [apply between_filter|]. split; [reflexivity|apply Q].
  - intros H. destruct (date_in s0 all) eqn:I1; [|reflexivity]. destruct (date_in e0 all) eqn:I2; [|reflexivity]. cbn [negb raise_if].
    destruct (date_ltb e0 s0) eqn:L; [reflexivity|]. exfalso. apply H. apply date_in_iff in I1. apply date_in_iff in I2. apply date_ltb_nlt in L. auto.
Qed.

Lemma metric_total : forall asc a b, metric_leb asc a b = true \/ metric_leb asc b a = true.
Proof.
  intros asc [n [x|]] [m [y|]]; unfold metric_leb; cbn [snd]; auto. destruct asc; rewrite !Qle_bool_iff;
  destruct (Qlt_le_dec x y) as [L|L]; auto; apply Qlt_le_weak in L; auto.
Qed.
Lemma metric_trans : forall asc a b c, metric_leb asc a b = true -> metric_leb asc b c = true -> metric_leb asc a c = true.
Proof.
  intros asc [n [x|]] [m [y|]] [k [z|]]; unfold metric_leb; cbn [snd]; intros H G; try discriminate; auto.
  destruct asc; rewrite !Qle_bool_iff in *; [exact (Qle_trans _ _ _ H G)|exact (Qle_trans _ _ _ G H)].
Qed.
Lemma metric_good : forall asc a b, metric_leb asc a b = true -> as_good asc (snd a) (snd b).
Proof.
  intros asc [n [x|]] [m [y|]]; unfold metric_leb, as_good; cbn [snd]; intros H; auto; try discriminate.
  exists x. split; [reflexivity|]. destruct asc; apply Qle_bool_iff; exact H.
Qed.
Lemma best_lemma : forall asc n rows, best_channels asc n rows (firstn n (sorted_metrics asc rows)).
Proof.
  intros asc n rows. set (l := sorted_metrics asc rows). exists (skipn n l).
  assert (S : le_sorted (metric_leb asc) l) by exact (isort_sorted _ (metric_total asc) (metric_trans asc) _).
  split; [rewrite firstn_skipn; apply Permutation_sym, isort_perm|]. split; [|split].
  - destruct (Nat.le_gt_cases n (length l)) as [H|H]; [left; apply firstn_length_le; exact H|].
    right. rewrite firstn_all2, skipn_all2 by lia. split; [exact H|reflexivity].
  - apply P_CurveCharts.sorted_firstn. apply (P_CurveCharts.weaken _ (fun a b => metric_leb asc a b = true)); [intros a b _ _; apply metric_good|exact S].
  - intros a b Ha Hb. apply metric_good. exact (P_CurveCharts.sorted_first_rest _ _ _ _ _ _ S Ha Hb).
Qed.
Lemma lead_lemma : forall asc rows, (exists a, In a rows /\ fst a <> "All Channels"%string) ->
  exists n v, lead asc rows = Ok (title n, v) /\ best_channels asc 1 rows [(n, v)].
Proof.
  intros asc rows (a & Ha & Na). unfold lead. pose proof (best_lemma asc 1 rows) as B.
  destruct (sorted_metrics asc rows) as [|[n v] l] eqn:E.
  - exfalso. assert (I : In a (sorted_metrics asc rows)).
    { apply isort_in. apply filter_In. split; [exact Ha|]. destruct (String.eqb_spec (fst a) ALL_CHANNELS); [contradiction|reflexivity]. }
    rewrite E in I. destruct I.
  - exists n, v. split; [reflexivity|]. exact B.
Qed.

Lemma idxmax_spec : forall l a, In (idxmax a l) (a :: l) /\ forall b, In b (a :: l) -> (snd b <= snd (idxmax a l))%Q.
Proof.
  induction l as [|x l IH]; intros a; cbn [idxmax].
  - split; [left; reflexivity|]. intros b [<-|[]]. apply Qle_refl.
  - destruct (Qle_bool (snd x) (snd a)) eqn:E.
    + apply Qle_bool_iff in E. destruct (IH a) as [I1 I2]. split; [destruct I1 as [I1|I1]; [left; exact I1|right; right; exact I1]|].
      intros b [<-|[<-|Hb]]; [apply I2; left; reflexivity| |apply I2; right; exact Hb].
      apply (Qle_trans _ (snd a)); [exact E|apply I2; left; reflexivity].
    + assert (L : (snd a <= snd x)%Q).
      { destruct (Qlt_le_dec (snd x) (snd a)) as [H|H]; [|exact H]. apply Qlt_le_weak in H. apply Qle_bool_iff in H. congruence. }
      destruct (IH x) as [I1 I2]. split; [right; exact I1|]. intros b [<-|Hb]; [|apply I2; exact Hb].
      apply (Qle_trans _ (snd x)); [exact L|apply I2; left; reflexivity].
Qed.
Lemma lookup_in : forall l c v, NoDup (map fst l) -> (lookup l c = Some v <-> In (c, v) l).
Proof.
  induction l as [|[n w] l IH]; intros c v N; cbn [lookup]; [split; [discriminate|intros []]|]. cbn in N. inversion N as [|? ? N1 N2]; subst.
  destruct (String.eqb_spec n c) as [->|Ne].
  - split; [intros H; injection H as ->; left; reflexivity|]. intros [H|H]; [injection H as ->; reflexivity|].
    exfalso. apply N1. apply (in_map fst) in H. exact H.
  - rewrite (IH c v N2). split; [intros H; right; exact H|]. intros [H|H]; [injection H as H _; contradiction|exact H].
Qed.
Lemma select_spec : forall spend channels, NoDup (map fst spend) -> (forall c, In c channels -> exists v, In (c, v) spend) ->
  exists l, select spend channels = Ok l /\ map fst l = channels /\ forall c v, In (c, v) l -> In (c, v) spend.
Proof.
  intros spend channels N. induction channels as [|c r IH]; intros H; cbn [select].
  - exists []. split; [reflexivity|]. split; [reflexivity|]. intros c v [].
  - destruct (H c (or_introl eq_refl)) as (v & Hv). rewrite (proj2 (lookup_in _ _ _ N) Hv).
    destruct IH as (l & -> & E & Hl); [intros d Hd; apply H; right; exact Hd|]. cbn [rbind]. exists ((c, v) :: l).
    split; [reflexivity|]. split; [cbn; congruence|]. intros d w [Hd|Hd]; [injection Hd as <- <-; exact Hv|exact (Hl d w Hd)].
Qed.
Lemma rf_lemma : forall spend optimal, NoDup (map fst spend) -> NoDup (map fst optimal) -> optimal <> [] ->
  (forall c, In c (map fst optimal) -> exists v, In (c, v) spend) ->
  exists c f v, rf_insight spend optimal = Ok (c, f) /\ In (c, f) optimal /\ In (c, v) spend /\
    forall d w, In d (map fst optimal) -> In (d, w) spend -> (w <= v)%Q.
Proof.
  intros spend optimal N No Ne H. unfold rf_insight. destruct (select_spec spend (map fst optimal) N H) as (l & -> & E & Hl). cbn [rbind].
  destruct l as [|a r]; [destruct optimal; [congruence|discriminate]|]. cbv zeta. destruct (idxmax_spec r a) as [I1 I2].
  destruct (idxmax a r) as [c v] eqn:Ec. cbn [fst snd] in *.
  assert (Ic : In c (map fst optimal)) by (rewrite <- E; exact (in_map fst _ _ I1)).
  apply in_map_iff in Ic. destruct Ic as ([c' f] & Hc & If). cbn in Hc. subst c'. rewrite (proj2 (lookup_in _ _ _ No) If).
  exists c, f, v. split; [reflexivity|]. split; [exact If|]. split; [exact (Hl _ _ I1)|]. intros d w Hd Hw. rewrite <- E in Hd.
  apply in_map_iff in Hd. destruct Hd as ([d' w'] & Ed & Hd). cbn in Ed. subst d'.
  assert (w' = w). { pose proof (proj2 (lookup_in _ _ _ N) (Hl _ _ Hd)) as A. pose proof (proj2 (lookup_in _ _ _ N) Hw) as B. congruence. }
  subst w'. exact (I2 _ Hd).
Qed.
