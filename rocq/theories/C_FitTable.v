(** C91: the comparison of expected and actual outcomes. *)
From Coq Require Import Reals ZArith String Lia Lra List Bool Arith.
From Verif Require Import Lib_Sum M_Base M_AdstockHill M_Equations M_Transformers M_Aggregate
  S_Aggregate P_Aggregate S_Adstock S_Media S_Analyzer M_Analyzer S_Predictor M_Stats S_Stats
  M_Accuracy S_Accuracy M_FitTable S_FitTable P_FitTable C_Predictor C_Accuracy.
Import ListNotations.
Local Open Scope R_scope.

(** The dataset: its labels; the actual outcome of a cell is the observed one summed over the
    geos and periods of the cell; the expected and the baseline outcome are the mean and the
    bounds of the credible interval of the sums of the draws.  With a split the values of an
    evaluation set are NaN in the cells that contain an observation outside the set. *)
Theorem C91_table : forall x h n_chains n_draws values level bs draws ag at' uk (split : bool),
  fit_request x h n_chains n_draws values level bs draws -> (0 < x_n_geos x)%nat -> ~ lookalike x n_draws ->
  let sp := if split then h else None in
  exists d b, expected_vs_actual x h n_chains n_draws ag at' uk split values level bs draws = Ok d /\
    (forall c, (c < n_chans (d_non_media (x_data x)))%nat -> is_baseline_value x values c (b c)) /\
    f_metric d = [Mean; CiLo; CiHi] /\
    f_geo d = (if ag then None else Some (x_geo x)) /\ f_time d = (if at' then None else Some (x_time x)) /\
    f_set d = match sp with Some _ => Some [Train; Test; AllData] | None => None end /\ f_level d = level /\
    forall i j, (ag = false -> (i < x_n_geos x)%nat) -> (at' = false -> (j < x_n_times x)%nat) ->
      let gl := members (seq 0 (x_n_geos x)) ag i in
      let tl := members (seq 0 (x_n_times x)) at' j in
      at_ (f_actual d) (position ag i ++ position at' j) = total gl (fun g => total tl (fun t => actual_outcome x uk g t)) /\
      forall m s, (sp = None -> s = AllData) ->
        ((forall g t, In g gl -> In t tl -> in_set sp s g t = true) ->
         exists e r, n_at (f_expected d) (place ag at' (f_set d) i j m s) = Some e /\
           n_at (f_baseline d) (place ag at' (f_set d) i j m s) = Some r /\
           is_stat level (map (cell_outcome x no_data uk gl tl) draws) m e /\
           is_stat level (map (cell_outcome x (no_media_scenario x b) uk gl tl) draws) m r) /\
        ((exists g t, In g gl /\ In t tl /\ in_set sp s g t = false) ->
         n_at (f_expected d) (place ag at' (f_set d) i j m s) = None /\
         n_at (f_baseline d) (place ag at' (f_set d) i j m s) = None).
Proof.
  intros x h n_chains n_draws values level bs draws ag at' uk split V G0 L.
  exact (fit_lemma x h n_chains n_draws values level bs draws V G0 ag at' uk split L).
Qed.
Print Assumptions C91_table.

Lemma lsum_plus : forall A (f g : A -> R) l, lsum (map (fun a => f a + g a) l) = lsum (map f l) + lsum (map g l).
Proof. intros A f g l. induction l as [|a l IH]; cbn [map lsum]; [ring|]. rewrite IH. ring. Qed.
Lemma lsum_scal : forall A (f : A -> R) c l, lsum (map (fun a => c * f a) l) = c * lsum (map f l).
Proof. intros A f c l. induction l as [|a l IH]; cbn [map lsum]; [ring|]. rewrite IH. ring. Qed.
Lemma lsum_swap : forall A B (f : A -> B -> R) la lb,
  lsum (map (fun a => lsum (map (fun b => f a b) lb)) la) = lsum (map (fun b => lsum (map (fun a => f a b) la)) lb).
Proof.
  intros A B f la lb. induction la as [|a la IH]; cbn [map lsum].
  - induction lb as [|b lb IH]; cbn [map lsum]; [ring|]. rewrite <- IH. ring.
  - rewrite IH, <- lsum_plus. reflexivity.
Qed.
(** The mean expected outcome of all geos and periods is the sum of the means of the cells. *)
Theorem C91_means_add : forall x h n_chains n_draws values level bs draws uk split split' d d' total_mean,
  fit_request x h n_chains n_draws values level bs draws -> (0 < x_n_geos x)%nat -> ~ lookalike x n_draws ->
  expected_vs_actual x h n_chains n_draws false false uk split values level bs draws = Ok d ->
  expected_vs_actual x h n_chains n_draws true true uk split' values level bs draws = Ok d' ->
  n_at (f_expected d') (place true true (f_set d') 0 0 Mean AllData) = Some total_mean ->
  exists v : nat -> nat -> R,
    (forall g t, (g < x_n_geos x)%nat -> (t < x_n_times x)%nat ->
       n_at (f_expected d) (place false false (f_set d) g t Mean AllData) = Some (v g t)) /\
    total_mean = total (seq 0 (x_n_geos x)) (fun g => total (seq 0 (x_n_times x)) (fun t => v g t)).
Proof.
  intros x h n_chains n_draws values level bs draws uk split split' d d' tm V G0 L E E' Ht.
  destruct (C91_table x h n_chains n_draws values level bs draws false false uk split V G0 L) as (d1 & b1 & E1 & _ & _ & _ & _ & _ & _ & D).
  destruct (C91_table x h n_chains n_draws values level bs draws true true uk split' V G0 L) as (d2 & b2 & E2 & _ & _ & _ & _ & _ & _ & D').
  assert (d1 = d) by congruence. assert (d2 = d') by congruence. subst d1 d2. clear E1 E2.
  assert (N : INR (length draws) <> 0).
  { apply not_0_INR. pose proof (fr_some _ _ _ _ _ _ _ _ V). destruct draws; [congruence|discriminate]. }
  set (v := fun g t => lsum (map (cell_outcome x no_data uk [g] [t]) draws) / INR (length draws)).
  exists v. split.
  - intros g t Hg Htt. specialize (D g t (fun _ => Hg) (fun _ => Htt)). cbv zeta in D. destruct D as [_ D].
    specialize (D Mean AllData (fun _ => eq_refl)). destruct D as [D _].
    destruct (D (fun _ _ _ _ => eq_refl)) as (e & r & -> & _ & Se & _). f_equal.
    unfold members in Se. rewrite !seq_nth in Se by assumption. cbn [Nat.add is_stat] in Se. rewrite map_length in Se.
    unfold v. rewrite <- Se. field. exact N.
  - specialize (D' 0%nat 0%nat ltac:(discriminate) ltac:(discriminate)). cbv zeta in D'. destruct D' as [_ D'].
    specialize (D' Mean AllData (fun _ => eq_refl)). destruct D' as [D' _].
    destruct (D' (fun _ _ _ _ => eq_refl)) as (e & r & Ee & _ & Se & _).
    assert (e = tm) by congruence. subst e. unfold members in Se. cbn [is_stat] in Se. rewrite map_length in Se.
    apply (Rmult_eq_reg_l (INR (length draws))); [|exact N]. rewrite Se. unfold v, total, cell_outcome.
    clear - N. set (gl := seq 0 (x_n_geos x)). set (tl := seq 0 (x_n_times x)). generalize gl tl. clear gl tl. intros gl tl.
    set (n := INR (length draws)) in *. clearbody n. set (f := fun w g t => outcome_in_units x true uk g t (predictor x no_data w g t)).
    change (lsum (map (fun w => lsum (map (fun g => lsum (map (fun t => f w g t) tl)) gl)) draws)
            = n * lsum (map (fun g => lsum (map (fun t => lsum (map (fun w => lsum (map (fun g => lsum (map (fun t => f w g t) [t])) [g])) draws) / n) tl)) gl)).
    clearbody f.
    rewrite (lsum_swap draw nat (fun w g => lsum (map (fun t => f w g t) tl)) draws gl).
    rewrite <- lsum_scal. f_equal. apply map_ext. intros g.
    rewrite (lsum_swap draw nat (fun w t => f w g t) draws tl). rewrite <- lsum_scal. f_equal. apply map_ext. intros t.
    replace (map (fun w => lsum (map (fun g => lsum (map (fun t => f w g t) [t])) [g])) draws)
      with (map (fun w => f w g t) draws) by (apply map_ext; intros w; cbn [map lsum]; ring).
    field. exact N.
Qed.
Print Assumptions C91_means_add.

(** The split is not a split of sums: when a cell holds observations of both kinds, its values
    for the training set and for the test set are NaN, not the sums over the observations of
    the set (here for the sums over all geos and periods, and any statistic). *)
Theorem C91_split_refuted : forall x h n_chains n_draws values level bs draws uk m,
  fit_request x (Some h) n_chains n_draws values level bs draws -> (0 < x_n_geos x)%nat -> ~ lookalike x n_draws ->
  (exists g t, (g < x_n_geos x)%nat /\ (t < x_n_times x)%nat /\ m_at h g t = true) ->
  (exists g t, (g < x_n_geos x)%nat /\ (t < x_n_times x)%nat /\ m_at h g t = false) ->
  exists d e, expected_vs_actual x (Some h) n_chains n_draws true true uk true values level bs draws = Ok d /\
    f_set d = Some [Train; Test; AllData] /\
    n_at (f_expected d) (place true true (f_set d) 0 0 m Train) = None /\
    n_at (f_expected d) (place true true (f_set d) 0 0 m Test) = None /\
    n_at (f_expected d) (place true true (f_set d) 0 0 m AllData) = Some e.
Proof.
  intros x h n_chains n_draws values level bs draws uk m V G0 L (g & t & Hg & Ht & E) (g' & t' & Hg' & Ht' & E').
  destruct (C91_table x (Some h) n_chains n_draws values level bs draws true true uk true V G0 L)
    as (d & b & Ed & _ & _ & _ & _ & Es & _ & D).
  specialize (D 0%nat 0%nat ltac:(discriminate) ltac:(discriminate)). cbv zeta in D. destruct D as [_ D].
  assert (I : forall n k, (k < n)%nat -> In k (seq 0 n)) by (intros n k Hk; apply in_seq; lia).
  destruct (D m Train ltac:(discriminate)) as [_ D1]. destruct (D m Test ltac:(discriminate)) as [_ D2].
  destruct (D m AllData ltac:(discriminate)) as [D3 _].
  destruct (D3 (fun _ _ _ _ => eq_refl)) as (e & _ & Ee & _).
  exists d, e. split; [exact Ed|]. split; [exact Es|]. split; [|split; [|exact Ee]].
  - apply D1. exists g, t. cbn [in_set members]. rewrite E. auto.
  - apply D2. exists g', t'. cbn [in_set members]. rewrite E'. auto.
Qed.
Print Assumptions C91_split_refuted.

(** With as many draws and periods as geos, and as many channels, the values labelled by geos
    and said to be sums over the periods are sums over the geos, one for each period. *)
Theorem C91_lookalike_refuted : forall x h n_chains n_draws values level bs draws uk,
  fit_request x h n_chains n_draws values level bs draws -> (0 < x_n_geos x)%nat -> lookalike x n_draws ->
  exists d, expected_vs_actual x h n_chains n_draws false true uk false values level bs draws = Ok d /\
    f_geo d = Some (x_geo x) /\
    forall i m, (i < x_n_geos x)%nat -> exists e, n_at (f_expected d) (place false true (f_set d) i 0 m AllData) = Some e /\
      is_stat level (map (cell_outcome x no_data uk (seq 0 (x_n_geos x)) [i]) draws) m e.
Proof.
  intros x h n_chains n_draws values level bs draws uk V G0 L.
  exact (swapped_table x h n_chains n_draws values level bs draws V G0 uk false eq_refl L).
Qed.
Print Assumptions C91_lookalike_refuted.

(** A model with every kind of treatment, one chain of three draws (or of two), and a holdout. *)
Example C91_example :
  fit_request ex_rich (Some ex_holdout) 1 3 (Some [BNum 3]) (9 / 10) 100 [ex_rich_draw; ex_rich_draw; ex_rich_draw] /\
  ~ lookalike ex_rich 3 /\ (0 < x_n_geos ex_rich)%nat /\
  m_at ex_holdout 0 1 = true /\ m_at ex_holdout 0 0 = false /\
  fit_request ex_rich (Some ex_holdout) 1 2 (Some [BNum 3]) (9 / 10) 100 [ex_rich_draw; ex_rich_draw] /\
  lookalike ex_rich 2.
Proof.
  destruct C58_example as (W & D & _ & _ & M & T & _).
  assert (B : baseline_ok ex_rich (Some [BNum 3])) by (split; [reflexivity|repeat constructor; eauto]).
  assert (Q : forall k, fit_request ex_rich (Some ex_holdout) 1 (S k) (Some [BNum 3]) (9 / 10) 100 (repeat ex_rich_draw (S k))).
  { intros k. constructor; auto; try (split; reflexivity); try discriminate; try lia; try lra.
    - apply Forall_forall. intros w Hw. apply repeat_spec in Hw. subst w. exact D.
    - rewrite repeat_length. lia. }
  split; [exact (Q 2%nat)|]. split; [intros (H & _); cbn in H; discriminate|]. split; [cbn; lia|].
  do 2 (split; [reflexivity|]). split; [exact (Q 1%nat)|].
  split; [reflexivity|]. split; [reflexivity|]. eexists. split; [left; reflexivity|]. cbn. auto.
Qed.
