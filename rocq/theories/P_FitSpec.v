(** Lemmas about the model fit processor. *)
From Coq Require Import Reals ZArith String List Bool Arith Lra Lia.
From Verif Require Import Lib_Sum M_Base M_AdstockHill M_Equations M_Transformers M_Aggregate
  S_Aggregate P_Aggregate S_Adstock S_Media S_Analyzer M_Analyzer P_Analyzer S_Predictor M_Stats S_Stats M_Accuracy S_Accuracy
  P_Accuracy P_AccuracyIO M_FitTable S_FitTable P_FitTable M_Time S_Time P_Time P_Period M_FitSpec S_FitSpec.
From Verif Require M_BudgetSpec.
Import ListNotations.
Local Open Scope R_scope.
Local Open Scope string_scope.
Local Open Scope nat_scope.
Local Open Scope list_scope.

Lemma bind_inv : forall A B (r : result A) (f : A -> result B) b, rbind r f = Ok b -> exists a, r = Ok a /\ f a = Ok b.
Proof. intros A B [a|e] f b H; [exists a; auto|discriminate]. Qed.

(** *** Labels *)
Lemma label_at_nth : forall l j a, NoDup l -> nth_error l j = Some a -> label_at String.eqb a l = Ok j.
Proof.
  induction l as [|b l IH]; intros j a N H; [destruct j; discriminate|]. inversion N as [|? ? N1 N2]; subst.
  destruct j as [|j]; cbn [nth_error] in H; cbn [label_at].
  - injection H as ->. rewrite String.eqb_refl. reflexivity.
  - destruct (String.eqb a b) eqn:E.
    + apply String.eqb_eq in E. subst b. exfalso. apply N1. apply (nth_error_In l j). exact H.
    + rewrite (IH j a N2 H). reflexivity.
Qed.
Lemma dget_combine : forall A (l : list string) (b : list A) j a v, NoDup l -> nth_error l j = Some a -> nth_error b j = Some v ->
  M_BudgetSpec.dget (combine l b) a = Some v.
Proof.
  induction l as [|c l IH]; intros b j a v N H1 H2; [destruct j; discriminate|]. inversion N as [|? ? N1 N2]; subst.
  destruct b as [|w b]; [destruct j; discriminate|]. destruct j as [|j]; cbn [nth_error] in H1, H2; cbn [combine M_BudgetSpec.dget].
  - injection H1 as ->. injection H2 as ->. rewrite String.eqb_refl. reflexivity.
  - destruct (String.eqb c a) eqn:E.
    + apply String.eqb_eq in E. subst c. exfalso. apply N1. apply (nth_error_In l j). exact H1.
    + exact (IH b j a v N2 H1 H2).
Qed.

(** *** Intervals *)
Lemma intervals_lemma : forall x dates, length (x_time x) = x_n_times x -> dated x dates ->
  exists b, fit_intervals (x_time x) dates = Ok (combine (x_time x) b) /\ length b = x_n_times x /\
    forall j i, nth_error b j = Some i -> period_of dates j i.
Proof.
  intros x dates WT (N & L & L2 & V & I & Reg).
  assert (TC : time_coordinates dates = Ok dates) by (apply time_coordinates_ok; split; [lia|apply increasing_not_decreasing; exact I]).
  apply is_regular_iff in Reg.
  assert (PB : get_period_bounds dates None = Ok (bounds_from dates dates)).
  { unfold get_period_bounds. rewrite Reg. cbn [negb raise_if rbind get_selected_dates].
    replace (Nat.ltb (length dates) 2) with false by (symmetry; apply Nat.ltb_ge; lia). reflexivity. }
  destruct (period_bounds_spec dates None _ V TC I PB) as (l & El & Ef & Ec & Ep). cbn in El. injection El as <-.
  set (b := bounds_from dates dates) in *. clearbody b.
  assert (Lb : length b = length dates) by (rewrite <- (map_length fst b), Ef, map_length; reflexivity).
  exists b. split; [|split; [lia|]].
  - unfold fit_intervals. replace (Nat.ltb (length dates) 2) with false by (symmetry; apply Nat.ltb_ge; lia). cbn [raise_if].
    rewrite TC. cbn [rbind]. rewrite PB. reflexivity.
  - intros j i H.
    assert (F : forall k d, nth_error dates k = Some d -> forall p, nth_error b k = Some p -> fst p = ordinal d).
    { intros k d Hd p Hp. assert (M : nth_error (map fst b) k = Some (fst p)) by (apply map_nth_error; exact Hp).
      rewrite Ef, (map_nth_error ordinal _ _ Hd) in M. congruence. }
    split; [|split].
    + destruct (nth_error dates j) as [d|] eqn:Ed.
      * exists d. split; [reflexivity|]. exact (F j d Ed i H).
      * apply nth_error_None in Ed. assert (j < length b) by (apply nth_error_Some; rewrite H; discriminate). lia.
    + apply Ep. apply (nth_error_In b j). exact H.
    + intros d Hd. destruct (nth_error b (S j)) as [q|] eqn:Eq.
      * rewrite (Ec j i q H Eq). exact (F (S j) d Hd q Eq).
      * apply nth_error_None in Eq. assert (S j < length dates) by (apply nth_error_Some; rewrite Hd; discriminate). lia.
Qed.

(** *** Performance *)
Lemma metrics_shape : forall x h gs ts uk bs draws d, predictive_accuracy x h gs ts uk bs draws = Ok d ->
  match h with
  | None => forall m, exists v, lookup d m National AllData = Some v /\ metric_item d None m = Ok v
  | Some _ => forall m, metric_item d None m = Err ValueError /\
      forall s, exists v, lookup d m National s = Some v /\ metric_item d (Some s) m = Ok v
  end.
Proof.
  intros x h gs ts uk bs draws d H. unfold predictive_accuracy in H.
  apply bind_inv in H. destruct H as (input & _ & H). apply bind_inv in H. destruct H as (i & _ & H).
  apply bind_inv in H. destruct H as (at0 & _ & H). apply bind_inv in H. destruct H as (E & _ & H).
  apply bind_inv in H. destruct H as (d0 & Hd & H). injection H as H. subst d.
  destruct h as [m0|].
  - apply bind_inv in Hd. destruct Hd as (a1 & _ & Hd). apply bind_inv in Hd. destruct Hd as (a2 & _ & Hd).
    apply bind_inv in Hd. destruct Hd as (a3 & _ & Hd). apply bind_inv in Hd. destruct Hd as (a4 & _ & Hd).
    injection Hd as Hd. subst d0. intros m. split.
    + destruct (x_is_national x), m; reflexivity.
    + intros s. destruct (x_is_national x), m, s; eexists; split; reflexivity.
  - injection Hd as Hd. subst d0. intros m. destruct (x_is_national x), m; eexists; split; reflexivity.
Qed.

Lemma evaluate_lemma : forall x h draws d sel s, accuracy_request x h None None 100 draws ->
  predictive_accuracy x h None None false 100 draws = Ok d ->
  (sel = Some s /\ h <> None \/ sel = None /\ s = AllData /\ h = None) ->
  exists p, evaluate d sel = Ok p /\ performs x h draws s p.
Proof.
  intros x h draws d sel s V E C.
  assert (A : forall m v, lookup d m National s = Some v ->
    is_metric m (pairs x h (seq 0 (x_n_geos x)) (seq 0 (x_n_times x)) false draws National s) v).
  { intros m v. destruct (accuracy_lemma x h None None false 100 draws V (fun _ => Logic.I)) as (d' & E' & H).
    assert (d' = d) by congruence. subst d'. apply (H m National s). }
  assert (G : forall m, exists v, metric_item d sel m = Ok v /\
     is_metric m (pairs x h (seq 0 (x_n_geos x)) (seq 0 (x_n_times x)) false draws National s) v).
  { intros m. pose proof (metrics_shape _ _ _ _ _ _ _ _ E) as Sh. destruct h as [h0|].
    - destruct C as [(-> & _)|(_ & _ & ?)]; [|discriminate]. destruct (Sh m) as [_ Q]. destruct (Q s) as (v & L & M).
      exists v. split; [exact M|exact (A m v L)].
    - destruct C as [(_ & ?)|(-> & -> & _)]; [congruence|]. destruct (Sh m) as (v & L & M).
      exists v. split; [exact M|exact (A m v L)]. }
  destruct (G RSquared) as (r & E1 & P1). destruct (G Mape) as (m & E2 & P2). destruct (G WMape) as (w & E3 & P3).
  exists (mkPerformance r m w). unfold evaluate. rewrite E1. cbn [rbind]. rewrite E2. cbn [rbind]. rewrite E3.
  split; [reflexivity|]. split; [exact P1|split; [exact P2|exact P3]].
Qed.

(** *** Predictions *)
Lemma mapR_nth : forall A B (f : A -> result B) (Q : nat -> B -> Prop) l k,
  (forall j a, nth_error l j = Some a -> exists b, f a = Ok b /\ Q (k + j) b) ->
  exists bs, M_BudgetSpec.mapR f l = Ok bs /\ length bs = length l /\ forall j b, nth_error bs j = Some b -> Q (k + j) b.
Proof.
  intros A B f Q. induction l as [|a l IH]; intros k H.
  - exists []. split; [reflexivity|]. split; [reflexivity|]. intros [|j] b Hb; discriminate.
  - destruct (H 0 a eq_refl) as (b & Eb & Qb).
    destruct (IH (S k)) as (bs & Ebs & Lbs & Qbs).
    { intros j a' Ha. destruct (H (S j) a' Ha) as (b' & E' & Q'). exists b'. split; [exact E'|].
      replace (S k + j) with (k + S j) by lia. exact Q'. }
    exists (b :: bs). cbn [M_BudgetSpec.mapR]. rewrite Eb. cbn [rbind]. rewrite Ebs. split; [reflexivity|].
    split; [cbn [length]; lia|]. intros [|j] b' Hb; cbn [nth_error] in Hb.
    + injection Hb as <-. exact Qb.
    + replace (k + S j) with (S k + j) by lia. apply Qbs. exact Hb.
Qed.

Section Fit.
Variables (x : model) (h : option (matrix bool)) (n_chains n_draws : nat) (draws : list draw) (dates : list date) (level : R).
Hypothesis V : fit_request x h n_chains n_draws None level 100 draws.
Hypothesis G0 : 0 < x_n_geos x.
Hypothesis L : ~ lookalike x n_draws.
Hypothesis D : dated x dates.

Lemma acc_req : accuracy_request x h None None 100 draws.
Proof using V G0. exact (acc_request x h n_chains n_draws None level 100 draws V G0). Qed.

(** One result: [sel] selects the set [s] of a table with sets, or nothing of a table without. *)
Lemma result_lemma : forall (split : bool) f d b bounds sel s,
  (let sp := if split then h else None in
   f_metric f = [Mean; CiLo; CiHi] /\ f_time f = Some (x_time x) /\
   f_set f = match sp with Some _ => Some [Train; Test; AllData] | None => None end /\
   forall i j, j < x_n_times x ->
      let gl := seq 0 (x_n_geos x) in
      let tl := [j] in
      at_ (f_actual f) [j] = total gl (fun g => total tl (fun t => actual_outcome x false g t)) /\
      forall m s, (sp = None -> s = AllData) ->
        ((forall g t, In g gl -> In t tl -> in_set sp s g t = true) ->
         exists e r, n_at (f_expected f) (place true false (f_set f) i j m s) = Some e /\
           n_at (f_baseline f) (place true false (f_set f) i j m s) = Some r /\
           is_stat level (map (cell_outcome x no_data false gl tl) draws) m e /\
           is_stat level (map (cell_outcome x (no_media_scenario x b) false gl tl) draws) m r) /\
        ((exists g t, In g gl /\ In t tl /\ in_set sp s g t = false) ->
         n_at (f_expected f) (place true false (f_set f) i j m s) = None /\
         n_at (f_baseline f) (place true false (f_set f) i j m s) = None)) ->
  predictive_accuracy x h None None false 100 draws = Ok d ->
  length bounds = x_n_times x -> (forall j i, nth_error bounds j = Some i -> period_of dates j i) ->
  (h <> None -> split = true) ->
  (sel = Some s /\ h <> None \/ sel = None /\ s = AllData /\ h = None) ->
  exists r, create_result (set_name s) f d sel (x_time x) (combine (x_time x) bounds) level = Ok r /\
    fit_told x h b draws level dates s r.
Proof using V G0 D.
  intros split f d b bounds sel s F Ed Lb Pb HS C. cbv zeta in F. destruct F as (Fm & Ft & Fs & F).
  assert (SP : (if split then h else None) = h).
  { destruct h as [h0|]; [rewrite (HS ltac:(discriminate)); reflexivity|destruct split; reflexivity]. }
  rewrite SP in Fs, F.
  assert (WT : length (x_time x) = x_n_times x) by (apply wf_time; exact (fr_model _ _ _ _ _ _ _ _ V)).
  destruct D as (N & _).
  set (suffix := match f_set f with Some _ => [set_place s] | None => [] end).
  assert (SI : set_index (f_set f) sel = Ok suffix).
  { unfold suffix. rewrite Fs. destruct h as [h0|].
    - destruct C as [(-> & _)|(_ & _ & ?)]; [|discriminate]. destruct s; reflexivity.
    - destruct C as [(_ & ?)|(-> & _ & _)]; [congruence|reflexivity]. }
  assert (HA : h = None -> s = AllData).
  { intros Hh. destruct C as [(_ & ?)|(_ & ? & _)]; [congruence|assumption]. }
  assert (PL : forall i j m, place true false (f_set f) i j m s = j :: stat_place m :: suffix).
  { intros i j m. unfold place, suffix. destruct (f_set f); reflexivity. }
  assert (ST : forall a j m, stat_item f a j suffix m = Ok (n_at a (place true false (f_set f) 0 j m s))).
  { intros a j m. rewrite PL. unfold stat_item. rewrite Fm. destruct m; reflexivity. }
  assert (ES : forall a j, fit_estimate_of f a j suffix level
             = Ok (mkFitEstimate (n_at a (place true false (f_set f) 0 j Mean s)) level
                     (n_at a (place true false (f_set f) 0 j CiLo s)) (n_at a (place true false (f_set f) 0 j CiHi s)))).
  { intros a j. unfold fit_estimate_of. rewrite !ST. reflexivity. }
  destruct (mapR_nth _ _ (prediction_of f suffix (combine (x_time x) bounds) level) (predicted x h b draws level dates s) (x_time x) 0)
    as (ps & Eps & Lps & Qps).
  { intros j label Hj. cbn [Nat.add]. assert (Hlt : j < x_n_times x) by (rewrite <- WT; apply nth_error_Some; rewrite Hj; discriminate).
    destruct (nth_error bounds j) as [i|] eqn:Ei; [|apply nth_error_None in Ei; lia].
    eexists. split.
    - unfold prediction_of. rewrite (dget_combine _ _ _ j label i N Hj Ei). cbn [rbind]. rewrite Ft, (label_at_nth _ j label N Hj). cbn [rbind].
      rewrite !ES. cbn [rbind]. reflexivity.
    - destruct (F 0 j Hlt) as [Fa Fe].
      split; [exact (Pb j i Ei)|]. split; [|split].
      + cbn [pr_actual]. rewrite Fa. unfold total. f_equal. apply map_ext. intros g. cbn [map lsum]. lra.
      + intros Hin. cbn [pr_outcome pr_baseline].
        assert (Hin' : forall g t, In g (seq 0 (x_n_geos x)) -> In t [j] -> in_set h s g t = true).
        { intros g t Hg [<-|[]]. exact (Hin g Hg). }
        destruct (proj1 (Fe Mean s HA) Hin') as (e1 & r1 & A1 & B1 & C1 & D1).
        destruct (proj1 (Fe CiLo s HA) Hin') as (e2 & r2 & A2 & B2 & C2 & D2).
        destruct (proj1 (Fe CiHi s HA) Hin') as (e3 & r3 & A3 & B3 & C3 & D3).
        split; (split; [reflexivity|]); cbn [fe_value fe_lower fe_upper]; (split; [|split]); eauto.
      + intros (g & Hg & Hf). cbn [pr_outcome pr_baseline].
        assert (Hex : exists g t, In g (seq 0 (x_n_geos x)) /\ In t [j] /\ in_set h s g t = false) by (exists g, j; cbn; auto).
        destruct (proj2 (Fe Mean s HA) Hex) as (A1 & B1). destruct (proj2 (Fe CiLo s HA) Hex) as (A2 & B2).
        destruct (proj2 (Fe CiHi s HA) Hex) as (A3 & B3).
        split; (split; [reflexivity|]); cbn [fe_value fe_lower fe_upper]; auto. }
  destruct (evaluate_lemma x h draws d sel s acc_req Ed C) as (p & Ep & Pp).
  exists (mkFitResult (set_name s) ps p). unfold create_result. rewrite SI. cbn [rbind]. rewrite Eps. cbn [rbind]. rewrite Ep. cbn [rbind].
  split; [reflexivity|]. split; [reflexivity|]. split; [cbn; lia|]. split; [exact Qps|exact Pp].
Qed.

Lemma execute_lemma : forall (split : bool) rest, (h <> None -> split = true) ->
  exists rs b, execute_fit x h n_chains n_draws draws dates (mkFitSpec split level :: rest) = Ok rs /\
    (forall c, c < n_chans (d_non_media (x_data x)) -> is_baseline_value x None c (b c)) /\
    Forall2 (fit_told x h b draws level dates) (reported_sets h) rs.
Proof using V G0 L D.
  intros split rest HS.
  destruct (fit_lemma x h n_chains n_draws None level 100 draws V G0 true false false split L)
    as (f & b & Ef & Hb & Fm & Fg & Ft & Fs & Fl & F).
  destruct (accuracy_lemma x h None None false 100 draws acc_req (fun _ => Logic.I)) as (d & Ed & _).
  assert (WT : length (x_time x) = x_n_times x) by (apply wf_time; exact (fr_model _ _ _ _ _ _ _ _ V)).
  destruct (intervals_lemma x dates WT D) as (bounds & Ei & Lb & Pb).
  assert (T : forall sel s, (sel = Some s /\ h <> None \/ sel = None /\ s = AllData /\ h = None) ->
     exists r, create_result (set_name s) f d sel (x_time x) (combine (x_time x) bounds) level = Ok r /\ fit_told x h b draws level dates s r).
  { intros sel s C. apply (result_lemma split f d b bounds sel s); auto. cbv zeta.
    split; [exact Fm|]. split; [exact Ft|]. split; [exact Fs|]. intros i j Hj.
    assert (M : members (seq 0 (x_n_times x)) false j = [j]) by (unfold members; rewrite seq_nth by exact Hj; reflexivity).
    specialize (F i j ltac:(discriminate) (fun _ => Hj)). cbv zeta in F. rewrite M in F. exact F. }
  unfold execute_fit. cbn [g_split g_level]. rewrite Ef. cbn [rbind]. rewrite Ed. cbn [rbind]. rewrite Ei. cbn [rbind].
  assert (SP : (if split then h else None) = h).
  { destruct h as [h0|]; [rewrite (HS ltac:(discriminate)); reflexivity|destruct split; reflexivity]. }
  unfold can_split in Fs. rewrite SP in Fs. rewrite Fs. destruct h as [h0|].
  - destruct (T (Some Train) Train ltac:(left; split; [reflexivity|discriminate])) as (r1 & E1 & T1).
    destruct (T (Some Test) Test ltac:(left; split; [reflexivity|discriminate])) as (r2 & E2 & T2).
    destruct (T (Some AllData) AllData ltac:(left; split; [reflexivity|discriminate])) as (r3 & E3 & T3).
    exists [r1; r2; r3], b. cbn [M_BudgetSpec.mapR]. rewrite E1, E2, E3. cbn [rbind]. split; [reflexivity|]. split; [exact Hb|].
    repeat (apply Forall2_cons; [assumption|]). apply Forall2_nil.
  - destruct (T None AllData ltac:(right; auto)) as (r & E & Tr). exists [r], b. rewrite E. cbn [rbind].
    split; [reflexivity|]. split; [exact Hb|]. repeat (apply Forall2_cons; [assumption|]). apply Forall2_nil.
Qed.

(** A holdout without a split. *)
Lemma unsplit_lemma : forall rest, h <> None ->
  execute_fit x h n_chains n_draws draws dates (mkFitSpec false level :: rest) = Err ValueError.
Proof using V G0 L D.
  intros rest Hh.
  destruct (fit_lemma x h n_chains n_draws None level 100 draws V G0 true false false false L)
    as (f & b & Ef & Hb & Fm & Fg & Ft & Fs & Fl & F).
  destruct (accuracy_lemma x h None None false 100 draws acc_req (fun _ => Logic.I)) as (d & Ed & _).
  assert (WT : length (x_time x) = x_n_times x) by (apply wf_time; exact (fr_model _ _ _ _ _ _ _ _ V)).
  destruct (intervals_lemma x dates WT D) as (bounds & Ei & Lb & Pb).
  destruct D as (N & _).
  unfold execute_fit. cbn [g_split g_level]. rewrite Ef. cbn [rbind]. rewrite Ed. cbn [rbind]. rewrite Ei. cbn [rbind].
  unfold can_split in Fs. rewrite Fs. unfold create_result. rewrite Fs. cbn [set_index rbind].
  destruct (mapR_nth _ _ (prediction_of f [] (combine (x_time x) bounds) level) (fun _ _ => True) (x_time x) 0) as (ps & Eps & _).
  { intros j label Hj. assert (Hlt : j < x_n_times x) by (rewrite <- WT; apply nth_error_Some; rewrite Hj; discriminate).
    destruct (nth_error bounds j) as [i|] eqn:E2; [|apply nth_error_None in E2; lia].
    eexists. split; [|exact Logic.I]. unfold prediction_of. rewrite (dget_combine _ _ _ j label i N Hj E2). cbn [rbind].
    rewrite Ft, (label_at_nth _ j label N Hj). cbn [rbind]. unfold fit_estimate_of, stat_item. rewrite Fm. cbn. reflexivity. }
  rewrite Eps. cbn [rbind]. pose proof (metrics_shape _ _ _ _ _ _ _ _ Ed) as Sh. destruct h as [h0|]; [|congruence].
  unfold evaluate. rewrite (proj1 (Sh RSquared)). reflexivity.
Qed.
End Fit.
