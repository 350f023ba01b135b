(** C103: the model fit processor and the planner's tables of it. *)
From Coq Require Import Reals ZArith String List Bool Arith Lra Lia Sorted.
From Verif Require Import Lib_Sum M_Base M_AdstockHill M_Equations M_Transformers M_Aggregate
  S_Aggregate P_Aggregate S_Adstock S_Media S_Analyzer M_Analyzer S_Predictor M_Stats S_Stats M_Accuracy S_Accuracy
  M_FitTable S_FitTable P_FitTable M_Time S_Time P_Time C_Predictor C_Accuracy C_FitTable M_FitSpec S_FitSpec P_FitSpec.
From Verif Require M_BudgetSpec P_MarketingSpec3.
Import ListNotations.
Local Open Scope R_scope.
Local Open Scope string_scope.
Local Open Scope nat_scope.
Local Open Scope list_scope.

(** A specification is accepted exactly if its level lies strictly between 0 and 1. *)
Theorem C103_spec : forall s, (validate_fit s = Ok tt <-> (0 < g_level s < 1)%R) /\
  (~ (0 < g_level s < 1)%R -> validate_fit s = Err ValueError).
Proof.
  intros s. unfold validate_fit. destruct (Rle_dec (g_level s) 0) as [H|H]; cbn [raise_if].
  - split; [split; [discriminate|lra]|reflexivity].
  - destruct (Rle_dec 1 (g_level s)) as [H2|H2]; cbn [raise_if]; (split; [split; [try discriminate; lra|try reflexivity; lra]|try reflexivity; lra]).
Qed.
Print Assumptions C103_spec.

(** One result for each evaluation set (without a holdout: all data), with a prediction for every period and the metrics
    of the set. *)
Theorem C103_results : forall x h n_chains n_draws draws dates level (split : bool) rest,
  fit_request x h n_chains n_draws None level 100 draws -> 0 < x_n_geos x -> ~ lookalike x n_draws -> dated x dates ->
  (h <> None -> split = true) ->
  exists rs b, execute_fit x h n_chains n_draws draws dates (mkFitSpec split level :: rest) = Ok rs /\
    (forall c, c < n_chans (d_non_media (x_data x)) -> is_baseline_value x None c (b c)) /\
    Forall2 (fit_told x h b draws level dates) (reported_sets h) rs.
Proof.
  intros x h n_chains n_draws draws dates level split rest V G0 L D HS.
  exact (execute_lemma x h n_chains n_draws draws dates level V G0 L D split rest HS).
Qed.
Print Assumptions C103_results.

(** The processor returns exactly if there is a specification and the first one splits by a holdout, if there is one;
    the other specifications do not matter. *)
Theorem C103_accepted : forall x h n_chains n_draws draws dates specs,
  (forall s, In s specs -> fit_request x h n_chains n_draws None (g_level s) 100 draws) -> 0 < x_n_geos x ->
  ~ lookalike x n_draws -> dated x dates ->
  ((exists rs, execute_fit x h n_chains n_draws draws dates specs = Ok rs) <->
   exists s rest, specs = s :: rest /\ (h = None \/ g_split s = true)) /\
  (forall s rest rest', specs = s :: rest ->
     execute_fit x h n_chains n_draws draws dates (s :: rest') = execute_fit x h n_chains n_draws draws dates specs).
Proof.
  intros x h n_chains n_draws draws dates specs V G0 L D. split; [|intros s rest rest' ->; reflexivity]. split.
  - intros (rs & H). destruct specs as [|[sp lv] rest]; [discriminate|]. exists (mkFitSpec sp lv), rest. split; [reflexivity|].
    destruct h as [h0|]; [|left; reflexivity]. right. destruct sp; [reflexivity|].
    rewrite (unsplit_lemma x (Some h0) n_chains n_draws draws dates lv (V _ (or_introl eq_refl)) G0 L D rest) in H by discriminate. discriminate.
  - intros ([sp lv] & rest & -> & C).
    destruct (execute_lemma x h n_chains n_draws draws dates lv (V _ (or_introl eq_refl)) G0 L D sp rest) as (rs & b & E & _).
    + intros Hh. destruct C as [C|C]; [congruence|exact C].
    + exists rs. exact E.
Qed.
Print Assumptions C103_accepted.

(** Asking for no split of a model with a holdout is an error, not a result for all data. *)
Theorem C103_unsplit_refuted : forall x h n_chains n_draws draws dates level rest,
  fit_request x (Some h) n_chains n_draws None level 100 draws -> 0 < x_n_geos x -> ~ lookalike x n_draws -> dated x dates ->
  execute_fit x (Some h) n_chains n_draws draws dates (mkFitSpec false level :: rest) = Err ValueError.
Proof.
  intros x h n_chains n_draws draws dates level rest V G0 L D.
  exact (unsplit_lemma x (Some h) n_chains n_draws draws dates level V G0 L D rest ltac:(discriminate)).
Qed.
Print Assumptions C103_unsplit_refuted.

(** No specification: an IndexError. *)
Theorem C103_unspecified_refuted : forall x h n_chains n_draws draws dates,
  execute_fit x h n_chains n_draws draws dates [] = Err IndexError.
Proof. reflexivity. Qed.
Print Assumptions C103_unspecified_refuted.

(** The actual values of an evaluation set are those of all observations: the three results repeat them. *)
Theorem C103_actual_refuted : forall x h b draws level dates s s' r r',
  fit_told x h b draws level dates s r -> fit_told x h b draws level dates s' r' ->
  map pr_actual (fr_predictions r) = map pr_actual (fr_predictions r').
Proof.
  intros x h b draws level dates s s' r r' (_ & L & P & _) (_ & L' & P' & _). apply nth_ext with (d := 0%R) (d' := 0%R).
  - rewrite !map_length. congruence.
  - intros j Hj. rewrite map_length in Hj.
    assert (E : forall l : list prediction, j < length l -> exists p, nth_error l j = Some p /\ nth j (map pr_actual l) 0%R = pr_actual p).
    { intros l Hl. destruct (nth_error l j) as [p|] eqn:Ep; [|apply nth_error_None in Ep; lia]. exists p. split; [reflexivity|].
      apply nth_error_nth. apply map_nth_error. exact Ep. }
    destruct (E _ Hj) as (p & Ep & ->). destruct (E (fr_predictions r') ltac:(lia)) as (p' & Ep' & ->).
    destruct (P j p Ep) as (_ & -> & _). destruct (P' j p' Ep') as (_ & -> & _). reflexivity.
Qed.
Print Assumptions C103_actual_refuted.

(** With a holdout of some geos in every period no period has an expected outcome, for training or for test; the metrics
    of these sets are still those of the sums over the geos of the set. *)
Theorem C103_mixed_refuted : forall x h b draws level dates s r,
  fit_told x (Some h) b draws level dates s r -> s <> AllData ->
  (forall t, t < x_n_times x -> exists g g', g < x_n_geos x /\ g' < x_n_geos x /\ m_at h g t = true /\ m_at h g' t = false) ->
  (forall p, In p (fr_predictions r) -> undefined level (pr_outcome p) /\ undefined level (pr_baseline p)) /\
  length (pairs x (Some h) (seq 0 (x_n_geos x)) (seq 0 (x_n_times x)) false draws National s) = x_n_times x /\
  performs x (Some h) draws s (fr_performance r).
Proof.
  intros x h b draws level dates s r (_ & L & P & Q) Hs M. split; [|split; [|exact Q]].
  - intros p Hp. apply In_nth_error in Hp. destruct Hp as [j Hj].
    assert (Hlt : j < x_n_times x) by (rewrite <- L; apply nth_error_Some; rewrite Hj; discriminate).
    destruct (P j p Hj) as (_ & _ & _ & U). apply U.
    destruct (M j Hlt) as (g & g' & Hg & Hg' & E & E'). destruct s; [exists g|exists g'|congruence]; (split; [apply in_seq; lia|]); cbn [in_set].
    + rewrite E. reflexivity.
    + exact E'.
  - unfold pairs. rewrite <- (seq_length (x_n_times x) 0) at 2.
    assert (G : forall (F : nat -> list (R * R)) l, (forall t, In t l -> length (F t) = 1) -> length (flat_map F l) = length l).
    { clear. intros F l. induction l as [|t l IH]; intros H; [reflexivity|]. cbn [flat_map length]. rewrite app_length, IH.
      - rewrite (H t); [reflexivity|left; reflexivity].
      - intros u Hu. apply H. right. exact Hu. }
    apply G. intros t Ht. apply in_seq in Ht. destruct (M t ltac:(lia)) as (g & g' & Hg & Hg' & E & E').
    assert (W : exists k, In k (filter (fun g => in_set (Some h) s g t) (seq 0 (x_n_geos x)))).
    { destruct s; [exists g'|exists g|congruence]; apply filter_In; (split; [apply in_seq; lia|]); cbn [in_set].
      - rewrite E'. reflexivity.
      - exact E. }
    destruct W as [k W]. destruct (filter _ _); [destruct W|reflexivity].
Qed.
Print Assumptions C103_mixed_refuted.

(** The planner: one row of diagnostics for each result; the table of the fit is about all data. *)
Theorem C103_planner : forall x h b draws level dates rs,
  Forall2 (fit_told x h b draws level dates) (reported_sets h) rs ->
  exists diagnostics rows, fit_tables rs = Ok (Some (diagnostics, rows)) /\
    Forall2 (fun s row => fst row = set_name s /\ performs x h draws s (snd row)) (reported_sets h) diagnostics /\
    length rows = x_n_times x /\ forall j w, nth_error rows j = Some w -> row_told x b draws level dates j w.
Proof.
  intros x h b draws level dates rs H.
  assert (Row : forall r, fit_told x h b draws level dates AllData r ->
    forall j w, nth_error (map (fun p => mkFitRow (fst (pr_interval p)) (fe_lower (pr_outcome p)) (fe_upper (pr_outcome p)) (fe_value (pr_outcome p))
                      (fe_value (pr_baseline p)) (pr_actual p)) (fr_predictions r)) j = Some w -> row_told x b draws level dates j w).
  { intros r (_ & _ & P & _) j w Hw. rewrite nth_error_map in Hw. destruct (nth_error (fr_predictions r) j) as [p|] eqn:Ep; [|discriminate].
    cbn [option_map] in Hw. injection Hw as <-. destruct (P j p Ep) as ((d & _) & A & S & _).
    destruct (S (fun _ _ => eq_refl)) as ((_ & S1 & S2 & S3) & (_ & S4 & _)).
    split; [exact d|]. split; [exact A|]. split; [exact S1|]. split; [exact S2|]. split; [exact S3|exact S4]. }
  destruct h as [h0|]; cbn [reported_sets] in H.
  - inversion H as [|? r1 ? ? T1 H2]; subst. inversion H2 as [|? r2 ? ? T2 H3]; subst. inversion H3 as [|? r3 ? ? T3 H4]; subst. inversion H4; subst.
    destruct T1 as (N1 & _ & _ & P1). destruct T2 as (N2 & _ & _ & P2). pose proof T3 as (N3 & L3 & _ & P3).
    assert (TD : M_BudgetSpec.to_dict (map (fun r => (fr_name r, r)) [r1; r2; r3]) = [("Train", r1); ("Test", r2); ("All Data", r3)]).
    { cbn [map]. rewrite N1, N2, N3. reflexivity. }
    do 2 eexists. split; [|split; [|split]].
    + unfold fit_tables, fit_rows, select_fit, diagnostics_rows. rewrite TD. reflexivity.
    + cbn [map fst snd]. repeat (apply Forall2_cons; [split; [reflexivity|assumption]|]). apply Forall2_nil.
    + rewrite map_length. exact L3.
    + exact (Row r3 T3).
  - inversion H as [|? r ? ? T H2]; subst. inversion H2; subst. pose proof T as (N & Lr & _ & P).
    assert (TD : M_BudgetSpec.to_dict (map (fun r => (fr_name r, r)) [r]) = [("All Data", r)]).
    { cbn [map]. rewrite N. reflexivity. }
    do 2 eexists. split; [|split; [|split]].
    + unfold fit_tables, fit_rows, select_fit, diagnostics_rows. rewrite TD. reflexivity.
    + cbn [map fst snd]. repeat (apply Forall2_cons; [split; [reflexivity|assumption]|]). apply Forall2_nil.
    + rewrite map_length. exact Lr.
    + exact (Row r T).
Qed.
Print Assumptions C103_planner.

(** Of any results the planner takes one called "All Data", or the first if there is none. *)
Theorem C103_selected : forall rs, rs <> [] ->
  exists r, select_fit rs = Ok r /\
    ((In r rs /\ fr_name r = "All Data") \/ ((forall q, In q rs -> fr_name q <> "All Data") /\ exists rest, rs = r :: rest)).
Proof.
  intros rs Hne. unfold select_fit. destruct (M_BudgetSpec.dget _ "All Data") as [r|] eqn:E.
  - exists r. split; [reflexivity|]. left. apply P_MarketingSpec3.dict_in in E. apply in_map_iff in E.
    destruct E as (q & Eq & Hq). injection Eq as E1 E2. subst q. auto.
  - destruct rs as [|r rest]; [congruence|]. exists r. split; [reflexivity|]. right. split; [|exists rest; reflexivity].
    intros q Hq Nq. destruct (P_MarketingSpec3.dict_some _ (map (fun r => (fr_name r, r)) (r :: rest)) "All Data") as (v & Ev).
    + apply in_map_iff. exists (fr_name q, q). split; [exact Nq|]. apply in_map_iff. exists q. auto.
    + rewrite E in Ev. discriminate.
Qed.
Print Assumptions C103_selected.

(** A model with every kind of treatment, three draws and a holdout. *)
Example C103_example :
  fit_request ex_rich (Some ex_holdout) 1 3 None (9 / 10) 100 [ex_rich_draw; ex_rich_draw; ex_rich_draw] /\
  0 < x_n_geos ex_rich /\ ~ lookalike ex_rich 3 /\ dated ex_rich [mkDate 2024 1 1; mkDate 2024 1 8] /\
  reported_sets (Some ex_holdout) = [Train; Test; AllData] /\
  in_set (Some ex_holdout) Test 0 1 = true /\ in_set (Some ex_holdout) Test 1 1 = false.
Proof.
  destruct C91_example as (V & L & G & _). split.
  { destruct V. constructor; auto. cbn. auto. }
  split; [exact G|]. split; [exact L|]. split; [|split; [reflexivity|split; reflexivity]].
  split; [|split; [reflexivity|split; [cbn; lia|split; [|split]]]].
  - cbn. constructor; [intros [H|[]]; discriminate|]. constructor; [intros []|constructor].
  - repeat constructor; apply valid_iff; vm_compute; repeat split; discriminate.
  - apply ascending_iff. reflexivity.
  - left. exists 7%Z. intros y [<-|[]]. reflexivity.
Qed.
(** A holdout with training and test observations in every period. *)
Example C103_mixed_example : forall t, t < x_n_times ex_rich ->
  exists g g', g < x_n_geos ex_rich /\ g' < x_n_geos ex_rich /\
    m_at (mkMatrix 2 2 (fun g _ => Nat.eqb g 0)) g t = true /\ m_at (mkMatrix 2 2 (fun g (_ : nat) => Nat.eqb g 0)) g' t = false.
Proof. intros t _. exists 0, 1. cbn. repeat split; lia. Qed.
