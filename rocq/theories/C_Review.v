(** C64: R-hat diagnostics.  C66: health score. *)
From Coq Require Import Reals ZArith String List Bool Arith Lra Lia.
From Verif Require Import Lib_Sum M_Base M_AdstockHill M_Equations M_Transformers M_Aggregate
  S_Aggregate S_Adstock S_Media S_Analyzer M_Analyzer S_Predictor M_Stats S_Stats M_Accuracy S_Accuracy
  M_Review S_Review P_Review P_ReviewScore.
Import ListNotations.
Local Open Scope R_scope.

(** ** C64 *)
(** The R-hat values of Hill parameters are NaN exactly for the channels without a saturation
    curve; no other value changes. *)
Theorem C64_masking : forall h r, hill_ok h r ->
  exists r', mask_hill (hill_specs h) r = Ok r' /\ Forall2 (masked_entry h) r r'.
Proof. exact masking_lemma. Qed.
Print Assumptions C64_masking.

(** One row per parameter that the prior does not fix, with its number of values, mean, maximum,
    share above the threshold, and the positions above it. *)
Theorem C64_summary : forall det t r,
  (forall name a, In (name, a) r -> rhat_ok a /\ (length (rh_shape a) <= 2)%nat) ->
  exists rows, rhat_summary det t r = Ok rows /\
    Forall2 (row_ok t) (filter (fun p => negb (det (prior_name (fst p)))) r) rows.
Proof. exact summary_lemma. Qed.
Print Assumptions C64_summary.

Theorem C64_rank_error : forall det t r name a,
  (forall name' a', In (name', a') r -> rhat_ok a' /\ (length (rh_shape a') <= 2)%nat) ->
  det (prior_name name) = false -> (2 < length (rh_shape a))%nat ->
  rhat_summary det t (r ++ [(name, a)]) = Err ValueError.
Proof.
  intros det t r name a Hr Hd Hs. unfold rhat_summary. rewrite filter_app.
  assert (E : mapM (fun p => rhat_row_of t (fst p) (snd p)) (filter (fun p => negb (det (tau_g_name (fst p)))) [(name, a)]) = Err ValueError).
  { cbn [filter fst]. rewrite prior_name_eq, Hd. cbn [negb mapM fst snd]. unfold rhat_row_of.
    destruct (rh_shape a) as [|n1 [|n2 [|n3 l]]]; cbn [length] in Hs; try lia. reflexivity. }
  destruct (summary_lemma det t r Hr) as (rows & E1 & _). unfold rhat_summary in E1.
  set (f := fun p => rhat_row_of t (fst p) (snd p)) in *.
  revert E1. generalize (filter (fun p => negb (det (tau_g_name (fst p)))) r). intros l. revert rows.
  induction l as [|p l IH]; intros rows E1; [exact E|]. cbn [app mapM] in *. destruct (f p); cbn [rbind] in *; [|discriminate].
  destruct (mapM f l) eqn:El; cbn [rbind] in *; [|discriminate]. rewrite (IH _ eq_refl). reflexivity.
Qed.
Print Assumptions C64_rank_error.

(** The model has converged when every R-hat value is below the threshold, has not when one
    reaches the second threshold; the maximum and its parameter are reported. *)
Theorem C64_convergence : forall c name0 a0 r, cv_threshold c <= cv_not_fully c ->
  (forall name a, In (name, a) ((name0, a0) :: r) -> rh_values a <> []) -> ~ all_nan a0 ->
  exists res, convergence_check c ((name0, a0) :: r) = Ok res /\
    (cv_case res = Converged <-> forall v, is_rhat ((name0, a0) :: r) v -> v < cv_threshold c) /\
    (cv_case res = NotConverged <-> exists v, is_rhat ((name0, a0) :: r) v /\ cv_not_fully c <= v) /\
    exists m name a, cv_max res = Some m /\ cv_param res = Some name /\ In (name, a) ((name0, a0) :: r) /\
      In (Some m) (rh_values a) /\ forall v, is_rhat ((name0, a0) :: r) v -> v <= m.
Proof. exact convergence_lemma. Qed.
Print Assumptions C64_convergence.

Theorem C64_all_nan : forall c r, (forall name a, In (name, a) r -> rh_values a <> [] /\ all_nan a) ->
  convergence_check c r = Ok (mkConvResult Converged None None).
Proof. exact convergence_all_nan. Qed.
Print Assumptions C64_all_nan.

(** The claim "converged when every R-hat value that is a number is below the threshold" is false:
    if the first parameter has no such value, the check says the model did not converge. *)
Theorem C64_nan_first_refuted : forall c name0 a0 r,
  (forall name a, In (name, a) ((name0, a0) :: r) -> rh_values a <> []) -> all_nan a0 ->
  (exists v, is_rhat r v) -> (forall v, is_rhat ((name0, a0) :: r) v -> v < cv_threshold c) ->
  exists res, convergence_check c ((name0, a0) :: r) = Ok res /\ cv_case res = NotConverged.
Proof.
  intros c name0 a0 r Hne Hn Hv _. eexists. split; [exact (convergence_nan_first c name0 a0 r Hne Hn Hv)|reflexivity].
Qed.
Print Assumptions C64_nan_first_refuted.

Definition ex_rhats : rhats :=
  [("ec_m", mkRhat [2%nat] [Some 1; Some 3]); ("tau_g", mkRhat [2%nat; 2%nat] [Some 1; Some 2; None; Some (1/2)])]%string.
Definition ex_hill : hill_kinds := mkHill 2 (Some (SSeq [NoSat; Hill])) 0 None 0 None 0 None.
Example C64_example :
  hill_ok ex_hill ex_rhats /\ unused ex_hill "ec_m" 0 /\
  (exists r', mask_hill (hill_specs ex_hill) ex_rhats = Ok r' /\ map (fun p => rh_values (snd p)) r' =
     [[None; Some 3]; [Some 1; Some 2; None; Some (1/2)]]) /\
  (forall name a, In (name, a) ex_rhats -> rhat_ok a /\ (length (rh_shape a) <= 2)%nat) /\
  bad_at (12/10) (mkRhat [2%nat; 2%nat] [Some 1; Some 2; None; Some (1/2)]) 1 /\
  ~ all_nan (mkRhat [2%nat] [Some 1; Some 3]) /\
  all_nan (mkRhat [1%nat] [None]) /\ is_rhat ex_rhats 2.
Proof.
  split; [constructor|].
  - intros k name a [E|[E|[]]] Hk; inversion E; subst; destruct k; cbn in Hk |- *; try (split; [reflexivity|discriminate]);
      destruct Hk as [F|[F|[]]]; discriminate.
  - intros k l; destruct k; cbn; intros F; inversion F; reflexivity.
  - split; [exists KMedia; split; [left; reflexivity|reflexivity]|].
    split; [eexists; split; reflexivity|]. split.
    { intros name a [E|[E|[]]]; inversion E; subst; (split; [split; [discriminate|reflexivity]|cbn; lia]). }
    split; [exists 2; split; [reflexivity|lra]|]. split.
    { intros F. specialize (F (Some 1) (or_introl eq_refl)). discriminate. }
    split; [intros v [<-|[]]; reflexivity|]. exists "tau_g"%string. eexists. split; [right; left; reflexivity|]. right; left; reflexivity.
Qed.

(** ** C66 *)
(** The score is the weighted mean of the points of the results. *)
Theorem C66_score : forall rs ps, has_required rs -> Forall2 is_points rs ps ->
  health_score rs = Ok (Some (lsum (map (fun p : check_result * R => weight_of (fst p) * snd p) (combine rs ps))
                              / lsum (map weight_of rs))).
Proof. exact score_lemma. Qed.
Print Assumptions C66_score.

Theorem C66_range : forall rs, has_required rs -> Forall result_ok rs ->
  exists h, health_score rs = Ok (Some h) /\ 0 <= h < 100.
Proof. exact range_lemma. Qed.
Print Assumptions C66_range.

(** Better results never lower the score. *)
Theorem C66_monotone : forall rs rs', has_required rs -> Forall result_ok rs -> Forall2 at_least_as_good rs rs' ->
  exists h h', health_score rs = Ok (Some h) /\ health_score rs' = Ok (Some h') /\ h <= h'.
Proof. exact monotone_lemma. Qed.
Print Assumptions C66_monotone.

(** Without a required result there is no score. *)
Theorem C66_required : forall rs, ~ has_required rs -> health_score rs = Err ValueError.
Proof. intros rs H. unfold health_score. rewrite required_false by exact H. reflexivity. Qed.
Print Assumptions C66_required.

(** The claim "a check that passes gets its points" is false: a p-value equal to the threshold
    passes and scores nothing. *)
Theorem C66_boundary_refuted : forall t v, status_of (PppR t t) = PASS /\ (is_points (PppR t t) v -> v = 0) /\
  score_and_weight (PppR t t) = Some (Some 0, 3 / 10).
Proof.
  intros t v. cbn [status_of is_points score_and_weight]. unfold ppp_case, ppp_score.
  destruct (rleb t t) eqn:E; [|apply rleb_false in E; lra]. split; [reflexivity|]. split; [intros (_ & H); apply H; lra|].
  destruct (rltb t t) eqn:E'; [apply rltb_true in E'; lra|reflexivity].
Qed.
Print Assumptions C66_boundary_refuted.

(** The claim "the score is a number" is false: it is NaN when R-squared is. *)
Theorem C66_nan_refuted : forall rs g, has_required rs -> In (GofR g) rs -> gf_r2 (gr_all g) = None ->
  health_score rs = Ok None.
Proof. exact nan_score_lemma. Qed.
Print Assumptions C66_nan_refuted.

Definition ex_gof (r : option R) : gof_result := mkGofResult PASS (mkGof r None None) None None.
Definition ex_results (p : R) : list check_result :=
  [BaselineR (mkBaseline (2/10) (8/10)) p; PppR (5/100) (1/2); GofR (ex_gof (Some (9/10)));
   ShiftR (mkShiftResult PASS [("a", true); ("b", false)]%string ["b"]%string);
   RoiR (mkRoiResult PASS [mkRoiChannel RoiPass "a"; mkRoiChannel RoiLow "b"]%string)].
Example C66_example : forall p, has_required (ex_results p) /\ Forall result_ok (ex_results p) /\
  Forall2 at_least_as_good (ex_results (1/2)) (ex_results (1/10)) /\
  has_required [BaselineR (mkBaseline (2/10) (8/10)) p; PppR (5/100) (1/2); GofR (ex_gof None)].
Proof.
  intros p. assert (H : forall a b g l, has_required (BaselineR a p :: PppR b (1/2) :: GofR g :: l)).
  { intros. split; [eexists _, _; left; reflexivity|]. split; [eexists _, _; right; left; reflexivity|]. eexists; right; right; left; reflexivity. }
  split; [apply H|]. split.
  - repeat (apply Forall_cons || apply Forall_nil); cbn; try lra; try discriminate; auto.
  - split; [|apply H]. repeat (apply Forall2_cons || apply Forall2_nil); cbn; auto; try (split; [reflexivity|lra]). eexists _, _. split; [reflexivity|]. split; [reflexivity|lra].
Qed.
