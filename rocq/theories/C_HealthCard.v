(** Property C110: the health card of a model's review. *)
From Coq Require Import String List Bool Arith Permutation.
From Verif Require Import M_Base M_Review M_HealthCard S_HealthCard P_HealthCard.
Import ListNotations.
Local Open Scope string_scope.
Local Open Scope list_scope.

Lemma filter_split : forall A (f : A -> bool) l, Permutation l (filter (fun x => negb (f x)) l ++ filter f l).
Proof.
  intros A f l. induction l as [|a l IH]; cbn; [constructor|]. destruct (f a); cbn.
  - apply Permutation_cons_app. exact IH.
  - constructor. exact IH.
Qed.

(** ** The card has one row for each check that was run, which says its name, status and recommendation, and for the
    shift and the consistency of ROI how many channels passed.  The latter two come last; otherwise the checks are in the
    order in which they were run.  A check that has no readable name is an error. *)
Theorem C110_rows : forall rs,
  ((forall r, In r rs -> exists n, readable (ck_class r) n) ->
    exists first last rows, health_card rs = Ok rows /\ Permutation rs (first ++ last) /\ Forall2 says (first ++ last) rows /\
      Forall (fun r => ~ counts_channels r) first /\ Forall counts_channels last /\
      (forall r s before between after, rs = before ++ r :: between ++ s :: after ->
         (counts_channels r <-> counts_channels s) ->
         exists b m a, first ++ last = b ++ r :: m ++ s :: a)) /\
  (forall r, In r rs -> (forall n, ~ readable (ck_class r) n) -> health_card rs = Err ValueError).
Proof.
  intros rs. split.
  - intros H. destruct (card_checks_ok rs [] [] H) as (m & c & E & A & B).
    exists (filter (fun r => negb (by_channel r)) rs), (filter by_channel rs), (map metric_row m ++ map advanced_row c).
    unfold health_card. rewrite E. cbn.
    split; [reflexivity|]. split; [apply filter_split|].
    split; [apply Forall2_app; apply Forall2_map_r; assumption|].
    split; [apply Forall_forall; intros r Hr; apply filter_In in Hr; destruct Hr as [_ Hr]; rewrite <- by_channel_iff;
            destruct (by_channel r); [discriminate Hr|discriminate]|].
    split; [apply Forall_forall; intros r Hr; apply filter_In in Hr; apply by_channel_iff, Hr|].
    intros r s x y z -> Hrs. rewrite <- !by_channel_iff in Hrs.
    rewrite !filter_app. cbn [filter]. rewrite !filter_app. cbn [filter].
    destruct (by_channel r) eqn:Br, (by_channel s) eqn:Bs; cbn [negb];
      try (exfalso; destruct Hrs as [H1 H2]; try (specialize (H1 eq_refl)); try (specialize (H2 eq_refl)); discriminate).
    + eexists (_ ++ filter by_channel x), (filter by_channel y), (filter by_channel z).
      rewrite app_assoc. reflexivity.
    + eexists (filter (fun q => negb (by_channel q)) x), (filter (fun q => negb (by_channel q)) y), (filter (fun q => negb (by_channel q)) z ++ _).
      rewrite <- !app_assoc. cbn [app]. rewrite <- !app_assoc. reflexivity.
  - intros r Hr N. unfold health_card. rewrite (card_checks_err rs [] [] r Hr N). reflexivity.
Qed.
Print Assumptions C110_rows.
Definition ex_results : list checked :=
  [mkChecked "ConvergenceCheckResult" PASS "ok" []; mkChecked "ROIConsistencyCheckResult" REVIEW "look" [PASS; REVIEW; PASS];
   mkChecked "BaselineCheckResult" FAIL "bad" []].
Example C110_rows_example : (forall r, In r ex_results -> exists n, readable (ck_class r) n) /\
  health_card ex_results = Ok [mkData "Convergence" PASS "ok" None; mkData "Baseline" FAIL "bad" None;
                               mkData "ROI consistency" REVIEW "look" (Some (2, 3))] /\
  health_card [mkChecked "MyCheckResult" PASS "" []] = Err ValueError.
Proof.
  split; [|split; reflexivity].
  intros r [<-|[<-|[<-|[]]]]; eexists; constructor.
Qed.

(** Refuted: a check that looks at channels says how many of them passed. *)
Theorem C110_counts_refuted : exists r row, ck_channels r = [PASS; REVIEW; PASS] /\ health_card [r] = Ok [row] /\ cd_counts row = None.
Proof. exists (mkChecked "ImplausibleROICheckResult" REVIEW "" [PASS; REVIEW; PASS]). eexists. split; [reflexivity|]. split; reflexivity. Qed.
Print Assumptions C110_counts_refuted.
(** Refuted: a failure is shown as one. *)
Theorem C110_failure_refuted : exists r row, ck_status r = FAIL /\ health_card [r] = Ok [row] /\ cd_status row = REVIEW.
Proof. exists (mkChecked "ROIConsistencyCheckResult" FAIL "" [REVIEW]). eexists. split; [reflexivity|]. split; reflexivity. Qed.
Print Assumptions C110_failure_refuted.

(** ** The statuses by name: each class of results once, with the status of its last result. *)
Theorem C110_statuses : forall rs, NoDup (map fst (checks_status rs)) /\
  forall c s, In (c, s) (checks_status rs) <-> last_of rs c s.
Proof. intros rs. split; [apply statuses_nodup|apply statuses_lemma]. Qed.
Print Assumptions C110_statuses.
Example C110_statuses_example : checks_status (ex_results ++ [mkChecked "ConvergenceCheckResult" REVIEW "" []]) =
  [("ConvergenceCheckResult", REVIEW); ("ROIConsistencyCheckResult", REVIEW); ("BaselineCheckResult", FAIL)].
Proof. reflexivity. Qed.
