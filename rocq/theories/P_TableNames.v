(** Proofs for C111. *)
From Coq Require Import String Ascii List Bool Arith Lia.
From Verif Require Import M_Base M_TableNames S_TableNames.
Import ListNotations.
Local Open Scope string_scope.
Local Open Scope list_scope.

Lemma sub_not_blank : forall s, ~ starts_with_blank s -> sub_blanks true s = sub_blanks false s.
Proof. intros [|c s] H; cbn in *; [reflexivity|]. destruct (blank c); [exfalso; apply H; reflexivity|reflexivity]. Qed.
Lemma sub_blank : forall s, starts_with_blank s -> sub_blanks false s = String "_" (sub_blanks true s).
Proof. intros [|c s] H; cbn in *; [contradiction|]. rewrite H. reflexivity. Qed.
Lemma starts_dec : forall s, starts_with_blank s \/ ~ starts_with_blank s.
Proof. intros [|c s]; cbn; [right; intros []|]. destruct (blank c); [left; reflexivity|right; discriminate]. Qed.

Lemma squeezed_iff : forall s m, squeezed s m <-> to_sheet_name s = m.
Proof.
  intros s m. unfold to_sheet_name. split.
  - intros H. induction H as [|c s m B H IH|c s m B N H IH|c s m B N H IH]; cbn [sub_blanks]; rewrite ?B.
    + reflexivity.
    + rewrite IH. reflexivity.
    + rewrite (sub_not_blank s N), IH. reflexivity.
    + rewrite <- (sub_blank s N). exact IH.
  - intros <-. induction s as [|c s IH]; cbn [sub_blanks]; [constructor|].
    destruct (blank c) eqn:B; [|constructor; assumption].
    destruct (starts_dec s) as [N|N].
    + rewrite <- (sub_blank s N). apply sq_more_blanks; assumption.
    + rewrite (sub_not_blank s N). apply sq_last_blank; assumption.
Qed.

Lemma in_names : forall A (out : list (string * A)) n,
  existsb (fun o => String.eqb (fst o) n) out = true <-> In n (map fst out).
Proof.
  intros A out n. rewrite existsb_exists, in_map_iff. split.
  - intros (o & H & E). apply String.eqb_eq in E. exists o. split; assumption.
  - intros (o & E & H). exists o. split; [exact H|]. apply String.eqb_eq. exact E.
Qed.
Lemma collect_lemma : forall A (ts out : list (string * A)), NoDup (map fst out) ->
  (NoDup (map fst (out ++ ts)) -> collect ts out = Ok (out ++ ts)) /\
  (~ NoDup (map fst (out ++ ts)) -> collect ts out = Err ValueError).
Proof.
  intros A. induction ts as [|t ts IH]; intros out N; cbn [collect].
  - rewrite app_nil_r. split; [reflexivity|contradiction].
  - assert (App : out ++ t :: ts = (out ++ [t]) ++ ts) by (rewrite <- app_assoc; reflexivity).
    destruct (existsb (fun o => String.eqb (fst o) (fst t)) out) eqn:E; cbn [raise_if].
    + apply in_names in E. split; [|reflexivity]. intros H. exfalso. rewrite map_app in H. cbn in H.
      apply NoDup_remove_2 in H. apply H. apply in_or_app. left. exact E.
    + assert (N' : NoDup (map fst (out ++ [t]))).
      { rewrite map_app. cbn. apply NoDup_rev in N. rewrite <- (rev_involutive (map fst out ++ [fst t])). apply NoDup_rev.
        rewrite rev_app_distr. cbn. constructor; [|exact N]. rewrite <- in_rev, <- in_names, E. discriminate. }
      rewrite App. apply (IH (out ++ [t]) N').
Qed.

(** Which of the twelve converters a name is of. *)
Definition tag (n : string) : nat :=
  if String.prefix "budget_opt_grid_" n then 5 else if String.prefix "rf_opt_grid_" n then 9 else
  if String.eqb n "ModelDiagnostics" then 0 else if String.eqb n "ModelFit" then 1 else
  if String.eqb n "MediaOutcome" then 2 else if String.eqb n "MediaSpend" then 3 else
  if String.eqb n "MediaROI" then 4 else if String.eqb n "budget_opt_specs" then 6 else
  if String.eqb n "budget_opt_results" then 7 else if String.eqb n "response_curves" then 8 else
  if String.eqb n "rf_opt_specs" then 10 else 11.

Lemma nodup_app : forall (a b : list string), (forall x, In x a -> ~ In x b) -> (NoDup (a ++ b) <-> NoDup a /\ NoDup b).
Proof.
  induction a as [|x a IH]; cbn; intros b D.
  - split; [intros H; split; [constructor|exact H]|tauto].
  - assert (D' : forall y, In y a -> ~ In y b) by (intros y Hy; apply D; right; exact Hy). specialize (IH b D'). split.
    + intros H. inversion H as [|? ? N1 N2]; subst. apply IH in N2. destruct N2 as [N2 N3]. split; [|exact N3].
      constructor; [|exact N2]. intros Hx. apply N1. apply in_or_app. left. exact Hx.
    + intros [H N3]. inversion H as [|? ? N1 N2]; subst. constructor; [|apply IH; split; assumption].
      intros Hx. apply in_app_or in Hx. destruct Hx as [Hx|Hx]; [contradiction|]. apply (D x (or_introl eq_refl) Hx).
Qed.
Lemma nodup_concat : forall segs k,
  (forall i seg n, nth_error segs i = Some seg -> In n seg -> tag n = k + i) ->
  (NoDup (concat segs) <-> Forall (@NoDup string) segs).
Proof.
  induction segs as [|a segs IH]; cbn; intros k H; [split; constructor|].
  assert (Hs : forall i seg n, nth_error segs i = Some seg -> In n seg -> tag n = S k + i).
  { intros i seg n Hi Hn. rewrite (H (S i) seg n Hi Hn). lia. }
  rewrite nodup_app, (IH (S k) Hs).
  - split; [intros [A B]; constructor; assumption|intros F; inversion F; subst; split; assumption].
  - intros x Hx Hc. apply in_concat in Hc. destruct Hc as (seg & Hseg & Hin).
    apply In_nth_error in Hseg. destruct Hseg as [i Hi]. specialize (Hs i seg x Hi Hin). specialize (H 0 a x eq_refl Hx). lia.
Qed.

Lemma one_names : forall A n (t : option A) x, In x (map fst (one n t)) -> x = n.
Proof. intros A n [a|] x; cbn; [intros [H|[]]; congruence|intros []]. Qed.
Lemma one_nodup : forall A n (t : option A), NoDup (map fst (one n t)).
Proof. intros A n [a|]; cbn; [constructor; [intros []|constructor]|constructor]. Qed.
Lemma budget_name : forall g, grid_sheet_name "budget_opt_grid" g = ("budget_opt_grid_" ++ to_sheet_name g)%string.
Proof. reflexivity. Qed.
Lemma rf_name : forall g, grid_sheet_name "rf_opt_grid" g = ("rf_opt_grid_" ++ to_sheet_name g)%string.
Proof. reflexivity. Qed.
Lemma grid_names : forall A p (l : list (string * A)), map fst (grids p l) = map (grid_sheet_name p) (map fst l).
Proof. intros A p l. unfold grids. rewrite !map_map. reflexivity. Qed.

Lemma names_tagged : forall A (p : planner_tables A) i seg n,
  nth_error (map (map fst) (yielded p)) i = Some seg -> In n seg -> tag n = 0 + i.
Proof.
  intros A p i seg n H Hn. unfold yielded in H.
  do 12 (destruct i as [|i]; [cbn [map nth_error] in H; injection H as <-;
    first [ apply one_names in Hn; subst n; reflexivity
          | rewrite grid_names in Hn; apply in_map_iff in Hn; destruct Hn as (g & <- & _); rewrite ?budget_name, ?rf_name;
            unfold tag; cbn; destruct (to_sheet_name g); reflexivity ]|]).
  cbn in H. destruct i; discriminate.
Qed.

Lemma append_inj : forall p a b, (p ++ a)%string = (p ++ b)%string -> a = b.
Proof. induction p as [|c p IH]; cbn; intros a b H; [exact H|]. injection H as H. apply IH. exact H. Qed.
Lemma told_iff : forall A pre (l : list (string * A)),
  (forall g, grid_sheet_name pre g = ((pre ++ "_") ++ to_sheet_name g)%string) ->
  (NoDup (map fst (grids pre l)) <-> told_apart l).
Proof.
  intros A pre l Hp. rewrite grid_names. unfold told_apart. rewrite NoDup_nth_error. split.
  - intros H i j g h m Hi Hj Sg Sh. apply squeezed_iff in Sg, Sh. apply H.
    + rewrite map_length. apply nth_error_Some. rewrite Hi. discriminate.
    + erewrite !map_nth_error by eassumption. rewrite !Hp, Sg, Sh. reflexivity.
  - intros H i j Li E. rewrite map_length in Li. apply nth_error_Some in Li.
    destruct (nth_error (map fst l) i) as [g|] eqn:Hi; [|contradiction].
    rewrite (map_nth_error _ _ _ Hi) in E. symmetry in E.
    destruct (nth_error (map fst l) j) as [h|] eqn:Hj.
    + rewrite (map_nth_error _ _ _ Hj) in E. injection E as E. rewrite !Hp in E. apply append_inj in E.
      apply (H i j g h (to_sheet_name g) Hi Hj); apply squeezed_iff; [reflexivity|exact E].
    + exfalso. apply nth_error_None in Hj. assert (L : nth_error (map (grid_sheet_name pre) (map fst l)) j = None)
        by (apply nth_error_None; rewrite map_length; exact Hj). rewrite L in E. discriminate.
Qed.

Lemma map_concat : forall A B (f : A -> B) l, map f (concat l) = concat (map (map f) l).
Proof. intros A B f l. induction l as [|a l IH]; cbn; [reflexivity|]. rewrite map_app, IH. reflexivity. Qed.
Lemma nodup_tables : forall A (p : planner_tables A),
  NoDup (map fst (concat (yielded p))) <-> told_apart (pt_budget_grids p) /\ told_apart (pt_rf_grids p).
Proof.
  intros A p. rewrite map_concat, (nodup_concat _ 0 (names_tagged A p)).
  rewrite <- (told_iff A "budget_opt_grid") by (intros g; reflexivity).
  rewrite <- (told_iff A "rf_opt_grid") by (intros g; reflexivity).
  unfold yielded. cbn [map]. split.
  - intros H. rewrite Forall_forall in H. split; apply H; [do 5 right; left; reflexivity|do 9 right; left; reflexivity].
  - intros [H1 H2]. repeat (constructor; [first [apply one_nodup|assumption]|]). constructor.
Qed.

Lemma in_one : forall A n (t : option A) x a, In (x, a) (one n t) <-> x = n /\ t = Some a.
Proof.
  intros A n [b|] x a; cbn; split.
  - intros [H|[]]. inversion H; subst. split; reflexivity.
  - intros [-> H]. inversion H; subst. left. reflexivity.
  - intros [].
  - intros [_ H]. discriminate.
Qed.
Lemma in_grids : forall A pre (l : list (string * A)) x a,
  In (x, a) (grids pre l) <-> exists g, x = grid_sheet_name pre g /\ In (g, a) l.
Proof.
  intros A pre l x a. unfold grids. rewrite in_map_iff. split.
  - intros ([g b] & E & H). inversion E; subst. exists g. split; [reflexivity|exact H].
  - intros (g & -> & H). exists (g, a). split; [reflexivity|exact H].
Qed.
Lemma in_tables : forall A (p : planner_tables A) n t, In (n, t) (concat (yielded p)) <-> is_table p n t.
Proof.
  intros A p n t. unfold yielded. cbn [concat]. rewrite !in_app_iff, !in_one, !in_grids. split.
  - intros H. repeat (destruct H as [H|H]); try (destruct H as [-> H]; constructor; assumption).
    + destruct H as (g & -> & H). rewrite budget_name. eapply T6; [exact H|apply squeezed_iff; reflexivity].
    + destruct H as (g & -> & H). rewrite rf_name. eapply T10; [exact H|apply squeezed_iff; reflexivity].
    + destruct H.
  - intros H. destruct H; try (tauto).
    + do 5 right. left. exists g. apply squeezed_iff in H0. rewrite budget_name, H0. split; [reflexivity|assumption].
    + do 9 right. left. exists g. apply squeezed_iff in H0. rewrite rf_name, H0. split; [reflexivity|assumption].
Qed.
