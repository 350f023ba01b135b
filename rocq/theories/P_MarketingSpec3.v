(** Proofs for the planner's tables of marketing analyses. *)
From Coq Require Import ZArith QArith String List Bool Arith Lia Lqa.
From Verif Require Import M_Base M_Opt M_BudgetSpec S_BudgetSpec P_BudgetSpec M_MarketingSpec S_MarketingSpec P_MarketingSpec P_MarketingSpec2.
Import ListNotations.
Local Open Scope string_scope.
Local Open Scope list_scope.

(** An analysis whose channels all have a primary outcome of the same kind, with the baseline last. *)
Definition complete (revenue : bool) (a : analysis) : Prop :=
  NoDup (map fst (channel_lists a)) /\
  (forall n outs, In (n, outs) (channel_lists a) -> exists o, primary outs o /\ o_revenue o = revenue) /\
  exists ns p o, an_non_media a = ns ++ [p] /\ n_name p = "baseline" /\ n_outcomes p = [o].

Lemma dict_in : forall (A : Type) (l : list (string * A)) k x, dget (to_dict l) k = Some x -> In (k, x) l.
Proof.
  intros A l k x H. unfold to_dict in H.
  assert (G : forall l (d : list (string * A)), dget (fold_left (fun d e => dput d (fst e) (snd e)) l d) k = Some x -> In (k, x) l \/ dget d k = Some x).
  { intros l0. induction l0 as [|[n y] r IH]; intros d E; cbn [fold_left fst snd] in E; [ right; exact E | ].
    destruct (IH _ E) as [I|I]; [ left; right; exact I | ]. rewrite dget_put in I. destruct (String.eqb_spec n k) as [->|_].
    - injection I as ->. left. left. reflexivity.
    - right. exact I. }
  destruct (G l [] H) as [I|I]; [ exact I | discriminate ].
Qed.
Lemma dict_some : forall (A : Type) (l : list (string * A)) k, In k (map fst l) -> exists x, dget (to_dict l) k = Some x.
Proof.
  intros A l k H. apply dget_some. unfold to_dict. apply fold_keys. left. exact H.
Qed.

Lemma maybe_primary : forall revenue outs o, primary outs o -> o_revenue o = revenue -> maybe_outcome revenue outs = Some o.
Proof.
  intros revenue outs o [r ->] E. unfold maybe_outcome. cbn [find]. rewrite E. rewrite Bool.eqb_reflx. reflexivity.
Qed.

Lemma complete_names : forall revenue a, complete revenue a ->
  NoDup (map c_name (an_media a)) /\ NoDup (map n_name (an_non_media a)) /\
  exists ns p o, an_non_media a = ns ++ [p] /\ n_name p = "baseline" /\ n_outcomes p = [o] /\ o_revenue o = revenue /\ ~ In "baseline" (map n_name ns) /\ ~ In "baseline" (map c_name (an_media a)).
Proof.
  intros revenue a [N [P [ns [p [o [E [B O]]]]]]]. unfold channel_lists in N. rewrite map_app, !map_map in N. cbn [fst] in N.
  change (NoDup (map c_name (an_media a) ++ map n_name (an_non_media a))) in N.
  assert (NA : NoDup (map c_name (an_media a)) /\ NoDup (map n_name (an_non_media a)) /\ forall x, In x (map c_name (an_media a)) -> ~ In x (map n_name (an_non_media a))).
  { clear - N. revert N. generalize (map c_name (an_media a)) (map n_name (an_non_media a)). intros l m. induction l as [|x r IH]; intros N; cbn [app] in N.
    - split; [ constructor | ]. split; [ exact N | intros y [] ].
    - inversion N as [|? ? X Y]; subst. destruct (IH Y) as [A [B C]]. split; [ constructor; [ intros I; apply X; apply in_or_app; left; exact I | exact A ] | ].
      split; [ exact B | ]. intros y [<-|I]; [ intros J; apply X; apply in_or_app; right; exact J | exact (C y I) ]. }
  destruct NA as [N1 [N2 N3]]. split; [ exact N1 | ]. split; [ exact N2 | ]. exists ns, p, o. split; [ exact E | ]. split; [ exact B | ]. split; [ exact O | ].
  split; [ | split ].
  - destruct (P (n_name p) (n_outcomes p)) as [o' [[r R] K]].
    + unfold channel_lists. apply in_or_app. right. apply in_map_iff. exists p. split; [ reflexivity | ]. rewrite E. apply in_or_app. right. left. reflexivity.
    + rewrite O in R. injection R as -> _. exact K.
  - rewrite E, map_app in N2. cbn [map] in N2. rewrite B in N2. intros I. apply NoDup_remove_2 in N2. apply N2. rewrite app_nil_r. exact I.
  - intros I. apply (N3 _ I). rewrite E, map_app. cbn [map]. rewrite B. apply in_or_app. right. left. reflexivity.
Qed.

Lemma find_app_last : forall (ns : list non_pb) p, ~ In "baseline" (map n_name ns) -> n_name p = "baseline" ->
  find (fun n => String.eqb (n_name n) "baseline") (ns ++ [p]) = Some p.
Proof.
  intros ns p N E. induction ns as [|x r IH]; cbn [app find].
  - rewrite E. reflexivity.
  - destruct (String.eqb_spec (n_name x) "baseline") as [X|_]; [ exfalso; apply N; left; exact X | ]. apply IH. intros I. apply N. right. exact I.
Qed.

Lemma revenue_lemma : forall revenue l, Forall (complete revenue) l -> In "ALL" (map (fun a => i_tag (an_interval a)) l) -> is_revenue_kpi l = Ok revenue.
Proof.
  intros revenue l C I. unfold is_revenue_kpi, tagged.
  destruct (dict_some _ (map (fun a => (i_tag (an_interval a), a)) l) "ALL") as [a A]; [ rewrite map_map; exact I | ].
  rewrite A. apply dict_in in A. apply in_map_iff in A. destruct A as [a' [E A]]. injection E as _ ->.
  rewrite Forall_forall in C. destruct (complete_names _ _ (C a A)) as [_ [_ [ns [p [o [E [B [O [R [N _]]]]]]]]]].
  unfold baseline_analysis. rewrite E, find_app_last; [ | exact N | exact B ]. cbn [rbind]. rewrite O. unfold maybe_outcome. cbn [find]. rewrite R.
  destruct revenue; reflexivity.
Qed.
Lemma untagged_lemma : forall l, ~ In "ALL" (map (fun a => i_tag (an_interval a)) l) -> is_revenue_kpi l = Err KeyError.
Proof.
  intros l N. unfold is_revenue_kpi, tagged. destruct (dget _ "ALL") as [a|] eqn:A; [ | reflexivity ].
  apply dict_in in A. apply in_map_iff in A. destruct A as [a' [E A]]. injection E as E _. exfalso. apply N. apply in_map_iff. exists a'. split; [ exact E | exact A ].
Qed.

Lemma blocks : forall (A B : Type) (f : A -> result (list B)) (P : A -> list B -> Prop) l, (forall a, In a l -> exists b, f a = Ok b /\ P a b) ->
  exists bs, mapR f l = Ok bs /\ Forall2 P l bs.
Proof.
  intros A B f P l. induction l as [|x r IH]; intros H; [ exists []; split; [ reflexivity | constructor ] | ].
  destruct (H x (or_introl eq_refl)) as [b [E Q]]. destruct IH as [bs [F G]]; [ intros a I; apply H; right; exact I | ].
  exists (b :: bs). cbn [mapR]. rewrite E. cbn [rbind]. rewrite F. split; [ reflexivity | constructor; [ exact Q | exact G ] ].
Qed.

Lemma outcome_block_lemma : forall revenue a, complete revenue a -> exists rows, outcome_rows (Ok revenue) a = Ok rows /\ outcome_block a rows.
Proof.
  intros revenue a C. destruct (complete_names _ _ C) as [N1 [N2 [ns [p [o [E [B [O [R [N M]]]]]]]]]].
  destruct C as [_ [P _]]. unfold outcome_rows. cbn [rbind]. unfold baseline_analysis. rewrite E, find_app_last; [ | exact N | exact B ]. cbn [rbind].
  unfold typed_outcome. rewrite O. rewrite (maybe_primary revenue [o] o); [ | exists []; reflexivity | exact R ]. cbn [rbind].
  eexists. split; [ reflexivity | ].
  exists (map (fun m => (c_name m, c_outcomes m)) (an_media a) ++ map (fun m => (n_name m, n_outcomes m)) ns), [o].
  split; [ unfold channel_lists; rewrite E, map_app; cbn [map]; rewrite B, O; apply app_assoc | ].
  constructor.
  - exists o. split; [ exists []; reflexivity | reflexivity ].
  - unfold media_dict, non_media_dict. rewrite !to_dict_nodup; [ | rewrite map_map; exact N2 | rewrite map_map; exact N1 ].
    assert (G : forall n outs, In (n, outs) (channel_lists a) -> n <> "baseline" -> outcome_of_channel n outs (an_interval a) (outcome_row_of revenue (an_interval a) n outs)).
    { intros n outs I X. destruct (P n outs I) as [o' [P1 P2]]. exists o'. split; [ exact P1 | ]. unfold outcome_row_of. rewrite (maybe_primary _ _ _ P1 P2).
      destruct (String.eqb_spec n "baseline") as [Y|_]; [ contradiction | reflexivity ]. }
    assert (GM : forall m, In m (an_media a) -> In (c_name m, c_outcomes m) (channel_lists a)).
    { intros m I. unfold channel_lists. apply in_or_app. left. apply in_map_iff. exists m. split; [ reflexivity | exact I ]. }
    assert (GN : forall m, In m ns -> In (n_name m, n_outcomes m) (channel_lists a)).
    { intros m I. unfold channel_lists. apply in_or_app. right. apply in_map_iff. exists m. split; [ reflexivity | rewrite E; apply in_or_app; left; exact I ]. }
    apply Forall2_app.
    + clear - G GM M. induction (an_media a) as [|m r IH]; cbn [map]; constructor.
      * cbn [fst snd]. apply G; [ apply GM; left; reflexivity | ]. intros X. apply M. left. exact X.
      * apply IH; [ intros I; apply M; right; exact I | intros x X; apply GM; right; exact X ].
    + rewrite E. rewrite map_app, filter_app. cbn [map filter]. cbn [fst]. rewrite B. cbn [String.eqb negb]. 
      replace (String.eqb "baseline" "baseline") with true by reflexivity. cbn [negb]. rewrite app_nil_r.
      rewrite filter_all; [ | intros [n x] I; apply in_map_iff in I; destruct I as [y [Y I]]; injection Y as <- <-; cbn [fst]; destruct (String.eqb_spec (n_name y) "baseline") as [X|_]; [ exfalso; apply N; apply in_map_iff; exists y; split; [ exact X | exact I ] | reflexivity ] ].
      clear - G GN N. induction ns as [|m r IH]; cbn [map]; constructor.
      * cbn [fst snd]. apply G; [ apply GN; left; reflexivity | ]. intros X. apply N. left. exact X.
      * apply IH; [ intros I; apply N; right; exact I | intros x X; apply GN; right; exact X ].
Qed.

Lemma real_dict : forall revenue a, complete revenue a -> real_channels a = map (fun m => (c_name m, m)) (real (an_media a)).
Proof.
  intros revenue a C. destruct (complete_names _ _ C) as [N1 _]. unfold real_channels, media_dict. rewrite to_dict_nodup; [ | rewrite map_map; exact N1 ].
  unfold real. induction (an_media a) as [|m r IH]; cbn [map filter fst]; [ reflexivity | ].
  destruct (negb (String.eqb (c_name m) "All Channels")); cbn [map]; rewrite IH; try reflexivity; inversion N1; assumption.
Qed.
Lemma real_primary : forall revenue a m, complete revenue a -> In m (real (an_media a)) -> exists o, primary (c_outcomes m) o /\ o_revenue o = revenue.
Proof.
  intros revenue a m [_ [P _]] I. unfold real in I. apply filter_In in I. apply (P (c_name m)). unfold channel_lists. apply in_or_app. left.
  apply in_map_iff. exists m. split; [ reflexivity | exact (proj1 I) ].
Qed.

Definition shares_of (revenue : bool) (l : list chan_pb) : list Q :=
  map (fun m => match maybe_outcome revenue (c_outcomes m) with Some o => value_or_zero (o_share o) | None => 0 end) l.
Lemma norm_sum : forall revenue l, (forall m, In m l -> exists o, primary (c_outcomes m) o /\ o_revenue o = revenue) ->
  (norm_term revenue (map (fun m => (c_name m, m)) l) == qsum_list (shares_of revenue l))%Q.
Proof.
  intros revenue l P. unfold norm_term.
  assert (G : forall l acc, (forall m, In m l -> exists o, primary (c_outcomes m) o /\ o_revenue o = revenue) ->
    (fold_left (fun acc m => match share_of revenue m with Some x => acc + x | None => acc end) (map (fun m => (c_name m, m)) l) acc == acc + qsum_list (shares_of revenue l))%Q).
  { intros l0. induction l0 as [|m r IH]; intros acc H; cbn [map fold_left shares_of qsum_list fold_right]; [ ring | ].
    rewrite IH; [ | intros x X; apply H; right; exact X ]. destruct (H m (or_introl eq_refl)) as [o [P1 P2]].
    unfold share_of. cbn [snd]. rewrite (maybe_primary _ _ _ P1 P2). cbn [option_map]. fold (shares_of revenue r). unfold qsum_list. ring. }
  rewrite G; [ ring | exact P ].
Qed.
Lemma shares_spec : forall revenue a, complete revenue a -> outcome_shares a (shares_of revenue (real (an_media a))).
Proof.
  intros revenue a C. unfold outcome_shares. assert (P := fun m => real_primary revenue a m C). clear C.
  induction (real (an_media a)) as [|m r IH]; cbn [shares_of map]; constructor.
  - destruct (P m (or_introl eq_refl)) as [o [P1 P2]]. exists o. split; [ exact P1 | ]. rewrite (maybe_primary _ _ _ P1 P2). reflexivity.
  - apply IH. intros x X. apply P. right. exact X.
Qed.
Lemma shares_unique : forall a x y, outcome_shares a x -> outcome_shares a y -> x = y.
Proof.
  intros a x y H. unfold outcome_shares in *. revert y. induction H as [|m q l qs [o [[r R] ->]] H IH]; intros y K; inversion K as [|? q' ? qs' [o' [[r' R'] ->]] K']; subst; [ reflexivity | ].
  rewrite R in R'. injection R' as -> _. f_equal. apply IH. exact K'.
Qed.
Lemma parts_sum : forall l n, ~ (n == 0)%Q -> (qsum_list (map (fun x => x / n) l) == qsum_list l / n)%Q.
Proof.
  intros l n N. unfold qsum_list. induction l as [|x r IH]; cbn [map fold_right]; [ field; exact N | ]. rewrite IH. field. exact N.
Qed.

Lemma spend_block_lemma : forall revenue a, complete revenue a ->
  (forall shares, outcome_shares a shares -> real (an_media a) = [] \/ ~ (qsum_list shares == 0)%Q) ->
  exists rows, spend_rows (Ok revenue) a = Ok rows /\ spend_block revenue a rows.
Proof.
  intros revenue a C H. specialize (H _ (shares_spec revenue a C)). unfold spend_rows. rewrite (real_dict revenue a C).
  pose proof (norm_sum revenue (real (an_media a)) (fun m => real_primary revenue a m C)) as NS.
  pose proof (shares_spec revenue a C) as SS. pose proof (fun m => real_primary revenue a m C) as RP.
  unfold spend_block. unfold outcome_shares in *. destruct (real (an_media a)) as [|m0 r0] eqn:RL.
  - exists []. split; [ reflexivity | ]. exists [], []. split; [ constructor | ]. split; [ constructor | ]. split; [ intros X; contradiction | reflexivity ].
  - destruct H as [H|H]; [ discriminate | ]. cbn [map]. cbn [rbind]. cbv zeta.
    change ((c_name m0, m0) :: map (fun m => (c_name m, m)) r0) with (map (fun m => (c_name m, m)) (m0 :: r0)).
    set (l := m0 :: r0) in *. set (norm := norm_term revenue (map (fun m => (c_name m, m)) l)) in *.
    assert (NZ : ~ (norm == 0)%Q) by (rewrite NS; exact H).
    replace (Qeq_bool norm 0) with false by (symmetry; apply not_true_iff_false; intros X; apply Qeq_bool_eq in X; contradiction). cbn [raise_if].
    eexists. split; [ reflexivity | ].
    exists (shares_of revenue l), (map (fun x => x / norm)%Q (shares_of revenue l)). split; [ exact SS | ]. split; [ | split ].
    + assert (G : forall n, (n == norm)%Q -> forall q, Forall2 (fun x y => (y * n == x)%Q) q (map (fun x => x / norm)%Q q)).
      { intros n E q. induction q as [|x r IH]; cbn [map]; constructor; [ rewrite E; field; exact NZ | exact IH ]. }
      apply G. symmetry. exact NS.
    + intros _. rewrite parts_sum; [ | exact NZ ]. rewrite <- NS. field. exact NZ.
    + clear - RP. unfold shares_of. rewrite map_map. revert RP. generalize norm. clear. induction l as [|m r IH]; intros norm RP; cbn [map flat_map combine]; [ reflexivity | ].
      cbn [app]. destruct (RP m (or_introl eq_refl)) as [o [P1 P2]]. unfold share_of at 1. cbn [fst snd]. rewrite (maybe_primary _ _ _ P1 P2). cbn [option_map].
      f_equal. f_equal. rewrite (IH norm); [ reflexivity | intros x X; apply RP; right; exact X ].
Qed.
Lemma spend_zero_lemma : forall revenue a shares, complete revenue a -> real (an_media a) <> [] -> outcome_shares a shares -> (qsum_list shares == 0)%Q ->
  spend_rows (Ok revenue) a = Err ZeroDivisionError.
Proof.
  intros revenue a shares C N S Z. rewrite (shares_unique _ _ _ S (shares_spec revenue a C)) in Z. unfold spend_rows. rewrite (real_dict revenue a C).
  rewrite <- norm_sum in Z; [ | intros m; apply real_primary; exact C ]. destruct (real (an_media a)) as [|m r]; [ contradiction | ].
  cbn [map]. cbn [rbind]. cbv zeta. cbn [map] in Z. replace (Qeq_bool _ 0) with true; [ reflexivity | ]. symmetry. apply Qeq_eq_bool. exact Z.
Qed.
Lemma roi_block_lemma : forall revenue a, complete revenue a -> exists rows, roi_rows (Ok revenue) a = Ok rows /\ roi_block revenue a rows.
Proof.
  intros revenue a C. unfold roi_rows, roi_block. rewrite (real_dict revenue a C). assert (P := fun m => real_primary revenue a m C). clear C.
  induction (real (an_media a)) as [|m r IH]; cbn [map mapR]; [ exists []; split; [ reflexivity | constructor ] | ].
  destruct (P m (or_introl eq_refl)) as [o [P1 P2]]. cbn [rbind fst snd]. unfold typed_outcome at 1. rewrite (maybe_primary _ _ _ P1 P2). cbn [rbind].
  destruct IH as [rows [E F]]; [ intros x X; apply P; right; exact X | ]. cbn [rbind] in E. rewrite E. cbn [rbind]. eexists. split; [ reflexivity | ].
  constructor; [ | exact F ]. exists o. split; [ exact P1 | ]. rewrite P2. reflexivity.
Qed.

Lemma concat_blocks : forall (B : Type) (f : analysis -> result (list B)) (P : analysis -> list B -> Prop) l,
  (forall a, In a l -> exists b, f a = Ok b /\ P a b) -> exists bs, rbind (mapR f l) (fun x => Ok (concat x)) = Ok (concat bs) /\ Forall2 P l bs.
Proof. intros B f P l H. destruct (blocks _ _ f P l H) as [bs [E F]]. exists bs. rewrite E. split; [ reflexivity | exact F ]. Qed.
Lemma mapR_first_err : forall (A B : Type) (f : A -> result B) l e, (forall a, In a l -> f a = Err e) -> l <> [] -> mapR f l = Err e.
Proof. intros A B f [|x r] e H N; [ contradiction | ]. cbn [mapR]. rewrite (H x (or_introl eq_refl)). reflexivity. Qed.
