(** Lemmas for property C41. *)
From Coq Require Import ZArith QArith Qround List Bool Arith Lia Lqa Sorted Permutation Setoid.
From Verif Require Import Lib_QSum Lib_Sort M_Base M_Opt M_Time M_Weekly S_Opt S_Builder S_Weekly P_Spec P_Opt P_OptGrid.
Import ListNotations.
Local Open Scope nat_scope.
Local Open Scope list_scope.

(** *** Agreement *)
Lemma opt_eqb_iff : forall A (eqb : A -> A -> bool) (same : A -> A -> Prop), (forall x y, eqb x y = true <-> same x y) ->
  forall a b, opt_eqb eqb a b = true <-> same_opt same a b.
Proof. intros A eqb same H [x|] [y|]; cbn; try tauto; split; try tauto; try discriminate; apply H. Qed.
Lemma list_eqb_iff : forall A (eqb : A -> A -> bool) (same : A -> A -> Prop), (forall x y, eqb x y = true <-> same x y) ->
  forall a b, list_eqb eqb a b = true <-> Forall2 same a b.
Proof.
  intros A eqb same H. induction a as [|x a IH]; intros [|y b]; cbn.
  - split; auto.
  - split; [discriminate|intros K; inversion K].
  - split; [discriminate|intros K; inversion K].
  - rewrite andb_true_iff, H, IH. split; [intros [? ?]; auto|intros K; inversion K; auto].
Qed.
Lemma nat_list_eqb : forall a b, list_eqb Nat.eqb a b = true <-> a = b.
Proof.
  intros a b. rewrite (list_eqb_iff nat Nat.eqb eq Nat.eqb_eq). split; [|intros ->; induction b; auto].
  revert b. induction a; intros b K; inversion K; subst; f_equal; auto.
Qed.
Lemma q_eqb_iff : forall x y, q_eqb x y = true <-> (x == y)%Q.
Proof. intros. unfold q_eqb. apply Qeq_bool_iff. Qed.
Lemma eqb_bool_iff : forall a b, eqb a b = true <-> a = b.
Proof. intros [] []; cbn; intuition congruence. Qed.
Lemma matches_iff : forall T (a b : @wgrid T), matches b a = true <-> agree a b.
Proof.
  intros. unfold matches, same_settings, agree. rewrite !andb_true_iff, !eqb_bool_iff, !q_eqb_iff, Nat.eqb_eq, nat_list_eqb.
  rewrite (opt_eqb_iff Q q_eqb Qeq q_eqb_iff), (opt_eqb_iff _ _ _ (list_eqb_iff Q q_eqb Qeq q_eqb_iff)), (list_eqb_iff Q q_eqb Qeq q_eqb_iff).
  tauto.
Qed.
Lemma forall2_sym : forall a b, Forall2 Qeq a b -> Forall2 Qeq b a.
Proof. induction 1; constructor; auto. symmetry; auto. Qed.
Lemma forall2_trans : forall a b c, Forall2 Qeq a b -> Forall2 Qeq b c -> Forall2 Qeq a c.
Proof. intros a b c H. revert c. induction H; intros c K; inversion K; subst; constructor; auto. rewrite H; auto. Qed.
Lemma forall2_refl : forall a, Forall2 Qeq a a.
Proof. induction a; constructor; auto. reflexivity. Qed.
Lemma same_opt_refl : forall A (s : A -> A -> Prop) a, (forall x, s x x) -> same_opt s a a.
Proof. intros A s [x|] H; cbn; auto. Qed.
Lemma same_opt_sym : forall A (s : A -> A -> Prop) a b, (forall x y, s x y -> s y x) -> same_opt s a b -> same_opt s b a.
Proof. intros A s [x|] [y|] H; cbn; auto. Qed.
Lemma same_opt_trans : forall A (s : A -> A -> Prop) a b c, (forall x y z, s x y -> s y z -> s x z) -> same_opt s a b -> same_opt s b c -> same_opt s a c.
Proof. intros A s [x|] [y|] [z|] H; cbn; try tauto. apply H. Qed.
Lemma agree_refl : forall T (a : @wgrid T), agree a a.
Proof. intros. unfold agree. repeat split; try reflexivity; try (apply same_opt_refl; intros; try reflexivity); apply forall2_refl. Qed.
Lemma agree_sym : forall T (a b : @wgrid T), agree a b -> agree b a.
Proof.
  intros T a b (H1 & H2 & H3 & H4 & H5 & H6 & H7 & H8 & H9 & H10 & H11 & H12). unfold agree.
  repeat split; auto; try (symmetry; assumption). apply same_opt_sym; auto. intros; symmetry; auto. apply same_opt_sym; auto. intros; apply forall2_sym; auto. apply forall2_sym; auto.
Qed.
Lemma agree_trans : forall T (a b c : @wgrid T), agree a b -> agree b c -> agree a c.
Proof.
  intros T a b c (H1 & H2 & H3 & H4 & H5 & H6 & H7 & H8 & H9 & H10 & H11 & H12) (K1 & K2 & K3 & K4 & K5 & K6 & K7 & K8 & K9 & K10 & K11 & K12). unfold agree.
  repeat split; try congruence.
  - rewrite H3; auto.
  - rewrite H4; auto.
  - rewrite H5; auto.
  - rewrite H6; auto.
  - eapply same_opt_trans; eauto. intros x y z A B; rewrite A; auto.
  - eapply same_opt_trans; eauto. intros; eapply forall2_trans; eauto.
  - eapply forall2_trans; eauto.
Qed.

Section Combine.
Context {T : Type}.
Variables (teq : forall a b : T, {a = b} + {a <> b}) (tle : T -> T -> bool) (parse : T -> option date).
Hypothesis So : strict_order tle.
Notation wk := (@week T).
Notation wle := (fun a b : wk => tle (w_time a) (w_time b)).

Lemma unique_iff : forall l, unique teq l = true <-> NoDup l.
Proof.
  induction l as [|a l IH]; cbn; [split; auto; constructor|]. rewrite andb_true_iff, negb_true_iff, IH.
  rewrite NoDup_cons_iff. assert (E : existsb (fun b => if teq a b then true else false) l = false <-> ~ In a l).
  { split.
    - intros H K. assert (existsb (fun b => if teq a b then true else false) l = true); [|congruence].
      apply existsb_exists. exists a. split; auto. destruct (teq a a); congruence.
    - intros H. apply not_true_is_false. intros K. apply existsb_exists in K. destruct K as [b [K1 K2]]. destruct (teq a b); congruence. }
  tauto.
Qed.

(** The part of [combine] after the comparisons. *)
Definition core (all : list wk) : result (list wk) :=
  raise_if (negb (unique teq (map w_time all))) ValueError (
  let sorted := isort wle all in
  rbind (mapM (read_date parse) (map w_time sorted)) (fun dates =>
  raise_if (negb (weekly dates)) ValueError (Ok sorted))).
Lemma combine_core : forall f a r, combine_grids teq tle parse (f :: a :: r) =
  raise_if (negb (forallb (matches f) (a :: r))) ValueError
    (rbind (core (concat (map g_weeks (f :: a :: r)))) (fun ws => Ok (mkGrid (g_settings f) (g_channels f) (g_mults f) ws))).
Proof.
  intros. unfold combine_grids, core. destruct (negb (forallb _ _)); cbn [raise_if]; auto.
  destruct (negb (unique _ _)); cbn [raise_if rbind]; auto. destruct (mapM _ _) as [ds|e]; cbn [rbind]; auto. destruct (negb (weekly ds)); cbn [raise_if rbind]; auto.
Qed.
Lemma mapM_err : forall l e, mapM (read_date parse) l = Err e -> e = ValueError.
Proof.
  induction l as [|t l IH]; cbn; intros e H; [discriminate|]. unfold read_date at 1 in H. destruct (parse t); cbn [rbind] in H; [|congruence].
  destruct (mapM _ l) as [ds|e'] eqn:E; cbn [rbind] in H; [discriminate|]. rewrite <- (IH e'); congruence.
Qed.
Lemma core_err : forall l e, core l = Err e -> e = ValueError.
Proof.
  intros l e. unfold core. destruct (negb (unique _ _)); cbn [raise_if]; [congruence|].
  destruct (mapM _ _) as [ds|e'] eqn:E; cbn [rbind]. destruct (negb (weekly ds)); cbn [raise_if]; congruence. apply mapM_err in E. congruence.
Qed.
Lemma combine_err : forall gs e, combine_grids teq tle parse gs = Err e -> e = ValueError.
Proof.
  intros [|f [|a r]] e H; [cbn in H; congruence|cbn in H; congruence|].
  rewrite combine_core in H. destruct (negb (forallb (matches f) (a :: r))); cbn [raise_if] in H; [congruence|].
  destruct (core (concat (map g_weeks (f :: a :: r)))) as [ws|e'] eqn:E; cbn [rbind] in H; [discriminate|]. apply core_err in E. congruence.
Qed.
Lemma mapM_weekly : forall l, (exists ds, mapM (read_date parse) l = Ok ds /\ weekly ds = true) <-> exists z, weeks_from parse z l.
Proof.
  induction l as [|t l IH].
  - split; intros _; [exists 0%Z; exact Logic.I|exists []; split; reflexivity].
  - destruct l as [|u l].
    + cbn. unfold read_date. destruct (parse t) as [d|]; cbn.
      * split; intros _; [exists (ordinal d); split; [exists d|]; auto|exists [d]; auto].
      * split; [intros [ds [H _]]; discriminate|intros [z [[d [H _]] _]]; discriminate].
    + split.
      * intros [ds [H W]]. change (rbind (read_date parse t) (fun b => rbind (mapM (read_date parse) (u :: l)) (fun bs => Ok (b :: bs))) = Ok ds) in H.
        unfold read_date at 1 in H. destruct (parse t) as [d|] eqn:Et; cbn [rbind] in H; [|discriminate].
        destruct (mapM (read_date parse) (u :: l)) as [es|e] eqn:El; cbn [rbind] in H; [|discriminate]. assert (ds = d :: es) by congruence. subst ds.
        assert (exists e es', es = e :: es' /\ parse u = Some e) as [e [es' [-> Eu]]].
        { change (rbind (read_date parse u) (fun b => rbind (mapM (read_date parse) l) (fun bs => Ok (b :: bs))) = Ok es) in El.
          unfold read_date at 1 in El. destruct (parse u) as [e|] eqn:Eu; cbn [rbind] in El; [|discriminate].
          destruct (mapM (read_date parse) l) as [es'|]; cbn [rbind] in El; [|discriminate]. exists e, es'. split; congruence. }
        change ((Z.eqb (ordinal e - ordinal d) 7 && weekly (e :: es')) = true) in W. apply andb_true_iff in W. destruct W as [W1 W2]. apply Z.eqb_eq in W1.
        destruct (proj1 IH) as [z Hz]; [eauto|]. exists (ordinal d). split; [eauto|]. destruct Hz as [[e' [He' Hz]] Hr].
        assert (e' = e) by congruence. subst e'. replace (ordinal d + 7)%Z with z by lia. split; eauto.
      * intros [z [[d [Et Hd]] Hr]]. destruct (proj2 IH) as [es [El W]]; [eauto|]. destruct Hr as [[e [Eu He]] Hr].
        exists (d :: es). change (mapM (read_date parse) (t :: u :: l)) with (rbind (read_date parse t) (fun b => rbind (mapM (read_date parse) (u :: l)) (fun bs => Ok (b :: bs)))).
        unfold read_date at 1. rewrite Et. cbn [rbind]. rewrite El. cbn [rbind]. split; auto.
        change (rbind (read_date parse u) (fun b => rbind (mapM (read_date parse) l) (fun bs => Ok (b :: bs))) = Ok es) in El.
        unfold read_date at 1 in El. rewrite Eu in El. cbn [rbind] in El. destruct (mapM (read_date parse) l) as [es'|]; cbn [rbind] in El; [|discriminate].
        assert (es = e :: es') by congruence. subst es. change ((Z.eqb (ordinal e - ordinal d) 7 && weekly (e :: es')) = true). rewrite W, andb_true_r. apply Z.eqb_eq. lia.
Qed.
Lemma core_ok : forall l ws, core l = Ok ws <-> NoDup (map w_time l) /\ ws = isort wle l /\ exists z, weeks_from parse z (map w_time ws).
Proof.
  intros l ws. unfold core. destruct (unique teq (map w_time l)) eqn:U; cbn [negb raise_if].
  - apply unique_iff in U. split.
    + intros H. destruct (mapM _ _) as [ds|] eqn:E; cbn [rbind] in H; [|discriminate]. destruct (weekly ds) eqn:W; cbn [negb raise_if] in H; [|discriminate].
      assert (ws = isort wle l) by congruence. subst ws. refine (conj U (conj eq_refl _)). apply mapM_weekly. eauto.
    + intros (_ & -> & Hz). apply mapM_weekly in Hz. destruct Hz as [ds [-> W]]. cbn [rbind]. rewrite W. reflexivity.
  - split; [discriminate|]. intros (H & _). apply unique_iff in H. congruence.
Qed.
Lemma wle_total : forall a b : wk, wle a b = true \/ wle b a = true.
Proof. intros. destruct So as [[H _] _]. apply H. Qed.
Lemma wle_trans : forall a b c : wk, wle a b = true -> wle b c = true -> wle a c = true.
Proof. intros a b c. destruct So as [[_ H] _]. apply H. Qed.
Lemma nodup_map_inj : forall (l : list wk) a b, NoDup (map w_time l) -> In a l -> In b l -> w_time a = w_time b -> a = b.
Proof.
  induction l as [|x l IH]; intros a b H Ha Hb E; [destruct Ha|]. cbn in H. apply NoDup_cons_iff in H. destruct H as [H1 H2].
  destruct Ha as [->|Ha], Hb as [->|Hb]; auto.
  - exfalso. apply H1. rewrite E. apply in_map; auto.
  - exfalso. apply H1. rewrite <- E. apply in_map; auto.
Qed.
Lemma wle_anti : forall l a b, NoDup (map w_time l) -> In a l -> In b l -> wle a b = true -> wle b a = true -> a = b.
Proof. intros l a b H Ha Hb L1 L2. apply (nodup_map_inj l); auto. destruct So as [_ A]. apply A; auto. Qed.
Lemma core_perm : forall l m, Permutation l m -> core l = core m.
Proof.
  intros l m P. destruct (core l) as [ws|e] eqn:E.
  - symmetry. apply core_ok. apply core_ok in E. destruct E as (H1 & -> & H3). assert (NoDup (map w_time m)) by (apply (Permutation_NoDup (Permutation_map w_time P)); auto).
    refine (conj H (conj _ H3)). apply isort_unique; auto. exact wle_total. exact wle_trans. intros a b. apply wle_anti; auto.
  - assert (e = ValueError) by (apply core_err in E; auto). subst e. destruct (core m) as [ws|e'] eqn:E'; [|apply core_err in E'; congruence].
    apply core_ok in E'. destruct E' as (H1 & -> & H3). assert (NoDup (map w_time l)) by (apply (Permutation_NoDup (Permutation_map w_time (Permutation_sym P))); auto).
    assert (core l = Ok (isort wle m)); [|congruence]. apply core_ok. refine (conj H (conj _ H3)). apply isort_unique; auto. exact wle_total. exact wle_trans.
    intros a b. apply wle_anti; auto. apply Permutation_sym; auto.
Qed.
Lemma forallb_matches : forall (f : @wgrid T) l, forallb (matches f) l = true <-> Forall (fun g => agree g f) l.
Proof. intros. rewrite forallb_forall, Forall_forall. split; intros H x Hx; apply matches_iff; auto. Qed.

(** [combine] of two or more grids. *)
Lemma combine_ok : forall f a r g, combine_grids teq tle parse (f :: a :: r) = Ok g <->
  Forall (fun h => agree h f) (f :: a :: r) /\ exists ws, core (concat (map g_weeks (f :: a :: r))) = Ok ws /\ g = mkGrid (g_settings f) (g_channels f) (g_mults f) ws.
Proof.
  intros. rewrite combine_core. destruct (forallb (matches f) (a :: r)) eqn:M; cbn [negb raise_if].
  - apply forallb_matches in M. destruct (core _) as [ws|e]; cbn [rbind].
    + split; [intros H|intros [_ [ws' [H ->]]]; congruence]. split; [constructor; auto; apply agree_refl|]. exists ws. split; congruence.
    + split; [discriminate|intros [_ [ws' [H _]]]; discriminate].
  - split; [discriminate|]. intros [H _]. inversion H; subst. apply forallb_matches in H3. congruence.
Qed.
Lemma combine_agree : forall gs g, combine_grids teq tle parse gs = Ok g -> Forall (fun h => agree h g) gs.
Proof.
  intros [|f [|a r]] g H; [discriminate| |].
  - assert (f = g) by (cbn in H; congruence). subst. constructor; auto. apply agree_refl.
  - apply combine_ok in H. destruct H as [H [ws [_ ->]]]. eapply Forall_impl; [|exact H]. intros h K. exact K.
Qed.
Lemma combine_weeks : forall gs g, combine_grids teq tle parse gs = Ok g -> Permutation (concat (map g_weeks gs)) (g_weeks g).
Proof.
  intros [|f [|a r]] g H; [discriminate| |].
  - assert (f = g) by (cbn in H; congruence). subst. cbn. rewrite app_nil_r. auto.
  - apply combine_ok in H. destruct H as [_ [ws [K ->]]]. apply core_ok in K. destruct K as (_ & -> & _). apply isort_perm.
Qed.
(** Two lists of at least two grids with the same weeks and the same attributes. *)
Lemma combine_same : forall gs hs, 2 <= length gs -> 2 <= length hs ->
  Permutation (concat (map g_weeks gs)) (concat (map g_weeks hs)) ->
  ((forall f, In f gs -> Forall (fun h => agree h f) gs -> Forall (fun h => agree h f) hs) /\
   (forall f, In f hs -> Forall (fun h => agree h f) hs -> Forall (fun h => agree h f) gs)) ->
  same_outcome (combine_grids teq tle parse gs) (combine_grids teq tle parse hs).
Proof.
  intros gs hs Lg Lh P [A B]. destruct gs as [|f [|a r]]; cbn in Lg; try lia. destruct hs as [|f' [|a' r']]; cbn in Lh; try lia.
  pose proof (core_perm _ _ P) as C.
  destruct (combine_grids teq tle parse (f :: a :: r)) as [g|e] eqn:E1, (combine_grids teq tle parse (f' :: a' :: r')) as [g'|e'] eqn:E2; cbn.
  - apply combine_ok in E1. apply combine_ok in E2. destruct E1 as [H1 [ws [C1 ->]]], E2 as [H2 [ws' [C2 ->]]]. split; [|cbn; congruence].
    pose proof (A f ltac:(left; auto) H1) as K. inversion K; subst. apply agree_sym. exact H3.
  - apply combine_ok in E1. destruct E1 as [H1 [ws [C1 ->]]]. pose proof (A f ltac:(left; auto) H1) as K.
    assert (combine_grids teq tle parse (f' :: a' :: r') = Ok (mkGrid (g_settings f') (g_channels f') (g_mults f') ws)); [|congruence].
    apply combine_ok. split; [|exists ws; split; congruence]. inversion K; subst. eapply Forall_impl; [|exact K]. intros h Hh. cbv beta in Hh. eapply agree_trans; [exact Hh|]. apply agree_sym; auto.
  - apply combine_ok in E2. destruct E2 as [H1 [ws [C1 ->]]]. pose proof (B f' ltac:(left; auto) H1) as K.
    assert (combine_grids teq tle parse (f :: a :: r) = Ok (mkGrid (g_settings f) (g_channels f) (g_mults f) ws)); [|congruence].
    apply combine_ok. split; [|exists ws; split; congruence]. inversion K; subst. eapply Forall_impl; [|exact K]. intros h Hh. cbv beta in Hh. eapply agree_trans; [exact Hh|]. apply agree_sym; auto.
  - apply combine_err in E1. apply combine_err in E2. congruence.
Qed.
Lemma same_outcome_refl : forall r : result (@wgrid T), same_outcome r r.
Proof. intros [g|e]; cbn; auto. split; auto. apply agree_refl. Qed.

Lemma order_lemma : forall gs hs, Permutation gs hs -> same_outcome (combine_grids teq tle parse gs) (combine_grids teq tle parse hs).
Proof.
  intros gs hs P. destruct gs as [|f [|a r]].
  - apply Permutation_nil in P. subst. apply same_outcome_refl.
  - apply Permutation_length_1_inv in P. subst. apply same_outcome_refl.
  - apply combine_same.
    + cbn; lia.
    + rewrite <- (Permutation_length P). cbn; lia.
    + clear - P. induction P; cbn; auto. apply Permutation_app_head; auto. rewrite !app_assoc. apply Permutation_app_tail. apply Permutation_app_comm. eapply Permutation_trans; eauto.
    + split; intros f' _ H; rewrite Forall_forall in *; intros x Hx; apply H; [apply (Permutation_in x (Permutation_sym P))|apply (Permutation_in x P)]; auto.
Qed.

Lemma nested_lemma : forall gs hs g h, combine_grids teq tle parse gs = Ok g -> combine_grids teq tle parse hs = Ok h ->
  same_outcome (combine_grids teq tle parse [g; h]) (combine_grids teq tle parse (gs ++ hs)).
Proof.
  intros gs hs g h Hg Hh.
  pose proof (combine_agree _ _ Hg) as Ag. pose proof (combine_agree _ _ Hh) as Ah. pose proof (combine_weeks _ _ Hg) as Pg. pose proof (combine_weeks _ _ Hh) as Ph.
  assert (Ng : exists g0, In g0 gs) by (destruct gs as [|g0 gs]; [discriminate|exists g0; left; auto]). destruct Ng as [g0 Ig].
  assert (Nh : exists h0, In h0 hs) by (destruct hs as [|h0 hs]; [discriminate|exists h0; left; auto]). destruct Nh as [h0 Ih].
  rewrite Forall_forall in Ag, Ah.
  apply combine_same.
  - cbn; lia.
  - rewrite app_length. destruct gs; [destruct Ig|]. destruct hs; [destruct Ih|]. cbn; lia.
  - cbn. rewrite app_nil_r, map_app, concat_app. apply Permutation_app; apply Permutation_sym; auto.
  - split; intros f Hf H.
    + inversion H as [|x l H1 H2]; subst. inversion H2 as [|x l H3 H4]; subst. rewrite Forall_forall. intros k Hk. apply in_app_or in Hk. destruct Hk as [Hk|Hk].
      * eapply agree_trans; [apply Ag; auto|auto].
      * eapply agree_trans; [apply Ah; auto|auto].
    + rewrite Forall_forall in H. constructor; [|constructor; auto].
      * eapply agree_trans; [apply agree_sym; apply (Ag g0); auto|]. apply H. apply in_or_app; auto.
      * eapply agree_trans; [apply agree_sym; apply (Ah h0); auto|]. apply H. apply in_or_app; auto.
Qed.

Lemma weeks_from_nth : forall l z i t, weeks_from parse z l -> nth_error l i = Some t -> exists d, parse t = Some d /\ ordinal d = (z + 7 * Z.of_nat i)%Z.
Proof.
  induction l as [|u l IH]; intros z [|i] t W H; cbn in H; try discriminate; destruct W as [[d [W1 W2]] W3].
  - assert (u = t) by congruence. subst. exists d. split; auto. lia.
  - destruct (IH _ _ _ W3 H) as [e [E1 E2]]. exists e. split; auto. lia.
Qed.
Lemma weeks_from_nodup : forall l z, weeks_from parse z l -> NoDup l.
Proof.
  intros l z W. apply NoDup_nth_error. intros i j Hi E. destruct (nth_error l i) as [t|] eqn:Ei; [|apply nth_error_None in Ei; lia].
  destruct (weeks_from_nth _ _ _ _ W Ei) as [d [D1 D2]]. destruct (weeks_from_nth _ _ _ _ W (eq_sym E)) as [e [E1 E2]]. assert (d = e) by congruence. subst. lia.
Qed.
Lemma weeks_from_bound : forall l z t, weeks_from parse z l -> In t l -> exists d, parse t = Some d /\ (z <= ordinal d)%Z.
Proof.
  intros l z t W H. apply In_nth_error in H. destruct H as [i H]. destruct (weeks_from_nth _ _ _ _ W H) as [d [D1 D2]]. exists d. split; auto. lia.
Qed.
Lemma weeks_from_sorted : chronological tle parse -> forall (ws : list wk) z, weeks_from parse z (map w_time ws) -> le_sorted wle ws.
Proof.
  intros Ch. induction ws as [|w ws IH]; intros z W; [constructor|]. cbn in W. destruct W as [[d [W1 W2]] W3]. constructor; [apply (IH _ W3)|].
  apply Forall_forall. intros u Hu. destruct (weeks_from_bound _ _ (w_time u) W3 (in_map _ _ _ Hu)) as [e [E1 E2]]. apply (Ch _ _ d e W1 E1). lia.
Qed.
Lemma accepted_lemma : forall gs, chronological tle parse -> 2 <= length gs ->
  ((exists g, combine_grids teq tle parse gs = Ok g) <->
   (forall a b, In a gs -> In b gs -> agree a b) /\ exists ws z, Permutation ws (concat (map g_weeks gs)) /\ weeks_from parse z (map w_time ws)).
Proof.
  intros gs Ch L. destruct gs as [|f [|a r]]; cbn in L; try lia. split.
  - intros [g H]. pose proof (combine_agree _ _ H) as A. pose proof (combine_weeks _ _ H) as P. rewrite Forall_forall in A. split.
    + intros x y Hx Hy. eapply agree_trans; [apply A; auto|apply agree_sym; apply A; auto].
    + apply combine_ok in H. destruct H as [_ [ws [C ->]]]. apply core_ok in C. destruct C as (_ & E & [z W]). exists ws, z. split; auto. apply Permutation_sym; auto.
  - intros [A [ws [z [P W]]]]. exists (mkGrid (g_settings f) (g_channels f) (g_mults f) ws). apply combine_ok. split.
    + apply Forall_forall. intros x Hx. apply A; auto. left; auto.
    + exists ws. split; auto. apply core_ok. assert (N : NoDup (map w_time ws)) by (apply (weeks_from_nodup _ _ W)).
      assert (N' : NoDup (map w_time (concat (map g_weeks (f :: a :: r))))) by (apply (Permutation_NoDup (Permutation_map w_time P)); auto).
      refine (conj N' (conj _ (ex_intro _ z W))).
      apply (sorted_unique wle).
      * intros x y Hx Hy. apply (wle_anti ws); auto.
      * apply (weeks_from_sorted Ch _ _ W).
      * apply isort_sorted. exact wle_total. exact wle_trans.
      * eapply Permutation_trans; [exact P|apply isort_perm].
Qed.
Lemma combined_lemma : forall gs g, 2 <= length gs -> combine_grids teq tle parse gs = Ok g ->
  Permutation (g_weeks g) (concat (map g_weeks gs)) /\ Forall (fun h => agree h g) gs /\ NoDup (times_of g) /\ le_sorted tle (times_of g) /\
  exists z, weeks_from parse z (times_of g).
Proof.
  intros gs g L H. pose proof (combine_agree _ _ H) as A. pose proof (combine_weeks _ _ H) as P. refine (conj (Permutation_sym P) (conj A _)).
  destruct gs as [|f [|a r]]; cbn in L; try lia. apply combine_ok in H. destruct H as [_ [ws [C ->]]]. apply core_ok in C. destruct C as (N & E & [z W]). unfold times_of. cbn.
  split; [apply (weeks_from_nodup _ _ W)|]. split; [|eauto]. assert (S : le_sorted wle ws) by (subst; apply isort_sorted; [exact wle_total|exact wle_trans]).
  clear - S. unfold le_sorted in *. induction S as [|w l S IH F]; [constructor|]. cbn. constructor; auto. apply Forall_forall. intros t Ht. apply in_map_iff in Ht.
  destruct Ht as [u [<- Hu]]. rewrite Forall_forall in F. apply F; auto.
Qed.
End Combine.

(** *** Interpolation *)
Lemma Qlt_bool_iff : forall x y, Qlt_bool x y = true <-> (x < y)%Q.
Proof. intros. unfold Qlt_bool. rewrite negb_true_iff. split; intros H. apply Qnot_le_lt. intros K. apply Qle_bool_iff in K. congruence. apply not_true_is_false. rewrite Qle_bool_iff. lra. Qed.
Lemma Qlt_bool_false : forall x y, Qlt_bool x y = false <-> (y <= x)%Q.
Proof. intros. unfold Qlt_bool. rewrite negb_false_iff. apply Qle_bool_iff. Qed.
Lemma Qle_bool_false : forall x y, Qle_bool x y = false <-> (y < x)%Q.
Proof. intros. rewrite <- Qlt_bool_iff. unfold Qlt_bool. rewrite negb_true_iff. tauto. Qed.

(** Additivity over functions of the sample index. *)
Definition pts {A} (l : list (Q * A)) (f : A -> Q) : list (Q * Q) := map (fun p => (fst p, f (snd p))) l.
Lemma interp_from_add : forall A (l : list (Q * A)) f g x x0 y0 z0 s0, (s0 == y0 + z0)%Q ->
  (interp_from x x0 s0 (pts l (fun a => f a + g a)%Q) == interp_from x x0 y0 (pts l f) + interp_from x x0 z0 (pts l g))%Q.
Proof.
  induction l as [|[x1 a] l IH]; intros f g x x0 y0 z0 s0 H; cbn; auto. destruct (Qlt_bool x x1).
  - rewrite H. unfold Qdiv. ring.
  - apply IH. reflexivity.
Qed.
Lemma interp_add : forall A (l : list (Q * A)) f g x, (interp x (pts l (fun a => f a + g a)%Q) == interp x (pts l f) + interp x (pts l g))%Q.
Proof. intros A [|[x0 a] l] f g x; cbn; [reflexivity|]. destruct (Qle_bool x x0); [reflexivity|]. apply interp_from_add. reflexivity. Qed.
Lemma interp_from_zero : forall A (l : list (Q * A)) x x0 y0, (y0 == 0)%Q -> (interp_from x x0 y0 (pts l (fun _ => 0%Q)) == 0)%Q.
Proof. induction l as [|[x1 a] l IH]; intros x x0 y0 H; cbn; auto. destruct (Qlt_bool x x1); [rewrite H; unfold Qdiv; ring|apply IH; reflexivity]. Qed.
Lemma interp_zero : forall A (l : list (Q * A)) x, (interp x (pts l (fun _ => 0%Q)) == 0)%Q.
Proof. intros A [|[x0 a] l] x; cbn; [reflexivity|]. destruct (Qle_bool x x0); [reflexivity|]. apply interp_from_zero. reflexivity. Qed.
Lemma interp_sum : forall T (ws : list (@week T)) mults c x,
  (interp x (points mults (fun j => lsum (fun w => w_outcome w c j) ws)) == lsum (fun w => interp x (points mults (fun j => w_outcome w c j))) ws)%Q.
Proof.
  intros. unfold points. induction ws as [|w ws IH]; cbn [lsum fold_right].
  - apply (interp_zero nat).
  - eapply Qeq_trans; [exact (interp_add nat (combine mults (seq 0 (length mults))) (fun j => w_outcome w c j) (fun j => lsum (fun w => w_outcome w c j) ws) x)|].
    apply Qplus_comp; [reflexivity|exact IH].
Qed.

Lemma increasing_first : forall (l : list (Q * Q)) x1 xa, increasing_q (x1 :: map fst l) -> List.In xa (map fst l) -> (x1 < xa)%Q.
Proof.
  induction l as [|[x2 y2] l IH]; intros x1 xa H K; [destruct K|]. change (increasing_q (x1 :: x2 :: map fst l)) in H. destruct H as [H1 H2].
  destruct K as [K|K]; [cbn in K; subst; auto|]. pose proof (IH x2 xa H2 K). lra.
Qed.
Lemma increasing_all : forall (l : list (Q * Q)) x1 xa, increasing_q (x1 :: map fst l) -> List.In xa (x1 :: map fst l) -> (x1 <= xa)%Q.
Proof. intros l x1 xa H [->|K]; [lra|]. pose proof (increasing_first _ _ _ H K). lra. Qed.
Lemma interp_from_through : forall l x0 y0 x, increasing_q (x0 :: map fst l) -> (x0 <= x)%Q ->
  (forall a xa ya xb yb r, (x0, y0) :: l = a ++ (xa, ya) :: (xb, yb) :: r -> (xa <= x)%Q -> (x <= xb)%Q ->
     ((interp_from x x0 y0 l - ya) * (xb - xa) == (yb - ya) * (x - xa))%Q) /\
  (forall a xb yb, (x0, y0) :: l = a ++ [(xb, yb)] -> (xb <= x)%Q -> (interp_from x x0 y0 l == yb)%Q).
Proof.
  induction l as [|[x1 y1] l IH]; intros x0 y0 x Inc H.
  - split.
    + intros a xa ya xb yb r E. destruct a as [|p [|q a]]; discriminate.
    + intros a xb yb E _. destruct a as [|p a]; [cbn in *; congruence|]. destruct a; discriminate.
  - change (increasing_q (x0 :: x1 :: map fst l)) in Inc. destruct Inc as [I1 I2]. cbn [interp_from]. destruct (Qlt_bool x x1) eqn:B.
    + apply Qlt_bool_iff in B.
      split.
      * intros a xa ya xb yb r E A1 A2. destruct a as [|p a].
        -- cbn in E. assert (x0 = xa /\ y0 = ya /\ x1 = xb /\ y1 = yb) by (repeat split; congruence). destruct H0 as (-> & -> & -> & ->). field. lra.
        -- exfalso. assert (E' : (x1, y1) :: l = a ++ (xa, ya) :: (xb, yb) :: r) by (cbn in E; congruence).
           assert (J : In xa (x1 :: map fst l)). { change (x1 :: map fst l) with (map fst ((x1, y1) :: l)). rewrite E', map_app. apply in_or_app. right. left. reflexivity. }
           pose proof (increasing_all _ _ _ I2 J). lra.
      * intros a xb yb E A. exfalso. destruct a as [|p a]; [destruct l; discriminate|].
        assert (E' : (x1, y1) :: l = a ++ [(xb, yb)]) by (cbn in E; congruence).
        assert (J : In xb (x1 :: map fst l)). { change (x1 :: map fst l) with (map fst ((x1, y1) :: l)). rewrite E', map_app. apply in_or_app. right. left. reflexivity. }
        pose proof (increasing_all _ _ _ I2 J). lra.
    + apply Qlt_bool_false in B. destruct (IH x1 y1 x I2 B) as [K1 K2]. split.
      * intros a xa ya xb yb r E A1 A2. destruct a as [|p a].
        -- cbn in E. assert (x0 = xa /\ y0 = ya /\ x1 = xb /\ y1 = yb) by (repeat split; congruence). destruct H0 as (-> & -> & -> & ->).
           assert (Ex : (x == xb)%Q) by lra. destruct l as [|[x2 y2] l].
           ++ cbn [interp_from]. rewrite Ex. ring.
           ++ pose proof (K1 [] xb yb x2 y2 l eq_refl ltac:(lra)) as K. change (increasing_q (xb :: x2 :: map fst l)) in I2. destruct I2 as [I3 I4]. specialize (K ltac:(lra)).
              assert (Z : ((interp_from x xb yb ((x2, y2) :: l) - yb) * (x2 - xb) == 0)%Q) by (rewrite K; rewrite Ex; ring).
              apply Qmult_integral in Z. destruct Z as [Z|Z]; [|lra]. rewrite Ex at 2. apply Qeq_trans with ((yb - ya) * (xb - xa))%Q; [|reflexivity].
              assert (interp_from x xb yb ((x2, y2) :: l) == yb)%Q as -> by lra. reflexivity.
        -- assert (E' : (x1, y1) :: l = a ++ (xa, ya) :: (xb, yb) :: r) by (cbn in E; congruence). eapply K1; eauto.
      * intros a xb yb E A. destruct a as [|p a]; [destruct l; discriminate|]. assert (E' : (x1, y1) :: l = a ++ [(xb, yb)]) by (cbn in E; congruence). eapply K2; eauto.
Qed.
Lemma interp_through : forall l, increasing_q (map fst l) -> through l (fun x => interp x l).
Proof.
  intros l Inc. split; [|split].
  - intros x0 y0 r -> x H. cbn. apply Qle_bool_iff in H. rewrite H. reflexivity.
  - intros a xa ya xb yb r E x A1 A2. destruct l as [|[x0 y0] l]; [destruct a; discriminate|]. cbn [interp]. destruct (Qle_bool x x0) eqn:B.
    + apply Qle_bool_iff in B. destruct a as [|p a].
      * cbn in E. assert (x0 = xa /\ y0 = ya) as [-> ->] by (split; congruence). assert (x == xa)%Q as -> by lra. ring.
      * exfalso. assert (E' : l = a ++ (xa, ya) :: (xb, yb) :: r) by (cbn in E; congruence).
        assert (J : List.In xa (map fst l)). { rewrite E', map_app. apply in_or_app. right. left. reflexivity. }
        match type of J with List.In ?v _ => pose proof (increasing_first l x0 v Inc J) end. lra.
    + apply Qle_bool_false in B. destruct (interp_from_through l x0 y0 x Inc ltac:(lra)) as [K _]. eapply K; eauto.
  - intros a xb yb E x A. destruct l as [|[x0 y0] l]; [destruct a; discriminate|]. cbn [interp]. destruct (Qle_bool x x0) eqn:B.
    + apply Qle_bool_iff in B. destruct a as [|p a]; [cbn in E; destruct l; [|discriminate]; assert (y0 = yb) by congruence; subst; reflexivity|].
      exfalso. assert (E' : l = a ++ [(xb, yb)]) by (cbn in E; congruence).
      assert (J : List.In xb (map fst l)). { rewrite E', map_app. apply in_or_app. right. left. reflexivity. }
      match type of J with List.In ?v _ => pose proof (increasing_first l x0 v Inc J) end. lra.
    + apply Qle_bool_false in B. destruct (interp_from_through l x0 y0 x Inc ltac:(lra)) as [_ K]. eapply K; eauto.
Qed.
Lemma points_fst : forall mults f, map fst (points mults f) = mults.
Proof.
  intros. unfold points. rewrite map_map. cbn. generalize 0. induction mults as [|m mults IH]; intros k; cbn; auto. f_equal. apply IH.
Qed.
