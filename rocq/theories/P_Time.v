(** Lemmas about dates, coordinates, periods and buckets. *)
From Coq Require Import ZArith List Bool Lia Sorted Arith Permutation.
From Verif Require Import M_Base M_Time S_Time P_Spec.
Import ListNotations.
Open Scope Z_scope.

Lemma div_step : forall k y, 0 < k -> y / k = (y - 1) / k + (if y mod k =? 0 then 1 else 0).
Proof.
  intros k y Hk. pose proof (Z.div_mod y k ltac:(lia)). pose proof (Z.mod_pos_bound y k Hk).
  destruct (Z.eqb_spec (y mod k) 0).
  - assert ((y - 1) / k = y / k - 1); [|lia]. symmetry. apply Z.div_unique with (k - 1); lia.
  - assert ((y - 1) / k = y / k); [|lia]. symmetry. apply Z.div_unique with (y mod k - 1); lia.
Qed.

Definition leap1 (y : Z) : Z := if is_leap y then 1 else 0.

Lemma dby_step : forall y, days_before_year (y + 1) = days_before_year y + 365 + leap1 y.
Proof.
  intros y. unfold days_before_year, leap1, is_leap. replace (y + 1 - 1) with y by lia.
  rewrite (div_step 4 y), (div_step 100 y), (div_step 400 y) by lia.
  assert (H4 : y mod 400 = 0 -> y mod 100 = 0).
  { intros H. apply Z.mod_divide in H; [|lia]. apply Z.mod_divide; [lia|]. destruct H as [c ->]. exists (4 * c). lia. }
  assert (H1 : y mod 100 = 0 -> y mod 4 = 0).
  { intros H. apply Z.mod_divide in H; [|lia]. apply Z.mod_divide; [lia|]. destruct H as [c ->]. exists (25 * c). lia. }
  destruct (Z.eqb_spec (y mod 4) 0), (Z.eqb_spec (y mod 100) 0), (Z.eqb_spec (y mod 400) 0); simpl; try lia; exfalso; tauto.
Qed.

Lemma leap1_range : forall y, 0 <= leap1 y <= 1.
Proof. intros. unfold leap1. destruct (is_leap y); lia. Qed.

Lemma dby_mono : forall y k, 0 <= k -> days_before_year y + 365 * k <= days_before_year (y + k).
Proof.
  intros y k Hk. pattern k. apply natlike_ind; auto.
  - replace (y + 0) with y by lia. lia.
  - intros n Hn IH. replace (y + Z.succ n) with (y + n + 1) by lia. rewrite dby_step. pose proof (leap1_range (y + n)). lia.
Qed.

Lemma dbm_step : forall y m, 1 <= m -> days_before_month y (m + 1) = days_before_month y m + days_in_month y m.
Proof.
  intros y m Hm. unfold days_before_month. replace (Z.to_nat (m + 1 - 1)) with (S (Z.to_nat (m - 1))) by lia.
  rewrite seq_S, map_app. cbn [map]. replace (Z.of_nat (1 + Z.to_nat (m - 1))) with m by lia.
  rewrite fold_right_app. cbn [fold_right].
  generalize (map (fun k => days_in_month y (Z.of_nat k)) (seq 1 (Z.to_nat (m - 1)))). intros l.
  induction l as [|x l IH]; cbn [fold_right]; lia.
Qed.

Lemma dim_range : forall y m, 28 <= days_in_month y m <= 31.
Proof.
  intros. unfold days_in_month. destruct (m =? 2); [destruct (is_leap y); lia|]. destruct (_ || _); lia.
Qed.

Lemma dbm_mono : forall y m k, 1 <= m -> 0 <= k -> days_before_month y m + 28 * k <= days_before_month y (m + k).
Proof.
  intros y m k Hm Hk. pattern k. apply natlike_ind; auto.
  - replace (m + 0) with m by lia. lia.
  - intros n Hn IH. replace (m + Z.succ n) with (m + n + 1) by lia. rewrite dbm_step by lia. pose proof (dim_range y (m + n)). lia.
Qed.

Lemma dbm_1 : forall y, days_before_month y 1 = 0.
Proof. reflexivity. Qed.

Lemma dbm_13 : forall y, days_before_month y 13 = 365 + leap1 y.
Proof.
  intros. unfold days_before_month, leap1, days_in_month. cbn. destruct (is_leap y); reflexivity.
Qed.

Lemma is_leap_iff : forall y, is_leap y = true <-> leap y.
Proof.
  intros. unfold is_leap, leap. rewrite andb_true_iff, orb_true_iff, negb_true_iff, !Z.eqb_eq, Z.eqb_neq, !Z.mod_divide by lia.
  tauto.
Qed.

Lemma month_has_iff : forall y m n, month_has y m n <-> 1 <= m <= 12 /\ n = days_in_month y m.
Proof.
  intros y m n. unfold month_has, days_in_month. rewrite <- !is_leap_iff. split.
  - intros [[H ->]|[[H ->]|[[-> [H ->]]|[-> [H ->]]]]].
    + simpl in H. repeat (destruct H as [<-|H]; [split; [lia|reflexivity]|]). contradiction.
    + simpl in H. repeat (destruct H as [<-|H]; [split; [lia|reflexivity]|]). contradiction.
    + split; [lia|]. simpl. rewrite H. reflexivity.
    + split; [lia|]. simpl. destruct (is_leap y); [contradiction H; reflexivity|reflexivity].
  - intros [Hm ->].
    assert (H : m = 1 \/ m = 2 \/ m = 3 \/ m = 4 \/ m = 5 \/ m = 6 \/ m = 7 \/ m = 8 \/ m = 9 \/ m = 10 \/ m = 11 \/ m = 12) by lia.
    destruct (is_leap y) eqn:E;
    repeat (destruct H as [->|H]; [simpl; intuition congruence|]); subst m; simpl; intuition congruence.
Qed.

Lemma valid_iff : forall d, valid_date d <-> 1 <= month d <= 12 /\ 1 <= day d <= days_in_month (year d) (month d).
Proof.
  intros. unfold valid_date. split.
  - intros [n [H1 H2]]. apply month_has_iff in H1. destruct H1 as [H1 ->]. auto.
  - intros [H1 H2]. eexists. split; [apply month_has_iff; split; [exact H1|reflexivity]|exact H2].
Qed.

Lemma ordinal_before : forall a b, valid_date a -> valid_date b -> before a b -> ordinal a < ordinal b.
Proof.
  intros a b Ha Hb H. apply valid_iff in Ha, Hb. unfold ordinal.
  destruct H as [H|[H1 [H|[H2 H]]]].
  - pose proof (dby_mono (year a + 1) (year b - year a - 1) ltac:(lia)) as E.
    replace (year a + 1 + (year b - year a - 1)) with (year b) in E by lia. rewrite dby_step in E.
    pose proof (dbm_mono (year a) (month a + 1) (12 - month a) ltac:(lia) ltac:(lia)) as E2.
    replace (month a + 1 + (12 - month a)) with 13 in E2 by lia. rewrite dbm_13 in E2. rewrite dbm_step in E2 by lia.
    pose proof (dbm_mono (year b) 1 (month b - 1) ltac:(lia) ltac:(lia)) as E3.
    replace (1 + (month b - 1)) with (month b) in E3 by lia. rewrite dbm_1 in E3. lia.
  - rewrite H1. pose proof (dbm_mono (year b) (month a + 1) (month b - month a - 1) ltac:(lia) ltac:(lia)) as E.
    replace (month a + 1 + (month b - month a - 1)) with (month b) in E by lia. rewrite dbm_step in E by lia. rewrite H1 in *. lia.
  - rewrite H1, H2. lia.
Qed.

Lemma next_day_ordinal : forall a b, next_day a b -> ordinal b = ordinal a + 1.
Proof.
  intros a b [n [Hn H]]. apply month_has_iff in Hn. destruct Hn as [Hm ->].
  destruct H as [[H ->]|[[H [H2 ->]]|[H [H2 ->]]]]; unfold ordinal; cbn [year month day].
  - lia.
  - rewrite dbm_step by lia. lia.
  - rewrite dby_step, dbm_1. pose proof (dbm_step (year a) 12 ltac:(lia)) as E. change (12 + 1) with 13 in E.
    rewrite dbm_13 in E. rewrite H2 in *. lia.
Qed.

(** Order. *)
Lemma before_trans : forall a b c, before a b -> before b c -> before a c.
Proof. unfold before. intros. lia. Qed.
Lemma before_irrefl : forall a, ~ before a a.
Proof. unfold before. intros. lia. Qed.
Lemma date_ext : forall a b, year a = year b -> month a = month b -> day a = day b -> a = b.
Proof. intros [] [] ; simpl; intros; subst; reflexivity. Qed.
Lemma before_total : forall a b, ~ before a b -> ~ before b a -> a = b.
Proof. unfold before. intros. apply date_ext; lia. Qed.
Lemma date_ltb_iff : forall a b, date_ltb a b = true <-> before a b.
Proof.
  intros. unfold date_ltb, before. rewrite orb_true_iff, andb_true_iff, orb_true_iff, andb_true_iff, !Z.ltb_lt, !Z.eqb_eq. tauto.
Qed.
Lemma date_ltb_nlt : forall a b, date_ltb a b = false <-> ~ before a b.
Proof. intros. rewrite <- date_ltb_iff. destruct (date_ltb a b); split; congruence. Qed.
Lemma date_eqb_iff : forall a b, date_eqb a b = true <-> a = b.
Proof.
  intros. unfold date_eqb. rewrite !andb_true_iff, !Z.eqb_eq. split; [intros [[]]; apply date_ext; auto|intros ->; auto].
Qed.
Lemma date_leb_iff : forall a b, date_leb a b = true <-> ~ before b a.
Proof.
  intros. unfold date_leb. rewrite orb_true_iff, date_ltb_iff, date_eqb_iff. split.
  - intros [H| ->]; [intros H2; eapply before_irrefl, before_trans; eauto|apply before_irrefl].
  - intros H. destruct (date_ltb a b) eqn:E; [left; apply date_ltb_iff; auto|right].
    apply date_ltb_nlt in E. apply before_total; auto.
Qed.
Lemma date_in_iff : forall d l, date_in d l = true <-> In d l.
Proof.
  intros. unfold date_in. rewrite existsb_exists. split.
  - intros [x [H1 H2]]. apply date_eqb_iff in H2. subst. auto.
  - intros H. exists d. split; auto. apply date_eqb_iff. auto.
Qed.

Lemma ge_trans : forall a b c, ~ before b a -> ~ before c b -> ~ before c a.
Proof. unfold before. intros. lia. Qed.

Lemma nondecreasing_iff : forall l, nondecreasing l = true <-> not_decreasing l.
Proof.
  unfold not_decreasing. induction l as [|a [|b r] IH].
  - split; intros; [constructor|reflexivity].
  - split; intros; [repeat constructor|reflexivity].
  - change (nondecreasing (a :: b :: r)) with (date_leb a b && nondecreasing (b :: r)).
    rewrite andb_true_iff, IH, date_leb_iff. split.
    + intros [H1 H2]. constructor; auto. constructor; auto. inversion H2; subst.
      eapply Forall_impl; [|exact H4]. intros c Hc. apply ge_trans with b; auto.
    + intros H. inversion H; subst. split; [inversion H3; auto|auto].
Qed.

Lemma increasing_not_decreasing : forall l, increasing l -> not_decreasing l.
Proof.
  unfold increasing, not_decreasing. induction 1; constructor; auto. eapply Forall_impl; [|eassumption].
  intros b Hb H1. eapply before_irrefl, before_trans; eauto.
Qed.

Lemma ascending_iff : forall l, ascending l = true <-> increasing l.
Proof.
  unfold increasing. induction l as [|a [|b r] IH].
  - split; intros; [constructor|reflexivity].
  - split; intros; [repeat constructor|reflexivity].
  - change (ascending (a :: b :: r)) with (date_ltb a b && ascending (b :: r)).
    rewrite andb_true_iff, IH, date_ltb_iff. split.
    + intros [H1 H2]. constructor; auto. constructor; auto. inversion H2; subst.
      eapply Forall_impl; [|exact H4]. intros c Hc. apply before_trans with b; auto.
    + intros H. inversion H; subst. split; [inversion H3; auto|auto].
Qed.

Lemma min_date_spec : forall l a, In (min_date a l) (a :: l) /\ forall d, In d (a :: l) -> ~ before d (min_date a l).
Proof.
  induction l as [|b r IH]; intros a; cbn [min_date].
  - split; [left; auto|]. intros d [<-|[]]. apply before_irrefl.
  - destruct (IH (if date_ltb b a then b else a)) as [H1 H2]. split.
    + destruct H1 as [H1|H1]; [|right; right; auto]. rewrite <- H1. destruct (date_ltb b a); [right; left; auto|left; auto].
    + intros d Hd. assert (Hm : ~ before (if date_ltb b a then b else a) (min_date (if date_ltb b a then b else a) r)).
      { apply H2. left. auto. }
      destruct (date_ltb b a) eqn:E.
      * apply date_ltb_iff in E. destruct Hd as [<-|[<-|Hd]]; [|auto|apply H2; right; auto].
        intros H. apply Hm. eapply before_trans; eauto.
      * apply date_ltb_nlt in E. destruct Hd as [<-|[<-|Hd]]; [auto| |apply H2; right; auto].
        eapply ge_trans; eauto.
Qed.

Lemma max_date_spec : forall l a, In (max_date a l) (a :: l) /\ forall d, In d (a :: l) -> ~ before (max_date a l) d.
Proof.
  induction l as [|b r IH]; intros a; cbn [max_date].
  - split; [left; auto|]. intros d [<-|[]]. apply before_irrefl.
  - destruct (IH (if date_ltb a b then b else a)) as [H1 H2]. split.
    + destruct H1 as [H1|H1]; [|right; right; auto]. rewrite <- H1. destruct (date_ltb a b); [right; left; auto|left; auto].
    + intros d Hd. assert (Hm : ~ before (max_date (if date_ltb a b then b else a) r) (if date_ltb a b then b else a)).
      { apply H2. left. auto. }
      destruct (date_ltb a b) eqn:E.
      * apply date_ltb_iff in E. destruct Hd as [<-|[<-|Hd]]; [|auto|apply H2; right; auto].
        intros H. apply Hm. eapply before_trans; eauto.
      * apply date_ltb_nlt in E. destruct Hd as [<-|[<-|Hd]]; [auto| |apply H2; right; auto].
        eapply ge_trans; eauto.
Qed.

Lemma sorted_app : forall (l1 l2 : list date), not_decreasing (l1 ++ l2) ->
  not_decreasing l1 /\ not_decreasing l2 /\ forall a b, In a l1 -> In b l2 -> ~ before b a.
Proof.
  unfold not_decreasing. induction l1 as [|x l1 IH]; intros l2 H; simpl in *.
  - split; [constructor|split; [auto|intros; contradiction]].
  - inversion H; subst. apply IH in H2. destruct H2 as [A [B C]]. rewrite Forall_app in H3. destruct H3 as [H3 H4].
    split; [constructor; auto|split; [auto|]]. intros a b [<-|Ha] Hb; [|auto]. rewrite Forall_forall in H4. auto.
Qed.

Lemma min_first : forall a r, not_decreasing (a :: r) -> min_date a r = a.
Proof.
  intros a r H. destruct (min_date_spec r a) as [H1 H2]. inversion H; subst. rewrite Forall_forall in H5.
  destruct H1 as [H1|H1]; auto. symmetry. apply before_total; [|apply H5; auto]. apply H2. left. auto.
Qed.

Lemma max_last : forall a r q z, a :: r = q ++ [z] -> not_decreasing (a :: r) -> max_date a r = z.
Proof.
  intros a r q z E H. destruct (max_date_spec r a) as [H1 H2]. rewrite E in *.
  apply sorted_app in H. destruct H as [_ [_ H]].
  apply in_app_iff in H1. destruct H1 as [H1|[H1|[]]]; auto. apply before_total.
  - apply H2. apply in_app_iff. right. left. auto.
  - apply H; auto. left; auto.
Qed.

Lemma filter_id : forall {A} (f : A -> bool) l, (forall x, In x l -> f x = true) -> filter f l = l.
Proof.
  induction l as [|x l IH]; intros H; auto. simpl. rewrite (H x) by (left; auto). f_equal. apply IH. intros; apply H; right; auto.
Qed.

(** The filtered coordinates are the contiguous selection. *)
Lemma selection_filter : forall all s e, not_decreasing all -> In s all -> In e all -> ~ before e s ->
  forall sel, selection all s e sel <-> sel = filter (fun d => date_leb s d && date_leb d e) all.
Proof.
  intros all s e Hs His Hie Hse. set (f := fun d => date_leb s d && date_leb d e).
  assert (Hf : forall d, f d = true <-> ~ before d s /\ ~ before e d).
  { intros. unfold f. rewrite andb_true_iff, !date_leb_iff. tauto. }
  assert (Huniq : forall sel, selection all s e sel -> sel = filter f all).
  { intros sel [pre [post [E [[r1 E1] [[r2 E2] [Hpre Hpost]]]]]]. rewrite E, !filter_app.
    assert (filter f pre = []) as ->.
    { clear - Hpre Hf. induction pre as [|x pre IH]; auto. simpl.
      destruct (f x) eqn:Ex; [|apply IH; intros; apply Hpre; right; auto].
      apply Hf in Ex. destruct Ex as [Ex _]. exfalso. apply Ex, Hpre. left; auto. }
    assert (filter f post = []) as ->.
    { clear - Hpost Hf. induction post as [|x post IH]; auto. simpl.
      destruct (f x) eqn:Ex; [|apply IH; intros; apply Hpost; right; auto].
      apply Hf in Ex. destruct Ex as [_ Ex]. exfalso. apply Ex, Hpost. left; auto. }
    rewrite app_nil_r. cbn [app]. rewrite E in Hs. apply sorted_app in Hs. destruct Hs as [_ [Hs _]].
    apply sorted_app in Hs. destruct Hs as [Hs _].
    symmetry. apply filter_id. intros x Hx. apply Hf. split.
    - rewrite E1 in Hs, Hx. inversion Hs; subst. rewrite Forall_forall in H2. destruct Hx as [<-|Hx]; [apply before_irrefl|auto].
    - rewrite E2 in Hs, Hx. apply sorted_app in Hs. destruct Hs as [_ [_ Hs]]. apply in_app_iff in Hx.
      destruct Hx as [Hx|[<-|[]]]; [|apply before_irrefl]. apply Hs; auto. left; auto. }
  intros sel. split; [apply Huniq|]. intros ->.
  assert (Hsplit : exists pre post, all = pre ++ filter f all ++ post /\ (forall d, In d pre -> before d s) /\ (forall d, In d post -> before e d)).
  { clear His Hie Huniq. induction all as [|x l IH].
    - exists [], []. simpl. repeat split; auto; intros; contradiction.
    - inversion Hs; subst. destruct (IH H1) as [pre [post [E [Hp Hq]]]]. clear IH.
      rewrite Forall_forall in H2. cbn [filter]. destruct (f x) eqn:Ex.
      + destruct pre as [|p pre].
        * exists [], post. split; [cbn [app] in *; f_equal; auto|split; auto].
        * exfalso. apply Hf in Ex. destruct Ex as [Ex _]. apply (H2 p). { rewrite E. left; auto. }
          assert (before p s) by (apply Hp; left; auto).
          destruct (date_ltb p x) eqn:E1; [apply date_ltb_iff; auto|]. exfalso. apply date_ltb_nlt in E1.
          unfold before in *. lia.
      + assert (Hx : before x s \/ before e x).
        { destruct (date_ltb x s) eqn:E1; [left; apply date_ltb_iff; auto|]. destruct (date_ltb e x) eqn:E2; [right; apply date_ltb_iff; auto|].
          apply date_ltb_nlt in E1, E2. assert (f x = true) by (apply Hf; auto). congruence. }
        destruct Hx as [Hx|Hx].
        * exists (x :: pre), post. split; [cbn [app]; f_equal; auto|split; auto]. intros d [<-|Hd]; auto.
        * exists [], (x :: l). assert (filter f l = []) as ->.
          { clear - Hf H2 Hx. induction l as [|y l IH]; auto. simpl. destruct (f y) eqn:Ey.
            - apply Hf in Ey. destruct Ey as [_ Ey]. exfalso. specialize (H2 y (or_introl eq_refl)). unfold before in *. lia.
            - apply IH. intros. apply H2. right; auto. }
          split; auto. split; [intros; contradiction|]. intros d [<-|Hd]; auto. specialize (H2 d Hd). unfold before in *. lia. }
  destruct Hsplit as [pre [post [E [Hp Hq]]]].
  assert (Hss : not_decreasing (filter f all)).
  { rewrite E in Hs. apply sorted_app in Hs. destruct Hs as [_ [Hs _]]. apply sorted_app in Hs. tauto. }
  assert (Hs1 : In s (filter f all)). { apply filter_In. split; auto. apply Hf. split; auto using before_irrefl. }
  assert (He1 : In e (filter f all)). { apply filter_In. split; auto. apply Hf. split; auto using before_irrefl. }
  exists pre, post. split; auto. split; [|split; [|split; auto]].
  - destruct (filter f all) as [|x r] eqn:Ef; [contradiction|]. exists r. f_equal.
    apply StronglySorted_inv in Hss. destruct Hss as [_ H2]. rewrite Forall_forall in H2. destruct Hs1 as [|Hs1]; auto.
    assert (Hfx : f x = true). { assert (In x (filter f all)) by (rewrite Ef; left; auto). apply filter_In in H. tauto. }
    apply Hf in Hfx. apply before_total; [tauto|]. apply H2. auto.
  - destruct (exists_last (l := filter f all)) as [r [z Ez]]; [intros Hn; rewrite Hn in Hs1; contradiction|].
    exists r. rewrite Ez. f_equal. f_equal. rewrite Ez in *. apply sorted_app in Hss. destruct Hss as [_ [_ Hss]].
    assert (Hfz : f z = true). { assert (In z (filter f all)) by (rewrite Ez; apply in_app_iff; right; left; auto). apply filter_In in H. tauto. }
    apply Hf in Hfz. apply in_app_iff in He1. destruct He1 as [He1|[He1|[]]]; auto.
    apply before_total; [|tauto]. apply Hss; auto. left; auto.
Qed.

Lemma time_coordinates_ok : forall l, time_coordinates l = Ok l <-> (2 <= length l)%nat /\ not_decreasing l.
Proof.
  intros. unfold time_coordinates. rewrite !raise_if_ok, negb_false_iff, nondecreasing_iff, Nat.leb_gt. intuition lia.
Qed.

(** C20. *)
Lemma expand_spec : forall all first last r q s e,
  all = first :: r -> all = q ++ [last] -> not_decreasing all -> (s <> None \/ e <> None) ->
  let s0 := match s with Some d => d | None => first end in
  let e0 := match e with Some d => d | None => last end in
  (expand_selected_time_dims all s e = Ok None <-> s0 = first /\ e0 = last) /\
  (forall sel, expand_selected_time_dims all s e = Ok (Some sel) <->
     ~ (s0 = first /\ e0 = last) /\ In s0 all /\ In e0 all /\ ~ before e0 s0 /\ selection all s0 e0 sel) /\
  (forall x, expand_selected_time_dims all s e = Err x <->
     x = ValueError /\ (~ In s0 all \/ ~ In e0 all \/ before e0 s0)).
Proof.
  intros all first last r q s e E1 E2 Hs Hne s0 e0.
  assert (Hmin : min_date first r = first) by (apply min_first; rewrite <- E1; auto).
  assert (Hmax : max_date first r = last) by (apply max_last with q; rewrite <- E1; auto).
  assert (Hfin : In first all) by (rewrite E1; left; auto).
  assert (Hlin : In last all) by (rewrite E2; apply in_app_iff; right; left; auto).
  assert (Hexp : expand_selected_time_dims all s e =
    if negb (date_in s0 all) then Err ValueError else if negb (date_in e0 all) then Err ValueError
    else if date_ltb e0 s0 then Err ValueError
    else if date_eqb s0 first && date_eqb e0 last then Ok None
    else Ok (Some (filter (fun d => date_leb s0 d && date_leb d e0) all))).
  { unfold expand_selected_time_dims. rewrite E1 at 1.
    assert (date_in first all = true) by (apply date_in_iff; auto).
    assert (date_in last all = true) by (apply date_in_iff; auto).
    rewrite Hmin, Hmax.
    destruct s as [s|], e as [e|]; subst s0 e0; unfold raise_if.
    - destruct (negb (date_in s all)); cbn [rbind]; auto. destruct (negb (date_in e all)); cbn [rbind]; auto.
    - destruct (negb (date_in s all)); cbn [rbind]; auto. rewrite H0. auto.
    - rewrite H. cbn [rbind negb]. destruct (negb (date_in e all)); cbn [rbind]; auto.
    - destruct Hne; contradiction. }
  rewrite Hexp. clear Hexp.
  assert (Hle : ~ before last first).
  { rewrite E1 in Hs. apply StronglySorted_inv in Hs. destruct Hs as [_ Hs]. rewrite Forall_forall in Hs. rewrite E1 in Hlin.
    destruct Hlin as [<-|Hl]; [apply before_irrefl|auto]. }
  destruct (date_in s0 all) eqn:Es; cbn [negb].
  2:{ assert (~ In s0 all) by (rewrite <- date_in_iff; congruence).
      split; [|split].
      - split; [discriminate|]. intros [-> _]. contradiction.
      - split; [discriminate|]. intros [_ [? _]]. contradiction.
      - intros x. split; [intros H1; injection H1 as <-; auto|intros [-> _]; auto]. }
  apply date_in_iff in Es.
  destruct (date_in e0 all) eqn:Ee; cbn [negb].
  2:{ assert (~ In e0 all) by (rewrite <- date_in_iff; congruence).
      split; [|split].
      - split; [discriminate|]. intros [_ ->]. contradiction.
      - split; [discriminate|]. intros [_ [_ [? _]]]. contradiction.
      - intros x. split; [intros H1; injection H1 as <-; auto|intros [-> _]; auto]. }
  apply date_in_iff in Ee.
  destruct (date_ltb e0 s0) eqn:El.
  { apply date_ltb_iff in El. split; [|split].
    - split; [discriminate|]. intros [H1 H2]. rewrite H1, H2 in El. contradiction.
    - split; [discriminate|]. intros [_ [_ [_ [? _]]]]. contradiction.
    - intros x. split; [intros H1; injection H1 as <-; auto|intros [-> _]; auto]. }
  apply date_ltb_nlt in El.
  destruct (date_eqb s0 first && date_eqb e0 last) eqn:Ew.
  - apply andb_true_iff in Ew. rewrite !date_eqb_iff in Ew. split; [tauto|split].
    + intros sel. split; [discriminate|]. intros [H _]. contradiction.
    + intros x. split; [discriminate|]. intros [_ [H|[H|H]]]; contradiction.
  - assert (Hw : ~ (s0 = first /\ e0 = last)).
    { intros [H1 H2]. rewrite (proj2 (date_eqb_iff _ _) H1), (proj2 (date_eqb_iff _ _) H2) in Ew. discriminate. }
    split; [|split].
    + split; [discriminate|]. contradiction.
    + intros sel. rewrite (selection_filter all s0 e0 Hs Es Ee El sel). split.
      * intros H. injection H as <-. auto 6.
      * intros [_ [_ [_ [_ ->]]]]. auto.
    + intros x. split; [discriminate|]. intros [_ [H|[H|H]]]; contradiction.
Qed.

Lemma selected_spec : forall all s e, time_coordinates all = Ok all ->
  (forall sel, get_selected_dates all (Some (s, e)) = Ok sel <-> In s all /\ In e all /\ ~ before e s /\ selection all s e sel) /\
  (forall x, get_selected_dates all (Some (s, e)) = Err x <-> x = ValueError /\ (~ In s all \/ ~ In e all \/ before e s)).
Proof.
  intros all s e H. apply time_coordinates_ok in H. destruct H as [Hlen Hs].
  destruct all as [|first r] eqn:Eall; [simpl in Hlen; lia|].
  destruct (exists_last (l := all)) as [q [last El]]; [subst; discriminate|].
  rewrite <- Eall in *.
  destruct (expand_spec all first last r q (Some s) (Some e) Eall El Hs) as [A [B C]]; [left; discriminate|].
  cbn [get_selected_dates].
  destruct (expand_selected_time_dims all (Some s) (Some e)) as [[l|]|x] eqn:Ex; cbn [rbind].
  - destruct (proj1 (B l) eq_refl) as [_ [H1 [H2 [H3 H4]]]]. split.
    + intros sel. rewrite (selection_filter all s e Hs H1 H2 H3) in *. split; [intros H; injection H as <-; auto|].
      intros [_ [_ [_ ->]]]. congruence.
    + intros x. split; [discriminate|]. intros [_ [H|[H|H]]]; contradiction.
  - destruct (proj1 A eq_refl) as [H1 H2].
    assert (Hf : In first all) by (rewrite Eall; left; auto).
    assert (Hl : In last all) by (rewrite El; apply in_app_iff; right; left; auto).
    assert (Hse : ~ before e s).
    { intros Hb. assert (Hx : @Ok (option (list date)) None = Err ValueError) by (apply C; auto). discriminate. }
    rewrite H1, H2 in *. split.
    + intros sel. rewrite (selection_filter all first last Hs Hf Hl Hse).
      assert (filter (fun d => date_leb first d && date_leb d last) all = all) as ->.
      { apply filter_id. intros d Hd. apply andb_true_iff. rewrite !date_leb_iff. split.
        - pose proof Hs as Hs2. rewrite Eall in Hs2. apply StronglySorted_inv in Hs2. destruct Hs2 as [_ Hs2].
          rewrite Forall_forall in Hs2. rewrite Eall in Hd. destruct Hd as [<-|Hd]; [apply before_irrefl|auto].
        - pose proof Hs as Hs2. rewrite El in Hs2. apply sorted_app in Hs2. destruct Hs2 as [_ [_ Hs2]].
          rewrite El in Hd. apply in_app_iff in Hd. destruct Hd as [Hd|[<-|[]]]; [apply Hs2; [auto|left; auto]|apply before_irrefl]. }
      split; [intros H; injection H as <-; auto|]. intros [_ [_ [_ ->]]]. auto.
    + intros x. split; [discriminate|]. intros [_ [H|[H|H]]]; contradiction.
  - pose proof (proj1 (C x) eq_refl) as [-> Hbad]. split.
    + intros sel. split; [discriminate|]. intros [H1 [H2 [H3 _]]]. destruct Hbad as [?|[?|?]]; contradiction.
    + intros x. split; [intros H; injection H as <-; auto|]. intros [-> _]. auto.
Qed.
