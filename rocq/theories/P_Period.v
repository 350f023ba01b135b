(** Lemmas about period bounds and date buckets. *)
From Coq Require Import ZArith List Bool Lia Sorted Arith.
From Verif Require Import M_Base M_Time S_Time P_Spec P_Time.
Import ListNotations.
Open Scope Z_scope.

Lemma bounds_fst : forall all l, map fst (bounds_from all l) = map ordinal l.
Proof. induction l as [|a [|b r] IH]; auto. simpl in *. f_equal. apply IH. Qed.

Lemma bounds_contiguous : forall all l i p q, nth_error (bounds_from all l) i = Some p ->
  nth_error (bounds_from all l) (S i) = Some q -> snd p = fst q.
Proof.
  induction l as [|a [|b r] IH]; intros i p q Hp Hq.
  - destruct i; discriminate.
  - destruct i; [discriminate|]. destruct i; discriminate.
  - change (bounds_from all (a :: b :: r)) with ((ordinal a, ordinal b) :: bounds_from all (b :: r)) in *.
    destruct i as [|i].
    + injection Hp as <-. change (nth_error (bounds_from all (b :: r)) 0 = Some q) in Hq. destruct r; injection Hq as <-; reflexivity.
    + apply IH with i; auto.
Qed.

Lemma bounds_last : forall all l d, exists pre, bounds_from all (l ++ [d]) = pre ++ [(ordinal d, last_end all d)].
Proof.
  induction l as [|a l IH]; intros d; [exists []; auto|]. destruct (IH d) as [pre E].
  destruct l as [|b l].
  - exists [(ordinal a, ordinal d)]. reflexivity.
  - exists ((ordinal a, ordinal b) :: pre). cbn [app] in *. rewrite <- E. reflexivity.
Qed.

Lemma add_months_valid : forall d k, valid_date d -> valid_date (add_months d k).
Proof.
  intros d k H. apply valid_iff in H. apply valid_iff. unfold add_months. cbn [year month day].
  pose proof (Z.mod_pos_bound (month d - 1 + k) 12 ltac:(lia)).
  pose proof (dim_range (year d + (month d - 1 + k) / 12) ((month d - 1 + k) mod 12 + 1)). lia.
Qed.

Lemma add_months_before : forall d k, valid_date d -> 1 <= k -> before d (add_months d k).
Proof.
  intros d k H Hk. apply valid_iff in H. unfold before, add_months. cbn [year month day].
  pose proof (Z.div_mod (month d - 1 + k) 12 ltac:(lia)). pose proof (Z.mod_pos_bound (month d - 1 + k) 12 ltac:(lia)). lia.
Qed.

Lemma add_months_later : forall d k, valid_date d -> day d <= 28 -> months_later d k (add_months d k).
Proof.
  intros d k H Hk. apply valid_iff in H. unfold months_later, add_months. cbn [year month day].
  pose proof (Z.div_mod (month d - 1 + k) 12 ltac:(lia)). pose proof (Z.mod_pos_bound (month d - 1 + k) 12 ltac:(lia)).
  pose proof (dim_range (year d + (month d - 1 + k) / 12) ((month d - 1 + k) mod 12 + 1)). lia.
Qed.

Lemma round_div_exact : forall c n, 0 < n -> round_div (n * c) n = c.
Proof.
  intros. unfold round_div. rewrite (Z.mul_comm n c). cbv zeta. rewrite Z.div_mul by lia. rewrite Z.mod_mul by lia.
  assert (2 * 0 <? n = true) as -> by (apply Z.ltb_lt; lia). reflexivity.
Qed.

Lemma intervals_length : forall l, length (intervals l) = (length l - 1)%nat.
Proof. induction l as [|a [|b r] IH]; auto. simpl in *. lia. Qed.

Lemma all_equal_iff : forall l, all_equal l = true <-> exists c, forall x, In x l -> x = c.
Proof.
  intros [|x l]; split; intros H; auto.
  - exists 0. intros; contradiction.
  - exists x. unfold all_equal in H. rewrite forallb_forall in H. intros y Hy. apply H in Hy. apply Z.eqb_eq in Hy. auto.
  - destruct H as [c H]. unfold all_equal. apply forallb_forall. intros y Hy. apply Z.eqb_eq.
    rewrite (H y Hy), (H x); auto. left; auto.
Qed.

Lemma all_in_iff : forall l ref, all_in l ref = true <-> forall x, In x l -> In x ref.
Proof.
  intros. unfold all_in. rewrite forallb_forall. split; intros H x Hx; specialize (H x Hx).
  - apply existsb_exists in H. destruct H as [y [H1 H2]]. apply Z.eqb_eq in H2. subst. auto.
  - apply existsb_exists. exists x. split; auto. apply Z.eqb_refl.
Qed.

Lemma interval_days_const : forall l c, (2 <= length l)%nat -> (forall x, In x (intervals l) -> x = c) -> interval_days l = c.
Proof.
  intros l c Hl H. unfold interval_days.
  assert (fold_right Z.add 0 (intervals l) = Z.of_nat (length (intervals l)) * c) as ->.
  { revert H. generalize (intervals l). clear. intros l. induction l as [|x l IH]; intros H; [reflexivity|].
    cbn [fold_right length]. rewrite IH by (intros; apply H; right; auto). rewrite (H x) by (left; auto). lia. }
  apply round_div_exact. rewrite intervals_length. lia.
Qed.

Lemma intervals_positive : forall l, Forall valid_date l -> increasing l -> forall x, In x (intervals l) -> 0 < x.
Proof.
  induction l as [|a [|b r] IH]; intros Hv Hi x Hx; try contradiction.
  inversion Hv; subst. apply StronglySorted_inv in Hi. destruct Hi as [Hi Hb]. inversion Hb; subst.
  change (intervals (a :: b :: r)) with ((ordinal b - ordinal a) :: intervals (b :: r)) in Hx.
  destruct Hx as [<-|Hx]; [|auto]. inversion H2; subst. pose proof (ordinal_before a b H1 H5 H3). lia.
Qed.

Lemma is_regular_iff : forall all, is_regular all = true <->
  (exists c, forall x, In x (intervals all) -> x = c) \/ (forall x, In x (intervals all) -> In x [28; 29; 30; 31]) \/
  (forall x, In x (intervals all) -> In x [90; 91; 92]) \/ (forall x, In x (intervals all) -> In x [365; 366]).
Proof.
  intros. unfold is_regular. rewrite !orb_true_iff, all_equal_iff, !all_in_iff. tauto.
Qed.

Lemma last_end_later : forall all d, (2 <= length all)%nat -> Forall valid_date all -> increasing all -> is_regular all = true ->
  valid_date d -> ordinal d < last_end all d.
Proof.
  intros all d Hl Hv Hi Hr Hd. unfold last_end.
  assert (Hadd : forall k, 1 <= k -> ordinal d < ordinal (add_months d k)).
  { intros. apply ordinal_before; auto using add_months_valid, add_months_before. }
  destruct (all_in (intervals all) [28; 29; 30; 31]) eqn:E1; [apply Hadd; lia|].
  destruct (all_in (intervals all) [90; 91; 92]) eqn:E2; [apply Hadd; lia|].
  destruct (all_in (intervals all) [365; 366]) eqn:E3; [apply Hadd; lia|].
  unfold is_regular in Hr. rewrite E1, E2, E3, !orb_false_r in Hr. apply all_equal_iff in Hr. destruct Hr as [c Hc].
  rewrite (interval_days_const all c Hl Hc).
  assert (0 < c); [|lia]. destruct (intervals all) as [|x iv] eqn:E.
  - pose proof (intervals_length all) as H. rewrite E in H. simpl in H. lia.
  - assert (0 < x) by (apply (intervals_positive all); auto; rewrite E; left; auto). rewrite <- (Hc x); auto. left; auto.
Qed.

Lemma bounds_nonempty : forall all l, (2 <= length all)%nat -> Forall valid_date all -> increasing all -> is_regular all = true ->
  Forall valid_date l -> increasing l -> forall p, In p (bounds_from all l) -> fst p < snd p.
Proof.
  intros all l Hl Hv Hi Hr. induction l as [|a [|b r] IH]; intros Hvl Hil p Hp; try contradiction.
  - destruct Hp as [<-|[]]. cbn [fst snd]. inversion Hvl; subst. apply last_end_later; auto.
  - change (bounds_from all (a :: b :: r)) with ((ordinal a, ordinal b) :: bounds_from all (b :: r)) in Hp.
    inversion Hvl; subst. apply StronglySorted_inv in Hil. destruct Hil as [Hil Hb].
    destruct Hp as [<-|Hp]; [|auto]. cbn [fst snd]. inversion Hb; subst. inversion H2; subst. apply ordinal_before; auto.
Qed.

Lemma increasing_app : forall (l1 l2 : list date), increasing (l1 ++ l2) -> increasing l1 /\ increasing l2.
Proof.
  unfold increasing. induction l1 as [|x l1 IH]; intros l2 H; simpl in *; [split; [constructor|auto]|].
  apply StronglySorted_inv in H. destruct H as [H1 H2]. apply IH in H1. destruct H1. split; auto.
  constructor; auto. rewrite Forall_app in H2. tauto.
Qed.

Lemma period_bounds_spec : forall all sel b, Forall valid_date all -> time_coordinates all = Ok all -> increasing all ->
  get_period_bounds all sel = Ok b ->
  exists l, get_selected_dates all sel = Ok l /\ map fst b = map ordinal l /\
    (forall i p q, nth_error b i = Some p -> nth_error b (S i) = Some q -> snd p = fst q) /\
    (forall p, In p b -> fst p < snd p).
Proof.
  intros all sel b Hv Ht Hi H. unfold get_period_bounds in H. apply raise_if_ok in H. destruct H as [Hr H].
  apply negb_false_iff in Hr. destruct (get_selected_dates all sel) as [l|] eqn:El; [|discriminate]. cbn [rbind] in H.
  apply raise_if_ok in H. destruct H as [_ H]. injection H as <-. exists l. split; auto. split; [apply bounds_fst|].
  split; [apply bounds_contiguous|].
  assert (Hl : Forall valid_date l /\ increasing l).
  { destruct sel as [[s e]|].
    - apply (selected_spec all s e Ht) in El. destruct El as [_ [_ [_ [pre [post [E _]]]]]]. rewrite E in Hi, Hv.
      apply increasing_app in Hi. destruct Hi as [_ Hi]. apply increasing_app in Hi. destruct Hi as [Hi _].
      rewrite !Forall_app in Hv. tauto.
    - injection El as <-. auto. }
  apply time_coordinates_ok in Ht. apply bounds_nonempty; tauto.
Qed.

(** Buckets. *)
Fixpoint adjacent (P : date -> date -> Prop) (a : date) (l : list date) : Prop :=
  match l with [] => True | b :: r => P a b /\ adjacent P b r end.

Section Buckets.
Variables (sub key : date -> Z) (complete : date -> bool).
Let differs (s d : date) : bool := negb (sub d =? sub s).
Let P (a b : date) : Prop := sub a = sub b <-> key a = key b.

Lemma generate_spec : forall l start, increasing (start :: l) ->
  (forall a b, In a (start :: l) -> In b (start :: l) -> before a b -> key a <= key b) ->
  adjacent P start l ->
  (forall s e, In (s, e) (generate differs complete start l) <->
     complete s = true /\ bucket_interval key (start :: l) s e) /\
  StronglySorted (fun p q => ~ before (fst q) (snd p)) (generate differs complete start l).
Proof.
  induction l as [|b r IH]; intros start Hinc Hmono Hadj.
  - split; [|constructor]. intros s e. cbn [generate]. split; [intros []|].
    intros [_ [[<-|[]] [[<-|[]] [H _]]]]. exfalso. eapply before_irrefl; eauto.
  - cbn [generate]. destruct Hadj as [Hab Hadj].
    pose proof (StronglySorted_inv Hinc) as [Hincb Hst]. rewrite Forall_forall in Hst.
    pose proof (StronglySorted_inv Hincb) as [Hincr Hbt]. rewrite Forall_forall in Hbt.
    assert (Hsb : before start b) by (apply Hst; left; auto).
    assert (Hdf : differs start b = negb (sub b =? sub start)) by reflexivity. rewrite Hdf. clear Hdf.
    destruct (Z.eqb_spec (sub b) (sub start)) as [Es|Es]; cbn [negb].
    + assert (Ek : key start = key b) by (apply Hab; auto).
      destruct (IH start) as [IH1 IH2].
      * constructor; auto. apply Forall_forall. intros; apply Hst; right; auto.
      * intros a c Ha Hc. apply Hmono; [destruct Ha; [left|right; right]; auto|destruct Hc; [left|right; right]; auto].
      * destruct r as [|c r]; [exact I|]. destruct Hadj as [Hbc Hadj]. split; auto. unfold P in *. rewrite <- Es, Ek. auto.
      * split; auto. intros s e. rewrite IH1. clear IH IH1 IH2.
        assert (Hq : bucket_interval key (start :: r) s e <-> bucket_interval key (start :: b :: r) s e); [|tauto].
        split; intros [H1 [H2 [H3 [H4 H5]]]].
        -- split; [destruct H1; [left|right; right]; auto|]. split; [destruct H2; [left|right; right]; auto|].
           split; auto. split; auto. intros d [<-|[<-|Hd]]; [apply H5; left; auto| |apply H5; right; auto].
           destruct H1 as [H1|H1].
           ++ subst s. split; [intros _|auto]. split; [intros H; eapply before_irrefl, before_trans; eauto|].
              destruct H2 as [H2|H2]; [subst; exfalso; eapply before_irrefl; eauto|]. apply Hbt; auto.
           ++ assert (Hbs : before b s) by (apply Hbt; auto). split.
              ** intros Hk. exfalso. apply (proj1 (H5 start (or_introl eq_refl)) ltac:(congruence)). apply Hst. right. auto.
              ** intros [Hn _]. contradiction.
        -- assert (Hsne : s <> b).
           { intros ->. apply (proj1 (H5 start (or_introl eq_refl)) Ek). auto. }
           assert (Hs : In s (start :: r)). { destruct H1 as [H1|[H1|H1]]; [left; auto|congruence|right; auto]. }
           assert (He : In e (start :: r)).
           { destruct H2 as [H2|[H2|H2]]; [left; auto| |right; auto]. subst e. exfalso.
             destruct Hs as [Hs|Hs]; [subst; congruence|]. specialize (Hbt s Hs). eapply before_irrefl, before_trans; eauto. }
           split; auto. split; auto. split; auto. split; auto.
           intros d Hd. apply H5. destruct Hd; [left|right; right]; auto.
    + assert (Ek : key start <> key b). { intros H. apply Es. symmetry. apply Hab. auto. }
      assert (Ekm : key start < key b). { specialize (Hmono start b (or_introl eq_refl) (or_intror (or_introl eq_refl)) Hsb). lia. }
      assert (Hbk : forall d, In d (b :: r) -> key b <= key d).
      { intros d [<-|Hd]; [lia|]. apply Hmono; [right; left; auto|right; right; auto|auto]. }
      destruct (IH b) as [IH1 IH2]; auto.
      { intros a c Ha Hc. apply Hmono; right; auto. }
      assert (Hq : forall s e, bucket_interval key (start :: b :: r) s e <-> (s = start /\ e = b) \/ bucket_interval key (b :: r) s e).
      { intros s e. split.
        - intros [H1 [H2 [H3 [H4 H5]]]]. destruct H1 as [<-|H1].
          + left. split; auto. destruct H2 as [<-|[H2|H2]]; [exfalso; eapply before_irrefl; eauto|auto|].
            exfalso. apply Ek. symmetry. apply H5; [right; left; auto|]. split; [|auto].
            intros H. eapply before_irrefl, before_trans; eauto.
          + right. destruct H2 as [H2|H2].
            { subst e. exfalso. specialize (Hst s H1). eapply before_irrefl, before_trans; eauto. }
            split; auto. split; auto. split; auto. split; auto. intros d Hd. apply H5. right; auto.
        - intros [[-> ->]|[H1 [H2 [H3 [H4 H5]]]]].
          + split; [left; auto|]. split; [right; left; auto|]. split; auto. split; auto.
            intros d [<-|Hd]; [split; auto; intros _; split; auto; apply before_irrefl|].
            specialize (Hbk d Hd). split; [intros; exfalso; lia|]. intros [_ Hdb]. exfalso.
            destruct Hd as [<-|Hd]; [eapply before_irrefl; eauto|]. specialize (Hbt d Hd). eapply before_irrefl, before_trans; eauto.
          + split; [right; auto|]. split; [right; auto|]. split; auto. split; auto. intros d [<-|Hd]; [|auto].
            pose proof (Hbk s H1). split; [intros; exfalso; lia|]. intros [Hn _]. exfalso. apply Hn. auto. }
      split.
      * intros s e. rewrite in_app_iff, IH1, Hq. destruct (complete start) eqn:Ec; simpl; split.
        -- intros [[H|[]]|H]; [injection H as <- <-; tauto|tauto].
        -- intros [H1 [[-> ->]|H2]]; auto.
        -- intros [[]|H]; tauto.
        -- intros [H1 [[-> ->]|H2]]; [congruence|auto].
      * assert (Hall : forall p, In p (generate differs complete b r) -> ~ before (fst p) b).
        { intros [s e] Hp. apply IH1 in Hp. destruct Hp as [_ [[<-|Hp] _]]; cbn [fst]; [apply before_irrefl|].
          specialize (Hbt s Hp). intros H. eapply before_irrefl, before_trans; eauto. }
        destruct (complete start); [|exact IH2]. cbn [app]. constructor; auto. apply Forall_forall. auto.
Qed.
End Buckets.

Definition month_start (n : Z) : Z := days_before_year (n / 12) + days_before_month (n / 12) (n mod 12 + 1).

Lemma month_start_step : forall n, month_start (n + 1) = month_start n + days_in_month (n / 12) (n mod 12 + 1).
Proof.
  intros n. unfold month_start. pose proof (Z.div_mod n 12 ltac:(lia)). pose proof (Z.mod_pos_bound n 12 ltac:(lia)).
  destruct (Z.eq_dec (n mod 12) 11) as [E|E].
  - assert ((n + 1) / 12 = n / 12 + 1) as -> by (symmetry; apply Z.div_unique with 0; lia).
    assert ((n + 1) mod 12 = 0) as -> by (symmetry; apply Z.mod_unique with (n / 12 + 1); lia).
    rewrite E. rewrite dby_step. change (0 + 1) with 1. rewrite dbm_1. change (11 + 1) with 12.
    pose proof (dbm_step (n / 12) 12 ltac:(lia)) as E2. change (12 + 1) with 13 in E2. rewrite dbm_13 in E2. lia.
  - assert ((n + 1) / 12 = n / 12) as -> by (symmetry; apply Z.div_unique with (n mod 12 + 1); lia).
    assert ((n + 1) mod 12 = n mod 12 + 1) as -> by (symmetry; apply Z.mod_unique with (n / 12); lia).
    rewrite dbm_step by lia. lia.
Qed.

Lemma month_start_mono : forall n k, 0 <= k -> month_start n + 28 * k <= month_start (n + k).
Proof.
  intros n k Hk. pattern k. apply natlike_ind; auto.
  - replace (n + 0) with n by lia. lia.
  - intros j Hj IH. replace (n + Z.succ j) with (n + j + 1) by lia. rewrite month_start_step.
    pose proof (dim_range ((n + j) / 12) ((n + j) mod 12 + 1)). lia.
Qed.

Lemma month_no_parts : forall d, valid_date d -> month_no d / 12 = year d /\ month_no d mod 12 + 1 = month d.
Proof.
  intros d H. apply valid_iff in H. unfold month_no. split.
  - symmetry. apply Z.div_unique with (month d - 1); lia.
  - assert ((12 * year d + month d - 1) mod 12 = month d - 1); [|lia]. symmetry. apply Z.mod_unique with (year d); lia.
Qed.

Lemma ordinal_month_gap : forall a b k, valid_date a -> valid_date b -> 1 <= k -> month_no a + k <= month_no b ->
  28 * (k - 1) < ordinal b - ordinal a.
Proof.
  intros a b k Ha Hb Hk H.
  destruct (month_no_parts a Ha) as [A1 A2]. destruct (month_no_parts b Hb) as [B1 B2].
  pose proof (month_start_mono (month_no a + 1) (month_no b - month_no a - 1) ltac:(lia)) as E.
  replace (month_no a + 1 + (month_no b - month_no a - 1)) with (month_no b) in E by lia.
  rewrite month_start_step in E. unfold month_start in E. rewrite A1, A2, B1, B2 in E.
  apply valid_iff in Ha, Hb. unfold ordinal. lia.
Qed.

Lemma month_no_mono : forall a b, valid_date a -> valid_date b -> before a b -> month_no a <= month_no b.
Proof. intros a b Ha Hb H. apply valid_iff in Ha, Hb. unfold before, month_no in *. lia. Qed.

Lemma quarter_no_eq : forall d, valid_date d -> quarter_no d = 4 * year d + (quarter_number d - 1).
Proof.
  intros d H. apply valid_iff in H. unfold quarter_no, quarter_number, month_no.
  replace (12 * year d + month d - 1) with (month d - 1 + 4 * year d * 3) by lia. rewrite Z.div_add by lia. lia.
Qed.

Lemma adjacent_gaps : forall (Q : date -> date -> Prop) n l a, Forall valid_date (a :: l) -> increasing (a :: l) -> gaps_at_most n (a :: l) ->
  (forall x y, valid_date x -> valid_date y -> before x y -> ordinal y - ordinal x <= n -> Q x y) -> adjacent Q a l.
Proof.
  intros Q n. induction l as [|b r IH]; intros a Hv Hi Hg HQ; [exact I|].
  inversion Hv; subst. inversion H2; subst. apply StronglySorted_inv in Hi. destruct Hi as [Hi Hb]. inversion Hb; subst. split.
  - apply HQ; auto. apply (Hg 0%nat a b); reflexivity.
  - apply IH; auto. intros i x y Hx Hy. apply (Hg (S i) x y); auto.
Qed.

Lemma adjacent_all : forall (Q : date -> date -> Prop) l a, Forall valid_date (a :: l) -> increasing (a :: l) ->
  (forall x y, valid_date x -> valid_date y -> before x y -> Q x y) -> adjacent Q a l.
Proof.
  intros Q. induction l as [|b r IH]; intros a Hv Hi HQ; [exact I|].
  inversion Hv; subst. inversion H2; subst. apply StronglySorted_inv in Hi. destruct Hi as [Hi Hb]. inversion Hb; subst. split; auto.
Qed.

Lemma generate_ext : forall f g c c', (forall s d, f s d = g s d) -> (forall s, c s = c' s) ->
  forall l s, generate f c s l = generate g c' s l.
Proof. intros f g c c' Hf Hc. induction l as [|d r IH]; intros s; auto. cbn [generate]. rewrite Hf, Hc, !IH. reflexivity. Qed.

(** The generators start with the first date, which opens no bucket of its own. *)
Lemma generate_first : forall f c a l, f a a = false -> generate f c a (a :: l) = generate f c a l.
Proof. intros. cbn [generate]. rewrite H. reflexivity. Qed.

Lemma buckets_spec : forall (sub key : date -> Z) (complete : date -> bool) f n l out,
  (forall s d, f s d = negb (sub d =? sub s)) ->
  (forall a b, valid_date a -> valid_date b -> before a b -> key a <= key b) ->
  (forall a b, valid_date a -> valid_date b -> before a b -> ordinal b - ordinal a <= n -> (sub a = sub b <-> key a = key b)) ->
  Forall valid_date l -> gaps_at_most n l ->
  rbind (bucketer l) (generate_date_intervals f complete) = Ok out ->
  (forall s e, In (s, e) out <-> complete s = true /\ bucket_interval key l s e) /\ in_order out.
Proof.
  intros sub key complete f n l out Hf Hm Hsk Hv Hg H. unfold bucketer in H.
  destruct (negb (ascending l)) eqn:Ea; [discriminate|]. apply negb_false_iff, ascending_iff in Ea. cbn [raise_if rbind] in H.
  destruct l as [|a l]; [discriminate|]. cbn [generate_date_intervals] in H.
  assert (Ho : out = generate f complete a (a :: l)) by congruence. subst out.
  assert (Hff : f a a = false) by (rewrite Hf, Z.eqb_refl; auto).
  rewrite (generate_first f complete a l Hff).
  rewrite (generate_ext f (fun s d => negb (sub d =? sub s)) complete complete Hf (fun _ => eq_refl)).
  apply generate_spec; auto.
  - intros x y Hx Hy. rewrite Forall_forall in Hv. apply Hm; auto.
  - apply (adjacent_gaps (fun a b => sub a = sub b <-> key a = key b) n); auto.
Qed.

Lemma monthly_spec : forall l out, Forall valid_date l -> gaps_at_most 308 l -> monthly l = Ok out ->
  (forall s e, In (s, e) out <-> day s <= 7 /\ bucket_interval month_no l s e) /\ in_order out.
Proof.
  intros l out Hv Hg H. unfold monthly in H.
  eapply (buckets_spec month month_no) in H; eauto using month_no_mono.
  - destruct H as [H1 H2]. split; auto. intros s e. rewrite H1, Z.leb_le. tauto.
  - intros a b Ha Hb Hab Hgap. split.
    + intros E. destruct (Z_lt_le_dec (month_no a) (month_no b)) as [Hl|Hl].
      * exfalso. assert (month_no a + 12 <= month_no b). { unfold month_no in *. lia. }
        pose proof (ordinal_month_gap a b 12 Ha Hb ltac:(lia) H0). lia.
      * pose proof (month_no_mono a b Ha Hb Hab). lia.
    + intros E. destruct (month_no_parts a Ha), (month_no_parts b Hb). congruence.
Qed.

Lemma quarterly_spec : forall l out, Forall valid_date l -> gaps_at_most 252 l -> quarterly l = Ok out ->
  (forall s e, In (s, e) out <-> (day s <= 7 /\ month s = (quarter_number s - 1) * 3 + 1) /\ bucket_interval quarter_no l s e) /\ in_order out.
Proof.
  intros l out Hv Hg H. unfold quarterly in H.
  eapply (buckets_spec quarter_number quarter_no) in H; eauto.
  - destruct H as [H1 H2]. split; auto. intros s e. rewrite H1, andb_true_iff, Z.leb_le, Z.eqb_eq. tauto.
  - intros. cbn. rewrite Z.eqb_sym. reflexivity.
  - intros a b Ha Hb Hab. pose proof (month_no_mono a b Ha Hb Hab). unfold quarter_no. apply Z.div_le_mono; lia.
  - intros a b Ha Hb Hab Hgap. rewrite !quarter_no_eq by auto. split; [|intros E].
    + intros E. rewrite E. destruct (Z_lt_le_dec (year a) (year b)) as [Hl|Hl]; [|unfold before in Hab; lia].
      exfalso. assert (month_no a + 10 <= month_no b).
      { apply valid_iff in Ha, Hb. unfold quarter_number in E. unfold month_no.
        pose proof (Z.div_mod (month a - 1) 3 ltac:(lia)). pose proof (Z.mod_pos_bound (month a - 1) 3 ltac:(lia)).
        pose proof (Z.div_mod (month b - 1) 3 ltac:(lia)). pose proof (Z.mod_pos_bound (month b - 1) 3 ltac:(lia)). lia. }
      pose proof (ordinal_month_gap a b 10 Ha Hb ltac:(lia) H0). lia.
    + assert (H0 : forall d, valid_date d -> 0 <= quarter_number d - 1 <= 3).
      { intros d Hd. apply valid_iff in Hd. unfold quarter_number.
        pose proof (Z.div_mod (month d - 1) 3 ltac:(lia)). pose proof (Z.mod_pos_bound (month d - 1) 3 ltac:(lia)). lia. }
      pose proof (H0 a Ha). pose proof (H0 b Hb). lia.
Qed.

Lemma gaps_exist : forall l, exists n, gaps_at_most n l.
Proof.
  induction l as [|a [|b r] IH].
  - exists 0. intros i x y Hx. destruct i; discriminate.
  - exists 0. intros i x y Hx Hy. destruct i; [discriminate|]. destruct i; discriminate.
  - destruct IH as [n Hn]. exists (Z.max n (ordinal b - ordinal a)). intros [|i] x y Hx Hy.
    + injection Hx as <-. injection Hy as <-. lia.
    + specialize (Hn i x y Hx Hy). lia.
Qed.

Lemma yearly_spec : forall l out, Forall valid_date l -> yearly l = Ok out ->
  (forall s e, In (s, e) out <-> (day s <= 7 /\ month s = 1) /\ bucket_interval year_no l s e) /\ in_order out.
Proof.
  intros l out Hv H. unfold yearly in H. destruct (gaps_exist l) as [n Hn].
  eapply (buckets_spec year year_no) in H; eauto.
  - destruct H as [H1 H2]. split; auto. intros s e. rewrite H1, andb_true_iff, Z.leb_le, Z.eqb_eq. tauto.
  - intros a b _ _ Hab. unfold before, year_no in *. lia.
  - intros. unfold year_no. tauto.
Qed.
