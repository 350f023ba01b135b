(** Dates of a period and their buckets, as the planner's generator enumerates them. *)
From Coq Require Import ZArith QArith String List Bool Sorted Lia Arith.
From Verif Require Import M_Base M_Time S_Time P_Time P_Period M_UiSpecs S_UiSpecs.
Import ListNotations.
Local Open Scope Z_scope.
Local Open Scope list_scope.

Lemma next_date_spec : forall d, valid_date d -> valid_date (next_date d) /\ ordinal (next_date d) = ordinal d + 1.
Proof.
  intros d V. assert (N : next_day d (next_date d)).
  { apply valid_iff in V. exists (days_in_month (year d) (month d)). split; [apply month_has_iff; lia|]. unfold next_date.
    destruct (Z.ltb_spec (day d) (days_in_month (year d) (month d))); [left; split; [lia|reflexivity]|]. right.
    destruct (Z.ltb_spec (month d) 12); [left|right]; repeat split; try reflexivity; lia. }
  split; [|apply next_day_ordinal; exact N].
  apply valid_iff in V. apply valid_iff. unfold next_date.
  destruct (Z.ltb_spec (day d) (days_in_month (year d) (month d))); [cbn [year month day]; lia|].
  destruct (Z.ltb_spec (month d) 12); cbn [year month day].
  - pose proof (dim_range (year d) (month d + 1)). lia.
  - pose proof (dim_range (year d + 1) 1). lia.
Qed.

Lemma prev_date_spec : forall d, valid_date d -> valid_date (prev_date d) /\ ordinal (prev_date d) = ordinal d - 1.
Proof.
  intros d V. assert (P : valid_date (prev_date d) /\ next_date (prev_date d) = d).
  { apply valid_iff in V. destruct d as [y m a]. cbn [year month day] in V. unfold prev_date. cbn [year month day].
    destruct (Z.ltb_spec 1 a).
    - split; [apply valid_iff; cbn [year month day]; lia|]. unfold next_date. cbn [year month day].
      destruct (Z.ltb_spec (a - 1) (days_in_month y m)); [f_equal; lia|lia].
    - assert (a = 1) by lia. subst a. destruct (Z.ltb_spec 1 m).
      + pose proof (dim_range y (m - 1)). split; [apply valid_iff; cbn [year month day]; lia|]. unfold next_date. cbn [year month day].
        rewrite Z.ltb_irrefl. destruct (Z.ltb_spec (m - 1) 12); [f_equal; lia|lia].
      + assert (m = 1) by lia. subst m. split; [apply valid_iff; cbn [year month day]; change (days_in_month (y - 1) 12) with 31; lia|].
        unfold next_date. cbn [year month day]. change (days_in_month (y - 1) 12) with 31. cbn. f_equal. lia. }
  destruct P as [P1 P2]. split; [exact P1|]. pose proof (next_date_spec _ P1) as [_ E]. rewrite P2 in E. lia.
Qed.

Lemma add_days_spec : forall d n, valid_date d -> valid_date (add_days d n) /\ ordinal (add_days d n) = ordinal d + n.
Proof.
  intros d n V. unfold add_days. destruct (Z.leb_spec 0 n).
  - assert (G : forall k, valid_date (Nat.iter k next_date d) /\ ordinal (Nat.iter k next_date d) = ordinal d + Z.of_nat k).
    { induction k as [|k [I1 I2]]; [cbn; split; [exact V|lia]|]. change (Nat.iter (S k) next_date d) with (next_date (Nat.iter k next_date d)).
      destruct (next_date_spec _ I1) as [A B]. split; [exact A|]. lia. }
    specialize (G (Z.to_nat n)). rewrite Z2Nat.id in G by lia. exact G.
  - assert (G : forall k, valid_date (Nat.iter k prev_date d) /\ ordinal (Nat.iter k prev_date d) = ordinal d - Z.of_nat k).
    { induction k as [|k [I1 I2]]; [cbn; split; [exact V|lia]|]. change (Nat.iter (S k) prev_date d) with (prev_date (Nat.iter k prev_date d)).
      destruct (prev_date_spec _ I1) as [A B]. split; [exact A|]. lia. }
    specialize (G (Z.to_nat (- n))). rewrite Z2Nat.id in G by lia. destruct G as [A B]. split; [exact A|lia].
Qed.

Lemma ordinal_lt : forall a b, valid_date a -> valid_date b -> ordinal a < ordinal b -> before a b.
Proof.
  intros a b Va Vb H. destruct (date_ltb a b) eqn:E; [apply date_ltb_iff; exact E|]. apply date_ltb_nlt in E.
  destruct (date_ltb b a) eqn:F; [apply date_ltb_iff in F; pose proof (ordinal_before b a Vb Va F); lia|].
  apply date_ltb_nlt in F. rewrite (before_total a b E F) in H. lia.
Qed.
Lemma ordinal_eq : forall a b, valid_date a -> valid_date b -> ordinal a = ordinal b -> a = b.
Proof.
  intros a b Va Vb H. apply before_total; intros F; [pose proof (ordinal_before a b Va Vb F)|pose proof (ordinal_before b a Vb Va F)]; lia.
Qed.

Lemma round_div_range : forall s n lo hi, 0 < n -> n * lo <= s <= n * hi -> lo <= round_div s n <= hi.
Proof.
  intros s n lo hi Hn H. unfold round_div. pose proof (Z.div_mod s n ltac:(lia)) as E. pose proof (Z.mod_pos_bound s n Hn) as R.
  set (q := s / n) in *. set (r := s mod n) in *.
  assert (L : lo <= q) by nia. assert (U : q <= hi) by nia.
  destruct (Z.ltb_spec (2 * r) n); [lia|]. assert (q + 1 <= hi) by nia.
  destruct (n <? 2 * r); [lia|]. destruct (Z.even q); lia.
Qed.

Lemma intervals_bounded : forall n l, gaps_at_most n l -> forall x, In x (intervals l) -> x <= n.
Proof.
  intros n l. induction l as [|a [|b r] IH]; intros G x Hx; try contradiction.
  change (intervals (a :: b :: r)) with ((ordinal b - ordinal a) :: intervals (b :: r)) in Hx. destruct Hx as [<-|Hx].
  - exact (G 0%nat a b eq_refl eq_refl).
  - apply IH; [|exact Hx]. intros i u v Hu Hv. exact (G (S i) u v Hu Hv).
Qed.

Lemma interval_range : forall all, calendar all -> 1 <= interval_days all <= 252.
Proof.
  intros all (L & V & _ & I & _ & G). unfold interval_days.
  assert (P : forall x, In x (intervals all) -> 1 <= x <= 252).
  { intros x Hx. pose proof (intervals_positive all V I x Hx). pose proof (intervals_bounded 252 all G x Hx). lia. }
  apply round_div_range; [rewrite intervals_length; lia|].
  revert P. generalize (intervals all). clear. intros l. induction l as [|x l IH]; intros H; [cbn; lia|].
  cbn [fold_right length]. pose proof (H x (or_introl eq_refl)). specialize (IH (fun y Hy => H y (or_intror Hy))). lia.
Qed.

Lemma regular : forall all, calendar all -> is_regular all = true.
Proof. intros all (_ & _ & _ & _ & R & _). apply is_regular_iff. exact R. Qed.
Lemma checked_ok : forall all, calendar all -> checked_interval all = Ok (interval_days all).
Proof. intros all H. unfold checked_interval. rewrite (regular all H). reflexivity. Qed.

Lemma ends : forall all, calendar all -> exists first r q last, all = first :: r /\ all = q ++ [last].
Proof.
  intros all (L & _). destruct all as [|a r]; [cbn in L; lia|].
  destruct (exists_last (l := a :: r) ltac:(discriminate)) as [q [z E]]. exists a, r, q, z. auto.
Qed.
Lemma first_least : forall all first r, increasing all -> all = first :: r -> forall d, In d all -> ~ before d first.
Proof.
  intros all first r I -> d Hd. inversion I; subst. rewrite Forall_forall in H2. destruct Hd as [<-|Hd]; [apply before_irrefl|].
  intros B. exact (before_irrefl _ (before_trans _ _ _ B (H2 d Hd))).
Qed.
Lemma last_most : forall all q last, increasing all -> all = q ++ [last] -> forall d, In d all -> ~ before last d.
Proof.
  intros all q last I -> d Hd. apply increasing_not_decreasing in I. apply sorted_app in I. destruct I as [_ [_ I]].
  apply in_app_iff in Hd. destruct Hd as [Hd|[<-|[]]]; [|apply before_irrefl]. apply I; [exact Hd|left; reflexivity].
Qed.

Definition between (s z d : date) : bool := date_leb s d && date_leb d z.
Lemma between_iff : forall s z d, between s z d = true <-> ~ before d s /\ ~ before z d.
Proof. intros. unfold between. rewrite andb_true_iff, !date_leb_iff. tauto. Qed.

(** The selection, with the bounds that are not given at the ends of the data. *)
Lemma expand_filter : forall all first r q last s e x, calendar all -> all = first :: r -> all = q ++ [last] ->
  let s0 := match s with Some d => d | None => first end in
  let z0 := match e with Some d => d | None => last end in
  expand_selected_time_dims all s e = Ok x ->
  match x with None => all | Some l => l end = filter (between s0 z0) all /\ In s0 all /\ In z0 all /\ ~ before z0 s0.
Proof.
  intros all first r q last s e x C Ef El s0 z0 H. pose proof C as (L & V & Y & I & R & G).
  pose proof (first_least all first r I Ef) as Hf. pose proof (last_most all q last I El) as Hl.
  assert (Fi : In first all) by (rewrite Ef; left; reflexivity). assert (Li : In last all) by (rewrite El; apply in_app_iff; right; left; reflexivity).
  assert (Fall : filter (between first last) all = all).
  { apply filter_id. intros d Hd. apply between_iff. split; [apply Hf|apply Hl]; exact Hd. }
  assert (N : s <> None \/ e <> None \/ (s = None /\ e = None)).
  { destruct s; [left; discriminate|]. destruct e; [right; left; discriminate|]. right; right; auto. }
  assert (Case : (s <> None \/ e <> None) \/ (s = None /\ e = None)) by tauto. clear N. destruct Case as [N|[Es Ee]].
  - destruct (expand_spec all first last r q s e Ef El (increasing_not_decreasing _ I) N) as (S1 & S2 & _).
    fold s0 z0 in S1, S2. destruct x as [l|].
    + apply S2 in H. destruct H as (_ & A & B & D & Sel). refine (conj _ (conj A (conj B D))).
      apply (selection_filter all s0 z0 (increasing_not_decreasing _ I) A B D) in Sel. exact Sel.
    + apply S1 in H. destruct H as [Es Ez]. rewrite Es, Ez. repeat split; [symmetry; exact Fall|exact Fi|exact Li|apply Hf; exact Li].
  - subst s e. unfold s0, z0. rewrite Ef in H at 1. cbn in H. inversion H; subst x.
    repeat split; [symmetry; exact Fall|exact Fi|exact Li|apply Hf; exact Li].
Qed.

Lemma expand_total : forall all first r q last s e, calendar all -> all = first :: r -> all = q ++ [last] ->
  let s0 := match s with Some d => d | None => first end in
  let z0 := match e with Some d => d | None => last end in
  In s0 all -> In z0 all -> ~ before z0 s0 -> exists x, expand_selected_time_dims all s e = Ok x.
Proof.
  intros all first r q last s e C Ef El s0 z0 A B D. pose proof C as (L & V & Y & I & R & G).
  assert (Case : (s <> None \/ e <> None) \/ (s = None /\ e = None)).
  { destruct s; [left; left; discriminate|]. destruct e; [left; right; discriminate|]. right; auto. }
  destruct Case as [N|[Es Ee]].
  - destruct (expand_spec all first last r q s e Ef El (increasing_not_decreasing _ I) N) as (_ & _ & S3).
    fold s0 z0 in S3. destruct (expand_selected_time_dims all s e) as [x|x]; [exists x; reflexivity|].
    destruct (proj1 (S3 x) eq_refl) as [_ [F|[F|F]]]; tauto.
  - subst s e. exists None. rewrite Ef. reflexivity.
Qed.

Lemma filter_last : forall (f : date -> bool) q z, f z = true -> filter f (q ++ [z]) = filter f q ++ [z].
Proof. intros. rewrite filter_app. cbn. rewrite H. reflexivity. Qed.
Lemma increasing_filter : forall f l, increasing l -> increasing (filter f l).
Proof.
  intros f l H. induction H; [constructor|]. cbn. destruct (f a); [|exact IHStronglySorted]. constructor; [exact IHStronglySorted|].
  rewrite Forall_forall in *. intros x Hx. apply filter_In in Hx. apply H0. tauto.
Qed.
Lemma increasing_snoc : forall l e, increasing l -> (forall d, In d l -> before d e) -> increasing (l ++ [e]).
Proof.
  intros l e H F. induction H; [constructor; constructor|]. cbn. constructor; [apply IHStronglySorted; intros; apply F; right; exact H1|].
  apply Forall_app. split; [exact H0|]. constructor; [apply F; left; reflexivity|constructor].
Qed.

(** Everything about the dates enumerated. *)
Definition good_dates (all l : list date) (p : period) (s z e : date) : Prop :=
  bounds all p s z e /\ l = filter (between s z) all ++ [e].

Lemma enumerate_ok : forall all p l, calendar all -> valid_period p -> enumerate_dates all p = Ok l ->
  exists s z e, good_dates all l p s z e.
Proof.
  intros all p l C Vp H. pose proof C as (L & V & Y & I & R & G). destruct (ends all C) as (first & r & q & last & Ef & El).
  rewrite Forall_forall in V.
  pose proof (first_least all first r I Ef) as Hf. pose proof (last_most all q last I El) as Hl.
  unfold enumerate_dates in H. rewrite (checked_ok all C) in H. destruct (p_end p) as [e|] eqn:Pe; cbn [rbind] in H.
  - destruct (expand_selected_time_dims all (p_start p) (Some (add_days e (- interval_days all)))) as [x|x] eqn:X; [|discriminate].
    cbn [rbind] in H. inversion H; subst l. destruct (expand_filter all first r q last _ _ x C Ef El X) as (F & A & B & D).
    pose proof (Vp e Pe) as Ve. destruct (add_days_spec e (- interval_days all) Ve) as [_ O].
    exists (match p_start p with Some d => d | None => first end), (add_days e (- interval_days all)), e.
    split; [|rewrite F; reflexivity]. unfold bounds. rewrite Pe. repeat split; try assumption; [lia|].
    destruct (p_start p); [reflexivity|exact Hf].
  - destruct (expand_selected_time_dims all (p_start p) None) as [x|x] eqn:X; [|discriminate]. cbn [rbind] in H.
    destruct (expand_filter all first r q last _ _ x C Ef El X) as (F & A & B & D). cbn beta iota in F.
    rewrite F in H. set (s0 := match p_start p with Some d => d | None => first end) in *.
    assert (T : filter (between s0 last) all = filter (between s0 last) q ++ [last]).
    { rewrite El at 1. apply filter_last. apply between_iff. split; [exact D|apply before_irrefl]. }
    assert (T' : rev (filter (between s0 last) all) = last :: rev (filter (between s0 last) q)).
    { rewrite T, rev_app_distr. reflexivity. }
    rewrite T' in H. cbn [rbind] in H. inversion H; subst l. destruct (add_days_spec last (interval_days all) (V last B)) as [Ve O].
    exists s0, last, (add_days last (interval_days all)). split; [|reflexivity]. unfold bounds. rewrite Pe. repeat split; try assumption.
    unfold s0. destruct (p_start p); [reflexivity|exact Hf].
Qed.

Lemma enumerate_total : forall all p s z e, calendar all -> valid_period p -> bounds all p s z e -> exists l, enumerate_dates all p = Ok l.
Proof.
  intros all p s z e C Vp (A & B & D & Ve & O & Hs & He). pose proof C as (L & V & Y & I & R & G).
  destruct (ends all C) as (first & r & q & last & Ef & El). rewrite Forall_forall in V.
  pose proof (first_least all first r I Ef) as Hf. pose proof (last_most all q last I El) as Hl.
  assert (Fi : In first all) by (rewrite Ef; left; reflexivity). assert (Li : In last all) by (rewrite El; apply in_app_iff; right; left; reflexivity).
  assert (S0 : match p_start p with Some d => d | None => first end = s).
  { destruct (p_start p); [congruence|]. apply before_total; [apply Hs; exact Fi|apply Hf; exact A]. }
  unfold enumerate_dates. rewrite (checked_ok all C). destruct (p_end p) as [e1|] eqn:Pe; cbn [rbind].
  - subst e1. destruct (add_days_spec e (- interval_days all) Ve) as [Vz Oz].
    assert (Z0 : add_days e (- interval_days all) = z) by (apply ordinal_eq; [exact Vz|apply V; exact B|lia]). rewrite Z0.
    destruct (expand_total all first r q last (p_start p) (Some z) C Ef El) as [x X]; [rewrite S0; exact A|exact B|rewrite S0; exact D|].
    rewrite X. cbn [rbind]. eexists. reflexivity.
  - assert (Z0 : last = z) by (apply before_total; [apply Hl; exact B|apply He; exact Li]).
    destruct (expand_total all first r q last (p_start p) None C Ef El) as [x X]; [rewrite S0; exact A|exact Li|rewrite S0, Z0; exact D|].
    rewrite X. cbn [rbind]. destruct (expand_filter all first r q last _ _ x C Ef El X) as (F & _ & _ & _). cbn beta iota in F. rewrite F, S0.
    assert (T : filter (between s last) all = filter (between s last) q ++ [last]).
    { rewrite El at 1. apply filter_last. apply between_iff. split; [rewrite Z0; exact D|apply before_irrefl]. }
    rewrite T, rev_app_distr. cbn. eexists. reflexivity.
Qed.

Lemma good_increasing : forall all l p s z e, calendar all -> good_dates all l p s z e -> increasing l /\ Forall valid_date l /\
  (forall d, In d l <-> (In d all /\ ~ before d s /\ ~ before z d) \/ d = e) /\ before z e.
Proof.
  intros all l p s z e C [(A & B & D & Ve & O & Hs & He) ->]. pose proof (interval_range all C) as N. pose proof C as (L & V & Y & I & R & G).
  rewrite Forall_forall in V. assert (Bz : before z e) by (apply ordinal_lt; [apply V; exact B|exact Ve|lia]).
  assert (F : forall d, In d (filter (between s z) all) <-> In d all /\ ~ before d s /\ ~ before z d).
  { intros d. rewrite filter_In, between_iff. tauto. }
  refine (conj _ (conj _ (conj _ Bz))).
  - apply increasing_snoc; [apply increasing_filter; exact I|]. intros d Hd. apply F in Hd. destruct Hd as (Hd & _ & H2).
    destruct (date_ltb d z) eqn:E; [apply date_ltb_iff in E; exact (before_trans _ _ _ E Bz)|].
    apply date_ltb_nlt in E. rewrite (before_total d z E H2). exact Bz.
  - apply Forall_app. split; [|constructor; [exact Ve|constructor]]. apply Forall_forall. intros d Hd. apply F in Hd. apply V. tauto.
  - intros d. rewrite in_app_iff, F. cbn. intuition.
Qed.

Lemma good_gaps : forall all l p s z e, calendar all -> good_dates all l p s z e -> gaps_at_most 252 l.
Proof.
  intros all l p s z e C [(A & B & D & Ve & O & Hs & He) ->]. pose proof (interval_range all C) as N. pose proof C as (L & V & Y & I & R & G).
  pose proof (proj2 (selection_filter all s z (increasing_not_decreasing _ I) A B D _) eq_refl) as (pre & post & E & _ & [r2 Er] & _).
  unfold between in *. set (sel := filter (fun d => date_leb s d && date_leb d z) all) in *. clearbody sel.
  intros i a b Ha Hb. destruct (Nat.lt_ge_cases (S i) (length sel)) as [Hi|Hi].
  - rewrite nth_error_app1 in Ha by lia. rewrite nth_error_app1 in Hb by lia. apply (G (length pre + i)%nat a b).
    + rewrite E. rewrite nth_error_app2 by lia. replace (length pre + i - length pre)%nat with i by lia. rewrite nth_error_app1 by lia. exact Ha.
    + rewrite E. rewrite nth_error_app2 by lia. replace (S (length pre + i) - length pre)%nat with (S i) by lia. rewrite nth_error_app1 by lia. exact Hb.
  - assert (Hl : (S i < length (sel ++ [e]))%nat) by (apply nth_error_Some; congruence). rewrite app_length in Hl. cbn in Hl.
    assert (length sel = S i) by lia. rewrite nth_error_app1 in Ha by lia. rewrite nth_error_app2 in Hb by lia.
    replace (S i - length sel)%nat with 0%nat in Hb by lia. cbn in Hb. inversion Hb; subst b.
    rewrite Er, app_length in H. cbn in H. rewrite Er in Ha. rewrite nth_error_app2 in Ha by lia. replace (i - length r2)%nat with 0%nat in Ha by lia.
    cbn in Ha. inversion Ha; subst a. lia.
Qed.

Lemma dates_of_good : forall all l p s z e, calendar all -> good_dates all l p s z e -> dates_of all p l.
Proof.
  intros all l p s z e C Gd. destruct (good_increasing all l p s z e C Gd) as (I & _ & F & _). split; [exact I|]. exists s, z, e.
  split; [exact (proj1 Gd)|exact F].
Qed.

(** The buckets of dates in order. *)
Lemma intervals_spec : forall l g, l <> [] -> increasing l -> Forall valid_date l -> gaps_at_most 252 l ->
  exists ivs, date_intervals g l = Ok ivs /\ in_order ivs /\
  (forall a b, In (a, b) ivs <-> starts_bucket g a /\ bucket_interval (bucket_no g) l a b).
Proof.
  intros l g Ne I V G. assert (As : ascending l = true) by (apply ascending_iff; exact I).
  assert (X : exists ivs, date_intervals g l = Ok ivs).
  { destruct g; unfold date_intervals, monthly, quarterly, yearly, bucketer; rewrite As; cbn [negb raise_if rbind]; (destruct l; [contradiction|eexists; reflexivity]). }
  destruct X as [ivs X]. exists ivs. split; [exact X|]. pose proof V as V'. rewrite Forall_forall in V'.
  destruct g; unfold date_intervals in X.
  - assert (G3 : gaps_at_most 308 l) by (intros i a b Ha Hb; pose proof (G i a b Ha Hb); lia).
    destruct (monthly_spec l ivs V G3 X) as [A B]. split; [exact B|]. intros a b. rewrite A. unfold starts_bucket, bucket_no.
    split; intros [H1 H2]; split; try exact H2; [|lia]. pose proof (V' a (proj1 H2)) as Va. apply valid_iff in Va. split; [lia|exact Logic.I].
  - destruct (quarterly_spec l ivs V G X) as [A B]. split; [exact B|]. intros a b. rewrite A. unfold starts_bucket, bucket_no.
    split; intros [H1 H2]; split; try exact H2; pose proof (V' a (proj1 H2)) as Va; apply valid_iff in Va; unfold quarter_number in *; cbn [In] in *.
    + split; [lia|]. destruct H1 as [_ H1].
      assert (month a = 1 \/ month a = 2 \/ month a = 3 \/ month a = 4 \/ month a = 5 \/ month a = 6 \/ month a = 7 \/ month a = 8 \/ month a = 9 \/ month a = 10 \/ month a = 11 \/ month a = 12) as M by lia.
      repeat (destruct M as [M|M]; [rewrite M in *; cbn in H1; lia|]). rewrite M in *. cbn in H1. lia.
    + split; [lia|]. destruct H1 as [_ H1]. destruct H1 as [H1|[H1|[H1|[H1|[]]]]]; rewrite <- H1; reflexivity.
  - destruct (yearly_spec l ivs V X) as [A B]. split; [exact B|]. intros a b. rewrite A. unfold starts_bucket, bucket_no.
    split; intros [H1 H2]; split; try exact H2; [|lia]. pose proof (V' a (proj1 H2)) as Va. apply valid_iff in Va. lia.
Qed.
