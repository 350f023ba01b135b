(** Proofs about automatic knot selection. *)
From Coq Require Import Reals ZArith String List Bool Arith Lia Lra Sorted.
From Verif Require Import Lib_Sum M_Base M_Spec M_PriorDist M_Knots S_Knots P_Spec P_PriorDist P_Knots M_AKS S_AKS.
Import ListNotations.

Lemma isin_iff : forall k l, isin k l = true <-> In k l.
Proof. intros. apply existsb_eqb. Qed.

Lemma diff2_length : forall par, length (diff2 par) = (length par - 2)%nat.
Proof.
  assert (H : forall n par, (length par <= n)%nat -> length (diff2 par) = (length par - 2)%nat).
  { induction n; intros [|a [|b [|c r]]] Hl; simpl in Hl; try lia; try reflexivity.
    change (length (diff2 (a :: b :: c :: r))) with (S (length (diff2 (b :: c :: r)))).
    rewrite (IHn (b :: c :: r)); simpl; lia. }
  intros. apply (H (length par)). auto.
Qed.

Lemma override_length : forall r v, length r = length v -> length (override r v) = length v.
Proof. intros. unfold override. rewrite map_length, combine_length. lia. Qed.

Lemma override_true : forall r v i x, nth_error r i = Some true -> nth_error (override r v) i = Some x -> x = 1%R.
Proof.
  unfold override. induction r as [|b r IH]; intros [|y v] [|i] x H1 H2; simpl in *; try discriminate.
  - inversion H1; subst b. inversion H2. auto.
  - eauto.
Qed.

Lemma ssorted_filter : forall (p : Z -> bool) l, ssorted l -> ssorted (filter p l).
Proof.
  induction l as [|a l IH]; intros H; simpl; auto. inversion H; subst. destruct (p a); auto.
  constructor; auto. rewrite Forall_forall in *. intros x Hx. apply filter_In in Hx. apply H3. tauto.
Qed.

Lemma select_in : forall knots sel k, In k (select_knots knots sel) -> In k knots.
Proof.
  intros knots sel k H. unfold select_knots in H. apply in_map_iff in H. destruct H as [[k' s] [<- H]].
  apply filter_In in H. destruct H as [H _]. eapply in_combine_l; eauto.
Qed.

Lemma select_ssorted : forall knots sel, ssorted knots -> ssorted (select_knots knots sel).
Proof.
  unfold select_knots. induction knots as [|a knots IH]; intros [|s sel] H; simpl; try constructor.
  inversion H; subst. destruct (Rltb (99 / 100) s); simpl; auto. constructor; auto.
  rewrite Forall_forall in *. intros x Hx. apply H3. apply (select_in knots sel). exact Hx.
Qed.

Lemma select_high : forall knots sel i k, nth_error knots i = Some k -> nth_error sel i = Some 1%R ->
  In k (select_knots knots sel).
Proof.
  intros knots sel i k H1 H2. unfold select_knots. apply in_map_iff. exists (k, 1%R). split; auto.
  apply filter_In. split.
  - revert sel i H1 H2. induction knots as [|a knots IH]; intros [|s sel] [|i] H1 H2; simpl in *; try discriminate.
    + inversion H1; inversion H2. auto.
    + right. eauto.
  - simpl. unfold Rltb. destruct (Rlt_dec (99 / 100) 1); auto. exfalso. lra.
Qed.

(** What each reported fit satisfies. *)
Definition good_fit (rss : list Z -> R) (knots required : list Z) (fit : list Z * R) : Prop :=
  ssorted (fst fit) /\ (forall k, In k (fst fit) -> In k knots) /\
  (forall k, In k knots -> In k required -> In k (fst fit)) /\
  snd fit = akaike rss (fst fit).

Section Loop.
  Variable solver : R -> list R -> list R -> list R.
  Variable rss : list Z -> R.
  Variable knots required : list Z.
  Variable penalty : list R.
  Variable epsilon tol : R.
  Hypothesis Hsolver : keeps_length solver.
  Hypothesis Hknots : ssorted knots.
  Let is_required := map (fun k => isin k required) knots.

  Lemma step_good : forall pen s,
    length (as_par s) = (length knots + 2)%nat -> Forall (good_fit rss knots required) (as_done s) ->
    let s' := aspline_step solver rss knots is_required epsilon tol pen s in
    length (as_par s') = (length knots + 2)%nat /\ Forall (good_fit rss knots required) (as_done s').
  Proof.
    intros pen s Hlen Hgood s'. unfold s', aspline_step. cbv zeta. cbn [as_par as_done].
    set (par := solver pen (as_w s) (as_par s)).
    assert (Hpar : length par = (length knots + 2)%nat) by (unfold par; rewrite Hsolver; auto).
    split; auto.
    set (w := override is_required (map (fun d => (1 / (d * d + epsilon * epsilon))%R) (diff2 par))).
    set (prod := map (fun e : R * R => (fst e * (snd e * snd e))%R) (combine w (diff2 par))).
    assert (Hd : length (diff2 par) = length knots) by (rewrite diff2_length; lia).
    assert (Hr : length is_required = length knots) by (unfold is_required; apply map_length).
    assert (Hw : length w = length knots) by (unfold w; rewrite override_length; rewrite ?map_length; lia).
    assert (Hp : length prod = length knots) by (unfold prod; rewrite map_length, combine_length; lia).
    destruct (Rltb _ tol); auto. apply Forall_app. split; auto. constructor; auto.
    unfold good_fit. cbn [fst snd]. set (sel := override is_required prod).
    assert (Hs : length sel = length knots) by (unfold sel; rewrite override_length; lia).
    split; [apply select_ssorted; auto|]. split; [apply select_in|]. split.
    - intros k Hk Hreq. apply In_nth_error in Hk. destruct Hk as [i Hi].
      apply (select_high knots sel i); auto.
      assert (Hri : nth_error is_required i = Some true).
      { unfold is_required. rewrite nth_error_map, Hi. simpl. f_equal. apply isin_iff. auto. }
      destruct (nth_error sel i) as [x|] eqn:Ex.
      + f_equal. eapply override_true; eauto.
      + apply nth_error_None in Ex. pose proof (nth_error_lt _ _ _ _ Hi). lia.
    - unfold akaike. field.
  Qed.

  Lemma loop_good : forall fuel s,
    length (as_par s) = (length knots + 2)%nat -> Forall (good_fit rss knots required) (as_done s) ->
    (length (as_done s) <= length penalty)%nat ->
    let s' := aspline_loop solver rss knots penalty is_required epsilon tol fuel s in
    Forall (good_fit rss knots required) (as_done s') /\ (length (as_done s') <= length penalty)%nat.
  Proof.
    induction fuel as [|fuel IH]; intros s H1 H2 H3; simpl; auto.
    destruct (nth_error penalty (length (as_done s))) as [pen|] eqn:E; auto.
    destruct (step_good pen s H1 H2) as [A B]. apply IH; auto.
    apply nth_error_lt in E. unfold aspline_step. cbv zeta. cbn [as_done].
    destruct (Rltb _ tol); auto. rewrite app_length. simpl. lia.
  Qed.
End Loop.

Lemma aspline_good : forall solver rss knots penalty required iters epsilon tol fits,
  keeps_length solver -> ssorted knots ->
  aspline solver rss knots penalty required iters epsilon tol = Ok fits ->
  length fits = length penalty /\ Forall (good_fit rss knots required) fits.
Proof.
  intros solver rss knots penalty required iters epsilon tol fits Hs Hk H. unfold aspline in H. cbv zeta in H.
  apply raise_if_ok in H. destruct H as [_ H]. apply raise_if_ok in H. destruct H as [_ H].
  apply raise_if_ok in H. destruct H as [_ H]. apply raise_if_ok in H. destruct H as [Hlt H].
  inversion H as [E]. clear H.
  destruct (loop_good solver rss knots required penalty epsilon tol Hs Hk iters
    (mkAs (repeat 1%R (length knots)) (repeat 1%R (length knots + 2)) (repeat 1%R (length knots)) [])) as [A B];
    cbn [as_par as_done]; auto.
  - apply repeat_length.
  - simpl. lia.
  - split; auto. apply Nat.ltb_ge in Hlt. lia.
Qed.

Lemma last_min_some : forall l, l <> [] -> exists a, last_min l = Some a.
Proof.
  intros [|a l] H; [congruence|]. simpl. destruct (last_min l); eauto. destruct (Rltb _ _); eauto.
Qed.

Lemma last_min_spec : forall l a, last_min l = Some a ->
  exists i, nth_error l i = Some a /\
    forall j b, nth_error l j = Some b -> (snd a <= snd b)%R /\ ((snd b <= snd a)%R -> (j <= i)%nat).
Proof.
  induction l as [|x l IH]; intros a H; [discriminate|]. simpl in H.
  destruct (last_min l) as [y|] eqn:E.
  - destruct (IH y eq_refl) as [i [Hi Hmin]].
    unfold Rltb in H. destruct (Rlt_dec (snd x) (snd y)) as [Hlt|Hge]; inversion H; subst a.
    + exists 0%nat. split; auto. intros [|j] b Hb; simpl in Hb.
      * inversion Hb; subst. split; [lra|auto].
      * destruct (Hmin j b Hb) as [A B]. split; [lra|]. intros. lra.
    + exists (S i). split; auto. intros [|j] b Hb; simpl in Hb.
      * inversion Hb; subst. split; [lra|lia].
      * destruct (Hmin j b Hb) as [A B]. split; auto. intros Hab. specialize (B Hab). lia.
  - destruct l as [|z l]; [|destruct (last_min_some (z :: l)) as [q Hq]; [discriminate|congruence]].
    inversion H; subst. exists 0%nat. split; auto. intros [|[|j]] b Hb; simpl in Hb; try discriminate.
    inversion Hb; subst. split; [lra|auto].
Qed.

(** Positions in a filtered list. *)
Lemma nth_error_filter : forall A (p : A -> bool) l i a, nth_error (filter p l) i = Some a ->
  exists i', nth_error l i' = Some a /\ p a = true /\
    (forall j b, nth_error l j = Some b -> p b = true ->
       exists j', nth_error (filter p l) j' = Some b /\ ((j' <= i)%nat -> (j <= i')%nat)).
Proof.
  intros A p. induction l as [|x l IH]; intros i a H; simpl in H; [destruct i; discriminate|].
  destruct (p x) eqn:E.
  - destruct i as [|i]; simpl in H.
    + inversion H; subst a. exists 0%nat. split; auto. split; auto. simpl. rewrite E.
      intros [|j] b Hb Hp; simpl in Hb.
      * inversion Hb; subst. exists 0%nat. auto.
      * assert (Hin : In b (filter p l)) by (apply filter_In; split; auto; eapply nth_error_In; eauto).
        apply In_nth_error in Hin. destruct Hin as [j' Hj']. exists (S j'). split; auto. lia.
    + destruct (IH i a H) as [i' [A1 [A2 A3]]]. exists (S i'). split; auto. split; auto. simpl. rewrite E.
      intros [|j] b Hb Hp; simpl in Hb.
      * inversion Hb; subst. exists 0%nat. split; auto. lia.
      * destruct (A3 j b Hb Hp) as [j' [B1 B2]]. exists (S j'). split; auto. intros. assert (j' <= i)%nat by lia.
        specialize (B2 H1). lia.
  - destruct (IH i a H) as [i' [A1 [A2 A3]]]. exists (S i'). split; auto. split; auto. simpl. rewrite E.
    intros [|j] b Hb Hp; simpl in Hb.
    + inversion Hb; subst. congruence.
    + destruct (A3 j b Hb Hp) as [j' [B1 B2]]. exists j'. split; auto. intros. specialize (B2 H0). lia.
Qed.

(** Initial knots. *)
Lemma inner_times_spec : forall n k, In k (inner_times n) <-> (0 < k < Z.of_nat n - 1)%Z.
Proof.
  intros n k. unfold inner_times. rewrite in_map_iff. split.
  - intros [i [<- Hi]]. apply in_seq in Hi. lia.
  - intros H. exists (Z.to_nat k). split; [lia|]. apply in_seq. lia.
Qed.

Lemma inner_times_ssorted : forall n, ssorted (inner_times n).
Proof. intros. apply map_seq_ssorted. intros. lia. Qed.

Lemma inner_times_length : forall n, length (inner_times n) = (n - 2)%nat.
Proof. intros. unfold inner_times. rewrite map_length, seq_length. auto. Qed.

Lemma inner_times_last : forall n, (2 < n)%nat -> last_z (inner_times n) = (Z.of_nat n - 2)%Z.
Proof.
  intros n Hn. assert (Hne : inner_times n <> []).
  { intros E. apply (f_equal (@length Z)) in E. rewrite inner_times_length in E. simpl in E. lia. }
  pose proof (last_z_spec _ Hne) as H. rewrite inner_times_length in H. unfold inner_times in H at 1.
  rewrite nth_error_map in H. rewrite (nth_error_nth' _ 0%nat) in H by (rewrite seq_length; lia).
  rewrite seq_nth in H by lia. cbn [option_map] in H. apply (f_equal (fun o => match o with Some z => z | None => 0%Z end)) in H.
  cbv beta iota in H. lia.
Qed.

(** The knots removed from the candidates. *)
Definition dropped (n : nat) (e : option (list Z)) : list Z :=
  match unique_or_none e with
  | Some e => e
  | None => match inner_times n with [] => [] | _ => [last_z (inner_times n)] end
  end.

Lemma dropped_spec : forall n e k, In k (dropped n e) <-> In k (elements e) \/
  (elements e = [] /\ (2 < n)%nat /\ k = (Z.of_nat n - 2)%Z).
Proof.
  intros n e k. unfold dropped.
  assert (Hnone : In k (match inner_times n with [] => [] | _ => [last_z (inner_times n)] end) <->
                  (2 < n)%nat /\ k = (Z.of_nat n - 2)%Z).
  { destruct (inner_times n) as [|z l] eqn:E.
    - split; [intros []|]. intros [Hn _]. exfalso. apply (f_equal (@length Z)) in E.
      rewrite inner_times_length in E. simpl in E. lia.
    - assert (Hn : (2 < n)%nat).
      { apply (f_equal (@length Z)) in E. rewrite inner_times_length in E. simpl in E. lia. }
      change (In k [last_z (z :: l)] <-> (2 < n)%nat /\ k = (Z.of_nat n - 2)%Z).
      rewrite <- E, (inner_times_last n Hn). simpl. split; [intros [<-|[]]; auto|intros [_ ->]; auto]. }
  destruct e as [[|x r]|]; cbn [unique_or_none elements].
  - rewrite Hnone. simpl. tauto.
  - destruct (np_unique_spec (x :: r)) as [_ Hset]. rewrite (Hset k). split; [auto|]. intros [H|[H _]]; [auto|discriminate].
  - rewrite Hnone. simpl. tauto.
Qed.

(** The candidate knots: neither first nor last period, nor excluded. *)
Lemma initial_knots_ok : forall n e ks, initial_knots n (unique_or_none e) = Ok ks ->
  ssorted ks /\
  (forall k, In k ks <-> (0 < k < Z.of_nat n - 1)%Z /\ ~ In k (elements e) /\
     (elements e = [] -> k <> (Z.of_nat n - 2)%Z)) /\
  (forall k, In k (elements e) -> (0 < k < Z.of_nat n - 1)%Z).
Proof.
  intros n e ks H. unfold initial_knots in H. cbv zeta in H.
  change (match unique_or_none e with Some e0 => e0 | None => match inner_times n with [] => [] | _ => [last_z (inner_times n)] end end)
    with (dropped n e) in H.
  apply raise_if_ok in H. destruct H as [H1 H2].
  apply negb_false_iff in H1. rewrite forallb_forall in H1. inversion H2; subst ks. clear H2.
  split; [apply ssorted_filter, inner_times_ssorted|]. split.
  - intros k. rewrite filter_In, negb_true_iff, inner_times_spec.
    assert (Hd : isin k (dropped n e) = false <-> ~ In k (dropped n e)).
    { rewrite <- isin_iff. destruct (isin k (dropped n e)); split; congruence. }
    rewrite Hd, dropped_spec. split.
    + intros [A B]. split; auto. split; [tauto|]. intros E Ek. apply B. right. split; auto. split; auto. lia.
    + intros [A [B C]]. split; auto. intros [D|[D [_ F]]]; [tauto|]. apply (C D F).
  - intros k Hk. apply inner_times_spec, isin_iff, H1, dropped_spec. auto.
Qed.

Lemma initial_knots_error : forall n e x, initial_knots n (unique_or_none e) = Err x -> x = ValueError.
Proof.
  intros n e x. unfold initial_knots, raise_if. cbv zeta. destruct (negb _); congruence.
Qed.

Lemma unique_or_none_some : forall arg r, unique_or_none arg = Some r ->
  ssorted r /\ (forall k, In k r <-> In k (elements arg)) /\ r <> [].
Proof.
  intros [[|x l]|] r H; simpl in H; try discriminate. inversion H as [E]. clear H.
  destruct (np_unique_spec (x :: l)) as [A B]. split; auto. split; [apply B|].
  intros E0. assert (In x []) as []. rewrite <- E0. apply B. left; auto.
Qed.

Lemma unique_or_none_none : forall arg, unique_or_none arg = None -> elements arg = [].
Proof. intros [[|x l]|] H; simpl in *; auto; discriminate. Qed.

Lemma filter_length_id : forall A (p : A -> bool) l, (forall x, In x l -> p x = true) -> filter p l = l.
Proof.
  induction l as [|a l IH]; intros H; simpl; auto. rewrite (H a (or_introl eq_refl)). f_equal. apply IH.
  intros; apply H; right; auto.
Qed.

(** Two strictly increasing lists with the same elements are equal. *)
Lemma ssorted_ext : forall a b, ssorted a -> ssorted b -> (forall k, In k a <-> In k b) -> a = b.
Proof.
  induction a as [|x a IH]; intros [|y b] Ha Hb H; auto.
  - exfalso. apply (proj2 (H y)). left; auto.
  - exfalso. apply (proj1 (H x)). left; auto.
  - inversion Ha; subst. inversion Hb; subst. rewrite Forall_forall in H3, H5.
    assert (x = y).
    { destruct (proj1 (H x) (or_introl eq_refl)) as [E|E]; [auto|].
      destruct (proj2 (H y) (or_introl eq_refl)) as [E'|E']; [auto|].
      specialize (H5 x E). specialize (H3 y E'). lia. }
    subst y. f_equal. apply IH; auto. intros k. split; intros Hk.
    + destruct (proj1 (H k) (or_intror Hk)) as [<-|]; auto. specialize (H3 x Hk). lia.
    + destruct (proj2 (H k) (or_intror Hk)) as [<-|]; auto. specialize (H5 x Hk). lia.
Qed.

Lemma internal_of_boundaries : forall n ks, ssorted ks -> (forall k, In k ks -> (0 < k < Z.of_nat n - 1)%Z) ->
  internal n (np_unique (ks ++ [0%Z; (Z.of_nat n - 1)%Z])) = ks.
Proof.
  intros n ks Hs Hin. destruct (np_unique_spec (ks ++ [0%Z; (Z.of_nat n - 1)%Z])) as [A B].
  apply ssorted_ext; auto; [apply ssorted_filter; auto|].
  intros k. unfold internal. rewrite filter_In, (B k), andb_true_iff, !Z.ltb_lt, in_app_iff. simpl. split.
  - intros [[H|[H|[H|[]]]] [H1 H2]]; auto; lia.
  - intros H. specialize (Hin k H). auto.
Qed.

(** Main decomposition of a successful selection. *)
Lemma aks_ok : forall solver rss n_geos n n_features base min_i max_i required excluded right iters eps tol ks,
  keeps_length solver ->
  automatic_knot_selection solver rss n_geos n n_features base min_i max_i required excluded right iters eps tol = Ok ks ->
  exists init cand fits sel i m,
    aspline solver rss cand (map (fun p => (1 / sqrt (INR n_geos) * p)%R) base)
      (match unique_or_none required with Some r => r | None => [] end) iters eps tol = Ok fits /\
    ssorted init /\ (forall k, In k init <-> allowed_knot n excluded k) /\
    ssorted cand /\
    (forall k, In k cand <-> In k init /\
       (right = true -> In k (elements required) \/ forall r, In r (elements required) -> (r < k)%Z)) /\
    (forall k, In k (elements required) -> In k init) /\
    (right = true -> elements required <> []) /\
    m = match max_i with Some x => x | None => (Z.of_nat (length init) - Z.of_nat n_features)%Z end /\
    (Z.of_nat (length (np_unique (elements required))) <= m)%Z /\
    (min_i <= Z.of_nat (length (fst sel)) <= m)%Z /\
    nth_error fits i = Some sel /\
    (forall j b, nth_error fits j = Some b -> (min_i <= Z.of_nat (length (fst b)) <= m)%Z ->
       (snd sel <= snd b)%R /\ ((snd b <= snd sel)%R -> (j <= i)%nat)) /\
    ks = (match fst sel with [] => [] | _ => np_unique (fst sel ++ [0%Z; (Z.of_nat n - 1)%Z]) end).
Proof.
  intros solver rss n_geos n n_features base min_i max_i required excluded right iters eps tol ks Hsol H.
  unfold automatic_knot_selection in H. cbv zeta in H. apply raise_if_ok in H. destruct H as [_ H].
  destruct (initial_knots n (unique_or_none excluded)) as [init|] eqn:Ei; cbn [rbind] in H; [|discriminate].
  destruct (initial_knots_ok _ _ _ Ei) as [I1 [I2 I3]].
  unfold max_internal_knots in H. cbv zeta in H.
  set (m := match max_i with Some x => x | None => (Z.of_nat (length init) - Z.of_nat n_features)%Z end) in *.
  destruct (Z.ltb (Z.of_nat (length init)) min_i); cbn [raise_if rbind] in H; [discriminate|].
  destruct (Z.ltb m min_i) eqn:Em; cbn [raise_if rbind] in H; [discriminate|]. apply Z.ltb_ge in Em.
  set (pen := map (fun p => (1 / sqrt (INR n_geos) * p)%R) base) in *.
  assert (Hmain : exists cand fits,
    aspline solver rss cand pen (match unique_or_none required with Some r => r | None => [] end) iters eps tol = Ok fits /\
    ssorted cand /\
    (forall k, In k cand <-> In k init /\
       (right = true -> In k (elements required) \/ forall r, In r (elements required) -> (r < k)%Z)) /\
    (forall k, In k (elements required) -> In k init) /\
    (right = true -> elements required <> []) /\
    (Z.of_nat (length (np_unique (elements required))) <= Z.max m 0)%Z /\
    match last_min (filter (feasible min_i m) fits) with
     | None => Err ValueError
     | Some (ks, _) => match ks with [] => Ok [] | _ => Ok (np_unique (ks ++ [0%Z; (Z.of_nat n - 1)%Z])) end
    end = Ok ks).
  { destruct (unique_or_none required) as [r|] eqn:Er.
    - destruct (unique_or_none_some _ _ Er) as [R1 [R2 R3]].
      destruct (negb (forallb (fun k => isin k init) r)) eqn:E1; cbn [raise_if rbind] in H; [discriminate|].
      destruct (Z.ltb m (Z.of_nat (length r))) eqn:E2; cbn [raise_if rbind] in H; [discriminate|].
      apply negb_false_iff in E1. rewrite forallb_forall in E1. apply Z.ltb_ge in E2.
      assert (Hlen : length (np_unique (elements required)) = length r).
      { destruct required as [[|x l]|]; simpl in Er; inversion Er; auto. }
      set (cand := if right then filter (fun k => isin k r || Z.ltb (last_z r) k) init else init) in *.
      destruct (aspline solver rss cand pen r iters eps tol) as [fits|] eqn:Ea; cbn [rbind] in H; [|discriminate].
      exists cand, fits. split; auto. split.
      { unfold cand. destruct right; auto. apply ssorted_filter; auto. }
      split.
      { intros k. unfold cand. destruct right; [|split; [intros; split; [auto|discriminate]|tauto]].
        rewrite filter_In, orb_true_iff, isin_iff, Z.ltb_lt.
        assert (Hl : (last_z r < k)%Z <-> forall q, In q (elements required) -> (q < k)%Z).
        { pose proof (last_z_spec r R3) as HL. split.
          - intros Hk q Hq. apply R2 in Hq. apply In_nth_error in Hq. destruct Hq as [iq Hq].
            pose proof (nth_error_lt _ _ _ _ Hq). destruct (Nat.eq_dec iq (length r - 1)) as [->|Ne].
            + rewrite HL in Hq. inversion Hq. lia.
            + pose proof (ssorted_nth_lt _ _ _ _ _ R1 Hq HL ltac:(lia)). lia.
          - intros Hk. apply Hk, R2. eapply nth_error_In; eauto. }
        rewrite Hl, <- (R2 k). split; intros [A B]; split; auto. }
      split; [intros k Hk; apply isin_iff, E1, R2; auto|]. split.
      { intros _ E0. apply R3. destruct r as [|q r]; auto. assert (In q []) as []. rewrite <- E0. apply R2. left; auto. }
      split; [lia|]. auto.
    - pose proof (unique_or_none_none _ Er) as En. rewrite En.
      destruct right; cbn [raise_if rbind] in H; [discriminate|].
      destruct (aspline solver rss init pen [] iters eps tol) as [fits|] eqn:Ea; cbn [rbind] in H; [|discriminate].
      exists init, fits. split; auto. split; auto. split; [intros; split; [intros; split; [auto|discriminate]|tauto]|].
      split; [intros k []|]. split; [discriminate|]. split; [simpl; lia|]. auto. }
  destruct Hmain as [cand [fits [M1 [M2 [M3 [M4 [M5 [M6 M7]]]]]]]].
  destruct (last_min (filter (feasible min_i m) fits)) as [[sel aic]|] eqn:El; [|discriminate].
  destruct (last_min_spec _ _ El) as [i0 [L1 L2]].
  destruct (nth_error_filter _ _ _ _ _ L1) as [i [N1 [N2 N3]]].
  assert (Hf : forall b, feasible min_i m b = true <-> (min_i <= Z.of_nat (length (fst b)) <= m)%Z).
  { intros b. unfold feasible. rewrite andb_true_iff, !Z.leb_le. tauto. }
  apply Hf in N2.
  exists init, cand, fits, (sel, aic), i, m. split; auto. split; auto. split; auto. split; auto. split; auto.
  split; auto. split; auto. split; auto. split; [simpl in N2; lia|]. split; auto. split; auto. split.
  - intros j b Hb Hfb. destruct (N3 j b Hb (proj2 (Hf b) Hfb)) as [j' [J1 J2]].
    destruct (L2 j' b J1) as [K1 K2]. split; auto.
  - simpl. destruct sel; inversion M7; auto.
Qed.
