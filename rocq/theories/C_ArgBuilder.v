(** Property C39: channel-ordered arguments. *)
From Coq Require Import String List Bool Lia Permutation.
From Verif Require Import M_Base M_ArgBuilder.
Import ListNotations.
Local Open Scope string_scope.
Local Open Scope list_scope.

(** *** Specification *)
(** The user gave [v] for the name [c]. *)
Definition gave {A} (kw : kwargs A) (c : string) (v : option A) : Prop := In (c, v) kw.
(** The default in force after a history of [with_default_value] calls. *)
Definition default_after {A} (history : list (option A)) : option A := last history None.
Definition after {A} (b : builder A) (history : list (option A)) : builder A :=
  fold_left (fun b v => with_default_value v b) history b.
(** The names a builder is bound to. *)
Definition bound (d : channel_names) (k : builder_kind) (l : list string) : Prop :=
  match k with
  | KPaid => (cn_media d <> None \/ cn_rf d <> None) /\
             l = (match cn_media d with Some a => a | None => [] end)
                 ++ (match cn_rf d with Some a => a | None => [] end)
  | KMedia => cn_media d = Some l
  | KRf => cn_rf d = Some l
  | KOrganicMedia => cn_organic_media d = Some l
  | KOrganicRf => cn_organic_rf d = Some l
  end.

(** *** Lemmas *)
Lemma lookup_in : forall A (kw : kwargs A) c v, NoDup (map fst kw) ->
  (lookup c kw = Some v <-> In (c, v) kw).
Proof.
  intros A kw c v. induction kw as [|[n w] r IH]; intros H; cbn.
  - split; [discriminate|tauto].
  - inversion H as [|? ? Hn Hr]; subst. destruct (string_dec n c) as [->|Ne].
    + split; [intros E; assert (w = v) by congruence; subst; auto|].
      intros [E|I]; [congruence|]. exfalso. apply Hn. apply (in_map fst) in I. exact I.
    + rewrite (IH Hr). split; [auto|]. intros [E|I]; [congruence|exact I].
Qed.
Lemma lookup_none : forall A (kw : kwargs A) c, lookup c kw = None <-> ~ In c (map fst kw).
Proof.
  intros A kw c. induction kw as [|[n w] r IH]; cbn; [tauto|]. destruct (string_dec n c) as [->|Ne]; [|rewrite IH; tauto].
  split; [discriminate|]. tauto.
Qed.
Lemma mem_in : forall s l, mem s l = true <-> In s l.
Proof. intros s l. unfold mem. destruct (in_dec string_dec s l); split; auto; discriminate. Qed.
Lemma same_set_iff : forall a b, same_set a b = true <-> forall s, In s a <-> In s b.
Proof.
  intros a b. unfold same_set. rewrite andb_true_iff, !forallb_forall. split.
  - intros [H1 H2] s. split; intros H; apply mem_in; auto.
  - intros H. split; intros s Hs; apply mem_in; apply H; exact Hs.
Qed.
Lemma after_state : forall A (history : list (option A)) b,
  b_coords (after b history) = b_coords b /\ b_default (after b history) = last history (b_default b).
Proof.
  intros A history. induction history as [|v r IH]; intros b; [split; reflexivity|].
  cbn [after fold_left]. change (fold_left _ r ?X) with (after X r). destruct (IH (with_default_value v b)) as [E1 E2].
  rewrite E1, E2. cbn [with_default_value b_coords b_default]. split; [reflexivity|].
  destruct r as [|a r]; [reflexivity|]. change (last (v :: a :: r) (b_default b)) with (last (a :: r) (b_default b)).
  clear. revert a. induction r as [|c r IH]; intros a; [reflexivity|]. exact (IH c).
Qed.
Lemma last_none : forall A (history : list (option A)), last history None = default_after history.
Proof. reflexivity. Qed.

(** *** C39 *)
(** Whatever history of defaults a builder has seen, a successful call returns one value per
    coordinate, in coordinate order: the keyword given for that name, else the last default. *)
Theorem C39_in_order : forall A (coords : list string) (history : list (option A)) kw l,
  NoDup (map fst kw) -> call (after (new_builder coords) history) kw = Ok l ->
  length l = length coords /\
  forall i c, nth_error coords i = Some c ->
    exists v, nth_error l i = Some v /\
      ((exists w, gave kw c w /\ v = w) \/ ((forall w, ~ gave kw c w) /\ v = default_after history)).
Proof.
  intros A coords history kw l Hk H. destruct (after_state A history (new_builder coords)) as [E1 E2].
  unfold call in H. rewrite E1, E2 in H. cbn [new_builder b_coords b_default] in H.
  unfold raise_if in H. destruct (_ && _)%bool; [discriminate|].
  assert (l = map (fun c => get c (last history None) kw) coords) by congruence. subst l.
  split; [apply map_length|]. intros i c Hi. exists (get c (last history None) kw).
  split; [apply (map_nth_error (fun c => get c (last history None) kw) _ _ Hi)|].
  unfold get. destruct (lookup c kw) as [v|] eqn:L.
  - left. exists v. split; [apply lookup_in; auto|reflexivity].
  - right. split; [|reflexivity]. intros w G. apply lookup_none in L. apply L. apply (in_map fst) in G. exact G.
Qed.
Print Assumptions C39_in_order.

(** Without default a call succeeds exactly when the names given are those of the coordinates;
    with a default every call succeeds. *)
Theorem C39_accepted : forall A (coords : list string) (history : list (option A)) kw,
  (exists l, call (after (new_builder coords) history) kw = Ok l) <->
  (default_after history <> None \/ forall s, In s (map fst kw) <-> In s coords).
Proof.
  intros A coords history kw. destruct (after_state A history (new_builder coords)) as [E1 E2].
  unfold call. rewrite E1, E2. cbn [new_builder b_coords b_default]. change (last history None) with (default_after history).
  unfold raise_if. destruct (default_after history) as [v|]; cbn [andb].
  - split; [left; discriminate|eauto].
  - destruct (same_set (map fst kw) coords) eqn:S; cbn [negb].
    + split; [right; apply same_set_iff; exact S|eauto].
    + split; [intros (l & H); discriminate|]. intros [N|H]; [congruence|]. apply same_set_iff in H. congruence.
Qed.
Print Assumptions C39_accepted.

(** The order in which the keywords are written does not matter. *)
Theorem C39_keyword_order : forall A (b : builder A) kw kw',
  NoDup (map fst kw) -> Permutation kw kw' -> call b kw = call b kw'.
Proof.
  intros A b kw kw' Hk P.
  assert (Hk' : NoDup (map fst kw')) by (eapply Permutation_NoDup; [apply Permutation_map; exact P|exact Hk]).
  assert (G : forall c d, get c d kw = get c d kw').
  { intros c d. unfold get. destruct (lookup c kw) as [v|] eqn:L, (lookup c kw') as [v'|] eqn:L'; auto.
    - apply (lookup_in _ _ _ _ Hk) in L. apply (Permutation_in _ P) in L. apply (lookup_in _ _ _ _ Hk') in L. congruence.
    - apply (lookup_in _ _ _ _ Hk) in L. apply (Permutation_in _ P) in L. apply (lookup_in _ _ _ _ Hk') in L. congruence.
    - apply (lookup_in _ _ _ _ Hk') in L'. apply (Permutation_in _ (Permutation_sym P)) in L'.
      apply (lookup_in _ _ _ _ Hk) in L'. congruence. }
  unfold call. f_equal.
  - f_equal. f_equal. destruct (same_set (map fst kw) (b_coords b)) eqn:S; symmetry.
    + rewrite same_set_iff in S. apply same_set_iff. intros s. rewrite <- (S s).
      split; apply Permutation_in; [apply Permutation_sym|]; apply Permutation_map; exact P.
    + destruct (same_set (map fst kw') (b_coords b)) eqn:S'; [|reflexivity].
      rewrite same_set_iff in S'. assert (same_set (map fst kw) (b_coords b) = true); [|congruence].
      apply same_set_iff. intros s. rewrite <- (S' s).
      split; apply Permutation_in; [|apply Permutation_sym]; apply Permutation_map; exact P.
  - f_equal. apply map_ext. intros c. apply G.
Qed.
Print Assumptions C39_keyword_order.

(** The builders of the input data are bound to the documented channels, media before RF. *)
Theorem C39_bound_channels : forall A d k,
  (forall b, argument_builder A d k = Ok b -> exists l, bound d k l /\ b = new_builder l) /\
  (forall l, bound d k l -> argument_builder A d k = Ok (new_builder l)) /\
  ((forall l, ~ bound d k l) -> argument_builder A d k = Err ValueError).
Proof.
  intros A [m r om orf] k. unfold argument_builder, bound, all_paid, need.
  cbn [cn_media cn_rf cn_organic_media cn_organic_rf].
  assert (One : forall o : option (list string),
    let y := rbind (match o with Some l => Ok l | None => Err ValueError end) (fun l => Ok (new_builder l)) in
    (forall b : builder A, y = Ok b -> exists l, o = Some l /\ b = new_builder l) /\
    (forall l, o = Some l -> y = Ok (new_builder l)) /\ ((forall l, o <> Some l) -> y = Err ValueError)).
  { intros [l|]; cbn; refine (conj _ (conj _ _)).
    - intros b H. exists l. split; [reflexivity|congruence].
    - intros l' H. congruence.
    - intros H. exfalso. exact (H l eq_refl).
    - discriminate.
    - discriminate.
    - reflexivity. }
  destruct k; [|apply One|apply One|apply One|apply One].
  destruct m as [a|], r as [c|]; cbn [rbind]; refine (conj _ (conj _ _)).
  - intros b H. exists (a ++ c). split; [split; [left; discriminate|reflexivity]|congruence].
  - intros l [_ ->]. reflexivity.
  - intros H. exfalso. apply (H (a ++ c)). split; [left; discriminate|reflexivity].
  - intros b H. exists a. split; [split; [left; discriminate|rewrite app_nil_r; reflexivity]|congruence].
  - intros l [_ ->]. rewrite app_nil_r. reflexivity.
  - intros H. exfalso. apply (H (a ++ [])). split; [left; discriminate|reflexivity].
  - intros b H. exists c. split; [split; [right; discriminate|reflexivity]|congruence].
  - intros l [_ ->]. reflexivity.
  - intros H. exfalso. apply (H c). split; [right; discriminate|reflexivity].
  - discriminate.
  - intros l [[N|N] _]; congruence.
  - reflexivity.
Qed.
Print Assumptions C39_bound_channels.

(** Refuted: all names given must be coordinates (documented for the call).  With a default,
    unknown names - a misspelt channel, say - are dropped without error. *)
Theorem C39_unknown_names_refuted : forall A (coords : list string) (history : list (option A)) kw extra v,
  default_after history <> None -> ~ In extra coords ->
  call (after (new_builder coords) history) (kw ++ [(extra, v)]) = call (after (new_builder coords) history) kw /\
  exists l, call (after (new_builder coords) history) kw = Ok l.
Proof.
  intros A coords history kw extra v Hd Hx. split; [|apply C39_accepted; auto].
  destruct (after_state A history (new_builder coords)) as [E1 E2].
  unfold call. rewrite E1, E2. cbn [new_builder b_coords b_default]. change (last history None) with (default_after history).
  destruct (default_after history) as [w|]; [|congruence]. cbn [andb raise_if]. f_equal. apply map_ext_in. intros c Hc.
  unfold get. assert (E : lookup c (kw ++ [(extra, v)]) = lookup c kw).
  { induction kw as [|[n u] r IH]; cbn.
    - destruct (string_dec extra c) as [->|]; [tauto|reflexivity].
    - destruct (string_dec n c); [reflexivity|exact IH]. }
  rewrite E. reflexivity.
Qed.
Print Assumptions C39_unknown_names_refuted.

(** A case: the example of the documentation; and a misspelt channel. *)
Example C39_example :
  call (after (new_builder ["display"; "search"; "social"]) [Some 3]) [("social", Some 25); ("display", Some 1)]
  = Ok [Some 1; Some 3; Some 25] /\
  call (after (new_builder ["display"; "search"]) [Some 3]) [("serach", Some 7)] = Ok [Some 3; Some 3] /\
  call (after (new_builder ["display"; "search"]) [Some 3; None]) [("serach", Some 7)] = Err ValueError /\
  call (new_builder ["display"; "search"]) [("search", Some 7); ("display", Some 8)] = Ok [Some 8; Some 7] /\
  NoDup (map fst [("social", Some 25); ("display", Some 1)]) /\
  bound (mkNames (Some ["tv"]) (Some ["yt"]) None None) KPaid ["tv"; "yt"].
Proof.
  repeat split; try reflexivity; try (left; discriminate).
  repeat constructor; cbn; intuition discriminate.
Qed.
