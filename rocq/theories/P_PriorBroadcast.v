(** Proofs for C82. *)
From Coq Require Import Reals String List Bool Arith Lia Lra.
From Verif Require Import M_Base M_PriorDist M_PriorBroadcast S_PriorBroadcast.
Import ListNotations.
Local Open Scope string_scope.
Local Open Scope R_scope.
Local Open Scope nat_scope.
Local Open Scope list_scope.

(** * Indices *)

Lemma indices_iff : forall s i, In i (indices s) <-> Forall2 lt i s.
Proof.
  induction s as [|n s IH]; intros i; cbn [indices].
  - cbn. split.
    + intros [H|[]]. subst. constructor.
    + intros H. inversion H. auto.
  - rewrite in_flat_map. split.
    + intros (k & Hk & Hi). apply in_map_iff in Hi. destruct Hi as (j & E & Hj). subst.
      apply in_seq in Hk. constructor; [lia | apply IH; exact Hj].
    + intros H. inversion H as [|k n' j s' Hk Hj]; subst. exists k. split.
      * apply in_seq. lia.
      * apply in_map. apply IH. exact Hj.
Qed.

Lemma indices_ones : forall s, Forall (fun k => k = 1) s -> indices s = [map (fun _ => 0) s].
Proof.
  induction s as [|n s IH]; intros H; [reflexivity|].
  inversion H as [|? ? E F]; subst. cbn [indices seq flat_map map]. rewrite (IH F). reflexivity.
Qed.

Lemma indices_single : forall s i, indices s = [i] -> Forall (fun k => k = 1) s.
Proof.
  induction s as [|n s IH]; intros i H; [constructor|].
  cbn [indices] in H.
  destruct n as [|[|n]].
  - discriminate.
  - cbn [seq flat_map] in H. rewrite app_nil_r in H.
    destruct (indices s) as [|j [|j' r]] eqn:E; try discriminate.
    constructor; [reflexivity | apply (IH j); reflexivity].
  - exfalso. cbn [seq flat_map] in H.
    destruct (indices s) as [|j r] eqn:E.
    + cbn [map app] in H. clear -H.
      assert (Z : forall l, flat_map (fun i0 : nat => map (cons i0) (@nil (list nat))) l = []).
      { induction l; [reflexivity | exact IHl]. }
      cbn [map] in Z. rewrite Z in H. discriminate.
    + cbn [map app] in H. injection H as H1 H2. destruct r; discriminate.
Qed.

(** * Validation of supports *)

Lemma given_iff : forall d l, In l (laws_of d) <-> given d l.
Proof.
  assert (B : forall d s l, batch_shape d = Ok s ->
    (In l (map (law_at d) (indices s)) <-> (exists s0 i, batch_shape d = Ok s0 /\ index_of s0 i /\ law_at d i = l))).
  { intros d s l E. rewrite in_map_iff. split.
    - intros (i & Ei & Hi). exists s, i. split; [exact E|]. split; [apply indices_iff; exact Hi | exact Ei].
    - intros (s0 & i & E0 & Hi & El). assert (s0 = s) by congruence. subst.
      exists i. split; [reflexivity | apply indices_iff; exact Hi]. }
  induction d as [s f|s lo hi id|s q f|d IH w]; intros l.
  - apply (B (Deterministic s f) s); reflexivity.
  - apply (B (TruncatedNormal s lo hi id) s); reflexivity.
  - apply (B (Family s q f) s); reflexivity.
  - cbn [laws_of given]. apply IH.
Qed.

Lemma opened_laws : forall d, laws_of (opened d) = laws_of d.
Proof. destruct d; reflexivity. Qed.

Lemma opened_quantile : forall d, quantile_implemented (opened d) = quantile_implemented d.
Proof. destruct d; reflexivity. Qed.

Lemma fixed_iff : forall d, is_deterministic (opened d) = true <-> fixed d.
Proof.
  intros d. split.
  - destruct d as [s f|s lo hi id|s q f|d w]; cbn; intros H; try discriminate.
    + constructor.
    + destruct d; try discriminate. constructor.
  - intros H. destruct H; reflexivity.
Qed.

Lemma fixed_no_quantile : forall d, fixed d -> quantile_implemented d = false.
Proof. intros d H. destruct H; reflexivity. Qed.

Definition within (d : dist) (b : num * num) (pr : bool * bool) (l : law) : Prop :=
  lt_num (low_end l) (fst b) = false /\ lt_num (snd b) (high_end l) = false /\
  (fixed d -> (fst pr = true -> eq_num (low_end l) (fst b) = false) /\
              (snd pr = true -> eq_num (low_end l) (snd b) = false)).

Lemma existsb_false : forall (A : Type) (f : A -> bool) l, existsb f l = false <-> forall x, In x l -> f x = false.
Proof.
  intros A f l. split.
  - intros H x Hx. destruct (f x) eqn:E; [|reflexivity].
    assert (existsb f l = true) by (apply existsb_exists; exists x; auto). congruence.
  - intros H. destruct (existsb f l) eqn:E; [|reflexivity].
    apply existsb_exists in E. destruct E as (x & Hx & Ex). rewrite (H x Hx) in Ex. discriminate.
Qed.

Lemma raise_if_ok_iff : forall (A : Type) c e (k : result A) v,
  raise_if c e k = Ok v <-> c = false /\ k = Ok v.
Proof. intros A c e k v. destruct c; cbn; split; intros H; try tauto; try discriminate. destruct H; discriminate. Qed.

Lemma validate_support_iff : forall d b pr,
  validate_support d b pr = Ok tt <-> (support_known d -> forall l, given d l -> within d b pr l).
Proof.
  intros d b pr. unfold validate_support. cbn zeta.
  rewrite opened_quantile, opened_laws.
  destruct (is_deterministic (opened d)) eqn:D.
  - pose proof (proj1 (fixed_iff d) D) as F. rewrite !raise_if_ok_iff. split.
    + intros (H0 & H1 & H2 & _) _ l Hl. apply given_iff in Hl.
      rewrite existsb_false in H2. specialize (H2 l Hl). apply orb_false_iff in H2.
      refine (conj (proj1 H2) (conj (proj2 H2) (fun _ => _))). split; intros P.
      * rewrite P in H0. cbn [andb] in H0. rewrite existsb_false in H0. exact (H0 l Hl).
      * rewrite P in H1. cbn [andb] in H1. rewrite existsb_false in H1. exact (H1 l Hl).
    + intros H. specialize (H (or_introl F)).
      assert (W : forall l, In l (laws_of d) -> within d b pr l) by (intros l Hl; apply H; apply given_iff; exact Hl).
      split; [|split; [|split; [|reflexivity]]].
      * destruct (fst pr) eqn:P; [|reflexivity]. cbn [andb]. apply existsb_false. intros l Hl.
        destruct (W l Hl) as (_ & _ & G). exact (proj1 (G F) P).
      * destruct (snd pr) eqn:P; [|reflexivity]. cbn [andb]. apply existsb_false. intros l Hl.
        destruct (W l Hl) as (_ & _ & G). exact (proj2 (G F) P).
      * apply existsb_false. intros l Hl. destruct (W l Hl) as (A & B & _). rewrite A, B. reflexivity.
  - assert (NF : ~ fixed d) by (intros F; apply fixed_iff in F; congruence).
    destruct (quantile_implemented d) eqn:Q.
    + rewrite raise_if_ok_iff. split.
      * intros (H & _) _ l Hl. apply given_iff in Hl. rewrite existsb_false in H. specialize (H l Hl).
        apply orb_false_iff in H. exact (conj (proj1 H) (conj (proj2 H) (fun F => match NF F with end))).
      * intros H. split; [|reflexivity]. apply existsb_false. intros l Hl.
        destruct (H (or_intror Q) l (proj1 (given_iff d l) Hl)) as (A & B & _). rewrite A, B. reflexivity.
    + split; [|reflexivity]. intros _ [F|C]; [contradiction | congruence].
Qed.

Lemma validate_support_err : forall d b pr e, validate_support d b pr = Err e -> e = ValueError.
Proof.
  intros d b pr e. unfold validate_support. cbn zeta.
  destruct (is_deterministic (opened d)).
  - repeat (match goal with |- context [raise_if ?c _ _] => destruct c; cbn [raise_if]; [congruence|] end). discriminate.
  - destruct (quantile_implemented (opened d)); [|discriminate].
    match goal with |- context [raise_if ?c _ _] => destruct c; cbn [raise_if]; [congruence|discriminate] end.
Qed.

Definition entry_ok (p : prior) (e : string * (num * num) * (bool * bool)) : Prop :=
  validate_support (p (fst (fst e))) (snd (fst e)) (snd e) = Ok tt.

Lemma make_prior_iff : forall p q, make_prior p = Ok q <-> q = p /\ Forall (entry_ok p) parameter_space.
Proof.
  intros p q. unfold make_prior.
  assert (F : forall l, fold_right (fun entry rest =>
           let '(name, bounds, prevent) := entry in
           rbind (validate_support (p name) bounds prevent) (fun _ => rest)) (Ok tt) l = Ok tt
           <-> Forall (entry_ok p) l).
  { induction l as [|[[n b] pr] l IH]; cbn [fold_right].
    - split; [constructor | reflexivity].
    - split.
      + intros H. destruct (validate_support (p n) b pr) as [[]|e] eqn:E; cbn [rbind] in H; [|discriminate].
        constructor; [exact E | apply IH; exact H].
      + intros H. inversion H as [|? ? H1 H2]; subst. unfold entry_ok in H1. cbn [fst snd] in H1.
        rewrite H1. cbn [rbind]. apply IH. exact H2. }
  split.
  - intros H. destruct (fold_right _ _ parameter_space) as [[]|e] eqn:E; cbn [rbind] in H; [|discriminate].
    split; [congruence | apply F; exact E].
  - intros (-> & H). apply F in H. rewrite H. reflexivity.
Qed.

Lemma make_prior_err : forall p e, make_prior p = Err e -> e = ValueError.
Proof.
  intros p e. unfold make_prior.
  assert (F : forall l e, fold_right (fun entry rest =>
           let '(name, bounds, prevent) := entry in
           rbind (validate_support (p name) bounds prevent) (fun _ => rest)) (Ok tt) l = Err e -> e = ValueError).
  { induction l as [|[[n b] pr] l IH]; cbn [fold_right]; intros e' H; [discriminate|].
    destruct (validate_support (p n) b pr) as [[]|e0] eqn:E; cbn [rbind] in H.
    - exact (IH e' H).
    - assert (e' = e0) by congruence. subst. exact (validate_support_err _ _ _ _ E). }
  destruct (fold_right _ _ parameter_space) as [[]|e0] eqn:E; cbn [rbind]; intros H; [discriminate|].
  assert (e = e0) by congruence. subst. exact (F _ _ E).
Qed.

Definition positive : num * num := (Fin 0, Inf).
Definition unit_interval : num * num := (Fin 0, Fin 1).

Lemma entry_cases : forall x b pr, In (x, b, pr) parameter_space ->
  (In x decay_rates /\ b = unit_interval /\ pr = (false, true)) \/
  (In x curve_parameters /\ b = positive /\ pr = (true, false)) \/
  (In x deviations /\ b = positive /\ pr = (false, false)).
Proof.
  intros x b pr H. unfold parameter_space in H. cbn [In] in H.
  repeat (destruct H as [H|H];
    [injection H as <- <- <-; cbv [decay_rates curve_parameters deviations In positive unit_interval]; tauto|]).
  destruct H.
Qed.

Lemma entry_decay : forall x, In x decay_rates -> In (x, unit_interval, (false, true)) parameter_space.
Proof.
  intros x H. cbv [decay_rates In] in H. cbv [parameter_space In unit_interval].
  repeat (destruct H as [H|H]; [subst; tauto|]). destruct H.
Qed.

Lemma entry_curve : forall x, In x curve_parameters -> In (x, positive, (true, false)) parameter_space.
Proof.
  intros x H. cbv [curve_parameters In] in H. cbv [parameter_space In positive].
  repeat (destruct H as [H|H]; [subst; tauto|]). destruct H.
Qed.

Lemma entry_deviation : forall x, In x deviations -> In (x, positive, (false, false)) parameter_space.
Proof.
  intros x H. cbv [deviations In] in H. cbv [parameter_space In positive].
  repeat (destruct H as [H|H]; [subst; tauto|]). destruct H.
Qed.

Lemma ends_iff : forall l a b, ends l a b <-> a = low_end l /\ b = high_end l.
Proof.
  intros l a b. split.
  - intros H. destruct H; split; reflexivity.
  - intros (-> & ->). destruct l; constructor.
Qed.

Lemma low_iff : forall a, number a -> (lt_num a (Fin 0) = false <-> at_least 0 a).
Proof.
  intros a N. destruct a as [x| | |]; cbn [lt_num at_least].
  - destruct (Rlt_dec x 0); split; intros H; try discriminate; try reflexivity; lra.
  - tauto.
  - split; [discriminate | tauto].
  - exfalso. apply N. reflexivity.
Qed.

Lemma high_iff : forall b, number b -> (lt_num (Fin 1) b = false <-> at_most 1 b).
Proof.
  intros b N. destruct b as [x| | |]; cbn [lt_num at_most].
  - destruct (Rlt_dec 1 x); split; intros H; try discriminate; try reflexivity; lra.
  - split; [discriminate | tauto].
  - tauto.
  - exfalso. apply N. reflexivity.
Qed.

Lemma no_higher : forall b, lt_num Inf b = false.
Proof. destruct b; reflexivity. Qed.

Lemma eq_num_iff : forall a r, eq_num a (Fin r) = false <-> a <> Fin r.
Proof.
  intros a r. destruct a as [x| | |]; cbn [eq_num].
  - destruct (Req_EM_T x r) as [E|E].
    + subst. split; [discriminate | intros H; exfalso; apply H; reflexivity].
    + split; [intros _ H; apply E; congruence | reflexivity].
  - split; [discriminate | reflexivity].
  - split; [discriminate | reflexivity].
  - split; [discriminate | reflexivity].
Qed.

(** Point masses have equal ends. *)
Lemma fixed_point : forall d l, fixed d -> given d l -> low_end l = high_end l.
Proof.
  intros d l F G. destruct F as [s f|s f w]; cbn [given] in G;
  destruct G as (s0 & i & _ & _ & <-); reflexivity.
Qed.

Lemma accepted : forall p, (forall x, proper (p x)) ->
  (make_prior p = Ok p <-> forall x l, support_known (p x) -> given (p x) l -> allowed x (p x) l).
Proof.
  intros p PR. rewrite make_prior_iff. split.
  - intros (_ & H) x l K G a b E. rewrite Forall_forall in H.
    destruct (PR x l a b G E) as (Na & Nb). apply ends_iff in E. destruct E as (-> & ->).
    split; [|split].
    + intros I. specialize (H _ (entry_decay x I)). unfold entry_ok in H. cbn [fst snd] in H.
      rewrite validate_support_iff in H. destruct (H K l G) as (A & B & C). cbn [fst snd unit_interval] in *.
      split; [apply low_iff; assumption|]. split; [apply high_iff; assumption|].
      intros F. rewrite <- (fixed_point (p x) l F G). apply eq_num_iff. apply (proj2 (C F)). reflexivity.
    + intros I. specialize (H _ (entry_curve x I)). unfold entry_ok in H. cbn [fst snd] in H.
      rewrite validate_support_iff in H. destruct (H K l G) as (A & B & C). cbn [fst snd positive] in *.
      split; [apply low_iff; assumption|]. intros F. apply eq_num_iff. apply (proj1 (C F)). reflexivity.
    + intros I. specialize (H _ (entry_deviation x I)). unfold entry_ok in H. cbn [fst snd] in H.
      rewrite validate_support_iff in H. destruct (H K l G) as (A & B & C). cbn [fst snd positive] in *.
      apply low_iff; assumption.
  - intros H. split; [reflexivity|]. rewrite Forall_forall. intros [[x b] pr] I. unfold entry_ok. cbn [fst snd].
    apply validate_support_iff. intros K l G.
    pose proof (proj2 (ends_iff l (low_end l) (high_end l)) (conj eq_refl eq_refl)) as E.
    destruct (PR x l _ _ G E) as (Na & Nb).
    destruct (H x l K G _ _ E) as (HD & HC & HV).
    destruct (entry_cases x b pr I) as [(J & -> & ->)|[(J & -> & ->)|(J & -> & ->)]];
      unfold within; cbn [fst snd unit_interval positive].
    + destruct (HD J) as (A & B & C). split; [apply low_iff; assumption|]. split; [apply high_iff; assumption|].
      intros F. split; [discriminate|]. intros _. apply eq_num_iff. rewrite (fixed_point (p x) l F G). exact (C F).
    + destruct (HC J) as (A & C). split; [apply low_iff; assumption|]. split; [apply no_higher|].
      intros F. split; [|discriminate]. intros _. apply eq_num_iff. exact (C F).
    + specialize (HV J). split; [apply low_iff; assumption|]. split; [apply no_higher|].
      intros F. split; discriminate.
Qed.

(** * Broadcasting *)

Lemma batch_shape_err : forall d e, batch_shape d = Err e -> e = ValueError.
Proof.
  assert (B : forall a b e, broadcast_rev a b = Err e -> e = ValueError).
  { induction a as [|x a IH]; intros b e H; [destruct b; discriminate|].
    destruct b as [|y b]; [discriminate|]. cbn [broadcast_rev] in H.
    destruct (broadcast_rev a b) as [r|e'] eqn:E; cbn [rbind] in H.
    - destruct (x =? y), (x =? 1), (y =? 1); congruence.
    - assert (e = e') by congruence. subst. exact (IH b e' E). }
  induction d as [s f|s lo hi id|s q f|d IH w]; intros e H; try discriminate.
  cbn [batch_shape] in H. destruct (batch_shape d) as [s|e'] eqn:E; cbn [rbind] in H.
  - unfold broadcast_shape in H. destruct (broadcast_rev (rev s) (rev w)) as [r|e'] eqn:E'; cbn [rbind] in H; [discriminate|].
    assert (e = e') by congruence. subst. exact (B _ _ _ E').
  - assert (e = e') by congruence. subst. exact (IH e' eq_refl).
Qed.

Lemma broadcast_rev_same : forall s, broadcast_rev s s = Ok s.
Proof.
  induction s as [|x s IH]; [reflexivity|]. cbn [broadcast_rev]. rewrite IH. cbn [rbind]. rewrite Nat.eqb_refl. reflexivity.
Qed.

Lemma broadcast_nil : forall w, broadcast_shape [] w = Ok w.
Proof. intros w. unfold broadcast_shape. cbn [rev broadcast_rev rbind]. rewrite rev_involutive. reflexivity. Qed.

Lemma broadcast_same : forall w, broadcast_shape w w = Ok w.
Proof. intros w. unfold broadcast_shape. rewrite broadcast_rev_same. cbn [rbind]. rewrite rev_involutive. reflexivity. Qed.

Lemma bb_shape : forall d w, fits d w -> batch_shape (BatchBroadcast d w) = Ok w.
Proof.
  intros d w [H|H]; cbn [batch_shape].
  - unfold one_for_all in H. rewrite H. cbn [rbind]. apply broadcast_nil.
  - unfold one_each in H. rewrite H. cbn [rbind]. apply broadcast_same.
Qed.

Lemma source_nil : forall i, source [] i = [].
Proof. intros i. reflexivity. Qed.

Lemma source_same : forall s i, Forall2 lt i s -> source s i = i.
Proof.
  intros s i H. unfold source.
  assert (R : forall a b, Forall2 lt b a -> source_rev a b = b).
  { clear. intros a b H. induction H as [|j x b a Hj H IH]; [reflexivity|]. cbn [source_rev]. rewrite IH.
    destruct (x =? 1) eqn:E; [|reflexivity]. apply Nat.eqb_eq in E. f_equal. lia. }
  assert (F : Forall2 lt (rev i) (rev s)).
  { clear R. induction H as [|j x b a Hj H IH]; [constructor|]. cbn [rev]. apply Forall2_app; [exact IH|].
    constructor; [exact Hj | constructor]. }
  rewrite (R _ _ F). apply rev_involutive.
Qed.

Lemma bb_law_all : forall d w i, one_for_all d -> law_at (BatchBroadcast d w) i = law_at d [].
Proof. intros d w i H. cbn [law_at]. unfold one_for_all in H. rewrite H. reflexivity. Qed.

Lemma bb_law_each : forall d w i, one_each d w -> index_of w i -> law_at (BatchBroadcast d w) i = law_at d i.
Proof. intros d w i H I. cbn [law_at]. unfold one_each in H. rewrite H. rewrite (source_same w i I). reflexivity. Qed.

Lemma custom_iff : forall n d, at_most_vector d -> (validate_custom_prior n d = Ok tt <-> fits d [n]).
Proof.
  intros n d (s & E & L). unfold validate_custom_prior, fits, one_for_all, one_each. rewrite E. cbn [rbind].
  destruct s as [|k [|k' s]]; [| |cbn in L; lia].
  - split; [left; reflexivity | reflexivity].
  - split.
    + intros H. apply raise_if_ok_iff in H. destruct H as (H & _). apply negb_false_iff in H. apply Nat.eqb_eq in H.
      subst. right. reflexivity.
    + intros [H|H]; [discriminate|]. assert (k = n) by congruence. subst. rewrite Nat.eqb_refl. reflexivity.
Qed.

Lemma custom_err : forall n d e, validate_custom_prior n d = Err e -> e = ValueError.
Proof.
  intros n d e. unfold validate_custom_prior. destruct (batch_shape d) as [s|e'] eqn:E; cbn [rbind].
  - destruct s as [|k s]; [discriminate|]. destruct (negb (n =? k)); cbn [raise_if]; congruence.
  - intros H. assert (e = e') by congruence. subst. exact (batch_shape_err _ _ E).
Qed.

Lemma validate_all_iff : forall n p l,
  validate_all n p l = Ok tt <-> forall x, In x l -> validate_custom_prior n (p x) = Ok tt.
Proof.
  induction l as [|y l IH]; cbn [validate_all].
  - split; [intros _ x [] | reflexivity].
  - split.
    + intros H. destruct (validate_custom_prior n (p y)) as [[]|e] eqn:E; cbn [rbind] in H; [|discriminate].
      intros x [<-|I]; [exact E | exact (proj1 IH H x I)].
    + intros H. rewrite (H y (or_introl eq_refl)). cbn [rbind]. apply IH. intros x I. exact (H x (or_intror I)).
Qed.

Lemma validate_all_err : forall n p l e, validate_all n p l = Err e -> e = ValueError.
Proof.
  induction l as [|y l IH]; intros e; cbn [validate_all]; [discriminate|].
  destruct (validate_custom_prior n (p y)) as [[]|e'] eqn:E; cbn [rbind]; [apply IH|].
  intros H. assert (e = e') by congruence. subst. exact (custom_err _ _ _ E).
Qed.

Lemma hierarchical_err : forall z d e, hierarchical z d = Err e -> e = ValueError.
Proof.
  intros z d e. unfold hierarchical. destruct (z_national z); [|discriminate].
  destruct d as [s f|s lo hi id|s q f|d w]; cbn [convert_to_zero]; try discriminate.
  destruct (indices s) as [|i [|j r]]; congruence.
Qed.

(** The distribution that is broadcast for each parameter. *)
Definition chosen (z : sizes) (p : prior) (x : string) (d : dist) : Prop :=
  (In x between_geos -> hierarchical z (p x) = Ok d) /\
  (In x roi -> d = roi_converted z (p x)) /\
  (~ In x between_geos -> ~ In x roi -> d = p x).

Lemma sigma_documented : forall z s, documented_shape z "sigma" s -> s = sigma_shape z.
Proof.
  intros z s H. unfold sigma_shape. inversion H as [x n C E1 E2| | |A B E|A E].
  - exfalso. clear -C. inversion C as [x I|x I|x I|x I|x I|x I];
    cbv [of_media of_rf of_organic_media of_organic_rf of_controls of_non_media In] in I;
    repeat (destruct I as [I|I]; [discriminate|]); destruct I.
  - rewrite B. apply Nat.ltb_lt in A. rewrite A. reflexivity.
  - destruct A as [A|A].
    + apply Nat.ltb_ge in A. rewrite A. reflexivity.
    + rewrite A, andb_false_r. reflexivity.
Qed.

Ltac names H := cbv [of_media of_rf of_organic_media of_organic_rf of_controls of_non_media In] in H;
  repeat (destruct H as [H|H]; [subst|]); [.. | destruct H].

Ltac pick := eexists; split; [reflexivity|]; unfold chosen; split; [|split];
  cbv [between_geos roi In]; intros;
  repeat match goal with
  | H : _ \/ _ |- _ => destruct H as [H|H]; [try discriminate|]
  | H : False |- _ => destruct H
  end; try assumption; try reflexivity;
  try (exfalso; match goal with H : ~ _ |- _ => apply H; tauto end).

Lemma broadcast_inv : forall z p q, broadcast z p = Ok q ->
  make_prior q = Ok q /\
  (forall x n, channel_size z x n -> validate_custom_prior n (p x) = Ok tt) /\
  (forall x s, documented_shape z x s -> exists d, q x = BatchBroadcast d s /\ chosen z p x d).
Proof.
  intros z p q H. unfold broadcast in H.
  destruct (validate_all (z_media z) p _) as [[]|] eqn:V1; cbn [rbind] in H; [|discriminate].
  destruct (validate_all (z_om z) p _) as [[]|] eqn:V2; cbn [rbind] in H; [|discriminate].
  destruct (validate_all (z_orf z) p _) as [[]|] eqn:V3; cbn [rbind] in H; [|discriminate].
  destruct (validate_all (z_rf z) p _) as [[]|] eqn:V4; cbn [rbind] in H; [|discriminate].
  destruct (validate_all (z_controls z) p _) as [[]|] eqn:V5; cbn [rbind] in H; [|discriminate].
  destruct (validate_all (z_non_media z) p _) as [[]|] eqn:V6; cbn [rbind] in H; [|discriminate].
  destruct (hierarchical z (p "tau_g_excl_baseline")) as [d1|] eqn:H1; cbn [rbind] in H; [|discriminate].
  destruct (hierarchical z (p "eta_m")) as [d2|] eqn:H2; cbn [rbind] in H; [|discriminate].
  destruct (hierarchical z (p "eta_rf")) as [d3|] eqn:H3; cbn [rbind] in H; [|discriminate].
  destruct (hierarchical z (p "eta_om")) as [d4|] eqn:H4; cbn [rbind] in H; [|discriminate].
  destruct (hierarchical z (p "eta_orf")) as [d5|] eqn:H5; cbn [rbind] in H; [|discriminate].
  destruct (hierarchical z (p "xi_c")) as [d6|] eqn:H6; cbn [rbind] in H; [|discriminate].
  destruct (hierarchical z (p "xi_n")) as [d7|] eqn:H7; cbn [rbind] in H; [|discriminate].
  cbn zeta in H. pose proof (proj1 (proj1 (make_prior_iff _ _) H)) as EQ.
  split; [rewrite EQ at 1; exact H|]. split.
  - intros x n C. destruct C as [x I|x I|x I|x I|x I|x I].
    + apply (proj1 (validate_all_iff _ _ _) V1). clear -I. cbv [of_media In] in *. tauto.
    + apply (proj1 (validate_all_iff _ _ _) V4). clear -I. cbv [of_rf In] in *. tauto.
    + apply (proj1 (validate_all_iff _ _ _) V2). clear -I. cbv [of_organic_media In] in *. tauto.
    + apply (proj1 (validate_all_iff _ _ _) V3). clear -I. cbv [of_organic_rf In] in *. tauto.
    + apply (proj1 (validate_all_iff _ _ _) V5). clear -I. cbv [of_controls In] in *. tauto.
    + apply (proj1 (validate_all_iff _ _ _) V6). clear -I. cbv [of_non_media In] in *. tauto.
  - clear V1 V2 V3 V4 V5 V6 H. rewrite EQ. clear EQ.
    intros x s D. destruct D as [x n C| | |A B|A].
    + destruct C as [x I|x I|x I|x I|x I|x I]; names I; pick.
    + pick.
    + pick.
    + pose proof (sigma_documented z [z_geos z] (DS_sigma_geo z A B)) as E. rewrite E. pick.
    + pose proof (sigma_documented z [] (DS_sigma z A)) as E. rewrite E. pick.
Qed.

Lemma between_shape : forall z x s, In x between_geos -> documented_shape z x s -> exists k, s = [k].
Proof.
  intros z x s I D. destruct D as [x n C| | |A B|A]; try (eexists; reflexivity).
  cbv [between_geos In] in I. repeat (destruct I as [I|I]; [discriminate|]). destruct I.
Qed.

Lemma roi_shape : forall z x s, In x roi -> documented_shape z x s -> exists k, s = [k].
Proof.
  intros z x s I D. destruct D as [x n C| | |A B|A]; try (eexists; reflexivity).
  cbv [roi In] in I. repeat (destruct I as [I|I]; [discriminate|]). destruct I.
Qed.

Lemma roi_not_between : forall x, In x roi -> ~ In x between_geos.
Proof.
  intros x I J. cbv [roi In] in I. cbv [between_geos In] in J.
  destruct I as [<-|[<-|[]]]; repeat (destruct J as [J|J]; [discriminate|]); destruct J.
Qed.

Lemma converted : forall d d', convert_to_zero d = Ok d' ->
  d' = Deterministic [] (fun _ => Fin 0) \/
  (exists s f i, d = Deterministic s f /\ d' = d /\ indices s = [i] /\ f i = Fin 0).
Proof.
  intros d d' H. destruct d as [s f|s lo hi id|s q f|d w]; cbn [convert_to_zero] in H; try (left; congruence).
  destruct (indices s) as [|i [|j r]] eqn:E; try discriminate.
  destruct (eq_num (f i) (Fin 0)) eqn:Q; [|left; congruence].
  right. exists s, f, i. split; [reflexivity|]. split; [congruence|]. split; [exact E|].
  destruct (f i) as [y| | |]; cbn [eq_num] in Q; try discriminate.
  destruct (Req_EM_T y 0); [subst; reflexivity | discriminate].
Qed.

Lemma zero_all : one_for_all (Deterministic [] (fun _ => Fin 0)).
Proof. reflexivity. Qed.

(** The law of every element of a parameter whose prior fits. *)
Lemma broadcast_law : forall z p q x s, broadcast z p = Ok q -> documented_shape z x s -> fits (p x) s ->
  batch_shape (q x) = Ok s /\ (forall i, index_of s i -> intended z p x i (law_at (q x) i)).
Proof.
  intros z p q x s B D F.
  destruct (broadcast_inv z p q B) as (_ & _ & T).
  destruct (T x s D) as (d & Q & (C1 & C2 & C3)). rewrite Q. clear T B Q.
  destruct (in_dec string_dec x between_geos) as [I|NI].
  - specialize (C1 I). unfold hierarchical in C1. destruct (z_national z) eqn:N.
    + destruct (converted _ _ C1) as [->|(s0 & f & i0 & E & -> & E0 & Z)].
      * split; [apply bb_shape; left; reflexivity|]. intros i Hi.
        rewrite (bb_law_all _ _ _ zero_all). apply I_national; assumption.
      * split; [apply bb_shape; exact F|]. intros i Hi. rewrite E in *.
        destruct F as [F|F].
        -- rewrite (bb_law_all _ _ _ F). cbn [law_at]. unfold one_for_all in F. cbn [batch_shape] in F.
           assert (s0 = []) by congruence. subst. cbn in E0. assert (i0 = []) by congruence. subst. rewrite Z.
           apply I_national; assumption.
        -- rewrite (bb_law_each _ _ _ F Hi). cbn [law_at]. unfold one_each in F. cbn [batch_shape] in F.
           assert (s0 = s) by congruence. subst. apply indices_iff in Hi. rewrite E0 in Hi. destruct Hi as [Hi|[]].
           subst. rewrite Z. apply I_national; assumption.
    + assert (d = p x) by congruence. subst. split; [apply bb_shape; exact F|]. intros i Hi.
      assert (NN : ~ (z_national z = true /\ In x between_geos)) by (intros (A & _); congruence).
      assert (NT : ~ (z_total_prior z = true /\ In x roi)) by (intros (_ & A); exact (roi_not_between x A I)).
      destruct (batch_shape (p x)) as [[|k s0]|] eqn:E.
      * rewrite (bb_law_all _ _ _ E). apply I_all; assumption.
      * destruct F as [F|F]; [unfold one_for_all in F; congruence|].
        rewrite (bb_law_each _ _ _ F Hi). apply I_each; try assumption. unfold one_for_all. congruence.
      * destruct F as [F|F]; unfold one_for_all, one_each in F; congruence.
  - assert (NN : ~ (z_national z = true /\ In x between_geos)) by (intros (_ & A); exact (NI A)).
    destruct (in_dec string_dec x roi) as [J|NJ].
    + specialize (C2 J). subst. unfold roi_converted. destruct (z_total_prior z) eqn:P.
      * split; [apply bb_shape; left; reflexivity|]. intros i Hi. rewrite bb_law_all by reflexivity.
        cbn [law_at]. apply I_total; assumption.
      * split; [apply bb_shape; exact F|]. intros i Hi.
        assert (NT : ~ (z_total_prior z = true /\ In x roi)) by (intros (A & _); congruence).
        destruct (batch_shape (p x)) as [[|k s0]|] eqn:E.
        -- rewrite (bb_law_all _ _ _ E). apply I_all; assumption.
        -- destruct F as [F|F]; [unfold one_for_all in F; congruence|].
           rewrite (bb_law_each _ _ _ F Hi). apply I_each; try assumption. unfold one_for_all. congruence.
        -- destruct F as [F|F]; unfold one_for_all, one_each in F; congruence.
    + specialize (C3 NI NJ). subst. split; [apply bb_shape; exact F|]. intros i Hi.
      assert (NT : ~ (z_total_prior z = true /\ In x roi)) by (intros (_ & A); exact (NJ A)).
      destruct (batch_shape (p x)) as [[|k s0]|] eqn:E.
      * rewrite (bb_law_all _ _ _ E). apply I_all; assumption.
      * destruct F as [F|F]; [unfold one_for_all in F; congruence|].
        rewrite (bb_law_each _ _ _ F Hi). apply I_each; try assumption. unfold one_for_all. congruence.
      * destruct F as [F|F]; unfold one_for_all, one_each in F; congruence.
Qed.

(** * When broadcasting succeeds *)

Lemma broadcast_err : forall z p e, broadcast z p = Err e -> e = ValueError.
Proof.
  intros z p e H. unfold broadcast in H.
  repeat match type of H with
  | rbind (validate_all ?n ?p ?l) _ = _ =>
      let E := fresh in destruct (validate_all n p l) as [[]|e0] eqn:E; cbn [rbind] in H;
      [|assert (e = e0) by congruence; subst; exact (validate_all_err _ _ _ _ E)]
  | rbind (hierarchical ?z ?d) _ = _ =>
      let E := fresh in destruct (hierarchical z d) as [?|e0] eqn:E; cbn [rbind] in H;
      [|assert (e = e0) by congruence; subst; exact (hierarchical_err _ _ _ E)]
  end.
  exact (make_prior_err _ _ H).
Qed.

Lemma bb_ok : forall d w b pr, validate_support d b pr = Ok tt -> validate_support (BatchBroadcast d w) b pr = Ok tt.
Proof.
  intros d w b pr H. rewrite validate_support_iff in *. intros K l G. cbn [given] in G.
  assert (FF : fixed (BatchBroadcast d w) -> fixed d) by (intros F; inversion F; constructor).
  assert (K' : support_known d) by (destruct K as [F|Q]; [left; exact (FF F) | right; exact Q]).
  destruct (H K' l G) as (A & B & C). exact (conj A (conj B (fun F => C (FF F)))).
Qed.

Lemma zero_ok : forall w, validate_support (BatchBroadcast (Deterministic [] (fun _ => Fin 0)) w) positive (false, false) = Ok tt.
Proof.
  intros w. apply validate_support_iff. intros _ l (s & i & E & I & <-).
  unfold within. cbn [fst snd law_at low_end high_end positive lt_num].
  split; [destruct (Rlt_dec 0 0); [lra | reflexivity]|]. split; [reflexivity|]. intros _. split; discriminate.
Qed.

Lemma hier_ok : forall z d d' w, validate_support d positive (false, false) = Ok tt -> hierarchical z d = Ok d' ->
  validate_support (BatchBroadcast d' w) positive (false, false) = Ok tt.
Proof.
  intros z d d' w H E. unfold hierarchical in E. destruct (z_national z).
  - destruct (converted _ _ E) as [->|(s & f & i & -> & -> & _)]; [apply zero_ok | apply bb_ok; exact H].
  - assert (d' = d) by congruence. subst. apply bb_ok. exact H.
Qed.

Lemma hier_exists : forall z d,
  (exists d', hierarchical z d = Ok d') <-> (z_national z = true -> forall s f, d = Deterministic s f -> single s).
Proof.
  intros z d. unfold hierarchical. destruct (z_national z); [|split; [discriminate | intros _; eexists; reflexivity]].
  destruct d as [s f|s lo hi id|s q f|d w]; cbn [convert_to_zero];
    try (split; [intros _ _ ? ? E; discriminate E | intros _; eexists; reflexivity]).
  split.
  - intros (d' & H) _ s0 f0 E. injection E as <- <-. destruct (indices s) as [|i [|j r]] eqn:I; try discriminate.
    exact (indices_single s i I).
  - intros H. specialize (H eq_refl s f eq_refl). rewrite (indices_ones s H). eexists. reflexivity.
Qed.

Lemma broadcast_iff : forall z p, make_prior p = Ok p ->
  ((exists q, broadcast z p = Ok q) <->
   (forall x n, channel_size z x n -> validate_custom_prior n (p x) = Ok tt) /\
   (z_national z = true -> forall x s f, In x between_geos -> p x = Deterministic s f -> single s)).
Proof.
  intros z p MP. split.
  - intros (q & B). destruct (broadcast_inv z p q B) as (_ & C & T). split.
    + exact C.
    + intros N x s f I E.
      assert (D : exists sh, documented_shape z x sh).
      { cbv [between_geos In] in I. destruct I as [<-|I]; [eexists; apply DS_tau|].
        repeat (destruct I as [<-|I];
          [eexists; apply DS_channel;
           first [apply CS_media; cbv; tauto | apply CS_rf; cbv; tauto | apply CS_om; cbv; tauto
                 | apply CS_orf; cbv; tauto | apply CS_controls; cbv; tauto | apply CS_non_media; cbv; tauto]|]).
        destruct I. }
      destruct D as (sh & D). destruct (T x sh D) as (d & _ & (C1 & _)).
      exact (proj1 (hier_exists z (p x)) (ex_intro _ d (C1 I)) N s f E).
  - intros (VA & S).
    assert (HI : forall x, In x between_geos -> exists d, hierarchical z (p x) = Ok d)
      by (intros x I; apply hier_exists; intros N s f E; exact (S N x s f I E)).
    unfold broadcast.
    rewrite (proj2 (validate_all_iff _ _ _)) by (intros x I; apply VA; apply CS_media; clear -I; cbv [of_media In] in *; tauto).
    cbn [rbind].
    rewrite (proj2 (validate_all_iff _ _ _)) by (intros x I; apply VA; apply CS_om; clear -I; cbv [of_organic_media In] in *; tauto).
    cbn [rbind].
    rewrite (proj2 (validate_all_iff _ _ _)) by (intros x I; apply VA; apply CS_orf; clear -I; cbv [of_organic_rf In] in *; tauto).
    cbn [rbind].
    rewrite (proj2 (validate_all_iff _ _ _)) by (intros x I; apply VA; apply CS_rf; clear -I; cbv [of_rf In] in *; tauto).
    cbn [rbind].
    rewrite (proj2 (validate_all_iff _ _ _)) by (intros x I; apply VA; apply CS_controls; clear -I; cbv [of_controls In] in *; tauto).
    cbn [rbind].
    rewrite (proj2 (validate_all_iff _ _ _)) by (intros x I; apply VA; apply CS_non_media; clear -I; cbv [of_non_media In] in *; tauto).
    cbn [rbind].
    destruct (HI "tau_g_excl_baseline" ltac:(cbv; tauto)) as (d1 & E1). rewrite E1. cbn [rbind].
    destruct (HI "eta_m" ltac:(cbv; tauto)) as (d2 & E2). rewrite E2. cbn [rbind].
    destruct (HI "eta_rf" ltac:(cbv; tauto)) as (d3 & E3). rewrite E3. cbn [rbind].
    destruct (HI "eta_om" ltac:(cbv; tauto)) as (d4 & E4). rewrite E4. cbn [rbind].
    destruct (HI "eta_orf" ltac:(cbv; tauto)) as (d5 & E5). rewrite E5. cbn [rbind].
    destruct (HI "xi_c" ltac:(cbv; tauto)) as (d6 & E6). rewrite E6. cbn [rbind].
    destruct (HI "xi_n" ltac:(cbv; tauto)) as (d7 & E7). rewrite E7. cbn [rbind].
    cbn zeta. eexists. apply make_prior_iff. split; [reflexivity|].
    pose proof (proj2 (proj1 (make_prior_iff _ _) MP)) as OK. clear -OK E2 E3 E4 E5 E6 E7.
    unfold parameter_space in *.
    repeat (apply Forall_cons_iff in OK; let A := fresh "A" in destruct OK as [A OK]; constructor;
      [unfold entry_ok in *; cbn [fst snd] in *;
       match goal with |- validate_support ?d _ _ = _ => let d' := eval cbn in d in idtac end;
       cbn [find String.eqb Ascii.eqb Bool.eqb];
       first [ exact (bb_ok _ _ _ _ A) | exact (hier_ok _ _ _ _ A E2) | exact (hier_ok _ _ _ _ A E3)
             | exact (hier_ok _ _ _ _ A E4) | exact (hier_ok _ _ _ _ A E5) | exact (hier_ok _ _ _ _ A E6)
             | exact (hier_ok _ _ _ _ A E7) ]|]).
    constructor.
Qed.

Lemma broadcast_exact : forall z p, make_prior p = Ok p ->
  (forall x n, channel_size z x n -> at_most_vector (p x)) ->
  ((exists q, broadcast z p = Ok q) <->
   (forall x n, channel_size z x n -> fits (p x) [n]) /\
   (z_national z = true -> forall x s f, In x between_geos -> p x = Deterministic s f -> single s)).
Proof.
  intros z p MP V. rewrite (broadcast_iff z p MP). split; intros (F & S); (split; [|exact S]); intros x n C.
  - apply custom_iff; [exact (V x n C) | exact (F x n C)].
  - apply custom_iff; [exact (V x n C) | exact (F x n C)].
Qed.

(** * Broadcasting twice *)

Lemma channel_documented : forall z x n, channel_size z x n -> documented_shape z x [n].
Proof. intros z x n C. apply DS_channel. exact C. Qed.

Lemma broadcast_again : forall z p q, broadcast z p = Ok q ->
  (forall x s, documented_shape z x s -> fits (p x) s) ->
  exists q', broadcast z q = Ok q' /\
    forall x s, documented_shape z x s ->
      batch_shape (q' x) = Ok s /\ batch_shape (q x) = Ok s /\
      forall i, index_of s i -> law_at (q' x) i = law_at (q x) i.
Proof.
  intros z p q B F.
  destruct (broadcast_inv z p q B) as (MQ & _ & T).
  assert (SH : forall x s, documented_shape z x s -> batch_shape (q x) = Ok s)
    by (intros x s D; exact (proj1 (broadcast_law z p q x s B D (F x s D)))).
  assert (EX : exists q', broadcast z q = Ok q').
  { apply broadcast_exact; [exact MQ| |].
    - intros x n C. exists [n]. split; [exact (SH x [n] (DS_channel z x n C)) | cbn; lia].
    - split.
      + intros x n C. right. exact (SH x [n] (DS_channel z x n C)).
      + intros N x s f I E. exfalso.
        assert (D : exists sh, documented_shape z x sh).
        { cbv [between_geos In] in I. destruct I as [<-|I]; [eexists; apply DS_tau|].
          repeat (destruct I as [<-|I];
            [eexists; apply DS_channel;
             first [apply CS_media; cbv; tauto | apply CS_rf; cbv; tauto | apply CS_om; cbv; tauto
                   | apply CS_orf; cbv; tauto | apply CS_controls; cbv; tauto | apply CS_non_media; cbv; tauto]|]).
          destruct I. }
        destruct D as (sh & D). destruct (T x sh D) as (d & Q & _). congruence. }
  destruct EX as (q' & B'). exists q'. split; [exact B'|]. intros x s D.
  assert (FQ : fits (q x) s) by (right; exact (SH x s D)).
  destruct (broadcast_law z q q' x s B' D FQ) as (S' & L').
  destruct (broadcast_law z p q x s B D (F x s D)) as (S & L).
  split; [exact S'|]. split; [exact S|]. intros i I.
  specialize (L i I). specialize (L' i I).
  inversion L' as [N' J' E'|P' J' E'|A' B0' C' E'|A' B0' C' E'].
  - inversion L as [N J E|P J E|A B0 C E|A B0 C E]; try reflexivity.
    + exfalso. exact (roi_not_between x J J').
    + exfalso. apply A. split; assumption.
    + exfalso. apply A. split; assumption.
  - inversion L as [N J E|P J E|A B0 C E|A B0 C E]; try reflexivity.
    + exfalso. exact (roi_not_between x J' J).
    + exfalso. apply B0. split; assumption.
    + exfalso. apply B0. split; assumption.
  - unfold one_for_all in C'. assert (s = []) by congruence. subst. inversion I. reflexivity.
  - reflexivity.
Qed.

(** * Fixed parameters *)

Lemma deterministic_param : forall z p q x s, broadcast z p = Ok q -> documented_shape z x s ->
  has_deterministic_param q x = Ok true \/ has_deterministic_param q x = Ok false.
Proof.
  intros z p q x s B D. destruct (broadcast_inv z p q B) as (_ & _ & T).
  destruct (T x s D) as (d & Q & _). unfold has_deterministic_param. rewrite Q. destruct (is_deterministic d); auto.
Qed.

Lemma deterministic_param_iff : forall z p q x s, broadcast z p = Ok q -> documented_shape z x s ->
  (has_deterministic_param q x = Ok true <->
   (z_national z = true /\ In x between_geos) \/
   (~ (z_total_prior z = true /\ In x roi) /\ exists s f, p x = Deterministic s f)).
Proof.
  intros z p q x s B D. destruct (broadcast_inv z p q B) as (_ & _ & T).
  destruct (T x s D) as (d & Q & (C1 & C2 & C3)). unfold has_deterministic_param. rewrite Q.
  assert (DET : forall d, is_deterministic d = true <-> exists s f, d = Deterministic s f).
  { intros d0. split; [destruct d0; try discriminate; intros _; eauto | intros (s0 & f & ->); reflexivity]. }
  assert (OKB : forall b : bool, @Ok bool b = Ok true <-> b = true) by (intros b; split; congruence).
  rewrite OKB. clear Q T B.
  destruct (in_dec string_dec x between_geos) as [I|NI].
  - specialize (C1 I). assert (NT : ~ (z_total_prior z = true /\ In x roi)) by (intros (_ & A); exact (roi_not_between x A I)).
    unfold hierarchical in C1. destruct (z_national z).
    + split; [intros _; left; auto|]. intros _.
      destruct (converted _ _ C1) as [->|(s0 & f & i0 & E & -> & _)]; [reflexivity | rewrite E; reflexivity].
    + assert (d = p x) by congruence. subst. rewrite DET. split; [intros H; right; auto|].
      intros [(A & _)|(_ & A)]; [discriminate | exact A].
  - destruct (in_dec string_dec x roi) as [J|NJ].
    + specialize (C2 J). subst. unfold roi_converted. destruct (z_total_prior z).
      * split; [discriminate|]. intros [(_ & A)|(A & _)]; [contradiction | exfalso; apply A; auto].
      * rewrite DET. split; [intros H; right; split; [intros (A & _); discriminate | exact H]|].
        intros [(_ & A)|(_ & A)]; [contradiction | exact A].
    + specialize (C3 NI NJ). subst. rewrite DET. split; [intros H; right; split; [intros (_ & A); contradiction | exact H]|].
      intros [(_ & A)|(_ & A)]; [contradiction | exact A].
Qed.

Lemma slope_warning_iff : forall d,
  slope_warning d = false <-> (exists s f, d = Deterministic s f) /\ (forall l, given d l -> l = Point (Fin 1)).
Proof.
  intros d. unfold slope_warning.
  destruct d as [s f|s lo hi id|s q f|d w]; try (split; [discriminate | intros ((s0 & f0 & E) & _); discriminate E]).
  rewrite existsb_false. split.
  - intros H. split; [eauto|]. intros l G. specialize (H l (proj2 (given_iff _ l) G)). apply negb_false_iff in H.
    destruct G as (s0 & i & _ & _ & <-). cbn [law_at low_end] in *.
    destruct (f i) as [y| | |]; cbn [eq_num] in H; try discriminate.
    destruct (Req_EM_T y 1); [subst; reflexivity | discriminate].
  - intros (_ & H) l G. rewrite (H l (proj1 (given_iff _ l) G)). cbn [low_end eq_num].
    destruct (Req_EM_T 1 1); [reflexivity | lra].
Qed.

(** * The default priors *)

Lemma defaults_ok : make_prior defaults = Ok defaults.
Proof.
  apply make_prior_iff. split; [reflexivity|]. unfold parameter_space.
  assert (P : forall a b id, at_least 0 a -> number a -> validate_support (Family [] true (fun _ => Range a b id)) positive (false, false) = Ok tt).
  { intros a b id A N. apply validate_support_iff. intros _ l (s & i & E & I & <-).
    unfold within. cbn [fst snd law_at low_end high_end positive].
    split; [apply low_iff; assumption|]. split; [apply no_higher|]. intros F. inversion F. }
  assert (P' : forall a b id pr, at_least 0 a -> number a -> validate_support (Family [] true (fun _ => Range a b id)) positive pr = Ok tt).
  { intros a b id pr A N. apply validate_support_iff. intros _ l (s & i & E & I & <-).
    unfold within. cbn [fst snd law_at low_end high_end positive].
    split; [apply low_iff; assumption|]. split; [apply no_higher|]. intros F. inversion F. }
  assert (U : forall id pr, validate_support (Family [] true (fun _ => Range (Fin 0) (Fin 1) id)) unit_interval pr = Ok tt).
  { intros id pr. apply validate_support_iff. intros _ l (s & i & E & I & <-).
    unfold within. cbn [fst snd law_at low_end high_end unit_interval].
    split; [apply low_iff; [intros X; discriminate | cbn; lra]|].
    split; [apply high_iff; [intros X; discriminate | cbn; lra]|]. intros F. inversion F. }
  assert (T : forall a b id pr, (0 <= a)%R -> validate_support (truncated a b id) positive pr = Ok tt).
  { intros a b id pr A. apply validate_support_iff. intros _ l (s & i & E & I & <-).
    unfold within. cbn [fst snd law_at low_end high_end positive truncated].
    split; [apply low_iff; [intros X; discriminate | exact A]|].
    split; [apply no_higher|]. intros F. inversion F. }
  assert (L : forall mu sg pr, validate_support (ln_dist mu sg) positive pr = Ok tt).
  { intros mu sg pr. apply validate_support_iff. intros _ l (s & i & E & I & <-).
    unfold within. cbn [fst snd law_at low_end high_end positive ln_dist].
    split; [apply low_iff; [intros X; discriminate | cbn; lra]|].
    split; [apply no_higher|]. intros F. inversion F. }
  assert (O : validate_support (Deterministic [] (fun _ => Fin 1)) positive (true, false) = Ok tt).
  { apply validate_support_iff. intros _ l (s & i & E & I & <-).
    unfold within. cbn [fst snd law_at low_end high_end positive].
    split; [apply low_iff; [intros X; discriminate | cbn; lra]|].
    split; [apply no_higher|]. intros F. split; [|discriminate]. intros _. apply eq_num_iff. intros X. injection X. lra. }
  repeat constructor; unfold entry_ok; cbn [fst snd];
    first [ exact (U _ _) | apply L | exact O | apply T; lra | apply P'; [cbn; lra | intros X; discriminate] ].
Qed.

Lemma defaults_scalar : forall x, one_for_all (defaults x).
Proof.
  intros x. unfold defaults, one_for_all. cbn [find].
  repeat match goal with |- context [String.eqb ?a x] => destruct (String.eqb a x); [reflexivity|] end. reflexivity.
Qed.

Lemma defaults_broadcast : forall z, exists q, broadcast z defaults = Ok q.
Proof.
  intros z. apply broadcast_exact; [exact defaults_ok| |].
  - intros x n _. exists []. split; [apply defaults_scalar | cbn; lia].
  - split.
    + intros x n _. left. apply defaults_scalar.
    + intros _ x s f _ E. pose proof (defaults_scalar x) as D. rewrite E in D. unfold one_for_all in D. cbn in D.
      assert (s = []) by congruence. subst. constructor.
Qed.

(** One prior replaced. *)
Definition replace_prior (p : prior) (x : string) (d : dist) : prior := fun y => if String.eqb y x then d else p y.

Lemma replace_ok : forall p x d, make_prior p = Ok p ->
  (forall b pr, In (x, b, pr) parameter_space -> validate_support d b pr = Ok tt) ->
  make_prior (replace_prior p x d) = Ok (replace_prior p x d).
Proof.
  intros p x d MP H. apply make_prior_iff. split; [reflexivity|].
  pose proof (proj2 (proj1 (make_prior_iff _ _) MP)) as OK. rewrite Forall_forall in *.
  intros [[y b] pr] I. specialize (OK _ I). unfold entry_ok in *. cbn [fst snd] in *.
  unfold replace_prior. destruct (String.eqb y x) eqn:E; [|exact OK].
  apply String.eqb_eq in E. subst. exact (H b pr I).
Qed.

Lemma replace_same : forall p x d, replace_prior p x d x = d.
Proof. intros p x d. unfold replace_prior. rewrite String.eqb_refl. reflexivity. Qed.

Lemma replace_broadcast : forall z x d,
  (forall b pr, In (x, b, pr) parameter_space -> validate_support d b pr = Ok tt) ->
  (forall n, channel_size z x n -> validate_custom_prior n d = Ok tt) ->
  (z_national z = true -> In x between_geos -> forall s f, d = Deterministic s f -> single s) ->
  exists q, broadcast z (replace_prior defaults x d) = Ok q.
Proof.
  intros z x d H C N. apply broadcast_iff; [apply replace_ok; [exact defaults_ok | exact H]|]. split.
  - intros y n S. unfold replace_prior. destruct (String.eqb y x) eqn:E.
    + apply String.eqb_eq in E. subst. exact (C n S).
    + unfold validate_custom_prior. pose proof (defaults_scalar y) as D. unfold one_for_all in D. rewrite D. reflexivity.
  - intros Z y s f I. unfold replace_prior. destruct (String.eqb y x) eqn:E.
    + apply String.eqb_eq in E. subst. intros W. exact (N Z I s f W).
    + intros W. pose proof (defaults_scalar y) as D. unfold one_for_all in D. rewrite W in D. cbn in D.
      assert (s = []) by congruence. subst. constructor.
Qed.
