(** Which histories of setter calls are accepted, and the state they lead to. *)
From Coq Require Import ZArith Lia List Bool Permutation Sorted.
From Verif Require Import M_Base M_Time S_Time P_Time Lib_Sort M_Builder S_Builder P_Builder.
Import ListNotations.
Local Open Scope nat_scope.
Local Open Scope list_scope.

Section Builder.
Context {G T C V : Type}.
Variables (geq : forall a b : G, {a = b} + {a <> b}) (teq : forall a b : T, {a = b} + {a <> b})
  (ceq : forall a b : C, {a = b} + {a <> b})
  (tle : T -> T -> bool) (gle : G -> G -> bool) (parse : T -> option date) (national : G) (one : V).
Hypothesis tle_order : strict_order tle.
Notation da := (da G T C V).
Notation state := (state G T C V).
Notation set_component := (set_component geq teq ceq tle parse national).
Notation run := (run geq teq ceq tle parse national).
Notation coordinates_ok := (coordinates_ok tle parse).
Notation lagged_ok := (lagged_ok teq tle).
Notation fine := (fine (C := C) (V := V) tle parse national).
Notation compatible := (compatible (C := C) (V := V) tle national).
Notation last_part := (last_part tle).
Notation norm := (norm (T := T) (C := C) (V := V) national).

Lemma tle_total : forall a b, tle a b = true \/ tle b a = true. Proof. apply tle_order. Qed.
Lemma tle_trans : forall a b c, tle a b = true -> tle b c = true -> tle a c = true. Proof. apply tle_order. Qed.
Lemma tle_anti : forall a b, tle a b = true -> tle b a = true -> a = b. Proof. apply tle_order. Qed.
Lemma tsort_perm : forall l m, Permutation l m -> isort tle l = isort tle m.
Proof. intros l m P. apply isort_unique; [exact tle_total|exact tle_trans| |exact P]. intros. apply tle_anti; auto. Qed.
Lemma tsort_fixed : forall l m, Permutation l m -> le_sorted tle m -> isort tle l = m.
Proof.
  intros l m P S. apply (sorted_unique tle); auto.
  - intros. apply tle_anti; auto.
  - apply isort_sorted; [exact tle_total|exact tle_trans].
  - transitivity l; [apply Permutation_sym, isort_perm|exact P].
Qed.
Lemma last_part_perm : forall t t' m m', Permutation t t' -> Permutation m m' -> last_part t m -> last_part t' m'.
Proof. intros t t' m m' Pt Pm (pre & E). exists pre. rewrite <- (tsort_perm _ _ Pt), <- (tsort_perm _ _ Pm). exact E. Qed.

Lemma lag_iff : forall t m, NoDup t -> NoDup m ->
  (subset teq t m = true /\ lagged_ok m t = true <-> last_part t m).
Proof.
  intros t m Nt Nm. split.
  - intros [S L]. destruct (lagged_suffix teq tle t m Nt Nm S L) as (pre & rest & E & P & _).
    exists pre. rewrite E. f_equal. symmetry. apply tsort_fixed; [exact P|].
    apply (sorted_app tle pre). rewrite <- E. apply isort_sorted; [exact tle_total|exact tle_trans].
  - intros (pre & E). assert (Nd : NoDup (pre ++ isort tle t)) by (rewrite <- E; apply isort_nodup; exact Nm).
    assert (All : forall a, In a m <-> In a pre \/ In a t).
    { intros a. rewrite <- (isort_in tle m), E, in_app_iff, isort_in. reflexivity. }
    split; [apply subset_iff; intros a Ha; apply All; right; exact Ha|].
    assert (Disj : forall a, In a pre -> ~ In a t).
    { intros a Ha Ht. apply (isort_in tle) in Ht. clear -Nd Ha Ht. induction pre as [|b pre IH]; [contradiction|].
      cbn in Nd. inversion Nd; subst. destruct Ha as [<-|Ha]; [apply H1; apply in_app_iff; right; exact Ht|auto]. }
    assert (Np : NoDup pre).
    { clear -Nd. induction pre as [|b pre IH]; [constructor|]. cbn in Nd. inversion Nd; subst. constructor; [|auto].
      intros K. apply H1. apply in_app_iff. left. exact K. }
    assert (Fp : isort tle (filter (fun a => negb (mem teq a t)) m) = pre).
    { apply tsort_fixed.
      - apply NoDup_Permutation; [apply NoDup_filter; exact Nm|exact Np|]. intros a.
        rewrite filter_In, negb_true_iff, mem_false. specialize (All a). specialize (Disj a). tauto.
      - assert (S : le_sorted tle (pre ++ isort tle t)) by (rewrite <- E; apply isort_sorted; [exact tle_total|exact tle_trans]).
        clear -S. induction pre as [|b pre IH]; [constructor|]. cbn in S. inversion S as [|? ? S1 S2]; subst. constructor; [apply IH; exact S1|].
        rewrite Forall_forall in S2. apply Forall_forall. intros a Ha. apply S2. apply in_app_iff. left. exact Ha. }
    unfold M_Builder.lagged_ok. cbv zeta. rewrite Fp, E.
    rewrite firstn_app, firstn_all, Nat.sub_diag, firstn_O, app_nil_r.
    destruct (list_eq_dec teq pre pre); congruence.
Qed.

Lemma coordinates_iff : forall l, coordinates_ok l = true <-> regular tle parse l.
Proof.
  intros l. unfold M_Builder.coordinates_ok, regular. destruct (time_coordinates (dates_of parse (isort tle l))) as [ds|e].
  - split; [intros H; exists ds; auto|intros (d & E & H)]. congruence.
  - split; [discriminate|intros (d & E & _); discriminate].
Qed.

Lemma compatible_sym : forall a b, compatible a b -> compatible b a.
Proof.
  intros [c x] [c' y] (N & P & Gs & Ts). split; [auto|].
  split; [intros H; symmetry; apply P; clear - H; destruct c, c'; cbn in *; intuition congruence|].
  split; [intros g; symmetry; apply Gs|].
  destruct (dim_of c), (dim_of c'); auto; intros t; symmetry; apply Ts.
Qed.

(** The state reached by accepted calls. *)
Record reached (h : list (component * da)) (s : state) : Prop := {
  re_set : forall c x, In (c, x) h -> st_array s c = Some (norm x);
  re_unset : forall c, (forall x, ~ In (c, x) h) -> st_array s c = None;
  re_geos : (h = [] /\ st_geos s = None) \/ exists c x, In (c, x) h /\ st_geos s = Some (geo_labels national x);
  re_times : ((forall c x, In (c, x) h -> dim_of c <> WithTime) /\ st_times s = None) \/
             exists c x, In (c, x) h /\ dim_of c = WithTime /\ st_times s = Some (d_times x);
  re_media : ((forall c x, In (c, x) h -> dim_of c <> WithMediaTime) /\ st_media_times s = None) \/
             exists c x, In (c, x) h /\ dim_of c = WithMediaTime /\ st_media_times s = Some (d_times x);
  re_fine : Forall fine h;
  re_pairs : ForallOrdPairs compatible h
}.
Lemma reached_init : reached [] init.
Proof. constructor; cbn; intros; auto; try contradiction; try (left; split; [intros; contradiction|reflexivity]); constructor. Qed.

Lemma named_labels : forall x : da, named national x = geo_labels national x.
Proof. reflexivity. Qed.

Lemma pairs_in : forall h a b, ForallOrdPairs compatible h -> In a h -> In b h -> a = b \/ compatible a b.
Proof.
  intros h a b H. induction H as [|x l Hx H IH]; intros Ia Ib; [contradiction|]. rewrite Forall_forall in Hx.
  destruct Ia as [<-|Ia], Ib as [<-|Ib]; auto. right. apply compatible_sym. auto.
Qed.

(** Acceptance of the parts of a call. *)
Lemma geos_accepted : forall h s l, reached h s ->
  (exists s', set_geos geq l s = Ok s') <->
  NoDup l /\ (forall c x, In (c, x) h -> forall g, In g (geo_labels national x) <-> In g l).
Proof.
  intros h s l R. unfold set_geos. split.
  - intros (s' & E). apply raise_if_inv' in E. destruct E as [U E]. apply raise_if_inv' in E. destruct E as [Sm _].
    apply negb_false_iff in U. apply unique_iff in U. split; [exact U|]. intros c x I g.
    destruct (re_geos _ _ R) as [[-> _]|(c0 & x0 & I0 & Eg)]; [contradiction|]. rewrite Eg in Sm.
    apply negb_false_iff in Sm. rewrite same_set_iff in Sm. rewrite <- (Sm g).
    destruct (pairs_in _ _ _ (re_pairs _ _ R) I I0) as [K|K]; [assert (x = x0) by congruence; subst; tauto|].
    destruct K as (_ & _ & Gs & _). apply Gs.
  - intros [N Gs]. apply (unique_iff geq) in N. rewrite N. cbn [negb raise_if].
    destruct (re_geos _ _ R) as [[_ Eg]|(c0 & x0 & I0 & Eg)]; rewrite Eg; cbn [raise_if]; [eauto|].
    assert (Sm : same_set geq (geo_labels national x0) l = true) by (apply same_set_iff; intros g; apply (Gs c0 x0 I0)).
    rewrite Sm. cbn [negb raise_if]. eauto.
Qed.

Lemma fine_in : forall h s c x, reached h s -> In (c, x) h -> fine (c, x).
Proof. intros h s c x R I. pose proof (re_fine _ _ R) as F. rewrite Forall_forall in F. auto. Qed.

Lemma times_accepted : forall h s l, reached h s ->
  (exists s', set_times teq tle parse l s = Ok s') <->
  NoDup l /\ regular tle parse l /\
  (forall c x, In (c, x) h -> dim_of c = WithTime -> forall t, In t (d_times x) <-> In t l) /\
  (forall c x, In (c, x) h -> dim_of c = WithMediaTime -> last_part l (d_times x)).
Proof.
  intros h s l R. unfold set_times. split.
  - intros (s' & E). apply raise_if_inv' in E. destruct E as [U E]. apply raise_if_inv' in E. destruct E as [Sm E].
    apply raise_if_inv' in E. destruct E as [Sub E]. apply raise_if_inv' in E. destruct E as [Lag E].
    apply raise_if_inv' in E. destruct E as [K _]. apply negb_false_iff in U, K. apply unique_iff in U. apply coordinates_iff in K.
    refine (conj U (conj K (conj _ _))).
    + intros c x I D t. destruct (re_times _ _ R) as [[Nt _]|(c0 & x0 & I0 & D0 & Et)]; [exfalso; apply (Nt c x I D)|].
      rewrite Et in Sm. apply negb_false_iff in Sm. rewrite same_set_iff in Sm. rewrite <- (Sm t).
      destruct (pairs_in _ _ _ (re_pairs _ _ R) I I0) as [Q|Q]; [assert (x = x0) by congruence; subst; tauto|].
      destruct Q as (_ & _ & _ & Q). rewrite D, D0 in Q. apply Q.
    + intros c x I D. destruct (re_media _ _ R) as [[Nt _]|(c0 & x0 & I0 & D0 & Et)]; [exfalso; apply (Nt c x I D)|].
      rewrite Et in Sub, Lag. apply negb_false_iff in Sub, Lag.
      assert (F0 : NoDup (d_times x0)) by (apply (fine_in _ _ _ _ R I0); unfold timed; congruence).
      assert (F1 : NoDup (d_times x)) by (apply (fine_in _ _ _ _ R I); unfold timed; congruence).
      assert (L : last_part l (d_times x0)) by (apply lag_iff; auto).
      apply (last_part_perm l l (d_times x0)); auto. apply NoDup_Permutation; auto. intros t.
      destruct (pairs_in _ _ _ (re_pairs _ _ R) I0 I) as [Q|Q]; [assert (x = x0) by congruence; subst; tauto|].
      destruct Q as (_ & _ & _ & Q). rewrite D, D0 in Q. apply Q.
  - intros (N & K & Ts & Ms). apply coordinates_iff in K. pose proof N as N'. apply (unique_iff teq) in N. rewrite N, K. cbn [negb raise_if].
    assert (E1 : match st_times s with Some t => negb (same_set teq t l) | None => false end = false).
    { destruct (re_times _ _ R) as [[_ Et]|(c0 & x0 & I0 & D0 & Et)]; rewrite Et; [reflexivity|].
      apply negb_false_iff. apply same_set_iff. intros t. apply (Ts c0 x0 I0 D0). }
    rewrite E1. cbn [raise_if].
    destruct (re_media _ _ R) as [[_ Et]|(c0 & x0 & I0 & D0 & Et)]; rewrite Et; cbn [raise_if]; [eauto|].
    assert (F0 : NoDup (d_times x0)) by (apply (fine_in _ _ _ _ R I0); unfold timed; congruence).
    destruct (proj2 (lag_iff l (d_times x0) N' F0) (Ms c0 x0 I0 D0)) as [S L]. rewrite S, L. cbn [negb raise_if]. eauto.
Qed.
Lemma media_times_accepted : forall h s l, reached h s ->
  (exists s', set_media_times teq tle parse l s = Ok s') <->
  NoDup l /\ regular tle parse l /\
  (forall c x, In (c, x) h -> dim_of c = WithMediaTime -> forall t, In t (d_times x) <-> In t l) /\
  (forall c x, In (c, x) h -> dim_of c = WithTime -> last_part (d_times x) l).
Proof.
  intros h s l R. unfold set_media_times. split.
  - intros (s' & E). apply raise_if_inv' in E. destruct E as [U E]. apply raise_if_inv' in E. destruct E as [Sm E].
    apply raise_if_inv' in E. destruct E as [Sub E]. apply raise_if_inv' in E. destruct E as [Lag E].
    apply raise_if_inv' in E. destruct E as [K _]. apply negb_false_iff in U, K. apply unique_iff in U. apply coordinates_iff in K.
    refine (conj U (conj K (conj _ _))).
    + intros c x I D t. destruct (re_media _ _ R) as [[Nt _]|(c0 & x0 & I0 & D0 & Et)]; [exfalso; apply (Nt c x I D)|].
      rewrite Et in Sm. apply negb_false_iff in Sm. rewrite same_set_iff in Sm. rewrite <- (Sm t).
      destruct (pairs_in _ _ _ (re_pairs _ _ R) I I0) as [Q|Q]; [assert (x = x0) by congruence; subst; tauto|].
      destruct Q as (_ & _ & _ & Q). rewrite D, D0 in Q. apply Q.
    + intros c x I D. destruct (re_times _ _ R) as [[Nt _]|(c0 & x0 & I0 & D0 & Et)]; [exfalso; apply (Nt c x I D)|].
      rewrite Et in Sub, Lag. apply negb_false_iff in Sub, Lag.
      assert (F0 : NoDup (d_times x0)) by (apply (fine_in _ _ _ _ R I0); unfold timed; congruence).
      assert (F1 : NoDup (d_times x)) by (apply (fine_in _ _ _ _ R I); unfold timed; congruence).
      assert (L : last_part (d_times x0) l) by (apply lag_iff; auto).
      apply (last_part_perm (d_times x0) (d_times x) l); auto. apply NoDup_Permutation; auto. intros t.
      destruct (pairs_in _ _ _ (re_pairs _ _ R) I0 I) as [Q|Q]; [assert (x = x0) by congruence; subst; tauto|].
      destruct Q as (_ & _ & _ & Q). rewrite D, D0 in Q. apply Q.
  - intros (N & K & Ts & Ms). apply coordinates_iff in K. pose proof N as N'. apply (unique_iff teq) in N. rewrite N, K. cbn [negb raise_if].
    assert (E1 : match st_media_times s with Some t => negb (same_set teq t l) | None => false end = false).
    { destruct (re_media _ _ R) as [[_ Et]|(c0 & x0 & I0 & D0 & Et)]; rewrite Et; [reflexivity|].
      apply negb_false_iff. apply same_set_iff. intros t. apply (Ts c0 x0 I0 D0). }
    rewrite E1. cbn [raise_if].
    destruct (re_times _ _ R) as [[_ Et]|(c0 & x0 & I0 & D0 & Et)]; rewrite Et; cbn [raise_if]; [eauto|].
    assert (F0 : NoDup (d_times x0)) by (apply (fine_in _ _ _ _ R I0); unfold timed; congruence).
    destruct (proj2 (lag_iff (d_times x0) l F0 N') (Ms c0 x0 I0 D0)) as [S L]. rewrite S, L. cbn [negb raise_if]. eauto.
Qed.

(** The acceptance lemmas look at the labels of the state only. *)
Definition same_labels (s s' : state) : Prop :=
  st_times s = st_times s' /\ st_media_times s = st_media_times s' /\ st_geos s = st_geos s'.
Lemma set_geos_same : forall l s s', same_labels s s' ->
  (exists q, set_geos geq l s = Ok q) <-> (exists q, set_geos geq l s' = Ok q).
Proof.
  intros l s s' (E1 & E2 & E3). unfold set_geos. rewrite E3.
  destruct (unique geq l); cbn [negb raise_if]; [|split; intros (q & Q); discriminate].
  destruct (match st_geos s' with Some g => negb (same_set geq g l) | None => false end); cbn [raise_if];
    split; intros (q & Q); try discriminate; eauto.
Qed.
Lemma set_times_same : forall l (s s' : state), st_times s = st_times s' -> st_media_times s = st_media_times s' ->
  (exists q, set_times teq tle parse l s = Ok q) <-> (exists q, set_times teq tle parse l s' = Ok q).
Proof.
  intros l s s' E1 E2. unfold set_times. rewrite E1, E2.
  repeat (match goal with |- context [raise_if ?b _ _] => destruct b end; cbn [raise_if]; try (split; intros (q & Q); discriminate)).
  split; eauto.
Qed.
Lemma set_media_times_same : forall l (s s' : state), st_times s = st_times s' -> st_media_times s = st_media_times s' ->
  (exists q, set_media_times teq tle parse l s = Ok q) <-> (exists q, set_media_times teq tle parse l s' = Ok q).
Proof.
  intros l s s' E1 E2. unfold set_media_times. rewrite E1, E2.
  repeat (match goal with |- context [raise_if ?b _ _] => destruct b end; cbn [raise_if]; try (split; intros (q & Q); discriminate)).
  split; eauto.
Qed.

Lemma channels_accepted : forall h s c x, reached h s ->
  channels_ok ceq s c x = true <-> forall p y, In (p, y) h -> In p (partners c) -> d_chans x = d_chans y.
Proof.
  intros h s c x R. unfold channels_ok. rewrite forallb_forall. split.
  - intros H p y I P. specialize (H p P). rewrite (re_set _ _ R _ _ I) in H. cbv beta iota in H.
    rewrite norm_chans in H. destruct (list_eq_dec ceq (d_chans y) (d_chans x)); congruence.
  - intros H p P. destruct (st_array s p) as [y|] eqn:E; [|reflexivity].
    destruct (in_dec component_eq_dec p (map fst h)) as [I|N].
    + apply in_map_iff in I. destruct I as ([p' y'] & Ep & I). cbn in Ep. subst p'.
      rewrite (re_set _ _ R _ _ I) in E. assert (y = norm y') by congruence. subst y. rewrite norm_chans.
      specialize (H p y' I P). destruct (list_eq_dec ceq (d_chans y') (d_chans x)); congruence.
    + rewrite (re_unset _ _ R p) in E; [discriminate|]. intros y0 I. apply N. apply in_map_iff. exists (p, y0). auto.
Qed.

Lemma unset_iff : forall h s c, reached h s -> (st_array s c = None <-> forall p y, In (p, y) h -> c <> p).
Proof.
  intros h s c R. split.
  - intros E p y I ->. rewrite (re_set _ _ R _ _ I) in E. discriminate.
  - intros H. apply (re_unset _ _ R). intros x I. apply (H _ _ I). reflexivity.
Qed.

Lemma step_lemma : forall h s c x, reached h s ->
  (fst (set_component c x s) = Ok tt <-> fine (c, x) /\ Forall (compatible (c, x)) h) /\
  (fst (set_component c x s) = Ok tt -> reached ((c, x) :: h) (snd (set_component c x s))).
Proof.
  intros h s c x R.
  assert (Fwd : fst (set_component c x s) = Ok tt -> fine (c, x) /\ Forall (compatible (c, x)) h).
  { intros E. unfold M_Builder.set_component in E. destruct (st_array s c) as [y|] eqn:A; [discriminate|].
    destruct (channels_ok ceq s c x) eqn:Ch; cbn [negb] in E; [|discriminate].
    destruct (normalize parse national c x) as [y|e] eqn:Nm; [|discriminate]. apply normalize_iff in Nm. destruct Nm as [Rd ->].
    rewrite norm_geos, norm_times in E. cbv zeta in E.
    destruct (set_geos geq (named national x) (store c (norm x) s)) as [s2|e] eqn:Gs; [|discriminate].
    assert (Ga : exists q, set_geos geq (named national x) s = Ok q).
    { apply (set_geos_same _ s (store c (norm x) s)); [repeat split|]. eauto. }
    apply (geos_accepted _ _ _ R) in Ga. destruct Ga as [Ng Sg].
    pose proof (set_geos_inv _ _ _ _ Gs) as (_ & _ & Et2 & Em2 & _). cbn in Et2, Em2.
    rewrite (unset_iff _ _ _ R) in A. pose proof (proj1 (channels_accepted _ _ _ _ R) Ch) as Chs.
    assert (Pairs : forall (P : component * da -> Prop), (forall p y, In (p, y) h -> P (p, y)) -> Forall P h).
    { intros P HP. apply Forall_forall. intros [p y] I. auto. }
    destruct (dim_of c) eqn:Dc.
    - destruct (set_times teq tle parse (d_times x) s2) as [s3|e] eqn:Ts; [|discriminate].
      assert (Ta : exists q, set_times teq tle parse (d_times x) s = Ok q) by (apply (set_times_same _ s s2); auto; eauto).
      apply (times_accepted _ _ _ R) in Ta. destruct Ta as (Nt & Kt & St & Sm).
      split; [split; [exact Ng|intros _; refine (conj (Rd _) (conj Nt Kt)); congruence]|].
      apply Pairs. intros p y I. refine (conj (A p y I) (conj (Chs p y I) (conj _ _))).
      + intros g. symmetry. apply (Sg p y I g).
      + rewrite Dc. destruct (dim_of p) eqn:Dp; [intros t; symmetry; apply (St p y I Dp)|apply (Sm p y I Dp)|exact Logic.I].
    - destruct (set_media_times teq tle parse (d_times x) s2) as [s3|e] eqn:Ts; [|discriminate].
      assert (Ta : exists q, set_media_times teq tle parse (d_times x) s = Ok q) by (apply (set_media_times_same _ s s2); auto; eauto).
      apply (media_times_accepted _ _ _ R) in Ta. destruct Ta as (Nt & Kt & St & Sm).
      split; [split; [exact Ng|intros _; refine (conj (Rd _) (conj Nt Kt)); congruence]|].
      apply Pairs. intros p y I. refine (conj (A p y I) (conj (Chs p y I) (conj _ _))).
      + intros g. symmetry. apply (Sg p y I g).
      + rewrite Dc. destruct (dim_of p) eqn:Dp; [apply (Sm p y I Dp)|intros t; symmetry; apply (St p y I Dp)|exact Logic.I].
    - split; [split; [exact Ng|intros Tm; exfalso; apply Tm; exact Dc]|].
      apply Pairs. intros p y I. refine (conj (A p y I) (conj (Chs p y I) (conj _ _))).
      + intros g. symmetry. apply (Sg p y I g).
      + rewrite Dc. destruct (dim_of p); exact Logic.I. }
  split; [split; [exact Fwd|]|].
  - intros [[Ng Ft] Cp]. rewrite Forall_forall in Cp. unfold M_Builder.set_component.
    assert (A : st_array s c = None) by (apply (unset_iff _ _ _ R); intros p y I; apply (Cp (p, y) I)). rewrite A.
    assert (Ch : channels_ok ceq s c x = true).
    { apply (channels_accepted _ _ _ _ R). intros p y I. apply (Cp (p, y) I). }
    rewrite Ch. cbn [negb].
    assert (Nm : normalize parse national c x = Ok (norm x)).
    { apply normalize_iff. split; [|reflexivity]. intros D. apply Ft. exact D. }
    rewrite Nm, norm_geos, norm_times. cbv zeta.
    assert (Ga : exists q, set_geos geq (named national x) (store c (norm x) s) = Ok q).
    { apply (set_geos_same _ s (store c (norm x) s)); [repeat split|]. apply (geos_accepted _ _ _ R).
      split; [exact Ng|]. intros p y I g. symmetry. apply (Cp (p, y) I). }
    destruct Ga as (s2 & Gs). rewrite Gs. pose proof (set_geos_inv _ _ _ _ Gs) as (_ & _ & Et2 & Em2 & _). cbn in Et2, Em2.
    destruct (dim_of c) eqn:Dc.
    + destruct Ft as (_ & Nt & Kt); [unfold timed; congruence|].
      assert (Ta : exists q, set_times teq tle parse (d_times x) s2 = Ok q).
      { apply (set_times_same _ s s2); auto. apply (times_accepted _ _ _ R). refine (conj Nt (conj Kt (conj _ _))).
        - intros p y I D t. destruct (Cp (p, y) I) as (_ & _ & _ & Q). rewrite Dc, D in Q. symmetry. apply Q.
        - intros p y I D. destruct (Cp (p, y) I) as (_ & _ & _ & Q). rewrite Dc, D in Q. exact Q. }
      destruct Ta as (s3 & Ts). rewrite Ts. reflexivity.
    + destruct Ft as (_ & Nt & Kt); [unfold timed; congruence|].
      assert (Ta : exists q, set_media_times teq tle parse (d_times x) s2 = Ok q).
      { apply (set_media_times_same _ s s2); auto. apply (media_times_accepted _ _ _ R). refine (conj Nt (conj Kt (conj _ _))).
        - intros p y I D t. destruct (Cp (p, y) I) as (_ & _ & _ & Q). rewrite Dc, D in Q. symmetry. apply Q.
        - intros p y I D. destruct (Cp (p, y) I) as (_ & _ & _ & Q). rewrite Dc, D in Q. exact Q. }
      destruct Ta as (s3 & Ts). rewrite Ts. reflexivity.
    + reflexivity.
  - intros E. destruct (Fwd E) as [Fx Cx]. destruct (set_component c x s) as [r s'] eqn:Es. cbn [fst snd] in *. subst r.
    apply set_component_cases in Es. destruct Es as [[_ K]|(A & Rd & [[_ K]|(s2 & Gs & [[_ K]|[Ts _]])])]; try congruence.
    pose proof (set_geos_inv _ _ _ _ Gs) as (_ & Eg & Et2 & Em2 & Ea). cbn in Et2, Em2.
    rewrite named_labels in Eg.
    assert (Lab : st_array s' = st_array s2 /\ st_geos s' = st_geos s2).
    { destruct (dim_of c).
      - apply set_times_inv in Ts. tauto.
      - apply set_media_times_inv in Ts. tauto.
      - assert (s' = s2) by congruence. subst. auto. }
    destruct Lab as [La Lg].
    constructor.
    + intros c0 x0 [I0|I0].
      * assert (c0 = c) by congruence. assert (x0 = x) by congruence. subst. rewrite La, Ea. apply store_same.
      * rewrite La, Ea. rewrite store_other; [apply (re_set _ _ R); exact I0|].
        rewrite (unset_iff _ _ _ R) in A. intros ->. apply (A _ _ I0). reflexivity.
    + intros c0 H0. rewrite La, Ea. destruct (component_eq_dec c0 c) as [->|Nc]; [exfalso; apply (H0 x); left; reflexivity|].
      rewrite store_other by exact Nc. apply (re_unset _ _ R). intros x0 I0. apply (H0 x0). right. exact I0.
    + right. exists c, x. split; [left; reflexivity|]. congruence.
    + destruct (dim_of c) eqn:Dc.
      * apply set_times_inv in Ts. destruct Ts as (_ & _ & _ & Et & _). right. exists c, x. split; [left; reflexivity|auto].
      * apply set_media_times_inv in Ts. destruct Ts as (_ & _ & _ & _ & _ & Et & _). rewrite Et, Et2.
        destruct (re_times _ _ R) as [[H0 H1]|(c0 & x0 & I0 & D0 & H1)].
        -- left. split; [|exact H1]. intros c0 x0 [I0|I0]; [congruence|eauto].
        -- right. exists c0, x0. split; [right; exact I0|auto].
      * assert (s' = s2) by congruence. subst. rewrite Et2.
        destruct (re_times _ _ R) as [[H0 H1]|(c0 & x0 & I0 & D0 & H1)].
        -- left. split; [|exact H1]. intros c0 x0 [I0|I0]; [congruence|eauto].
        -- right. exists c0, x0. split; [right; exact I0|auto].
    + destruct (dim_of c) eqn:Dc.
      * apply set_times_inv in Ts. destruct Ts as (_ & _ & _ & _ & _ & Et & _). rewrite Et, Em2.
        destruct (re_media _ _ R) as [[H0 H1]|(c0 & x0 & I0 & D0 & H1)].
        -- left. split; [|exact H1]. intros c0 x0 [I0|I0]; [congruence|eauto].
        -- right. exists c0, x0. split; [right; exact I0|auto].
      * apply set_media_times_inv in Ts. destruct Ts as (_ & _ & _ & Et & _). right. exists c, x. split; [left; reflexivity|auto].
      * assert (s' = s2) by congruence. subst. rewrite Em2.
        destruct (re_media _ _ R) as [[H0 H1]|(c0 & x0 & I0 & D0 & H1)].
        -- left. split; [|exact H1]. intros c0 x0 [I0|I0]; [congruence|eauto].
        -- right. exists c0, x0. split; [right; exact I0|auto].
    + constructor; [exact Fx|apply (re_fine _ _ R)].
    + constructor; [exact Cx|apply (re_pairs _ _ R)].
Qed.

Lemma run_lemma : forall rest h s, reached h s ->
  (Forall (fun r => r = Ok tt) (fst (run rest s)) <-> Forall fine (rev rest ++ h) /\ ForallOrdPairs compatible (rev rest ++ h)) /\
  (Forall (fun r => r = Ok tt) (fst (run rest s)) -> reached (rev rest ++ h) (snd (run rest s))).
Proof.
  induction rest as [|[c x] rest IH]; intros h s R.
  - cbn. split; [|auto]. split; [intros _; split; [apply (re_fine _ _ R)|apply (re_pairs _ _ R)]|constructor].
  - rewrite run_cons. cbn [fst snd rev]. rewrite <- app_assoc. cbn [app].
    destruct (step_lemma h s c x R) as [St1 St2].
    assert (Head : Forall fine (rev rest ++ (c, x) :: h) /\ ForallOrdPairs compatible (rev rest ++ (c, x) :: h) ->
                   fst (set_component c x s) = Ok tt).
    { intros [F P]. apply St1. apply Forall_app in F. destruct F as [_ F]. inversion F; subst. split; [assumption|].
      clear -P. induction (rev rest) as [|a l IHl]; cbn in P; inversion P; subst; auto. }
    split; [split|].
    + intros F. inversion F as [|? ? F1 F2]; subst. specialize (St2 F1). destruct (IH _ _ St2) as [I1 _]. apply I1. exact F2.
    + intros FP. pose proof (Head FP) as E. constructor; [exact E|]. destruct (IH _ _ (St2 E)) as [I1 _]. apply I1. exact FP.
    + intros F. inversion F as [|? ? F1 F2]; subst. destruct (IH _ _ (St2 F1)) as [_ I2]. apply I2. exact F2.
Qed.

Lemma accepted_lemma : forall hist,
  Forall (fun r => r = Ok tt) (fst (run hist init)) <-> Forall fine hist /\ ForallOrdPairs compatible hist.
Proof.
  intros hist. destruct (run_lemma hist [] init reached_init) as [H _]. rewrite H, app_nil_r.
  split; intros [F P]; split.
  - apply Forall_rev in F. rewrite rev_involutive in F. exact F.
  - apply (fop_perm _ _ compatible_sym (rev hist)); [apply Permutation_sym, Permutation_rev|exact P].
  - apply Forall_rev. exact F.
  - apply (fop_perm _ _ compatible_sym hist); [apply Permutation_rev|exact P].
Qed.
Lemma reached_lemma : forall hist, Forall (fun r => r = Ok tt) (fst (run hist init)) -> reached (rev hist) (snd (run hist init)).
Proof.
  intros hist H. destruct (run_lemma hist [] init reached_init) as [_ K]. specialize (K H). rewrite app_nil_r in K. exact K.
Qed.

(** *** Two orders of the same calls *)
Hypothesis gle_order : total_order gle.
Notation build := (build geq teq gle parse one).

Lemma build_same : forall (valid : list (component * da) -> bool) s s',
  (forall c, st_array s c = st_array s' c) ->
  option_map (isort gle) (st_geos s) = option_map (isort gle) (st_geos s') ->
  (forall g g', st_geos s = Some g -> st_geos s' = Some g' -> length g = 1 -> g = g') ->
  option_map (isort (date_label_leb parse)) (st_times s) = option_map (isort (date_label_leb parse)) (st_times s') ->
  option_map (isort (date_label_leb parse)) (st_media_times s) = option_map (isort (date_label_leb parse)) (st_media_times s') ->
  build valid s = build valid s'.
Proof.
  intros valid s s' Ha Hg Hn Ht Hm.
  assert (Hi : forall c, is_set s c = is_set s' c) by (intros c; unfold is_set; rewrite Ha; reflexivity).
  assert (Hl : forall g g', st_geos s = Some g -> st_geos s' = Some g' -> length g = length g').
  { intros g g' E E'. rewrite E, E' in Hg. cbn in Hg. assert (E0 : isort gle g = isort gle g') by congruence.
    apply (f_equal (@length G)) in E0. rewrite !isort_length in E0. exact E0. }
  assert (Hr : required one s = required one s').
  { unfold required. rewrite !Hi. destruct (st_geos s) as [g|] eqn:Eg, (st_geos s') as [g'|] eqn:Eg'; cbn in Hg; try discriminate; [|reflexivity].
    f_equal. rewrite (Hl g g' eq_refl eq_refl). destruct (Nat.eqb_spec (length g') 1) as [E1|N1]; [|rewrite Ha; reflexivity].
    rewrite (Hn g g' eq_refl eq_refl); [reflexivity|]. rewrite (Hl g g' eq_refl eq_refl). exact E1. }
  unfold M_Builder.build. rewrite Hr. destruct (required one s') as [p|e]; [|reflexivity]. cbn [rbind].
  destruct (st_geos s) as [g|], (st_geos s') as [g'|]; cbn in Hg; try discriminate; [|reflexivity].
  destruct (st_times s) as [t|], (st_times s') as [t'|]; cbn in Ht; try discriminate; [|reflexivity].
  destruct (st_media_times s) as [m|], (st_media_times s') as [m'|]; cbn in Hm; try discriminate; [|reflexivity].
  assert (Eg : isort gle g = isort gle g') by congruence.
  assert (Et : isort (date_label_leb parse) t = isort (date_label_leb parse) t') by congruence.
  assert (Em : isort (date_label_leb parse) m = isort (date_label_leb parse) m') by congruence.
  rewrite Eg, Et, Em. cbv zeta. f_equal.
  induction all_components as [|c l IH]; [reflexivity|]. cbn [mapM]. rewrite (Ha c), IH. reflexivity.
Qed.

Lemma order_lemma : forall valid hist hist', Permutation hist hist' ->
  Forall (fun r => r = Ok tt) (fst (run hist init)) ->
  no_ties gle national hist -> written_once parse hist ->
  Forall (fun r => r = Ok tt) (fst (run hist' init)) /\
  build valid (snd (run hist' init)) = build valid (snd (run hist init)).
Proof.
  intros valid hist hist' P Acc Nt Wo.
  assert (Acc' : Forall (fun r => r = Ok tt) (fst (run hist' init))).
  { apply accepted_lemma in Acc. destruct Acc as [F Pp]. apply accepted_lemma. split.
    - rewrite Forall_forall in *. intros a Ha. apply F. apply (Permutation_in _ (Permutation_sym P)). exact Ha.
    - apply (fop_perm _ _ compatible_sym hist); assumption. }
  split; [exact Acc'|].
  apply reached_lemma in Acc, Acc'.
  set (s := snd (run hist init)) in *. set (s' := snd (run hist' init)) in *.
  assert (In1 : forall a, In a (rev hist) <-> In a hist) by (intros a; symmetry; apply in_rev).
  assert (In2 : forall a, In a (rev hist') <-> In a hist).
  { intros a. rewrite <- in_rev. split; apply Permutation_in; [apply Permutation_sym|]; exact P. }
  assert (Pair : forall a b, In a hist -> In b hist -> a = b \/ compatible a b).
  { intros a b Ia Ib. apply (pairs_in (rev hist)); [apply (re_pairs _ _ Acc)|apply In1; exact Ia|apply In1; exact Ib]. }
  assert (Fine : forall a, In a hist -> fine a).
  { intros [c x] I. apply (fine_in _ _ _ _ Acc). apply In1. exact I. }
  assert (TimeCase : forall d, d = WithTime \/ d = WithMediaTime -> forall c x c' x', In (c, x) hist -> In (c', x') hist -> dim_of c = d -> dim_of c' = d ->
            isort (date_label_leb parse) (d_times x) = isort (date_label_leb parse) (d_times x')).
  { intros d Hd c x c' x' I I' D D'.
    assert (Tc : timed c) by (unfold timed; destruct Hd; congruence). assert (Tc' : timed c') by (unfold timed; destruct Hd; congruence).
    destruct (Fine _ I) as [_ Fx]. destruct (Fx Tc) as (Rx & Nx & _). destruct (Fine _ I') as [_ Fx']. destruct (Fx' Tc') as (Rx' & Nx' & _).
    assert (Pm : Permutation (d_times x) (d_times x')).
    { apply NoDup_Permutation; auto. intros t. destruct (Pair _ _ I I') as [Q|Q]; [assert (x = x') by congruence; subst; tauto|].
      destruct Q as (_ & _ & _ & Q). rewrite D, D' in Q. destruct Hd as [-> | ->]; apply Q. }
    apply date_sort_unique.
    - intros a b Ia Ib E. exact (Wo _ _ _ _ a b I I Tc Tc Ia Ib E).
    - exact Rx.
    - apply isort_sorted_on. exact Rx'.
    - transitivity (d_times x'); [exact Pm|apply isort_perm]. }
  assert (GeoCase : forall c x c' x', In (c, x) hist -> In (c', x') hist -> Permutation (geo_labels national x) (geo_labels national x')).
  { intros c x c' x' I I'. apply NoDup_Permutation; [apply (Fine _ I)|apply (Fine _ I')|]. intros g.
    destruct (Pair _ _ I I') as [Q|Q]; [assert (x = x') by congruence; subst; tauto|]. apply Q. }
  apply build_same.
  - intros c. destruct (in_dec component_eq_dec c (map fst hist)) as [I|N].
    + apply in_map_iff in I. destruct I as ([c0 x] & E & I). cbn in E. subst c0.
      rewrite (re_set _ _ Acc c x) by (apply In1; exact I). rewrite (re_set _ _ Acc' c x) by (apply In2; exact I). reflexivity.
    + rewrite (re_unset _ _ Acc c), (re_unset _ _ Acc' c); [reflexivity| |];
        intros x I; apply N; apply in_map_iff; exists (c, x); split; auto; [apply In2|apply In1]; exact I.
  - destruct (re_geos _ _ Acc) as [[E0 E]|(c & x & I & E)]; destruct (re_geos _ _ Acc') as [[E0' E']|(c' & x' & I' & E')]; rewrite E, E'.
    + reflexivity.
    + apply In2 in I'. apply In1 in I'. rewrite E0 in I'. contradiction.
    + apply In1 in I. apply In2 in I. rewrite E0' in I. contradiction.
    + cbn. f_equal. apply In1 in I. apply In2 in I'. apply isort_unique; try apply gle_order.
      * intros a b Ia Ib. apply (Nt c' x' c' x'); assumption.
      * eapply GeoCase; eassumption.
  - intros g' g E' E L. destruct (re_geos _ _ Acc) as [[_ E0]|(c & x & I & E0)]; [congruence|].
    destruct (re_geos _ _ Acc') as [[_ E1]|(c' & x' & I' & E1)]; [congruence|].
    apply In1 in I. apply In2 in I'. pose proof (GeoCase _ _ _ _ I' I) as Pg.
    assert (g = geo_labels national x) by congruence. assert (g' = geo_labels national x') by congruence. subst.
    destruct (geo_labels national x') as [|a [|b l]]; try discriminate. apply Permutation_length_1_inv in Pg. congruence.
  - destruct (re_times _ _ Acc) as [[E0 E]|(c & x & I & D & E)]; destruct (re_times _ _ Acc') as [[E0' E']|(c' & x' & I' & D' & E')]; rewrite E, E'.
    + reflexivity.
    + exfalso. apply (E0 c' x'); [apply In1; apply In2; exact I'|exact D'].
    + exfalso. apply (E0' c x); [apply In2; apply In1; exact I|exact D].
    + cbn. f_equal. apply In1 in I. apply In2 in I'. eapply (TimeCase WithTime); eauto.
  - destruct (re_media _ _ Acc) as [[E0 E]|(c & x & I & D & E)]; destruct (re_media _ _ Acc') as [[E0' E']|(c' & x' & I' & D' & E')]; rewrite E, E'.
    + reflexivity.
    + exfalso. apply (E0 c' x'); [apply In1; apply In2; exact I'|exact D'].
    + exfalso. apply (E0' c x); [apply In2; apply In1; exact I|exact D].
    + cbn. f_equal. apply In1 in I. apply In2 in I'. eapply (TimeCase WithMediaTime); eauto.
Qed.
End Builder.
