(** Lemmas about the input data builder. *)
From Coq Require Import ZArith Lia List Bool Permutation Sorted.
From Verif Require Import M_Base M_Time S_Time P_Time Lib_Sort M_Builder.
Import ListNotations.
Local Open Scope nat_scope.
Local Open Scope list_scope.

Lemma inv_rbind' : forall A B (m : result A) (f : A -> result B) b, rbind m f = Ok b -> exists a, m = Ok a /\ f a = Ok b.
Proof. intros A B [a|e] f b E; [exists a; auto|discriminate]. Qed.
Lemma raise_if_inv' : forall A c e (k : result A) b, raise_if c e k = Ok b -> c = false /\ k = Ok b.
Proof. intros A [|] e k b E; [discriminate|auto]. Qed.

Section Sets.
Context {A : Type} (dec : forall a b : A, {a = b} + {a <> b}).
Lemma mem_iff : forall x l, mem dec x l = true <-> In x l.
Proof. intros x l. unfold mem. destruct (in_dec dec x l); split; auto; discriminate. Qed.
Lemma mem_false : forall x l, mem dec x l = false <-> ~ In x l.
Proof. intros x l. unfold mem. destruct (in_dec dec x l); split; auto; discriminate || tauto. Qed.
Lemma subset_iff : forall a b, subset dec a b = true <-> forall x, In x a -> In x b.
Proof.
  intros a b. unfold subset. rewrite forallb_forall. split; intros H x Hx; specialize (H x Hx); apply mem_iff; exact H.
Qed.
Lemma same_set_iff : forall a b, same_set dec a b = true <-> forall x, In x a <-> In x b.
Proof.
  intros a b. unfold same_set. rewrite andb_true_iff, !subset_iff. split; [intros [H1 H2] x; split; auto|].
  intros H. split; intros x; apply H.
Qed.
Lemma unique_iff : forall l, unique dec l = true <-> NoDup l.
Proof.
  intros l. unfold unique. rewrite Nat.eqb_eq. split.
  - induction l as [|a l IH]; intros E; [constructor|]. cbn in E.
    assert (L : length (nodup dec l) <= length l).
    { clear. induction l as [|a l IH]; [auto|]. cbn. destruct (in_dec dec a l); cbn; lia. }
    destruct (in_dec dec a l) as [I|N]; [cbn in E; lia|]. constructor; [exact N|]. apply IH. cbn in E. lia.
  - intros N. rewrite nodup_fixed_point; auto.
Qed.
Lemma index_of_some : forall x l i, index_of dec x l = Some i -> nth_error l i = Some x.
Proof.
  intros x l. induction l as [|y l IH]; intros i E; cbn in E; [discriminate|].
  destruct (dec x y) as [->|N].
  - assert (i = 0) by congruence. subst. reflexivity.
  - destruct (index_of dec x l) as [j|] eqn:Ej; [|discriminate]. cbn in E. assert (i = S j) by congruence. subst. cbn. auto.
Qed.
Lemma lookup_some : forall target source i i0, lookup_at dec target source i = Some i0 ->
  exists l, nth_error target i = Some l /\ nth_error source i0 = Some l.
Proof.
  intros target source i i0 E. unfold lookup_at in E. destruct (nth_error target i) as [l|]; [|discriminate].
  exists l. split; [reflexivity|]. apply index_of_some. exact E.
Qed.
Lemma same_set_perm : forall a b : list A, NoDup a -> NoDup b -> (forall x, In x a <-> In x b) -> Permutation a b.
Proof. intros. apply NoDup_Permutation; auto. Qed.
End Sets.

Lemma fop_perm : forall A (R : A -> A -> Prop), (forall a b, R a b -> R b a) ->
  forall l m, Permutation l m -> ForallOrdPairs R l -> ForallOrdPairs R m.
Proof.
  intros A R Sym l m P. induction P as [|x l m P IH|x y l|l m n P1 IH1 P2 IH2]; intros H; auto.
  - inversion H as [|? ? H1 H2]; subst. constructor; [|auto]. rewrite Forall_forall in *. intros a Ha.
    apply H1. apply (Permutation_in _ (Permutation_sym P)). exact Ha.
  - inversion H as [|? ? H1 H2]; subst. inversion H2 as [|? ? H3 H4]; subst. inversion H1 as [|? ? H5 H6]; subst.
    constructor; [constructor; auto|]. constructor; auto.
Qed.

Lemma before_trans : forall a b c, before a b -> before b c -> before a c.
Proof. intros [y m d] [y' m' d'] [y'' m'' d'']. unfold before; cbn. lia. Qed.
Lemma before_total : forall a b, before a b \/ a = b \/ before b a.
Proof.
  intros [y m d] [y' m' d']. unfold before; cbn.
  destruct (Z.lt_trichotomy y y') as [H|[->|H]]; [lia| |lia].
  destruct (Z.lt_trichotomy m m') as [H|[->|H]]; [lia| |lia].
  destruct (Z.lt_trichotomy d d') as [H|[->|H]]; [lia|right; left; reflexivity|lia].
Qed.
Lemma before_irrefl : forall a, ~ before a a.
Proof. intros [y m d]. unfold before; cbn. lia. Qed.
Lemma date_leb_trans : forall a b c, date_leb a b = true -> date_leb b c = true -> date_leb a c = true.
Proof.
  intros a b c H1 H2. apply date_leb_iff in H1, H2. apply date_leb_iff. intros H.
  destruct (before_total a b) as [K|[->|K]]; [|auto|auto].
  apply H2. eapply before_trans; eassumption.
Qed.
Lemma date_leb_total : forall a b, date_leb a b = true \/ date_leb b a = true.
Proof.
  intros a b. rewrite !date_leb_iff. destruct (before_total a b) as [K|[->|K]].
  - left. intros H. exact (before_irrefl _ (before_trans _ _ _ K H)).
  - left. apply before_irrefl.
  - right. intros H. exact (before_irrefl _ (before_trans _ _ _ K H)).
Qed.
Lemma date_leb_anti : forall a b, date_leb a b = true -> date_leb b a = true -> a = b.
Proof.
  intros a b H1 H2. apply date_leb_iff in H1, H2. destruct (before_total a b) as [K|[->|K]]; tauto.
Qed.
Lemma nondecreasing_sorted : forall l, nondecreasing l = true -> le_sorted date_leb l.
Proof.
  induction l as [|a l IH]; intros H; [constructor|]. constructor.
  - apply IH. destruct l; [reflexivity|]. cbn in H. apply andb_prop in H. apply H.
  - assert (S : le_sorted date_leb l) by (apply IH; destruct l; [reflexivity|cbn in H; apply andb_prop in H; apply H]).
    destruct l as [|b l]; [constructor|]. cbn in H. apply andb_prop in H. destruct H as [H _].
    inversion S as [|? ? S1 S2]; subst. constructor; [exact H|]. eapply Forall_impl; [|exact S2].
    intros c Hc. exact (date_leb_trans _ _ _ H Hc).
Qed.

Section Builder.
Context {G T C V : Type}.
Variables (geq : forall a b : G, {a = b} + {a <> b}) (teq : forall a b : T, {a = b} + {a <> b})
  (ceq : forall a b : C, {a = b} + {a <> b})
  (tle : T -> T -> bool) (gle : G -> G -> bool) (parse : T -> option date) (national : G) (one : V).
Notation da := (da G T C V).
Notation state := (state G T C V).
Notation set_component := (set_component geq teq ceq tle parse national).
Notation run := (run geq teq ceq tle parse national).
Notation coordinates_ok := (coordinates_ok tle parse).
Notation lagged_ok := (lagged_ok teq tle).
Notation dleb := (date_label_leb parse).
Notation build := (build geq teq gle parse one).

Definition readable (c : component) (x : da) : Prop :=
  dim_of c <> WithoutTime -> forall t, In t (d_times x) -> parse t <> None.
Definition named (x : da) : list G := match d_geos x with [_] => [national] | l => l end.
Definition norm (x : da) : da :=
  match d_geos x with [_] => mkDa [national] (d_times x) (d_chans x) (d_val x) | _ => x end.
Lemma norm_geos : forall x, d_geos (norm x) = named x.
Proof. intros x. unfold norm, named. destruct (d_geos x) as [|g [|g' l]] eqn:E; cbn; auto. Qed.
Lemma norm_times : forall x, d_times (norm x) = d_times x.
Proof. intros x. unfold norm. destruct (d_geos x) as [|g [|g' l]]; reflexivity. Qed.
Lemma norm_chans : forall x, d_chans (norm x) = d_chans x.
Proof. intros x. unfold norm. destruct (d_geos x) as [|g [|g' l]]; reflexivity. Qed.
Lemma norm_val : forall x, d_val (norm x) = d_val x.
Proof. intros x. unfold norm. destruct (d_geos x) as [|g [|g' l]]; reflexivity. Qed.
Lemma normalize_iff : forall c x y, normalize parse national c x = Ok y <-> readable c x /\ y = norm x.
Proof.
  intros c x y. unfold normalize, readable.
  assert (E : existsb (fun t => match parse t with Some _ => false | None => true end) (d_times x) = false
              <-> forall t, In t (d_times x) -> parse t <> None).
  { rewrite <- not_true_iff_false, existsb_exists. split.
    - intros H t Ht Hp. apply H. exists t. rewrite Hp. auto.
    - intros H (t & Ht & Hp). specialize (H t Ht). destruct (parse t); congruence. }
  change (match d_geos x with [_] => mkDa [national] (d_times x) (d_chans x) (d_val x) | _ => x end) with (norm x).
  destruct (dim_of c).
  - destruct (existsb _ (d_times x)); cbn [raise_if]; split.
    + discriminate.
    + intros [H _]. assert (true = false) by (apply E; apply H; discriminate). discriminate.
    + intros K. split; [intros _; apply E; reflexivity|congruence].
    + intros [_ ->]. reflexivity.
  - destruct (existsb _ (d_times x)); cbn [raise_if]; split.
    + discriminate.
    + intros [H _]. assert (true = false) by (apply E; apply H; discriminate). discriminate.
    + intros K. split; [intros _; apply E; reflexivity|congruence].
    + intros [_ ->]. reflexivity.
  - cbn [raise_if]. split; [intros K; split; [intros N; congruence|congruence]|intros [_ ->]; reflexivity].
Qed.

(** *** Any history *)
Record sound (hist : list (component * da)) (rs : list (result unit)) (s : state) : Prop := {
  so_geos : forall g, st_geos s = Some g -> NoDup g;
  so_times : forall t, st_times s = Some t -> NoDup t /\ coordinates_ok t = true /\ forall a, In a t -> parse a <> None;
  so_media : forall t, st_media_times s = Some t -> NoDup t /\ coordinates_ok t = true /\ forall a, In a t -> parse a <> None;
  so_both : forall t m, st_times s = Some t -> st_media_times s = Some m -> subset teq t m = true /\ lagged_ok m t = true;
  so_array : forall c x, st_array s c = Some x -> exists x0, In (c, x0) hist /\ x = norm x0;
  so_ok : forall c x0, In ((c, x0), Ok tt) (combine hist rs) -> st_array s c = Some (norm x0)
}.
Lemma sound_init : sound [] [] init.
Proof. constructor; cbn; intros; try discriminate; contradiction. Qed.

Lemma store_same : forall c (x : da) s, st_array (store c x s) c = Some x.
Proof. intros. cbn. destruct (component_eq_dec c c); congruence. Qed.
Lemma store_other : forall c c' (x : da) s, c' <> c -> st_array (store c x s) c' = st_array s c'.
Proof. intros. cbn. destruct (component_eq_dec c' c); congruence. Qed.

Lemma set_geos_inv : forall l (s s' : state), set_geos geq l s = Ok s' ->
  NoDup l /\ st_geos s' = Some l /\ st_times s' = st_times s /\ st_media_times s' = st_media_times s /\ st_array s' = st_array s.
Proof.
  intros l s s' E. unfold set_geos in E. apply raise_if_inv' in E. destruct E as [U E].
  apply raise_if_inv' in E. destruct E as [_ E]. assert (s' = mkState (st_times s) (st_media_times s) (Some l) (st_array s)) by congruence.
  subst s'. cbn. apply negb_false_iff in U. apply unique_iff in U. auto.
Qed.
Lemma set_times_inv : forall l (s s' : state), set_times teq tle parse l s = Ok s' ->
  NoDup l /\ coordinates_ok l = true /\
  (forall m, st_media_times s = Some m -> subset teq l m = true /\ lagged_ok m l = true) /\
  st_times s' = Some l /\ st_geos s' = st_geos s /\ st_media_times s' = st_media_times s /\ st_array s' = st_array s.
Proof.
  intros l s s' E. unfold set_times in E. apply raise_if_inv' in E. destruct E as [U E].
  apply raise_if_inv' in E. destruct E as [_ E]. apply raise_if_inv' in E. destruct E as [S E].
  apply raise_if_inv' in E. destruct E as [L E]. apply raise_if_inv' in E. destruct E as [K E].
  assert (s' = mkState (Some l) (st_media_times s) (st_geos s) (st_array s)) by congruence.
  subst s'. cbn. apply negb_false_iff in U, K. apply unique_iff in U.
  refine (conj U (conj K (conj _ (conj eq_refl (conj eq_refl (conj eq_refl eq_refl)))))).
  intros m Em. rewrite Em in S, L. apply negb_false_iff in S, L. auto.
Qed.
Lemma set_media_times_inv : forall l (s s' : state), set_media_times teq tle parse l s = Ok s' ->
  NoDup l /\ coordinates_ok l = true /\
  (forall t, st_times s = Some t -> subset teq t l = true /\ lagged_ok l t = true) /\
  st_media_times s' = Some l /\ st_geos s' = st_geos s /\ st_times s' = st_times s /\ st_array s' = st_array s.
Proof.
  intros l s s' E. unfold set_media_times in E. apply raise_if_inv' in E. destruct E as [U E].
  apply raise_if_inv' in E. destruct E as [_ E]. apply raise_if_inv' in E. destruct E as [S E].
  apply raise_if_inv' in E. destruct E as [L E]. apply raise_if_inv' in E. destruct E as [K E].
  assert (s' = mkState (st_times s) (Some l) (st_geos s) (st_array s)) by congruence.
  subst s'. cbn. apply negb_false_iff in U, K. apply unique_iff in U.
  refine (conj U (conj K (conj _ (conj eq_refl (conj eq_refl (conj eq_refl eq_refl)))))).
  intros m Em. rewrite Em in S, L. apply negb_false_iff in S, L. auto.
Qed.

(** What a setter call may do to the state. *)
Lemma set_component_cases : forall c x (s : state) r s', set_component c x s = (r, s') ->
  (s' = s /\ r <> Ok tt) \/
  (st_array s c = None /\ readable c x /\
   (s' = store c (norm x) s /\ r <> Ok tt \/
    exists s2, set_geos geq (named x) (store c (norm x) s) = Ok s2 /\
      (s' = s2 /\ r <> Ok tt \/
       (match dim_of c with
        | WithTime => set_times teq tle parse (d_times x) s2
        | WithMediaTime => set_media_times teq tle parse (d_times x) s2
        | WithoutTime => Ok s2
        end = Ok s' /\ r = Ok tt)))).
Proof.
  intros c x s r s' E. unfold M_Builder.set_component in E.
  destruct (st_array s c) as [y|] eqn:A; [left; split; congruence|].
  destruct (negb (channels_ok ceq s c x)); [left; split; congruence|].
  destruct (normalize parse national c x) as [y|e] eqn:Nm; [|left; split; congruence].
  apply normalize_iff in Nm. destruct Nm as [Rd ->]. right. split; [reflexivity|split; [exact Rd|]].
  rewrite norm_geos, norm_times in E. cbv zeta in E.
  destruct (set_geos geq (named x) (store c (norm x) s)) as [s2|e] eqn:Gs; [|left; split; congruence].
  right. exists s2. split; [reflexivity|].
  destruct (match dim_of c with
        | WithTime => set_times teq tle parse (d_times x) s2
        | WithMediaTime => set_media_times teq tle parse (d_times x) s2
        | WithoutTime => Ok s2
        end) as [s3|e] eqn:Ts.
  - right. split; congruence.
  - left. split; congruence.
Qed.

Lemma combine_snoc : forall A B (l : list A) (m : list B) a b, length l = length m ->
  combine (l ++ [a]) (m ++ [b]) = combine l m ++ [(a, b)].
Proof. induction l as [|x l IH]; intros [|y m] a b L; cbn in *; try lia; [reflexivity|]. f_equal. apply IH. lia. Qed.

Lemma sound_step : forall hist rs s c x r s', length hist = length rs -> sound hist rs s -> set_component c x s = (r, s') ->
  sound (hist ++ [(c, x)]) (rs ++ [r]) s'.
Proof.
  intros hist rs s c x r s' Len [H1 H2 H3 H4 H5 H6] E.
  apply set_component_cases in E.
  assert (Mono : forall c0 x0, (exists x1, In (c0, x1) hist /\ x0 = norm x1) ->
            exists x1, In (c0, x1) (hist ++ [(c, x)]) /\ x0 = norm x1).
  { intros c0 x0 (x1 & I1 & E1). exists x1. split; [apply in_app_iff; left; exact I1|exact E1]. }
  destruct E as [[-> Nr]|(An & Rd & E)].
  { constructor; auto. intros c0 x0 I0. rewrite combine_snoc in I0 by exact Len. apply in_app_iff in I0.
    destruct I0 as [I0|[I0|[]]]; [auto|]. congruence. }
  assert (Arr : st_array s' = st_array (store c (norm x) s)).
  { destruct E as [[-> _]|(s2 & Es & [[-> _]|[Et _]])]; [reflexivity| |];
      apply set_geos_inv in Es; destruct Es as (_ & _ & _ & _ & Es); [exact Es|].
    destruct (dim_of c).
    - apply set_times_inv in Et. destruct Et as (_ & _ & _ & _ & _ & _ & Et). congruence.
    - apply set_media_times_inv in Et. destruct Et as (_ & _ & _ & _ & _ & _ & Et). congruence.
    - congruence. }
  assert (A5 : forall c0 x0, st_array s' c0 = Some x0 -> exists x1, In (c0, x1) (hist ++ [(c, x)]) /\ x0 = norm x1).
  { intros c0 x0 E0. rewrite Arr in E0. destruct (component_eq_dec c0 c) as [->|Nc].
    - rewrite store_same in E0. exists x. split; [apply in_app_iff; right; left; reflexivity|congruence].
    - rewrite store_other in E0 by exact Nc. apply Mono. auto. }
  assert (A6 : forall c0 x0, In ((c0, x0), Ok tt) (combine (hist ++ [(c, x)]) (rs ++ [r])) -> st_array s' c0 = Some (norm x0)).
  { intros c0 x0 I0. rewrite combine_snoc in I0 by exact Len. apply in_app_iff in I0. rewrite Arr.
    destruct I0 as [I0|[I0|[]]].
    - pose proof (H6 _ _ I0) as E0. destruct (component_eq_dec c0 c) as [->|Nc]; [congruence|].
      rewrite store_other by exact Nc. exact E0.
    - assert (c0 = c) by congruence. assert (x0 = x) by congruence. subst. apply store_same. }
  destruct E as [[-> _]|(s2 & Es & E)]; [constructor; auto|].
  apply set_geos_inv in Es. destruct Es as (Ng & Eg & Et2 & Em2 & _). cbn in Et2, Em2.
  assert (G2 : forall g, st_geos s2 = Some g -> NoDup g) by (intros g Hg; congruence).
  destruct E as [[-> _]|[Et ->]].
  { constructor; auto; try rewrite Et2; try rewrite Em2; auto. }
  destruct (dim_of c) eqn:Dc.
  - assert (Rt : forall a, In a (d_times x) -> parse a <> None) by (apply Rd; congruence).
    apply set_times_inv in Et. destruct Et as (Nt & Kt & Lt & E1 & E2 & E3 & _).
    constructor; auto.
    + intros g Hg. apply G2. congruence.
    + intros t Ht. assert (t = d_times x) by congruence. subst t. auto.
    + intros t Ht. apply H3. congruence.
    + intros t m Ht Hm. assert (t = d_times x) by congruence. subst t. apply Lt. congruence.
  - assert (Rt : forall a, In a (d_times x) -> parse a <> None) by (apply Rd; congruence).
    apply set_media_times_inv in Et. destruct Et as (Nt & Kt & Lt & E1 & E2 & E3 & _).
    constructor; auto.
    + intros g Hg. apply G2. congruence.
    + intros t Ht. apply H2. congruence.
    + intros t Ht. assert (t = d_times x) by congruence. subst t. auto.
    + intros t m Ht Hm. assert (m = d_times x) by congruence. subst m. apply Lt. congruence.
  - assert (s' = s2) by congruence. subst s'. constructor; auto; try rewrite Et2; try rewrite Em2; auto.
Qed.

Lemma run_cons : forall c (x : da) rest (s : state), run ((c, x) :: rest) s =
  (fst (set_component c x s) :: fst (run rest (snd (set_component c x s))), snd (run rest (snd (set_component c x s)))).
Proof. intros. cbn [M_Builder.run]. destruct (set_component c x s) as [r s1]. destruct (run rest s1) as [rs s2] eqn:E. cbn. rewrite E. reflexivity. Qed.

Lemma sound_run : forall rest hist rs s, length hist = length rs -> sound hist rs s ->
  sound (hist ++ rest) (rs ++ fst (run rest s)) (snd (run rest s)).
Proof.
  induction rest as [|[c x] rest IH]; intros hist rs s Len H.
  - cbn. rewrite !app_nil_r. exact H.
  - rewrite run_cons. cbn [fst snd]. destruct (set_component c x s) as [r s1] eqn:E. cbn [fst snd].
    pose proof (sound_step _ _ _ _ _ _ _ Len H E) as H1.
    assert (Len1 : length (hist ++ [(c, x)]) = length (rs ++ [r])) by (rewrite !app_length; cbn; lia).
    specialize (IH _ _ _ Len1 H1). rewrite <- !app_assoc in IH. exact IH.
Qed.
Lemma sound_reached : forall hist, sound hist (fst (run hist init)) (snd (run hist init)).
Proof. intros hist. apply (sound_run hist [] [] init); [reflexivity|apply sound_init]. Qed.

(** *** build *)
Lemma mapM_in : forall A B (f : A -> result B) l bs, mapM f l = Ok bs -> forall b, In b bs -> exists a, In a l /\ f a = Ok b.
Proof.
  intros A B f l. induction l as [|a l IH]; intros bs E b Ib; cbn in E.
  - assert (bs = []) by congruence. subst. contradiction.
  - apply inv_rbind' in E. destruct E as (b1 & E1 & E). apply inv_rbind' in E. destruct E as (bs1 & E2 & E).
    assert (bs = b1 :: bs1) by congruence. subst. destruct Ib as [<-|Ib]; [exists a; split; [left; reflexivity|exact E1]|].
    destruct (IH _ E2 _ Ib) as (a1 & I1 & F1). exists a1. split; [right; exact I1|exact F1].
Qed.

Lemma dates_sorted : forall l, (forall a, In a l -> parse a <> None) -> nondecreasing (dates_of parse l) = true -> le_sorted dleb l.
Proof.
  intros l Hp H. apply nondecreasing_sorted in H. induction l as [|a l IH]; [constructor|].
  unfold dates_of in H. cbn [flat_map] in H. destruct (parse a) as [d|] eqn:Ea; [|exfalso; apply (Hp a); [left; reflexivity|exact Ea]].
  cbn [app] in H. inversion H as [|? ? H1 H2]; subst. constructor.
  - apply IH; [intros b Hb; apply Hp; right; exact Hb|exact H1].
  - rewrite Forall_forall in *. intros b Hb. unfold date_label_leb. rewrite Ea. destruct (parse b) as [e|] eqn:Eb; [|reflexivity].
    apply H2. apply in_flat_map. exists b. split; [exact Hb|]. rewrite Eb. left. reflexivity.
Qed.
Lemma coordinates_sorted : forall l, (forall a, In a l -> parse a <> None) -> coordinates_ok l = true ->
  le_sorted dleb (isort tle l).
Proof.
  intros l Hp H. apply dates_sorted; [intros a Ha; apply Hp; apply isort_in in Ha; exact Ha|].
  unfold M_Builder.coordinates_ok, time_coordinates in H. destruct (Nat.leb _ 1); [discriminate|].
  cbn [raise_if] in H. destruct (nondecreasing (dates_of parse (isort tle l))); [reflexivity|discriminate].
Qed.

Lemma dleb_total : forall a b, dleb a b = true \/ dleb b a = true.
Proof. intros a b. unfold date_label_leb. destruct (parse a), (parse b); auto. apply date_leb_total. Qed.
(** [dleb] is transitive on readable labels; to sort, restrict it. *)
Lemma insert_sorted_on : forall x l, parse x <> None -> (forall a, In a l -> parse a <> None) -> le_sorted dleb l ->
  le_sorted dleb (insert dleb x l).
Proof.
  intros x l Px Pl H. induction H as [|y l Hs IH Hy]; cbn; [repeat constructor|].
  destruct (dleb x y) eqn:E.
  - constructor; [constructor; assumption|]. constructor; [exact E|]. rewrite Forall_forall in *. intros a Ha.
    specialize (Hy a Ha). unfold date_label_leb in *. destruct (parse x) as [dx|]; [|congruence].
    destruct (parse y) as [dy|] eqn:Ey; [|exfalso; apply (Pl y); [left; reflexivity|exact Ey]].
    destruct (parse a); [|reflexivity]. eapply date_leb_trans; eassumption.
  - constructor; [apply IH; intros a Ha; apply Pl; right; exact Ha|]. apply Forall_forall. intros a Ha.
    apply (Permutation_in _ (Permutation_sym (insert_perm dleb x l))) in Ha. destruct Ha as [<-|Ha].
    + destruct (dleb_total x y); congruence.
    + rewrite Forall_forall in Hy. auto.
Qed.
Lemma isort_sorted_on : forall l, (forall a, In a l -> parse a <> None) -> le_sorted dleb (isort dleb l).
Proof.
  induction l as [|x l IH]; intros P; cbn; [constructor|]. apply insert_sorted_on.
  - apply P. left. reflexivity.
  - intros a Ha. apply P. right. apply isort_in in Ha. exact Ha.
  - apply IH. intros a Ha. apply P. right. exact Ha.
Qed.
Definition one_way (l : list T) : Prop := forall a b, In a l -> In b l -> parse a = parse b -> a = b.
Lemma dleb_anti : forall l a b, one_way l -> (forall a, In a l -> parse a <> None) -> In a l -> In b l ->
  dleb a b = true -> dleb b a = true -> a = b.
Proof.
  intros l a b Ow P Ia Ib H1 H2. apply Ow; auto. unfold date_label_leb in *.
  destruct (parse a) eqn:Ea; [|exfalso; apply (P a); assumption].
  destruct (parse b) eqn:Eb; [|exfalso; apply (P b); assumption]. f_equal. apply date_leb_anti; assumption.
Qed.
Lemma date_sort_unique : forall l m, one_way l -> (forall a, In a l -> parse a <> None) -> le_sorted dleb m -> Permutation l m ->
  isort dleb l = m.
Proof.
  intros l m Ow P Sm Pm. apply sorted_unique with (leb := dleb); auto.
  - intros a b Ha Hb. apply (dleb_anti l); auto; apply isort_in in Ha, Hb; assumption.
  - apply isort_sorted_on. exact P.
  - transitivity l; [apply Permutation_sym, isort_perm|exact Pm].
Qed.

End Builder.

Section Lagged.
Context {T : Type} (teq : forall a b : T, {a = b} + {a <> b}) (tle : T -> T -> bool).
Notation lagged_ok := (lagged_ok teq tle).
(** The times are the last media times. *)
Lemma lagged_suffix : forall t m, NoDup t -> NoDup m -> subset teq t m = true -> lagged_ok m t = true ->
  exists pre rest, isort tle m = pre ++ rest /\ Permutation t rest /\ (forall a, In a pre <-> In a m /\ ~ In a t).
Proof.
  intros t m Nt Nm Sub Lag. unfold M_Builder.lagged_ok in Lag.
  set (na := isort tle (filter (fun a => negb (mem teq a t)) m)) in *.
  destruct (list_eq_dec teq na (firstn (length na) (isort tle m))) as [E|]; [|discriminate].
  exists na, (skipn (length na) (isort tle m)).
  assert (Sp : isort tle m = na ++ skipn (length na) (isort tle m)).
  { pose proof (firstn_skipn (length na) (isort tle m)) as E0. rewrite <- E in E0. symmetry. exact E0. }
  assert (Ina : forall a, In a na <-> In a m /\ ~ In a t).
  { intros a. unfold na. rewrite isort_in, filter_In, negb_true_iff, mem_false. reflexivity. }
  split; [exact Sp|split; [|exact Ina]].
  assert (Nd : NoDup (na ++ skipn (length na) (isort tle m))) by (rewrite <- Sp; apply isort_nodup; exact Nm).
  apply NoDup_Permutation; [exact Nt| |].
  - clear -Nd. revert Nd. generalize (skipn (length na) (isort tle m)) as r. induction na as [|b na IH]; intros r Nd; [exact Nd|].
    inversion Nd; subst. apply IH. assumption.
  - intros a. rewrite subset_iff in Sub.
    assert (Disj : In a na -> ~ In a (skipn (length na) (isort tle m))).
    { clear -Nd. revert Nd. generalize (skipn (length na) (isort tle m)) as r. induction na as [|b na IH]; intros r Nd Ia Ir; [contradiction|].
      cbn in Nd. inversion Nd; subst. destruct Ia as [<-|Ia]; [apply H1; apply in_app_iff; right; exact Ir|]. apply (IH r); auto. }
    assert (All : In a m <-> In a na \/ In a (skipn (length na) (isort tle m))).
    { rewrite <- (isort_in tle m a). rewrite Sp at 1. apply in_app_iff. }
    specialize (Ina a). split.
    + intros Ha. destruct (proj1 All (Sub a Ha)) as [K|K]; [apply Ina in K; tauto|exact K].
    + intros Hr. destruct (in_dec teq a t) as [K|K]; [exact K|]. exfalso. apply Disj; [|exact Hr]. apply Ina. split; [|exact K].
      apply All. right. exact Hr.
Qed.
End Lagged.
