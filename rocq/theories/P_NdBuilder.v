(** Proofs about the builder from arrays without coordinates. *)
From Coq Require Import ZArith Lia List Bool Permutation.
From Verif Require Import M_Base M_Time Lib_Sort M_Builder S_Builder P_Builder C_Builder M_NdBuilder S_NdBuilder.
Import ListNotations.
Local Open Scope nat_scope.
Local Open Scope list_scope.

Section P.
Context {G T C V : Type}.
Variables (geq : forall a b : G, {a = b} + {a <> b}) (teq : forall a b : T, {a = b} + {a <> b})
  (ceq : forall a b : C, {a = b} + {a <> b})
  (tle : T -> T -> bool) (gle : G -> G -> bool) (parse : T -> option date) (national : G) (one : V)
  (revenue : bool).
Notation state := (M_Builder.state G T C V).
Notation da := (M_Builder.da G T C V).
Notation nd := (M_NdBuilder.nd V).
Notation call := (M_NdBuilder.call G T C V).
Notation assign := (assign geq teq ceq tle parse national).
Notation perform := (perform geq teq ceq tle parse national one revenue).
Notation after := (after geq teq ceq tle parse national one revenue).
Notation validate_coords := (@validate_coords G T C V geq national).
Notation validate_shape := (@validate_shape G T C V ceq).

Record inv (s : state) : Prop := {
  iv_geos : forall g, st_geos s = Some g -> NoDup g;
  iv_times : forall t, st_times s = Some t -> NoDup t /\ coordinates_ok tle parse t = true /\ forall a, In a t -> parse a <> None;
  iv_media : forall t, st_media_times s = Some t -> NoDup t /\ coordinates_ok tle parse t = true /\ forall a, In a t -> parse a <> None;
  iv_both : forall t m, st_times s = Some t -> st_media_times s = Some m -> subset teq t m = true /\ lagged_ok teq tle m t = true
}.
Definition coords_set (d : time_dim) (s : state) : Prop :=
  match d with WithTime => st_times s <> None | WithMediaTime => st_media_times s <> None | WithoutTime => True end.
Definition foreign (gs : list G) : bool := match gs with [g] => if geq g national then false else true | _ => false end.
Definition raw (c : component) (x : nd) (n : option (list C)) (s : state) : da := to_da c x n s.
Notation norm := (norm national).

Lemma set_same_geos : forall gs (x : da) (s : state), st_geos s = Some gs -> NoDup gs -> d_geos x = gs ->
  set_geos geq (named national x) s = if foreign gs then Err ValueError else Ok s.
Proof.
  intros gs x [ts ms g ar] E N Ex. cbn in E. subst g. unfold set_geos, named. rewrite Ex. cbn [st_geos st_times st_media_times st_array].
  assert (K : forall l : list G, NoDup l -> unique geq l = true) by (intros l Hl; apply unique_iff; exact Hl).
  assert (R : forall l : list G, same_set geq l l = true) by (intros l; apply same_set_iff; tauto).
  destruct gs as [|g [|g' gs]]; cbn [foreign].
  - rewrite K by constructor. rewrite R. reflexivity.
  - rewrite K by (constructor; [intros []|constructor]). cbn [negb raise_if]. destruct (geq g national) as [->|D].
    + rewrite R. reflexivity.
    + destruct (same_set geq [g] [national]) eqn:S; [|reflexivity]. exfalso. rewrite same_set_iff in S.
      destruct (proj1 (S g) (or_introl eq_refl)) as [H|[]]. congruence.
  - rewrite (K _ N), R. reflexivity.
Qed.

Lemma set_same_times : forall t s, inv s -> st_times s = Some t -> set_times teq tle parse t s = Ok s.
Proof.
  intros t s I E. destruct (iv_times s I t E) as (N & Ck & _). unfold set_times.
  rewrite (proj2 (unique_iff teq t) N). cbn [negb raise_if]. rewrite E.
  assert (R : same_set teq t t = true) by (apply same_set_iff; tauto). rewrite R. cbn [negb raise_if].
  destruct (st_media_times s) as [m|] eqn:Em.
  - destruct (iv_both s I t m E Em) as (A & B). rewrite A, B, Ck. cbn [negb raise_if]. destruct s; cbn in *; congruence.
  - rewrite Ck. cbn [negb raise_if]. destruct s; cbn in *; congruence.
Qed.
Lemma set_same_media : forall t s, inv s -> st_media_times s = Some t -> set_media_times teq tle parse t s = Ok s.
Proof.
  intros t s I E. destruct (iv_media s I t E) as (N & Ck & _). unfold set_media_times.
  rewrite (proj2 (unique_iff teq t) N). cbn [negb raise_if]. rewrite E.
  assert (R : same_set teq t t = true) by (apply same_set_iff; tauto). rewrite R. cbn [negb raise_if].
  destruct (st_times s) as [m|] eqn:Em.
  - destruct (iv_both s I m t Em E) as (A & B). rewrite A, B, Ck. cbn [negb raise_if]. destruct s; cbn in *; congruence.
  - rewrite Ck. cbn [negb raise_if]. destruct s; cbn in *; congruence.
Qed.
Lemma inv_store : forall c x s, inv s -> inv (store c x s).
Proof. intros c x s [A B D E]. constructor; cbn; auto. Qed.

Lemma assign_eq : forall c x n s gs, inv s -> st_geos s = Some gs -> coords_set (dim_of c) s ->
  assign c x n s =
  match st_array s c with
  | Some _ => (Err ValueError, s)
  | None => if negb (channels_ok ceq s c (raw c x n s)) then (Err ValueError, s)
            else ((if foreign gs then Err ValueError else Ok tt), store c (norm (raw c x n s)) s)
  end.
Proof.
  intros c x n s gs I Eg Cs. unfold M_NdBuilder.assign, set_component. fold (raw c x n s).
  destruct (st_array s c); [reflexivity|]. destruct (negb _); [reflexivity|].
  assert (Rd : readable parse c (raw c x n s)).
  { intros Nd t Ht. cbn [raw to_da d_times] in Ht. unfold times_of in Ht. destruct (dim_of c); cbn [coords_set] in Cs.
    - destruct (st_times s) as [l|] eqn:El; [|congruence]. destruct (iv_times s I l El) as (_ & _ & K). auto.
    - destruct (st_media_times s) as [l|] eqn:El; [|congruence]. destruct (iv_media s I l El) as (_ & _ & K). auto.
    - congruence. }
  rewrite (proj2 (normalize_iff parse national c (raw c x n s) (norm (raw c x n s))) (conj Rd eq_refl)).
  cbv zeta. rewrite norm_geos, norm_times.
  rewrite (set_same_geos gs) by (try exact Eg; try (exact (iv_geos s I gs Eg)); cbn; unfold geos_of; rewrite Eg; reflexivity).
  destruct (foreign gs); [reflexivity|].
  assert (Ts : match dim_of c with
        | WithTime => set_times teq tle parse (d_times (raw c x n s)) (store c (norm (raw c x n s)) s)
        | WithMediaTime => set_media_times teq tle parse (d_times (raw c x n s)) (store c (norm (raw c x n s)) s)
        | WithoutTime => Ok (store c (norm (raw c x n s)) s)
        end = Ok (store c (norm (raw c x n s)) s)).
  { cbn [raw to_da d_times]. unfold times_of. destruct (dim_of c); cbn [coords_set] in Cs.
    - destruct (st_times s) as [l|] eqn:El; [|congruence]. apply set_same_times; [apply inv_store; exact I|exact El].
    - destruct (st_media_times s) as [l|] eqn:El; [|congruence]. apply set_same_media; [apply inv_store; exact I|exact El].
    - reflexivity. }
  rewrite Ts. reflexivity.
Qed.

(** *** The assignments of a call *)
Definition kept (c : component) (x : nd) : nd :=
  match c with RevenuePerKpi => revenue_defaults one revenue x | _ => x end.
Fixpoint assigns (sup : list (component * nd * option (list C))) : action :=
  match sup with
  | [] => fun s => (Ok tt, s)
  | (c, x, n) :: r => seq2 (assign c (kept c x) n) (assigns r)
  end.
Definition fresh (c : component) (x : nd) (n : option (list C)) (s : state) : da := norm (raw c (kept c x) n s).
Definition same_coords (s s' : state) : Prop :=
  st_times s' = st_times s /\ st_media_times s' = st_media_times s /\ st_geos s' = st_geos s.
Lemma fresh_same : forall c x n s s', same_coords s s' -> fresh c x n s' = fresh c x n s.
Proof.
  intros c x n s s' (A & B & D). unfold fresh, raw, to_da, geos_of, times_of. rewrite A, B, D. reflexivity.
Qed.
Lemma inv_same : forall s s', same_coords s s' -> inv s -> inv s'.
Proof. intros s s' (A & B & D) [I1 I2 I3 I4]. constructor; rewrite ?A, ?B, ?D; auto. Qed.
Lemma set_same : forall d s s', same_coords s s' -> coords_set d s -> coords_set d s'.
Proof. intros d s s' (A & B & _) H. unfold coords_set in *. rewrite A, B. exact H. Qed.
Definition comps (sup : list (component * nd * option (list C))) : list component := map (fun p => fst (fst p)) sup.
Definition adds (sup : list (component * nd * option (list C))) (s s' : state) : Prop :=
  forall c, st_array s' c = st_array s c \/
    (st_array s c = None /\ exists x n, In (c, x, n) sup /\ st_array s' c = Some (fresh c x n s)).

Lemma assigns_effect : forall sup s gs r s', inv s -> st_geos s = Some gs ->
  (forall c x n, In (c, x, n) sup -> coords_set (dim_of c) s) -> NoDup (comps sup) ->
  assigns sup s = (r, s') ->
  same_coords s s' /\ adds sup s s' /\ (r = Ok tt \/ r = Err ValueError) /\
  (r = Ok tt -> (sup <> [] -> foreign gs = false) /\
     forall c x n, In (c, x, n) sup -> st_array s c = None /\ st_array s' c = Some (fresh c x n s)).
Proof.
  induction sup as [|[[c x] n] sup IH]; intros s gs r s' I Eg Cs Nd H.
  - cbn in H. injection H as <- <-. split; [repeat split|]. split; [intros c; left; reflexivity|]. split; [left; reflexivity|].
    intros _. split; [congruence|intros c x n []].
  - cbn [assigns] in H. unfold seq2 in H.
    rewrite (assign_eq c (kept c x) n s gs I Eg (Cs c x n (or_introl eq_refl))) in H.
    destruct (st_array s c) as [y|] eqn:Ey.
    { injection H as <- <-. split; [repeat split|]. split; [intros c0; left; reflexivity|]. split; [right; reflexivity|discriminate]. }
    destruct (negb (channels_ok ceq s c (raw c (kept c x) n s))).
    { injection H as <- <-. split; [repeat split|]. split; [intros c0; left; reflexivity|]. split; [right; reflexivity|discriminate]. }
    fold (fresh c x n s) in H. set (s1 := store c (fresh c x n s) s) in *.
    assert (Sc : same_coords s s1) by (repeat split).
    assert (A1 : forall c0, st_array s1 c0 = st_array s c0 \/ c0 = c /\ st_array s1 c0 = Some (fresh c x n s)).
    { intros c0. unfold s1. destruct (component_eq_dec c0 c) as [->|D]; [right; split; [reflexivity|apply store_same]|left; apply store_other; exact D]. }
    destruct (foreign gs) eqn:F.
    { injection H as <- <-. split; [exact Sc|]. split; [|split; [right; reflexivity|discriminate]].
      intros c0. destruct (A1 c0) as [E|[-> E]]; [left; exact E|right]. split; [exact Ey|]. exists x, n. split; [left; reflexivity|exact E]. }
    cbn [comps map] in Nd. fold (comps sup) in Nd. inversion Nd as [|? ? Nc Nd']; subst.
    destruct (IH s1 gs r s') as (Sc' & Ad & R & K).
    { apply (inv_same s); assumption. }
    { exact Eg. }
    { intros c0 x0 n0 Hin. apply (set_same _ s); [exact Sc|]. apply (Cs c0 x0 n0). right. exact Hin. }
    { exact Nd'. }
    { exact H. }
    assert (Sc2 : same_coords s s') by (destruct Sc as (a1 & a2 & a3), Sc' as (b1 & b2 & b3); repeat split; congruence).
    split; [exact Sc2|]. split; [|split; [exact R|]].
    + intros c0. destruct (Ad c0) as [E|(E & x0 & n0 & Hin & E')].
      * destruct (A1 c0) as [E1|[-> E1]]; [left; congruence|right]. split; [exact Ey|]. exists x, n. split; [left; reflexivity|congruence].
      * right. destruct (A1 c0) as [E1|[-> E1]]; [|congruence]. split; [congruence|]. exists x0, n0. split; [right; exact Hin|].
        rewrite (fresh_same _ _ _ s s1 Sc) in E'. exact E'.
    + intros Hr. split; [intros _; reflexivity|]. destruct (K Hr) as (_ & K2). intros c0 x0 n0 [E|Hin].
      * injection E as <- <- <-. split; [exact Ey|]. destruct (Ad c) as [E|(E & _)].
        -- rewrite E. unfold s1. apply store_same.
        -- unfold s1 in E. rewrite store_same in E. discriminate.
      * destruct (K2 c0 x0 n0 Hin) as (E & E'). split.
        -- destruct (A1 c0) as [E1|[-> E1]]; [congruence|congruence].
        -- rewrite (fresh_same _ _ _ s s1 Sc) in E'. exact E'.
Qed.

Lemma assigns_ok : forall sup s gs names, inv s -> st_geos s = Some gs ->
  (forall c x n, In (c, x, n) sup -> coords_set (dim_of c) s /\ name_list n = names /\ st_array s c = None /\
     forall p y, In p (partners c) -> st_array s p = Some y -> d_chans y = names) ->
  NoDup (comps sup) -> foreign gs = false -> fst (assigns sup s) = Ok tt.
Proof.
  induction sup as [|[[c x] n] sup IH]; intros s gs names I Eg H Nd F; [reflexivity|].
  cbn [assigns]. unfold seq2. destruct (H c x n (or_introl eq_refl)) as (Cs & Hn & Ey & Pa).
  rewrite (assign_eq c (kept c x) n s gs I Eg Cs), Ey, F.
  assert (Ck : channels_ok ceq s c (raw c (kept c x) n s) = true).
  { unfold channels_ok. apply forallb_forall. intros p Hp. destruct (st_array s p) as [y|] eqn:E; [|reflexivity].
    destruct (list_eq_dec ceq (d_chans y) (d_chans (raw c (kept c x) n s))) as [|D]; [reflexivity|]. exfalso. apply D.
    rewrite (Pa p y Hp E). cbn [raw to_da d_chans]. symmetry. exact Hn. }
  rewrite Ck. cbn [negb]. fold (fresh c x n s). cbn [comps map] in Nd. fold (comps sup) in Nd. inversion Nd as [|? ? Nc Nd']; subst.
  apply (IH _ gs (name_list n)); [apply inv_store; exact I|exact Eg| |exact Nd'|exact F].
  intros c0 x0 n0 Hin. destruct (H c0 x0 n0 (or_intror Hin)) as (Cs0 & Hn0 & Ey0 & Pa0).
  split; [exact Cs0|]. split; [exact Hn0|].
  assert (D : c0 <> c). { intros ->. apply Nc. unfold comps. apply in_map_iff. exists (c, x0, n0). auto. }
  split; [rewrite store_other by exact D; exact Ey0|]. intros p y Hp E.
  destruct (component_eq_dec p c) as [->|Dp].
  - rewrite store_same in E. injection E as <-. unfold fresh. rewrite norm_chans. reflexivity.
  - rewrite store_other in E by exact Dp. exact (Pa0 p y Hp E).
Qed.

(** *** A call *)
Definition located (s : state) : state :=
  match st_geos s with Some _ => s | None => mkState (st_times s) (st_media_times s) (Some [national]) (st_array s) end.
Definition fits (sup : list (component * nd * option (list C))) (s : state) : Prop :=
  forall c x n, In (c, x, n) sup -> coords_set (dim_of c) s /\
    shaped c x n (geos_of (located s)) (times_of (dim_of c) s) /\ NoDup (name_list n).

Lemma inv_located : forall s, inv s -> inv (located s).
Proof.
  intros s I. unfold located. destruct (st_geos s) eqn:E; [exact I|]. destruct I as [A B D F]. constructor; cbn; auto.
  intros g H. injection H as <-. repeat constructor. intros [].
Qed.
Lemma located_times : forall d s, times_of d (located s) = times_of d s.
Proof. intros d s. unfold located. destruct (st_geos s); reflexivity. Qed.
Lemma located_set : forall d s, coords_set d (located s) <-> coords_set d s.
Proof. intros d s. unfold located. destruct (st_geos s); reflexivity. Qed.
Lemma located_twice : forall s, located (located s) = located s.
Proof. intros s. unfold located at 2 3. destruct (st_geos s) eqn:E; [unfold located; rewrite E; reflexivity|reflexivity]. Qed.
Lemma located_geos : forall s, exists gs, st_geos (located s) = Some gs /\ geos_of (located s) = gs.
Proof. intros s. unfold located, geos_of. destruct (st_geos s) as [l|] eqn:E; [exists l; rewrite E; auto|exists [national]; auto]. Qed.

Lemma coords_run : forall d s, (coords_set d s /\ validate_coords d s = (Ok tt, located s)) \/
  (~ coords_set d s /\ validate_coords d s = (Err ValueError, s)).
Proof.
  intros d s. unfold M_NdBuilder.validate_coords, coords_set, located, of_setter, set_geos. destruct d.
  - destruct (st_times s); [left; split; [discriminate|]|right; split; [tauto|reflexivity]]. destruct (st_geos s); [reflexivity|]. reflexivity.
  - destruct (st_media_times s); [left; split; [discriminate|]|right; split; [tauto|reflexivity]]. destruct (st_geos s); [reflexivity|]. reflexivity.
  - left. split; [exact Logic.I|]. destruct (st_geos s); reflexivity.
Qed.
Lemma shape_run : forall c x n s, (dim_of c = WithoutTime -> n = None) ->
  (shaped c x n (geos_of s) (times_of (dim_of c) s) /\ NoDup (name_list n) /\ validate_shape x (dim_of c) n s = (Ok tt, s)) \/
  (~ (shaped c x n (geos_of s) (times_of (dim_of c) s) /\ NoDup (name_list n)) /\ validate_shape x (dim_of c) n s = (Err ValueError, s)).
Proof.
  intros c x n s Hn. unfold M_NdBuilder.validate_shape, shaped, expected_shape.
  destruct n as [l|].
  - destruct (dim_of c); [| |specialize (Hn eq_refl); discriminate].
    all: cbn [name_list]; destruct (unique ceq l) eqn:U; cbn [negb].
    all: try (apply unique_iff in U; destruct (list_eq_dec Nat.eq_dec _ (nd_shape x)) as [E|E];
              [left; split; [symmetry; exact E|split; [exact U|reflexivity]]|right; split; [intros [K _]; apply E; symmetry; exact K|reflexivity]]).
    all: right; split; [intros [_ K]; apply unique_iff with (dec := ceq) in K; congruence|reflexivity].
  - destruct (dim_of c); (destruct (list_eq_dec Nat.eq_dec _ (nd_shape x)) as [E|E];
      [left; split; [symmetry; exact E|split; [constructor|reflexivity]]|right; split; [intros [K _]; apply E; symmetry; exact K|reflexivity]]).
Qed.

Lemma fits_one : forall c x n s,
  fits [(c, x, n)] s <-> coords_set (dim_of c) s /\ shaped c x n (geos_of (located s)) (times_of (dim_of c) s) /\ NoDup (name_list n).
Proof.
  intros c x n s. split; [intros H; apply (H c x n); left; reflexivity|].
  intros H c0 x0 n0 [E|[]]. injection E as <- <- <-. exact H.
Qed.
Lemma fits_cons : forall c x n sup s, fits ((c, x, n) :: sup) s <-> fits [(c, x, n)] s /\ fits sup s.
Proof.
  intros c x n sup s. split.
  - intros H. split; intros c0 x0 n0 Hin; apply (H c0 x0 n0); [destruct Hin as [E|[]]; left; exact E|right; exact Hin].
  - intros [A B] c0 x0 n0 [E|Hin]; [apply (A c0 x0 n0); left; exact E|apply (B c0 x0 n0 Hin)].
Qed.
Lemma seq_end : forall (a : @action G T C V) s, seq2 a (fun s0 => (Ok tt, s0)) s = a s.
Proof. intros a s. unfold seq2. destruct (a s) as [[[]|e] s1]; reflexivity. Qed.
Lemma shape_at : forall c x n s, (dim_of c = WithoutTime -> n = None) -> coords_set (dim_of c) s ->
  (fits [(c, x, n)] s /\ validate_shape x (dim_of c) n (located s) = (Ok tt, located s)) \/
  (~ fits [(c, x, n)] s /\ validate_shape x (dim_of c) n (located s) = (Err ValueError, located s)).
Proof.
  intros c x n s Hn Cs. pose proof (shape_run c x n (located s) Hn) as H. rewrite located_times in H.
  destruct H as [(A & B & E)|(A & E)]; [left|right]; (split; [|exact E]).
  - apply fits_one. auto.
  - rewrite fits_one. tauto.
Qed.
Lemma coords_at : forall d s, (coords_set d s /\ validate_coords d (located s) = (Ok tt, located s)) \/
  (~ coords_set d s /\ validate_coords d (located s) = (Err ValueError, located s)).
Proof.
  intros d s. pose proof (coords_run d (located s)) as H. rewrite located_twice, located_set in H. exact H.
Qed.

Definition outcome (k : call) (s : state) : Prop :=
  (fits (supplies k) s /\ perform k s = assigns (supplies k) (located s)) \/
  (~ fits (supplies k) s /\ (perform k s = (Err ValueError, s) \/ perform k s = (Err ValueError, located s))).

Lemma seq_ok : forall (a b : @action G T C V) s s1, a s = (Ok tt, s1) -> seq2 a b s = b s1.
Proof. intros a b s s1 E. unfold seq2. rewrite E. reflexivity. Qed.
Lemma seq_err : forall (a b : @action G T C V) s s1 e, a s = (Err e, s1) -> seq2 a b s = (Err e, s1).
Proof. intros a b s s1 e E. unfold seq2. rewrite E. reflexivity. Qed.
Lemma seq_assoc_end : forall (a b : @action G T C V) s, seq2 a (seq2 b (fun s0 => (Ok tt, s0))) s = seq2 a b s.
Proof. intros a b s. unfold seq2 at 1 3. destruct (a s) as [[[]|e] s1]; [apply seq_end|reflexivity]. Qed.
Lemma unfit : forall c x n sup s, In (c, x, n) sup -> ~ fits [(c, x, n)] s -> ~ fits sup s.
Proof. intros c x n sup s Hin H F. apply H. apply fits_one. exact (F c x n Hin). Qed.
Lemma uncoord : forall c x n sup s, In (c, x, n) sup -> ~ coords_set (dim_of c) s -> ~ fits sup s.
Proof. intros c x n sup s Hin H F. apply H. exact (proj1 (F c x n Hin)). Qed.

Lemma with_one_run : forall c x n s, (dim_of c = WithoutTime -> n = None) ->
  (fits [(c, x, n)] s /\ with_one geq teq ceq tle parse national c x (kept c x) n s = assigns [(c, x, n)] (located s)) \/
  (~ fits [(c, x, n)] s /\ (with_one geq teq ceq tle parse national c x (kept c x) n s = (Err ValueError, s) \/
     with_one geq teq ceq tle parse national c x (kept c x) n s = (Err ValueError, located s))).
Proof.
  intros c x n s Hn. unfold with_one.
  destruct (coords_run (dim_of c) s) as [[Cs E]|[Cs E]].
  - rewrite (seq_ok _ _ _ _ E). destruct (shape_at c x n s Hn Cs) as [[F E2]|[F E2]].
    + left. split; [exact F|]. rewrite (seq_ok _ _ _ _ E2). cbn [assigns]. symmetry. apply seq_end.
    + right. split; [exact F|]. right. exact (seq_err _ _ _ _ _ E2).
  - right. split; [|left; exact (seq_err _ _ _ _ _ E)]. rewrite fits_one. tauto.
Qed.

Lemma media_run : forall m ms n s, outcome (WithMedia m ms n) s.
Proof.
  intros m ms n s. unfold outcome. cbn [M_NdBuilder.perform supplies]. set (sup := [(Media, m, Some n); (MediaSpend, ms, Some n)]).
  assert (I1 : In (Media, m, Some n) sup) by (left; reflexivity).
  assert (I2 : In (MediaSpend, ms, Some n) sup) by (right; left; reflexivity).
  destruct (coords_run WithMediaTime s) as [[Cm E1]|[Cm E1]];
    [|right; split; [exact (uncoord _ _ _ _ _ I1 Cm)|left; exact (seq_err _ _ _ _ _ E1)]].
  rewrite (seq_ok _ _ _ _ E1). destruct (coords_at WithTime s) as [[Ct E2]|[Ct E2]];
    [|right; split; [exact (uncoord _ _ _ _ _ I2 Ct)|right; exact (seq_err _ _ _ _ _ E2)]].
  rewrite (seq_ok _ _ _ _ E2). destruct (shape_at Media m (Some n) s ltac:(discriminate) Cm) as [[F1 E3]|[F1 E3]]; cbn [dim_of] in E3;
    [|right; split; [exact (unfit _ _ _ _ _ I1 F1)|right; exact (seq_err _ _ _ _ _ E3)]].
  rewrite (seq_ok _ _ _ _ E3). destruct (shape_at MediaSpend ms (Some n) s ltac:(discriminate) Ct) as [[F2 E4]|[F2 E4]]; cbn [dim_of] in E4;
    [|right; split; [exact (unfit _ _ _ _ _ I2 F2)|right; exact (seq_err _ _ _ _ _ E4)]].
  rewrite (seq_ok _ _ _ _ E4). left. split; [unfold sup; rewrite fits_cons; split; assumption|].
  unfold sup. cbn [assigns kept]. symmetry. apply seq_assoc_end.
Qed.
Lemma reach_run : forall r f rfs n s, outcome (WithReach r f rfs n) s.
Proof.
  intros r f rfs n s. unfold outcome. cbn [M_NdBuilder.perform supplies].
  set (sup := [(Reach, r, Some n); (Frequency, f, Some n); (RfSpend, rfs, Some n)]).
  assert (I1 : In (Reach, r, Some n) sup) by (left; reflexivity).
  assert (I2 : In (Frequency, f, Some n) sup) by (right; left; reflexivity).
  assert (I3 : In (RfSpend, rfs, Some n) sup) by (right; right; left; reflexivity).
  destruct (coords_run WithMediaTime s) as [[Cm E1]|[Cm E1]];
    [|right; split; [exact (uncoord _ _ _ _ _ I1 Cm)|left; exact (seq_err _ _ _ _ _ E1)]].
  rewrite (seq_ok _ _ _ _ E1). destruct (coords_at WithTime s) as [[Ct E2]|[Ct E2]];
    [|right; split; [exact (uncoord _ _ _ _ _ I3 Ct)|right; exact (seq_err _ _ _ _ _ E2)]].
  rewrite (seq_ok _ _ _ _ E2). destruct (shape_at Reach r (Some n) s ltac:(discriminate) Cm) as [[F1 E3]|[F1 E3]]; cbn [dim_of] in E3;
    [|right; split; [exact (unfit _ _ _ _ _ I1 F1)|right; exact (seq_err _ _ _ _ _ E3)]].
  rewrite (seq_ok _ _ _ _ E3). destruct (shape_at Frequency f (Some n) s ltac:(discriminate) Cm) as [[F2 E4]|[F2 E4]]; cbn [dim_of] in E4;
    [|right; split; [exact (unfit _ _ _ _ _ I2 F2)|right; exact (seq_err _ _ _ _ _ E4)]].
  rewrite (seq_ok _ _ _ _ E4). destruct (shape_at RfSpend rfs (Some n) s ltac:(discriminate) Ct) as [[F3 E5]|[F3 E5]]; cbn [dim_of] in E5;
    [|right; split; [exact (unfit _ _ _ _ _ I3 F3)|right; exact (seq_err _ _ _ _ _ E5)]].
  rewrite (seq_ok _ _ _ _ E5). left. split; [unfold sup; rewrite fits_cons; split; [assumption|]; rewrite fits_cons; split; assumption|].
  unfold sup. cbn [assigns kept]. unfold seq2 at 1 3.
  destruct (assign Reach r (Some n) (located s)) as [[[]|e] s1]; [|reflexivity]. symmetry. apply seq_assoc_end.
Qed.
Lemma organic_run : forall r f n s, outcome (WithOrganicReach r f n) s.
Proof.
  intros r f n s. unfold outcome. cbn [M_NdBuilder.perform supplies].
  set (sup := [(OrganicReach, r, Some n); (OrganicFrequency, f, Some n)]).
  assert (I1 : In (OrganicReach, r, Some n) sup) by (left; reflexivity).
  assert (I2 : In (OrganicFrequency, f, Some n) sup) by (right; left; reflexivity).
  destruct (coords_run WithMediaTime s) as [[Cm E1]|[Cm E1]];
    [|right; split; [exact (uncoord _ _ _ _ _ I1 Cm)|left; exact (seq_err _ _ _ _ _ E1)]].
  rewrite (seq_ok _ _ _ _ E1).
  destruct (shape_at OrganicReach r (Some n) s ltac:(discriminate) Cm) as [[F1 E3]|[F1 E3]]; cbn [dim_of] in E3;
    [|right; split; [exact (unfit _ _ _ _ _ I1 F1)|right; exact (seq_err _ _ _ _ _ E3)]].
  rewrite (seq_ok _ _ _ _ E3). destruct (shape_at OrganicFrequency f (Some n) s ltac:(discriminate) Cm) as [[F2 E4]|[F2 E4]]; cbn [dim_of] in E4;
    [|right; split; [exact (unfit _ _ _ _ _ I2 F2)|right; exact (seq_err _ _ _ _ _ E4)]].
  rewrite (seq_ok _ _ _ _ E4). left. split; [unfold sup; rewrite fits_cons; split; assumption|].
  unfold sup. cbn [assigns kept]. symmetry. apply seq_assoc_end.
Qed.
Lemma perform_run : forall k s, supplies k <> [] -> outcome k s.
Proof.
  intros k s Ne. destruct k as [l|l|l|x|x n|x|x|m ms n|r f rfs n|x n|r f n|x n]; try (exfalso; apply Ne; reflexivity).
  - exact (with_one_run Kpi x None s ltac:(reflexivity)).
  - exact (with_one_run Controls x (Some n) s ltac:(discriminate)).
  - exact (with_one_run Population x None s ltac:(reflexivity)).
  - exact (with_one_run RevenuePerKpi x None s ltac:(reflexivity)).
  - apply media_run.
  - apply reach_run.
  - exact (with_one_run OrganicMedia x (Some n) s ltac:(discriminate)).
  - apply organic_run.
  - exact (with_one_run NonMediaTreatments x (Some n) s ltac:(discriminate)).
Qed.

(** *** What a call does *)
Definition places (k : call) (s s' : state) : Prop :=
  forall c, st_array s' c = st_array s c \/
    (st_array s c = None /\ fits (supplies k) s /\
     exists x n, In (c, x, n) (supplies k) /\ st_array s' c = Some (fresh c x n (located s))).
Lemma comps_nodup : forall k : call, NoDup (comps (supplies k)).
Proof. intros k. destruct k; cbn; repeat constructor; cbn; intuition discriminate. Qed.
Lemma partner_given : forall (k : call) c x n p, In (c, x, n) (supplies k) -> In p (partners c) ->
  exists x', In (p, x', n) (supplies k).
Proof.
  intros k c x n p Hin Hp. destruct k; cbn [supplies In] in Hin; repeat (destruct Hin as [E|Hin]; [injection E as <- <- <-; cbn [partners In] in Hp|]);
    try contradiction; repeat (destruct Hp as [<-|Hp]; [eexists; cbn; eauto|]); try contradiction.
Qed.
Lemma one_name : forall (k : call) c x n c' x' n', In (c, x, n) (supplies k) -> In (c', x', n') (supplies k) -> n' = n.
Proof.
  intros k c x n c' x' n' H H'. destruct k; cbn [supplies In] in H, H';
  repeat (destruct H as [E|H]; [injection E as <- <- <-|]); try contradiction;
  repeat (destruct H' as [E|H']; [injection E as <- <- <-|]); try contradiction; reflexivity.
Qed.
Lemma located_array : forall s c, st_array (located s) c = st_array s c.
Proof. intros s c. unfold located. destruct (st_geos s); reflexivity. Qed.

Lemma step_supply : forall k s r s', supplies k <> [] -> inv s -> perform k s = (r, s') ->
  inv s' /\ (s' = s \/ same_coords (located s) s') /\ places k s s' /\ (r = Ok tt \/ r = Err ValueError) /\
  (r = Ok tt <-> fits (supplies k) s /\ foreign (geos_of (located s)) = false /\
     forall c x n, In (c, x, n) (supplies k) -> st_array s c = None) /\
  (r = Ok tt -> forall c x n, In (c, x, n) (supplies k) -> st_array s' c = Some (fresh c x n (located s))).
Proof.
  intros k s r s' Ne Iv E. destruct (perform_run k s Ne) as [[F E1]|[F E1]].
  - rewrite E1 in E. destruct (located_geos s) as (gs & Eg & Eg').
    assert (Cs : forall c x n, In (c, x, n) (supplies k) -> coords_set (dim_of c) (located s))
      by (intros c x n Hin; apply located_set; apply (F c x n Hin)).
    destruct (assigns_effect _ _ gs _ _ (inv_located s Iv) Eg Cs (comps_nodup k) E) as (Sc & Ad & R & K).
    split; [apply (inv_same (located s)); [exact Sc|apply inv_located; exact Iv]|]. split; [right; exact Sc|]. split; [|split; [exact R|split]].
    + intros c. destruct (Ad c) as [H|(H & x & n & Hin & H')]; rewrite located_array in H; [left; exact H|right].
      split; [exact H|]. split; [exact F|]. exists x, n. auto.
    + rewrite Eg'. split.
      * intros Hr. destruct (K Hr) as (K1 & K2). split; [exact F|]. split; [exact (K1 Ne)|].
        intros c x n Hin. destruct (K2 c x n Hin) as (H & _). rewrite located_array in H. exact H.
      * intros (_ & Fo & Un). destruct (supplies k) as [|[[c0 x0] n0] sup0] eqn:Es; [congruence|]. rewrite <- Es in *.
        assert (H0 : In (c0, x0, n0) (supplies k)) by (rewrite Es; left; reflexivity).
        pose proof (assigns_ok (supplies k) (located s) gs (name_list n0) (inv_located s Iv) Eg) as Q. rewrite E in Q. apply Q.
        -- intros c x n Hin. split; [exact (Cs c x n Hin)|]. split; [rewrite (one_name k _ _ _ _ _ _ H0 Hin); reflexivity|].
           split; [rewrite located_array; exact (Un c x n Hin)|]. intros p y Hp Hy. exfalso.
           destruct (partner_given k c x n p Hin Hp) as (x' & Hin'). rewrite located_array, (Un p x' n Hin') in Hy. discriminate.
        -- apply comps_nodup.
        -- exact Fo.
    + intros Hr c x n Hin. destruct (K Hr) as (_ & K2). apply (K2 c x n Hin).
  - assert (Q : r = Err ValueError /\ (s' = s \/ s' = located s)) by (destruct E1 as [E1|E1]; rewrite E1 in E; injection E as <- <-; auto).
    destruct Q as [-> Q]. split; [destruct Q as [-> | ->]; [exact Iv|apply inv_located; exact Iv]|].
    split; [destruct Q as [-> | ->]; [left; reflexivity|right; repeat split]|].
    split; [intros c; left; destruct Q as [-> | ->]; [reflexivity|apply located_array]|].
    split; [right; reflexivity|]. split; [split; [discriminate|tauto]|discriminate].
Qed.

Definition with_geos (l : list G) (s : state) : state := mkState (st_times s) (st_media_times s) (Some l) (st_array s).
Definition with_times (l : list T) (s : state) : state := mkState (Some l) (st_media_times s) (st_geos s) (st_array s).
Definition with_media_times (l : list T) (s : state) : state := mkState (st_times s) (Some l) (st_geos s) (st_array s).

Lemma step_geos : forall l s, inv s ->
  (perform (Geos l) s = (Ok tt, with_geos l s) /\ NoDup l /\ (forall g, st_geos s = Some g -> Permutation g l)) \/
  (perform (Geos l) s = (Err ValueError, s) /\ ~ (NoDup l /\ forall g, st_geos s = Some g -> Permutation g l)).
Proof.
  intros l s Iv. cbn [M_NdBuilder.perform]. unfold give_geos, of_setter, set_geos.
  destruct (unique geq l) eqn:U; cbn [negb raise_if].
  2: { right. split; [reflexivity|]. intros [N _]. apply (unique_iff geq) in N. congruence. }
  apply unique_iff in U. destruct (st_geos s) as [g|] eqn:Eg.
  - destruct (same_set geq g l) eqn:S; cbn [negb raise_if].
    + left. split; [reflexivity|]. split; [exact U|]. intros g0 E. injection E as <-. apply same_set_perm; [exact (iv_geos s Iv g Eg)|exact U|].
      rewrite same_set_iff in S. exact S.
    + right. split; [reflexivity|]. intros [_ P]. specialize (P g eq_refl). assert (K : same_set geq g l = true); [|congruence].
      apply same_set_iff. intros a. split; apply Permutation_in; [exact P|apply Permutation_sym; exact P].
  - left. split; [reflexivity|]. split; [exact U|discriminate].
Qed.
Lemma readable_all : forall l, unreadable parse l = false <-> forall t, In t l -> parse t <> None.
Proof.
  intros l. unfold unreadable. rewrite <- not_true_iff_false, existsb_exists. split.
  - intros H t Ht E. apply H. exists t. rewrite E. auto.
  - intros H (t & Ht & E). specialize (H t Ht). destruct (parse t); congruence.
Qed.
Lemma step_times : forall l s r s', inv s -> perform (Times l) s = (r, s') ->
  (r = Ok tt /\ s' = with_times l s /\ inv s' /\ (forall t, st_times s = Some t -> Permutation t l)) \/ (r = Err ValueError /\ s' = s).
Proof.
  intros l s r s' Iv E. cbn [M_NdBuilder.perform] in E. unfold give_times, of_setter in E.
  destruct (raise_if (unreadable parse l) ValueError (set_times teq tle parse l s)) as [s1|e] eqn:E1.
  - injection E as <- <-. left. apply raise_if_inv' in E1. destruct E1 as [Rd E1]. rewrite readable_all in Rd.
    destruct (set_times_inv teq tle parse l s s1 E1) as (N & Ck & Bo & A1 & A2 & A3 & A4).
    assert (Es : s1 = with_times l s) by (destruct s1; cbn in *; unfold with_times; congruence).
    split; [reflexivity|]. split; [exact Es|]. subst s1. split.
    + destruct Iv as [I1 I2 I3 I4]. constructor; cbn; auto.
      * intros t H. injection H as <-. auto.
      * intros t m H Hm. injection H as <-. apply Bo. exact Hm.
    + intros t Et. unfold set_times in E1. apply raise_if_inv' in E1. destruct E1 as [_ E1]. apply raise_if_inv' in E1. destruct E1 as [S _].
      rewrite Et in S. apply negb_false_iff in S. apply same_set_perm; [apply (iv_times s Iv t Et)|exact N|]. rewrite same_set_iff in S. exact S.
  - injection E as <- <-. right. split; [|reflexivity]. f_equal. unfold set_times in E1.
    destruct (unreadable parse l); cbn [raise_if] in E1; [congruence|].
    repeat match type of E1 with raise_if ?c _ _ = _ => destruct c; cbn [raise_if] in E1; [congruence|] end. discriminate.
Qed.
Lemma step_media_times : forall l s r s', inv s -> perform (MediaTimes l) s = (r, s') ->
  (r = Ok tt /\ s' = with_media_times l s /\ inv s' /\ (forall t, st_media_times s = Some t -> Permutation t l)) \/ (r = Err ValueError /\ s' = s).
Proof.
  intros l s r s' Iv E. cbn [M_NdBuilder.perform] in E. unfold give_media_times, of_setter in E.
  destruct (raise_if (unreadable parse l) ValueError (set_media_times teq tle parse l s)) as [s1|e] eqn:E1.
  - injection E as <- <-. left. apply raise_if_inv' in E1. destruct E1 as [Rd E1]. rewrite readable_all in Rd.
    destruct (set_media_times_inv teq tle parse l s s1 E1) as (N & Ck & Bo & A1 & A2 & A3 & A4).
    assert (Es : s1 = with_media_times l s) by (destruct s1; cbn in *; unfold with_media_times; congruence).
    split; [reflexivity|]. split; [exact Es|]. subst s1. split.
    + destruct Iv as [I1 I2 I3 I4]. constructor; cbn; auto.
      * intros t H. injection H as <-. auto.
      * intros t m H Hm. injection Hm as <-. apply Bo. exact H.
    + intros t Et. unfold set_media_times in E1. apply raise_if_inv' in E1. destruct E1 as [_ E1]. apply raise_if_inv' in E1. destruct E1 as [S _].
      rewrite Et in S. apply negb_false_iff in S. apply same_set_perm; [apply (iv_media s Iv t Et)|exact N|]. rewrite same_set_iff in S. exact S.
  - injection E as <- <-. right. split; [|reflexivity]. f_equal. unfold set_media_times in E1.
    destruct (unreadable parse l); cbn [raise_if] in E1; [congruence|].
    repeat match type of E1 with raise_if ?c _ _ = _ => destruct c; cbn [raise_if] in E1; [congruence|] end. discriminate.
Qed.

(** *** Histories *)
Definition accepts (pre : list call) (k : call) : Prop := fst (perform k (after pre)) = Ok tt.
Lemma after_snoc : forall hist k, after (hist ++ [k]) = snd (perform k (after hist)).
Proof. intros hist k. unfold M_NdBuilder.after. rewrite fold_left_app. reflexivity. Qed.
Lemma inv_step : forall k s, inv s -> inv (snd (perform k s)).
Proof.
  intros k s Iv. destruct (perform k s) as [r s'] eqn:E. cbn [snd].
  assert (D : supplies k <> [] \/ (exists l, k = Geos l) \/ (exists l, k = Times l) \/ (exists l, k = MediaTimes l)).
  { destruct k; cbn; try (left; discriminate); right; eauto. }
  destruct D as [Ne|[[l ->]|[[l ->]|[l ->]]]].
  - exact (proj1 (step_supply k s r s' Ne Iv E)).
  - destruct (step_geos l s Iv) as [(E1 & N & _)|(E1 & _)]; rewrite E1 in E; injection E as <- <-; [|exact Iv].
    destruct Iv as [I1 I2 I3 I4]. constructor; cbn; auto. intros g H. injection H as <-. exact N.
  - destruct (step_times l s r s' Iv E) as [(_ & _ & I1 & _)|(_ & ->)]; assumption.
  - destruct (step_media_times l s r s' Iv E) as [(_ & _ & I1 & _)|(_ & ->)]; assumption.
Qed.
Lemma inv_after : forall hist, inv (after hist).
Proof.
  intros hist. induction hist as [|k hist IH] using rev_ind.
  - constructor; cbn; discriminate.
  - rewrite after_snoc. apply inv_step. exact IH.
Qed.
Lemma kinds : forall k : call, supplies k <> [] \/ (exists l, k = Geos l) \/ (exists l, k = Times l) \/ (exists l, k = MediaTimes l).
Proof. intros k. destruct k; cbn; try (left; discriminate); right; eauto. Qed.

Lemma snoc_split : forall A (h : list A) k pre a post, h ++ [k] = pre ++ a :: post ->
  (post = [] /\ pre = h /\ k = a) \/ exists post', post = post' ++ [k] /\ h = pre ++ a :: post'.
Proof.
  intros A h k pre a post E. destruct post as [|b post] using rev_ind.
  - left. apply app_inj_tail in E. destruct E as [-> ->]. auto.
  - right. exists post. rewrite app_comm_cons, app_assoc in E. apply app_inj_tail in E. destruct E as [-> ->]. auto.
Qed.
Lemma last_extend : forall A (kind : list A -> call) hist l k, last_given accepts kind hist l ->
  (forall l', k = kind l' -> ~ accepts hist k) -> last_given accepts kind (hist ++ [k]) l.
Proof.
  intros A kind hist l k (pre & post & E & Ac & La) H. exists pre, (post ++ [k]).
  split; [rewrite E, <- app_assoc; reflexivity|]. split; [exact Ac|]. intros p q l' Ep.
  destruct (snoc_split _ _ _ _ _ _ Ep) as [(-> & -> & ->)|(q' & -> & ->)].
  - rewrite <- E. apply (H l' eq_refl).
  - apply (La p q' l' eq_refl).
Qed.
Lemma never_extend : forall A (kind : list A -> call) hist k, never_given accepts kind hist ->
  (forall l', k = kind l' -> ~ accepts hist k) -> never_given accepts kind (hist ++ [k]).
Proof.
  intros A kind hist k N H pre post l E.
  destruct (snoc_split _ _ _ _ _ _ E) as [(-> & -> & ->)|(q' & -> & ->)]; [apply (H l eq_refl)|apply (N pre q' l eq_refl)].
Qed.
Lemma last_now : forall A (kind : list A -> call) hist l, accepts hist (kind l) -> last_given accepts kind (hist ++ [kind l]) l.
Proof.
  intros A kind hist l Ac. exists hist, []. split; [reflexivity|]. split; [exact Ac|].
  intros p q l' E. destruct p; discriminate.
Qed.
Lemma geos_history : forall hist,
  match st_geos (after hist) with
  | Some gs => geos_in_force accepts national hist gs
  | None => never_given accepts Geos hist
  end.
Proof.
  intros hist. induction hist as [|k hist IH] using rev_ind.
  - cbn. intros pre post l E. destruct pre; discriminate.
  - rewrite after_snoc. pose proof (inv_after hist) as Iv. destruct (perform k (after hist)) as [r s'] eqn:E. cbn [snd].
    assert (Ext : (forall l', k = Geos l' -> ~ accepts hist k) ->
              (st_geos s' = st_geos (after hist) \/ st_geos s' = st_geos (located (after hist))) ->
              match st_geos s' with
              | Some gs => geos_in_force accepts national (hist ++ [k]) gs
              | None => never_given accepts Geos (hist ++ [k])
              end).
    { intros H Hs. destruct (st_geos (after hist)) as [gs|] eqn:Eg.
      - assert (Es : st_geos s' = Some gs) by (unfold located in Hs; rewrite Eg in Hs; destruct Hs; congruence). rewrite Es.
        destruct IH as [IH|[IH ->]]; [left; apply last_extend; assumption|right; split; [apply never_extend; assumption|reflexivity]].
      - unfold located in Hs. rewrite Eg in Hs. cbn [st_geos] in Hs. destruct Hs as [-> | ->].
        + apply never_extend; assumption.
        + right. split; [apply never_extend; assumption|reflexivity]. }
    destruct (kinds k) as [Ne|[[l ->]|[[l ->]|[l ->]]]].
    + apply Ext; [intros l' ->; exfalso; apply Ne; reflexivity|].
      destruct (step_supply k _ r s' Ne Iv E) as (_ & Sc & _). destruct Sc as [-> |(_ & _ & Sc)]; [left; reflexivity|right; exact Sc].
    + destruct (step_geos l _ Iv) as [(E1 & N & _)|(E1 & _)].
      * assert (Ac : accepts hist (Geos l)) by (unfold accepts; rewrite E1; reflexivity).
        rewrite E1 in E. injection E as <- <-. cbn [with_geos st_geos]. left. apply last_now. exact Ac.
      * apply Ext; [|rewrite E1 in E; injection E as <- <-; left; reflexivity].
        intros l' _ Ac. unfold accepts in Ac. rewrite E1 in Ac. discriminate.
    + apply Ext; [discriminate|]. destruct (step_times l _ r s' Iv E) as [(_ & -> & _ & _)|(_ & ->)]; left; reflexivity.
    + apply Ext; [discriminate|]. destruct (step_media_times l _ r s' Iv E) as [(_ & -> & _ & _)|(_ & ->)]; left; reflexivity.
Qed.
Lemma times_history : forall hist,
  match st_times (after hist) with
  | Some ts => last_given accepts Times hist ts
  | None => never_given accepts Times hist
  end.
Proof.
  intros hist. induction hist as [|k hist IH] using rev_ind.
  - cbn. intros pre post l E. destruct pre; discriminate.
  - rewrite after_snoc. pose proof (inv_after hist) as Iv. destruct (perform k (after hist)) as [r s'] eqn:E. cbn [snd].
    assert (Ext : (forall l', k = Times l' -> ~ accepts hist k) -> st_times s' = st_times (after hist) ->
              match st_times s' with
              | Some gs => last_given accepts Times (hist ++ [k]) gs
              | None => never_given accepts Times (hist ++ [k])
              end).
    { intros H ->. destruct (st_times (after hist)) as [gs|]; [apply last_extend; assumption|apply never_extend; assumption]. }
    destruct (kinds k) as [Ne|[[l ->]|[[l ->]|[l ->]]]].
    + apply Ext; [intros l' ->; exfalso; apply Ne; reflexivity|].
      destruct (step_supply k _ r s' Ne Iv E) as (_ & Sc & _). destruct Sc as [-> |(Sc & _ & _)]; [reflexivity|].
      rewrite Sc. unfold located. destruct (st_geos (after hist)); reflexivity.
    + apply Ext; [discriminate|]. destruct (step_geos l _ Iv) as [(E1 & _)|(E1 & _)]; rewrite E1 in E; injection E as <- <-; reflexivity.
    + destruct (step_times l _ r s' Iv E) as [(-> & -> & _ & _)|(-> & ->)].
      * cbn [with_times st_times]. apply last_now. unfold accepts. rewrite E. reflexivity.
      * apply Ext; [|reflexivity]. intros l' _ Ac. unfold accepts in Ac. rewrite E in Ac. discriminate.
    + apply Ext; [discriminate|]. destruct (step_media_times l _ r s' Iv E) as [(_ & -> & _ & _)|(_ & ->)]; reflexivity.
Qed.
Lemma media_history : forall hist,
  match st_media_times (after hist) with
  | Some ts => last_given accepts MediaTimes hist ts
  | None => never_given accepts MediaTimes hist
  end.
Proof.
  intros hist. induction hist as [|k hist IH] using rev_ind.
  - cbn. intros pre post l E. destruct pre; discriminate.
  - rewrite after_snoc. pose proof (inv_after hist) as Iv. destruct (perform k (after hist)) as [r s'] eqn:E. cbn [snd].
    assert (Ext : (forall l', k = MediaTimes l' -> ~ accepts hist k) -> st_media_times s' = st_media_times (after hist) ->
              match st_media_times s' with
              | Some gs => last_given accepts MediaTimes (hist ++ [k]) gs
              | None => never_given accepts MediaTimes (hist ++ [k])
              end).
    { intros H ->. destruct (st_media_times (after hist)) as [gs|]; [apply last_extend; assumption|apply never_extend; assumption]. }
    destruct (kinds k) as [Ne|[[l ->]|[[l ->]|[l ->]]]].
    + apply Ext; [intros l' ->; exfalso; apply Ne; reflexivity|].
      destruct (step_supply k _ r s' Ne Iv E) as (_ & Sc & _). destruct Sc as [-> |(_ & Sc & _)]; [reflexivity|].
      rewrite Sc. unfold located. destruct (st_geos (after hist)); reflexivity.
    + apply Ext; [discriminate|]. destruct (step_geos l _ Iv) as [(E1 & _)|(E1 & _)]; rewrite E1 in E; injection E as <- <-; reflexivity.
    + apply Ext; [discriminate|]. destruct (step_times l _ r s' Iv E) as [(_ & -> & _ & _)|(_ & ->)]; reflexivity.
    + destruct (step_media_times l _ r s' Iv E) as [(-> & -> & _ & _)|(-> & ->)].
      * cbn [with_media_times st_media_times]. apply last_now. unfold accepts. rewrite E. reflexivity.
      * apply Ext; [|reflexivity]. intros l' _ Ac. unfold accepts in Ac. rewrite E in Ac. discriminate.
Qed.

(** What was set stays. *)
Record keeps (s s' : state) : Prop := {
  ke_geos : forall l, st_geos s = Some l -> exists l', st_geos s' = Some l' /\ Permutation l l';
  ke_times : forall l, st_times s = Some l -> exists l', st_times s' = Some l' /\ Permutation l l';
  ke_media : forall l, st_media_times s = Some l -> exists l', st_media_times s' = Some l' /\ Permutation l l';
  ke_array : forall c x, st_array s c = Some x -> st_array s' c = Some x
}.
Lemma keeps_refl : forall s, keeps s s.
Proof. intros s. constructor; intros; eauto. Qed.
Lemma keeps_trans : forall s1 s2 s3, keeps s1 s2 -> keeps s2 s3 -> keeps s1 s3.
Proof.
  intros s1 s2 s3 [A1 A2 A3 A4] [B1 B2 B3 B4]. constructor.
  - intros l H. destruct (A1 l H) as (l' & H' & P). destruct (B1 l' H') as (l2 & H2 & P2). exists l2. split; [exact H2|]. transitivity l'; assumption.
  - intros l H. destruct (A2 l H) as (l' & H' & P). destruct (B2 l' H') as (l2 & H2 & P2). exists l2. split; [exact H2|]. transitivity l'; assumption.
  - intros l H. destruct (A3 l H) as (l' & H' & P). destruct (B3 l' H') as (l2 & H2 & P2). exists l2. split; [exact H2|]. transitivity l'; assumption.
  - intros c x H. apply B4, A4, H.
Qed.
Lemma keeps_located : forall s, keeps s (located s).
Proof.
  intros s. unfold located. destruct (st_geos s) eqn:E; [apply keeps_refl|]. constructor; cbn; intros; eauto. congruence.
Qed.
Lemma keeps_step : forall k s, inv s -> keeps s (snd (perform k s)).
Proof.
  intros k s Iv. destruct (perform k s) as [r s'] eqn:E. cbn [snd]. destruct (kinds k) as [Ne|[[l ->]|[[l ->]|[l ->]]]].
  - destruct (step_supply k s r s' Ne Iv E) as (_ & Sc & Pl & _).
    assert (Ar : forall c x, st_array s c = Some x -> st_array s' c = Some x) by (intros c x H; destruct (Pl c) as [Q|(Q & _)]; congruence).
    destruct Sc as [-> |(S1 & S2 & S3)]; [apply keeps_refl|]. destruct (keeps_located s) as [K1 K2 K3 _].
    constructor; rewrite ?S1, ?S2, ?S3; auto.
  - destruct (step_geos l s Iv) as [(E1 & _ & P)|(E1 & _)]; rewrite E1 in E; injection E as <- <-; [|apply keeps_refl].
    constructor; cbn; intros; eauto.
  - destruct (step_times l s r s' Iv E) as [(_ & -> & _ & P)|(_ & ->)]; [|apply keeps_refl]. constructor; cbn; intros; eauto.
  - destruct (step_media_times l s r s' Iv E) as [(_ & -> & _ & P)|(_ & ->)]; [|apply keeps_refl]. constructor; cbn; intros; eauto.
Qed.
Lemma keeps_after : forall pre post, keeps (after pre) (after (pre ++ post)).
Proof.
  intros pre post. induction post as [|k post IH] using rev_ind; [rewrite app_nil_r; apply keeps_refl|].
  rewrite app_assoc, after_snoc. eapply keeps_trans; [exact IH|]. apply keeps_step. apply inv_after.
Qed.
(** Where the arrays come from. *)
Lemma array_history : forall hist c y, st_array (after hist) c = Some y ->
  exists pre k post x n, hist = pre ++ k :: post /\ In (c, x, n) (supplies k) /\ st_array (after pre) c = None /\
    fits (supplies k) (after pre) /\ y = fresh c x n (located (after pre)) /\ st_geos (after (pre ++ [k])) <> None.
Proof.
  intros hist. induction hist as [|k hist IH] using rev_ind; intros c y H; [discriminate|].
  rewrite after_snoc in H. pose proof (inv_after hist) as Iv. destruct (perform k (after hist)) as [r s'] eqn:E. cbn [snd] in H.
  assert (Old : st_array (after hist) c = Some y -> exists pre k0 post x n, hist ++ [k] = pre ++ k0 :: post /\ In (c, x, n) (supplies k0) /\ st_array (after pre) c = None /\
    fits (supplies k0) (after pre) /\ y = fresh c x n (located (after pre)) /\ st_geos (after (pre ++ [k0])) <> None).
  { intros H0. destruct (IH c y H0) as (pre & k0 & post & x & n & -> & Q). exists pre, k0, (post ++ [k]), x, n.
    split; [rewrite <- app_assoc; reflexivity|exact Q]. }
  destruct (kinds k) as [Ne|[[l ->]|[[l ->]|[l ->]]]].
  - destruct (step_supply k _ r s' Ne Iv E) as (_ & Sc & Pl & _). destruct (Pl c) as [Q|(Q & F & x & n & Hin & Q')].
    + apply Old. congruence.
    + exists hist, k, [], x, n. split; [reflexivity|]. split; [exact Hin|]. split; [exact Q|]. split; [exact F|]. split; [congruence|].
      rewrite after_snoc, E. cbn [snd]. destruct Sc as [-> |(_ & _ & ->)]; [congruence|].
      destruct (located_geos (after hist)) as (gs & -> & _). discriminate.
  - apply Old. destruct (step_geos l _ Iv) as [(E1 & _)|(E1 & _)]; rewrite E1 in E; injection E as <- <-; exact H.
  - apply Old. destruct (step_times l _ r s' Iv E) as [(_ & -> & _ & _)|(_ & ->)]; exact H.
  - apply Old. destruct (step_media_times l _ r s' Iv E) as [(_ & -> & _ & _)|(_ & ->)]; exact H.
Qed.
(** *** Decompositions of a history *)
Lemma split_cases : forall A (p : list A) k q p' k' q', p ++ k :: q = p' ++ k' :: q' ->
  (p = p' /\ k = k' /\ q = q') \/ (exists m, p' = p ++ k :: m /\ q = m ++ k' :: q') \/ (exists m, p = p' ++ k' :: m /\ q' = m ++ k :: q).
Proof.
  induction p as [|a p IH]; intros k q [|a' p'] k' q' E; cbn in E.
  - injection E as -> ->. auto.
  - injection E as -> ->. right. left. exists p'. auto.
  - injection E as -> <-. right. right. exists p. auto.
  - injection E as -> E. destruct (IH _ _ _ _ _ E) as [(-> & -> & ->)|[(m & -> & ->)|(m & -> & ->)]]; [auto|right; left|right; right]; exists m; auto.
Qed.
Lemma last_unique : forall A (kind : list A -> call) hist l l', (forall a b, kind a = kind b -> a = b) ->
  last_given accepts kind hist l -> last_given accepts kind hist l' -> l = l'.
Proof.
  intros A kind hist l l' Inj (p & q & E & Ac & La) (p' & q' & E' & Ac' & La'). rewrite E in E'.
  destruct (split_cases _ _ _ _ _ _ _ E') as [(_ & K & _)|[(m & -> & ->)|(m & -> & ->)]].
  - apply Inj. exact K.
  - exfalso. exact (La m q' l' eq_refl Ac').
  - exfalso. exact (La' m q l eq_refl Ac).
Qed.
Lemma last_not_never : forall A (kind : list A -> call) hist l, last_given accepts kind hist l -> ~ never_given accepts kind hist.
Proof. intros A kind hist l (p & q & E & Ac & _) N. exact (N p q l E Ac). Qed.
Lemma geos_determined : forall hist gs, geos_in_force accepts national hist gs <-> geos_of (located (after hist)) = gs.
Proof.
  intros hist gs. pose proof (geos_history hist) as H. unfold located, geos_of. destruct (st_geos (after hist)) as [l|] eqn:E.
  - rewrite E. split; [|intros <-; exact H]. intros [Q|[Q ->]]; destruct H as [H|[H ->]].
    + apply (last_unique _ Geos hist); [intros a b K; injection K; auto|exact H|exact Q].
    + exfalso. exact (last_not_never _ _ _ _ Q H).
    + exfalso. exact (last_not_never _ _ _ _ H Q).
    + reflexivity.
  - cbn [st_geos]. split; [|intros <-; right; auto]. intros [Q|[_ ->]]; [exfalso; exact (last_not_never _ _ _ _ Q H)|reflexivity].
Qed.
Lemma times_determined : forall c hist ts, times_in_force accepts c hist ts <-> coords_set (dim_of c) (after hist) /\ times_of (dim_of c) (after hist) = ts.
Proof.
  intros c hist ts. unfold times_in_force, coords_set, times_of. destruct (dim_of c).
  - pose proof (times_history hist) as H. destruct (st_times (after hist)) as [l|].
    + split; [intros Q; split; [discriminate|]|intros [_ <-]; exact H].
      apply (last_unique _ Times hist); [intros a b K; injection K; auto|exact H|exact Q].
    + split; [intros Q; exfalso; exact (last_not_never _ _ _ _ Q H)|tauto].
  - pose proof (media_history hist) as H. destruct (st_media_times (after hist)) as [l|].
    + split; [intros Q; split; [discriminate|]|intros [_ <-]; exact H].
      apply (last_unique _ MediaTimes hist); [intros a b K; injection K; auto|exact H|exact Q].
    + split; [intros Q; exfalso; exact (last_not_never _ _ _ _ Q H)|tauto].
  - split; [intros ->; auto|intros [_ <-]; reflexivity].
Qed.

(** *** Arrays of one call are set together *)
Definition sync (s : state) : Prop := forall c p, In p (partners c) -> (st_array s c = None <-> st_array s p = None).
Lemma same_call : forall (k : call) c x n c' x' n', In (c, x, n) (supplies k) -> In (c', x', n') (supplies k) -> c = c' \/ In c' (partners c).
Proof.
  intros k c x n c' x' n' H H'. destruct k; cbn [supplies In] in H, H';
  repeat (destruct H as [E|H]; [injection E as <- <- <-|]); try contradiction;
  repeat (destruct H' as [E|H']; [injection E as <- <- <-|]); try contradiction; cbn; auto.
Qed.
Lemma partner_sym : forall c p, In p (partners c) -> In c (partners p).
Proof. intros c p. destruct c; cbn; intuition (subst; cbn; auto). Qed.
Lemma sync_step : forall k s, inv s -> foreign (geos_of (located s)) = false -> sync s -> sync (snd (perform k s)).
Proof.
  intros k s Iv Fo Sy. destruct (perform k s) as [r s'] eqn:E. cbn [snd]. destruct (kinds k) as [Ne|[[l ->]|[[l ->]|[l ->]]]].
  - destruct (step_supply k s r s' Ne Iv E) as (_ & _ & Pl & _ & Ac & Al).
    destruct r as [[]|e].
    + destruct (proj1 Ac eq_refl) as (_ & _ & Un). specialize (Al eq_refl).
      assert (In_dec : forall c, (exists x n, In (c, x, n) (supplies k)) \/ st_array s' c = st_array s c).
      { intros c. destruct (Pl c) as [Q|(_ & _ & x & n & Hin & _)]; [right; exact Q|left; eauto]. }
      intros c p Hp. destruct (In_dec c) as [(x & n & Hin)|Qc].
      * destruct (partner_given k c x n p Hin Hp) as (x' & Hin'). rewrite (Al _ _ _ Hin), (Al _ _ _ Hin'). split; discriminate.
      * destruct (In_dec p) as [(x & n & Hin)|Qp]; [|rewrite Qc, Qp; apply Sy; exact Hp].
        destruct (partner_given k p x n c Hin (partner_sym _ _ Hp)) as (x' & Hin'). rewrite (Al _ _ _ Hin), (Al _ _ _ Hin'). split; discriminate.
    + assert (Same : forall c, st_array s' c = st_array s c).
      { intros c. destruct (Pl c) as [Q|(Q & F & x & n & Hin & _)]; [exact Q|]. exfalso.
        assert (K : Err e = Ok tt); [|discriminate]. apply Ac. split; [exact F|]. split; [exact Fo|].
        intros c' x' n' Hin'. destruct (same_call k _ _ _ _ _ _ Hin Hin') as [<-|Hp]; [exact Q|]. apply (Sy c c' Hp). exact Q. }
      intros c p Hp. rewrite !Same. apply Sy. exact Hp.
  - destruct (step_geos l s Iv) as [(E1 & _)|(E1 & _)]; rewrite E1 in E; injection E as <- <-; exact Sy.
  - destruct (step_times l s r s' Iv E) as [(_ & -> & _ & _)|(_ & ->)]; exact Sy.
  - destruct (step_media_times l s r s' Iv E) as [(_ & -> & _ & _)|(_ & ->)]; exact Sy.
Qed.
Lemma geos_located : forall s, geos_of (located s) = match st_geos s with Some l => l | None => [national] end.
Proof. intros s. unfold located, geos_of. destruct (st_geos s) as [l|] eqn:E; [rewrite E; reflexivity|reflexivity]. Qed.
Lemma foreign_back : forall pre post, foreign (geos_of (located (after (pre ++ post)))) = false -> foreign (geos_of (located (after pre))) = false.
Proof.
  intros pre post F. destruct (keeps_after pre post) as [K _ _ _]. rewrite geos_located in F |- *.
  destruct (st_geos (after pre)) as [l|] eqn:E.
  - destruct (K l eq_refl) as (l' & E' & P). rewrite E' in F. destruct l as [|g [|g' l]]; [reflexivity| |reflexivity].
    apply Permutation_length_1_inv in P. subst l'. exact F.
  - cbn. destruct (geq national national); congruence.
Qed.
Lemma sync_after : forall hist, foreign (geos_of (located (after hist))) = false -> sync (after hist).
Proof.
  intros hist. induction hist as [|k hist IH] using rev_ind; intros F.
  - intros c p _. cbn. tauto.
  - pose proof (foreign_back hist [k] F) as F'. rewrite after_snoc. apply sync_step; [apply inv_after|exact F'|apply IH; exact F'].
Qed.
Definition given_before (c : component) (pre : list call) : Prop :=
  exists p k q x n, pre = p ++ k :: q /\ In (c, x, n) (supplies k) /\ accepts p k.
Lemma accepted_sets : forall p k q c x n, In (c, x, n) (supplies k) -> accepts p k ->
  st_array (after p) c = None /\ st_array (after (p ++ k :: q)) c = Some (fresh c x n (located (after p))).
Proof.
  intros p k q c x n Hin Ac. assert (Ne : supplies k <> []) by (intros E; rewrite E in Hin; exact Hin).
  destruct (perform k (after p)) as [r s'] eqn:E. unfold accepts in Ac. rewrite E in Ac. cbn [fst] in Ac.
  destruct (step_supply k _ r s' Ne (inv_after p) E) as (_ & _ & _ & _ & A1 & A2).
  split; [exact (proj2 (proj2 (proj1 A1 Ac)) c x n Hin)|].
  change (p ++ k :: q) with (p ++ [k] ++ q). rewrite app_assoc. destruct (keeps_after (p ++ [k]) q) as [_ _ _ K]. apply K.
  rewrite after_snoc, E. exact (A2 Ac c x n Hin).
Qed.
Lemma set_given : forall c pre, foreign (geos_of (located (after pre))) = false ->
  (st_array (after pre) c <> None <-> given_before c pre).
Proof.
  intros c pre F. split.
  - intros H. destruct (st_array (after pre) c) as [y|] eqn:E; [|congruence].
    destruct (array_history pre c y E) as (p & k & q & x & n & -> & Hin & Un & Fi & _ & _).
    exists p, k, q, x, n. split; [reflexivity|]. split; [exact Hin|].
    assert (Fp := foreign_back p (k :: q) F). pose proof (sync_after p Fp) as Sy.
    assert (Ne : supplies k <> []) by (intros K; rewrite K in Hin; exact Hin).
    unfold accepts. destruct (perform k (after p)) as [r s'] eqn:Ek. cbn [fst].
    destruct (step_supply k _ r s' Ne (inv_after p) Ek) as (_ & _ & _ & _ & A1 & _).
    apply A1. split; [exact Fi|]. split; [exact Fp|]. intros c' x' n' Hin'.
    destruct (same_call k _ _ _ _ _ _ Hin Hin') as [<-|Hp]; [exact Un|]. apply (Sy c c' Hp). exact Un.
  - intros (p & k & q & x & n & -> & Hin & Ac). rewrite (proj2 (accepted_sets p k q c x n Hin Ac)). discriminate.
Qed.
Lemma accepted_lemma : forall pre k, supplies k <> [] ->
  (accepts pre k <-> exists gs, geos_in_force accepts national pre gs /\ (forall g, gs = [g] -> g = national) /\
     forall c x n, In (c, x, n) (supplies k) -> exists ts, times_in_force accepts c pre ts /\ shaped c x n gs ts /\
       NoDup (name_list n) /\ ~ given_before c pre).
Proof.
  intros pre k Ne. unfold accepts at 1. destruct (perform k (after pre)) as [r s'] eqn:E. cbn [fst].
  destruct (step_supply k _ r s' Ne (inv_after pre) E) as (_ & _ & _ & _ & A1 & _). rewrite A1.
  assert (Ff : foreign (geos_of (located (after pre))) = false <-> forall g, geos_of (located (after pre)) = [g] -> g = national).
  { unfold foreign. destruct (geos_of (located (after pre))) as [|g [|g' l]]; [|destruct (geq g national) as [->|D]|];
      (split; [intros F g0 Eg|intros H]); try reflexivity; try discriminate.
    - injection Eg as <-. reflexivity.
    - exfalso. apply D. apply H. reflexivity. }
  split.
  - intros (Fi & Fo & Un). exists (geos_of (located (after pre))). split; [apply geos_determined; reflexivity|].
    split; [apply Ff; exact Fo|]. intros c x n Hin. destruct (Fi c x n Hin) as (Cs & Sh & Nd).
    exists (times_of (dim_of c) (after pre)). split; [apply times_determined; auto|]. split; [exact Sh|]. split; [exact Nd|].
    rewrite <- (set_given c pre Fo). intros H. apply H. exact (Un c x n Hin).
  - intros (gs & Hg & Hn & H). apply geos_determined in Hg. rewrite <- Hg in Hn, H. apply Ff in Hn.
    split; [|split; [exact Hn|]].
    + intros c x n Hin. destruct (H c x n Hin) as (ts & Ht & Sh & Nd & _). apply times_determined in Ht. destruct Ht as (Cs & <-). auto.
    + intros c x n Hin. destruct (H c x n Hin) as (ts & _ & _ & _ & Ng). rewrite <- (set_given c pre Hn) in Ng.
      destruct (st_array (after pre) c); [exfalso; apply Ng; discriminate|reflexivity].
Qed.
Lemma value_error : forall pre k, supplies k <> [] -> fst (perform k (after pre)) = Ok tt \/ fst (perform k (after pre)) = Err ValueError.
Proof.
  intros pre k Ne. destruct (perform k (after pre)) as [r s'] eqn:E. cbn [fst].
  destruct (step_supply k _ r s' Ne (inv_after pre) E) as (_ & _ & _ & R & _). exact R.
Qed.

(** *** The result *)
Definition final_times (c : component) (s : state) : list T := isort (date_label_leb parse) (times_of (dim_of c) s).
Lemma entry_lemma : forall valid s out c y, build geq teq gle parse one valid s = Ok out -> In (c, y) out ->
  (c = Population -> length (d_geos y) <> 1) ->
  valid out = true /\
  exists g x, st_geos s = Some g /\ coords_set (dim_of c) s /\ st_array s c = Some x /\ d_geos y = isort gle g /\ d_chans y = d_chans x /\
    (dim_of c <> WithoutTime -> d_times y = final_times c s) /\
    forall i j k, i < length (d_geos y) -> j < n_times_of c y -> k < n_chans_of c y ->
      exists i0 j0 a v, nth_error (d_geos y) i = Some a /\ nth_error (d_geos x) i0 = Some a /\
        (if match dim_of c with WithoutTime => true | _ => false end then j0 = j
         else exists t, nth_error (d_times y) j = Some t /\ nth_error (d_times x) j0 = Some t) /\
        d_val y i j k = Some v /\ d_val x i0 j0 k = Some v.
Proof.
  intros valid s out c y E I Np. unfold build in E. apply inv_rbind' in E. destruct E as (pop & Er & E).
  destruct (st_geos s) as [g|] eqn:Eg; [|discriminate]. destruct (st_times s) as [t|] eqn:Et; [|discriminate].
  destruct (st_media_times s) as [m|] eqn:Em; [|discriminate]. cbv zeta in E.
  apply inv_rbind' in E. destruct E as (parts & Ep & E). apply raise_if_inv' in E. destruct E as [Nan E].
  apply raise_if_inv' in E. destruct E as [Va E]. assert (out = concat parts) by congruence. subst out. clear E.
  split; [apply negb_false_iff; exact Va|].
  assert (Hpop : length g = 1 \/ length g <> 1 /\ st_array s Population = Some pop).
  { unfold required in Er. apply raise_if_inv' in Er. destruct Er as [_ Er]. rewrite Eg in Er. cbv zeta in Er.
    destruct (Nat.eqb_spec (length g) 1) as [L|L]; [left; exact L|].
    destruct (st_array s Population) as [p|]; [|discriminate].
    repeat (apply raise_if_inv' in Er; destruct Er as [_ Er]). right. split; congruence. }
  assert (Hn : has_nan (c, y) = false).
  { rewrite <- not_true_iff_false in *. intros K. apply Nan. apply existsb_exists. eauto. }
  apply in_concat in I. destruct I as (part & Ip & Iy).
  destruct (mapM_in _ _ _ _ _ Ep _ Ip) as (c0 & _ & F). cbv beta in F.
  destruct (if component_eq_dec c0 Population then Some pop else st_array s c0) as [x|] eqn:Ex;
    [|assert (part = []) by congruence; subst; contradiction].
  apply inv_rbind' in F. destruct F as (y0 & Rx & F'). assert (part = [(c0, y0)]) by congruence. subst part.
  destruct Iy as [Iy|[]]. assert (c0 = c) by congruence. assert (y0 = y) by congruence. subst c0 y0.
  assert (Gy : d_geos y = isort gle g).
  { unfold reindex in Rx. apply raise_if_inv' in Rx. destruct Rx as [_ Rx].
    destruct (dim_of c); try (apply raise_if_inv' in Rx; destruct Rx as [_ Rx]); injection Rx as Ey; rewrite <- Ey; reflexivity. }
  assert (Es : st_array s c = Some x).
  { destruct (component_eq_dec c Population) as [->|]; [|exact Ex].
    destruct Hpop as [L|[_ Es]]; [|congruence]. exfalso. apply (Np eq_refl). rewrite Gy, isort_length. exact L. }
  exists g, x. split; [reflexivity|]. split; [unfold coords_set; destruct (dim_of c); [rewrite Et; discriminate|rewrite Em; discriminate|exact Logic.I]|].
  split; [exact Es|]. split; [exact Gy|].
  unfold reindex in Rx. apply raise_if_inv' in Rx. destruct Rx as [_ Rx]. unfold final_times, times_of.
  destruct (dim_of c) eqn:Dc.
  - apply raise_if_inv' in Rx. destruct Rx as [_ Rx]. injection Rx as Ey. rewrite Et.
    split; [rewrite <- Ey; reflexivity|]. split; [intros _; rewrite <- Ey; reflexivity|]. intros i j k Hi Hj Hk.
    destruct (has_nan_false _ _ _ _ c y Hn i j k Hi Hj Hk) as (v & Ev). rewrite <- Ey in Ev |- *. cbn [d_val d_times d_geos] in Ev |- *.
    destruct (lookup_at geq (isort gle g) (d_geos x) i) as [i0|] eqn:Li; [|discriminate].
    destruct (lookup_at teq (isort (date_label_leb parse) t) (d_times x) j) as [j0|] eqn:Lj; [|discriminate].
    apply lookup_some in Li, Lj. destruct Li as (lg & L1 & L2). destruct Lj as (lt & L3 & L4).
    exists i0, j0, lg, v. refine (conj L1 (conj L2 (conj _ (conj Ev Ev)))). exists lt. auto.
  - apply raise_if_inv' in Rx. destruct Rx as [_ Rx]. injection Rx as Ey. rewrite Em.
    split; [rewrite <- Ey; reflexivity|]. split; [intros _; rewrite <- Ey; reflexivity|]. intros i j k Hi Hj Hk.
    destruct (has_nan_false _ _ _ _ c y Hn i j k Hi Hj Hk) as (v & Ev). rewrite <- Ey in Ev |- *. cbn [d_val d_times d_geos] in Ev |- *.
    destruct (lookup_at geq (isort gle g) (d_geos x) i) as [i0|] eqn:Li; [|discriminate].
    destruct (lookup_at teq (isort (date_label_leb parse) m) (d_times x) j) as [j0|] eqn:Lj; [|discriminate].
    apply lookup_some in Li, Lj. destruct Li as (lg & L1 & L2). destruct Lj as (lt & L3 & L4).
    exists i0, j0, lg, v. refine (conj L1 (conj L2 (conj _ (conj Ev Ev)))). exists lt. auto.
  - injection Rx as Ey. split; [rewrite <- Ey; reflexivity|]. split; [congruence|]. intros i j k Hi Hj Hk.
    destruct (has_nan_false _ _ _ _ c y Hn i j k Hi Hj Hk) as (v & Ev). rewrite <- Ey in Ev |- *. cbn [d_val d_times d_geos] in Ev |- *.
    destruct (lookup_at geq (isort gle g) (d_geos x) i) as [i0|] eqn:Li; [|discriminate].
    apply lookup_some in Li. destruct Li as (lg & L1 & L2).
    exists i0, j, lg, v. refine (conj L1 (conj L2 (conj eq_refl (conj Ev Ev)))).
Qed.

Lemma cells_lemma : forall valid hist out c y, total_order gle ->
  nd_build geq teq gle parse one valid (after hist) = Ok out -> In (c, y) out -> (c = Population -> length (d_geos y) <> 1) ->
  exists pre k post x names gs ts,
    hist = pre ++ k :: post /\ In (c, x, names) (supplies k) /\
    (forall p k' q x' n', hist = p ++ k' :: q -> In (c, x', n') (supplies k') -> accepts p k' -> p = pre /\ k' = k) /\
    geos_in_force accepts national pre gs /\ times_in_force accepts c pre ts /\ shaped c x names gs ts /\
    d_chans y = name_list names /\
    Permutation gs (d_geos y) /\ le_sorted gle (d_geos y) /\
    (dim_of c <> WithoutTime -> Permutation ts (d_times y) /\ le_sorted (date_label_leb parse) (d_times y)) /\
    forall i j l, i < length (d_geos y) -> j < n_times_of c y -> l < n_chans_of c y ->
      exists i0 j0 g v, nth_error (d_geos y) i = Some g /\ nth_error gs i0 = Some g /\
        (dim_of c <> WithoutTime -> exists t, nth_error (d_times y) j = Some t /\ nth_error ts j0 = Some t) /\
        d_val y i j l = Some v /\
        (if match c with RevenuePerKpi => revenue | _ => false end then v = one else
         nd_val x i0 (match dim_of c with WithoutTime => j | _ => j0 end) l = Some v).
Proof.
  intros valid hist out c y [Gt Gr] E I Np.
  destruct (entry_lemma _ _ _ _ _ E I Np) as (_ & g & xa & Eg & Cf & Ea & Gy & Ch & Ty & Cell).
  destruct (array_history hist c xa Ea) as (pre & k & post & x & n & Eh & Hin & Un & Fi & Ex & Gk).
  destruct (Fi c x n Hin) as (Cs & Sh & Nd). set (gs := geos_of (located (after pre))) in *. set (ts := times_of (dim_of c) (after pre)) in *.
  assert (Pg : Permutation gs g).
  { subst hist. destruct (keeps_after (pre ++ [k]) post) as [K _ _ _]. rewrite <- app_assoc in K. cbn [app] in K.
    destruct (st_geos (after (pre ++ [k]))) as [l|] eqn:El; [|congruence]. destruct (K l eq_refl) as (l' & El' & P).
    assert (l' = g) by congruence. subst l'. transitivity l; [|exact P]. unfold gs.
    assert (Ne : supplies k <> []) by (intros K0; rewrite K0 in Hin; exact Hin).
    rewrite after_snoc in El. destruct (perform k (after pre)) as [r s'] eqn:Ek. cbn [snd] in El.
    destruct (step_supply k _ r s' Ne (inv_after pre) Ek) as (_ & Sc & _).
    destruct Sc as [-> |(_ & _ & Sc)].
    - rewrite geos_located, El. reflexivity.
    - unfold geos_of. rewrite <- Sc, El. reflexivity. }
  assert (Pt : Permutation ts (times_of (dim_of c) (after hist))).
  { subst hist. destruct (keeps_after pre (k :: post)) as [_ K1 K2 _]. unfold ts, times_of. unfold coords_set in Cs. destruct (dim_of c).
    - destruct (st_times (after pre)) as [l|]; [|congruence]. destruct (K1 l eq_refl) as (l' & -> & P). exact P.
    - destruct (st_media_times (after pre)) as [l|]; [|congruence]. destruct (K2 l eq_refl) as (l' & -> & P). exact P.
    - constructor. }
  exists pre, k, post, x, n, gs, ts. split; [exact Eh|]. split; [exact Hin|]. split.
  { intros p k' q x' n' E' Hin' Ac. rewrite Eh in E'. destruct (split_cases _ _ _ _ _ _ _ E') as [(-> & -> & _)|[(m & -> & ->)|(m & -> & ->)]].
    - auto.
    - exfalso. destruct (accepted_sets _ k' [] c x' n' Hin' Ac) as (U & _).
      assert (Q : st_array (after (pre ++ k :: m)) c = st_array (after (pre ++ [k])) c).
      { destruct (keeps_after (pre ++ [k]) m) as [_ _ _ K]. rewrite <- app_assoc in K. cbn [app] in K.
        destruct (st_array (after (pre ++ [k])) c) as [z|] eqn:Ez; [apply K; exact Ez|]. exact U. }
      (* the array was set by [k], hence after [pre ++ [k]] *)
      assert (Z : st_array (after (pre ++ [k])) c <> None).
      { assert (Ne : supplies k <> []) by (intros K0; rewrite K0 in Hin; exact Hin).
        rewrite after_snoc. destruct (perform k (after pre)) as [r s'] eqn:Ek. cbn [snd].
        destruct r as [[]|e].
        - destruct (step_supply k _ _ s' Ne (inv_after pre) Ek) as (_ & _ & _ & _ & _ & A2). rewrite (A2 eq_refl c x n Hin). discriminate.
        - intros Z. 
          (* not accepted and not set: then the geo is not its own, and the array is set later *)
          destruct (foreign (geos_of (located (after pre)))) eqn:Fo.
          + destruct (step_supply k' _ _ (snd (perform k' (after (pre ++ k :: m)))) ltac:(intros K0; rewrite K0 in Hin'; exact Hin') (inv_after _) (surjective_pairing _)) as (_ & _ & _ & _ & A1 & _).
            destruct (proj1 A1 Ac) as (_ & F0 & _). pose proof (foreign_back pre (k :: m) F0) as F1. congruence.
          + assert (K : accepts pre k); [|unfold accepts in K; rewrite Ek in K; discriminate].
            destruct (step_supply k _ _ s' Ne (inv_after pre) Ek) as (_ & _ & _ & _ & A1 & _).
            unfold accepts. rewrite Ek. cbn [fst]. apply A1. split; [exact Fi|]. split; [exact Fo|].
            intros c' x2 n2 Hin2. pose proof (sync_after pre Fo) as Sy.
            destruct (same_call k _ _ _ _ _ _ Hin Hin2) as [<-|Hp]; [exact Un|]. apply (Sy c c' Hp). exact Un. }
      congruence.
    - exfalso. destruct (accepted_sets p k' m c x' n' Hin' Ac) as (_ & U). congruence. }
  split; [apply geos_determined; reflexivity|]. split; [apply times_determined; auto|]. split; [exact Sh|].
  split; [rewrite Ch, Ex; unfold fresh; rewrite norm_chans; reflexivity|].
  split; [rewrite Gy; transitivity g; [exact Pg|apply isort_perm]|]. split; [rewrite Gy; apply isort_sorted; assumption|].
  split.
  { intros Nt. rewrite (Ty Nt). unfold final_times. split; [transitivity (times_of (dim_of c) (after hist)); [exact Pt|apply isort_perm]|].
    apply isort_sorted_on. intros a Ha. pose proof (inv_after hist) as Iv. unfold times_of, coords_set in *. destruct (dim_of c).
    - destruct (st_times (after hist)) as [l|] eqn:El; [|congruence]. exact (proj2 (proj2 (iv_times _ Iv l El)) a Ha).
    - destruct (st_media_times (after hist)) as [l|] eqn:El; [|congruence]. exact (proj2 (proj2 (iv_media _ Iv l El)) a Ha).
    - congruence. }
  intros i j l Hi Hj Hl. destruct (Cell i j l Hi Hj Hl) as (i0 & j0 & a & v & Na & Nx & Tm & Ev & Evx).
  exists i0, j0, a, v. split; [exact Na|]. split.
  { rewrite Ex in Nx. unfold fresh in Nx. rewrite norm_geos in Nx. unfold named in Nx. cbn [raw to_da d_geos] in Nx. fold gs in Nx.
    destruct gs as [|g1 [|g2 gs']] eqn:Egs; try exact Nx.
    assert (Ia : In a [g1]).
    { apply (Permutation_in _ (Permutation_sym Pg)). apply (isort_in gle). rewrite <- Gy. exact (nth_error_In _ _ Na). }
    destruct Ia as [<-|[]]. destruct i0 as [|i0]; [reflexivity|]. destruct i0; discriminate. }
  rewrite Ex in Evx. unfold fresh in Evx. rewrite norm_val in Evx. cbn [raw to_da d_val] in Evx.
  rewrite Ex in Tm. unfold fresh in Tm. rewrite norm_times in Tm. cbn [raw to_da d_times] in Tm. rewrite located_times in Tm. fold ts in Tm.
  split; [intros Nt; destruct (dim_of c); [exact Tm|exact Tm|congruence]|]. split; [exact Ev|].
  destruct c; cbn [kept dim_of] in *; try exact Evx.
  - rewrite Tm in Evx. exact Evx.
  - unfold revenue_defaults in Evx. destruct revenue; cbn [nd_val] in Evx; [congruence|exact Evx].
Qed.
(** What was accepted is in the result. *)
Lemma kept_lemma : forall valid hist out pre k post c x n, nd_build geq teq gle parse one valid (after hist) = Ok out ->
  hist = pre ++ k :: post -> accepts pre k -> In (c, x, n) (supplies k) -> c <> Population -> exists y, In (c, y) out.
Proof.
  intros valid hist out pre k post c x n E Eh Ac Hin Nc. apply (build_has _ _ _ _ _ _ _ _ _ _ _ _ E c Nc).
  subst hist. rewrite (proj2 (accepted_sets pre k post c x n Hin Ac)). discriminate.
Qed.
Lemma organic_never : forall valid hist, (exists pre k post r f n, hist = pre ++ k :: post /\ k = WithOrganicReach r f n /\ accepts pre k) ->
  forall out, nd_build geq teq gle parse one valid (after hist) <> Ok out.
Proof.
  intros valid hist (pre & k & post & r & f & n & Eh & -> & Ac) out E.
  destruct (kept_lemma valid hist out pre _ post OrganicFrequency f (Some n) E Eh Ac) as (y & Iy); [right; left; reflexivity|discriminate|].
  destruct (entry_lemma _ _ _ _ _ E Iy ltac:(discriminate)) as (Va & _). apply andb_true_iff in Va. destruct Va as [Va _].
  unfold names_ok in Va. rewrite forallb_forall in Va. specialize (Va _ Iy). cbn in Va. discriminate.
Qed.
End P.
