(** The dispatch of specs, and the dates of the buckets. *)
From Coq Require Import ZArith QArith Ascii String List Bool Sorted Lia Arith.
From Verif Require Import M_Base M_Time S_Time P_Time P_Period M_UiSpecs S_UiSpecs P_UiSpecs P_UiSpecs2 P_UiSpecs3.
Import ListNotations.
Local Open Scope Z_scope.
Local Open Scope list_scope.

Section Dispatch.
Variables Fit Marketing Rest Kernel Msg : Type.
Notation spec := (spec Fit Marketing Rest).
Notation mmm := (mmm Kernel Msg).

Lemma kind_eqb_iff : forall a b, kind_eqb a b = true <-> a = b.
Proof. intros [] []; cbn; split; intros H; try reflexivity; discriminate. Qed.
Fixpoint get (d : list (kind * list spec)) (k : kind) : option (list spec) :=
  match d with [] => None | (k', l) :: r => if kind_eqb k' k then Some l else get r k end.
Definition part (o : option (list spec)) : list spec := match o with Some l => l | None => [] end.

Lemma get_add : forall d s k, get (add_group _ _ _ d s) k = if kind_eqb (kind_of _ _ _ s) k then Some (part (get d k) ++ [s]) else get d k.
Proof.
  intros d s k. induction d as [|[k' l] r IH]; cbn [add_group get].
  - destruct (kind_eqb (kind_of _ _ _ s) k); reflexivity.
  - destruct (kind_eqb k' (kind_of _ _ _ s)) eqn:E; cbn [get].
    + apply kind_eqb_iff in E. subst k'. destruct (kind_eqb (kind_of _ _ _ s) k); reflexivity.
    + destruct (kind_eqb k' k) eqn:E2; [|exact IH]. apply kind_eqb_iff in E2. subst k'. destruct (kind_eqb (kind_of _ _ _ s) k) eqn:E3; [|reflexivity].
      apply kind_eqb_iff in E3. rewrite E3 in E. destruct k; discriminate.
Qed.
Lemma keys_add : forall (d : list (kind * list spec)) (s : spec), incl (map fst (add_group _ _ _ d s)) (kind_of _ _ _ s :: map fst d) /\ (NoDup (map fst d) -> NoDup (map fst (add_group _ _ _ d s))).
Proof.
  intros d s. induction d as [|[k l] r [I1 I2]]; cbn [add_group map fst].
  - split; [intros x Hx; exact Hx|intros _; constructor; [intros []|constructor]].
  - destruct (kind_eqb k (kind_of _ _ _ s)) eqn:E; cbn [map fst].
    + split; [intros x Hx; right; exact Hx|auto].
    + split.
      * intros x [<-|Hx]; [right; left; reflexivity|]. destruct (I1 x Hx) as [H|H]; [left; exact H|right; right; exact H].
      * intros N. inversion N; subst. constructor; [|auto]. intros H. destruct (I1 k H) as [H'|H']; [|contradiction].
        subst k. assert (kind_eqb (kind_of _ _ _ s) (kind_of _ _ _ s) = true) by (apply kind_eqb_iff; reflexivity). congruence.
Qed.
Lemma groups_spec : forall (specs : list spec) d, NoDup (map fst d) -> NoDup (map fst (fold_left (add_group _ _ _) specs d)) /\
  forall k, get (fold_left (add_group _ _ _) specs d) k =
    match get d k, filter (is_kind _ _ _ k) specs with None, [] => None | o, f => Some (part o ++ f) end.
Proof.
  induction specs as [|s r IH]; intros d N; cbn [fold_left filter].
  - split; [exact N|]. intros k. destruct (get d k) as [l|]; [cbn; rewrite app_nil_r; reflexivity|reflexivity].
  - destruct (IH (add_group _ _ _ d s) (proj2 (keys_add d s) N)) as [A B]. split; [exact A|]. intros k. rewrite B, get_add. 
    assert (Sym : is_kind _ _ _ k s = kind_eqb (kind_of _ _ _ s) k) by (unfold is_kind; destruct k, (kind_of _ _ _ s); reflexivity). rewrite Sym.
    destruct (kind_eqb (kind_of _ _ _ s) k); [|reflexivity]. cbn [part].
    destruct (get d k) as [l|]; cbn [part]; rewrite <- app_assoc; cbn [app]; destruct (filter (is_kind _ _ _ k) r); reflexivity.
Qed.

Lemma field_set : forall (x : mmm) k m k', field k' (set_field _ _ x k m) = if kind_eqb k k' then Some m else field k' x.
Proof. intros x [] m []; reflexivity. Qed.
Lemma kernel_set : forall (x : mmm) k m, mm_kernel _ _ (set_field _ _ x k m) = mm_kernel _ _ x.
Proof. intros x [] m; reflexivity. Qed.
Lemma mmm_ext : forall x y : mmm, mm_kernel _ _ x = mm_kernel _ _ y -> (forall k, field k x = field k y) -> x = y.
Proof.
  intros [a b c d e] [a' b' c' d' e'] E F. cbn in E. pose proof (F KFit) as F1. pose proof (F KMarketing) as F2. pose proof (F KBudget) as F3. pose proof (F KRf) as F4.
  cbn in F1, F2, F3, F4. congruence.
Qed.

Lemma get_none : forall (d : list (kind * list spec)) k, ~ In k (map fst d) -> get d k = None.
Proof.
  induction d as [|[k' l] r IH]; intros k H; [reflexivity|]. cbn in *. destruct (kind_eqb k' k) eqn:E; [apply kind_eqb_iff in E; tauto|apply IH; tauto].
Qed.

Lemma dispatch_spec : forall run d (x out : mmm), NoDup (map fst d) ->
  (dispatch _ _ _ _ _ run d x = Ok out <-> mm_kernel _ _ out = mm_kernel _ _ x /\
   forall k, match get d k with None => field k out = field k x | Some l => exists m, run k l = Ok m /\ field k out = Some m end).
Proof.
  intros run d. induction d as [|[k l] r IH]; intros x out N; cbn [dispatch].
  - split.
    + intros H. inversion H; subst. split; [reflexivity|]. intros k. reflexivity.
    + intros [A B]. f_equal. apply mmm_ext; [congruence|]. intros k. symmetry. exact (B k).
  - inversion N; subst. cbn [map fst] in *. split.
    + intros H. apply bind_ok in H. destruct H as (m & Hm & H). apply IH in H; [|assumption]. rewrite kernel_set in H. destruct H as [A B]. split; [exact A|].
      intros k'. cbn [get]. specialize (B k'). destruct (kind_eqb k k') eqn:E.
      * apply kind_eqb_iff in E. subst k'. rewrite (get_none r k H1) in B. rewrite field_set in B.
        assert (T : kind_eqb k k = true) by (apply kind_eqb_iff; reflexivity). rewrite T in B. exists m. split; [exact Hm|exact B].
      * rewrite field_set, E in B. exact B.
    + intros [A B]. assert (T : kind_eqb k k = true) by (apply kind_eqb_iff; reflexivity).
      pose proof (B k) as Bk. cbn [get] in Bk. rewrite T in Bk. destruct Bk as (m & Hm & Fk). rewrite Hm. cbn [rbind]. apply IH; [assumption|].
      rewrite kernel_set. split; [exact A|]. intros k'. specialize (B k'). cbn [get] in B. rewrite field_set. destruct (kind_eqb k k') eqn:E; [|exact B].
      apply kind_eqb_iff in E. subst k'. rewrite (get_none r k H1). exact Fk.
Qed.

Lemma consumer_spec : forall fitted kernel run specs (out : mmm),
  create_mmm_proto Fit Marketing Rest Kernel Msg fitted kernel run specs = Ok out <->
  fitted = true /\ kernel = Ok (mm_kernel _ _ out) /\
  forall k, match filter (is_kind _ _ _ k) specs with [] => field k out = None | l => exists m, run k l = Ok m /\ field k out = Some m end.
Proof.
  intros fitted kernel run specs out. unfold create_mmm_proto. destruct (groups_spec specs [] (NoDup_nil _)) as [N Gt].
  assert (E : forall c, dispatch _ _ _ _ _ run (fold_left (add_group _ _ _) specs []) (mkMmm _ _ c None None None None) = Ok out <->
    mm_kernel _ _ out = c /\ forall k, match filter (is_kind _ _ _ k) specs with [] => field k out = None | l => exists m, run k l = Ok m /\ field k out = Some m end).
  { intros c. rewrite (dispatch_spec run _ _ out N). cbn [mm_kernel].
    assert (P : (forall k, match get (fold_left (add_group _ _ _) specs []) k with None => field k out = field k (mkMmm _ _ c None None None None) | Some l => exists m, run k l = Ok m /\ field k out = Some m end) <->
      (forall k, match filter (is_kind _ _ _ k) specs with [] => field k out = None | l => exists m, run k l = Ok m /\ field k out = Some m end)).
    { split; intros H k; specialize (H k); rewrite Gt in *; cbn [get part app] in *; destruct (filter (is_kind _ _ _ k) specs); try exact H; destruct k; exact H. }
    rewrite P. reflexivity. }
  destruct fitted; cbn [negb raise_if]; [|split; [discriminate|intros [H _]; discriminate]]. destruct kernel as [c|x]; cbn [rbind].
  - rewrite E. split.
    + intros [A B]. split; [reflexivity|]. split; [rewrite A; reflexivity|exact B].
    + intros (_ & A & B). inversion A. split; [reflexivity|exact B].
  - split; [discriminate|intros (_ & A & _); discriminate].
Qed.
End Dispatch.

(** *** Dates of the buckets *)
Lemma intervals_pair : forall u z b v, In (ordinal b - ordinal z) (intervals (u ++ z :: b :: v)).
Proof.
  induction u as [|x u IH]; intros z b v.
  - left. reflexivity.
  - cbn [app]. destruct (u ++ z :: b :: v) as [|y w] eqn:E; [destruct u; discriminate|].
    change (intervals (x :: y :: w)) with ((ordinal y - ordinal x) :: intervals (y :: w)). right. rewrite <- E. apply IH.
Qed.

Lemma part_start : forall all p l a b, calendar all -> dates_of all p l -> In a l -> In b l -> before a b ->
  exists s z e, bounds all p s z e /\ In a all /\ ~ before z a /\ ((In b all) \/ b = e).
Proof.
  intros all p l a b C (I & s & z & e & Bd & F) Ha Hb Hab. exists s, z, e. split; [exact Bd|]. pose proof Bd as (A & B & D & Ve & O & _).
  pose proof (interval_range all C) as N. pose proof C as (_ & V & _). rewrite Forall_forall in V.
  assert (Bz : before z e) by (apply ordinal_lt; [apply V; exact B|exact Ve|lia]).
  apply F in Ha. apply F in Hb. destruct Ha as [(H1 & H2 & H3)|E].
  - split; [exact H1|]. split; [exact H3|]. tauto.
  - exfalso. subst a. destruct Hb as [(H1 & _ & H3)|E]; [apply H3; exact (before_trans _ _ _ Bz Hab)|]. subst b. exact (before_irrefl _ Hab).
Qed.

Lemma resolvable_part : forall all p l a b t, calendar all -> dates_of all p l -> In a l -> In b l -> before a b -> valid_date b ->
  (resolvable all (mkPeriod (Some a) (Some b) t) <-> exists z, In z all /\ ~ before z a /\ ordinal b = ordinal z + interval_days all).
Proof.
  intros all p l a b t C Dl Ha Hb Hab Vb. split.
  - intros (s & z & e & A & B & D & Ve & O & Hs & He). cbn in Hs, He. subst s e. exists z. auto.
  - intros (z & Hz & H1 & H2). destruct (part_start all p l a b C Dl Ha Hb Hab) as (s0 & z0 & e0 & _ & Ia & _). exists a, z, b.
    unfold bounds. cbn. repeat split; assumption.
Qed.

Lemma resolvable_even : forall all p l a b t c, calendar all -> (forall y, In y (intervals all) -> y = c) -> dates_of all p l -> In a l -> In b l -> before a b ->
  resolvable all (mkPeriod (Some a) (Some b) t).
Proof.
  intros all p l a b t c C Ev Dl Ha Hb Hab. destruct (part_start all p l a b C Dl Ha Hb Hab) as (s0 & z0 & e0 & Bd & Ia & Hz & Cb). pose proof C as (L & V & _ & I & _).
  pose proof V as V'. rewrite Forall_forall in V'. pose proof Bd as (_ & Iz & _ & Ve & O & _). destruct Cb as [Ib|E].
  - destruct (in_split b all Ib) as (u & v & E). destruct u as [|w u _] using rev_ind.
    + exfalso. assert (F : forall d, In d all -> ~ before d b) by (apply (first_least all b v I); exact E). exact (F a Ia Hab).
    + rewrite <- app_assoc in E. cbn in E. exists a, w, b. unfold bounds. cbn.
      assert (Iw : In w all) by (rewrite E; apply in_app_iff; right; left; reflexivity).
      assert (Wb : ~ before w a).
      { intros F. rewrite E in I, Ia. clear -I Ia F Hab. apply increasing_not_decreasing in I as ND. apply sorted_app in ND. destruct ND as [_ [_ ND]].
        apply increasing_app in I. destruct I as [_ I]. apply in_app_iff in Ia. destruct Ia as [Ia|[<-|[<-|Ia]]].
        - apply (ND a w Ia); [left; reflexivity|exact F].
        - exact (before_irrefl _ F).
        - exact (before_irrefl _ Hab).
        - apply StronglySorted_inv in I. destruct I as [I _]. apply StronglySorted_inv in I. destruct I as [_ I]. rewrite Forall_forall in I.
          exact (before_irrefl _ (before_trans _ _ _ Hab (I a Ia))). }
      repeat split; try assumption; [apply V'; exact Ib|]. rewrite (interval_days_const all c L Ev).
      pose proof (intervals_pair u w b v) as P. rewrite <- E in P. apply Ev in P. lia.
  - subst b. exists a, z0, e0. unfold bounds. cbn. repeat split; assumption.
Qed.
