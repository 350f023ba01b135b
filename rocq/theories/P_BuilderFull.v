(** More about the builder: what an accepted history of calls builds. *)
From Coq Require Import ZArith Lia List Bool Permutation Sorted.
From Verif Require Import M_Base M_Time Lib_Sort M_Builder S_Builder P_Builder P_BuilderOrder C_Builder.
Import ListNotations.
Local Open Scope nat_scope.
Local Open Scope list_scope.

Lemma index_of_nodup : forall A (dec : forall a b : A, {a = b} + {a <> b}) l i x, NoDup l -> nth_error l i = Some x -> index_of dec x l = Some i.
Proof.
  intros A dec l. induction l as [|y l IH]; intros i x N E; [destruct i; discriminate|]. inversion N as [|? ? N1 N2]; subst.
  destruct i as [|i]; cbn in E |- *.
  - injection E as ->. destruct (dec x x); [reflexivity|congruence].
  - destruct (dec x y) as [->|_]; [|rewrite (IH i x N2 E); reflexivity]. exfalso. apply N1. eapply nth_error_In. exact E.
Qed.

Section P.
Context {G T C V : Type}.
Variables (geq : forall a b : G, {a = b} + {a <> b}) (teq : forall a b : T, {a = b} + {a <> b})
  (ceq : forall a b : C, {a = b} + {a <> b})
  (tle : T -> T -> bool) (gle : G -> G -> bool) (parse : T -> option date) (national : G) (one : V).
Hypothesis tle_order : strict_order tle.
Notation da := (da G T C V).
Notation state := (state G T C V).
Notation run := (run geq teq ceq tle parse national).
Notation accepted hist := (Forall (fun r => r = Ok tt) (fst (run hist init))).
Notation dleb := (date_label_leb parse).
Notation build := (build geq teq gle parse one).

(** The labels of the built arrays are those of every array of the history. *)
Record labels (hist : list (component * da)) (gs : list G) (ts ms : list T) : Prop := {
  la_geos : forall c x, In (c, x) hist -> forall g, In g gs <-> In g (geo_labels national x);
  la_times : forall c x, In (c, x) hist -> dim_of c = WithTime -> forall t, In t ts <-> In t (d_times x);
  la_media : forall c x, In (c, x) hist -> dim_of c = WithMediaTime -> forall t, In t ms <-> In t (d_times x)
}.
Definition axis (ts ms : list T) (c : component) : option (list T) :=
  match dim_of c with WithTime => Some ts | WithMediaTime => Some ms | WithoutTime => None end.
Definition placed (gs : list G) (ts ms : list T) (c : component) (x y : da) : Prop :=
  d_geos y = gs /\ d_chans y = d_chans x /\
  (dim_of c = WithTime -> d_times y = ts) /\ (dim_of c = WithMediaTime -> d_times y = ms) /\
  forall i j k, d_val y i j k =
    match lookup_at geq gs (geo_labels national x) i,
          match dim_of c with
          | WithTime => lookup_at teq ts (d_times x) j
          | WithMediaTime => lookup_at teq ms (d_times x) j
          | WithoutTime => Some j
          end with
    | Some i0, Some j0 => d_val x i0 j0 k
    | _, _ => None
    end.

Lemma reindex_placed : forall gs ts ms c (x y : da), reindex geq teq gs (axis ts ms c) (norm national x) = Ok y -> placed gs ts ms c x y.
Proof.
  intros gs ts ms c x y E. unfold reindex in E. apply raise_if_inv' in E. destruct E as [_ E].
  rewrite norm_geos, norm_val, norm_times, norm_chans in E. unfold placed, axis in *. change (geo_labels national x) with (named national x).
  destruct (dim_of c); try (apply raise_if_inv' in E; destruct E as [_ E]); injection E as <-; cbn [d_geos d_chans d_times d_val];
    (split; [reflexivity|]); (split; [reflexivity|]); (split; [auto; discriminate|]); (split; [auto; discriminate|]); intros i j k; try reflexivity.
Qed.
Lemma reindex_runs : forall gs ts ms c (x : da), NoDup (geo_labels national x) -> (dim_of c <> WithoutTime -> NoDup (d_times x)) ->
  exists y, reindex geq teq gs (axis ts ms c) (norm national x) = Ok y.
Proof.
  intros gs ts ms c x N1 N2. unfold reindex. rewrite norm_geos, norm_times.
  assert (U1 : unique geq (named national x) = true) by (apply unique_iff; exact N1). rewrite U1. cbn [negb raise_if].
  unfold axis. destruct (dim_of c) eqn:D.
  - assert (U2 : unique teq (d_times x) = true) by (apply unique_iff, N2; discriminate). rewrite U2. cbn [negb raise_if]. eauto.
  - assert (U2 : unique teq (d_times x) = true) by (apply unique_iff, N2; discriminate). rewrite U2. cbn [negb raise_if]. eauto.
  - eauto.
Qed.

Lemma accepted_labels : forall hist g t m, accepted hist ->
  st_geos (snd (run hist init)) = Some g -> st_times (snd (run hist init)) = Some t -> st_media_times (snd (run hist init)) = Some m ->
  labels hist (isort gle g) (isort dleb t) (isort dleb m).
Proof.
  intros hist g t m Acc Eg Et Em. apply (reached_lemma geq teq ceq tle gle parse national tle_order) in Acc.
  set (s := snd (run hist init)) in *.
  assert (In1 : forall a, In a hist -> In a (rev hist)) by (intros a; apply in_rev).
  assert (Pair : forall a b, In a hist -> In b (rev hist) -> a = b \/ compatible tle national a b).
  { intros a b Ia Ib. apply (pairs_in tle national tle_order (rev hist)) || apply (pairs_in _ _ (rev hist)) || idtac.
    all: try (apply (re_pairs _ _ _ _ _ Acc)); auto. }
  constructor.
  - intros c x I g0. rewrite isort_in. destruct (re_geos _ _ _ _ _ Acc) as [[Hn _]|(c1 & x1 & I1 & E1)].
    + apply In1 in I. rewrite Hn in I. contradiction.
    + assert (g = geo_labels national x1) by congruence. subst g.
      destruct (Pair (c, x) (c1, x1) I I1) as [Eq|(_ & _ & H & _)]; [injection Eq as _ ->; tauto|]. symmetry. apply H.
  - intros c x I D t0. rewrite isort_in. destruct (re_times _ _ _ _ _ Acc) as [[Hn _]|(c1 & x1 & I1 & D1 & E1)].
    + exfalso. apply (Hn c x); auto.
    + assert (t = d_times x1) by congruence. subst t.
      destruct (Pair (c, x) (c1, x1) I I1) as [Eq|(_ & _ & _ & H)]; [injection Eq as _ ->; tauto|]. rewrite D, D1 in H. symmetry. apply H.
  - intros c x I D t0. rewrite isort_in. destruct (re_media _ _ _ _ _ Acc) as [[Hn _]|(c1 & x1 & I1 & D1 & E1)].
    + exfalso. apply (Hn c x); auto.
    + assert (m = d_times x1) by congruence. subst m.
      destruct (Pair (c, x) (c1, x1) I I1) as [Eq|(_ & _ & _ & H)]; [injection Eq as _ ->; tauto|]. rewrite D, D1 in H. symmetry. apply H.
Qed.

(** What is built holds exactly the arrays of the history. *)
Lemma build_accepted : forall valid hist out, accepted hist -> build valid (snd (run hist init)) = Ok out ->
  exists gs ts ms, NoDup gs /\ NoDup ts /\ NoDup ms /\ labels hist gs ts ms /\
    (forall c y, In (c, y) out -> c <> Population \/ length gs <> 1 ->
       exists x, In (c, x) hist /\ placed gs ts ms c x y /\ has_nan (c, y) = false) /\
    (forall c x, In (c, x) hist -> exists y, In (c, y) out) /\
    (forall c y, In (c, y) out -> d_geos y = gs).
Proof.
  intros valid hist out Acc E.
  pose proof (reached_lemma geq teq ceq tle gle parse national tle_order _ Acc) as Re.
  set (s := snd (run hist init)) in *.
  assert (Bh : forall c, c <> Population -> ((exists y, In (c, y) out) <-> st_array s c <> None)) by (exact (build_has _ _ _ _ _ _ _ _ _ _ _ _ E)).
  unfold M_Builder.build in E. apply inv_rbind' in E. destruct E as (pop & Er & E).
  destruct (st_geos s) as [g|] eqn:Eg; [|discriminate]. destruct (st_times s) as [t|] eqn:Et; [|discriminate].
  destruct (st_media_times s) as [m|] eqn:Em; [|discriminate]. cbv zeta in E.
  apply inv_rbind' in E. destruct E as (parts & Ep & E). apply raise_if_inv' in E. destruct E as [Nan E].
  apply raise_if_inv' in E. destruct E as [_ E]. assert (out = concat parts) by congruence. subst out. clear E.
  pose proof (accepted_labels hist g t m Acc Eg Et Em) as La.
  pose proof (sound_reached geq teq ceq tle parse national hist) as So. fold s in So.
  destruct (so_times _ _ _ _ _ _ _ So t Et) as (Nt & _). destruct (so_media _ _ _ _ _ _ _ So m Em) as (Nm & _).
  pose proof (so_geos _ _ _ _ _ _ _ So g Eg) as Ng.
  exists (isort gle g), (isort dleb t), (isort dleb m).
  split; [apply isort_nodup; exact Ng|]. split; [apply isort_nodup; exact Nt|]. split; [apply isort_nodup; exact Nm|].
  split; [exact La|]. split; [|split].
  - intros c y I Cp.
    assert (Hn : has_nan (c, y) = false).
    { rewrite <- not_true_iff_false in *. intros K. apply Nan. apply existsb_exists. eauto. }
    apply in_concat in I. destruct I as (part & Ip & Iy).
    destruct (mapM_in _ _ _ _ _ Ep _ Ip) as (c0 & _ & F). cbv beta in F.
    destruct (if component_eq_dec c0 Population then Some pop else st_array s c0) as [x|] eqn:Ex;
      [|assert (part = []) by congruence; subst; contradiction].
    apply inv_rbind' in F. destruct F as (y0 & F & F'). assert (part = [(c0, y0)]) by congruence. subst part.
    destruct Iy as [Iy|[]]. assert (c0 = c) by congruence. assert (y0 = y) by congruence. subst.
    assert (Es : st_array s c = Some x).
    { destruct (component_eq_dec c Population) as [->|]; [|exact Ex]. assert (x = pop) by congruence. subst x.
      unfold required in Er. apply raise_if_inv' in Er. destruct Er as [_ Er]. rewrite Eg in Er. cbv zeta in Er.
      destruct Cp as [Cp|Cp]; [congruence|]. rewrite isort_length in Cp. apply Nat.eqb_neq in Cp. rewrite Cp in Er.
      destruct (st_array s Population) as [p|]; [|discriminate].
      repeat (apply raise_if_inv' in Er; destruct Er as [_ Er]). congruence. }
    destruct (in_dec component_eq_dec c (map fst hist)) as [Ic|Nc].
    + apply in_map_iff in Ic. destruct Ic as ([c' x0] & Ec & I0). cbn in Ec. subst c'.
      exists x0. split; [exact I0|]. split; [|exact Hn].
      assert (Ex0 : st_array s c = Some (norm national x0)) by (apply (re_set _ _ _ _ _ Re); apply in_rev in I0; exact I0).
      assert (x = norm national x0) by congruence. subst x. apply reindex_placed. exact F.
    + exfalso. assert (st_array s c = None); [|congruence]. apply (re_unset _ _ _ _ _ Re). intros x0 I0. apply Nc.
      apply in_rev in I0. change c with (fst (c, x0)). apply in_map. exact I0.
  - intros c x I. destruct (component_eq_dec c Population) as [->|Nc].
    + assert (Ic : In Population all_components) by (cbn; tauto).
      destruct (mapM_complete _ _ _ _ _ Ep _ Ic) as (part & F & Ip). cbv beta in F.
      destruct (component_eq_dec Population Population); [|congruence].
      apply inv_rbind' in F. destruct F as (y & _ & F). assert (part = [(Population, y)]) by congruence. subst part.
      exists y. apply in_concat. exists [(Population, y)]. split; [exact Ip|left; reflexivity].
    + apply Bh; [exact Nc|]. rewrite (re_set _ _ _ _ _ Re c x); [discriminate|]. apply in_rev in I. exact I.
  - intros c y I. apply in_concat in I. destruct I as (part & Ip & Iy).
    destruct (mapM_in _ _ _ _ _ Ep _ Ip) as (c0 & _ & F). cbv beta in F.
    destruct (if component_eq_dec c0 Population then Some pop else st_array s c0) as [x|] eqn:Ex;
      [|assert (part = []) by congruence; subst; contradiction].
    apply inv_rbind' in F. destruct F as (y0 & F & F'). assert (part = [(c0, y0)]) by congruence. subst part.
    destruct Iy as [Iy|[]]. assert (y0 = y) by congruence. subst. unfold reindex in F. apply raise_if_inv' in F. destruct F as [_ F].
    destruct (dim_of c0); try (apply raise_if_inv' in F; destruct F as [_ F]); injection F as <-; reflexivity.
Qed.

Lemma placed_cell : forall gs ts ms c x y i j k i0 j0 g, placed gs ts ms c x y -> NoDup (geo_labels national x) ->
  nth_error gs i = Some g -> nth_error (geo_labels national x) i0 = Some g ->
  match dim_of c with
  | WithTime => NoDup (d_times x) /\ exists t, nth_error ts j = Some t /\ nth_error (d_times x) j0 = Some t
  | WithMediaTime => NoDup (d_times x) /\ exists t, nth_error ms j = Some t /\ nth_error (d_times x) j0 = Some t
  | WithoutTime => j = j0
  end ->
  d_val y i j k = d_val x i0 j0 k.
Proof.
  intros gs ts ms c x y i j k i0 j0 g (_ & _ & _ & _ & Hv) N Eg E0 Ht. rewrite Hv.
  assert (L : lookup_at geq gs (geo_labels national x) i = Some i0) by (unfold lookup_at; rewrite Eg; apply index_of_nodup; assumption).
  rewrite L. destruct (dim_of c).
  - destruct Ht as (Nt & t & T1 & T2). unfold lookup_at. rewrite T1, (index_of_nodup _ teq _ _ _ Nt T2). reflexivity.
  - destruct Ht as (Nt & t & T1 & T2). unfold lookup_at. rewrite T1, (index_of_nodup _ teq _ _ _ Nt T2). reflexivity.
  - subst j. reflexivity.
Qed.

(** A complete accepted history builds. *)
Lemma mapM_runs : forall A B (f : A -> result B) l, (forall a, In a l -> exists b, f a = Ok b) -> exists bs, mapM f l = Ok bs.
Proof.
  intros A B f l. induction l as [|a l IH]; intros H; [cbn; eauto|]. destruct (H a (or_introl eq_refl)) as (b & Eb).
  destruct IH as (bs & Es); [intros a' I; apply H; right; exact I|]. cbn. rewrite Eb. cbn [rbind]. rewrite Es. cbn [rbind]. eauto.
Qed.
Definition full (c : component) (x : da) : Prop :=
  forall i j k, i < length (d_geos x) -> j < n_times_of c x -> k < n_chans_of c x -> d_val x i j k <> None.
Definition given_in (hist : list (component * da)) (c : component) : bool := if in_dec component_eq_dec c (map fst hist) then true else false.
Lemma build_runs : forall hist, accepted hist ->
  (forall c x, In (c, x) hist -> c <> Population \/ length (d_geos x) <> 1 -> full c x) ->
  In Kpi (map fst hist) -> (In Media (map fst hist) \/ In Reach (map fst hist)) ->
  (In Media (map fst hist) <-> In MediaSpend (map fst hist)) ->
  (In Reach (map fst hist) <-> In Frequency (map fst hist)) -> (In Reach (map fst hist) <-> In RfSpend (map fst hist)) ->
  (In OrganicReach (map fst hist) <-> In OrganicFrequency (map fst hist)) ->
  ((forall c x, In (c, x) hist -> length (d_geos x) <> 1) -> In Population (map fst hist)) ->
  exists out, forall valid, build valid (snd (run hist init)) = if valid out then Ok out else Err ValueError.
Proof.
  intros hist Acc Full Hk Hm Hms Hrf Hrs Hof Hp.
  pose proof (reached_lemma geq teq ceq tle gle parse national tle_order _ Acc) as Re.
  pose proof (proj1 (accepted_lemma geq teq ceq tle gle parse national tle_order hist) Acc) as [Fi _]. rewrite Forall_forall in Fi.
  set (s := snd (run hist init)) in *.
  assert (Set1 : forall c, is_set s c = true <-> In c (map fst hist)).
  { intros c. unfold is_set. split.
    - destruct (st_array s c) eqn:E; [intros _|discriminate]. destruct (in_dec component_eq_dec c (map fst hist)) as [I|N]; [exact I|].
      exfalso. assert (st_array s c = None); [|congruence]. apply (re_unset _ _ _ _ _ Re). intros x0 I0. apply N.
      apply in_rev in I0. change c with (fst (c, x0)). apply in_map. exact I0.
    - intros I. apply in_map_iff in I. destruct I as ([c' x] & Ec & I). cbn in Ec. subst c'.
      rewrite (re_set _ _ _ _ _ Re c x); [reflexivity|]. apply in_rev in I. exact I. }
  assert (SetF : forall c, is_set s c = false <-> ~ In c (map fst hist)).
  { intros c. rewrite <- Set1. destruct (is_set s c); split; congruence. }
  apply in_map_iff in Hk. destruct Hk as ([c0 kx] & Ec0 & Ik). cbn in Ec0. subst c0.
  assert (Kr : In (Kpi, kx) (rev hist)) by (apply in_rev in Ik; exact Ik).
  destruct (st_geos s) as [g|] eqn:Eg.
  2:{ exfalso. destruct (re_geos _ _ _ _ _ Re) as [[Hn _]|(c1 & x1 & _ & E1)]; [rewrite Hn in Kr; contradiction|congruence]. }
  destruct (st_times s) as [t|] eqn:Et.
  2:{ exfalso. destruct (re_times _ _ _ _ _ Re) as [[Hn _]|(c1 & x1 & _ & _ & E1)]; [apply (Hn _ _ Kr); reflexivity|congruence]. }
  destruct (st_media_times s) as [m|] eqn:Em.
  2:{ exfalso. destruct (re_media _ _ _ _ _ Re) as [[Hn _]|(c1 & x1 & _ & _ & E1)]; [|congruence].
      destruct Hm as [Hm|Hm]; apply in_map_iff in Hm; destruct Hm as ([c' x] & Ec & I); cbn in Ec; subst c'; apply in_rev in I; apply (Hn _ _ I); reflexivity. }
  pose proof (accepted_labels hist g t m Acc Eg Et Em) as [Lg Lt Lm].
  assert (Len : forall c x, In (c, x) hist -> length (d_geos x) = 1 -> length g = 1).
  { intros c x I L1.
    assert (Pm : Permutation (isort gle g) (geo_labels national x)).
    { apply NoDup_Permutation; [apply isort_nodup|apply (Fi (c, x) I)|apply (Lg c x I)].
      pose proof (sound_reached geq teq ceq tle parse national hist) as So. fold s in So. exact (so_geos _ _ _ _ _ _ _ So g Eg). }
    apply Permutation_length in Pm. rewrite isort_length in Pm. rewrite Pm. unfold geo_labels. destruct (d_geos x) as [|a [|b l]]; try discriminate. reflexivity. }
  (* required *)
  assert (Rq : exists pop, required one s = Ok pop /\
            (pop = mkDa g [] [] (fun _ _ _ => Some one) /\ length g = 1 \/ length g <> 1 /\ exists p, In (Population, p) hist /\ pop = norm national p)).
  { unfold required. rewrite (proj2 (Set1 Kpi)) by (apply in_map_iff; exists (Kpi, kx); auto). cbn [negb raise_if]. rewrite Eg. cbv zeta.
    assert (Xm : xorb (is_set s Media) (is_set s MediaSpend) = false).
    { destruct (is_set s Media) eqn:A, (is_set s MediaSpend) eqn:B; try reflexivity; apply Set1 in A || apply Set1 in B; [apply SetF in B|apply SetF in A]; tauto. }
    assert (Xo : xorb (is_set s OrganicReach) (is_set s OrganicFrequency) = false).
    { destruct (is_set s OrganicReach) eqn:A, (is_set s OrganicFrequency) eqn:B; try reflexivity; apply Set1 in A || apply Set1 in B; [apply SetF in B|apply SetF in A]; tauto. }
    assert (Xf : is_set s Reach = is_set s Frequency).
    { destruct (is_set s Reach) eqn:A, (is_set s Frequency) eqn:B; try reflexivity; apply Set1 in A || apply Set1 in B; [apply SetF in B|apply SetF in A]; tauto. }
    assert (Xs : is_set s Reach = is_set s RfSpend).
    { destruct (is_set s Reach) eqn:A, (is_set s RfSpend) eqn:B; try reflexivity; apply Set1 in A || apply Set1 in B; [apply SetF in B|apply SetF in A]; tauto. }
    assert (Xr : (is_set s Reach || is_set s Frequency || is_set s RfSpend || is_set s MediaSpend || is_set s Media) = true).
    { destruct Hm as [Hm|Hm]; apply Set1 in Hm; rewrite Hm; rewrite ?orb_true_r; reflexivity. }
    rewrite Xm, Xo, Xr. rewrite <- Xf, <- Xs.
    replace ((is_set s Reach || is_set s Reach || is_set s Reach) && negb (is_set s Reach && is_set s Reach && is_set s Reach)) with false
      by (destruct (is_set s Reach); reflexivity). cbn [raise_if negb].
    destruct (Nat.eqb_spec (length g) 1) as [L|L]; [eexists; split; [reflexivity|left; auto]|].
    assert (Ip : In Population (map fst hist)).
    { apply Hp. intros c x I L1. apply L. exact (Len c x I L1). }
    apply in_map_iff in Ip. destruct Ip as ([c' p] & Ec & Ip). cbn in Ec. subst c'.
    rewrite (re_set _ _ _ _ _ Re Population p) by (apply in_rev in Ip; exact Ip). eexists. split; [reflexivity|right; eauto]. }
  destruct Rq as (pop & Rq & Hpop).
  unfold M_Builder.build. rewrite Rq. cbn [rbind]. rewrite Eg, Et, Em. cbv zeta.
  set (f := fun c : component => match (if component_eq_dec c Population then Some pop else st_array s c) with
             | Some x => rbind (reindex geq teq (isort gle g) (match dim_of c with WithTime => Some (isort dleb t) | WithMediaTime => Some (isort dleb m) | WithoutTime => None end) x) (fun y => Ok [(c, y)])
             | None => Ok [] end).
  assert (Nd : NoDup (isort gle g) /\ NoDup (isort dleb t) /\ NoDup (isort dleb m)).
  { pose proof (sound_reached geq teq ceq tle parse national hist) as So. fold s in So.
    split; [apply isort_nodup; exact (so_geos _ _ _ _ _ _ _ So g Eg)|]. split; apply isort_nodup; [apply (so_times _ _ _ _ _ _ _ So t Et)|apply (so_media _ _ _ _ _ _ _ So m Em)]. }
  destruct Nd as (Ng & Nt & Nm).
  assert (Each : forall c, exists part, f c = Ok part /\ forall c' y, In (c', y) part -> has_nan (c', y) = false).
  { intros c. unfold f. destruct (if component_eq_dec c Population then Some pop else st_array s c) as [x|] eqn:Ex; [|exists []; split; [reflexivity|contradiction]].
    assert (Src : (exists x0, In (c, x0) hist /\ x = norm national x0 /\ (c <> Population \/ length (d_geos x0) <> 1)) \/ c = Population /\ x = mkDa g [] [] (fun _ _ _ => Some one) /\ length g = 1).
    { destruct (component_eq_dec c Population) as [->|Nc].
      - assert (x = pop) by congruence. subst x. destruct Hpop as [[-> L]|(L & p & Ip & ->)]; [right; auto|left]. exists p. split; [exact Ip|]. split; [reflexivity|]. right. intros K. apply L. exact (Len _ _ Ip K).
      - left. assert (I : In c (map fst hist)) by (apply Set1; unfold is_set; rewrite Ex; reflexivity).
        apply in_map_iff in I. destruct I as ([c' x0] & Ec & I). cbn in Ec. subst c'. exists x0. split; [exact I|].
        assert (st_array s c = Some (norm national x0)) by (apply (re_set _ _ _ _ _ Re); apply in_rev in I; exact I). split; [congruence|left; exact Nc]. }
    destruct Src as [(x0 & I & -> & Hx0)|(-> & -> & L)].
    - pose proof (Fi _ I) as [F1 F2]. cbv beta iota in F1.
      destruct (reindex_runs (isort gle g) (isort dleb t) (isort dleb m) c x0 F1 (fun D => proj1 (proj2 (F2 D)))) as (y & Ey).
      change (reindex geq teq (isort gle g) (match dim_of c with WithTime => Some (isort dleb t) | WithMediaTime => Some (isort dleb m) | WithoutTime => None end) (norm national x0))
        with (reindex geq teq (isort gle g) (axis (isort dleb t) (isort dleb m) c) (norm national x0)).
      rewrite Ey. cbn [rbind]. exists [(c, y)]. split; [reflexivity|]. intros c' y' [Eq|[]]. injection Eq as <- <-.
      pose proof (reindex_placed _ _ _ _ _ _ Ey) as Pl. destruct Pl as (P1 & P2 & P3 & P4 & P5).
      assert (Pl : placed (isort gle g) (isort dleb t) (isort dleb m) c x0 y) by (split; auto).
      apply not_true_iff_false. intros K. apply existsb_exists in K. destruct K as (i & Ii & K).
      apply existsb_exists in K. destruct K as (j & Ij & K). apply existsb_exists in K. destruct K as (k & Kk & K).
      apply in_seq in Ii, Ij, Kk. rewrite P1 in Ii.
      assert (Bi : exists gl, nth_error (isort gle g) i = Some gl).
      { destruct (nth_error (isort gle g) i) eqn:N; [eauto|]. apply nth_error_None in N. lia. }
      destruct Bi as (gl & Bi).
      assert (Hi : exists i0, nth_error (geo_labels national x0) i0 = Some gl).
      { apply In_nth_error. apply (Lg c x0 I). eapply nth_error_In. exact Bi. }
      destruct Hi as (i0 & Hi).
      assert (Li0 : i0 < length (d_geos x0)).
      { assert (i0 < length (geo_labels national x0)) by (apply nth_error_Some; congruence). unfold geo_labels in H. destruct (d_geos x0) as [|a [|b l]]; exact H. }
      assert (Lk : k < n_chans_of c x0) by (unfold n_chans_of in *; rewrite P2 in Kk; destruct c; lia).
      assert (Hj : exists j0, j0 < n_times_of c x0 /\ match dim_of c with
           | WithTime => NoDup (d_times x0) /\ exists tl, nth_error (isort dleb t) j = Some tl /\ nth_error (d_times x0) j0 = Some tl
           | WithMediaTime => NoDup (d_times x0) /\ exists tl, nth_error (isort dleb m) j = Some tl /\ nth_error (d_times x0) j0 = Some tl
           | WithoutTime => j = j0 end).
      { unfold n_times_of in *. destruct (dim_of c) eqn:D.
        - rewrite (P3 eq_refl) in Ij. assert (Bj : exists tl, nth_error (isort dleb t) j = Some tl).
          { destruct (nth_error (isort dleb t) j) eqn:N; [eauto|]. apply nth_error_None in N. lia. }
          destruct Bj as (tl & Bj). assert (It : In tl (d_times x0)) by (apply (Lt c x0 I D); eapply nth_error_In; exact Bj).
          apply In_nth_error in It. destruct It as (j0 & It). exists j0. split; [apply nth_error_Some; congruence|].
          split; [|eauto]. assert (Dn : timed c) by (unfold timed; congruence). apply (F2 Dn).
        - rewrite (P4 eq_refl) in Ij. assert (Bj : exists tl, nth_error (isort dleb m) j = Some tl).
          { destruct (nth_error (isort dleb m) j) eqn:N; [eauto|]. apply nth_error_None in N. lia. }
          destruct Bj as (tl & Bj). assert (It : In tl (d_times x0)) by (apply (Lm c x0 I D); eapply nth_error_In; exact Bj).
          apply In_nth_error in It. destruct It as (j0 & It). exists j0. split; [apply nth_error_Some; congruence|].
          split; [|eauto]. assert (Dn : timed c) by (unfold timed; congruence). apply (F2 Dn).
        - exists j. split; [lia|reflexivity]. }
      destruct Hj as (j0 & Lj0 & Hj).
      rewrite (placed_cell _ _ _ c x0 y i j k i0 j0 gl Pl F1 Bi Hi Hj) in K.
      pose proof (Full c x0 I Hx0 i0 j0 k Li0 Lj0 Lk) as Ne. destruct (d_val x0 i0 j0 k); [discriminate|congruence].
    - cbn [dim_of]. unfold reindex. cbn [d_geos].
      assert (U1 : unique geq g = true).
      { apply unique_iff. pose proof (sound_reached geq teq ceq tle parse national hist) as So. fold s in So. exact (so_geos _ _ _ _ _ _ _ So g Eg). }
      rewrite U1. cbn [negb raise_if rbind]. eexists. split; [reflexivity|]. intros c' y' [Eq|[]]. injection Eq as <- <-.
      apply not_true_iff_false. intros K. apply existsb_exists in K. destruct K as (i & Ii & K).
      apply existsb_exists in K. destruct K as (j & Ij & K). apply existsb_exists in K. destruct K as (k & Kk & K).
      cbn [d_geos d_val] in Ii, K. apply in_seq in Ii. destruct g as [|a [|b g']]; try discriminate. cbn in Ii.
      assert (i = 0) by lia. subst i. unfold lookup_at in K. cbn in K. destruct (geq a a); [discriminate|congruence]. }
  destruct (mapM_runs _ _ f all_components) as (parts & Ep).
  { intros c _. destruct (Each c) as (p & Ep & _). eauto. }
  rewrite Ep. cbn [rbind].
  assert (Nn : existsb has_nan (concat parts) = false).
  { apply not_true_iff_false. intros K. apply existsb_exists in K. destruct K as ([c y] & I & K).
    apply in_concat in I. destruct I as (part & Ip & Iy). destruct (mapM_in _ _ _ _ _ Ep _ Ip) as (c0 & _ & F).
    destruct (Each c0) as (p & Ep0 & Hn). assert (p = part) by congruence. subst p. rewrite (Hn c y Iy) in K. discriminate. }
  exists (concat parts). intros valid. rewrite Nn. cbn [raise_if]. destruct (valid (concat parts)); reflexivity.
Qed.
End P.
