(** Property C38: the input data builder. *)
From Coq Require Import ZArith Lia List Bool Permutation Sorted.
From Verif Require Import M_Base M_Time Lib_Sort M_Builder S_Builder P_Builder P_BuilderOrder.
Import ListNotations.
Local Open Scope nat_scope.
Local Open Scope list_scope.

Lemma has_nan_false : forall G T C V c (x : da G T C V), has_nan (c, x) = false ->
  forall i j k, i < length (d_geos x) -> j < n_times_of c x -> k < n_chans_of c x -> exists v, d_val x i j k = Some v.
Proof.
  intros G T C V c x H i j k Hi Hj Hk. destruct (d_val x i j k) as [v|] eqn:E; [eauto|]. exfalso.
  rewrite <- not_true_iff_false in H. apply H. unfold has_nan. apply existsb_exists. exists i.
  split; [apply in_seq; lia|]. apply existsb_exists. exists j. split; [apply in_seq; lia|].
  apply existsb_exists. exists k. split; [apply in_seq; lia|]. rewrite E. reflexivity.
Qed.
Lemma mapM_complete : forall A B (f : A -> result B) l bs, mapM f l = Ok bs -> forall a, In a l -> exists b, f a = Ok b /\ In b bs.
Proof.
  intros A B f l. induction l as [|x l IH]; intros bs E a Ia; [contradiction|]. cbn in E.
  apply inv_rbind' in E. destruct E as (b1 & E1 & E). apply inv_rbind' in E. destruct E as (bs1 & E2 & E).
  assert (bs = b1 :: bs1) by congruence. subst. destruct Ia as [->|Ia]; [exists b1; split; [exact E1|left; reflexivity]|].
  destruct (IH _ E2 a Ia) as (b & Fb & Ib). exists b. split; [exact Fb|right; exact Ib].
Qed.

(** *** Alignment, for every history of calls - failing ones included *)
Theorem C38_aligned : forall G T C V geq teq ceq tle gle parse (national : G) (one : V) valid hist out,
  @total_order G gle ->
  build geq teq gle parse one valid (snd (@run G T C V geq teq ceq tle parse national hist init)) = Ok out ->
  exists gs ts ms,
    (* one list of geos, times and media times for all arrays, without repetition, in natural order *)
    NoDup gs /\ NoDup ts /\ NoDup ms /\
    le_sorted gle gs /\ le_sorted (date_label_leb parse) ts /\ le_sorted (date_label_leb parse) ms /\
    (forall c y, In (c, y) out -> d_geos y = gs /\
       (dim_of c = WithTime -> d_times y = ts) /\ (dim_of c = WithMediaTime -> d_times y = ms)) /\
    (* the times are the last media times *)
    (written_once parse hist -> exists pre, ms = pre ++ ts) /\
    (* every cell holds the value supplied for its labels, and none is missing *)
    (forall c y, In (c, y) out -> c <> Population \/ length gs <> 1 ->
       exists x0, In (c, x0) hist /\ d_chans y = d_chans x0 /\
         (forall x1, In (c, x1, Ok tt) (combine hist (fst (@run G T C V geq teq ceq tle parse national hist init))) ->
            geo_labels national x1 = geo_labels national x0 /\ d_times x1 = d_times x0 /\ d_chans x1 = d_chans x0 /\ d_val x1 = d_val x0) /\
         forall i j k, i < length gs -> j < n_times_of c y -> k < n_chans_of c y ->
           exists i0 j0 g v, nth_error gs i = Some g /\ nth_error (geo_labels national x0) i0 = Some g /\
             (if match dim_of c with WithoutTime => true | _ => false end then j0 = j
              else exists t, nth_error (d_times y) j = Some t /\ nth_error (d_times x0) j0 = Some t) /\
             d_val y i j k = Some v /\ d_val x0 i0 j0 k = Some v) /\
    (* a national model has population one *)
    (length gs = 1 -> forall y, In (Population, y) out -> d_val y 0 0 0 = Some one) /\
    (* nothing accepted is dropped *)
    (forall c x1, In (c, x1, Ok tt) (combine hist (fst (@run G T C V geq teq ceq tle parse national hist init))) ->
       exists y, In (c, y) out).
Proof.
  intros G T C V geq teq ceq tle gle parse national one valid hist out [Gt Gr] E.
  pose proof (sound_reached geq teq ceq tle parse national hist) as So.
  set (s := snd (run geq teq ceq tle parse national hist init)) in *.
  unfold build in E. apply inv_rbind' in E. destruct E as (pop & Er & E).
  destruct (st_geos s) as [g|] eqn:Eg; [|discriminate]. destruct (st_times s) as [t|] eqn:Et; [|discriminate].
  destruct (st_media_times s) as [m|] eqn:Em; [|discriminate]. cbv zeta in E.
  apply inv_rbind' in E. destruct E as (parts & Ep & E). apply raise_if_inv' in E. destruct E as [Nan E].
  apply raise_if_inv' in E. destruct E as [_ E]. assert (out = concat parts) by congruence. subst out. clear E.
  destruct (so_times _ _ _ _ _ _ _ So t Et) as (Nt & Kt & Rt). destruct (so_media _ _ _ _ _ _ _ So m Em) as (Nm & Km & Rm).
  pose proof (so_geos _ _ _ _ _ _ _ So g Eg) as Ng.
  assert (Hpop : pop = mkDa g [] [] (fun _ _ _ => Some one) /\ length g = 1 \/ length g <> 1 /\ st_array s Population = Some pop).
  { unfold required in Er. apply raise_if_inv' in Er. destruct Er as [_ Er]. rewrite Eg in Er. cbv zeta in Er.
    destruct (Nat.eqb_spec (length g) 1) as [L|L].
    - repeat (apply raise_if_inv' in Er; destruct Er as [_ Er]). left. split; congruence.
    - destruct (st_array s Population) as [p|]; [|discriminate].
      repeat (apply raise_if_inv' in Er; destruct Er as [_ Er]). right. split; congruence. }
  (* entries of the result *)
  assert (Entry : forall c y, In (c, y) (concat parts) -> exists x,
             (if component_eq_dec c Population then Some pop else st_array s c) = Some x /\
             reindex geq teq (isort gle g) (match dim_of c with WithTime => Some (isort (date_label_leb parse) t)
                | WithMediaTime => Some (isort (date_label_leb parse) m) | WithoutTime => None end) x = Ok y /\
             has_nan (c, y) = false).
  { intros c y I.
    assert (Hn : has_nan (c, y) = false).
    { rewrite <- not_true_iff_false in *. intros K. apply Nan. apply existsb_exists. eauto. }
    apply in_concat in I. destruct I as (part & Ip & Iy).
    destruct (mapM_in _ _ _ _ _ Ep _ Ip) as (c0 & _ & F). cbv beta in F.
    destruct (if component_eq_dec c0 Population then Some pop else st_array s c0) as [x|] eqn:Ex.
    - apply inv_rbind' in F. destruct F as (y0 & F & F'). assert (part = [(c0, y0)]) by congruence. subst part.
      destruct Iy as [Iy|[]]. assert (c0 = c) by congruence. assert (y0 = y) by congruence. subst. eauto.
    - assert (part = []) by congruence. subst. contradiction. }
  exists (isort gle g), (isort (date_label_leb parse) t), (isort (date_label_leb parse) m).
  refine (conj (isort_nodup gle _ Ng) (conj (isort_nodup _ _ Nt) (conj (isort_nodup _ _ Nm) (conj (isort_sorted gle Gt Gr g)
    (conj (isort_sorted_on parse t Rt) (conj (isort_sorted_on parse m Rm) _)))))).
  split; [|split; [|split; [|split]]].
  - intros c y I. destruct (Entry c y I) as (x & _ & Rx & _). unfold reindex in Rx.
    apply raise_if_inv' in Rx. destruct Rx as [_ Rx]. destruct (dim_of c).
    + apply raise_if_inv' in Rx. destruct Rx as [_ Rx]. injection Rx as Ey. rewrite <- Ey. cbn.
      split; [reflexivity|split; [reflexivity|discriminate]].
    + apply raise_if_inv' in Rx. destruct Rx as [_ Rx]. injection Rx as Ey. rewrite <- Ey. cbn.
      split; [reflexivity|split; [discriminate|reflexivity]].
    + injection Rx as Ey. rewrite <- Ey. cbn. split; [reflexivity|split; discriminate].
  - intros Wo. destruct (so_both _ _ _ _ _ _ _ So t m Et Em) as [Sub Lag].
    destruct (lagged_suffix teq tle t m Nt Nm Sub Lag) as (pre & rest & Es & Pr & _).
    assert (Ow : one_way parse m).
    { intros a b Ia Ib Eab.
      (* the media times of the builder are those of one of the arrays *)
      assert (Src : exists c x, In (c, x) hist /\ timed c /\ d_times x = m).
      { clear - Em. revert Em. subst s.
        assert (Gen : forall rest (s : state G T C V), (st_media_times s = None \/ exists c x, In (c, x) hist /\ timed c /\ st_media_times s = Some (d_times x)) ->
                 (forall c x, In (c, x) rest -> In (c, x) hist) ->
                 st_media_times (snd (run geq teq ceq tle parse national rest s)) = Some m ->
                 exists c x, In (c, x) hist /\ timed c /\ d_times x = m).
        { induction rest as [|[c x] rest IH]; intros s0 H0 Sub E0.
          - cbn in E0. destruct H0 as [H0|(c & x & I & Tc & H0)]; [congruence|]. exists c, x. split; [exact I|split; [exact Tc|congruence]].
          - rewrite run_cons in E0. cbn [snd] in E0. destruct (set_component geq teq ceq tle parse national c x s0) as [r s1] eqn:Es1. cbn [snd] in E0.
            apply (IH s1); [|intros c0 x0 I0; apply Sub; right; exact I0|exact E0].
            apply set_component_cases in Es1. destruct Es1 as [[-> _]|(_ & _ & [[-> _]|(s2 & Gs & K)])]; [exact H0|exact H0|].
            apply set_geos_inv in Gs. destruct Gs as (_ & _ & _ & M2 & _). cbn in M2.
            destruct K as [[-> _]|[K _]]; [rewrite M2; exact H0|]. destruct (dim_of c) eqn:Dc.
            + apply set_times_inv in K. destruct K as (_ & _ & _ & _ & _ & M3 & _). rewrite M3, M2. exact H0.
            + apply set_media_times_inv in K. destruct K as (_ & _ & _ & M3 & _). right. exists c, x.
              split; [apply Sub; left; reflexivity|]. split; [unfold timed; congruence|exact M3].
            + assert (s1 = s2) by congruence. subst. rewrite M2. exact H0. }
        intros Em. apply (Gen hist init); auto. }
      destruct Src as (c & x & I & Tc & Ex). subst m. exact (Wo _ _ _ _ a b I I Tc Tc Ia Ib Eab). }
    assert (Sm : le_sorted (date_label_leb parse) (isort tle m)) by (apply coordinates_sorted; assumption).
    exists pre. rewrite (date_sort_unique parse m (isort tle m) Ow Rm Sm (isort_perm tle m)). rewrite Es. f_equal.
    symmetry. apply date_sort_unique.
    + apply subset_iff in Sub || rewrite subset_iff in Sub. intros a b Ia Ib. apply Ow; apply Sub; assumption.
    + exact Rt.
    + apply (sorted_app _ pre). rewrite <- Es. exact Sm.
    + exact Pr.
  - intros c y I Nat1. destruct (Entry c y I) as (x & Ex & Rx & Hn).
    assert (Es : st_array s c = Some x).
    { destruct (component_eq_dec c Population) as [->|]; [|exact Ex].
      assert (x = pop) by congruence. subst x. destruct Hpop as [[_ L]|[_ Es]]; [|exact Es].
      destruct Nat1 as [K|K]; [congruence|]. rewrite isort_length in K. congruence. }
    destruct (so_array _ _ _ _ _ _ _ So c x Es) as (x0 & I0 & ->).
    exists x0. split; [exact I0|].
    assert (Ch : d_chans y = d_chans x0).
    { unfold reindex in Rx. apply raise_if_inv' in Rx. destruct Rx as [_ Rx]. rewrite <- (norm_chans national x0).
      destruct (dim_of c); try (apply raise_if_inv' in Rx; destruct Rx as [_ Rx]); injection Rx as Ey; rewrite <- Ey; reflexivity. }
    split; [exact Ch|]. split.
    { intros x1 I1. pose proof (so_ok _ _ _ _ _ _ _ So c x1 I1) as E1. assert (Eq : norm national x1 = norm national x0) by congruence.
      refine (conj _ (conj _ (conj _ _))).
      - change (named national x1 = named national x0). rewrite <- !norm_geos, Eq. reflexivity.
      - rewrite <- (norm_times national x1), Eq. apply norm_times.
      - rewrite <- (norm_chans national x1), Eq. apply norm_chans.
      - rewrite <- (norm_val national x1), Eq. apply norm_val. }
    intros i j k Hi Hj Hk.
    assert (Gy : d_geos y = isort gle g).
    { unfold reindex in Rx. apply raise_if_inv' in Rx. destruct Rx as [_ Rx].
      destruct (dim_of c); try (apply raise_if_inv' in Rx; destruct Rx as [_ Rx]); injection Rx as Ey; rewrite <- Ey; reflexivity. }
    destruct (has_nan_false _ _ _ _ c y Hn i j k) as (v & Ev); [rewrite Gy; exact Hi|exact Hj|exact Hk|].
    pose proof Rx as Rx'. unfold reindex in Rx. apply raise_if_inv' in Rx. destruct Rx as [_ Rx].
    rewrite norm_geos, norm_val, norm_times, norm_chans in Rx.
    destruct (dim_of c) eqn:Dc.
    + apply raise_if_inv' in Rx. destruct Rx as [_ Rx]. injection Rx as Ey. rewrite <- Ey in Ev |- *. cbn [d_val d_times] in Ev |- *.
      destruct (lookup_at geq (isort gle g) (named national x0) i) as [i0|] eqn:Li; [|discriminate].
      destruct (lookup_at teq (isort (date_label_leb parse) t) (d_times x0) j) as [j0|] eqn:Lj; [|discriminate].
      apply lookup_some in Li, Lj. destruct Li as (lg & L1 & L2). destruct Lj as (lt & L3 & L4).
      exists i0, j0, lg, v. refine (conj L1 (conj L2 (conj _ (conj Ev Ev)))). exists lt. auto.
    + apply raise_if_inv' in Rx. destruct Rx as [_ Rx]. injection Rx as Ey. rewrite <- Ey in Ev |- *. cbn [d_val d_times] in Ev |- *.
      destruct (lookup_at geq (isort gle g) (named national x0) i) as [i0|] eqn:Li; [|discriminate].
      destruct (lookup_at teq (isort (date_label_leb parse) m) (d_times x0) j) as [j0|] eqn:Lj; [|discriminate].
      apply lookup_some in Li, Lj. destruct Li as (lg & L1 & L2). destruct Lj as (lt & L3 & L4).
      exists i0, j0, lg, v. refine (conj L1 (conj L2 (conj _ (conj Ev Ev)))). exists lt. auto.
    + injection Rx as Ey. rewrite <- Ey in Ev |- *. cbn [d_val d_times] in Ev |- *.
      destruct (lookup_at geq (isort gle g) (named national x0) i) as [i0|] eqn:Li; [|discriminate].
      apply lookup_some in Li. destruct Li as (lg & L1 & L2).
      exists i0, j, lg, v. refine (conj L1 (conj L2 (conj eq_refl (conj Ev Ev)))).
  - intros L y I. rewrite isort_length in L. destruct (Entry _ y I) as (x & Ex & Rx & _).
    destruct (component_eq_dec Population Population); [|congruence].
    destruct Hpop as [[Hp _]|[N _]]; [|congruence]. assert (Xp : x = mkDa g [] [] (fun _ _ _ => Some one)) by congruence.
    cbn [dim_of] in Rx. unfold reindex in Rx. apply raise_if_inv' in Rx. destruct Rx as [_ Rx]. injection Rx as Ey. rewrite <- Ey. cbn [d_val].
    rewrite Xp. cbn [d_geos d_val]. destruct g as [|a [|b g]]; try discriminate. cbn. destruct (geq a a); [reflexivity|congruence].
  - intros c x1 I1. pose proof (so_ok _ _ _ _ _ _ _ So c x1 I1) as E1.
    assert (Ic : In c all_components) by (destruct c; cbn; tauto).
    destruct (mapM_complete _ _ _ _ _ Ep c Ic) as (part & F & Ip). cbv beta in F.
    destruct (if component_eq_dec c Population then Some pop else st_array s c) as [x|] eqn:Ex.
    + apply inv_rbind' in F. destruct F as (y & _ & F). assert (part = [(c, y)]) by congruence. subst part.
      exists y. apply in_concat. exists [(c, y)]. split; [exact Ip|left; reflexivity].
    + destruct (component_eq_dec c Population); congruence.
Qed.
Print Assumptions C38_aligned.

(** *** What a built set of arrays consists of, and which arrays share a time axis *)
Lemma build_has : forall G T C V geq teq gle parse (one : V) valid (s : state G T C V) out,
  build geq teq gle parse one valid s = Ok out ->
  forall c, c <> Population -> ((exists y, In (c, y) out) <-> st_array s c <> None).
Proof.
  intros G T C V geq teq gle parse one valid s out E c Nc.
  unfold build in E. apply inv_rbind' in E. destruct E as (pop & Er & E).
  destruct (st_geos s) as [g|]; [|discriminate]. destruct (st_times s) as [t|]; [|discriminate].
  destruct (st_media_times s) as [m|]; [|discriminate]. cbv zeta in E.
  apply inv_rbind' in E. destruct E as (parts & Ep & E). apply raise_if_inv' in E. destruct E as [_ E].
  apply raise_if_inv' in E. destruct E as [_ E]. assert (out = concat parts) by congruence. subst out. clear E.
  assert (Ic : In c all_components) by (destruct c; cbn; tauto).
  destruct (mapM_complete _ _ _ _ _ Ep c Ic) as (part & F & Ip). cbv beta in F.
  destruct (component_eq_dec c Population) as [K|_]; [contradiction|]. split.
  - intros (y & I) Nn. apply in_concat in I. destruct I as (q & Iq & Iy).
    destruct (mapM_in _ _ _ _ _ Ep _ Iq) as (c0 & _ & F0). cbv beta in F0.
    destruct (if component_eq_dec c0 Population then Some pop else st_array s c0) as [x|] eqn:Ex.
    + apply inv_rbind' in F0. destruct F0 as (y0 & _ & F0). assert (q = [(c0, y0)]) by congruence. subst q.
      destruct Iy as [Iy|[]]. assert (c0 = c) by congruence. subst c0.
      destruct (component_eq_dec c Population) as [K|_]; [contradiction|]. congruence.
    + assert (q = []) by congruence. subst. contradiction.
  - intros Nn. destruct (st_array s c) as [x|]; [|congruence].
    apply inv_rbind' in F. destruct F as (y & _ & F). assert (part = [(c, y)]) by congruence. subst part.
    exists y. apply in_concat. exists [(c, y)]. split; [exact Ip|left; reflexivity].
Qed.

(** Whatever the calls were, the result has a KPI, its media come with spend, its reach with
    frequency and spend, its organic reach with frequency, and there are paid media of some kind. *)
Theorem C38_complete : forall G T C V geq teq ceq tle gle parse (national : G) (one : V) valid hist out,
  build geq teq gle parse one valid (snd (@run G T C V geq teq ceq tle parse national hist init)) = Ok out ->
  let has c := exists y, In (c, y) out in
  has Kpi /\ (has Media <-> has MediaSpend) /\ (has Reach <-> has Frequency) /\ (has Reach <-> has RfSpend) /\
  (has OrganicReach <-> has OrganicFrequency) /\ (has Media \/ has Reach).
Proof.
  intros G T C V geq teq ceq tle gle parse national one valid hist out E has.
  pose proof (build_has _ _ _ _ _ _ _ _ _ _ _ _ E) as H.
  unfold build in E. apply inv_rbind' in E. destruct E as (pop & Er & _).
  set (s := snd (run geq teq ceq tle parse national hist init)) in *.
  assert (B : forall c, c <> Population -> (has c <-> is_set s c = true)).
  { intros c Nc. unfold has. rewrite (H c Nc). unfold is_set. destruct (st_array s c); split; congruence. }
  unfold required in Er. apply raise_if_inv' in Er. destruct Er as [K Er].
  destruct (st_geos s) as [g|]; [|discriminate]. cbv zeta in Er.
  destruct (if Nat.eqb (length g) 1 then Some (mkDa g [] [] (fun _ _ _ => Some one)) else st_array s Population); [|discriminate].
  apply raise_if_inv' in Er. destruct Er as [K1 Er]. apply raise_if_inv' in Er. destruct Er as [K2 Er].
  apply raise_if_inv' in Er. destruct Er as [K3 Er]. apply raise_if_inv' in Er. destruct Er as [K4 Er].
  rewrite !B by discriminate. revert K K1 K2 K3 K4.
  destruct (is_set s Kpi), (is_set s Media), (is_set s MediaSpend), (is_set s Reach), (is_set s Frequency), (is_set s RfSpend),
    (is_set s OrganicReach), (is_set s OrganicFrequency); cbn; intuition discriminate.
Qed.
Print Assumptions C38_complete.

(** KPI, controls, revenue per KPI, non-media treatments and both spends are on the same times;
    media, reach, frequency and the organic arrays on the same media times. *)
Theorem C38_axes : forall G T C V geq teq ceq tle gle parse (national : G) (one : V) valid hist out,
  @total_order G gle ->
  build geq teq gle parse one valid (snd (@run G T C V geq teq ceq tle parse national hist init)) = Ok out ->
  forall axis, axis = [Kpi; Controls; RevenuePerKpi; NonMediaTreatments; MediaSpend; RfSpend] \/
               axis = [Media; Reach; Frequency; OrganicMedia; OrganicReach; OrganicFrequency] ->
  forall c y c' y', In c axis -> In c' axis -> In (c, y) out -> In (c', y') out -> d_times y = d_times y'.
Proof.
  intros G T C V geq teq ceq tle gle parse national one valid hist out Go E axis Ax c y c' y' Ic Ic' I I'.
  destruct (C38_aligned _ _ _ _ geq teq ceq tle gle parse national one valid hist out Go E)
    as (gs & ts & ms & _ & _ & _ & _ & _ & _ & A & _).
  destruct (A c y I) as (_ & A1 & A2). destruct (A c' y' I') as (_ & B1 & B2).
  destruct Ax as [-> | ->].
  - assert (D : forall a, In a [Kpi; Controls; RevenuePerKpi; NonMediaTreatments; MediaSpend; RfSpend] -> dim_of a = WithTime)
      by (intros a Ha; cbn in Ha; repeat (destruct Ha as [<-|Ha]; [reflexivity|]); contradiction).
    rewrite A1, B1 by (apply D; assumption). reflexivity.
  - assert (D : forall a, In a [Media; Reach; Frequency; OrganicMedia; OrganicReach; OrganicFrequency] -> dim_of a = WithMediaTime)
      by (intros a Ha; cbn in Ha; repeat (destruct Ha as [<-|Ha]; [reflexivity|]); contradiction).
    rewrite A2, B2 by (apply D; assumption). reflexivity.
Qed.
Print Assumptions C38_axes.

(** *** Which histories are accepted, and that the order does not matter *)
(** All calls are accepted exactly when every array is well formed and any two arrays fit. *)
Theorem C38_accepted : forall G T C V geq teq ceq tle parse (national : G) (hist : list (component * da G T C V)),
  strict_order tle ->
  (Forall (fun r => r = Ok tt) (fst (run geq teq ceq tle parse national hist init)) <->
   Forall (fine tle parse national) hist /\ ForallOrdPairs (compatible tle national) hist).
Proof. intros G T C V geq teq ceq tle parse national hist So. exact (accepted_lemma geq teq ceq tle (fun _ _ => true) parse national So hist). Qed.
Print Assumptions C38_accepted.
(** In another order the same calls are accepted as well, and the result is the same. *)
Theorem C38_order_independent : forall G T C V geq teq ceq tle gle parse (national : G) (one : V) valid
    (hist hist' : list (component * da G T C V)),
  strict_order tle -> total_order gle -> Permutation hist hist' ->
  Forall (fun r => r = Ok tt) (fst (run geq teq ceq tle parse national hist init)) ->
  no_ties gle national hist -> written_once parse hist ->
  Forall (fun r => r = Ok tt) (fst (run geq teq ceq tle parse national hist' init)) /\
  build geq teq gle parse one valid (snd (run geq teq ceq tle parse national hist' init))
  = build geq teq gle parse one valid (snd (run geq teq ceq tle parse national hist init)).
Proof. intros. apply order_lemma; assumption. Qed.
Print Assumptions C38_order_independent.

(** *** Concrete calls: labels are numbers, time label [t] is the day [t] of January 2021 *)
Definition ex_day (t : nat) : option date := Some (mkDate 2021 1 (Z.of_nat t)).
Definition ex_array (gs ts cs : list nat) (f : nat -> nat -> nat -> nat) : da nat nat nat nat :=
  mkDa gs ts cs (fun i j k => Some (f i j k)).
Definition ex_calls : list (component * da nat nat nat nat) :=
  [(Kpi, ex_array [2; 1] [8; 15; 22] [] (fun i j _ => 10 * i + j));
   (Media, ex_array [1; 2] [22; 1; 8; 15] [7] (fun i j _ => 100 + 10 * i + j));
   (Population, ex_array [1; 2] [] [] (fun i _ _ => i));
   (MediaSpend, ex_array [2; 1] [8; 22; 15] [7] (fun i j _ => i + j))].
Notation ex_run := (run Nat.eq_dec Nat.eq_dec Nat.eq_dec Nat.leb ex_day 0).
Notation ex_build := (build Nat.eq_dec Nat.eq_dec Nat.leb ex_day 1 (fun _ => true)).
Lemma leb_order : strict_order Nat.leb.
Proof.
  split; [split|].
  - intros a b. destruct (Nat.le_ge_cases a b) as [H|H]; apply Nat.leb_le in H; auto.
  - intros a b c H1 H2. apply Nat.leb_le in H1, H2. apply Nat.leb_le. lia.
  - intros a b H1 H2. apply Nat.leb_le in H1, H2. lia.
Qed.
Example C38_example :
  Forall (fun r => r = Ok tt) (fst (ex_run ex_calls init)) /\
  no_ties Nat.leb 0 ex_calls /\ written_once ex_day ex_calls /\
  exists out, ex_build (snd (ex_run ex_calls init)) = Ok out /\
    map (fun cy => (fst cy, d_geos (snd cy), d_times (snd cy))) out
    = [(Kpi, [1; 2], [8; 15; 22]); (Population, [1; 2], []); (Media, [1; 2], [1; 8; 15; 22]); (MediaSpend, [1; 2], [8; 15; 22])] /\
    (forall y, In (Kpi, y) out -> d_val y 0 2 0 = Some 12) /\
    ex_build (snd (ex_run (rev ex_calls) init)) = Ok out.
Proof.
  assert (Acc : Forall (fun r => r = Ok tt) (fst (ex_run ex_calls init))) by (vm_compute; repeat constructor).
  assert (Nt : no_ties Nat.leb 0 ex_calls).
  { intros c x c' y a b _ _ _ _ H1 H2. apply leb_order; assumption. }
  assert (Wo : written_once ex_day ex_calls).
  { intros c x c' y a b _ _ _ _ _ _ E. unfold ex_day in E. injection E as E. lia. }
  split; [exact Acc|split; [exact Nt|split; [exact Wo|]]].
  destruct (ex_build (snd (ex_run ex_calls init))) as [out|e] eqn:E; [|vm_compute in E; discriminate].
  exists out. split; [reflexivity|].
  assert (Perm : ex_build (snd (ex_run (rev ex_calls) init)) = Ok out).
  { rewrite <- E. apply (C38_order_independent _ _ _ _ Nat.eq_dec Nat.eq_dec Nat.eq_dec Nat.leb Nat.leb ex_day 0 1 (fun _ => true) ex_calls); auto.
    - exact leb_order.
    - exact (proj1 leb_order).
    - apply Permutation_rev. }
  split; [vm_compute in E; injection E as Eo; rewrite <- Eo; reflexivity|]. split; [|exact Perm].
  intros y I. vm_compute in E. injection E as Eo. rewrite <- Eo in I. clear Eo Perm Acc Nt Wo.
  destruct I as [I|I]; [injection I as Iy; rewrite <- Iy; reflexivity|]. cbn in I. repeat destruct I as [I|I]; try discriminate; contradiction.
Qed.

(** Refuted: a call that raises leaves no trace.  Media with an unknown geo are rejected, but kept,
    and [build] uses them without the geo. *)
Theorem C38_rejected_call_kept_refuted : exists hist out y,
  nth_error (fst (ex_run hist init)) 3 = Some (Err ValueError) /\
  nth_error (map fst hist) 3 = Some Media /\ ~ In Media (firstn 3 (map fst hist) ++ skipn 4 (map fst hist)) /\
  ex_build (snd (ex_run hist init)) = Ok out /\ In (Media, y) out /\ d_geos y = [1; 2] /\ d_val y 1 0 0 = Some 110.
Proof.
  exists [(Kpi, ex_array [2; 1] [8; 15; 22] [] (fun i j _ => 10 * i + j));
    (Population, ex_array [1; 2] [] [] (fun i _ _ => i));
    (MediaSpend, ex_array [2; 1] [8; 22; 15] [7] (fun i j _ => i + j));
    (Media, ex_array [1; 2; 3] [1; 8; 15; 22] [7] (fun i j _ => 100 + 10 * i + j));
    (OrganicMedia, ex_array [1; 2] [1; 8; 15; 22] [9] (fun i j _ => i + j))].
  eexists _, _. split; [reflexivity|]. split; [reflexivity|]. split; [cbn; intuition discriminate|].
  split; [cbv -[Nat.add Nat.mul]; reflexivity|]. split; [right; right; right; left; reflexivity|]. split; reflexivity.
Qed.
Print Assumptions C38_rejected_call_kept_refuted.

(** Refuted: the order of the calls never matters.  If two geos are tied in the natural order (as
    "g1" and "g01" are), the order of the geos in the result is that of the last call. *)
Theorem C38_order_matters_for_ties_refuted : exists (hist hist' : list (component * da nat nat nat nat)) out out',
  Permutation hist hist' /\
  Forall (fun r => r = Ok tt) (fst (ex_run hist init)) /\
  build Nat.eq_dec Nat.eq_dec (fun a b => Nat.leb (a / 2) (b / 2)) ex_day 1 (fun _ => true) (snd (ex_run hist init)) = Ok out /\
  build Nat.eq_dec Nat.eq_dec (fun a b => Nat.leb (a / 2) (b / 2)) ex_day 1 (fun _ => true) (snd (ex_run hist' init)) = Ok out' /\
  map (fun cy => d_geos (snd cy)) out <> map (fun cy => d_geos (snd cy)) out'.
Proof.
  exists [(Media, ex_array [2; 3] [8; 15] [7] (fun i j _ => i)); (MediaSpend, ex_array [2; 3] [8; 15] [7] (fun i j _ => i));
          (Kpi, ex_array [2; 3] [8; 15] [] (fun i j _ => i)); (Population, ex_array [3; 2] [] [] (fun i j _ => i))].
  exists [(Population, ex_array [3; 2] [] [] (fun i j _ => i)); (Media, ex_array [2; 3] [8; 15] [7] (fun i j _ => i)); (MediaSpend, ex_array [2; 3] [8; 15] [7] (fun i j _ => i));
          (Kpi, ex_array [2; 3] [8; 15] [] (fun i j _ => i))].
  eexists _, _. split; [apply Permutation_sym; exact (Permutation_cons_append [_; _; _] _)|].
  split; [vm_compute; repeat constructor|].
  split; [vm_compute; reflexivity|]. split; [vm_compute; reflexivity|]. cbn. discriminate.
Qed.
Print Assumptions C38_order_matters_for_ties_refuted.
