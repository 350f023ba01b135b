(** What the xarray data loader loads, and which datasets it refuses. *)
From Coq Require Import String Arith Lia List Bool Permutation Sorted.
From Verif Require Import M_Base M_Time Lib_Sort M_Builder S_Builder P_Builder P_BuilderOrder C_Builder P_BuilderFull M_XrLoader S_XrLoader P_XrLoader.
Import ListNotations.
Local Open Scope nat_scope.
Local Open Scope list_scope.

Section P.
Context {V : Type}.
Variables (tle gle : string -> string -> bool) (parse : string -> option date) (national : string) (one : V).
Hypothesis tle_order : strict_order tle.
Notation da := (da string string string V).
Notation dataset := (dataset V).
Notation run := (run string_dec string_dec string_dec tle parse national).
Notation geo_names := (geo_names national).
Notation load_dataset := (load_dataset tle gle parse national one).
Notation loadable := (loadable tle parse national).
Notation own_list := P_XrLoader.own_list.
Notation axis := S_XrLoader.axis.

Lemma load_inv : forall valid (d : dataset) out, load_dataset valid d = Ok out ->
  exists hist, calls d hist /\ present d Kpi /\ Forall (fun r => r = Ok tt) (fst (run hist init)) /\
    build string_dec string_dec gle parse one valid (snd (run hist init)) = Ok out.
Proof.
  intros valid d out E. unfold M_XrLoader.load_dataset in E. apply inv_rbind' in E. destruct E as (hist & Eh & E).
  apply raise_if_inv' in E. destruct E as [K E]. apply inv_rbind' in E. destruct E as (s & Es & E).
  apply feed_run in Es. destruct Es as [Acc Es]. subst s. exists hist. split; [apply init_calls; exact Eh|].
  split; [unfold present; destruct (ds_array d Kpi); congruence|]. split; assumption.
Qed.
Lemma chans_eq : forall (d : dataset) c a (x : da), faithful d c a x -> n_chans_of c x = n_chans d c.
Proof. intros d c a x F. unfold n_chans_of, n_chans. rewrite (fa_chans _ _ _ _ F). destruct c; reflexivity. Qed.
Lemma geo_names_length : forall d : dataset, List.length (geo_names d) = List.length (ds_geos d).
Proof. intros d. unfold S_XrLoader.geo_names. destruct (ds_geos d) as [|a [|b l]]; reflexivity. Qed.
Lemma regular_perm : forall l m, Permutation l m -> regular tle parse l -> regular tle parse m.
Proof. intros l m P (ds & E & H). exists ds. rewrite <- (tsort_perm tle tle_order l m P). auto. Qed.

(** Facts shared by everything that follows a successful load. *)
Record loaded (d : dataset) (out : list (component * da)) (gs ts ms : list string) : Prop := {
  lo_gs : Permutation gs (geo_names d); lo_gs_nodup : NoDup gs;
  lo_ts : forall t, In t ts <-> own_time d t; lo_ts_nodup : NoDup ts;
  lo_ms : Permutation ms (all_times d); lo_ms_nodup : NoDup ms;
  lo_axis : forall c, dim_of c <> WithoutTime -> NoDup (axis d c);
  lo_shape : forall c y, In (c, y) out -> d_geos y = gs /\ (dim_of c = WithTime -> d_times y = ts) /\ (dim_of c = WithMediaTime -> d_times y = ms);
  lo_has : forall c, present d c -> exists y, In (c, y) out;
  lo_from : forall c y, In (c, y) out -> c <> Population \/ List.length (ds_geos d) <> 1 ->
    exists a, ds_array d c = Some a /\ d_chans y = ds_chans d c /\ has_nan (c, y) = false /\
      forall i j k i0 j0 g, nth_error gs i = Some g -> nth_error (geo_names d) i0 = Some g ->
        (dim_of c = WithoutTime -> j0 = j) ->
        (dim_of c <> WithoutTime -> exists t, nth_error (d_times y) j = Some t /\ nth_error (axis d c) j0 = Some t) ->
        d_val y i j k = a i0 j0 k
}.

Lemma loaded_lemma : forall valid (d : dataset) out, total_order gle -> load_dataset valid d = Ok out ->
  exists gs ts ms, loaded d out gs ts ms /\
    NoDup (geo_names d) /\ good_axis tle parse (own_list d) /\ good_axis tle parse (all_times d) /\ last_part tle (own_list d) (all_times d) /\
    le_sorted gle gs /\ le_sorted (date_label_leb parse) ts /\ le_sorted (date_label_leb parse) ms /\
    ((forall a b, In a (all_times d) -> In b (all_times d) -> parse a = parse b -> a = b) -> exists pre, ms = pre ++ ts) /\
    (List.length (ds_geos d) = 1 -> forall y, In (Population, y) out -> d_val y 0 0 0 = Some one) /\
    present d Kpi /\ (present d Media <-> present d MediaSpend) /\ (present d Reach <-> present d Frequency) /\
    (present d Reach <-> present d RfSpend) /\ (present d OrganicReach <-> present d OrganicFrequency) /\ (present d Media \/ present d Reach).
Proof.
  intros valid d out Go E. destruct (load_inv valid d out E) as (hist & Ca & Pk & Acc & Eb).
  pose proof (C38_complete _ _ _ _ _ _ _ _ _ _ _ _ _ hist out Eb) as Cm. cbv zeta in Cm.
  pose proof (C38_aligned _ _ _ _ string_dec string_dec string_dec tle gle parse national one valid hist out Go Eb) as Al.
  destruct (build_accepted string_dec string_dec string_dec tle gle parse national one tle_order valid hist out Acc Eb)
    as (gs & ts & ms & Ng & Nt & Nm & La & From & Has & Geos).
  pose proof (proj1 (accepted_lemma string_dec string_dec string_dec tle gle parse national tle_order hist) Acc) as FP.
  pose proof (proj1 (accepted_iff tle parse national d hist Ca) FP) as (Hg & Ht & Hm & Hl).
  assert (Get : forall c, present d c -> exists x a, In (c, x) hist /\ ds_array d c = Some a /\ faithful d c a x).
  { intros c P. apply (ca_fst _ _ Ca) in P. apply in_map_iff in P. destruct P as ([c' x] & Ec & I). cbn in Ec. subst c'.
    destruct (ca_in _ _ Ca c x I) as (a & Ea & Fa). exists x, a. auto. }
  assert (HasP : forall c, present d c -> exists y, In (c, y) out).
  { intros c P. destruct (Get c P) as (x & a & I & _). exact (Has c x I). }
  destruct (Get Kpi Pk) as (kx & ka & Ik & Eka & Fk).
  assert (Hne : hist <> []) by (intros K; rewrite K in Ik; exact Ik).
  specialize (Hg Hne).
  assert (Wt : exists c, present d c /\ dim_of c = WithTime) by (exists Kpi; split; [exact Pk|reflexivity]).
  assert (OutP : forall c y, c <> Population -> In (c, y) out -> present d c).
  { intros c y Nc I. destruct (From c y I (or_introl Nc)) as (x & Ix & _). apply (ca_fst _ _ Ca). change c with (fst (c, x)). apply in_map. exact Ix. }
  assert (PB : forall c, c <> Population -> ((exists y, In (c, y) out) <-> present d c)).
  { intros c Nc. split; [intros (y & I); exact (OutP c y Nc I)|exact (HasP c)]. }
  destruct Cm as (_ & Cm1 & Cm2 & Cm3 & Cm4 & Cm5). rewrite !PB in Cm1, Cm2, Cm3, Cm4, Cm5 by discriminate.
  assert (Wm : exists c, present d c /\ dim_of c = WithMediaTime).
  { destruct Cm5 as [K|K]; [exists Media|exists Reach]; (split; [exact K|reflexivity]). }
  specialize (Ht Wt). specialize (Hm Wm). specialize (Hl Wt Wm).
  destruct Wm as (mc & Pm & Dm). destruct (Get mc Pm) as (mx & ma & Im & Ema & Fm).
  assert (Gp : Permutation gs (geo_names d)).
  { apply NoDup_Permutation; [exact Ng|exact Hg|]. intros g. rewrite (la_geos _ _ _ _ _ La Kpi kx Ik g), (labels_geo national d kx (fa_geos _ _ _ _ Fk)). reflexivity. }
  assert (Tp : forall t, In t ts <-> own_time d t).
  { intros t. rewrite (la_times _ _ _ _ _ La Kpi kx Ik eq_refl t), (fa_own _ _ _ _ Fk eq_refl). apply own_list_in. }
  assert (Mp : Permutation ms (all_times d)).
  { apply NoDup_Permutation; [exact Nm|apply Hm|]. intros t. rewrite (la_media _ _ _ _ _ La mc mx Im Dm t), (fa_media _ _ _ _ Fm Dm). reflexivity. }
  assert (Ax : forall c, dim_of c <> WithoutTime -> NoDup (axis d c)).
  { intros c D. unfold S_XrLoader.axis. destruct (dim_of c); [|apply Hm|congruence].
    destruct Ht as (_ & Nn & _). destruct Hm as (_ & Nn' & _). unfold P_XrLoader.own_list in Nn. unfold all_times in Nn'. destruct (ds_media_times d); assumption. }
  assert (LenG : List.length gs = List.length (ds_geos d)) by (rewrite (Permutation_length Gp), geo_names_length; reflexivity).
  exists gs, ts, ms.
  destruct Al as (gs' & ts' & ms' & _ & _ & _ & Sg & St & Sm & Sh & Pre & _ & Pop & _).
  destruct (HasP Kpi Pk) as (ky & Iky). destruct (HasP mc Pm) as (my & Imy).
  assert (Nmc : mc <> Population) by (intros ->; discriminate).
  assert (Eg : gs' = gs). { destruct (Sh Kpi ky Iky) as [A _]. rewrite <- A. exact (Geos _ _ Iky). }
  assert (Et : ts' = ts).
  { destruct (Sh Kpi ky Iky) as (_ & A & _). rewrite <- (A eq_refl). assert (Nk : Kpi <> Population) by discriminate. destruct (From Kpi ky Iky (or_introl Nk)) as (x & _ & Pl & _).
    exact (proj1 (proj2 (proj2 Pl)) eq_refl). }
  assert (Em : ms' = ms).
  { destruct (Sh mc my Imy) as (_ & _ & A). rewrite <- (A Dm). destruct (From mc my Imy (or_introl Nmc)) as (x & _ & Pl & _).
    exact (proj1 (proj2 (proj2 (proj2 Pl))) Dm). }
  subst gs' ts' ms'.
  split; [|split; [exact Hg|split; [exact Ht|split; [exact Hm|split; [exact Hl|split; [exact Sg|split; [exact St|split; [exact Sm|split]]]]]]]].
  - constructor; auto.
    intros c y I Cp.
    assert (Cp' : c <> Population \/ List.length gs <> 1) by (rewrite LenG; exact Cp).
    destruct (From c y I Cp') as (x & Ix & Pl & Nn). destruct (ca_in _ _ Ca c x Ix) as (a & Ea & Fa). exists a. split; [exact Ea|].
    split; [rewrite <- (fa_chans _ _ _ _ Fa); exact (proj1 (proj2 Pl))|]. split; [exact Nn|].
    intros i j k i0 j0 g Hi Hi0 Hw Hj.
    pose proof (labels_geo national d x (fa_geos _ _ _ _ Fa)) as Lx.
    assert (Step : forall p, match dim_of c with
        | WithTime => NoDup (d_times x) /\ exists t, nth_error ts j = Some t /\ nth_error (d_times x) p = Some t
        | WithMediaTime => NoDup (d_times x) /\ exists t, nth_error ms j = Some t /\ nth_error (d_times x) p = Some t
        | WithoutTime => j = p
        end -> d_val y i j k = d_val x i0 p k).
    { intros p Hp. apply (placed_cell string_dec string_dec national gs ts ms c x y i j k i0 p g Pl); [rewrite Lx; exact Hg|exact Hi|rewrite Lx; exact Hi0|exact Hp]. }
    destruct (dim_of c) eqn:D.
    + destruct (Hj ltac:(discriminate)) as (t & T1 & T2). rewrite (proj1 (proj2 (proj2 Pl)) D) in T1.
      assert (Io : In t (d_times x)). { rewrite (fa_own _ _ _ _ Fa D). apply own_list_in, Tp. exact (nth_error_In _ _ T1). }
      apply In_nth_error in Io. destruct Io as (p & Ep). rewrite (Step p).
      2:{ split; [rewrite (fa_own _ _ _ _ Fa D); apply Ht|]. exists t. auto. }
      apply (fa_val _ _ _ _ Fa).
      * destruct (ds_media_times d) eqn:Emt; [right; left; discriminate|left]. unfold all_times in Hm. rewrite Emt in Hm. apply Hm.
      * rewrite D. discriminate.
      * intros _. exists t. auto.
      * left. apply Ax. rewrite D. discriminate.
    + destruct (Hj ltac:(discriminate)) as (t & T1 & T2). rewrite (proj1 (proj2 (proj2 (proj2 Pl))) D) in T1.
      assert (Ed : d_times x = axis d c) by (rewrite (fa_media _ _ _ _ Fa D); unfold S_XrLoader.axis; rewrite D; reflexivity).
      rewrite (Step j0).
      2:{ rewrite Ed. split; [apply Ax; rewrite D; discriminate|]. exists t. auto. }
      apply (fa_val _ _ _ _ Fa).
      * right. right. rewrite D. discriminate.
      * rewrite D. discriminate.
      * intros _. exists t. rewrite Ed. auto.
      * left. apply Ax. rewrite D. discriminate.
    + rewrite (Hw eq_refl). rewrite (Step j eq_refl). apply (fa_val _ _ _ _ Fa).
      * right. right. rewrite D. discriminate.
      * reflexivity.
      * intros K. congruence.
      * right. exact D.
  - intros Ow. apply Pre. intros c x c' y a b I I' T1 T2 Ia Ib. apply Ow.
    + destruct (ca_in _ _ Ca c x I) as (? & _ & Fa). unfold timed in T1. destruct (dim_of c) eqn:D; [|rewrite (fa_media _ _ _ _ Fa D) in Ia; exact Ia|congruence].
      rewrite (fa_own _ _ _ _ Fa D) in Ia. destruct Hl as (pre & El). apply (isort_in tle). rewrite El. apply in_app_iff. right. apply isort_in. exact Ia.
    + destruct (ca_in _ _ Ca c' y I') as (? & _ & Fa). unfold timed in T2. destruct (dim_of c') eqn:D; [|rewrite (fa_media _ _ _ _ Fa D) in Ib; exact Ib|congruence].
      rewrite (fa_own _ _ _ _ Fa D) in Ib. destruct Hl as (pre & El). apply (isort_in tle). rewrite El. apply in_app_iff. right. apply isort_in. exact Ib.
  - split; [intros L y I; apply Pop; [rewrite LenG; exact L|exact I]|]. tauto.
Qed.

Lemma nth_in_len : forall A (l : list A) i a, nth_error l i = Some a -> i < List.length l.
Proof. intros A l i a E. apply nth_error_Some. congruence. Qed.
(** Every position of the dataset that the loaded data cover has a value. *)
Lemma loaded_values : forall d out gs ts ms, loaded d out gs ts ms -> forall c, c <> Population \/ List.length (ds_geos d) <> 1 ->
  forall j, (dim_of c = WithTime -> exists t, nth_error (ds_times d) j = Some t /\ own_time d t) -> (dim_of c = WithMediaTime -> j < List.length (all_times d)) ->
  (dim_of c = WithoutTime -> j = 0) -> complete_at d c j.
Proof.
  intros d out gs ts ms L c Cp j H1 H2 H3 a i k Ea Hi Hk.
  destruct (lo_has _ _ _ _ _ L c) as (y & I); [unfold present; congruence|].
  destruct (lo_from _ _ _ _ _ L c y I Cp) as (a' & Ea' & Ech & Nn & Cell). assert (a' = a) by congruence. subst a'.
  destruct (lo_shape _ _ _ _ _ L c y I) as (Sg & St & Sm).
  assert (Hg : exists g i1, nth_error (geo_names d) i = Some g /\ nth_error gs i1 = Some g).
  { rewrite <- geo_names_length in Hi. destruct (nth_error (geo_names d) i) as [g|] eqn:Eg; [|apply nth_error_None in Eg; lia].
    assert (Ig : In g gs) by (apply (Permutation_in _ (Permutation_sym (lo_gs _ _ _ _ _ L))); exact (nth_error_In _ _ Eg)).
    apply In_nth_error in Ig. destruct Ig as (i1 & E1). exists g, i1. auto. }
  destruct Hg as (g & i1 & Eg & Eg1).
  assert (Hj : exists j1, j1 < n_times_of c y /\ (dim_of c = WithoutTime -> j = j1) /\
             (dim_of c <> WithoutTime -> exists t, nth_error (d_times y) j1 = Some t /\ nth_error (axis d c) j = Some t)).
  { unfold n_times_of, S_XrLoader.axis. destruct (dim_of c) eqn:D.
    - destruct (H1 eq_refl) as (t & Et & Ot). apply (lo_ts _ _ _ _ _ L) in Ot. rewrite (St eq_refl). apply In_nth_error in Ot. destruct Ot as (j1 & E1).
      exists j1. split; [exact (nth_in_len _ _ _ _ E1)|]. split; [discriminate|]. intros _. exists t. auto.
    - specialize (H2 eq_refl). destruct (nth_error (all_times d) j) as [t|] eqn:Et; [|apply nth_error_None in Et; lia].
      assert (It : In t ms) by (apply (Permutation_in _ (Permutation_sym (lo_ms _ _ _ _ _ L))); exact (nth_error_In _ _ Et)).
      apply In_nth_error in It. destruct It as (j1 & E1). rewrite (Sm eq_refl). exists j1. split; [exact (nth_in_len _ _ _ _ E1)|]. split; [discriminate|]. intros _. exists t. auto.
    - exists 0. split; [lia|]. split; [intros _; exact (H3 eq_refl)|congruence]. }
  destruct Hj as (j1 & L1 & W1 & T1).
  rewrite <- (Cell i1 j1 k i j g Eg1 Eg W1 T1).
  destruct (has_nan_false _ _ _ _ c y Nn i1 j1 k) as (v & Ev).
  - rewrite Sg. exact (nth_in_len _ _ _ _ Eg1).
  - exact L1.
  - unfold n_chans_of. unfold n_chans in Hk. rewrite Ech. destruct c; exact Hk.
  - congruence.
Qed.

Lemma population_lemma : forall valid (d : dataset) out, load_dataset valid d = Ok out -> List.length (ds_geos d) = 1 \/ present d Population.
Proof.
  intros valid d out E. destruct (load_inv valid d out E) as (hist & Ca & Pk & Acc & Eb).
  pose proof (reached_lemma string_dec string_dec string_dec tle gle parse national tle_order _ Acc) as Re.
  unfold build in Eb. apply inv_rbind' in Eb. destruct Eb as (pop & Er & _). unfold required in Er. apply raise_if_inv' in Er. destruct Er as [_ Er].
  set (s := snd (run hist init)) in *. destruct (st_geos s) as [g|] eqn:Eg; [|discriminate]. cbv zeta in Er.
  destruct (Nat.eqb_spec (List.length g) 1) as [L1|L1].
  - left. destruct (re_geos _ _ _ _ _ Re) as [[_ K]|(c & x & I & K)]; [congruence|]. apply in_rev in I.
    destruct (ca_in _ _ Ca c x I) as (a & _ & Fa). rewrite (labels_geo national d x (fa_geos _ _ _ _ Fa)) in K.
    assert (g = geo_names d) by congruence. subst g. rewrite geo_names_length in L1. exact L1.
  - right. destruct (st_array s Population) as [p|] eqn:Ep; [|discriminate]. apply (ca_fst _ _ Ca).
    destruct (in_dec component_eq_dec Population (map fst hist)) as [I|N]; [exact I|]. exfalso.
    assert (st_array s Population = None); [|congruence]. apply (re_unset _ _ _ _ _ Re). intros x I. apply N.
    apply in_rev in I. change Population with (fst (Population, x)). apply in_map. exact I.
Qed.

Lemma only_loadable : forall valid (d : dataset) out, total_order gle -> load_dataset valid d = Ok out -> loadable d.
Proof.
  intros valid d out Go E. pose proof (population_lemma valid d out E) as Pp.
  destruct (loaded_lemma valid d out Go E) as (gs & ts & ms & L & Hg & Ht & Hm & Hl & _ & _ & _ & _ & _ & Pk & Cm1 & Cm2 & Cm3 & Cm4 & Cm5).
  constructor; auto.
  - exists (own_list d). split; [apply own_list_in|]. split; [apply Ht|]. split; [apply Ht|]. split; [apply Ht|exact Hl].
  - intros Hn. destruct Ht as (_ & N & _). unfold P_XrLoader.own_list in N. destruct (ds_media_times d); [exact N|congruence].
  - intros c D j Hj. apply (loaded_values _ _ _ _ _ L); [left; intros ->; discriminate| | |]; try (rewrite D; discriminate). auto.
  - intros Hn c D j Hj. apply (loaded_values _ _ _ _ _ L); [left; intros ->; discriminate| | |]; try (rewrite D; discriminate).
    intros _. destruct (nth_error (ds_times d) j) as [t|] eqn:Et; [|apply nth_error_None in Et; lia]. exists t. split; [reflexivity|].
    exists j. split; [exact Et|]. intros K. congruence.
  - intros Hn. apply (loaded_values _ _ _ _ _ L); [right; exact Hn| | |]; try discriminate. reflexivity.
Qed.

Lemma loads_lemma : forall d : dataset, loadable d -> exists out, forall valid, load_dataset valid d = if valid out then Ok out else Err ValueError.
Proof.
  intros d Lo. destruct Lo as [Lk Lm Lr Lrf Lor Lp Lg Lpop Lt Lown Lonce Lmv Lv Lpv].
  destruct Lt as (Lt1 & Lt2 & Lt3). destruct Lown as (ts & Ts & Nts & Rts & Gts & Lts).
  assert (Nd : NoDup (ds_times d)).
  { unfold all_times in Lt2. destruct (ds_media_times d) as [m|]; [apply Lonce; discriminate|exact Lt2]. }
  assert (No : NoDup (own_list d)) by (unfold P_XrLoader.own_list; destruct (ds_media_times d); [exact Nd|apply no_na_nodup; exact Nd]).
  assert (Po : Permutation ts (own_list d)) by (apply NoDup_Permutation; [exact Nts|exact No|intros t; rewrite Ts, own_list_in; reflexivity]).
  destruct (init_runs d Lk (or_introl Nd)) as (hist & Eh). pose proof (init_calls d hist Eh) as Ca.
  assert (Acc : Forall (fun r => r = Ok tt) (fst (run hist init))).
  { apply (accepted_lemma string_dec string_dec string_dec tle gle parse national tle_order). apply (accepted_iff tle parse national d hist Ca).
    split; [intros _; exact Lg|]. split; [|split].
    - intros _. split; [|split; [exact No|exact (regular_perm _ _ Po Gts)]]. intros t I. apply Rts. apply (Permutation_in _ (Permutation_sym Po)). exact I.
    - intros _. split; [exact Lt1|split; assumption].
    - intros _ _. exact (last_part_perm tle tle_order ts (own_list d) _ _ Po (Permutation_refl _) Lts). }
  assert (Full : forall c x, In (c, x) hist -> c <> Population \/ List.length (d_geos x) <> 1 -> full c x).
  { intros c x I Cp i j k Hi Hj Hk. destruct (ca_in _ _ Ca c x I) as (a & Ea & Fa). rewrite (fa_geos _ _ _ _ Fa) in *. rewrite (chans_eq d c a x Fa) in Hk.
    unfold n_times_of in Hj. destruct (dim_of c) eqn:D.
    - destruct (nth_error (d_times x) j) as [t|] eqn:Et; [|apply nth_error_None in Et; lia].
      assert (Ot : own_time d t) by (apply own_list_in; rewrite <- (fa_own _ _ _ _ Fa D); exact (nth_error_In _ _ Et)).
      destruct Ot as (j0 & E0 & C0).
      rewrite (fa_val _ _ _ _ Fa (or_introl Nd) i j k j0).
      + destruct (ds_media_times d) as [m|] eqn:Em.
        * apply (Lv ltac:(discriminate) c D j0 (nth_in_len _ _ _ _ E0) a i k Ea Hi Hk).
        * apply (C0 eq_refl c (proj1 (timed_iff c) D) a i k Ea Hi Hk).
      + congruence.
      + intros _. exists t. split; [exact Et|]. unfold S_XrLoader.axis. rewrite D. exact E0.
      + left. unfold S_XrLoader.axis. rewrite D. exact Nd.
    - destruct (nth_error (d_times x) j) as [t|] eqn:Et; [|apply nth_error_None in Et; lia].
      assert (Ea2 : d_times x = all_times d) by exact (fa_media _ _ _ _ Fa D).
      rewrite (fa_val _ _ _ _ Fa (or_introl Nd) i j k j).
      + rewrite Ea2 in Hj. apply (Lmv c D j Hj a i k Ea Hi Hk).
      + reflexivity.
      + intros _. exists t. split; [exact Et|]. unfold S_XrLoader.axis. rewrite D, <- Ea2. exact Et.
      + left. unfold S_XrLoader.axis. rewrite D. exact Lt2.
    - assert (j = 0) by lia. subst j. assert (c = Population) by (destruct (partner_dims c); [congruence|assumption]). subst c.
      destruct Cp as [Cp|Cp]; [congruence|]. rewrite (fa_val _ _ _ _ Fa (or_introl Nd) i 0 k 0).
      + apply (Lpv Cp a i k Ea Hi Hk).
      + reflexivity.
      + rewrite D. congruence.
      + right. exact D. }
  destruct (build_runs string_dec string_dec string_dec tle gle parse national one tle_order hist Acc Full) as (out & Ho).
  - rewrite (ca_fst _ _ Ca). exact Lk.
  - rewrite !(ca_fst _ _ Ca). exact Lp.
  - rewrite !(ca_fst _ _ Ca). exact Lm.
  - rewrite !(ca_fst _ _ Ca). exact Lr.
  - rewrite !(ca_fst _ _ Ca). exact Lrf.
  - rewrite !(ca_fst _ _ Ca). exact Lor.
  - intros K. apply (ca_fst _ _ Ca). destruct Lpop as [L1|P]; [|exact P]. exfalso.
    assert (Ik : In Kpi (map fst hist)) by (apply (ca_fst _ _ Ca); exact Lk). apply in_map_iff in Ik. destruct Ik as ([c x] & _ & I).
    destruct (ca_in _ _ Ca c x I) as (a & _ & Fa). apply (K c x I). rewrite (fa_geos _ _ _ _ Fa). exact L1.
  - exists out. intros valid. unfold M_XrLoader.load_dataset. rewrite Eh. cbn [rbind].
    unfold present in Lk. destruct (ds_array d Kpi); [|congruence]. cbn [raise_if].
    rewrite (proj2 (feed_run tle parse national hist init (snd (run hist init))) (conj Acc eq_refl)). cbn [rbind]. apply Ho.
Qed.
End P.
