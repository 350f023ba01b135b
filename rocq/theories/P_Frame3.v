(** Lemmas about loading from data frames: cells, and the order of the rows. *)
From Coq Require Import Reals ZArith Lia String List Bool Permutation FunctionalExtensionality.
From Verif Require Import M_Base M_Time Lib_Sort M_Builder S_Builder P_Builder P_BuilderOrder C_Builder P_BuilderFull M_Frame S_Frame P_Frame P_Frame2.
Import ListNotations.
Local Open Scope string_scope.
Local Open Scope R_scope.
Local Open Scope nat_scope.
Local Open Scope list_scope.

Section P.
Context {G T : Type}.
Variables (geq : forall a b : G, {a = b} + {a <> b}) (teq : forall a b : T, {a = b} + {a <> b})
  (gord : G -> G -> bool) (tle : T -> T -> bool) (gle : G -> G -> bool)
  (parse : T -> option date) (national : G).
Hypothesis tle_order : strict_order tle.
Hypothesis gord_order : strict_order gord.
Hypothesis gle_order : total_order gle.
Notation da := (da G T string R).
Notation loader := (loader G T).
Notation row := (row G T).
Notation load := (load geq teq gord tle gle parse national).
Notation array_of := (array_of geq teq gord tle national).
Notation entries_of := (entries_of national).
Notation key lo r := (geo_of_row national lo r, time_of_row lo r).

Lemma array_of_entries : forall lo c, c <> Population -> array_of lo c = to_array geq teq gord tle (entries_of lo c) (names_of lo c).
Proof. intros lo c N. destruct c; try reflexivity. contradiction. Qed.
Lemma plain_iff : forall c, plain c = true <-> without_channels c.
Proof. intros c. unfold without_channels. destruct c; cbn; intuition discriminate. Qed.

(** *** Every cell comes from a row *)
Lemma cells_lemma : forall valid lo out c y i j k, named_columns lo -> load valid lo = Ok out -> In (c, y) out -> c <> Population ->
  i < length (d_geos y) -> j < n_times_of c y -> k < n_chans_of c y ->
  exists r col ch v, In r (rows lo) /\ In (col, ch) (columns_of lo c) /\ position national lo c y i j k r ch /\
    cell lo c r col = Some v /\ d_val y i j k = Some v.
Proof.
  intros valid lo out c y i j k Nm E Iy Np Hi Hj Hk.
  destruct (load_inv _ _ _ _ _ _ _ _ _ _ Nm E) as (hist & Acc & Eb & _ & Hist & _).
  destruct (build_accepted geq teq string_dec tle gle parse national 1%R tle_order valid hist out Acc Eb) as (gs & ts & ms & Ng & Nt & Nms & La & Src & _ & _).
  destruct (Src c y Iy (or_introl Np)) as (x & Ix & Pl & Hn). pose proof Pl as (P1 & P2 & P3 & P4 & P5).
  destruct (has_nan_false _ _ _ _ c y Hn i j k Hi Hj Hk) as (v & Ev).
  pose proof (proj1 (Hist c x) Ix) as [_ Ex]. rewrite (array_of_entries lo c Np) in Ex.
  pose proof Ev as Ev0. rewrite P5 in Ev. destruct (lookup_at geq gs (geo_labels national x) i) as [i0|] eqn:Li; [|discriminate].
  apply lookup_some in Li. destruct Li as (gl & L1 & L2).
  assert (Ht : exists j0, d_val x i0 j0 k = Some v /\ exists tl, nth_error (d_times y) j = Some tl /\ nth_error (d_times x) j0 = Some tl).
  { destruct (dim_of c) eqn:D.
    - destruct (lookup_at teq ts (d_times x) j) as [j0|] eqn:Lj; [|discriminate]. apply lookup_some in Lj. rewrite (P3 eq_refl). eauto.
    - destruct (lookup_at teq ms (d_times x) j) as [j0|] eqn:Lj; [|discriminate]. apply lookup_some in Lj. rewrite (P4 eq_refl). eauto.
    - exfalso. destruct c; try discriminate. contradiction. }
  destruct Ht as (j0 & Ev' & tl & T1 & T2).
  destruct (to_array_sound _ _ _ _ _ _ _ _ _ _ _ Ex Ev') as (g0 & t0 & ch & A1 & A2 & A3 & A4).
  assert (t0 = tl) by congruence. subst t0.
  pose proof (proj1 (entries_in _ _ _ _ _ _ _) A4) as (r & col & Ir & Ic & Ecell & Eg & Et). subst g0 tl.
  exists r, col, ch, v. split; [exact Ir|]. split; [exact Ic|]. split; [|split; [exact Ecell|exact Ev0]].
  split; [|split; [exact T1|]].
    + unfold at_geo. unfold geo_labels in L2. destruct (d_geos x) as [|ga [|gb gl']] eqn:Dg.
      * destruct i0; discriminate.
      * right. destruct i0 as [|i0]; [|destruct i0; discriminate]. cbn in L2, A1. injection L2 as <-. injection A1 as ->.
        assert (Gy : d_geos y = [national]).
        { rewrite P1. assert (Pm : Permutation gs [national]).
          { apply NoDup_Permutation; [exact Ng|repeat constructor; intros []|]. intros g. rewrite (la_geos _ _ _ _ _ La c x Ix g). unfold geo_labels. rewrite Dg. reflexivity. }
          apply Permutation_sym, Permutation_length_1_inv in Pm. exact Pm. }
        split; [exact Gy|]. split; [rewrite Gy in Hi; cbn in Hi; lia|].
        intros r' col' ch' Ir' Ic' Ne. destruct (cell lo c r' col') as [v'|] eqn:Ec'; [|congruence].
        assert (I' : In (geo_of_row national lo r') (d_geos x)).
        { apply (to_array_geos _ _ _ _ _ _ _ Ex). exists (time_of_row lo r'), ch', v'. apply entries_in. exists r', col'. auto. }
        rewrite Dg in I'. destruct I' as [I'|[]]. congruence.
      * left. rewrite P1, L1. rewrite <- L2, <- A1. reflexivity.
    + unfold chan_labels, names_of in A3. destruct (plain c) eqn:Pc.
      * left. split; [apply plain_iff; exact Pc|]. unfold n_chans_of in Hk. destruct c; try discriminate; lia.
      * right. split; [rewrite <- plain_iff; congruence|]. rewrite P2. exact A3.
Qed.

(** *** Every value arrives *)
Lemma nth_in : forall A (l : list A) x, In x l -> exists i, i < length l /\ nth_error l i = Some x.
Proof. intros A l x I. apply In_nth_error in I. destruct I as (i & E). exists i. split; [apply nth_error_Some; congruence|exact E]. Qed.
Lemma complete_lemma : forall valid lo out c r col ch v, named_columns lo -> load valid lo = Ok out -> c <> Population ->
  In r (rows lo) -> In (col, ch) (columns_of lo c) -> cell lo c r col = Some v ->
  exists y i j k, In (c, y) out /\ i < length (d_geos y) /\ j < n_times_of c y /\ k < n_chans_of c y /\
    position national lo c y i j k r ch /\ d_val y i j k = Some v.
Proof.
  intros valid lo out c r col ch v Nm E Np Ir Ic Ec.
  destruct (load_inv _ _ _ _ _ _ _ _ _ _ Nm E) as (hist & Acc & Eb & Mf & Hist & _).
  pose proof (proj1 (accepted_lemma geq teq string_dec tle gle parse national tle_order hist) Acc) as [Fi _]. rewrite Forall_forall in Fi.
  destruct (build_accepted geq teq string_dec tle gle parse national 1%R tle_order valid hist out Acc Eb) as (gs & ts & ms & Ng & Nt & Nms & La & Src & Cm & Gall).
  assert (Hc : exists x, In (c, x) hist).
  { assert (I : In c (map fst hist)).
    { rewrite Mf. apply filter_In. split; [unfold read_order; destruct c; cbn; tauto|]. unfold present. destruct (columns_of lo c); [contradiction|reflexivity]. }
    apply in_map_iff in I. destruct I as ([c' x] & Eq & I). cbn in Eq. subst. eauto. }
  destruct Hc as (x & Ix). destruct (Cm c x Ix) as (y & Iy).
  destruct (Src c y Iy (or_introl Np)) as (x' & Ix' & Pl & Hn).
  pose proof (proj1 (Hist c x') Ix') as [_ Ex]. rewrite (array_of_entries lo c Np) in Ex. clear x Ix. rename x' into x. rename Ix' into Ix.
  pose proof (Fi _ Ix) as [F1 F2]. pose proof Pl as (P1 & P2 & P3 & P4 & P5).
  assert (Ie : In (geo_of_row national lo r, time_of_row lo r, ch, v) (entries_of lo c)) by (apply entries_in; exists r, col; auto).
  assert (Ig : In (geo_of_row national lo r) (d_geos x)) by (apply (to_array_geos _ _ _ _ _ _ _ Ex); eauto).
  assert (It : In (time_of_row lo r) (d_times x)) by (apply (to_array_times _ _ _ _ _ _ _ Ex); eauto).
  destruct (nth_in _ _ _ Ig) as (i0 & Li0 & Ei0). destruct (nth_in _ _ _ It) as (j0 & Lj0 & Ej0).
  assert (Hk : exists k, k < n_chans_of c y /\ chan_labels x (names_of lo c) k ch /\
             (without_channels c /\ k = O \/ ~ without_channels c /\ nth_error (d_chans y) k = Some ch)).
  { unfold chan_labels, names_of. destruct (plain c) eqn:Pc.
    - exists O. split; [unfold n_chans_of; destruct c; try discriminate; lia|]. apply plain_iff in Pc. split; [|left; auto].
      destruct Pc as [-> | ->]; cbn [columns_of] in Ic.
      + destruct Ic as [Ic|[]]. congruence.
      + destruct (co_rpk (lo_coord lo)); [|contradiction]. destruct Ic as [Ic|[]]. congruence.
    - assert (Icx : In ch (d_chans x)).
      { rewrite (to_array_chans _ _ _ _ _ _ _ Ex). unfold names_of. rewrite Pc. apply filter_In. split.
        - change ch with (snd (col, ch)). apply in_map. exact Ic.
        - apply mem_iff. change ch with (e_chan (geo_of_row national lo r, time_of_row lo r, ch, v)). apply in_map. exact Ie. }
      destruct (nth_in _ _ _ Icx) as (k & Lk & Ek). exists k. rewrite P2. split; [|split; [exact Ek|right; split; [rewrite <- plain_iff; congruence|exact Ek]]].
      unfold n_chans_of. rewrite P2. destruct c; try discriminate; try contradiction; exact Lk. }
  destruct Hk as (k & Lk & Ck & Pk).
  assert (Hv : d_val x i0 j0 k = Some v) by (eapply to_array_complete; eassumption).
  assert (Gx : exists gl, nth_error (geo_labels national x) i0 = Some gl /\
     (gl = geo_of_row national lo r \/ gl = national /\ i0 = 0 /\ d_geos x = [geo_of_row national lo r])).
  { unfold geo_labels. destruct (d_geos x) as [|ga [|gb l]] eqn:Dg; [contradiction| |exists (geo_of_row national lo r); auto].
    destruct Ig as [<-|[]]. exists national. cbn in Li0. assert (i0 = 0) by lia. subst. cbn. auto. }
  destruct Gx as (gl & Gl & Gc).
  assert (Igs : In gl gs) by (apply (la_geos _ _ _ _ _ La c x Ix); eapply nth_error_In; exact Gl).
  destruct (nth_in _ _ _ Igs) as (i & Li & Ei).
  assert (Hj : exists j, j < n_times_of c y /\ nth_error (d_times y) j = Some (time_of_row lo r) /\
     match dim_of c with
     | WithTime => NoDup (d_times x) /\ exists t, nth_error ts j = Some t /\ nth_error (d_times x) j0 = Some t
     | WithMediaTime => NoDup (d_times x) /\ exists t, nth_error ms j = Some t /\ nth_error (d_times x) j0 = Some t
     | WithoutTime => j = j0 end).
  { unfold n_times_of. destruct (dim_of c) eqn:D.
    - assert (I : In (time_of_row lo r) ts) by (apply (la_times _ _ _ _ _ La c x Ix D); exact It).
      destruct (nth_in _ _ _ I) as (j & Lj & Ej). exists j. rewrite (P3 eq_refl). split; [exact Lj|]. split; [exact Ej|].
      assert (Dn : timed c) by (unfold timed; congruence). split; [apply (F2 Dn)|eauto].
    - assert (I : In (time_of_row lo r) ms) by (apply (la_media _ _ _ _ _ La c x Ix D); exact It).
      destruct (nth_in _ _ _ I) as (j & Lj & Ej). exists j. rewrite (P4 eq_refl). split; [exact Lj|]. split; [exact Ej|].
      assert (Dn : timed c) by (unfold timed; congruence). split; [apply (F2 Dn)|eauto].
    - exfalso. destruct c; try discriminate. contradiction. }
  destruct Hj as (j & Lj & Ej & Hj).
  exists y, i, j, k. rewrite P1. split; [exact Iy|]. split; [exact Li|]. split; [exact Lj|]. split; [exact Lk|]. split.
  - split; [|split; [exact Ej|exact Pk]]. unfold at_geo. destruct Gc as [->|(-> & -> & Dg)].
    + left. rewrite P1. exact Ei.
    + right. assert (Gy : gs = [national]).
      { assert (Pm : Permutation gs [national]).
        { apply NoDup_Permutation; [exact Ng|repeat constructor; intros []|]. intros g. rewrite (la_geos _ _ _ _ _ La c x Ix g). unfold geo_labels. rewrite Dg. reflexivity. }
        apply Permutation_sym, Permutation_length_1_inv in Pm. exact Pm. }
      rewrite P1, Gy. split; [reflexivity|]. split; [rewrite Gy in Li; cbn in Li; lia|].
      intros r' col' ch' Ir' Ic' Ne. destruct (cell lo c r' col') as [v'|] eqn:Ec'; [|congruence].
      assert (I' : In (geo_of_row national lo r') (d_geos x)).
      { apply (to_array_geos _ _ _ _ _ _ _ Ex). exists (time_of_row lo r'), ch', v'. apply entries_in. exists r', col'. auto. }
      rewrite Dg in I'. destruct I' as [I'|[]]. congruence.
  - rewrite (placed_cell geq teq national gs ts ms c x y i j k i0 j0 gl Pl F1 Ei Gl Hj). exact Hv.
Qed.

(** The channels of an array: those of its columns that have a value, in the order of the columns. *)
Lemma chans_lemma : forall valid lo out c y, named_columns lo -> load valid lo = Ok out -> In (c, y) out -> c <> Population -> ~ without_channels c ->
  (exists keep : string -> bool, d_chans y = filter keep (map snd (columns_of lo c)) /\
     forall ch, keep ch = true <-> exists r col, In r (rows lo) /\ In (col, ch) (columns_of lo c) /\ cell lo c r col <> None).
Proof.
  intros valid lo out c y Nm E Iy Np Nw.
  destruct (load_inv _ _ _ _ _ _ _ _ _ _ Nm E) as (hist & Acc & Eb & Mf & Hist & _).
  destruct (build_accepted geq teq string_dec tle gle parse national 1%R tle_order valid hist out Acc Eb) as (gs & ts & ms & Ng & Nt & Nms & La & Src & Cm & Gall).
  destruct (Src c y Iy (or_introl Np)) as (x & Ix & Pl & _). destruct Pl as (_ & P2 & _).
  pose proof (proj1 (Hist c x) Ix) as [_ Ex]. rewrite (array_of_entries lo c Np) in Ex.
  assert (Pc : plain c = false) by (destruct (plain c) eqn:Pc; [apply plain_iff in Pc; contradiction|reflexivity]).
  exists (fun ch => mem string_dec ch (map e_chan (entries_of lo c))). split.
  - rewrite P2, (to_array_chans _ _ _ _ _ _ _ Ex). unfold names_of. rewrite Pc. reflexivity.
  - intros ch. rewrite mem_iff, in_map_iff. split.
    + intros ([[[g t] ch'] v] & Eq & I). cbn in Eq. subst ch'. apply entries_in in I. destruct I as (r & col & Ir & Ic & Ec & _). exists r, col. split; [exact Ir|split; [exact Ic|congruence]].
    + intros (r & col & Ir & Ic & Ne). destruct (cell lo c r col) as [v|] eqn:Ec; [|congruence].
      exists (geo_of_row national lo r, time_of_row lo r, ch, v). split; [reflexivity|]. apply entries_in. exists r, col. auto.
Qed.

(** *** Rows: each geo and period once, every geo with the same periods *)
Lemma with_geo_rows : forall lo : loader, let geo := co_geo (lo_coord lo) in
  exists f : row -> row, f_rows (with_geo national geo (lo_frame lo)) = map f (rows lo) /\
    forall r, r_geo (f r) geo = geo_of_row national lo r /\ r_time (f r) = r_time r /\ r_num (f r) = r_num r.
Proof.
  intros lo geo. unfold with_geo, rows, geo_of_row, mem. fold geo. destruct (in_dec string_dec geo (f_columns (lo_frame lo))).
  - exists (fun r => r). rewrite map_id. auto.
  - eexists. split; [reflexivity|]. intros r. cbn. rewrite String.eqb_refl. auto.
Qed.
Lemma filter_map_comm : forall A B (f : A -> B) (p : B -> bool) l, filter p (map f l) = map f (filter (fun a => p (f a)) l).
Proof. intros A B f p l. induction l as [|a l IH]; [reflexivity|]. cbn. destruct (p (f a)); cbn; rewrite IH; reflexivity. Qed.
Definition times_at (lo : loader) (g : G) : list T :=
  map (time_of_row lo) (filter (fun r => if geq (geo_of_row national lo r) g then true else false) (rows lo)).
Lemma times_of_at : forall (lo : loader) g, let geo := co_geo (lo_coord lo) in
  times_of geq tle geo (co_time (lo_coord lo)) (with_geo national geo (lo_frame lo)) g = isort tle (times_at lo g).
Proof.
  intros lo g geo. unfold times_of, times_at, rows_of. destruct (with_geo_rows lo) as (f & Ef & Hf). fold geo in Ef, Hf. rewrite Ef.
  rewrite filter_map_comm, map_map. f_equal.
  rewrite (filter_ext _ (fun r => if geq (geo_of_row national lo r) g then true else false)).
  2:{ intros r. destruct (Hf r) as [-> _]. reflexivity. }
  apply map_ext. intros r. destruct (Hf r) as (_ & -> & _). reflexivity.
Qed.
Lemma groups_at : forall lo : loader, let geo := co_geo (lo_coord lo) in
  forall g, In g (geo_groups geq gord geo (with_geo national geo (lo_frame lo))) <-> exists r, In r (rows lo) /\ geo_of_row national lo r = g.
Proof.
  intros lo geo g. unfold geo_groups. rewrite isort_in, nodup_In, in_map_iff. destruct (with_geo_rows lo) as (f & Ef & Hf). fold geo in Ef, Hf. rewrite Ef. split.
  - intros (r' & Eg & I). apply in_map_iff in I. destruct I as (r & <- & I). exists r. destruct (Hf r) as [<- _]. auto.
  - intros (r & I & Eg). exists (f r). destruct (Hf r) as [-> _]. split; [exact Eg|apply in_map; exact I].
Qed.
Definition balanced (lo : loader) : Prop :=
  NoDup (map (fun r => key lo r) (rows lo)) /\
  forall r1 r2, In r1 (rows lo) -> In r2 (rows lo) ->
    exists r, In r (rows lo) /\ geo_of_row national lo r = geo_of_row national lo r1 /\ time_of_row lo r = time_of_row lo r2.
Lemma in_times_at : forall lo g t, In t (times_at lo g) <-> exists r, In r (rows lo) /\ geo_of_row national lo r = g /\ time_of_row lo r = t.
Proof.
  intros lo g t. unfold times_at. rewrite in_map_iff. split.
  - intros (r & Et & I). apply filter_In in I. destruct I as [I K]. destruct (geq (geo_of_row national lo r) g); [|discriminate]. exists r. auto.
  - intros (r & I & Eg & Et). exists r. split; [exact Et|]. apply filter_In. split; [exact I|]. destruct (geq (geo_of_row national lo r) g); [reflexivity|contradiction].
Qed.
Lemma NoDup_keys : forall A (g : A -> G) (t : A -> T) l,
  NoDup (map (fun r => (g r, t r)) l) <-> forall a, NoDup (map t (filter (fun r => if geq (g r) a then true else false) l)).
Proof.
  intros A g t l. induction l as [|r l IH]; cbn [map filter].
  - split; intros; constructor.
  - split.
    + intros N a. inversion N as [|? ? N1 N2]; subst. destruct (geq (g r) a) as [<-|_]; [|apply IH; exact N2].
      cbn [map]. constructor; [|apply IH; exact N2]. intros I. apply N1. apply in_map_iff in I. destruct I as (r' & Et & I).
      apply filter_In in I. destruct I as [I K]. destruct (geq (g r') (g r)) as [Eg|]; [|discriminate]. rewrite <- Et, <- Eg. apply in_map_iff. exists r'. auto.
    + intros H. constructor.
      * intros I. apply in_map_iff in I. destruct I as (r' & Ek & I). injection Ek as Eg Et. specialize (H (g r)).
        destruct (geq (g r) (g r)); [|congruence]. cbn [map] in H. inversion H as [|? ? N1 _]; subst. apply N1. rewrite <- Et. apply in_map_iff. exists r'.
        split; [reflexivity|]. apply filter_In. split; [exact I|]. destruct (geq (g r') (g r)); [reflexivity|congruence].
      * apply IH. intros a. specialize (H a). destruct (geq (g r) a); [|exact H]. cbn [map] in H. inversion H; assumption.
Qed.
Lemma coords_iff : forall lo, (exists f', validate_coords geq teq gord tle national (co_geo (lo_coord lo)) (Some (co_time (lo_coord lo))) (lo_frame lo) = Ok f') <-> balanced lo.
Proof.
  intros lo. set (geo := co_geo (lo_coord lo)). set (time := co_time (lo_coord lo)).
  set (groups := geo_groups geq gord geo (with_geo national geo (lo_frame lo))).
  assert (Gin : forall g, In g groups <-> exists r, In r (rows lo) /\ geo_of_row national lo r = g) by (apply groups_at).
  assert (Tm : forall g, times_of geq tle geo time (with_geo national geo (lo_frame lo)) g = isort tle (times_at lo g)) by (intros g; apply times_of_at).
  unfold M_Frame.validate_coords. fold groups. rewrite (map_ext _ _ Tm).
  assert (U : existsb (fun l => negb (unique teq l)) (map (fun g => isort tle (times_at lo g)) groups) = false <->
              NoDup (map (fun r => key lo r) (rows lo))).
  { rewrite (NoDup_keys row (geo_of_row national lo) (time_of_row lo)). split.
    - intros H g. change (NoDup (times_at lo g)). destruct (times_at lo g) as [|t l] eqn:Et; [constructor|].
      assert (Ig : In g groups).
      { apply Gin. assert (It : In t (times_at lo g)) by (rewrite Et; left; reflexivity). apply in_times_at in It. destruct It as (r & I & Eg & _). eauto. }
      rewrite <- Et. apply (Permutation_NoDup (Permutation_sym (isort_perm tle _))).
      apply (unique_iff teq). destruct (unique teq (isort tle (times_at lo g))) eqn:Un; [reflexivity|]. exfalso.
      rewrite <- not_true_iff_false in H. apply H. apply existsb_exists. exists (isort tle (times_at lo g)).
      split; [apply in_map_iff; exists g; auto|]. rewrite Un. reflexivity.
    - intros H. apply not_true_iff_false. intros K. apply existsb_exists in K. destruct K as (l & I & K). apply in_map_iff in I. destruct I as (g & <- & _).
      apply negb_true_iff in K. rewrite <- not_true_iff_false in K. apply K. apply unique_iff, isort_nodup. exact (H g). }
  assert (S : NoDup (map (fun r => key lo r) (rows lo)) ->
     ((match map (fun g => isort tle (times_at lo g)) groups with
       | [] => false
       | t0 :: rest => existsb (fun t => if list_eq_dec teq t t0 then false else true) rest
       end) = false <-> balanced lo)).
  { intros N. assert (Nk := proj1 (NoDup_keys row (geo_of_row national lo) (time_of_row lo) (rows lo)) N). split.
    - intros H. split; [exact N|]. intros r1 r2 I1 I2.
      assert (All : forall g g', In g groups -> In g' groups -> isort tle (times_at lo g) = isort tle (times_at lo g')).
      { destruct groups as [|g0 rest]; [intros g g' []|]. cbn [map] in H.
        assert (E0 : forall g, In g (g0 :: rest) -> isort tle (times_at lo g) = isort tle (times_at lo g0)).
        { intros g [<-|I]; [reflexivity|]. destruct (list_eq_dec teq (isort tle (times_at lo g)) (isort tle (times_at lo g0))) as [Eq|Ne]; [exact Eq|].
          exfalso. rewrite <- not_true_iff_false in H. apply H. apply existsb_exists. exists (isort tle (times_at lo g)). split; [apply in_map_iff; exists g; auto|].
          destruct (list_eq_dec teq (isort tle (times_at lo g)) (isort tle (times_at lo g0))); [contradiction|reflexivity]. }
        intros g g' I I'. rewrite (E0 g I), (E0 g' I'). reflexivity. }
      assert (It : In (time_of_row lo r2) (times_at lo (geo_of_row national lo r1))).
      { rewrite <- (isort_in tle). rewrite (All (geo_of_row national lo r1) (geo_of_row national lo r2)) by (apply Gin; eauto).
        rewrite isort_in. apply in_times_at. exists r2. auto. }
      apply in_times_at in It. exact It.
    - intros [_ H]. destruct groups as [|g0 rest] eqn:Eg; [reflexivity|]. cbn [map]. apply not_true_iff_false. intros K.
      apply existsb_exists in K. destruct K as (l & I & K). apply in_map_iff in I. destruct I as (g & <- & I).
      destruct (list_eq_dec teq (isort tle (times_at lo g)) (isort tle (times_at lo g0))) as [|Ne]; [discriminate|]. apply Ne.
      apply tsort_perm; [exact tle_order|]. apply NoDup_Permutation; [exact (Nk g)|exact (Nk g0)|].
      assert (Hg : exists r, In r (rows lo) /\ geo_of_row national lo r = g) by (apply Gin; right; exact I).
      assert (Hg0 : exists r, In r (rows lo) /\ geo_of_row national lo r = g0) by (apply Gin; left; reflexivity).
      destruct Hg as (ra & Ia & <-). destruct Hg0 as (rb & Ib & <-).
      intros t. rewrite !in_times_at. split; intros (r & Ir & _ & <-); apply H; assumption. }
  split.
  - intros (f' & E). apply raise_if_inv' in E. destruct E as [E1 E]. apply raise_if_inv' in E. destruct E as [E2 _].
    apply U in E1. apply (S E1). exact E2.
  - intros B. pose proof B as [N _]. rewrite (proj2 U N). cbn [raise_if]. rewrite (proj2 (S N) B). cbn [raise_if]. eauto.
Qed.
Lemma balanced_lemma : forall valid lo out, named_columns lo -> load valid lo = Ok out -> balanced lo.
Proof.
  intros valid lo out Nm E. destruct (load_inv _ _ _ _ _ _ _ _ _ _ Nm E) as (_ & _ & _ & _ & _ & H). apply coords_iff. exact H.
Qed.

(** *** Population *)
Lemma population_lemma : forall valid lo out y i, named_columns lo -> load valid lo = Ok out -> In (Population, y) out ->
  i < length (d_geos y) ->
  (length (d_geos y) = 1 -> d_val y i 0 0 = Some 1%R) /\
  (length (d_geos y) <> 1 ->
   exists col g v, In (col, "") (columns_of lo Population) /\ nth_error (d_geos y) i = Some g /\ d_val y i 0 0 = Some v /\
     average (map (fun r => r_num r col) (filter (fun r => if geq (geo_of_row national lo r) g then true else false) (rows lo))) v).
Proof.
  intros valid lo out y i Nm E Iy Li.
  destruct (load_inv _ _ _ _ _ _ _ _ _ _ Nm E) as (hist & Acc & Eb & Mf & Hist & _).
  destruct (build_accepted geq teq string_dec tle gle parse national 1%R tle_order valid hist out Acc Eb) as (gs & ts & ms & Ng & Nt & Nms & La & Src & Cm & Gall).
  split.
  - intros L1. destruct (C38_aligned _ _ _ _ geq teq string_dec tle gle parse national 1%R valid hist out gle_order Eb)
      as (gs1 & ts1 & ms1 & _ & _ & _ & _ & _ & _ & Al & _ & _ & Na & _).
    destruct (Al _ _ Iy) as (Ey & _). rewrite Ey in L1, Li. assert (i = 0) by lia. subst i. apply Na; assumption.
  - intros L. rewrite (Gall _ _ Iy) in L, Li |- *. destruct (Src Population y Iy (or_intror L)) as (x & Ix & Pl & Hn).
    pose proof Pl as (P1 & _ & _ & _ & P5).
    assert (Li' : i < length (d_geos y)) by (rewrite P1; exact Li).
    destruct (has_nan_false _ _ _ _ Population y Hn i 0 0 Li' (Nat.lt_0_succ 0) (Nat.lt_0_succ 0)) as (v & Ev).
    pose proof (proj1 (Hist Population x) Ix) as [Nc Ex]. exists (co_population (lo_coord lo)).
    pose proof Ev as Ev0. rewrite P5 in Ev. cbn [dim_of] in Ev.
    destruct (lookup_at geq gs (geo_labels national x) i) as [i0|] eqn:Lk; [|discriminate]. apply lookup_some in Lk. destruct Lk as (g & L1 & L2).
    assert (Lx : length (d_geos x) <> 1).
    { intros L3. apply L. assert (Pm : Permutation gs (geo_labels national x)).
      { apply NoDup_Permutation; [exact Ng| |apply (la_geos _ _ _ _ _ La _ _ Ix)].
        unfold geo_labels. destruct (d_geos x) as [|a [|b l]]; try discriminate. repeat constructor. intros []. }
      apply Permutation_length in Pm. rewrite Pm. unfold geo_labels. destruct (d_geos x) as [|a [|b l]]; try discriminate. reflexivity. }
    assert (L2' : nth_error (d_geos x) i0 = Some g).
    { rewrite <- L2. unfold geo_labels. destruct (d_geos x) as [|a [|b l]]; try reflexivity. exfalso. apply Lx. reflexivity. }
    exists g, v. split.
    { cbn [columns_of] in Nc |- *. destruct (in_dec string_dec (co_population (lo_coord lo)) (f_columns (lo_frame lo))); [left; reflexivity|congruence]. }
    split; [exact L1|]. split; [exact Ev0|].
    cbn [P_Frame.array_of] in Ex. cbv zeta in Ex. injection Ex as <-. cbn [d_val d_geos] in Ev, L2'. rewrite L2' in Ev.
    unfold rows_of in Ev. destruct (with_geo_rows lo) as (f & Ef & Hf). rewrite Ef in Ev. rewrite filter_map_comm, map_map in Ev.
    rewrite (filter_ext _ (fun r => if geq (geo_of_row national lo r) g then true else false)) in Ev.
    2:{ intros r. destruct (Hf r) as [-> _]. reflexivity. }
    rewrite (map_ext _ (fun r => r_num r (co_population (lo_coord lo)))) in Ev.
    2:{ intros r. destruct (Hf r) as (_ & _ & ->). reflexivity. }
    unfold average. eexists. split; [reflexivity|]. unfold some_values, mean in Ev.
    destruct (flat_map _ _) as [|v0 vs]; [discriminate|]. split; [discriminate|]. congruence.
Qed.
End P.
