(** Property C49: automatic knot selection. *)
From Coq Require Import Reals ZArith String List Bool Arith Lia Lra Sorted.
From Verif Require Import Lib_Sum M_Base M_Spec M_PriorDist M_Knots S_Knots P_Spec P_PriorDist P_Knots M_AKS S_AKS P_AKS.
Import ListNotations.

(** C49. Whatever the regression routines return, a successful selection is strictly increasing and
    in range, contains every required knot and no excluded one, contains the first and last periods
    unless it is empty, has between min and max internal knots, and with the restriction to the right
    every internal knot is required or to the right of all required knots.  Internal knots are taken
    from the allowed periods only. *)
Theorem C49_selected_knots :
  forall solver rss n_geos n n_features base min_i max_i required excluded right iters eps tol ks,
  keeps_length solver ->
  automatic_knot_selection solver rss n_geos n n_features base min_i max_i required excluded right iters eps tol = Ok ks ->
  strictly_increasing ks /\ knots_in_range n ks /\
  (forall k, In k (elements required) -> In k ks) /\
  (forall k, In k (elements excluded) -> ~ In k ks) /\
  (ks <> [] -> In 0%Z ks /\ In (Z.of_nat n - 1)%Z ks) /\
  (forall k, In k (internal n ks) -> allowed_knot n excluded k /\
     (right = true -> In k (elements required) \/ forall r, In r (elements required) -> (r < k)%Z)) /\
  (min_i <= Z.of_nat (length (internal n ks)))%Z /\
  (forall m, max_i = Some m -> (Z.of_nat (length (internal n ks)) <= m)%Z) /\
  (max_i = None -> exists allowed, NoDup allowed /\ (forall k, In k allowed <-> allowed_knot n excluded k) /\
     (Z.of_nat (length (internal n ks)) + Z.of_nat n_features <= Z.of_nat (length allowed))%Z).
Proof.
  intros solver rss n_geos n n_features base min_i max_i required excluded right iters eps tol ks Hsol H.
  destruct (aks_ok _ _ _ _ _ _ _ _ _ _ _ _ _ _ _ Hsol H)
    as [init [cand [fits [sel [i [m [A1 [A2 [A3 [A4 [A5 [A6 [A7 [A8 [A9 [A10 [A11 [A12 A13]]]]]]]]]]]]]]]]]].
  destruct (aspline_good _ _ _ _ _ _ _ _ _ Hsol A4 A1) as [_ Hgood].
  rewrite Forall_forall in Hgood. destruct (Hgood sel (nth_error_In _ _ A11)) as [G1 [G2 [G3 _]]].
  assert (Hin : forall k, In k (fst sel) -> allowed_knot n excluded k /\
     (right = true -> In k (elements required) \/ forall r, In r (elements required) -> (r < k)%Z)).
  { intros k Hk. apply G2, A5 in Hk. destruct Hk as [Hk1 Hk2]. split; auto. apply A3. auto. }
  assert (Hreq : forall k, In k (elements required) -> In k (fst sel)).
  { intros k Hk. apply G3.
    - apply A5. split; auto.
    - destruct (unique_or_none required) as [r|] eqn:Er.
      + destruct (unique_or_none_some _ _ Er) as [_ [R2 _]]. apply R2. auto.
      + rewrite (unique_or_none_none _ Er) in Hk. contradiction. }
  assert (Hint : internal n ks = fst sel).
  { rewrite A13. destruct (fst sel) as [|z l] eqn:E; auto. rewrite <- E in *. apply internal_of_boundaries; auto.
    intros k Hk. destruct (Hin k Hk) as [[B _] _]. auto. }
  assert (Hks : forall k, In k ks -> In k (fst sel) \/ (fst sel <> [] /\ (k = 0%Z \/ k = (Z.of_nat n - 1)%Z))).
  { intros k Hk. rewrite A13 in Hk. destruct (fst sel) as [|z l] eqn:E; [contradiction|].
    destruct (np_unique_spec ((z :: l) ++ [0%Z; (Z.of_nat n - 1)%Z])) as [_ B]. apply B in Hk.
    apply in_app_iff in Hk. destruct Hk as [Hk|[Hk|[Hk|[]]]]; auto; right; split; auto; discriminate. }
  assert (Hsub : forall k, In k (fst sel) -> In k ks).
  { intros k Hk. rewrite A13. destruct (fst sel) as [|z l] eqn:E; [contradiction|].
    apply (proj2 (np_unique_spec _)). apply in_app_iff. auto. }
  assert (Hn : fst sel <> [] -> (2 < Z.of_nat n)%Z).
  { intros Hne. destruct (fst sel) as [|z l] eqn:E; [congruence|].
    destruct (Hin z (or_introl eq_refl)) as [[B _] _]. lia. }
  split.
  { apply ssorted_iff. rewrite A13. destruct (fst sel); [constructor|]. apply np_unique_spec. }
  split.
  { intros k Hk. destruct (Hks k Hk) as [B|[B C]].
    - destruct (Hin k B) as [[D _] _]. lia.
    - specialize (Hn B). lia. }
  split; [auto|]. split.
  { intros k Hk Hk'. destruct (Hks k Hk') as [B|[B C]].
    - destruct (Hin k B) as [[_ [D _]] _]. auto.
    - pose proof (Hn B) as Hn'. unfold automatic_knot_selection in H. cbv zeta in H. apply raise_if_ok in H. destruct H as [_ H].
      destruct (initial_knots n (unique_or_none excluded)) as [q|] eqn:Eq; cbn [rbind] in H; [|discriminate].
      destruct (initial_knots_ok _ _ _ Eq) as [_ [_ I3]]. specialize (I3 k Hk). lia. }
  split.
  { intros Hne. rewrite A13 in *. destruct (fst sel) as [|z l]; [congruence|].
    split; apply (proj2 (np_unique_spec _)), in_app_iff; right; simpl; auto. }
  rewrite Hint. split; [exact Hin|]. split; [lia|]. split.
  { intros m' Hm. rewrite Hm in A8. lia. }
  intros Hm. rewrite Hm in A8. exists init. split; [apply ssorted_nodup; auto|]. split; auto. lia.
Qed.
Print Assumptions C49_selected_knots.

(** C49. The selection is the penalty whose fit has the smallest Akaike criterion among those with an
    admissible number of internal knots, the last such penalty in case of ties; every penalty has
    been fitted. *)
Theorem C49_minimal_aic :
  forall solver rss n_geos n n_features base min_i max_i required excluded right iters eps tol ks,
  keeps_length solver ->
  automatic_knot_selection solver rss n_geos n n_features base min_i (Some max_i) required excluded right iters eps tol = Ok ks ->
  exists candidates fits i,
    aspline solver rss candidates (map (fun p => (1 / sqrt (INR n_geos) * p)%R) base)
      (np_unique (elements required)) iters eps tol = Ok fits /\
    length fits = length base /\
    (forall fit, In fit fits -> snd fit = akaike rss (fst fit)) /\
    nth_error (map fst fits) i = Some (internal n ks) /\
    forall j b, nth_error (map fst fits) j = Some b -> (min_i <= Z.of_nat (length b) <= max_i)%Z ->
      (akaike rss (internal n ks) <= akaike rss b)%R /\
      (akaike rss b = akaike rss (internal n ks) -> (j <= i)%nat).
Proof.
  intros solver rss n_geos n n_features base min_i max_i required excluded right iters eps tol ks Hsol H.
  destruct (aks_ok _ _ _ _ _ _ _ _ _ _ _ _ _ _ _ Hsol H)
    as [init [cand [fits [sel [i [m [A1 [A2 [A3 [A4 [A5 [A6 [A7 [A8 [A9 [A10 [A11 [A12 A13]]]]]]]]]]]]]]]]]].
  destruct (aspline_good _ _ _ _ _ _ _ _ _ Hsol A4 A1) as [Hlen Hgood]. rewrite Forall_forall in Hgood.
  assert (Haic : forall fit, In fit fits -> snd fit = akaike rss (fst fit)).
  { intros fit Hf. destruct (Hgood fit Hf) as [_ [_ [_ E]]]. auto. }
  destruct (Hgood sel (nth_error_In _ _ A11)) as [G1 [G2 [G3 G4]]].
  assert (Hint : internal n ks = fst sel).
  { rewrite A13. destruct (fst sel) as [|z l] eqn:E; auto. rewrite <- E in *. apply internal_of_boundaries; auto.
    intros k Hk. apply G2, A5 in Hk. destruct Hk as [Hk _]. apply A3 in Hk. destruct Hk as [B _]. auto. }
  exists cand, fits, i. split.
  { rewrite <- A1. f_equal. destruct required as [[|x l]|]; auto. }
  split; [rewrite Hlen; apply map_length|]. split; auto. split.
  { rewrite nth_error_map, A11, Hint. auto. }
  intros j b Hj Hb. rewrite nth_error_map in Hj. destruct (nth_error fits j) as [fit|] eqn:Ej; [|discriminate].
  simpl in Hj. inversion Hj; subst b. clear Hj. rewrite A8 in A12. destruct (A12 j fit Ej Hb) as [B C].
  rewrite Hint, <- G4, <- (Haic fit (nth_error_In _ _ Ej)). split; auto. intros E. apply C. lra.
Qed.
Print Assumptions C49_minimal_aic.

(** C49. Contradictory requests are rejected with a ValueError before any regression is run: a knot
    both required and excluded, an excluded or required knot that is not allowed, more required knots
    than the maximum, the restriction to the right without required knots. *)
Theorem C49_rejects :
  forall solver rss n_geos n n_features base min_i max_i required excluded right iters eps tol,
  (exists k, In k (elements required) /\ In k (elements excluded)) \/
  (exists k, In k (elements excluded) /\ ~ (0 < k < Z.of_nat n - 1)%Z) \/
  (exists k, In k (elements required) /\ ~ allowed_knot n excluded k) \/
  (exists m, max_i = Some m /\ elements required <> [] /\
     (m < Z.of_nat (length (np_unique (elements required))))%Z) \/
  (right = true /\ elements required = []) \/
  (exists m, max_i = Some m /\ (m < min_i)%Z) ->
  automatic_knot_selection solver rss n_geos n n_features base min_i max_i required excluded right iters eps tol
    = Err ValueError.
Proof.
  intros solver rss n_geos n n_features base min_i max_i required excluded right iters eps tol Hbad.
  unfold automatic_knot_selection. cbv zeta.
  destruct (match unique_or_none excluded, unique_or_none required with
            | Some e, Some r => existsb (fun k => isin k r) e | _, _ => false end) eqn:E0; auto. cbn [raise_if].
  destruct (initial_knots n (unique_or_none excluded)) as [init|x] eqn:Ei; cbn [rbind];
    [|apply initial_knots_error in Ei; congruence].
  destruct (initial_knots_ok _ _ _ Ei) as [I1 [I2 I3]].
  unfold max_internal_knots. cbv zeta.
  set (m := match max_i with Some x => x | None => (Z.of_nat (length init) - Z.of_nat n_features)%Z end).
  destruct (Z.ltb (Z.of_nat (length init)) min_i); auto. cbn [raise_if rbind].
  destruct (Z.ltb m min_i) eqn:Em; auto. cbn [raise_if rbind]. apply Z.ltb_ge in Em.
  destruct (unique_or_none required) as [r|] eqn:Er.
  - destruct (unique_or_none_some _ _ Er) as [R1 [R2 R3]].
    destruct (negb (forallb (fun k => isin k init) r)) eqn:E1; auto. cbn [raise_if].
    destruct (Z.ltb m (Z.of_nat (length r))) eqn:E2; auto. cbn [raise_if]. exfalso.
    apply negb_false_iff in E1. rewrite forallb_forall in E1. apply Z.ltb_ge in E2.
    assert (Hlen : length (np_unique (elements required)) = length r).
    { destruct required as [[|x l]|]; simpl in Er; inversion Er; auto. }
    assert (Hr : forall k, In k (elements required) -> In k init) by (intros k Hk; apply isin_iff, E1, R2; auto).
    destruct Hbad as [[k [H1 H2]]|[[k [H1 H2]]|[[k [H1 H2]]|[[m' [H1 [H0 H2]]]|[[H1 H2]|[m' [H1 H2]]]]]]].
    + apply Hr, I2 in H1. tauto.
    + apply H2, I3, H1.
    + apply Hr, I2 in H1. apply H2. exact H1.
    + unfold m in E2. rewrite H1 in E2. lia.
    + apply R3. destruct r as [|q r]; auto. assert (In q []) as []. rewrite <- H2. apply R2. left; auto.
    + unfold m in Em. rewrite H1 in Em. lia.
  - pose proof (unique_or_none_none _ Er) as En. rewrite En in Hbad.
    destruct right; auto. exfalso.
    destruct Hbad as [[k [H1 H2]]|[[k [H1 H2]]|[[k [H1 H2]]|[[m' [H1 [H0 H2]]]|[[H1 H2]|[m' [H1 H2]]]]]]]; try contradiction.
    + apply H2, I3, H1.
    + discriminate.
    + unfold m in Em. rewrite H1 in Em. lia.
Qed.
Print Assumptions C49_rejects.

(** C49. A model with automatic knots either fails in the selection or gets a coherent knot
    configuration at exactly the selected periods. *)
Theorem C49_usable : forall solver rss n_geos n n_features base national ks,
  keeps_length solver ->
  automatic_knot_selection solver rss n_geos n n_features base 1 None None None false 1000
    (1 / 100000) (1 / 1000000) = Ok ks ->
  exists info, aks_knot_info solver rss n_geos n n_features base national = Ok info /\
    info_good n info /\ knot_locations info = ks /\ (3 <= n_knots info)%nat.
Proof.
  intros solver rss n_geos n n_features base national ks Hsol H.
  destruct (C49_selected_knots _ _ _ _ _ _ _ _ _ _ _ _ _ _ _ Hsol H) as [A [B [_ [_ [Cc [D [E _]]]]]]].
  unfold aks_knot_info. rewrite H. cbn [rbind].
  destruct ks as [|z l]; [simpl in E; lia|].
  assert (Hn : (1 <= n)%nat) by (specialize (B z (or_introl eq_refl)); lia).
  apply ssorted_iff in A.
  destruct (get_knot_info_good n (KnList (z :: l)) national Hn B) as [info [I1 [I2 I3]]].
  { intros l' E'. inversion E'; subst. apply ssorted_nodup; auto. }
  exists info. split; auto. split; auto.
  assert (El : knot_locations info = z :: l).
  { destruct I2 as [S1 _]. apply ssorted_iff in S1. apply ssorted_ext; auto. }
  split; auto. destruct I2 as [_ [_ [-> _]]]. rewrite El.
  destruct Cc as [C0 C1]; [discriminate|].
  assert (Hi : exists k, In k (internal n (z :: l))).
  { destruct (internal n (z :: l)) as [|k r]; [simpl in E; lia|]. exists k. left; auto. }
  destruct Hi as [k Hk]. pose proof (D k Hk) as [[Hk1 _] _].
  unfold internal in Hk. apply filter_In in Hk. destruct Hk as [Hk _].
  apply (NoDup_incl_length (l := [0%Z; k; (Z.of_nat n - 1)%Z])).
  - repeat constructor; simpl; intuition lia.
  - intros x [<-|[<-|[<-|[]]]]; auto.
Qed.
Print Assumptions C49_usable.

(** A concrete selection: five periods, one penalty, knot 2 required. *)
Example C49_concrete :
  keeps_length (fun _ _ par => par) /\
  automatic_knot_selection (fun _ _ par => par) (fun _ => 1%R) 4 5 0 [1%R] 1 (Some 2%Z) (Some [2%Z]) None false 3
    (1 / 100000) 2 = Ok [0; 2; 4]%Z /\
  automatic_knot_selection (fun _ _ par => par) (fun _ => 1%R) 4 5 0 [1%R] 1 (Some 2%Z) (Some [3%Z]) None false 3
    (1 / 100000) 2 = Err ValueError.
Proof.
  split; [intros pen w par; reflexivity|]. split; [|reflexivity].
  unfold automatic_knot_selection. cbn -[aspline last_min Rltb].
  assert (Ha : forall pen, aspline (fun _ _ par => par) (fun _ => 1%R) [1; 2]%Z [pen] [2%Z] 3 (1 / 100000) 2 =
          Ok [([2%Z], 7%R)]).
  { intros pen. unfold aspline. cbn [raise_if map length repeat Nat.add].
    change 3%nat with (S 2).
    assert (Hs : aspline_step (fun (_ : R) (_ par : list R) => par) (fun _ : list Z => 1%R) [1%Z; 2%Z]
       [isin 1 [2%Z]; isin 2 [2%Z]] (1 / 100000) 2 pen
       {| as_w := [1%R; 1%R]; as_par := [1%R; 1%R; 1%R; 1%R]; as_old_sel := [1%R; 1%R]; as_done := [] |} =
       {| as_w := [(1 / (0 * 0 + 1 / 100000 * (1 / 100000)))%R; 1%R]; as_par := [1%R; 1%R; 1%R; 1%R];
          as_old_sel := [0%R; 1%R]; as_done := [([2%Z], 7%R)] |}).
    { unfold aspline_step. cbn [as_par as_w as_old_sel as_done diff2 map isin existsb Z.eqb Pos.eqb orb override combine fst snd].
      replace (1 - 2 * 1 + 1)%R with 0%R by ring.
      replace (1 / (0 * 0 + 1 / 100000 * (1 / 100000)) * (0 * 0))%R with 0%R by (field).
      unfold max_abs_diff, select_knots. cbn [map combine fst snd fold_right filter].
      assert (H1 : Rltb (99 / 100) 0 = false) by (unfold Rltb; destruct (Rlt_dec _ _); auto; lra).
      assert (H2 : Rltb (99 / 100) 1 = true) by (unfold Rltb; destruct (Rlt_dec _ _); auto; lra).
      rewrite H1, H2. cbn [map fst length].
      replace (1 - 0)%R with 1%R by ring. replace (1 - 1)%R with 0%R by ring. rewrite Rabs_R1, Rabs_R0.
      assert (H3 : Rltb (Rmax 1 (Rmax 0 0)) 2 = true).
      { unfold Rltb. destruct (Rlt_dec _ _) as [|Hn]; auto. exfalso. apply Hn.
        apply Rmax_lub_lt; [lra|]. apply Rmax_lub_lt; lra. }
      rewrite H3. cbn [app]. do 4 f_equal. simpl. field. }
    cbn [aspline_loop as_done length nth_error]. rewrite Hs. reflexivity. }
  rewrite Ha. cbn. reflexivity.
Qed.
