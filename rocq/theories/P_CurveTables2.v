(** Proofs about the Hill curve table. *)
From Coq Require Import String Reals ZArith List Bool Arith Lra Lia.
From Verif Require Import Lib_Sum Lib_Pow M_Base M_AdstockHill M_Equations M_Transformers M_Analyzer M_Stats
  M_CurveTables S_Adstock S_Stats S_Transformers S_CurveTables P_Adstock P_Stats P_Transformers P_Media P_Analyzer
  P_CurveTables.
Import ListNotations.
Local Open Scope R_scope.

Lemma list_max_spec : forall l, l <> [] -> is_max l (list_max l).
Proof. intros [|a l] H; [congruence|]. exact (fold_max_spec l a). Qed.
Lemma list_min_spec : forall l, l <> [] -> is_min l (list_min l).
Proof. intros [|a l] H; [congruence|]. exact (fold_min_spec l a). Qed.
Lemma is_max_unique : forall l m m', is_max l m -> is_max l m' -> m = m'.
Proof. intros l m m' [A B] [C D]. apply Rle_antisym; [apply D|apply B]; assumption. Qed.
Lemma is_min_unique : forall l m m', is_min l m -> is_min l m' -> m = m'.
Proof. intros l m m' [A B] [C D]. apply Rle_antisym; [apply B|apply D]; assumption. Qed.

Lemma channel_values_nonempty : forall y c, (0 < geos y)%nat -> (0 < times y)%nat -> channel_values y c <> [].
Proof.
  intros y c Hg Ht E. assert (I : In (val y 0%nat 0%nat c) (channel_values y c)).
  { apply in_channel_values. exists 0%nat, 0%nat. auto. }
  rewrite E in I. destruct I.
Qed.

(** *** Rows written side by side *)
Lemma combine_collect : forall {I A B} (g : I -> result A) (h : I -> B) (idx : list I) P, collect (map g idx) = Ok P ->
  length P = length idx /\
  forall p u, In (p, u) (combine P (map h idx)) <-> exists i, In i idx /\ g i = Ok p /\ u = h i.
Proof.
  induction idx as [|i idx IH]; intros P H; cbn [map collect] in H.
  - injection H as <-. split; [reflexivity|]. intros p u. cbn. split; [intros []|intros [i [[] _]]].
  - destruct (g i) as [a|e] eqn:E; [|discriminate]. cbn [rbind] in H.
    destruct (collect (map g idx)) as [P'|] eqn:EC; [|discriminate]. cbn [rbind] in H. injection H as <-.
    destruct (IH P' eq_refl) as [L R]. split; [cbn [length]; lia|]. intros p u. cbn [map combine In].
    rewrite R. split.
    + intros [Q|[j [Hj [G U]]]].
      * exists i. assert (a = p) by congruence. assert (h i = u) by congruence. subst. auto.
      * exists j. auto.
    + intros [j [[->|Hj] [G U]]]; [left; congruence|right; exists j; auto].
Qed.

(** The positions of the table: channel, place on the axis, distribution. *)
Definition places (n steps : nat) : list (nat * nat * bool) :=
  flat_map (fun c => flat_map (fun s => map (fun b : bool => (c, s, b)) [true; false]) (seq 0 steps)) (seq 0 n).
Lemma in_places : forall n steps c s b, In (c, s, b) (places n steps) <-> (c < n)%nat /\ (s < steps)%nat.
Proof.
  intros n steps c s b. unfold places. rewrite in_flat_map. split.
  - intros [c' [Hc H]]. apply in_flat_map in H. destruct H as [s' [Hs H]]. apply in_seq in Hc. apply in_seq in Hs.
    apply in_map_iff in H. destruct H as [b' [E _]]. injection E as -> -> ->. lia.
  - intros [Hc Hs]. exists c. split; [apply in_seq; lia|]. apply in_flat_map. exists s. split; [apply in_seq; lia|].
    apply in_map_iff. exists b. split; [reflexivity|destruct b; cbn; auto].
Qed.
Lemma map_flat_map : forall {A B C} (f : B -> C) (g : A -> list B) l,
  map f (flat_map g l) = flat_map (fun a => map f (g a)) l.
Proof. induction l as [|a l IH]; [reflexivity|]. cbn [flat_map]. rewrite map_app, IH. reflexivity. Qed.
Lemma flat_map_flat_map : forall {A B C} (f : B -> list C) (g : A -> list B) l,
  flat_map f (flat_map g l) = flat_map (fun a => flat_map f (g a)) l.
Proof. induction l as [|a l IH]; [reflexivity|]. cbn [flat_map]. rewrite flat_map_app, IH. reflexivity. Qed.
Lemma flat_map_map : forall {A B C} (f : B -> list C) (g : A -> B) l,
  flat_map f (map g l) = flat_map (fun a => f (g a)) l.
Proof. induction l as [|a l IH]; [reflexivity|]. cbn [map flat_map]. rewrite IH. reflexivity. Qed.

Lemma map_places : forall {X} (g : nat * nat * bool -> X) n steps,
  map g (places n steps) =
  flat_map (fun c => flat_map (fun s => map (fun b : bool => g (c, s, b)) [true; false]) (seq 0 steps)) (seq 0 n).
Proof.
  intros X g n steps. unfold places. rewrite map_flat_map. apply flat_map_ext. intros c.
  rewrite map_flat_map. apply flat_map_ext. intros s. cbn [map]. reflexivity.
Qed.
Lemma doubled_places : forall (x : nat -> nat -> R) n steps,
  flat_map (fun v => [v; v]) (flat_map (fun c => map (fun s => x s c) (seq 0 steps)) (seq 0 n)) =
  map (fun i => x (snd (fst i)) (fst (fst i))) (places n steps).
Proof.
  intros x n steps. rewrite map_places, flat_map_flat_map. apply flat_map_ext. intros c.
  rewrite flat_map_map. apply flat_map_ext. intros s. reflexivity.
Qed.

(** The values of one kind. *)
Definition x_axis (f : curve_model) (k : kind) (y : T3) (s c : nat) : R :=
  match kind_transformer k (cm_x f) with
  | Some tr => linspace y s c * population_scaled_median_m tr c
  | None => linspace y s c
  end.
Lemma values_collect : forall expanded (k : kind) ws vs,
  collect (map (fun w => hill_forward expanded (n_par (kind_params k w)) (p_ec (kind_params k w))
                           (n_par (kind_params k w)) (p_slope (kind_params k w))) ws) = Ok vs ->
  forall s c, map (fun v => val v 0%nat s c) vs =
    map (fun w => hill (p_ec (kind_params k w) c) (p_slope (kind_params k w) c) (val expanded 0%nat s c)) ws.
Proof.
  induction ws as [|w ws IH]; intros vs H s c; cbn [map collect] in H.
  - injection H as <-. reflexivity.
  - destruct (hill_forward _ _ _ _ _) as [o|] eqn:E; [|discriminate]. cbn [rbind] in H.
    destruct (collect _) as [vs'|] eqn:EC; [|discriminate]. cbn [rbind] in H. injection H as <-.
    cbn [map]. rewrite (IH vs' eq_refl s c). f_equal.
    unfold hill_forward in E. destruct (negb _); [discriminate|]. destruct (negb _); [discriminate|].
    injection E as <-. reflexivity.
Qed.

Lemma hill_rows_spec : forall f prior posterior level k y rows, hill_data k (cm_x f) = Some y ->
  cm_prior f = Some prior -> cm_posterior f = Some posterior ->
  hill_rows f prior posterior level k = Ok rows ->
  forall r, In r rows <-> exists c s, (c < chans y)%nat /\ nth_error (cm_names f k) c = Some (hl_channel r) /\
    (s < HILL_NUM_STEPS)%nat /\ hl_media_units r = x_axis f k y s c /\
    central_tendency_and_ci level
      (map (fun w => hill (p_ec (kind_params k w) c) (p_slope (kind_params k w) c) (linspace y s c))
         (draws_of f (hl_posterior r))) = Ok (hl_stats r).
Proof.
  intros f prior posterior level k y rows Hy Hp Hq H r. unfold hill_rows in H. rewrite Hy in H.
  set (expanded := mkT3 1 HILL_NUM_STEPS (chans y) (fun _ s c => linspace y s c)) in *.
  destruct (collect (map _ prior)) as [v1|] eqn:E1; [|discriminate]. cbn [rbind] in H.
  destruct (collect (map _ posterior)) as [v2|] eqn:E2; [|discriminate]. cbn [rbind] in H.
  destruct (negb (Nat.eqb (length (cm_names f k)) (chans y)) || negb (distinct (cm_names f k))) eqn:EN; [discriminate|].
  apply orb_false_iff in EN. destruct EN as [EN _]. apply negb_false_iff, Nat.eqb_eq in EN.
  cbn [raise_if] in H.
  destruct (collect _) as [pivot|] eqn:EP in H; [|discriminate]. cbn [rbind] in H.
  set (g := fun i : nat * nat * bool =>
    rbind (central_tendency_and_ci level (map (fun v => val v 0%nat (snd (fst i)) (fst (fst i))) (if snd i then v2 else v1)))
      (fun st => Ok (nth (fst (fst i)) (cm_names f k) EmptyString, snd i, st))).
  assert (EP' : collect (map g (places (chans y) HILL_NUM_STEPS)) = Ok pivot).
  { rewrite <- EP. apply collect_ext. rewrite map_places. reflexivity. }
  change (fun s c => match kind_transformer k (cm_x f) with
                     | Some tr => linspace y s c * population_scaled_median_m tr c
                     | None => linspace y s c end) with (x_axis f k y) in H.
  change (flat_map (fun v => [v; v]) (flat_map (fun c => map (fun s => match kind_transformer k (cm_x f) with
                     | Some tr => linspace y s c * population_scaled_median_m tr c
                     | None => linspace y s c end) (seq 0 HILL_NUM_STEPS)) (seq 0 (chans y))))
    with (flat_map (fun v => [v; v]) (flat_map (fun c => map (fun s => x_axis f k y s c) (seq 0 HILL_NUM_STEPS)) (seq 0 (chans y)))) in H.
  rewrite doubled_places in H.
  set (h := fun i : nat * nat * bool => x_axis f k y (snd (fst i)) (fst (fst i))) in *.
  destruct (combine_collect g h _ _ EP') as [L R].
  rewrite map_length, <- L, Nat.eqb_refl in H. cbn [negb raise_if] in H. injection H as <-.
  rewrite in_map_iff. split.
  - intros [[[[name post] st] u] [<- Hin]]. apply R in Hin. destruct Hin as [[[c s] b] [Hi [G U]]].
    apply in_places in Hi. destruct Hi as [Hc Hs]. unfold g in G. cbn [fst snd] in G. unfold h in U. cbn [fst snd] in U.
    destruct (central_tendency_and_ci level _) as [st'|] eqn:ES; [|discriminate]. cbn [rbind] in G. injection G as <- <- <-.
    exists c, s. cbn [hl_channel hl_posterior hl_stats hl_media_units]. split; [exact Hc|]. split.
    { apply nth_error_nth'. lia. }
    split; [exact Hs|]. split; [exact U|]. rewrite <- ES. f_equal. unfold draws_of. destruct b.
    + rewrite Hq, (values_collect expanded k posterior v2 E2 s c). reflexivity.
    + rewrite Hp, (values_collect expanded k prior v1 E1 s c). reflexivity.
  - intros [c [s [Hc [Hn [Hs [U HS]]]]]].
    exists (hl_channel r, hl_posterior r, hl_stats r, hl_media_units r). split; [destruct r; reflexivity|].
    apply R. exists (c, s, hl_posterior r). split; [apply in_places; auto|]. split; [|exact U].
    unfold g. cbn [fst snd]. rewrite (nth_error_nth _ c EmptyString Hn).
    assert (EQ : map (fun v => val v 0%nat s c) (if hl_posterior r then v2 else v1) =
      map (fun w => hill (p_ec (kind_params k w) c) (p_slope (kind_params k w) c) (linspace y s c)) (draws_of f (hl_posterior r))).
    { unfold draws_of. destruct (hl_posterior r).
      - rewrite Hq, (values_collect expanded k posterior v2 E2 s c). reflexivity.
      - rewrite Hp, (values_collect expanded k prior v1 E1 s c). reflexivity. }
    rewrite EQ, HS. reflexivity.
Qed.

(** *** The axis *)
Lemma num_steps : INR (HILL_NUM_STEPS - 1) = 499.
Proof. rewrite INR_IZR_INZ. reflexivity. Qed.

(** Scaled data times the unit are the axis values. *)
Lemma curve_scaled : forall f k y, curve_data f k y ->
  exists z, hill_data k (cm_x f) = Some z /\ geos z = geos y /\ times z = times y /\ chans z = chans y /\
    forall c u, (c < chans y)%nat -> is_unit f k y c u ->
      0 < u /\ axis_values f k y c = map (fun v => v * u) (channel_values z c) /\
      (forall s, x_axis f k z s c = linspace z s c * u).
Proof.
  intros f k y (Hy & Hg & Ht & Hch & Hn & Hl & Hp & Htr).
  assert (MED : forall tr, (k = KMedia \/ k = KOrganicMedia) -> kind_transformer k (cm_x f) = Some tr ->
    media_transformer_init y (x_population (cm_x f)) = Ok tr ->
    hill_data k (cm_x f) = Some (map3 (media_fwd tr) y) /\
    forall c u, (c < chans y)%nat -> is_unit f k y c u ->
      0 < u /\ axis_values f k y c = map (fun v => v * u) (channel_values (map3 (media_fwd tr) y) c) /\
      (forall s, x_axis f k (map3 (media_fwd tr) y) s c = linspace (map3 (media_fwd tr) y) s c * u)).
  { intros tr Hk Ek Et.
    assert (HD : hill_data k (cm_x f) = Some (map3 (media_fwd tr) y)).
    { destruct Hk as [-> | ->]; unfold hill_data; rewrite Hy, Ek; reflexivity. }
    split; [exact HD|]. intros c u Hc Hu.
    destruct (media_init_median _ _ _ _ Et Hc) as [Hmed Hsc].
    assert (AV : axis_values f k y c = channel_values (population_scaled y (x_population (cm_x f))) c).
    { unfold axis_values. rewrite (channel_values_map (population_scaled y (x_population (cm_x f)))
        (mkT3 (geos y) (times y) (chans y) (axis_value f k y)) c (fun v => v)); [apply map_id|reflexivity|reflexivity|].
      intros g t Hg' Ht'. cbn [val population_scaled geos] in *. rewrite divide_no_nan_nz by (specialize (Hp g Hg'); lra).
      destruct Hk as [-> | ->]; reflexivity. }
    assert (U : u = population_scaled_median_m tr c).
    { apply (is_median_unique (filter nonzero (axis_values f k y c))); [destruct Hk as [-> | ->]; exact Hu|rewrite AV; exact Hmed]. }
    assert (UP : 0 < u).
    { pose proof (media_scale_pos _ _ _ 0%nat c Et Hp Hn Hg Hc) as S. rewrite Hsc, <- U in S.
      pose proof (Hp 0%nat Hg). nra. }
    split; [exact UP|]. split.
    - rewrite AV. apply channel_values_map; [reflexivity|reflexivity|].
      intros g t Hg' Ht'. cbn [val population_scaled map3 geos times] in *. unfold media_fwd, media_forward, fdiv.
      rewrite Hsc, <- U. pose proof (Hp g Hg') as P.
      destruct (Req_EM_T (x_population (cm_x f) g * u) 0) as [Z|Z]; [nra|].
      rewrite divide_no_nan_nz by lra. field. lra.
    - intros s. unfold x_axis. rewrite Ek, U. reflexivity. }
  assert (RF : (k = KRf \/ k = KOrganicRf) -> hill_data k (cm_x f) = Some y /\
    forall c u, (c < chans y)%nat -> is_unit f k y c u ->
      0 < u /\ axis_values f k y c = map (fun v => v * u) (channel_values y c) /\
      (forall s, x_axis f k y s c = linspace y s c * u)).
  { intros Hk. split; [destruct Hk as [-> | ->]; exact Hy|]. intros c u Hc Hu.
    assert (u = 1) by (destruct Hk as [-> | ->]; exact Hu). subst u. split; [lra|]. split.
    - apply channel_values_map; [reflexivity|reflexivity|]. intros g t _ _.
      destruct Hk as [-> | ->]; cbn [val axis_value]; lra.
    - intros s. destruct Hk as [-> | ->]; unfold x_axis; cbn [kind_transformer]; lra. }
  destruct k.
  - destruct Htr as [tr [E1 E2]]. destruct (MED tr (or_introl eq_refl) E1 E2) as [A B]. eexists. split; [exact A|]. auto.
  - destruct (RF (or_introl eq_refl)) as [A B]. exists y. auto.
  - destruct Htr as [tr [E1 E2]]. destruct (MED tr (or_intror eq_refl) E1 E2) as [A B]. eexists. split; [exact A|]. auto.
  - destruct (RF (or_intror eq_refl)) as [A B]. exists y. auto.
Qed.

(** A unit and a greatest value exist. *)
Lemma unit_exists : forall f k y c, curve_data f k y -> (c < chans y)%nat -> exists u, is_unit f k y c u.
Proof.
  intros f k y c (Hy & Hg & Ht & Hch & Hn & Hl & Hp & Htr) Hc.
  assert (MED : forall tr, (k = KMedia \/ k = KOrganicMedia) ->
    media_transformer_init y (x_population (cm_x f)) = Ok tr -> exists u, is_unit f k y c u).
  { intros tr Hk Et. exists (population_scaled_median_m tr c).
    destruct (media_init_median _ _ _ _ Et Hc) as [Hmed _].
    assert (AV : axis_values f k y c = channel_values (population_scaled y (x_population (cm_x f))) c).
    { unfold axis_values. rewrite (channel_values_map (population_scaled y (x_population (cm_x f)))
        (mkT3 (geos y) (times y) (chans y) (axis_value f k y)) c (fun v => v)); [apply map_id|reflexivity|reflexivity|].
      intros g t Hg' Ht'. cbn [val population_scaled geos] in *. rewrite divide_no_nan_nz by (specialize (Hp g Hg'); lra).
      destruct Hk as [-> | ->]; reflexivity. }
    rewrite <- AV in Hmed. destruct Hk as [-> | ->]; exact Hmed. }
  destruct k; [destruct Htr as [tr [_ E]]; apply (MED tr); auto| exists 1; reflexivity |
    destruct Htr as [tr [_ E]]; apply (MED tr); auto | exists 1; reflexivity].
Qed.

Lemma scaled_max : forall l u m, 0 < u -> l <> [] -> is_max (map (fun v => v * u) l) m -> list_max l * u = m.
Proof.
  intros l u m Hu Hl Hm. destruct (list_max_spec l Hl) as [A B]. apply (is_max_unique (map (fun v => v * u) l)); [|exact Hm].
  split; [apply in_map_iff; exists (list_max l); auto|]. intros v Hv. apply in_map_iff in Hv. destruct Hv as [w [<- Hw]].
  apply Rmult_le_compat_r; [lra|]. apply B. exact Hw.
Qed.
Lemma axis_place : forall f k y z c u m s, (0 < geos z)%nat -> (0 < times z)%nat -> 0 < u ->
  axis_values f k y c = map (fun v => v * u) (channel_values z c) -> is_max (axis_values f k y c) m ->
  linspace z s c * u = INR s / 499 * m /\ linspace z s c = INR s / 499 * m / u.
Proof.
  intros f k y z c u m s Hg Ht Hu EA Hm. rewrite EA in Hm.
  pose proof (scaled_max _ u m Hu (channel_values_nonempty z c Hg Ht) Hm) as E.
  unfold linspace. rewrite num_steps, <- E. split; field; lra.
Qed.

(** *** The curves of all kinds *)
Lemma curves_inv : forall f level n_bins curves hists, hill_curves f level n_bins = Ok (curves, hists) ->
  exists prior posterior, cm_prior f = Some prior /\ cm_posterior f = Some posterior /\
    exists t, (forall k, (if Nat.eqb (kind_channels k (cm_x f)) 0 then Ok [] else hill_rows f prior posterior level k) = Ok (t k)) /\
      (forall r, In r curves <-> exists k, In r (t k)) /\
    exists q, (forall k, kind_histograms f n_bins k = Ok (q k)) /\ (forall r, In r hists <-> exists k, In r (q k)).
Proof.
  intros f level n_bins curves hists H. unfold hill_curves in H.
  destruct (cm_prior f) as [prior|]; [|discriminate]. destruct (cm_posterior f) as [posterior|]; [|discriminate].
  exists prior, posterior. split; [reflexivity|]. split; [reflexivity|].
  set (G := fun k => if Nat.eqb (kind_channels k (cm_x f)) 0 then Ok [] else hill_rows f prior posterior level k) in *.
  destruct (collect (map G _)) as [cs|] eqn:E1; [|discriminate]. cbn [rbind] in H.
  destruct (collect (map (kind_histograms f n_bins) _)) as [hs|] eqn:E2; [|discriminate]. cbn [rbind] in H.
  assert (Q1 : curves = concat cs) by congruence. assert (Q2 : hists = concat hs) by congruence. clear H. subst.
  assert (HG : forall k, exists t, G k = Ok t).
  { intros k. pose proof (collect_all _ _ E1) as CA.
    assert (I : In (G k) (map Ok cs)) by (rewrite <- CA; apply in_map; apply kind_in).
    apply in_map_iff in I. destruct I as [t [E _]]. eauto. }
  assert (HQ : forall k, exists t, kind_histograms f n_bins k = Ok t).
  { intros k. pose proof (collect_all _ _ E2) as CA.
    assert (I : In (kind_histograms f n_bins k) (map Ok hs)) by (rewrite <- CA; apply in_map; destruct k; cbn; auto).
    apply in_map_iff in I. destruct I as [t [E _]]. eauto. }
  destruct (HG KMedia) as [t1 T1]. destruct (HG KRf) as [t2 T2]. destruct (HG KOrganicMedia) as [t3 T3]. destruct (HG KOrganicRf) as [t4 T4].
  destruct (HQ KMedia) as [q1 Q1]. destruct (HQ KRf) as [q2 Q2]. destruct (HQ KOrganicMedia) as [q3 Q3]. destruct (HQ KOrganicRf) as [q4 Q4].
  cbn [map collect] in E1, E2. rewrite T1, T2, T3, T4 in E1. rewrite Q1, Q2, Q3, Q4 in E2. cbn [rbind] in E1, E2.
  injection E1 as <-. injection E2 as <-.
  exists (fun k => match k with KMedia => t1 | KRf => t2 | KOrganicMedia => t3 | KOrganicRf => t4 end).
  split; [intros []; assumption|]. split.
  { intros r. cbn [concat]. rewrite !in_app_iff. split.
    - intros [A|[A|[A|[A|[]]]]]; [exists KMedia|exists KRf|exists KOrganicMedia|exists KOrganicRf]; exact A.
    - intros [[] A]; tauto. }
  exists (fun k => match k with KMedia => q1 | KRf => q2 | KOrganicMedia => q3 | KOrganicRf => q4 end).
  split; [intros []; assumption|].
  intros r. cbn [concat]. rewrite !in_app_iff. split.
  - intros [A|[A|[A|[A|[]]]]]; [exists KRf|exists KMedia|exists KOrganicMedia|exists KOrganicRf]; exact A.
  - intros [[] A]; tauto.
Qed.

Lemma hill_table_lemma : forall f level n_bins curves hists k y, hill_curves f level n_bins = Ok (curves, hists) ->
  curve_data f k y -> NoDup (flat_map (cm_names f) [KMedia; KRf; KOrganicMedia; KOrganicRf]) ->
  (forall k', length (cm_names f k') = kind_channels k' (cm_x f)) ->
  forall c name m u, is_channel f k c name -> is_max (axis_values f k y c) m -> is_unit f k y c u ->
  forall r, (In r curves /\ hl_channel r = name) <->
    hl_channel r = name /\ exists s, (s < HILL_NUM_STEPS)%nat /\ hl_media_units r = INR s / 499 * m /\
      central_tendency_and_ci level
        (map (fun w => hill (p_ec (kind_params k w) c) (p_slope (kind_params k w) c) (INR s / 499 * m / u))
           (draws_of f (hl_posterior r))) = Ok (hl_stats r).
Proof.
  intros f level n_bins curves hists k y H Hd ND HL c name m u Hc Hm Hu r.
  destruct (curves_inv _ _ _ _ _ H) as (prior & posterior & Hp & Hq & t & Ht & HR & _).
  destruct (curve_scaled f k y Hd) as (z & Hz & Zg & Zt & Zc & ZU).
  pose proof Hd as (Hy & Hg & Htt & Hch & _ & Hlen & _).
  assert (KC : kind_channels k (cm_x f) = chans y) by (unfold kind_channels; rewrite Hy; reflexivity).
  destruct Hc as [Hc Hname]. rewrite KC in Hc.
  destruct (ZU c u Hc Hu) as [UP [EA EX]].
  assert (PL : forall s, linspace z s c * u = INR s / 499 * m /\ linspace z s c = INR s / 499 * m / u)
    by (intros s; apply (axis_place f k y); try assumption; lia).
  pose proof (Ht k) as Tk. rewrite KC in Tk. destruct (Nat.eqb (chans y) 0) eqn:E0; [apply Nat.eqb_eq in E0; lia|].
  pose proof (hill_rows_spec f prior posterior level k z (t k) Hz Hp Hq Tk r) as SP. rewrite Zc in SP.
  split.
  - intros [Hin En]. split; [exact En|]. apply HR in Hin. destruct Hin as [k' Hk'].
    assert (K : k' = k).
    { (* the rows of another kind carry other names *)
      pose proof (Ht k') as Tk'. destruct (Nat.eqb (kind_channels k' (cm_x f)) 0) eqn:E0'.
      { assert (t k' = []) by congruence. rewrite H0 in Hk'. destruct Hk'. }
      destruct (hill_data k' (cm_x f)) as [z'|] eqn:Hz'; [|unfold hill_rows in Tk'; rewrite Hz' in Tk'; discriminate].
      apply (hill_rows_spec f prior posterior level k' z' (t k') Hz' Hp Hq Tk' r) in Hk'.
      destruct Hk' as [c' [s' [_ [Hn' _]]]].
      assert (I1 : In name (cm_names f k)) by (eapply nth_error_In; eassumption).
      assert (I2 : In name (cm_names f k')) by (rewrite <- En; eapply nth_error_In; eassumption).
      exact (kind_unique (cm_names f) k' k name ND I2 I1). }
    subst k'. apply SP in Hk'. destruct Hk' as [c' [s [Hc' [Hn' [Hs [HU HS]]]]]].
    assert (c' = c).
    { assert (NDk : NoDup (cm_names f k)).
      { clear - ND. cbn [flat_map] in ND. apply nodup_app in ND. destruct ND as [N1 [N _]]. apply nodup_app in N.
        destruct N as [N2 [N _]]. apply nodup_app in N. destruct N as [N3 [N _]]. apply nodup_app in N. destruct N as [N4 _].
        destruct k; assumption. }
      rewrite NoDup_nth_error in NDk. apply NDk; [apply nth_error_Some; congruence|congruence]. }
    subst c'. exists s. split; [exact Hs|]. rewrite HU, EX. destruct (PL s) as [P1 P2]. split; [exact P1|].
    rewrite <- P2. exact HS.
  - intros [En [s [Hs [HU HS]]]]. split; [|exact En]. apply HR. exists k. apply SP. exists c, s.
    split; [exact Hc|]. split; [congruence|]. split; [exact Hs|]. destruct (PL s) as [P1 P2].
    split; [rewrite EX, P1; exact HU|]. rewrite P2. exact HS.
Qed.

(** The curves start at zero, never fall and stay in [0, 1]. *)
Lemma axis_nonneg : forall f k y c v, curve_data f k y -> (c < chans y)%nat -> In v (axis_values f k y c) -> 0 <= v.
Proof.
  intros f k y c v (Hy & Hg & Ht & Hch & Hn & Hl & Hp & _) Hc Hv. unfold axis_values in Hv.
  apply in_channel_values in Hv. cbn [geos times val] in Hv. destruct Hv as (g & t & Hg' & Ht' & ->).
  pose proof (Hn g t c Hg' Ht' Hc) as N. pose proof (Hp g Hg') as P.
  destruct k; cbn [axis_value]; try exact N;
    (apply Rmult_le_pos; [exact N|left; apply Rinv_0_lt_compat; exact P]).
Qed.

Lemma hill_shape_lemma : forall f level n_bins curves hists k y, hill_curves f level n_bins = Ok (curves, hists) ->
  curve_data f k y -> hill_draws_ok f k -> NoDup (flat_map (cm_names f) [KMedia; KRf; KOrganicMedia; KOrganicRf]) ->
  (forall k', length (cm_names f k') = kind_channels k' (cm_x f)) ->
  forall c name m, is_channel f k c name -> is_max (axis_values f k y c) m ->
  forall r, In r curves -> hl_channel r = name ->
    0 <= hl_media_units r <= m /\
    (hl_media_units r = 0 -> all_equal (hl_stats r) 0) /\
    0 <= st_mean (hl_stats r) <= 1 /\ 0 <= st_lo (hl_stats r) <= 1 /\ 0 <= st_hi (hl_stats r) <= 1 /\
    (forall r', In r' curves -> hl_channel r' = name -> hl_posterior r' = hl_posterior r ->
       hl_media_units r <= hl_media_units r' ->
       st_mean (hl_stats r) <= st_mean (hl_stats r') /\ st_lo (hl_stats r) <= st_lo (hl_stats r') /\
       st_hi (hl_stats r) <= st_hi (hl_stats r')).
Proof.
  intros f level n_bins curves hists k y H Hd Hh ND HL c name m Hc Hm r Hr En.
  assert (Hcy : (c < chans y)%nat).
  { destruct Hd as (Hy & _). destruct Hc as [Hc _]. unfold kind_channels in Hc. rewrite Hy in Hc. exact Hc. }
  destruct (unit_exists f k y c Hd Hcy) as [u Hu].
  assert (UP : 0 < u) by (destruct (curve_scaled f k y Hd) as (z & _ & _ & _ & _ & ZU); exact (proj1 (ZU c u Hcy Hu))).
  assert (MP : 0 <= m) by (apply (axis_nonneg f k y c m Hd Hcy); exact (proj1 Hm)).
  assert (ROW : forall r0, In r0 curves -> hl_channel r0 = name ->
    0 <= hl_media_units r0 <= m /\
    central_tendency_and_ci level
        (map (fun w => hill (p_ec (kind_params k w) c) (p_slope (kind_params k w) c) (hl_media_units r0 / u))
           (draws_of f (hl_posterior r0))) = Ok (hl_stats r0)).
  { intros r0 H0 E0. destruct (proj1 (hill_table_lemma f level n_bins curves hists k y H Hd ND HL c name m u Hc Hm Hu r0) (conj H0 E0))
      as [_ [s [Hs [HU HS]]]]. rewrite HU. split; [|exact HS].
    assert (S0 : 0 <= INR s / 499 <= 1).
    { pose proof (pos_INR s). assert (INR s <= 499).
      { rewrite <- num_steps. apply le_INR. unfold HILL_NUM_STEPS in *. lia. }
      split; [apply Rmult_le_pos; lra|]. apply Rmult_le_reg_r with 499; [lra|]. unfold Rdiv. rewrite Rmult_assoc, Rinv_l by lra. lra. }
    nra. }
  destruct (ROW r Hr En) as [RG RS].
  assert (XP : forall v, 0 <= v -> 0 <= v / u) by (intros v Hv; apply Rmult_le_pos; [exact Hv|left; apply Rinv_0_lt_compat; exact UP]).
  assert (WI : 0 <= st_mean (hl_stats r) <= 1 /\ 0 <= st_median (hl_stats r) <= 1 /\ 0 <= st_lo (hl_stats r) <= 1 /\ 0 <= st_hi (hl_stats r) <= 1).
  { apply (within_lemma _ _ _ 0 1 RS). intros v Hv. apply in_map_iff in Hv. destruct Hv as [w [<- Hw]].
    destruct (Hh _ w c Hw) as [E1 E2]. pose proof (hill_range_lemma _ _ _ E1 E2 (XP _ (proj1 RG))). lra. }
  split; [exact RG|]. split.
  { intros Z. assert (ZE : 0 <= st_mean (hl_stats r) <= 0 /\ 0 <= st_median (hl_stats r) <= 0 /\ 0 <= st_lo (hl_stats r) <= 0 /\ 0 <= st_hi (hl_stats r) <= 0).
    { apply (within_lemma _ _ _ 0 0 RS). intros v Hv. apply in_map_iff in Hv. destruct Hv as [w [<- Hw]].
      destruct (Hh _ w c Hw) as [E1 E2]. rewrite Z. replace (0 / u) with 0 by (unfold Rdiv; lra).
      rewrite hill_zero_lemma by exact E2. lra. }
    unfold all_equal. lra. }
  split; [tauto|]. split; [tauto|]. split; [tauto|].
  intros r' Hr' En' Ep Hle. destruct (ROW r' Hr' En') as [RG' RS']. rewrite Ep in RS'.
  assert (Dom : forall ws, (forall w, In w ws -> 0 < p_ec (kind_params k w) c /\ 0 < p_slope (kind_params k w) c) ->
    Forall2 Rle (map (fun w => hill (p_ec (kind_params k w) c) (p_slope (kind_params k w) c) (hl_media_units r / u)) ws)
                (map (fun w => hill (p_ec (kind_params k w) c) (p_slope (kind_params k w) c) (hl_media_units r' / u)) ws)).
  { induction ws as [|w ws IH]; intros Hws; cbn [map]; [constructor|]. constructor.
    - destruct (Hws w (or_introl eq_refl)) as [E1 E2]. apply hill_mono; try assumption; [apply XP; tauto|].
      apply Rmult_le_compat_r; [left; apply Rinv_0_lt_compat; exact UP|exact Hle].
    - apply IH. intros; apply Hws; right; assumption. }
  destruct (dominated_lemma _ _ _ _ _ (Dom _ (fun w Hw => Hh _ w c Hw)) RS RS') as (B1 & _ & B3 & B4). auto.
Qed.

(** *** Histograms *)
Section Histogram.
Variable l : list R.
Variable n : nat.
Hypothesis Hl : l <> [].
Hypothesis Hn : (0 < n)%nat.

Lemma hist_bounds : hist_first l < hist_last l /\ forall v, In v l -> hist_first l <= v <= hist_last l.
Proof.
  destruct (list_max_spec l Hl) as [A B]. destruct (list_min_spec l Hl) as [C D].
  unfold hist_first, hist_last. destruct (Req_EM_T (list_min l) (list_max l)) as [E|E].
  - split; [lra|]. intros v Hv. specialize (B v Hv). specialize (D v Hv). lra.
  - split; [pose proof (D _ A); lra|]. intros v Hv. specialize (B v Hv). specialize (D v Hv). lra.
Qed.
Lemma hist_width : forall i, hist_edge l n (S i) - hist_edge l n i = (hist_last l - hist_first l) / INR n.
Proof. intros i. unfold hist_edge. rewrite S_INR. lra. Qed.
Lemma hist_width_pos : 0 < (hist_last l - hist_first l) / INR n.
Proof.
  pose proof (proj1 hist_bounds). apply Rmult_lt_0_compat; [lra|]. apply Rinv_0_lt_compat, lt_0_INR. exact Hn.
Qed.
Lemma hist_edge_0 : hist_edge l n 0 = hist_first l.
Proof. unfold hist_edge. cbn [INR]. lra. Qed.
Lemma hist_edge_n : hist_edge l n n = hist_last l.
Proof. unfold hist_edge. field. pose proof (lt_0_INR n Hn). lra. Qed.

Lemma hist_bin_lt : forall v, (hist_bin l n v < n)%nat.
Proof. intros v. unfold hist_bin. lia. Qed.

(** The bin number is that of the interval the value lies in. *)
Lemma hist_bin_interval : forall v i, In v l -> (i < n)%nat ->
  Nat.eqb (hist_bin l n v) i = in_interval (hist_edge l n i) (hist_edge l n (S i)) (Nat.eqb i (n - 1)) v.
Proof.
  intros v i Hv Hi. destruct hist_bounds as [B1 B2]. specialize (B2 v Hv).
  pose proof hist_width_pos as WP. set (w := (hist_last l - hist_first l) / INR n) in *.
  assert (NP : 0 < INR n) by (apply lt_0_INR; exact Hn).
  assert (Q : (v - hist_first l) / (hist_last l - hist_first l) * INR n = (v - hist_first l) / w).
  { unfold w. field. lra. }
  unfold hist_bin. rewrite Q.
  set (q := (v - hist_first l) / w).
  assert (Q0 : 0 <= q) by (apply Rmult_le_pos; [lra|left; apply Rinv_0_lt_compat; exact WP]).
  assert (QV : v = hist_first l + q * w) by (unfold q; field; lra).
  assert (QN : q <= INR n).
  { apply Rmult_le_reg_r with w; [exact WP|]. replace (INR n * w) with (hist_last l - hist_first l) by (unfold w; field; lra). lra. }
  destruct (int_part_bounds q Q0) as [I1 I2]. pose proof (int_part_nat q Q0) as IN.
  set (b := Z.to_nat (Int_part q)) in *.
  assert (EI : hist_edge l n i = hist_first l + INR i * w) by reflexivity.
  assert (ES : hist_edge l n (S i) = hist_first l + (INR i + 1) * w) by (unfold hist_edge; fold w; rewrite S_INR; reflexivity).
  unfold in_interval. rewrite EI, ES.
  assert (LB : INR b <= q < INR b + 1) by (rewrite IN; lra).
  destruct (Nat.eqb i (n - 1)) eqn:EL.
  - apply Nat.eqb_eq in EL.
    destruct (Rle_dec (hist_first l + INR i * w) v) as [L1|L1]; cbn [andb].
    + destruct (Rle_dec v (hist_first l + (INR i + 1) * w)) as [L2|L2].
      * assert (INR i <= q) by (apply Rmult_le_reg_r with w; [exact WP|lra]).
        assert (INR i < INR b + 1) by lra. assert (INR i < INR (S b)) by (rewrite S_INR; lra).
        apply INR_lt in H1. apply Nat.eqb_eq. lia.
      * exfalso. apply L2. assert (INR i + 1 = INR n).
        { rewrite EL, minus_INR by lia. cbn [INR]. lra. }
        rewrite H, QV. apply Rplus_le_compat_l. apply Rmult_le_compat_r; lra.
    + apply Nat.eqb_neq. assert (q < INR i) by (apply Rmult_lt_reg_r with w; [exact WP|lra]).
      assert (INR b < INR i) by lra. apply INR_lt in H0. lia.
  - apply Nat.eqb_neq in EL.
    destruct (Rle_dec (hist_first l + INR i * w) v) as [L1|L1]; cbn [andb].
    + assert (INR i <= q) by (apply Rmult_le_reg_r with w; [exact WP|lra]).
      assert (IB : INR i < INR (S b)) by (rewrite S_INR; lra). apply INR_lt in IB.
      destruct (Rlt_dec v (hist_first l + (INR i + 1) * w)) as [L2|L2].
      * assert (q < INR i + 1) by (apply Rmult_lt_reg_r with w; [exact WP|lra]).
        assert (BI : INR b < INR (S i)) by (rewrite S_INR; lra). apply INR_lt in BI. apply Nat.eqb_eq. lia.
      * assert (INR i + 1 <= q) by (apply Rmult_le_reg_r with w; [exact WP|lra]).
        assert (BI : INR (S i) < INR (S b)) by (rewrite !S_INR; lra). apply INR_lt in BI. apply Nat.eqb_neq. lia.
    + apply Nat.eqb_neq. assert (q < INR i) by (apply Rmult_lt_reg_r with w; [exact WP|lra]).
      assert (BI : INR b < INR i) by lra. apply INR_lt in BI. lia.
Qed.

Lemma filter_ext_in' : forall (p q : R -> bool) m, (forall v, In v m -> p v = q v) -> filter p m = filter q m.
Proof.
  induction m as [|v m IH]; intros H; [reflexivity|]. cbn [filter]. rewrite (H v (or_introl eq_refl)), IH; [reflexivity|].
  intros; apply H; right; assumption.
Qed.
Lemma hist_count_spec : forall i, (i < n)%nat ->
  hist_count l n i = number_in l (hist_edge l n i) (hist_edge l n (S i)) (Nat.eqb i (n - 1)).
Proof.
  intros i Hi. unfold hist_count, number_in. f_equal. apply filter_ext_in'. intros v Hv. apply hist_bin_interval; assumption.
Qed.

Lemma rsum_indicator : forall N j, (j < N)%nat -> rsum N (fun i => if Nat.eqb j i then 1 else 0) = 1.
Proof.
  induction N as [|N IH]; intros j Hj; [lia|]. cbn [rsum]. destruct (Nat.eq_dec j N) as [->|D].
  - rewrite Nat.eqb_refl, rsum_zero; [lra|]. intros i Hi. destruct (Nat.eqb N i) eqn:E; [apply Nat.eqb_eq in E; lia|reflexivity].
  - rewrite IH by lia. destruct (Nat.eqb j N) eqn:E; [apply Nat.eqb_eq in E; lia|lra].
Qed.
Lemma hist_total : rsum n (fun i => INR (hist_count l n i)) = INR (length l).
Proof.
  unfold hist_count. assert (G : forall m, rsum n (fun i => INR (length (filter (fun v => Nat.eqb (hist_bin l n v) i) m))) = INR (length m)).
  { induction m as [|v m IH].
    - cbn [filter length INR]. apply rsum_zero. reflexivity.
    - rewrite (rsum_ext n _ (fun i => (if Nat.eqb (hist_bin l n v) i then 1 else 0) +
                 INR (length (filter (fun v => Nat.eqb (hist_bin l n v) i) m)))).
      + rewrite rsum_plus, IH, rsum_indicator by apply hist_bin_lt. cbn [length]. rewrite S_INR. lra.
      + intros i _. cbn [filter]. destruct (Nat.eqb (hist_bin l n v) i); [cbn [length]; rewrite S_INR; lra|lra]. }
  apply G.
Qed.
Lemma hist_area : rsum n (fun i => hist_density l n i * (hist_edge l n (S i) - hist_edge l n i)) = 1.
Proof.
  assert (LP : 0 < INR (length l)) by (apply lt_0_INR; destruct l; [congruence|cbn; lia]).
  pose proof hist_width_pos as WP.
  rewrite (rsum_ext n _ (fun i => INR (hist_count l n i) / INR (length l))).
  - rewrite rsum_div, hist_total. field. lra.
  - intros i _. unfold hist_density. rewrite hist_width. set (w := (hist_last l - hist_first l) / INR n) in *.
    clearbody w. field. split; lra.
Qed.
Lemma hist_density_nonneg : forall i, 0 <= hist_density l n i.
Proof.
  intros i. assert (LP : 0 < INR (length l)) by (apply lt_0_INR; destruct l; [congruence|cbn; lia]).
  unfold hist_density. rewrite hist_width. pose proof hist_width_pos. unfold Rdiv.
  apply Rmult_le_pos; [apply Rmult_le_pos; [apply pos_INR|]|]; left; apply Rinv_0_lt_compat; assumption.
Qed.
Lemma hist_max_pos : 0 < list_max (map (hist_density l n) (seq 0 n)).
Proof.
  assert (NE : map (hist_density l n) (seq 0 n) <> []) by (destruct n; [lia|discriminate]).
  destruct (list_max_spec _ NE) as [A B].
  destruct (Rlt_dec 0 (list_max (map (hist_density l n) (seq 0 n)))) as [P|P]; [exact P|exfalso].
  assert (Z : rsum n (fun i => hist_density l n i * (hist_edge l n (S i) - hist_edge l n i)) = 0).
  { apply rsum_zero. intros i Hi. assert (hist_density l n i = 0).
    { apply Rle_antisym; [|apply hist_density_nonneg]. eapply Rle_trans; [apply B; apply in_map; apply in_seq; lia|lra]. }
    rewrite H. lra. }
  rewrite hist_area in Z. lra.
Qed.
End Histogram.

(** The unit of a media channel is the median its transformer stores. *)
Lemma unit_is_stored : forall f k y tr c u, curve_data f k y -> (k = KMedia \/ k = KOrganicMedia) ->
  kind_transformer k (cm_x f) = Some tr -> (c < chans y)%nat -> is_unit f k y c u ->
  u = population_scaled_median_m tr c.
Proof.
  intros f k y tr c u Hd Hk Ek Hc Hu.
  assert (E2 : media_transformer_init y (x_population (cm_x f)) = Ok tr).
  { destruct Hd as (_ & _ & _ & _ & _ & _ & _ & Htr).
    destruct Hk as [-> | ->]; destruct Htr as [tr' [E1 E2]]; congruence. }
  destruct (media_init_median y (x_population (cm_x f)) tr c E2 Hc) as [Hmed _].
  assert (AV : axis_values f k y c = channel_values (population_scaled y (x_population (cm_x f))) c).
  { unfold axis_values. rewrite (channel_values_map (population_scaled y (x_population (cm_x f)))
        (mkT3 (geos y) (times y) (chans y) (axis_value f k y)) c (fun v => v)); [apply map_id|reflexivity|reflexivity|].
    intros g' t' Hg' Ht'. cbn [val population_scaled geos] in *.
    rewrite divide_no_nan_nz by (destruct Hd as (_ & _ & _ & _ & _ & _ & Hp & _); specialize (Hp g' Hg'); lra).
    destruct Hk as [-> | ->]; reflexivity. }
  rewrite <- AV in Hmed.
  destruct Hk as [-> | ->]; unfold is_unit in Hu; exact (is_median_unique _ _ _ Hu Hmed).
Qed.

(** The values behind a channel's histogram are the values on its axis. *)
Lemma hist_channel : forall f k y, curve_data f k y -> exists z, hist_data k (cm_x f) = Some z /\ chans z = chans y /\
  forall c, (c < chans y)%nat -> channel_values z c = axis_values f k y c.
Proof.
  intros f k y Hd. destruct (curve_scaled f k y Hd) as (z & Hz & Zg & Zt & Zc & ZU).
  pose proof Hd as (Hy & _ & _ & _ & _ & _ & _ & Htr).
  assert (RF : (k = KRf \/ k = KOrganicRf) -> exists z, hist_data k (cm_x f) = Some z /\ chans z = chans y /\
    forall c, (c < chans y)%nat -> channel_values z c = axis_values f k y c).
  { intros Hk. exists y. split; [destruct Hk as [-> | ->]; exact Hy|]. split; [reflexivity|]. intros c _. unfold axis_values.
    destruct Hk as [-> | ->]; unfold channel_values; cbn [geos times val axis_value]; reflexivity. }
  assert (MED : forall tr, (k = KMedia \/ k = KOrganicMedia) -> kind_transformer k (cm_x f) = Some tr ->
    exists z, hist_data k (cm_x f) = Some z /\ chans z = chans y /\ forall c, (c < chans y)%nat -> channel_values z c = axis_values f k y c).
  { intros tr Hk Ek.
    exists (mkT3 (geos z) (times z) (chans z) (fun g t c => val z g t c * population_scaled_median_m tr c)).
    split; [destruct Hk as [-> | ->]; unfold hist_data; rewrite Hz, Ek; reflexivity|]. split; [exact Zc|].
    intros c Hc. destruct (unit_exists f k y c Hd Hc) as [u Hu]. destruct (ZU c u Hc Hu) as [UP [EA EX]].
    rewrite EA. apply channel_values_map; [reflexivity|reflexivity|]. intros g t _ _. cbn [val].
    rewrite (unit_is_stored f k y tr c u Hd Hk Ek Hc Hu). reflexivity. }
  destruct k.
  - destruct Htr as [tr [E _]]. exact (MED tr (or_introl eq_refl) E).
  - apply RF. auto.
  - destruct Htr as [tr [E _]]. exact (MED tr (or_intror eq_refl) E).
  - apply RF. auto.
Qed.


Lemma channel_histogram_name : forall k name l n rows r, channel_histogram k name l n = Ok rows -> In r rows ->
  hr_channel r = name.
Proof.
  intros k name l n rows r E I. unfold channel_histogram in E. destruct l as [|v l]; [assert (rows = []) by congruence; subst; destruct I|].
  destruct (Nat.eqb n 0); [discriminate|]. cbn [raise_if] in E. injection E as <-.
  apply in_map_iff in I. destruct I as [i [<- _]]. reflexivity.
Qed.

Lemma histogram_lemma : forall f level n_bins curves hists k y, hill_curves f level n_bins = Ok (curves, hists) ->
  curve_data f k y -> NoDup (flat_map (cm_names f) [KMedia; KRf; KOrganicMedia; KOrganicRf]) ->
  forall c name m m', is_channel f k c name -> is_min (axis_values f k y c) m -> is_max (axis_values f k y c) m' ->
  exists edge density : nat -> R, exists top,
    (0 < n_bins)%nat /\
    (if Req_EM_T m m' then edge 0%nat = m - 1 / 2 /\ edge n_bins = m + 1 / 2 else edge 0%nat = m /\ edge n_bins = m') /\
    (forall i, edge (S i) - edge i = (edge n_bins - edge 0%nat) / INR n_bins) /\
    (forall i, (i < n_bins)%nat ->
       density i * (edge (S i) - edge i) * INR (length (axis_values f k y c)) =
       INR (number_in (axis_values f k y c) (edge i) (edge (S i)) (Nat.eqb i (n_bins - 1)))) /\
    rsum n_bins (fun i => density i * (edge (S i) - edge i)) = 1 /\
    is_max (map density (seq 0 n_bins)) top /\ 0 < top /\
    (forall r, (In r hists /\ hr_channel r = name) <->
       exists i, (i < n_bins)%nat /\ r = mkHistRow name k (density i / top) (density i) (edge i) (edge (S i))).
Proof.
  intros f level n_bins curves hists k y H Hd ND c name m m' Hc Hm Hm'.
  assert (Hcy : (c < chans y)%nat).
  { destruct Hd as (Hy & _). destruct Hc as [Hc _]. unfold kind_channels in Hc. rewrite Hy in Hc. exact Hc. }
  destruct (curves_inv _ _ _ _ _ H) as (prior & posterior & _ & _ & t & _ & _ & q & Hq & HQ).
  destruct (hist_channel f k y Hd) as (z & Hz & Zc & Zv).
  assert (NL : length (cm_names f k) = chans y) by (destruct Hd as (_ & _ & _ & _ & _ & L & _); exact L).
  set (l := axis_values f k y c) in *.
  assert (LN : l <> []) by (destruct Hm as [I _]; destruct l; [destruct I|discriminate]).
  pose proof (Hq k) as Hk. unfold kind_histograms in Hk. rewrite Hz in Hk.
  destruct (collect _) as [tables|] eqn:EC in Hk; [|discriminate]. cbn [rbind] in Hk.
  assert (QK : q k = concat tables) by congruence. clear Hk.
  assert (TAB : forall r, In r (q k) <-> exists c' rows, (c' < chans y)%nat /\
     channel_histogram k (nth c' (cm_names f k) EmptyString) (axis_values f k y c') n_bins = Ok rows /\ In r rows).
  { intros r. rewrite QK, in_concat. pose proof (collect_all _ _ EC) as CA. split.
    - intros [rows [I1 I2]]. assert (I : In (Ok rows) (map Ok tables)) by (apply in_map; exact I1).
      rewrite <- CA in I. apply in_map_iff in I. destruct I as [c' [E I]]. apply in_seq in I.
      exists c', rows. assert (c' < chans y)%nat by lia. rewrite <- Zv by assumption. auto.
    - intros [c' [rows [L [E I]]]]. exists rows. split; [|exact I].
      assert (I' : In (@Ok (list hist_row) rows) (map Ok tables)).
      { rewrite <- CA. apply in_map_iff. exists c'. rewrite Zv by exact L. split; [exact E|]. apply in_seq. lia. }
      apply in_map_iff in I'. destruct I' as [rows' [E' I']]. assert (rows' = rows) by congruence. subst. exact I'. }
  assert (NM : nth c (cm_names f k) EmptyString = name) by (apply nth_error_nth; exact (proj2 Hc)).
  assert (CH : exists rows, channel_histogram k name l n_bins = Ok rows).
  { pose proof (collect_all _ _ EC) as CA.
    assert (I : In (channel_histogram k name l n_bins) (map Ok tables)).
    { rewrite <- CA. apply in_map_iff. exists c. rewrite NM, Zv by exact Hcy. split; [reflexivity|]. apply in_seq. lia. }
    apply in_map_iff in I. destruct I as [rows [E _]]. eauto. }
  destruct CH as [rows Hrows].
  assert (NP : (0 < n_bins)%nat).
  { unfold channel_histogram in Hrows. destruct l; [congruence|]. destruct n_bins; [cbn in Hrows; discriminate|lia]. }
  assert (RR : rows = map (fun i => mkHistRow name k (hist_density l n_bins i / list_max (map (hist_density l n_bins) (seq 0 n_bins)))
                          (hist_density l n_bins i) (hist_edge l n_bins i) (hist_edge l n_bins (S i))) (seq 0 n_bins)).
  { unfold channel_histogram in Hrows. destruct l as [|v0 l0] eqn:El; [congruence|]. rewrite <- El in *.
    destruct (Nat.eqb n_bins 0) eqn:E0; [apply Nat.eqb_eq in E0; lia|]. cbn [raise_if] in Hrows.
    destruct (Rlt_dec 0 (list_max (map (hist_density l n_bins) (seq 0 n_bins)))) as [P|P];
      [congruence|exfalso; exact (P (hist_max_pos l n_bins LN NP))]. }
  pose proof (hist_width_pos l n_bins LN NP) as WP.
  exists (hist_edge l n_bins), (hist_density l n_bins), (list_max (map (hist_density l n_bins) (seq 0 n_bins))).
  split; [exact NP|]. split.
  { rewrite hist_edge_0, hist_edge_n by exact NP. unfold hist_first, hist_last.
    rewrite (is_max_unique _ _ _ (list_max_spec l LN) Hm'), (is_min_unique _ _ _ (list_min_spec l LN) Hm).
    destruct (Req_EM_T m m') as [E|E]; [subst; lra|split; reflexivity]. }
  split. { intros i. rewrite hist_width, hist_edge_0, hist_edge_n by exact NP. reflexivity. }
  split.
  { intros i Hi. rewrite <- (hist_count_spec l n_bins LN NP i Hi). unfold hist_density. rewrite hist_width.
    assert (LP : 0 < INR (length l)) by (apply lt_0_INR; destruct l; [congruence|cbn; lia]).
    set (w := (hist_last l - hist_first l) / INR n_bins) in *. clearbody w. field. split; lra. }
  split; [exact (hist_area l n_bins LN NP)|].
  split. { apply list_max_spec. destruct n_bins; [lia|discriminate]. }
  split; [exact (hist_max_pos l n_bins LN NP)|].
  intros r. rewrite HQ. split.
  - intros [[k' Hr] En].
    assert (K : k' = k).
    { assert (I : In name (cm_names f k')).
      { pose proof (Hq k') as Hk'. unfold kind_histograms in Hk'. destruct (hist_data k' (cm_x f)) as [z'|]; [|assert (q k' = []) by congruence; rewrite H0 in Hr; destruct Hr].
        destruct (collect _) as [tables'|] eqn:EC' in Hk'; [|discriminate]. cbn [rbind] in Hk'.
        assert (q k' = concat tables') by congruence. rewrite H0 in Hr. apply in_concat in Hr. destruct Hr as [rows' [R1 R2]].
        pose proof (collect_all _ _ EC') as CA'. assert (I : In (Ok rows') (map Ok tables')) by (apply in_map; exact R1).
        rewrite <- CA' in I. apply in_map_iff in I. destruct I as [c' [E I]]. apply in_seq in I.
        assert (hr_channel r = nth c' (cm_names f k') EmptyString).
        { exact (channel_histogram_name _ _ _ _ _ _ E R2). }
        rewrite <- En, H1. apply nth_In. lia. }
      apply (kind_unique (cm_names f) k' k name ND I). destruct Hc as [_ Hc]. exact (nth_error_In _ _ Hc). }
    subst k'. apply TAB in Hr. destruct Hr as [c' [rows' [L' [E I]]]].
    assert (NE : hr_channel r = nth c' (cm_names f k) EmptyString).
    { exact (channel_histogram_name _ _ _ _ _ _ E I). }
    assert (CC : c' = c).
    { assert (NDK : NoDup (cm_names f k)).
      { clear - ND. cbn [flat_map] in ND. rewrite app_nil_r in ND. destruct k;
        repeat (match goal with H : NoDup (_ ++ _) |- _ => apply nodup_app in H; destruct H as (? & H & _) end); assumption. }
      apply (proj1 (NoDup_nth (cm_names f k) EmptyString) NDK); [lia|lia|congruence]. }
    subst c'. fold l in E. rewrite NM in E. assert (rows' = rows) by congruence. subst rows'. rewrite RR in I.
    apply in_map_iff in I. destruct I as [i [<- Hi]]. apply in_seq in Hi. exists i. split; [lia|reflexivity].
  - intros [i [Hi ->]]. split; [|reflexivity]. exists k. apply TAB. exists c, rows. split; [exact Hcy|].
    fold l. rewrite NM. split; [exact Hrows|]. rewrite RR. apply in_map_iff. exists i. split; [reflexivity|]. apply in_seq. lia.
Qed.
