(** Lemmas about the xarray data loader: the conversion of the time axis and the calls it makes. *)
From Coq Require Import String Arith Lia List Bool Permutation Sorted.
From Verif Require Import M_Base M_Time Lib_Sort M_Builder S_Builder P_Builder P_BuilderOrder C_Builder P_BuilderFull M_XrLoader S_XrLoader.
Import ListNotations.
Local Open Scope nat_scope.
Local Open Scope list_scope.

Lemma nth_error_map_inv : forall A B (f : A -> B) l i b, nth_error (map f l) i = Some b -> exists a, nth_error l i = Some a /\ f a = b.
Proof.
  intros A B f l. induction l as [|x l IH]; intros [|i] b E; cbn in E; try discriminate; [|apply IH; exact E].
  exists x. split; [reflexivity|congruence].
Qed.
Lemma NoDup_map_filter : forall A B (f : A -> B) p l, NoDup (map f l) -> NoDup (map f (filter p l)).
Proof.
  intros A B f p l. induction l as [|a l IH]; intros N; [constructor|]. cbn in *. apply NoDup_cons_iff in N. destruct N as [N1 N2].
  destruct (p a); [|auto]. cbn. apply NoDup_cons_iff. split; [|auto]. intros K. apply N1. apply in_map_iff in K.
  destruct K as (b & Eb & Ib). apply filter_In in Ib. apply in_map_iff. exists b. tauto.
Qed.
Lemma NoDup_nth_pos : forall A (l : list A) i j a, NoDup l -> nth_error l i = Some a -> nth_error l j = Some a -> i = j.
Proof.
  intros A l i j a N Ei Ej. rewrite NoDup_nth_error in N. apply N; [apply nth_error_Some; congruence|congruence].
Qed.

Lemma timed_iff : forall c, dim_of c = WithTime <-> In c timed_arrays.
Proof. intros c. destruct c; cbn; split; intros H; try tauto; try discriminate; repeat (destruct H as [H|H]; try discriminate); contradiction. Qed.
Lemma load_order_nodup : NoDup load_order.
Proof. repeat (constructor; [cbn; intuition discriminate|]). constructor. Qed.
Lemma load_order_all : forall c, In c load_order.
Proof. intros c. destruct c; cbn; tauto. Qed.
Lemma partner_dims : forall c, dim_of c <> WithoutTime \/ c = Population.
Proof. intros c. destruct c; cbn; auto; left; discriminate. Qed.
Section P.
Context {V : Type}.
Notation da := (da string string string V).
Notation dataset := (dataset V).

(** *** Missing values *)
Lemma missing_iff : forall (d : dataset) c j, array_missing d c j = false <-> complete_at d c j.
Proof.
  intros d c j. unfold array_missing, complete_at. destruct (ds_array d c) as [a|] eqn:Ea.
  - split.
    + intros H a' i k E Hi Hk Hn. assert (a' = a) by congruence. subst a'. rewrite <- not_true_iff_false in H. apply H.
      apply existsb_exists. exists i. split; [apply in_seq; lia|]. apply existsb_exists. exists k. split; [apply in_seq; lia|]. rewrite Hn. reflexivity.
    + intros H. rewrite <- not_true_iff_false. intros K. apply existsb_exists in K. destruct K as (i & Hi & K). apply existsb_exists in K.
      destruct K as (k & Hk & K). apply in_seq in Hi, Hk. specialize (H a i k eq_refl). destruct (a i j k); [discriminate|]. apply H; auto; lia.
  - split; [discriminate|auto].
Qed.
Lemma mask_iff : forall (d : dataset) j, na_mask d j = false <-> forall c, In c timed_arrays -> complete_at d c j.
Proof.
  intros d j. unfold na_mask. split.
  - intros H c I. apply missing_iff. rewrite <- not_true_iff_false in *. intros K. apply H. apply existsb_exists. eauto.
  - intros H. rewrite <- not_true_iff_false. intros K. apply existsb_exists in K. destruct K as (c & I & K).
    specialize (H c I). apply missing_iff in H. congruence.
Qed.
Lemma time_at_nth : forall (d : dataset) j, j < List.length (ds_times d) -> nth_error (ds_times d) j = Some (time_at d j).
Proof. intros d j H. unfold time_at. apply nth_error_nth'. exact H. Qed.
Lemma in_positions : forall (d : dataset) j, In j (positions d) <-> j < List.length (ds_times d).
Proof. intros d j. unfold positions. rewrite in_seq. lia. Qed.
Lemma times_map : forall (d : dataset), map (time_at d) (positions d) = ds_times d.
Proof.
  intros d. unfold positions, time_at. generalize (ds_times d) as l. intros l. induction l as [|a l IH]; [reflexivity|].
  cbn [List.length seq map nth]. f_equal. rewrite <- seq_shift, map_map. exact IH.
Qed.
Definition own_list (d : dataset) : list string := match ds_media_times d with None => no_na_period d | Some _ => ds_times d end.
Lemma own_list_in : forall (d : dataset) t, In t (own_list d) <-> own_time d t.
Proof.
  intros d t. unfold own_list, own_time. destruct (ds_media_times d) as [m|].
  - split.
    + intros I. apply In_nth_error in I. destruct I as (j & E). exists j. split; [exact E|discriminate].
    + intros (j & E & _). exact (nth_error_In _ _ E).
  - unfold no_na_period. rewrite in_map_iff. split.
    + intros (j & <- & I). apply filter_In in I. destruct I as [I H]. apply in_positions in I. apply negb_true_iff in H. pose proof (proj1 (mask_iff d j) H) as H0.
      exists j. split; [apply time_at_nth; exact I|]. intros _ c Ic. exact (H0 c Ic).
    + intros (j & E & H). assert (L : j < List.length (ds_times d)) by (apply nth_error_Some; congruence). exists j.
      rewrite (time_at_nth d j L) in E. split; [congruence|]. apply filter_In. split; [apply in_positions; exact L|].
      apply negb_true_iff, mask_iff. intros c Ic. exact (H eq_refl c Ic).
Qed.
Lemma no_na_nodup : forall d : dataset, NoDup (ds_times d) -> NoDup (no_na_period d).
Proof. intros d N. apply NoDup_map_filter. rewrite times_map. exact N. Qed.

(** *** One array *)
Record faithful (d : dataset) (c : component) (a : nat -> nat -> nat -> option V) (x : da) : Prop := {
  fa_geos : d_geos x = ds_geos d;
  fa_chans : d_chans x = ds_chans d c;
  fa_own : dim_of c = WithTime -> d_times x = own_list d;
  fa_media : dim_of c = WithMediaTime -> d_times x = all_times d;
  fa_val : NoDup (ds_times d) \/ ds_media_times d <> None \/ dim_of c <> WithTime ->
           forall i j k j0, (dim_of c = WithoutTime -> j = j0) ->
             (dim_of c <> WithoutTime -> exists t, nth_error (d_times x) j = Some t /\ nth_error (axis d c) j0 = Some t) ->
             NoDup (axis d c) \/ dim_of c = WithoutTime -> d_val x i j k = a i j0 k
}.
Lemma as_is_faithful : forall (d : dataset) c a, ds_media_times d <> None \/ dim_of c <> WithTime -> faithful d c a (as_is d c a).
Proof.
  intros d c a H. constructor.
  - reflexivity.
  - reflexivity.
  - intros D. unfold as_is, own_list. cbn [d_times]. rewrite D. destruct (ds_media_times d); [reflexivity|]. destruct H; congruence.
  - intros D. unfold as_is, all_times. cbn [d_times]. rewrite D. reflexivity.
  - intros _ i j k j0 H1 H2 N. unfold as_is in *. cbn [d_times d_val] in *. destruct N as [N|N]; [|rewrite (H1 N); reflexivity].
    destruct (dim_of c) eqn:D.
    + destruct (H2 ltac:(discriminate)) as (t & E1 & E2). unfold axis in *. rewrite D in *. rewrite (NoDup_nth_pos _ _ _ _ _ N E1 E2). reflexivity.
    + destruct (H2 ltac:(discriminate)) as (t & E1 & E2). unfold axis, all_times in *. rewrite D in *.
      rewrite (NoDup_nth_pos _ _ _ _ _ N E1 E2). reflexivity.
    + rewrite (H1 eq_refl). reflexivity.
Qed.
Lemma filter_sub : forall (d : dataset) c j, In c timed_arrays -> negb (na_mask d j) = true -> negb (array_missing d c j) = true.
Proof. intros d c j I H. apply negb_true_iff in H. apply negb_true_iff. apply missing_iff. exact (proj1 (mask_iff d j) H c I). Qed.
Lemma converted_faithful : forall (d : dataset) c a x, converted d c a = Ok x -> faithful d c a x.
Proof.
  intros d c a x E. unfold converted in E.
  destruct (ds_media_times d) as [m|] eqn:Em; [assert (x = as_is d c a) by congruence; subst; apply as_is_faithful; left; congruence|].
  destruct (dim_of c) eqn:D; try (assert (x = as_is d c a) by congruence; subst; apply as_is_faithful; right; congruence).
  set (own := filter (fun j => negb (array_missing d c j)) (positions d)) in *.
  assert (Dv : forall i j k, d_val (dropna d c a) i j k = match nth_error own j with Some j0 => a i j0 k | None => None end) by reflexivity.
  assert (Dt : d_times (dropna d c a) = map (time_at d) own) by reflexivity.
  unfold assign in E. destruct (list_eq_dec string_dec (d_times (dropna d c a)) (no_na_period d)) as [Eq|Ne].
  - assert (x = dropna d c a) by congruence. subst x. constructor; try reflexivity.
    + intros _. unfold own_list. rewrite Em. exact Eq.
    + congruence.
    + intros _ i j k j0 _ H2 N. destruct (H2 ltac:(congruence)) as (t & E1 & E2). destruct N as [N|N]; [|congruence].
      rewrite Dt in E1. apply nth_error_map_inv in E1. destruct E1 as (j1 & E1 & Et). rewrite Dv, E1.
      assert (I1 : In j1 own) by exact (nth_error_In _ _ E1). apply filter_In in I1. destruct I1 as [I1 _]. apply in_positions in I1.
      unfold axis in *. rewrite D in *. assert (j1 = j0); [|congruence].
      apply (NoDup_nth_pos _ (ds_times d) _ _ t); [exact N| |exact E2]. rewrite time_at_nth by exact I1. congruence.
  - apply raise_if_inv' in E. destruct E as [U E]. apply negb_false_iff in U. apply unique_iff in U.
    assert (x = mkDa (d_geos (dropna d c a)) (no_na_period d) (d_chans (dropna d c a)) (fun i j k =>
         match lookup_at string_dec (no_na_period d) (d_times (dropna d c a)) j with Some j0 => d_val (dropna d c a) i j0 k | None => None end)) by congruence.
    subst x. clear E. constructor; cbn [d_geos d_times d_chans d_val]; try reflexivity.
    + intros _. unfold own_list. rewrite Em. reflexivity.
    + congruence.
    + intros _ i j k j0 _ H2 N. destruct (H2 ltac:(congruence)) as (t & E1 & E2). destruct N as [N|N]; [|congruence].
      unfold axis in *. rewrite D in *. pose proof E1 as E1'. unfold no_na_period in E1. apply nth_error_map_inv in E1. destruct E1 as (j1 & E1 & Et).
      assert (I1 : In j1 (filter (fun j => negb (na_mask d j)) (positions d))) by exact (nth_error_In _ _ E1). apply filter_In in I1. destruct I1 as [I1 M1].
      pose proof I1 as L1. apply in_positions in L1.
      assert (j1 = j0). { apply (NoDup_nth_pos _ (ds_times d) _ _ t); [exact N| |exact E2]. rewrite time_at_nth by exact L1. congruence. }
      subst j1. assert (Io : In j0 own) by (apply filter_In; split; [exact I1|apply filter_sub; [apply timed_iff; exact D|exact M1]]).
      apply In_nth_error in Io. destruct Io as (p & Ep).
      unfold lookup_at. rewrite E1'. rewrite (index_of_nodup _ string_dec (d_times (dropna d c a)) p t U).
      * rewrite Dv, Ep. reflexivity.
      * rewrite Dt. rewrite nth_error_map, Ep. cbn. congruence.
Qed.
Lemma converted_runs : forall (d : dataset) c a, NoDup (ds_times d) \/ ds_media_times d <> None -> exists x, converted d c a = Ok x.
Proof.
  intros d c a H. unfold converted. destruct (ds_media_times d) as [m|]; [eauto|]. destruct H as [H|H]; [|congruence].
  destruct (dim_of c); eauto. unfold assign. destruct (list_eq_dec string_dec _ _); [eauto|].
  assert (U : unique string_dec (d_times (dropna d c a)) = true).
  { apply unique_iff. cbn [dropna d_times]. apply NoDup_map_filter. rewrite times_map. exact H. }
  rewrite U. cbn [negb raise_if]. eauto.
Qed.

(** *** The calls *)
Definition presentb (d : dataset) (c : component) : bool := match ds_array d c with Some _ => true | None => false end.
Lemma presentb_iff : forall (d : dataset) c, presentb d c = true <-> present d c.
Proof. intros d c. unfold presentb, present. destruct (ds_array d c); split; congruence. Qed.
Lemma parts_spec : forall (d : dataset) l parts,
  mapM (fun c => match ds_array d c with
                 | None => Ok []
                 | Some a => rbind (converted d c a) (fun x => Ok [(c, x)])
                 end) l = Ok parts ->
  map fst (List.concat parts) = filter (presentb d) l /\
  forall c x, In (c, x) (List.concat parts) -> exists a, ds_array d c = Some a /\ converted d c a = Ok x.
Proof.
  intros d l. induction l as [|c l IH]; intros parts E.
  - cbn in E. assert (parts = []) by congruence. subst. split; [reflexivity|intros ? ? []].
  - cbn [mapM] in E. apply inv_rbind' in E. destruct E as (p & Ep & E). apply inv_rbind' in E. destruct E as (ps & Es & E).
    assert (parts = p :: ps) by congruence. subst parts. destruct (IH ps Es) as [IH1 IH2]. cbn [List.concat filter]. unfold presentb at 1.
    rewrite map_app, IH1. destruct (ds_array d c) as [a|] eqn:Ea.
    + apply inv_rbind' in Ep. destruct Ep as (x & Ex & Ep). assert (p = [(c, x)]) by congruence. subst p. split; [reflexivity|].
      intros c' x' [I|I]; [|auto]. assert (c' = c) by congruence. assert (x' = x) by congruence. subst. eauto.
    + assert (p = []) by congruence. subst p. split; [reflexivity|exact IH2].
Qed.

Record calls (d : dataset) (hist : list (component * da)) : Prop := {
  ca_nodup : NoDup (map fst hist);
  ca_fst : forall c, In c (map fst hist) <-> present d c;
  ca_in : forall c x, In (c, x) hist -> exists a, ds_array d c = Some a /\ faithful d c a x
}.
Lemma init_calls : forall (d : dataset) hist, loader_init d = Ok hist -> calls d hist.
Proof.
  intros d hist E. unfold loader_init in E. apply raise_if_inv' in E. destruct E as [_ E]. apply inv_rbind' in E. destruct E as (parts & Ep & E).
  assert (hist = List.concat parts) by congruence. subst hist. destruct (parts_spec d load_order parts Ep) as [F1 F2]. constructor.
  - rewrite F1. apply NoDup_filter. exact load_order_nodup.
  - intros c. rewrite F1, filter_In, presentb_iff. pose proof (load_order_all c). tauto.
  - intros c x I. destruct (F2 c x I) as (a & Ea & Ex). exists a. split; [exact Ea|]. apply converted_faithful. exact Ex.
Qed.
Lemma init_runs : forall (d : dataset), present d Kpi -> NoDup (ds_times d) \/ ds_media_times d <> None -> exists hist, loader_init d = Ok hist.
Proof.
  intros d K H. unfold loader_init. unfold present in K. destruct (ds_array d Kpi); [|congruence]. cbn [raise_if].
  destruct (mapM_runs _ _ (fun c => match ds_array d c with
                        | None => Ok []
                        | Some a => rbind (converted d c a) (fun x => Ok [(c, x)])
                        end) load_order) as (parts & Ep).
  - intros c _. destruct (ds_array d c) as [a|]; [|eauto]. destruct (converted_runs d c a H) as (x & Ex). rewrite Ex. cbn. eauto.
  - rewrite Ep. cbn. eauto.
Qed.

Variables (tle gle : string -> string -> bool) (parse : string -> option date) (national : string) (one : V).
Notation run := (run string_dec string_dec string_dec tle parse national).
Notation feed := (feed tle parse national).
Notation geo_names := (geo_names national).
(** *** The setter calls *)
Lemma feed_run : forall hist (s : state string string string V) s',
  feed hist s = Ok s' <-> Forall (fun r => r = Ok tt) (fst (run hist s)) /\ snd (run hist s) = s'.
Proof.
  induction hist as [|[c x] hist IH]; intros s s'.
  - cbn. split; [intros E; split; [constructor|congruence]|intros [_ ->]; reflexivity].
  - cbn [M_XrLoader.feed M_Builder.run]. destruct (set_component string_dec string_dec string_dec tle parse national c x s) as [[[]|e] s1].
    + specialize (IH s1 s'). destruct (run hist s1) as [rs s2] eqn:Er. cbn [fst snd] in *. rewrite IH. split; intros [F E]; (split; [|exact E]).
      * constructor; [reflexivity|exact F].
      * exact (Forall_inv_tail F).
    + destruct (run hist s1) as [rs s2]. cbn [fst snd]. split; [discriminate|]. intros [F _]. apply Forall_inv in F. discriminate.
Qed.

(** *** Which calls are accepted *)
Hypothesis tle_order : strict_order tle.
Definition good_axis (l : list string) : Prop := (forall t, In t l -> parse t <> None) /\ NoDup l /\ regular tle parse l.
Lemma labels_geo : forall (d : dataset) (x : da), d_geos x = ds_geos d -> geo_labels national x = geo_names d.
Proof. intros d x E. unfold geo_labels, S_XrLoader.geo_names. rewrite E. reflexivity. Qed.
Lemma partner_chans : forall (d : dataset) c c', In c' (partners c) -> ds_chans d c = ds_chans d c'.
Proof. intros d c c' I. unfold ds_chans. destruct c; cbn in I; repeat (destruct I as [<-|I]; [reflexivity|]); contradiction. Qed.
Lemma accepted_iff : forall (d : dataset) hist, calls d hist ->
  Forall (fine tle parse national) hist /\ ForallOrdPairs (compatible tle national) hist <->
  (hist <> [] -> NoDup (geo_names d)) /\
  ((exists c, present d c /\ dim_of c = WithTime) -> good_axis (own_list d)) /\
  ((exists c, present d c /\ dim_of c = WithMediaTime) -> good_axis (all_times d)) /\
  ((exists c, present d c /\ dim_of c = WithTime) -> (exists c, present d c /\ dim_of c = WithMediaTime) -> last_part tle (own_list d) (all_times d)).
Proof.
  intros d hist [Nd Fs In1].
  assert (Get : forall c, present d c -> exists x, In (c, x) hist).
  { intros c P. apply Fs in P. apply in_map_iff in P. destruct P as ([c' x] & Ec & I). cbn in Ec. subst. eauto. }
  split.
  - intros [F P]. rewrite Forall_forall in F. split; [|split; [|split]].
    + intros Hn. destruct hist as [|[c x] hist']; [congruence|]. destruct (In1 c x (or_introl eq_refl)) as (a & _ & Fa).
      rewrite <- (labels_geo d x (fa_geos _ _ _ _ Fa)). apply (F (c, x)). left. reflexivity.
    + intros (c & Pc & D). destruct (Get c Pc) as (x & I). destruct (In1 c x I) as (a & _ & Fa). destruct (F (c, x) I) as [_ H].
      rewrite <- (fa_own _ _ _ _ Fa D). apply H. unfold timed. congruence.
    + intros (c & Pc & D). destruct (Get c Pc) as (x & I). destruct (In1 c x I) as (a & _ & Fa). destruct (F (c, x) I) as [_ H].
      rewrite <- (fa_media _ _ _ _ Fa D). apply H. unfold timed. congruence.
    + intros (c & Pc & D) (c' & Pc' & D'). destruct (Get c Pc) as (x & I). destruct (In1 c x I) as (a & _ & Fa).
      destruct (Get c' Pc') as (x' & I'). destruct (In1 c' x' I') as (a' & _ & Fa').
      rewrite <- (fa_own _ _ _ _ Fa D), <- (fa_media _ _ _ _ Fa' D').
      destruct (pairs_in tle national hist (c, x) (c', x') P I I') as [Eq|(_ & _ & _ & H)]; [congruence|].
      rewrite D, D' in H. exact H.
  - intros (Hg & Ht & Hm & Hl).
    assert (Pr : forall c x, In (c, x) hist -> present d c).
    { intros c x I. apply Fs. change c with (fst (c, x)). apply in_map. exact I. }
    split.
    + apply Forall_forall. intros [c x] I. destruct (In1 c x I) as (a & _ & Fa). split.
      * rewrite (labels_geo d x (fa_geos _ _ _ _ Fa)). apply Hg. intros K. rewrite K in I. exact I.
      * intros Ti. unfold timed in Ti. destruct (dim_of c) eqn:D; [| |exfalso; apply Ti; reflexivity].
        -- rewrite (fa_own _ _ _ _ Fa D). apply Ht. exists c. split; [exact (Pr c x I)|exact D].
        -- rewrite (fa_media _ _ _ _ Fa D). apply Hm. exists c. split; [exact (Pr c x I)|exact D].
    + clear Fs Get. assert (Sub : forall c x, In (c, x) hist -> present d c /\ exists a, ds_array d c = Some a /\ faithful d c a x) by (intros c x I; split; [exact (Pr c x I)|exact (In1 c x I)]).
      clear In1 Pr Hg Ht Hm. induction hist as [|[c x] hist IH]; [constructor|]. cbn [map fst] in Nd. apply NoDup_cons_iff in Nd. destruct Nd as [N1 N2].
      constructor; [|apply IH; [exact N2|intros c' x' I'; apply Sub; right; exact I']].
      apply Forall_forall. intros [c' y] I'. destruct (Sub c x (or_introl eq_refl)) as (Pc & a & _ & Fa).
      destruct (Sub c' y (or_intror I')) as (Pc' & a' & _ & Fa'). split.
      { intros ->. apply N1. change c' with (fst (c', y)). apply in_map. exact I'. }
      split; [intros Ip; rewrite (fa_chans _ _ _ _ Fa), (fa_chans _ _ _ _ Fa'); apply partner_chans; exact Ip|].
      split; [intros g; rewrite (labels_geo d x (fa_geos _ _ _ _ Fa)), (labels_geo d y (fa_geos _ _ _ _ Fa')); reflexivity|].
      destruct (dim_of c) eqn:D, (dim_of c') eqn:D'; try exact Logic.I.
      * intros t. rewrite (fa_own _ _ _ _ Fa D), (fa_own _ _ _ _ Fa' D'). reflexivity.
      * rewrite (fa_own _ _ _ _ Fa D), (fa_media _ _ _ _ Fa' D'). apply Hl; [exists c|exists c']; split; assumption.
      * rewrite (fa_media _ _ _ _ Fa D), (fa_own _ _ _ _ Fa' D'). apply Hl; [exists c'|exists c]; split; assumption.
      * intros t. rewrite (fa_media _ _ _ _ Fa D), (fa_media _ _ _ _ Fa' D'). reflexivity.
Qed.
End P.
