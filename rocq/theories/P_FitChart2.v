From Coq Require Import Reals QArith ZArith String Lia Lra List Bool Arith Permutation Sorted.
From Verif Require Import Lib_Sum M_Base M_AdstockHill M_Equations M_Transformers M_Aggregate
  S_Aggregate S_Adstock S_Media S_Analyzer M_Analyzer S_Predictor M_Stats S_Stats M_Accuracy S_Accuracy M_FitTable S_FitTable
  Lib_Sort M_FitChart S_FitChart P_FitChart.
Import ListNotations.
Local Open Scope R_scope.

(** The largest geos. *)
Definition by_population (a b : string * Q) : bool := Qle_bool (snd b) (snd a).
Lemma by_population_total : forall a b, by_population a b = true \/ by_population b a = true.
Proof. intros a b. unfold by_population. rewrite !Qle_bool_iff. destruct (Qlt_le_dec (snd a) (snd b)) as [H|H]; [right; apply Qlt_le_weak, H|left; exact H]. Qed.
Lemma by_population_trans : forall a b c, by_population a b = true -> by_population b c = true -> by_population a c = true.
Proof. intros a b c. unfold by_population. rewrite !Qle_bool_iff. intros H K. eapply Qle_trans; eassumption. Qed.

Lemma slice_as_firstn : forall A k (l : list A), exists n, slice_to k l = firstn n l.
Proof. intros A k l. unfold slice_to. eexists. reflexivity. Qed.
Lemma slice_pos : forall A k (l : list A), (0 <= k)%Z -> slice_to k l = firstn (Z.to_nat k) l.
Proof. intros A k l H. unfold slice_to. rewrite (proj2 (Z.ltb_ge _ _) H). reflexivity. Qed.
Lemma firstn_incl : forall A n (l : list A) a, In a (firstn n l) -> In a l.
Proof. intros A n l a H. rewrite <- (firstn_skipn n l). apply in_or_app. left. exact H. Qed.
Lemma firstn_nodup : forall A n (l : list A), NoDup l -> NoDup (firstn n l).
Proof.
  intros A n. induction n as [|n IH]; intros l H; [constructor|]. destruct l as [|a l]; [constructor|]. cbn [firstn].
  inversion H as [|? ? Ha Hl]; subst. constructor; [|apply IH; exact Hl]. intros C. apply Ha. eapply firstn_incl. exact C.
Qed.
Lemma sorted_names_perm : forall population,
  Permutation (map fst population) (map fst (isort by_population population)).
Proof. intros p. apply Permutation_map, isort_perm. Qed.
Lemma largest_in : forall population k a, In a (largest_geos population k) -> In a (map fst population).
Proof.
  intros p k a H. unfold largest_geos in H. destruct (slice_as_firstn _ k (map fst (isort by_population p))) as [n E].
  fold by_population in H. rewrite E in H. apply firstn_incl in H. eapply Permutation_in; [apply Permutation_sym, sorted_names_perm|exact H].
Qed.
Lemma largest_nodup : forall population k, NoDup (map fst population) -> NoDup (largest_geos population k).
Proof.
  intros p k H. unfold largest_geos. fold by_population. destruct (slice_as_firstn _ k (map fst (isort by_population p))) as [n E].
  rewrite E. apply firstn_nodup. eapply Permutation_NoDup; [apply sorted_names_perm|exact H].
Qed.
Lemma sorted_split : forall A (le : A -> A -> bool) s1 s2, le_sorted le (s1 ++ s2) -> forall a b, In a s1 -> In b s2 -> le a b = true.
Proof.
  intros A le s1. induction s1 as [|x s1 IH]; intros s2 H a b Ha Hb; [destruct Ha|]. cbn [app] in H. inversion H as [|? ? H1 H2]; subst.
  destruct Ha as [<-|Ha]; [|eapply IH; eassumption]. rewrite Forall_forall in H2. apply H2. apply in_or_app. right. exact Hb.
Qed.
Lemma same_population : forall (population : list (string * Q)) a p q, NoDup (map fst population) -> In (a, p) population -> In (a, q) population -> p = q.
Proof.
  induction population as [|[b r] l IH]; intros a p q N H K; [destruct H|]. cbn [map fst] in N. inversion N as [|? ? Nb Nl]; subst.
  assert (F : forall v, In (a, v) l -> In a (map fst l)) by (intros v Hv; apply in_map_iff; exists (a, v); auto).
  destruct H as [H|H], K as [K|K].
  - congruence.
  - injection H as -> ->. exfalso. apply Nb. eapply F; exact K.
  - injection K as -> ->. exfalso. apply Nb. eapply F; exact H.
  - eapply IH; eassumption.
Qed.
Lemma largest_spec : forall population k, NoDup (map fst population) -> (0 <= k <= Z.of_nat (length population))%Z ->
  let l := largest_geos population k in
  length l = Z.to_nat k /\ forall a p b q, In (a, p) population -> In (b, q) population -> In a l -> ~ In b l -> (q <= p)%Q.
Proof.
  intros P k N H l. set (s := isort by_population P) in *.
  assert (El : l = map fst (firstn (Z.to_nat k) s)).
  { unfold l, largest_geos. fold by_population. fold s. rewrite slice_pos by lia. apply firstn_map. }
  split.
  - rewrite El, map_length, firstn_length. unfold s. rewrite isort_length. lia.
  - intros a p b q Ia Ib La Lb. rewrite El in La, Lb. apply in_map_iff in La. destruct La as ([a' p'] & Ea & Ha). cbn [fst] in Ea. subst a'.
    assert (p' = p).
    { apply (same_population P a); auto. apply (isort_in by_population). apply (firstn_incl _ (Z.to_nat k)). exact Ha. }
    subst p'. assert (Hb : In (b, q) (skipn (Z.to_nat k) s)).
    { assert (I : In (b, q) s) by (apply isort_in; exact Ib). rewrite <- (firstn_skipn (Z.to_nat k) s) in I. apply in_app_or in I.
      destruct I as [I|I]; [|exact I]. exfalso. apply Lb. apply in_map_iff. exists (b, q). auto. }
    assert (S : le_sorted by_population (firstn (Z.to_nat k) s ++ skipn (Z.to_nat k) s)).
    { rewrite firstn_skipn. apply isort_sorted; [apply by_population_total|apply by_population_trans]. }
    pose proof (sorted_split _ _ _ _ S _ _ Ha Hb) as Q. unfold by_population in Q. cbn [snd] in Q. apply Qle_bool_iff. exact Q.
Qed.
Lemma slice_negative : forall A j (l : list A), (0 < j)%Z -> slice_to (- j) l = slice_to (Z.max 0 (Z.of_nat (length l) - j)) l.
Proof.
  intros A j l H. unfold slice_to. rewrite (proj2 (Z.ltb_lt (- j) 0)) by lia.
  rewrite (proj2 (Z.ltb_ge (Z.max 0 (Z.of_nat (length l) - j)) 0)) by lia. do 2 f_equal; lia.
Qed.

(** What is accepted. *)
Lemma to_rows_ok : forall f times geos by_geo baseline,
  (forall t, In t (or_all times (labels (f_time f))) -> In t (labels (f_time f))) ->
  (forall g, In g (or_all geos (labels (f_geo f))) -> In g (labels (f_geo f))) ->
  NoDup (or_all times (labels (f_time f))) -> NoDup (or_all geos (labels (f_geo f))) ->
  exists rows, to_rows f times geos by_geo baseline = Ok rows.
Proof.
  intros f times geos by_geo baseline It Ig Nt Ng. unfold to_rows.
  rewrite (proj2 (inside_all _ _) It), (proj2 (inside_all _ _) Ig). rewrite (proj2 (repeated_iff _) Nt), (proj2 (repeated_iff _) Ng).
  cbn [andb negb orb raise_if]. eexists. reflexivity.
Qed.
Lemma given_labels : forall l, given l = false -> labels l = [].
Proof. intros [[|a r]|] H; [reflexivity|discriminate|reflexivity]. Qed.
Lemma given_names : forall l, given l = true -> labels l <> [].
Proof. intros [[|a r]|] H; try discriminate. Qed.
Lemma or_all_given : forall l all, given l = true -> or_all l all = labels l.
Proof. intros [[|a r]|] all H; try discriminate. reflexivity. Qed.
Lemma or_all_not : forall l all, given l = false -> or_all l all = all.
Proof. intros [[|a r]|] all H; try discriminate; reflexivity. Qed.
Lemma or_all_in : forall l all, (forall a, In a (labels l) -> In a all) -> forall a, In a (or_all l all) -> In a all.
Proof. intros l all H a I. destruct (given l) eqn:E; [rewrite or_all_given in I by exact E; auto|rewrite or_all_not in I by exact E; exact I]. Qed.
Lemma or_all_nodup : forall l all, NoDup (labels l) -> NoDup all -> NoDup (or_all l all).
Proof. intros l all H K. destruct (given l) eqn:E; [rewrite or_all_given by exact E; exact H|rewrite or_all_not by exact E; exact K]. Qed.
Lemma labels_nodup : forall l all, NoDup (or_all l all) -> NoDup (labels l).
Proof. intros l all H. destruct (given l) eqn:E; [rewrite or_all_given in H by exact E; exact H|rewrite given_labels by exact E; constructor]. Qed.
Lemma labels_in : forall l all, (forall a, In a (or_all l all) -> In a all) -> forall a, In a (labels l) -> In a all.
Proof. intros l all H a I. destruct (given l) eqn:E; [apply H; rewrite or_all_given by exact E; exact I|rewrite given_labels in I by exact E; destruct I]. Qed.

Lemma validate_cases : forall f times geos n by_geo,
  (validate f times geos n by_geo = Ok tt /\
   (forall t, In t (labels times) -> In t (labels (f_time f))) /\ (forall g, In g (labels geos) -> In g (labels (f_geo f))) /\
   (by_geo = true -> given geos = true \/ n_given n = true) /\ (given geos = false \/ n_given n = false) /\
   (n_given n = true -> match n with Some k => (k <= Z.of_nat (length (labels (f_geo f))))%Z | None => True end)) \/
  (validate f times geos n by_geo = Err ValueError /\
   ~ ((forall t, In t (labels times) -> In t (labels (f_time f))) /\ (forall g, In g (labels geos) -> In g (labels (f_geo f))) /\
   (by_geo = true -> given geos = true \/ n_given n = true) /\ (given geos = false \/ n_given n = false) /\
   (n_given n = true -> match n with Some k => (k <= Z.of_nat (length (labels (f_geo f))))%Z | None => True end))).
Proof.
  intros f times geos n by_geo. unfold validate, raise_if.
  destruct (given times && negb (all_inside times (labels (f_time f))))%bool eqn:E1.
  { right. split; [reflexivity|]. intros (H & _). apply andb_prop in E1. destruct E1 as [_ E1]. apply negb_true_iff in E1.
    unfold all_inside in E1. rewrite (proj2 (inside_all _ _) H) in E1. discriminate. }
  assert (T : forall t, In t (labels times) -> In t (labels (f_time f))).
  { destruct (given times) eqn:G; [|rewrite given_labels by exact G; intros t []]. cbn [andb] in E1. apply negb_false_iff in E1. apply inside_all. exact E1. }
  destruct (by_geo && negb (given geos) && negb (n_given n))%bool eqn:E2.
  { right. split; [reflexivity|]. intros (_ & _ & H & _). apply andb_prop in E2. destruct E2 as [E2 E3]. apply andb_prop in E2. destruct E2 as [E2 E4].
    apply negb_true_iff in E3, E4. destruct (H E2); congruence. }
  destruct (given geos && n_given n)%bool eqn:E3.
  { right. split; [reflexivity|]. intros (_ & _ & _ & H & _). apply andb_prop in E3. destruct E3, H; congruence. }
  destruct (given geos && negb (all_inside geos (labels (f_geo f))))%bool eqn:E4.
  { right. split; [reflexivity|]. intros (_ & H & _). apply andb_prop in E4. destruct E4 as [_ E4]. apply negb_true_iff in E4.
    unfold all_inside in E4. rewrite (proj2 (inside_all _ _) H) in E4. discriminate. }
  destruct (n_given n && match n with Some k => Z.ltb (Z.of_nat (length (labels (f_geo f)))) k | None => false end)%bool eqn:E5.
  { right. split; [reflexivity|]. intros (_ & _ & _ & _ & H). apply andb_prop in E5. destruct E5 as [E5 E6]. specialize (H E5).
    destruct n as [k|]; [|discriminate]. apply Z.ltb_lt in E6. lia. }
  left. split; [reflexivity|]. split; [exact T|]. split.
  { destruct (given geos) eqn:G; [|rewrite given_labels by exact G; intros t []]. cbn [andb] in E4. apply negb_false_iff in E4. apply inside_all. exact E4. }
  split. { intros ->. destruct (given geos); [left; reflexivity|]. destruct (n_given n); [right; reflexivity|discriminate]. }
  split. { destruct (given geos); [right|left; reflexivity]. destruct (n_given n); [discriminate|reflexivity]. }
  intros H. rewrite H in E5. destruct n as [k|]; [|exact Logic.I]. cbn [andb] in E5. apply Z.ltb_ge in E5. exact E5.
Qed.

Lemma n_given_iff : forall n, n_given n = true <-> (match n with Some k => k | None => 0%Z end) <> 0%Z.
Proof. intros [k|]; cbn [n_given]; [|split; [discriminate|congruence]]. rewrite negb_true_iff, Z.eqb_neq. tauto. Qed.
Lemma given_iff : forall l, given l = true <-> labels l <> [].
Proof. intros [[|a r]|]; cbn; split; congruence. Qed.

Lemma accepted_lemma : forall x h nc nd level draws uk v population times geos n by_geo baseline,
  fit_request x h nc nd None level 100 draws -> (0 < x_n_geos x)%nat -> ~ lookalike x nd -> NoDup (x_geo x) -> NoDup (x_time x) ->
  map fst population = x_geo x ->
  new_view x h nc nd draws uk level = Ok v ->
  (request_ok x times geos n by_geo -> exists rows, chart_data v population times geos n by_geo baseline = Ok rows) /\
  (~ request_ok x times geos n by_geo -> chart_data v population times geos n by_geo baseline = Err ValueError).
Proof.
  intros x h nc nd level draws uk v population times geos n by_geo baseline V G0 L Ng Nt Ep Ev.
  unfold new_view in Ev. destruct (fit_data x h nc nd draws (resolve_use_kpi x uk) level) as [f|] eqn:Ef; cbn [rbind] in Ev; [|discriminate].
  injection Ev as <-. destruct (data_cells _ _ _ _ _ _ _ _ V G0 L Ef) as (b & _ & Eg & Et & _ & _).
  unfold chart_data. cbn [v_data].
  assert (RO : request_ok x times geos n by_geo <->
    ((forall t, In t (labels times) -> In t (labels (f_time f))) /\ (forall g, In g (labels geos) -> In g (labels (f_geo f))) /\
     (by_geo = true -> given geos = true \/ n_given n = true) /\ (given geos = false \/ n_given n = false) /\
     (n_given n = true -> match n with Some k => (k <= Z.of_nat (length (labels (f_geo f))))%Z | None => True end)) /\
     NoDup (labels times) /\ NoDup (labels geos)).
  { unfold request_ok. cbv zeta. rewrite Eg, Et. cbn [labels]. fold (labels times) (labels geos).
    assert (F1 : given geos = false <-> labels geos = []) by (rewrite <- not_true_iff_false, given_iff; destruct (labels geos); split; try tauto; try congruence; intros H; exfalso; apply H; discriminate).
    assert (F2 : n_given n = false <-> (match n with Some k => k | None => 0%Z end) = 0%Z).
    { rewrite <- not_true_iff_false, n_given_iff. destruct (Z.eq_dec (match n with Some k => k | None => 0%Z end) 0); tauto. }
    rewrite !given_iff, F1, F2, n_given_iff.
    assert (F3 : ((match n with Some k => k | None => 0 end) <= Z.of_nat (x_n_geos x))%Z <->
      ((match n with Some k => k | None => 0 end) <> 0 -> match n with Some k => k <= Z.of_nat (length (x_geo x)) | None => True end)%Z).
    { unfold x_n_geos. destruct n as [k|]; [|split; [tauto|lia]]. split; [intros; exact H|]. intros H. destruct (Z.eq_dec k 0) as [->|K]; [lia|exact (H K)]. }
    rewrite F3. tauto. }
  destruct (validate_cases f times geos n by_geo) as [[-> C]|[-> C]]; cbn [rbind].
  - rewrite RO. destruct C as (Ct & Cg & C3 & C4 & C5).
    set (geos' := if n_given n then match n with Some k => Some (largest_geos population k) | None => geos end else geos).
    assert (Ig' : forall g, In g (labels geos') -> In g (x_geo x)).
    { unfold geos'. rewrite Eg in Cg. cbn [labels] in Cg. destruct (n_given n); [|exact Cg]. destruct n as [k|]; [|exact Cg].
      cbn [labels]. intros g Hg. rewrite <- Ep. eapply largest_in. exact Hg. }
    assert (Ng' : NoDup (labels geos') <-> NoDup (labels geos)).
    { unfold geos'. destruct (n_given n) eqn:En; [|tauto]. destruct n as [k|]; [|tauto]. destruct C4 as [C4|C4]; [|discriminate].
      rewrite (given_labels geos C4). cbn [labels]. split; intros _; [constructor|]. apply largest_nodup. rewrite Ep. exact Ng. }
    split.
    + intros (_ & N1 & N2). apply to_rows_ok; rewrite ?Et, ?Eg; cbn [labels].
      * apply or_all_in. rewrite Et in Ct. exact Ct.
      * apply or_all_in. exact Ig'.
      * apply or_all_nodup; assumption.
      * apply or_all_nodup; [apply Ng'; exact N2|exact Ng].
    + intros H. unfold to_rows. rewrite Eg, Et in *. cbn [labels] in *.
      rewrite (proj2 (inside_all _ _) (or_all_in times _ Ct)), (proj2 (inside_all _ _) (or_all_in geos' _ Ig')). cbn [andb negb raise_if].
      destruct (repeated (or_all times (x_time x)) || repeated (or_all geos' (x_geo x)))%bool eqn:E; [reflexivity|].
      exfalso. apply H. apply orb_false_elim in E. destruct E as [E1 E2]. split; [tauto|].
      split; [exact (labels_nodup _ _ (proj1 (repeated_iff _) E1))|]. apply Ng'. exact (labels_nodup _ _ (proj1 (repeated_iff _) E2)).
  - split; [intros H; exfalso; apply C; apply RO; exact H|reflexivity].
Qed.
