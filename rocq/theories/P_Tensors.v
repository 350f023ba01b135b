(** Proofs for property C40. *)
From Coq Require Import Reals Lra List Arith Bool Lia.
From Verif Require Import M_Base M_Tensors S_Tensors.
Import ListNotations.
Local Open Scope nat_scope.
Local Open Scope list_scope.

Lemma inv_rb : forall A B (m : result A) (f : A -> result B) b, rbind m f = Ok b -> exists a, m = Ok a /\ f a = Ok b.
Proof. intros A B [a|e] f b H; [exists a; auto|discriminate]. Qed.
Lemma inv_raise : forall A c e (k : result A) a, raise_if c e k = Ok a -> c = false /\ k = Ok a.
Proof. intros A [|] e k a H; [discriminate|auto]. Qed.
Lemma is_iff : forall a b, is a b = true <-> a = b.
Proof. intros a b. unfold is. destruct (field_eq_dec a b); split; congruence. Qed.
Lemma among_iff : forall f l, among f l = true <-> In f l.
Proof.
  intros f l. unfold among. rewrite existsb_exists. split.
  - intros (g & I & E). apply is_iff in E. subst. exact I.
  - intros I. exists f. split; [exact I|]. apply is_iff. reflexivity.
Qed.
Lemma in_fields : forall f, In f fields.
Proof. destruct f; cbn; tauto. Qed.

Lemma validate_n_dims_iff : forall d l, validate_n_dims d l = Ok tt <-> forall f n, In f l -> d f = Some n -> In (ndim n) (ranks f).
Proof.
  intros d l. induction l as [|f l IH]; cbn [validate_n_dims].
  - split; [intros _ f n []|reflexivity].
  - destruct (d f) as [n|] eqn:E.
    + split.
      * intros H. apply inv_raise in H. destruct H as [H1 H2]. intros g m [->|I] Eg.
        -- assert (m = n) by congruence. subst. apply negb_false_iff, existsb_exists in H1. destruct H1 as (r & Ir & Er).
           apply Nat.eqb_eq in Er. subst. exact Ir.
        -- apply (proj1 IH H2 g m I Eg).
      * intros H. assert (Hn : existsb (Nat.eqb (ndim n)) (ranks f) = true).
        { apply existsb_exists. exists (ndim n). split; [apply H; [left; reflexivity|exact E]|apply Nat.eqb_refl]. }
        rewrite Hn. cbn. apply IH. intros g m I. apply H. right. exact I.
    + split.
      * intros H g m [->|I] Eg; [congruence|apply (proj1 IH H g m I Eg)].
      * intros H. apply IH. intros g m I. apply H. right. exact I.
Qed.
Lemma data_tensors_iff : forall d o, data_tensors d = Ok o <-> o = d /\ ranked d.
Proof.
  intros d o. unfold data_tensors. split.
  - intros H. apply inv_rb in H. destruct H as ([] & H1 & H2). split; [congruence|].
    intros f n. apply (proj1 (validate_n_dims_iff d fields) H1). apply in_fields.
  - intros [-> R]. rewrite (proj2 (validate_n_dims_iff d fields)); [reflexivity|]. intros f n _. apply R.
Qed.

Lemma chain : forall W D (m1 : result W) (m2 m3 m4 : result unit) (m5 : result D) r,
  rbind m1 (fun w => rbind m2 (fun _ => rbind m3 (fun _ => rbind m4 (fun _ => rbind m5 (fun o => Ok (o, w)))))) = Ok r <->
  m1 = Ok (snd r) /\ m2 = Ok tt /\ m3 = Ok tt /\ m4 = Ok tt /\ m5 = Ok (fst r).
Proof.
  intros W D m1 m2 m3 m4 m5 [o w]. cbn [fst snd]. split.
  - intros H. apply inv_rb in H. destruct H as (w' & E1 & H). apply inv_rb in H. destruct H as ([] & E2 & H).
    apply inv_rb in H. destruct H as ([] & E3 & H). apply inv_rb in H. destruct H as ([] & E4 & H). apply inv_rb in H. destruct H as (o' & E5 & H).
    assert (o' = o) by congruence. assert (w' = w) by congruence. subst. auto.
  - intros (-> & -> & -> & -> & ->). reflexivity.
Qed.
(** Shapes of the possible ranks. *)
Lemma shape_rank : forall n, ndim n > 1 -> exists a b s, sh n = a :: b :: s.
Proof. intros [s e]. unfold ndim. cbn. destruct s as [|a [|b s]]; cbn; intros H; try lia. eauto. Qed.
Lemma ranks_pos : forall f k, In k (ranks f) -> k = 1 \/ k = 2 \/ k = 3.
Proof. intros f k H. destruct f; cbn in H; intuition lia. Qed.
Lemma dim0 : forall n, ndim n > 0 -> dim 0 n = Ok (nth 0 (sh n) 0).
Proof. intros [s e]. unfold ndim, dim. cbn. destruct s; cbn; intros; [lia|reflexivity]. Qed.
Lemma dim1 : forall n, ndim n > 1 -> dim 1 n = Ok (nth 1 (sh n) 0).
Proof. intros n H. destruct (shape_rank n H) as (a & b & s & E). unfold dim. rewrite E. reflexivity. Qed.
Lemma dim1_bad : forall n, ndim n <= 1 -> dim 1 n = Err IndexError.
Proof. intros [s e]. unfold ndim, dim. cbn. destruct s as [|a [|b s]]; cbn; intros; try reflexivity; lia. Qed.
Lemma last_dim_ok : forall n, ndim n > 0 -> last_dim n = Ok (last (sh n) 0).
Proof.
  intros [s e]. unfold ndim, last_dim. cbn [sh]. intros H.
  destruct (@exists_last nat s) as (l & a & ->); [destruct s; cbn in *; [lia|congruence]|].
  rewrite rev_app_distr, last_last. reflexivity.
Qed.

(** *** The variables *)
Lemma validate_variables_iff : forall x d req l w, validate_variables x d req l = Ok w <->
  (forall f, In f l -> In f req -> f <> Time -> d f <> None ->
     if field_eq_dec f RfImpressions then x_n_rf_channels x <> 0 else x_input x f <> None) /\
  w = filter (fun f => negb (is f Time) && (match d f with Some _ => true | None => false end) && negb (among f req)) l.
Proof.
  intros x d req l. induction l as [|f l IH]; intros w; cbn [validate_variables filter].
  - split; [intros H; split; [intros f []|congruence]|intros [_ ->]; reflexivity].
  - assert (Skip : (d f = None \/ f = Time) -> (negb (is f Time) && (match d f with Some _ => true | None => false end) && negb (among f req)) = false).
    { intros [E|E]; [rewrite E, andb_false_r; reflexivity|]. apply is_iff in E. rewrite E. reflexivity. }
    assert (Rest : (d f = None \/ f = Time) -> (validate_variables x d req l = Ok w <->
      (forall f0, In f0 (f :: l) -> In f0 req -> f0 <> Time -> d f0 <> None ->
        if field_eq_dec f0 RfImpressions then x_n_rf_channels x <> 0 else x_input x f0 <> None) /\
      w = (if (negb (is f Time) && (match d f with Some _ => true | None => false end) && negb (among f req))
           then f :: filter (fun f => negb (is f Time) && (match d f with Some _ => true | None => false end) && negb (among f req)) l
           else filter (fun f => negb (is f Time) && (match d f with Some _ => true | None => false end) && negb (among f req)) l))).
    { intros S. rewrite (Skip S), IH. split.
      - intros [A B]. split; [|exact B]. intros g [<-|I] R Nt Nd; [destruct S; congruence|apply A; assumption].
      - intros [A B]. split; [|exact B]. intros g I. apply A. right. exact I. }
    destruct (d f) as [n|] eqn:E; [|apply Rest; left; reflexivity].
    destruct (is f Time) eqn:Et; [apply is_iff in Et; apply Rest; right; exact Et|].
    cbn [negb andb]. assert (Nt : f <> Time) by (intros K; apply is_iff in K; congruence).
    destruct (among f req) eqn:Ea; cbn [negb andb].
    + apply among_iff in Ea. split.
      * intros H. apply inv_raise in H. destruct H as [H1 H2]. apply IH in H2. destruct H2 as [A B]. split; [|exact B].
        intros g [<-|I] R Ng Nd; [|apply A; assumption].
        destruct (field_eq_dec f RfImpressions) as [Er|Er].
        -- apply is_iff in Er. rewrite Er in H1. apply Nat.eqb_neq in H1. exact H1.
        -- assert (Er' : is f RfImpressions = false) by (destruct (is f RfImpressions) eqn:K; [apply is_iff in K; contradiction|reflexivity]).
           rewrite Er' in H1. destruct (x_input x f); congruence.
      * intros [A B]. assert (Hb : (if is f RfImpressions then x_n_rf_channels x =? 0 else match x_input x f with None => true | Some _ => false end) = false).
        { specialize (A f (or_introl eq_refl) Ea Nt). rewrite E in A. assert (A' := A ltac:(discriminate)).
          unfold is. destruct (field_eq_dec f RfImpressions); [apply Nat.eqb_neq; exact A'|]. destruct (x_input x f); congruence. }
        rewrite Hb. cbn. apply IH. split; [|exact B]. intros g I. apply A. right. exact I.
    + split.
      * intros H. apply inv_rb in H. destruct H as (w' & H1 & H2). apply IH in H1. destruct H1 as [A B]. split; [|congruence].
        intros g [<-|I] R; [apply among_iff in R; congruence|apply A; assumption].
      * intros [A B]. rewrite (proj2 (IH (filter (fun f => negb (is f Time) && (match d f with Some _ => true | None => false end) && negb (among f req)) l))).
        -- cbn. congruence.
        -- split; [|reflexivity]. intros g I. apply A. right. exact I.
Qed.

Section Validation.
Variables (x : context) (d : data).
Hypothesis wf : well_formed x.
Hypothesis rk : ranked d.

Lemma own_rank : forall f o, own x f = Some o -> In (ndim o) (ranks f).
Proof.
  intros f o E. destruct wf as (W & _). destruct f; try (apply (W _ o E)).
  cbn in E. destruct (x_input x Reach) as [r|] eqn:Er; [|discriminate]. destruct (x_input x Frequency) as [q|] eqn:Eq; [|discriminate].
  assert (o = mul r q) by congruence. subst. change (ndim (mul r q)) with (ndim r). apply (W Reach r Er).
Qed.
Lemma own_periods : forall f o, own x f = Some o -> ndim o > 1 -> nth 0 (sh o) 0 = x_n_geos x /\ nth 1 (sh o) 0 = periods x f.
Proof.
  intros f o E. destruct wf as (W & _). destruct f; try (apply (W _ o E)).
  cbn in E. destruct (x_input x Reach) as [r|] eqn:Er; [|discriminate]. destruct (x_input x Frequency) as [q|] eqn:Eq; [|discriminate].
  assert (o = mul r q) by congruence. subst. change (ndim (mul r q)) with (ndim r). apply (W Reach r Er).
Qed.
Lemma own_time : exists t, own x Time = Some t /\ sh t = [x_n_times x].
Proof. exact (proj1 (proj2 wf)). Qed.
Lemma own_rf : x_n_rf_channels x <> 0 -> exists o, own x RfImpressions = Some o.
Proof.
  intros H. destruct wf as (_ & _ & R & Q & _). cbn.
  destruct (x_input x Reach) as [r|]; [|exfalso; apply H; apply R; reflexivity].
  destruct (x_input x Frequency) as [q|]; [eauto|exfalso; apply H; apply Q; reflexivity].
Qed.
Lemma own_rf' : forall o, own x RfImpressions = Some o -> x_n_rf_channels x <> 0.
Proof.
  intros o E H. cbn in E. destruct wf as (_ & _ & R & _). rewrite (proj2 R H) in E. discriminate.
Qed.
Lemma new_rank : forall f n, d f = Some n -> ndim n > 0.
Proof. intros f n E. pose proof (rk f n E) as K. apply ranks_pos in K. lia. Qed.
Lemma own_pos : forall f n, own x f = Some n -> ndim n > 0.
Proof. intros f n E. apply own_rank in E. apply ranks_pos in E. lia. Qed.

Lemma variables_ok : forall req,
  (exists w, validate_variables x d req fields = Ok w) <-> (forall f, In f req -> d f <> None -> exists o, own x f = Some o).
Proof.
  intros req. split.
  - intros (w & H) f R N. apply validate_variables_iff in H. destruct H as [A _].
    destruct (field_eq_dec f Time) as [->|Nt]; [destruct own_time as (t & E & _); eauto|].
    specialize (A f (in_fields f) R Nt N). destruct (field_eq_dec f RfImpressions) as [->|Nr]; [apply own_rf; exact A|].
    destruct (x_input x f) as [o|] eqn:E; [|congruence]. exists o. destruct f; try exact E; congruence.
  - intros H. eexists. apply validate_variables_iff. split; [|reflexivity]. intros f _ R Nt N.
    destruct (H f R N) as (o & E). destruct (field_eq_dec f RfImpressions) as [->|Nr]; [apply (own_rf' o E)|].
    destruct f; cbn in E; congruence.
Qed.
Lemma geo_dims_iff : forall l, validate_geo_dims x d l = Ok tt <-> forall f n, In f l -> d f = Some n -> ndim n > 1 -> nth 0 (sh n) 0 = x_n_geos x.
Proof.
  induction l as [|f l IH]; cbn [validate_geo_dims]; [split; [intros _ f n []|reflexivity]|].
  destruct (d f) as [n|] eqn:E.
  - rewrite (dim0 n (new_rank f n E)). cbn [rbind]. split.
    + intros H. apply inv_raise in H. destruct H as [H1 H2]. intros g m [<-|I] Eg Hm.
      * assert (m = n) by congruence. subst. apply andb_false_iff in H1.
        destruct H1 as [H1|H1]; apply negb_false_iff in H1; apply Nat.eqb_eq in H1; lia.
      * apply (proj1 IH H2 g m I Eg Hm).
    + intros H. assert (Hb : negb (nth 0 (sh n) 0 =? x_n_geos x) && negb (ndim n =? 1) = false).
      { destruct (Nat.eqb_spec (ndim n) 1) as [K|K]; [rewrite andb_false_r; reflexivity|].
        rewrite (H f n (or_introl eq_refl) E), Nat.eqb_refl; [reflexivity|]. pose proof (new_rank f n E). lia. }
      rewrite Hb. cbn. apply IH. intros g m I. apply H. right. exact I.
  - rewrite IH. split; intros H g m I Eg; [destruct I as [<-|I]; [congruence|exact (H g m I Eg)]|exact (H g m (or_intror I) Eg)].
Qed.
Lemma channel_dims_iff : forall l, (forall f, In f l -> d f <> None -> exists o, own x f = Some o) ->
  (validate_channel_dims x d l = Ok tt <-> forall f n o, In f l -> d f = Some n -> own x f = Some o -> f <> RevenuePerKpi -> f <> Time -> last (sh n) 0 = last (sh o) 0).
Proof.
  induction l as [|f l IH]; intros Ow; cbn [validate_channel_dims]; [split; [intros _ f n o []|reflexivity]|].
  assert (IH' := IH (fun g I => Ow g (or_intror I))). clear IH.
  destruct (is f RevenuePerKpi || is f Time) eqn:Es.
  - rewrite IH'. split; intros H g n o I E Eo N1 N2; [|apply (H g n o (or_intror I) E Eo N1 N2)].
    destruct I as [<-|I]; [|apply (H g n o I E Eo N1 N2)]. apply orb_true_iff in Es. rewrite !is_iff in Es. intuition congruence.
  - assert (Nf : f <> RevenuePerKpi /\ f <> Time).
    { split; intros K; apply is_iff in K; rewrite K, ?orb_true_r in Es; discriminate. }
    destruct (d f) as [n|] eqn:E.
    + destruct (Ow f (or_introl eq_refl)) as (o & Eo); [congruence|]. rewrite Eo.
      rewrite (last_dim_ok n (new_rank f n E)), (last_dim_ok o (own_pos f o Eo)). cbn [rbind]. split.
      * intros H. apply inv_raise in H. destruct H as [H1 H2]. intros g n' o' [<-|I] E' Eo' N1 N2.
        -- apply negb_false_iff, Nat.eqb_eq in H1. congruence.
        -- apply (proj1 IH' H2 g n' o' I E' Eo' N1 N2).
      * intros H. rewrite (H f n o (or_introl eq_refl) E Eo (proj1 Nf) (proj2 Nf)), Nat.eqb_refl. cbn. apply IH'.
        intros g n' o' I. apply H. right. exact I.
    + rewrite IH'. split; intros H g n o I Eg; [destruct I as [<-|I]; [congruence|exact (H g n o I Eg)]|exact (H g n o (or_intror I) Eg)].
Qed.
Lemma time_rank : forall n, d Time = Some n -> exists k, sh n = [k].
Proof.
  intros n E. pose proof (rk Time n E) as H. cbn in H. unfold ndim in H. destruct (sh n) as [|k [|b s]]; cbn in H; try (intuition lia). eauto.
Qed.
Lemma is_spend_iff : forall f, is_spend f = true <-> f = MediaSpend \/ f = RfSpend.
Proof. intros f. unfold is_spend. rewrite orb_true_iff, !is_iff. tauto. Qed.
Lemma rank1 : forall f n, d f = Some n -> ndim n = 1 -> f = Time \/ is_spend f = true.
Proof. intros f n E R. pose proof (rk f n E) as H. rewrite R in H. rewrite is_spend_iff. destruct f; cbn in H; intuition (try lia; try congruence). Qed.

Lemma time_dims_iff : forall l, (forall f, In f l -> d f <> None -> exists o, own x f = Some o) ->
  (validate_time_dims x d l = Ok tt <-> forall f, In f l -> keeps_periods x d f).
Proof.
  induction l as [|f l IH]; intros Ow; cbn [validate_time_dims]; [split; [intros _ f []|reflexivity]|].
  assert (IH' := IH (fun g I => Ow g (or_intror I))). clear IH.
  assert (Tail : forall P : Prop, (P <-> keeps_periods x d f) -> ((P /\ validate_time_dims x d l = Ok tt) <-> forall g, In g (f :: l) -> keeps_periods x d g)).
  { intros P HP. rewrite HP, IH'. split; [intros [A B] g [<-|I]; auto|intros H; split; [apply H; left; reflexivity|intros g I; apply H; right; exact I]]. }
  destruct (d f) as [n|] eqn:E.
  - destruct (Ow f (or_introl eq_refl)) as (o & Eo); [congruence|]. pose proof (new_rank f n E) as Rn.
    destruct (is_spend f && (ndim n =? 1)) eqn:Es.
    + apply andb_true_iff in Es. destruct Es as [Es R1]. apply Nat.eqb_eq in R1. apply is_spend_iff in Es.
      rewrite <- (Tail True); [tauto|]. split; [|tauto]. intros _ m Em. assert (m = n) by congruence. subst m. exists o.
      split; [exact Eo|]. split; [intros ->; destruct Es; discriminate|lia].
    + rewrite Eo. destruct (field_eq_dec f Time) as [->|Nt].
      * destruct (time_rank n E) as (k & Ek). destruct own_time as (o' & Eo' & Eko).
        assert (o' = o) by congruence. subst o'. unfold ndim, dim. rewrite Ek, Eko. cbn.
        destruct (Nat.eqb_spec k (x_n_times x)) as [K|K]; cbn.
        -- rewrite <- (Tail True); [tauto|]. split; [|tauto]. intros _ m Em. assert (m = n) by congruence. subst m. exists o.
           split; [exact Eo|]. split; [congruence|]. unfold ndim. rewrite Ek. cbn. lia.
        -- split; [discriminate|]. intros H. destruct (H Time (or_introl eq_refl) n E) as (o' & Eo'' & A & _).
           assert (o' = o) by congruence. subst. specialize (A eq_refl). rewrite Ek, Eko in A. congruence.
      * assert (Nt' : is f Time = false) by (destruct (is f Time) eqn:K; [apply is_iff in K; congruence|reflexivity]).
        rewrite Nt'. cbn [rbind]. assert (R1 : ndim n > 1).
        { destruct (Nat.eq_dec (ndim n) 1) as [R|R]; [|lia]. destruct (rank1 f n E R) as [K|K]; [contradiction|].
          rewrite K, R in Es. discriminate. }
        rewrite (proj2 (Nat.ltb_lt 1 (ndim n)) R1), (dim1 n R1). cbn [rbind].
        destruct (Nat.le_gt_cases (ndim o) 1) as [Ro|Ro].
        -- rewrite (dim1_bad o Ro). cbn. split; [discriminate|]. intros H. destruct (H f (or_introl eq_refl) n E) as (o' & Eo' & _ & A).
           assert (o' = o) by congruence. subst. specialize (A R1). lia.
        -- rewrite (dim1 o Ro). cbn [rbind]. destruct (Nat.eqb_spec (nth 1 (sh n) 0) (nth 1 (sh o) 0)) as [K|K]; cbn.
           ++ rewrite <- (Tail True); [tauto|]. split; [|tauto]. intros _ m Em. assert (m = n) by congruence. subst m. exists o.
              split; [exact Eo|]. split; [congruence|]. intros _. split; assumption.
           ++ split; [discriminate|]. intros H. destruct (H f (or_introl eq_refl) n E) as (o' & Eo' & _ & A).
              assert (o' = o) by congruence. subst. destruct (A R1). congruence.
  - rewrite <- (Tail True); [tauto|]. split; [|tauto]. intros _ m Em. congruence.
Qed.

Lemma flexible_iff : forall t l, (forall f, In f l -> d f <> None -> exists o, own x f = Some o) ->
  (validate_flexible x d t l = Ok [] <-> forall f, In f l -> own x f <> None -> covers d f t).
Proof.
  intros t. induction l as [|f l IH]; intros Ow; cbn [validate_flexible]; [split; [intros _ f []|reflexivity]|].
  assert (IH' := IH (fun g I => Ow g (or_intror I))). clear IH.
  assert (Tail : forall P : Prop, (P <-> (own x f <> None -> covers d f t)) ->
            ((P /\ validate_flexible x d t l = Ok []) <-> forall g, In g (f :: l) -> own x g <> None -> covers d g t)).
  { intros P HP. rewrite HP, IH'. split; [intros [A B] g [<-|I]; auto|intros H; split; [apply H; left; reflexivity|intros g I; apply H; right; exact I]]. }
  destruct (own x f) as [o|] eqn:Eo.
  2:{ rewrite <- (Tail True); [tauto|]. split; [intros _ K; congruence|tauto]. }
  destruct (d f) as [n|] eqn:E.
  2:{ split.
      - intros H. apply inv_rb in H. destruct H as (m & _ & H). discriminate.
      - intros H. destruct (H f (or_introl eq_refl)) as (m & Em & _); congruence. }
  destruct (field_eq_dec f Time) as [->|Nt].
  - destruct (time_rank n E) as (k & Ek). unfold ndim, dim. rewrite Ek. cbn.
    destruct (Nat.eqb_spec k t) as [K|K]; cbn.
    + rewrite <- (Tail True); [tauto|]. split; [|tauto]. intros _ _. exists n. split; [exact E|]. split; [congruence|congruence].
    + split; [discriminate|]. intros H. destruct (H Time (or_introl eq_refl)) as (m & Em & A & _); [congruence|].
      assert (m = n) by congruence. subst. specialize (A eq_refl). congruence.
  - assert (Nt' : is f Time = false) by (destruct (is f Time) eqn:K; [apply is_iff in K; congruence|reflexivity]).
    rewrite Nt'. cbn [rbind]. destruct (is_spend f && (ndim n =? 1)) eqn:Es; cbn [raise_if].
    + apply andb_true_iff in Es. destruct Es as [_ R1]. apply Nat.eqb_eq in R1. split; [discriminate|].
      intros H. destruct (H f (or_introl eq_refl)) as (m & Em & _ & A); [congruence|]. assert (m = n) by congruence. subst.
      destruct (A Nt). lia.
    + assert (R1 : ndim n > 1).
      { destruct (Nat.eq_dec (ndim n) 1) as [R|R]; [|pose proof (new_rank f n E); lia]. destruct (rank1 f n E R) as [K|K]; [contradiction|].
        rewrite K, R in Es. discriminate. }
      rewrite (proj2 (Nat.ltb_lt 1 (ndim n)) R1), (dim1 n R1). cbn [rbind].
      destruct (Nat.eqb_spec (nth 1 (sh n) 0) t) as [K|K]; cbn.
      * rewrite <- (Tail True); [tauto|]. split; [|tauto]. intros _ _. exists n. split; [exact E|]. split; [congruence|auto].
      * split; [discriminate|]. intros H. destruct (H f (or_introl eq_refl)) as (m & Em & _ & A); [congruence|].
        assert (m = n) by congruence. subst. destruct (A Nt). congruence.
Qed.
Lemma modified_none : forall f, modified (d f) (own x f) = None <-> unchanged x d f.
Proof.
  intros f. unfold modified, unchanged. destruct (d f) as [n|]; [|split; [intros _ n o K; discriminate|reflexivity]].
  destruct (own x f) as [o|]; [|split; [intros _ n' o _ K; discriminate|reflexivity]].
  destruct ((1 <? ndim n) && (1 <? ndim o) && negb (nth 1 (sh n) 0 =? nth 1 (sh o) 0)) eqn:K.
  - apply andb_true_iff in K. destruct K as [K K3]. apply andb_true_iff in K. destruct K as [K1 K2].
    apply Nat.ltb_lt in K1, K2. apply negb_true_iff, Nat.eqb_neq in K3.
    split; [discriminate|]. intros H. elim K3. apply (H n o eq_refl eq_refl); lia.
  - split; [|reflexivity]. intros _ n' o' E1 E2 R1 R2. assert (n' = n) by congruence. assert (o' = o) by congruence. subst.
    rewrite (proj2 (Nat.ltb_lt 1 (ndim n)) R1), (proj2 (Nat.ltb_lt 1 (ndim o)) R2) in K. cbn in K.
    apply negb_false_iff, Nat.eqb_eq in K. exact K.
Qed.
Lemma modified_some : forall f t, modified (d f) (own x f) = Some t <->
  exists n o, d f = Some n /\ own x f = Some o /\ ndim n > 1 /\ ndim o > 1 /\ nth 1 (sh n) 0 <> nth 1 (sh o) 0 /\ t = nth 1 (sh n) 0.
Proof.
  intros f t. unfold modified. split.
  - destruct (d f) as [n|]; [|discriminate]. destruct (own x f) as [o|]; [|discriminate].
    destruct ((1 <? ndim n) && (1 <? ndim o) && negb (nth 1 (sh n) 0 =? nth 1 (sh o) 0)) eqn:K; [|discriminate].
    intros H. apply andb_true_iff in K. destruct K as [K K3]. apply andb_true_iff in K. destruct K as [K1 K2].
    apply Nat.ltb_lt in K1, K2. apply negb_true_iff, Nat.eqb_neq in K3. exists n, o. repeat split; auto; congruence.
  - intros (n & o & E & Eo & R1 & R2 & N & ->). rewrite E, Eo.
    rewrite (proj2 (Nat.ltb_lt 1 (ndim n)) R1), (proj2 (Nat.ltb_lt 1 (ndim o)) R2), (proj2 (Nat.eqb_neq _ _) N). reflexivity.
Qed.
Lemma first_some_none : forall A B (f : A -> option B) l, first_some f l = None <-> forall a, In a l -> f a = None.
Proof.
  intros A B f l. induction l as [|a l IH]; cbn; [split; [intros _ c []|reflexivity]|]. destruct (f a) eqn:E.
  - split; [discriminate|]. intros H. rewrite (H a (or_introl eq_refl)) in E. discriminate.
  - rewrite IH. split; [intros H b [<-|I]; auto|intros H b I; apply H; right; exact I].
Qed.
Lemma first_some_some : forall A B (f : A -> option B) l b, first_some f l = Some b <->
  exists p a q, l = p ++ a :: q /\ (forall c, In c p -> f c = None) /\ f a = Some b.
Proof.
  intros A B f l b. induction l as [|a l IH]; cbn; [split; [discriminate|intros ([|? p] & c & q & K & _); discriminate]|].
  destruct (f a) as [b'|] eqn:E.
  - split.
    + intros H. exists [], a, l. split; [reflexivity|]. split; [intros c []|congruence].
    + intros ([|a' p] & c & q & K & N & F); cbn in K.
      * assert (a = c) by congruence. subst. congruence.
      * assert (a = a') by congruence. subst. rewrite (N a' (or_introl eq_refl)) in E. discriminate.
  - rewrite IH. split.
    + intros (p & c & q & -> & N & F). exists (a :: p), c, q. split; [reflexivity|]. split; [intros c' [<-|I]; auto|exact F].
    + intros ([|a' p] & c & q & K & N & F); cbn in K.
      * assert (a = c) by congruence. subst. congruence.
      * assert (l = p ++ c :: q) by congruence. exists p, c, q. split; [assumption|]. split; [intros c' I; apply N; right; exact I|exact F].
Qed.
Lemma modified_times_none : get_modified_times x d = None <-> forall f, unchanged x d f.
Proof.
  unfold get_modified_times. rewrite first_some_none. split.
  - intros H f. apply modified_none. apply H. apply in_fields.
  - intros H f _. apply modified_none. apply H.
Qed.
Lemma modified_times_some : forall t, get_modified_times x d = Some t <-> first_change x d t.
Proof.
  intros t. unfold get_modified_times, first_change. rewrite first_some_some. split.
  - intros (p & a & q & E & N & F). exists p, a, q. split; [exact E|]. split; [intros g I; apply modified_none, N, I|].
    apply modified_some in F. exact F.
  - intros (p & a & q & E & N & F). exists p, a, q. split; [exact E|]. split; [intros g I; apply modified_none, N, I|].
    apply modified_some. exact F.
Qed.
Lemma filled_ranked : forall req, ranked (fun f => match f, d Time with Time, Some t => Some t | _, _ => if among f req then match d f with Some n => Some n | None => own x f end else None end).
Proof.
  intros req f n H.
  assert (K : (f = Time /\ d Time = Some n) \/ given_or_own x d f = Some n).
  { unfold given_or_own. destruct f; try (right; destruct (among _ req); [exact H|discriminate]).
    destruct (d Time) as [t|] eqn:Et; [left; split; [reflexivity|exact H]|]. right. destruct (among Time req); [exact H|discriminate]. }
  destruct K as [[-> K]|K]; [apply rk; exact K|]. unfold given_or_own in K. destruct (d f) as [n'|] eqn:E; [apply rk; congruence|apply own_rank; exact K].
Qed.
Lemma fill_value : forall req, exists out, fill_default_values x d req = Ok out /\
  (forall f, In f req -> out f = given_or_own x d f) /\ (forall f, ~ In f req -> f <> Time -> out f = None) /\ (~ In Time req -> out Time = d Time).
Proof.
  intros req. unfold fill_default_values. eexists. split; [apply data_tensors_iff; split; [reflexivity|apply filled_ranked]|].
  refine (conj _ (conj _ _)).
  - intros f I. apply among_iff in I. unfold given_or_own. destruct f; try (rewrite I; reflexivity). destruct (d Time) eqn:E; [reflexivity|]. rewrite I. reflexivity.
  - intros f N Nt. assert (Na : among f req = false) by (destruct (among f req) eqn:K; [apply among_iff in K; contradiction|reflexivity]).
    destruct f; try (rewrite Na; reflexivity). congruence.
  - intros N. assert (Na : among Time req = false) by (destruct (among Time req) eqn:K; [apply among_iff in K; contradiction|reflexivity]).
    rewrite Na. destruct (d Time); reflexivity.
Qed.

Lemma shaped_iff : forall req,
  (exists w, validate_variables x d req fields = Ok w) /\ validate_geo_dims x d req = Ok tt /\ validate_channel_dims x d req = Ok tt <->
  forall f, In f req -> well_shaped x d f.
Proof.
  intros req. rewrite variables_ok. split.
  - intros (A & B & C) f I n E. rewrite channel_dims_iff in C; [|exact A]. rewrite geo_dims_iff in B.
    destruct (A f I) as (o & Eo); [congruence|]. exists o. split; [exact Eo|]. split; [apply (B f n I E)|apply (C f n o I E Eo)].
  - intros H. assert (A : forall f, In f req -> d f <> None -> exists o, own x f = Some o).
    { intros f I N. destruct (d f) as [n|] eqn:E; [|congruence]. destruct (H f I n E) as (o & Eo & _). eauto. }
    split; [exact A|]. split.
    + apply geo_dims_iff. intros f n I E. destruct (H f I n E) as (o & _ & G & _). exact G.
    + apply channel_dims_iff; [exact A|]. intros f n o I E Eo. destruct (H f I n E) as (o' & Eo' & _ & G). assert (o' = o) by congruence. subst. exact G.
Qed.
Lemma fill_steps : forall req allow r, validate_and_fill x d req allow = Ok r <->
  validate_variables x d req fields = Ok (snd r) /\ validate_geo_dims x d req = Ok tt /\ validate_channel_dims x d req = Ok tt /\
  (if allow then validate_time_dims_flexible x d req else validate_time_dims x d req) = Ok tt /\ fill_default_values x d req = Ok (fst r).
Proof. intros req allow r. unfold validate_and_fill. apply chain. Qed.
Lemma fill_iff : forall req allow,
  (exists r, validate_and_fill x d req allow = Ok r) <->
  (forall f, In f req -> well_shaped x d f) /\
  (if allow then (forall f, unchanged x d f) \/ (exists t, first_change x d t /\ forall f, In f req -> own x f <> None -> covers d f t)
   else forall f, In f req -> keeps_periods x d f).
Proof.
  intros req allow. rewrite <- shaped_iff. split.
  - intros ([o w] & H). apply fill_steps in H. cbn [fst snd] in H. destruct H as (E1 & E2 & E3 & E4 & _).
    assert (Ow := proj1 (variables_ok req) (ex_intro _ w E1)).
    split; [split; [eauto|split; assumption]|]. destruct allow; [|apply time_dims_iff; assumption].
    unfold validate_time_dims_flexible in E4. destruct (get_modified_times x d) as [t|] eqn:Em.
    + right. exists t. apply modified_times_some in Em. split; [exact Em|]. apply inv_rb in E4. destruct E4 as (m & E4 & E5).
      destruct m; [|discriminate]. exact (proj1 (flexible_iff t req Ow) E4).
    + left. apply modified_times_none. exact Em.
  - intros (((w & E1) & E2 & E3) & T). assert (Ow := proj1 (variables_ok req) (ex_intro _ w E1)).
    destruct (fill_value req) as (out & Ef & _). exists (out, w).
    assert (E4 : (if allow then validate_time_dims_flexible x d req else validate_time_dims x d req) = Ok tt).
    { destruct allow; [|apply time_dims_iff; assumption]. unfold validate_time_dims_flexible. destruct T as [T|(t & T1 & T2)].
      - apply modified_times_none in T. rewrite T. reflexivity.
      - apply modified_times_some in T1. rewrite T1. rewrite (proj2 (flexible_iff t req Ow) T2). reflexivity. }
    apply fill_steps. cbn [fst snd]. exact (conj E1 (conj E2 (conj E3 (conj E4 Ef)))).
Qed.
Lemma fill_result : forall req allow out w, validate_and_fill x d req allow = Ok (out, w) ->
  (forall f, In f req -> out f = given_or_own x d f) /\ (forall f, ~ In f req -> f <> Time -> out f = None) /\ (~ In Time req -> out Time = d Time) /\
  (forall f, In f w <-> d f <> None /\ ~ In f req /\ f <> Time).
Proof.
  intros req allow out w H. apply fill_steps in H. cbn [fst snd] in H. destruct H as (E1 & _ & _ & _ & E5).
  destruct (fill_value req) as (o & Eo & A & B & C).
  assert (o = out) by congruence. subst. refine (conj A (conj B (conj C _))). intros f.
  apply validate_variables_iff in E1. destruct E1 as [_ ->]. rewrite filter_In, !andb_true_iff, !negb_true_iff. split.
  - intros (_ & (Nt & D) & Na). split; [destruct (d f); congruence|]. split.
    + intros I. apply among_iff in I. congruence.
    + intros K. apply is_iff in K. congruence.
  - intros (D & Na & Nt). split; [apply in_fields|]. split; [split|].
    + destruct (is f Time) eqn:K; [apply is_iff in K; contradiction|reflexivity].
    + destruct (d f); congruence.
    + destruct (among f req) eqn:K; [apply among_iff in K; contradiction|reflexivity].
Qed.
End Validation.

(** *** Optimal frequencies *)
Lemma ones_times_fits : forall imp q, ndim imp > 0 -> fits q (last (sh imp) 0) ->
  exists nf, ones_times imp q = Ok nf /\ sh nf = sh imp /\ forall i, index_of i (sh imp) -> freq_at q (last i 0) = Some (el nf i).
Proof.
  intros imp q R F. destruct q as [v|l]; cbn [ones_times].
  - eexists. split; [reflexivity|]. split; [reflexivity|]. intros i _. reflexivity.
  - rewrite (last_dim_ok imp R). cbn [rbind]. cbn in F. rewrite F, Nat.eqb_refl. eexists. split; [reflexivity|]. split; [reflexivity|].
    intros i I. cbn. assert (L : last i 0 < length l).
    { rewrite F. clear F. unfold ndim in R. revert I R. generalize (sh imp). intros s I. induction I as [|a b i s Hab I IH]; intros R; cbn in R; [lia|].
      inversion I; subst; [exact Hab|]. cbn. apply IH. cbn. lia. }
    apply nth_error_nth' with (d := 0%R) in L. exact L.
Qed.
Lemma index_last : forall i s, index_of i s -> s <> [] -> i <> [] /\ last i 0 < last s 0.
Proof.
  intros i s I. induction I as [|a b i s Hab I IH]; intros N; [congruence|]. split; [discriminate|].
  inversion I; subst; [exact Hab|]. cbn. apply IH. discriminate.
Qed.
Lemma div_at : forall a b i, sh b = sh a -> ndim a > 0 -> index_of i (sh a) -> el (div a b) i = (el a i / el b i)%R.
Proof.
  intros a b i E R I. cbn. f_equal. f_equal.
  destruct (index_last i (sh a) I) as [Ni Li]; [intros K; unfold ndim in R; rewrite K in R; cbn in R; lia|].
  assert (L : last_dim a = Ok (last (sh a) 0)) by (apply last_dim_ok; exact R). unfold last_dim in L.
  destruct (rev (sh a)) as [|[|[|k]] r]; try reflexivity. injection L as L. rewrite <- L in Li.
  rewrite (app_removelast_last 0 Ni) at 2. f_equal. f_equal. lia.
Qed.
