(** Proofs about the R-hat table and the convergence check. *)
From Coq Require Import Reals ZArith String List Bool Arith Lra Lia.
From Verif Require Import Lib_Sum M_Base M_AdstockHill M_Equations M_Transformers M_Aggregate
  S_Aggregate P_Aggregate S_Adstock S_Media S_Analyzer M_Analyzer P_Analyzer P_AnalyzerIO S_Predictor
  M_Stats S_Stats M_Accuracy S_Accuracy M_Review S_Review.
Import ListNotations.
Local Open Scope R_scope.

Lemma rltb_true : forall a b, rltb a b = true <-> a < b.
Proof. intros a b. unfold rltb. destruct (Rlt_dec a b); split; intros; try congruence; auto; lra. Qed.
Lemma rltb_false : forall a b, rltb a b = false <-> b <= a.
Proof. intros a b. unfold rltb. destruct (Rlt_dec a b); split; intros; try congruence; auto; lra. Qed.
Lemma rleb_true : forall a b, rleb a b = true <-> a <= b.
Proof. intros a b. unfold rleb. destruct (Rle_dec a b); split; intros; try congruence; auto; lra. Qed.
Lemma rleb_false : forall a b, rleb a b = false <-> b < a.
Proof. intros a b. unfold rleb. destruct (Rle_dec a b); split; intros; try congruence; auto; lra. Qed.

Lemma mapM_forall2 : forall A B (f : A -> result B) (P : A -> B -> Prop) l,
  (forall a, In a l -> exists b, f a = Ok b /\ P a b) -> exists r, mapM f l = Ok r /\ Forall2 P l r.
Proof.
  intros A B f P. induction l as [|a l IH]; intros H; [exists []; split; [reflexivity|constructor]|].
  destruct (H a (or_introl eq_refl)) as (b & Eb & Pb). destruct IH as (r & Er & Pr); [intros; apply H; right; assumption|].
  exists (b :: r). cbn [mapM]. rewrite Eb. cbn [rbind]. rewrite Er. cbn [rbind]. split; [reflexivity|constructor; assumption].
Qed.

(** ** Masking *)
Lemma nth_error_combine : forall A B (a : list A) (b : list B) i x y,
  nth_error a i = Some x -> nth_error b i = Some y -> nth_error (combine a b) i = Some (x, y).
Proof.
  induction a as [|u a IH]; intros [|v b] [|i] x y H1 H2; try discriminate; cbn in *; [congruence|]. apply IH; assumption.
Qed.
Lemma mask_nth : forall n a c, (c < n)%nat -> (forall l, a = SSeq l -> length l = n) ->
  exists b, nth_error (linear_mask n a) c = Some b /\ (b = true <-> no_saturation (Some a) c).
Proof.
  intros n [s|l] c Hc Hl; cbn.
  - exists (is_none s). split; [apply nth_error_repeat; exact Hc|]. destruct s; cbn; split; congruence.
  - specialize (Hl l eq_refl). rewrite nth_error_map. destruct (nth_error l c) as [s|] eqn:E.
    + exists (is_none s). cbn. split; [reflexivity|]. destruct s; cbn; split; congruence.
    + apply nth_error_None in E. lia.
Qed.
Lemma mask_length : forall n a, (forall l, a = SSeq l -> length l = n) -> length (linear_mask n a) = n.
Proof. intros n [s|l] H; cbn; [apply repeat_length|]. rewrite map_length. apply H. reflexivity. Qed.

Lemma hill_distinct : forall k k' name, In name (hill_names k) -> In name (hill_names k') -> k = k'.
Proof.
  intros k k' name H H'. destruct k, k'; try reflexivity; exfalso; cbn in H, H';
    destruct H as [<-|[<-|[]]]; destruct H' as [H'|[H'|[]]]; discriminate.
Qed.
Definition in_names (name : string) (l : list string) : bool := existsb (String.eqb name) l.
Lemma in_names_spec : forall name l, in_names name l = true <-> In name l.
Proof.
  intros name l. unfold in_names. rewrite existsb_exists. split.
  - intros (y & Hy & E). apply String.eqb_eq in E. subst. exact Hy.
  - intros H. exists name. split; [exact H|apply String.eqb_refl].
Qed.
(** The mask of a parameter is that of its kind. *)
Lemma mask_of_kind : forall h k name, In name (hill_names k) -> kind_count h k <> 0%nat ->
  mask_of (hill_specs h) name = option_map (linear_mask (kind_count h k)) (kind_saturation h k).
Proof.
  intros h k name Hin Hn. unfold mask_of, hill_specs. cbn [fold_left].
  change (existsb (String.eqb name)) with (in_names name).
  assert (F : forall k', k' <> k -> in_names name (hill_names k') = false).
  { intros k' Hk. destruct (in_names name (hill_names k')) eqn:E; [|reflexivity]. apply in_names_spec in E.
    elim Hk. exact (hill_distinct _ _ _ E Hin). }
  apply Nat.eqb_neq in Hn. assert (T : in_names name (hill_names k) = true) by (apply in_names_spec; exact Hin).
  pose proof (F KMedia) as F1. pose proof (F KRf) as F2. pose proof (F KOrganicMedia) as F3. pose proof (F KOrganicRf) as F4.
  cbn [hill_names] in F1, F2, F3, F4.
  destruct k; cbn [hill_names kind_count kind_saturation] in *;
    try rewrite F1 by discriminate; try rewrite F2 by discriminate; try rewrite F3 by discriminate;
    try rewrite F4 by discriminate; rewrite T, Hn; rewrite !andb_false_r; cbn [negb andb];
    destruct (hk_media h), (hk_rf h), (hk_organic_media h), (hk_organic_rf h); reflexivity.
Qed.
Lemma mask_of_other : forall h name, (forall k, ~ In name (hill_names k)) -> mask_of (hill_specs h) name = None.
Proof.
  intros h name H. unfold mask_of, hill_specs. cbn [fold_left].
  change (existsb (String.eqb name)) with (in_names name).
  assert (F : forall k, in_names name (hill_names k) = false).
  { intros k. destruct (in_names name (hill_names k)) eqn:E; [|reflexivity]. apply in_names_spec in E. elim (H k E). }
  pose proof (F KMedia) as F1. pose proof (F KRf) as F2. pose proof (F KOrganicMedia) as F3. pose proof (F KOrganicRf) as F4.
  cbn [hill_names] in F1, F2, F3, F4. rewrite F1, F2, F3, F4, !andb_false_r.
  destruct (hk_media h), (hk_rf h), (hk_organic_media h), (hk_organic_rf h); reflexivity.
Qed.
Lemma kind_dec : forall name, {k | In name (hill_names k)} + {forall k, ~ In name (hill_names k)}.
Proof.
  intros name. destruct (in_dec string_dec name (hill_names KMedia)); [left; exists KMedia; assumption|].
  destruct (in_dec string_dec name (hill_names KRf)); [left; exists KRf; assumption|].
  destruct (in_dec string_dec name (hill_names KOrganicMedia)); [left; exists KOrganicMedia; assumption|].
  destruct (in_dec string_dec name (hill_names KOrganicRf)); [left; exists KOrganicRf; assumption|].
  right. intros []; assumption.
Qed.
Lemma masked_same : forall h p, (forall c, ~ unused h (fst p) c) -> masked_entry h p p.
Proof.
  intros h p H. split; [reflexivity|]. split; [reflexivity|]. split; [reflexivity|]. intros c v E. split; [|auto].
  intros U. elim (H c U).
Qed.
Lemma masking_lemma : forall h r, hill_ok h r ->
  exists r', mask_hill (hill_specs h) r = Ok r' /\ Forall2 (masked_entry h) r r'.
Proof.
  intros h r [Hp Hc]. apply mapM_forall2. intros [name a] Hin. cbn [fst snd].
  destruct (kind_dec name) as [[k Hk]|No].
  - destruct (Hp k name a Hin Hk) as [Hl Hn]. rewrite (mask_of_kind h k name Hk Hn).
    destruct (kind_saturation h k) as [s|] eqn:Es; cbn [option_map].
    + assert (Hs : forall l, s = SSeq l -> length l = kind_count h k) by (intros l ->; apply Hc; exact Es).
      unfold where_nan. rewrite (mask_length _ _ Hs), Hl, Nat.eqb_refl. cbn [rbind]. eexists. split; [reflexivity|].
      split; [reflexivity|]. split; [reflexivity|]. cbn [snd rh_values fst].
      split; [rewrite map_length, combine_length, (mask_length _ _ Hs), Hl; apply Nat.min_id|].
      intros c v Ec. assert (Lc : (c < kind_count h k)%nat) by (rewrite <- Hl; apply nth_error_Some; congruence).
      destruct (mask_nth (kind_count h k) s c Lc Hs) as (b & Eb & Hb).
      rewrite nth_error_map, (nth_error_combine _ _ _ _ _ _ _ Eb Ec). cbn [option_map fst snd].
      assert (U : unused h name c <-> b = true).
      { rewrite Hb. split.
        - intros (k' & Hk' & Hs'). rewrite (hill_distinct _ _ _ Hk' Hk), Es in Hs'. exact Hs'.
        - intros Hs'. exists k. rewrite Es. auto. }
      rewrite U. destruct b; split; intros; congruence.
    + eexists. split; [reflexivity|]. apply masked_same. cbn [fst]. intros c (k' & Hk' & Hs').
      rewrite (hill_distinct _ _ _ Hk' Hk), Es in Hs'. exact Hs'.
  - rewrite (mask_of_other h name No). eexists. split; [reflexivity|]. apply masked_same. cbn [fst].
    intros c (k' & Hk' & _). elim (No k' Hk').
Qed.

(** ** Maximum *)
Lemma numbers_in : forall l v, In v (numbers l) <-> In (Some v) l.
Proof.
  intros l v. unfold numbers. rewrite in_flat_map. split.
  - intros ([r|] & H & Hv); [destruct Hv as [<-|[]]; exact H|destruct Hv].
  - intros H. exists (Some v). split; [exact H|left; reflexivity].
Qed.
Lemma max_seen_from : forall l acc,
  match fold_left max_seen l acc with
  | Some m => (acc = Some m \/ In (Some m) l) /\ (forall a, acc = Some a -> a <= m) /\ forall y, In (Some y) l -> y <= m
  | None => acc = None /\ forall v, In v l -> v = None
  end.
Proof.
  induction l as [|v l IH]; intros acc; cbn [fold_left].
  - destruct acc; [|split; [reflexivity|intros ? []]]. split; [left; reflexivity|]. split; [|intros ? []].
    intros a E. inversion E. lra.
  - specialize (IH (max_seen acc v)). destruct (fold_left max_seen l (max_seen acc v)) as [m|].
    + destruct IH as (H1 & H2 & H3). refine (conj _ (conj _ _)).
      * destruct H1 as [H1|H1]; [|right; right; exact H1].
        destruct acc as [a|], v as [b|]; cbn in H1; inversion H1; auto.
        -- destruct (Rmax_case_strong a b (fun z => z = a \/ z = b)) as [E|E]; auto; rewrite E; [left; reflexivity|right; left; reflexivity].
        -- right; left. reflexivity.
      * intros a ->. destruct v as [b|]; cbn in H2; [|auto]. pose proof (H2 _ eq_refl). pose proof (Rmax_l a b). lra.
      * intros y [->|H]; [|auto]. destruct acc as [a|]; cbn in H2; [|auto]. pose proof (H2 _ eq_refl). pose proof (Rmax_r a y). lra.
    + destruct IH as (H1 & H2). destruct acc, v; cbn in H1; try discriminate. split; [reflexivity|]. intros u [<-|H]; auto.
Qed.
Lemma nanmax_lemma : forall l, l <> [] -> exists m, nanmax l = Ok m /\ is_max_of (numbers l) m.
Proof.
  intros l H. unfold nanmax. destruct l as [|v l]; [congruence|]. eexists. split; [reflexivity|].
  pose proof (max_seen_from (v :: l) None) as M. destruct (fold_left max_seen (v :: l) None) as [m|].
  - destruct M as ([M|M] & _ & H3); [discriminate|]. split; [apply numbers_in; exact M|]. intros y Hy. apply H3, numbers_in, Hy.
  - destruct M as (_ & M). cbn [is_max_of]. destruct (numbers (v :: l)) as [|y q] eqn:E; [reflexivity|].
    assert (Hy : In y (numbers (v :: l))) by (rewrite E; left; reflexivity). apply numbers_in, M in Hy. discriminate.
Qed.
Lemma nanmean_lemma : forall l, is_mean_of (numbers l) (nanmean l).
Proof.
  intros l. unfold nanmean. assert (E : present l = numbers l).
  { unfold present, numbers. induction l as [|[v|] l IH]; cbn; [reflexivity|f_equal; exact IH|exact IH]. }
  rewrite E. destruct (numbers l) eqn:N; [reflexivity|]. cbn [is_mean_of]. split; [discriminate|reflexivity].
Qed.

(** ** Table *)
Lemma positions_in_gen : forall A (f : A -> bool) l s i,
  In i (map fst (filter (fun p => f (snd p)) (combine (seq s (length l)) l)))
  <-> exists v, (s <= i)%nat /\ nth_error l (i - s) = Some v /\ f v = true.
Proof.
  induction l as [|a l IH]; intros s i; cbn [length seq combine filter map].
  - split; [intros []|]. intros (v & _ & E & _). destruct (i - s)%nat; discriminate.
  - assert (G : (exists v, (S s <= i)%nat /\ nth_error l (i - S s) = Some v /\ f v = true) \/ (i = s /\ f a = true) <->
      exists v, (s <= i)%nat /\ nth_error (a :: l) (i - s) = Some v /\ f v = true).
    { split.
      - intros [(v & H1 & H2 & H3)|[-> H]]; [exists v|exists a].
        + replace (i - s)%nat with (S (i - S s)) by lia. cbn. repeat split; auto; lia.
        + rewrite Nat.sub_diag. auto.
      - intros (v & H1 & H2 & H3). destruct (Nat.eq_dec i s) as [->|Hn].
        + rewrite Nat.sub_diag in H2. cbn in H2. right. split; congruence.
        + left. exists v. replace (i - s)%nat with (S (i - S s)) in H2 by lia. cbn in H2. repeat split; auto; lia. }
    cbn [snd]. rewrite <- G, <- IH. destruct (f a) eqn:E; cbn [map fst].
    + split; [intros [<-|H]; auto|intros [H|[-> _]]; [right; exact H|left; reflexivity]].
    + split; [auto|intros [H|[_ H]]; [exact H|discriminate]].
Qed.
Lemma positions_in : forall A (f : A -> bool) l i,
  In i (positions f l) <-> exists v, nth_error l i = Some v /\ f v = true.
Proof.
  intros A f l i. unfold positions. rewrite positions_in_gen, Nat.sub_0_r. split.
  - intros (v & _ & H). eauto.
  - intros (v & H). exists v. split; [lia|exact H].
Qed.
Lemma positions_count : forall A (f : A -> bool) l, length (positions f l) = length (filter f l).
Proof.
  intros A f l. unfold positions. rewrite map_length. generalize 0%nat as s.
  induction l as [|a l IH]; intros s; [reflexivity|]. cbn [length seq combine filter snd]. destruct (f a); cbn; rewrite IH; reflexivity.
Qed.
Lemma bad_in : forall t a i, In i (bad_positions t (rh_values a)) <-> bad_at t a i.
Proof.
  intros t a i. unfold bad_positions. rewrite positions_in. unfold bad_at. split.
  - intros ([v|] & E & H); [|discriminate]. cbn in H. apply rltb_true in H. eauto.
  - intros (v & E & H). exists (Some v). split; [exact E|]. cbn. apply rltb_true. exact H.
Qed.
Lemma bad_count : forall t l, length (bad_positions t l)
  = length (filter (fun v => if Rlt_dec t v then true else false) (numbers l)).
Proof.
  intros t l. unfold bad_positions. rewrite positions_count. induction l as [|[v|] l IH]; [reflexivity| |exact IH].
  cbn [filter numbers flat_map app]. change (olt (Some t) (Some v)) with (rltb t v). unfold rltb. fold (numbers l). destruct (Rlt_dec t v); cbn [length app]; rewrite IH; reflexivity.
Qed.
Lemma combine_map2 : forall A B C (f : A -> B) (g : A -> C) l, combine (map f l) (map g l) = map (fun x => (f x, g x)) l.
Proof. induction l; cbn; [reflexivity|]. f_equal. assumption. Qed.

Lemma row_lemma : forall t name a, rhat_ok a -> (length (rh_shape a) <= 2)%nat ->
  exists row, rhat_row_of t name a = Ok row /\ row_ok t (name, a) row.
Proof.
  intros t name a [Hne Hl] Hr. unfold rhat_row_of. cbv zeta.
  destruct (nanmax_lemma (rh_values a) Hne) as (m & Em & Hm).
  assert (Common : forall rows cols,
    (match rh_shape a with
     | [m; n] => length rows = length cols /\
                 forall i j, In (i, j) (combine rows cols) <-> (i < m)%nat /\ (j < n)%nat /\ bad_at t a (i * n + j)
     | [m] => cols = [] /\ forall i, In i rows <-> (i < m)%nat /\ bad_at t a i
     | _ => rows = [] /\ cols = []
     end) ->
    row_ok t (name, a) (mkRow name (fold_right Nat.mul 1%nat (rh_shape a)) (nanmean (rh_values a)) m
      (INR (length (bad_positions t (rh_values a))) / INR (length (rh_values a))) rows cols)).
  { intros rows cols H. unfold row_ok. cbv zeta. cbn [snd fst rr_param rr_n rr_avg rr_max rr_bad rr_rows rr_cols].
    split; [reflexivity|]. split; [symmetry; exact Hl|]. split; [apply nanmean_lemma|]. split; [exact Hm|].
    split; [rewrite bad_count; reflexivity|exact H]. }
  destruct (rh_shape a) as [|d1 [|d2 [|? ?]]] eqn:Es; [| | |exfalso; cbn in Hr; lia]; cbn [rbind]; rewrite Em; cbn [rbind fst snd].
  - eexists. split; [reflexivity|]. apply Common. auto.
  - eexists. split; [reflexivity|]. apply Common. split; [reflexivity|]. intros i. rewrite bad_in. split; [|tauto].
    intros B. split; [|exact B]. destruct B as (v & E & _). cbn in Hl. assert (i < length (rh_values a))%nat by (apply nth_error_Some; congruence). lia.
  - eexists. split; [reflexivity|]. apply Common. split; [rewrite !map_length; reflexivity|]. intros i j.
    rewrite combine_map2, in_map_iff. cbn [fold_right] in Hl. rewrite Nat.mul_1_r in Hl. split.
    + intros (p & E & Hp). apply bad_in in Hp. assert (Lp : (p < length (rh_values a))%nat).
      { destruct Hp as (v & Ev & _). apply nth_error_Some. congruence. }
      assert (Hd : d2 <> 0%nat) by (intros ->; lia).
      assert (Ei : i = (p / d2)%nat) by congruence. assert (Ej : j = (p mod d2)%nat) by congruence.
      rewrite Ei, Ej. rewrite Nat.mul_comm, <- Nat.div_mod by exact Hd.
      split; [apply Nat.div_lt_upper_bound; [exact Hd|lia]|]. split; [apply Nat.mod_upper_bound; exact Hd|exact Hp].
    + intros (Hi & Hj & B). exists (i * d2 + j)%nat. split; [|apply bad_in; exact B].
      rewrite Nat.div_add_l by lia. rewrite (Nat.div_small j d2 Hj), Nat.add_0_r.
      rewrite Nat.add_comm, Nat.mod_add by lia. rewrite (Nat.mod_small j d2 Hj). reflexivity.
Qed.
Lemma prior_name_eq : forall p, tau_g_name p = prior_name p.
Proof.
  intros p. unfold tau_g_name, prior_name. destruct (string_dec p "tau_g") as [->|H]; [reflexivity|].
  apply String.eqb_neq in H. rewrite H. reflexivity.
Qed.
Lemma summary_lemma : forall det t r, (forall name a, In (name, a) r -> rhat_ok a /\ (length (rh_shape a) <= 2)%nat) ->
  exists rows, rhat_summary det t r = Ok rows /\
    Forall2 (row_ok t) (filter (fun p => negb (det (prior_name (fst p)))) r) rows.
Proof.
  intros det t r H. unfold rhat_summary.
  rewrite (filter_ext _ (fun p => negb (det (prior_name (fst p))))) by (intros p; rewrite prior_name_eq; reflexivity).
  apply mapM_forall2. intros [name a] Hin. apply filter_In in Hin. destruct Hin as [Hin _].
  destruct (H name a Hin). apply row_lemma; assumption.
Qed.

(** ** Convergence *)
Lemma max_item_from : forall (l : list (string * option R)) p a, snd p = Some a ->
  let q := fold_left (fun acc q => if olt (snd acc) (snd q) then q else acc) l p in
  In q (p :: l) /\ exists m, snd q = Some m /\ a <= m /\ forall n y, In (n, Some y) l -> y <= m.
Proof.
  induction l as [|[n [y|]] l IH]; intros p a Ha; cbv zeta; cbn [fold_left].
  - split; [left; reflexivity|]. exists a. split; [exact Ha|]. split; [lra|intros ? ? []].
  - cbn [snd]. rewrite Ha. cbn [olt]. destruct (rltb a y) eqn:E.
    + apply rltb_true in E. destruct (IH (n, Some y) y eq_refl) as (H1 & m & H2 & H3 & H4). split.
      * destruct H1 as [<-|H1]; [right; left; reflexivity|right; right; exact H1].
      * exists m. split; [exact H2|]. split; [lra|]. intros n' y' [F|F]; [inversion F; subst; exact H3|exact (H4 n' y' F)].
    + apply rltb_false in E. destruct (IH p a Ha) as (H1 & m & H2 & H3 & H4). split.
      * destruct H1 as [<-|H1]; [left; reflexivity|right; right; exact H1].
      * exists m. split; [exact H2|]. split; [exact H3|]. intros n' y' [F|F]; [inversion F; subst; lra|exact (H4 n' y' F)].
  - cbn [snd]. replace (olt (snd p) None) with false by (rewrite Ha; reflexivity).
    destruct (IH p a Ha) as (H1 & m & H2 & H3 & H4). split.
    + destruct H1 as [<-|H1]; [left; reflexivity|right; right; exact H1].
    + exists m. split; [exact H2|]. split; [exact H3|]. intros n' y' [F|F]; [discriminate|exact (H4 n' y' F)].
Qed.
Lemma max_item_nan : forall (l : list (string * option R)) n,
  fold_left (fun acc q => if olt (snd acc) (snd q) then q else acc) l (n, None) = (n, None).
Proof. induction l as [|q l IH]; intros n; [reflexivity|]. cbn [fold_left snd olt]. apply IH. Qed.

Definition maxima (p : string * rhat_array) (q : string * option R) : Prop :=
  fst q = fst p /\ is_max_of (numbers (rh_values (snd p))) (snd q).
Lemma maxima_lemma : forall r, (forall name a, In (name, a) r -> rh_values a <> []) ->
  exists mx, mapM (fun p => rbind (nanmax (rh_values (snd p))) (fun m => Ok (fst p, m))) r = Ok mx /\ Forall2 maxima r mx.
Proof.
  intros r H. apply mapM_forall2. intros [name a] Hin. destruct (nanmax_lemma (rh_values a) (H name a Hin)) as (m & Em & Hm).
  exists (name, m). cbn [snd fst]. rewrite Em. split; [reflexivity|]. split; [reflexivity|exact Hm].
Qed.
Lemma forall2_in_l : forall A B (P : A -> B -> Prop) l r, Forall2 P l r -> forall a, In a l -> exists b, In b r /\ P a b.
Proof. induction 1; intros u []; subst; [eexists; split; [left; reflexivity|assumption]|]. destruct (IHForall2 u H1) as (b & ? & ?). exists b. split; [right|]; assumption. Qed.
Lemma forall2_in_r : forall A B (P : A -> B -> Prop) l r, Forall2 P l r -> forall b, In b r -> exists a, In a l /\ P a b.
Proof. induction 1; intros u []; subst; [eexists; split; [left; reflexivity|assumption]|]. destruct (IHForall2 u H1) as (b & ? & ?). exists b. split; [right|]; assumption. Qed.

Definition has_number (p : string * option R) : bool := match snd p with Some _ => true | None => false end.

Lemma convergence_lemma : forall c name0 a0 r, cv_threshold c <= cv_not_fully c ->
  (forall name a, In (name, a) ((name0, a0) :: r) -> rh_values a <> []) -> ~ all_nan a0 ->
  exists res, convergence_check c ((name0, a0) :: r) = Ok res /\
    (cv_case res = Converged <-> forall v, is_rhat ((name0, a0) :: r) v -> v < cv_threshold c) /\
    (cv_case res = NotConverged <-> exists v, is_rhat ((name0, a0) :: r) v /\ cv_not_fully c <= v) /\
    exists m name a, cv_max res = Some m /\ cv_param res = Some name /\ In (name, a) ((name0, a0) :: r) /\
      In (Some m) (rh_values a) /\ forall v, is_rhat ((name0, a0) :: r) v -> v <= m.
Proof.
  intros c name0 a0 r Hc Hne Hn. unfold convergence_check.
  destruct (maxima_lemma _ Hne) as (mx & -> & HF). cbn [rbind].
  destruct mx as [|q0 mx]; [inversion HF|].
  assert (H0 : maxima (name0, a0) q0) by (inversion HF; assumption). destruct H0 as [N0 M0]. cbn [fst snd] in N0, M0.
  destruct q0 as [n0 m0]. cbn [fst snd] in N0, M0. subst n0.
  assert (S0 : exists b0, m0 = Some b0).
  { destruct m0 as [b0|]; [eauto|]. elim Hn. intros [v|] Hv; [|reflexivity]. cbn in M0. apply numbers_in in Hv. rewrite M0 in Hv. destruct Hv. }
  destruct S0 as (b0 & ->). cbn [filter snd max_item].
  destruct (max_item_from mx (name0, Some b0) b0 eq_refl) as (H1 & m & H2 & H3 & H4). cbv zeta in H1, H2.
  set (q := fold_left (fun acc q => if olt (snd acc) (snd q) then q else acc) mx (name0, Some b0)) in *.
  destruct q as [n om]. cbn [snd] in H2. subst om.
  assert (Top : forall v, is_rhat ((name0, a0) :: r) v -> v <= m).
  { intros v (nm & a & Hin & Hv). destruct (forall2_in_l _ _ _ _ _ HF _ Hin) as ([n' mv] & Hin' & HM). destruct HM as [E HM]. cbn [fst snd] in E, HM.
    apply numbers_in in Hv. destruct mv as [y|]; [|cbn in HM; rewrite HM in Hv; destruct Hv].
    destruct HM as [_ HM]. specialize (HM v Hv). destruct Hin' as [F|F]; [inversion F; subst; lra|]. specialize (H4 n' y F). lra. }
  destruct (forall2_in_r _ _ _ _ _ HF _ H1) as ([n' a] & Hin & E & HM). cbn [fst snd] in E, HM. subst n'.
  destruct HM as [Hm _]. apply numbers_in in Hm.
  assert (Is : is_rhat ((name0, a0) :: r) m) by (exists n, a; auto).
  eexists. split; [reflexivity|]. cbn [cv_case cv_max cv_param olt ole].
  refine (conj _ (conj _ _)).
  - destruct (rltb m (cv_threshold c)) eqn:E1.
    + apply rltb_true in E1. split; [|reflexivity]. intros _ v Hv. specialize (Top v Hv). lra.
    + apply rltb_false in E1. split.
      * destruct (rleb _ _ && _); discriminate.
      * intros H. specialize (H m Is). lra.
  - destruct (rltb m (cv_threshold c)) eqn:E1.
    + apply rltb_true in E1. split; [discriminate|]. intros (v & Hv & Hge). specialize (Top v Hv). lra.
    + apply rltb_false in E1. apply rleb_true in E1. rewrite E1. cbn [andb].
      destruct (rltb m (cv_not_fully c)) eqn:E2.
      * apply rltb_true in E2. split; [discriminate|]. intros (v & Hv & Hge). specialize (Top v Hv). lra.
      * apply rltb_false in E2. split; [|reflexivity]. intros _. exists m. auto.
  - exists m, n, a. auto.
Qed.

Lemma convergence_all_nan : forall c r, (forall name a, In (name, a) r -> rh_values a <> [] /\ all_nan a) ->
  convergence_check c r = Ok (mkConvResult Converged None None).
Proof.
  intros c r H. unfold convergence_check.
  destruct (maxima_lemma r) as (mx & -> & HF); [intros; eapply H; eauto|]. cbn [rbind].
  assert (E : filter (fun p : string * option R => match snd p with Some _ => true | None => false end) mx = []).
  { destruct (filter _ mx) as [|p l] eqn:E; [reflexivity|]. assert (Hp : In p (p :: l)) by (left; reflexivity). rewrite <- E in Hp.
    apply filter_In in Hp. destruct Hp as [Hp Hs]. destruct (forall2_in_r _ _ _ _ _ HF p Hp) as ([n a] & Hin & HM). destruct HM as [_ HM]. cbn [snd] in HM.
    destruct (snd p) as [m|]; [|discriminate]. destruct HM as [Hm _]. apply numbers_in in Hm. destruct (H n a Hin) as [_ Hall].
    specialize (Hall _ Hm). discriminate. }
  rewrite E. reflexivity.
Qed.

Lemma convergence_nan_first : forall c name0 a0 r, (forall name a, In (name, a) ((name0, a0) :: r) -> rh_values a <> []) ->
  all_nan a0 -> (exists v, is_rhat r v) ->
  convergence_check c ((name0, a0) :: r) = Ok (mkConvResult NotConverged None (Some name0)).
Proof.
  intros c name0 a0 r Hne Hn (v & nm & a & Hin & Hv). unfold convergence_check.
  destruct (maxima_lemma _ Hne) as (mx & -> & HF). cbn [rbind].
  destruct mx as [|q0 mx]; [inversion HF|].
  assert (H0 : maxima (name0, a0) q0) by (inversion HF; assumption). destruct H0 as [N0 M0]. cbn [fst snd] in N0, M0.
  destruct q0 as [n0 m0]. cbn [fst snd] in N0, M0. subst n0.
  assert (m0 = None). { destruct m0 as [b|]; [|reflexivity]. destruct M0 as [M0 _]. apply numbers_in, Hn in M0. discriminate. } subst m0.
  cbn [max_item]. rewrite max_item_nan.
  destruct (forall2_in_l _ _ _ _ _ HF (nm, a) (or_intror Hin)) as ([n' mv] & Hin' & HM). destruct HM as [E HM]. cbn [fst snd] in E, HM.
  apply numbers_in in Hv. destruct mv as [y|]; [|cbn in HM; rewrite HM in Hv; destruct Hv].
  assert (Hf : In (n', Some y) (filter (fun p : string * option R => match snd p with Some _ => true | None => false end) ((name0, None) :: mx)))
    by (apply filter_In; split; [exact Hin'|reflexivity]).
  destruct (filter _ ((name0, None) :: mx)); [destruct Hf|]. reflexivity.
Qed.
