(** Proofs about the checks of the channels. *)
From Coq Require Import Reals ZArith String List Bool Arith Lra Lia Permutation Sorted.
From Verif Require Import Lib_Sum M_Base M_AdstockHill M_Equations M_Transformers M_Aggregate
  S_Aggregate P_Aggregate S_Adstock S_Media S_Analyzer M_Analyzer P_Analyzer P_AnalyzerIO S_Predictor
  P_Predictor M_Stats S_Stats P_Stats M_Accuracy S_Accuracy P_Accuracy P_AccuracyIO M_Review S_Review P_Review
  P_ReviewModel.
Import ListNotations.
Local Open Scope R_scope.

Lemma tolerance_lemma : forall t f n, within_tolerance t f n = true <-> tolerated t f n.
Proof.
  intros t f n. unfold within_tolerance, tolerated. destruct (Nat.eqb f 0) eqn:E1.
  - apply Nat.eqb_eq in E1. split; auto.
  - apply Nat.eqb_neq in E1. destruct (Nat.eqb n 0) eqn:E2.
    + apply Nat.eqb_eq in E2. split; [discriminate|]. intros [H|[H _]]; contradiction.
    + apply Nat.eqb_neq in E2. destruct t as [[k|] [q|]]; cbn [tl_count tl_ratio option_map].
      * rewrite orb_true_iff, Z.leb_le, rleb_true. split.
        -- intros [H|H]; right; (split; [exact E2|]); [left|right]; eauto.
        -- intros [H|[_ [(k' & E & H)|(q' & E & H)]]]; [contradiction|left|right]; inversion E; subst; exact H.
      * rewrite Z.leb_le. split.
        -- intros H; right; (split; [exact E2|]); left; eauto.
        -- intros [H|[_ [(k' & E & H)|(q' & E & H)]]]; [contradiction| |discriminate]; inversion E; subst; exact H.
      * rewrite rleb_true. split.
        -- intros H; right; (split; [exact E2|]); right; eauto.
        -- intros [H|[_ [(k' & E & H)|(q' & E & H)]]]; [contradiction|discriminate|]; inversion E; subst; exact H.
      * split; [discriminate|]. intros [H|[_ [(k' & E & H)|(q' & E & H)]]]; [contradiction|discriminate|discriminate].
Qed.

Lemma broadcast_lemma : forall A n (l : list A), per_channel n l ->
  exists l', broadcast_to n l = Ok l' /\ length l' = n /\ forall i q, nth_error l' i = Some q -> of_channel l i q.
Proof.
  intros A n l H. destruct l as [|a [|b l]].
  - destruct H as [H|H]; [discriminate|]. cbn in H. subst. exists []. split; [reflexivity|]. split; [reflexivity|].
    intros [|i] q E; discriminate.
  - exists (repeat a n). split; [reflexivity|]. split; [apply repeat_length|]. intros i q E. left.
    apply nth_error_In, repeat_spec in E. subst. reflexivity.
  - destruct H as [H|H]; [discriminate|]. exists (a :: b :: l). cbn [broadcast_to]. rewrite H, Nat.eqb_refl.
    split; [reflexivity|]. split; [reflexivity|]. intros i q E. right. split; [cbn; lia|exact E].
Qed.
Lemma of_channel_unique : forall A (l : list A) i q q', of_channel l i q -> of_channel l i q' -> q = q'.
Proof.
  intros A l i q q' [H|[H1 H2]] [H'|[H1' H2']]; subst; try congruence; [elim H1'; reflexivity|elim H1; reflexivity].
Qed.
Lemma lt_fin_below : forall a q, ext_lt (Fin a) q = true <-> below a q.
Proof. intros a [r| |]; cbn; [apply rltb_true| |]; split; intros; auto; try discriminate; contradiction. Qed.
Lemma lt_fin_above : forall a q, ext_lt q (Fin a) = true <-> above a q.
Proof. intros a [r| |]; cbn; [apply rltb_true| |]; split; intros; auto; try discriminate; contradiction. Qed.
Lemma is_inf_infinite : forall q, is_inf q = true <-> infinite q.
Proof. intros []; cbn; split; intros; auto; try discriminate; contradiction. Qed.

(** ** ROI consistency *)
Record quad := mkQuad { q_lo : ext; q_hi : ext; q_mean : R; q_name : string }.
Section Roi.
Variables (lo hi : R).
Definition defined (k : roi_kind) : bool :=
  match rk_prior k lo, rk_prior k hi with Some _, Some _ => true | _, _ => false end.
Definition aligned (d : roi_data) (Q : list quad) : Prop :=
  rd_lo d = map q_lo Q /\ rd_hi d = map q_hi Q /\ rd_means d = map q_mean Q /\ rd_names d = map q_name Q.
Definition quad_of (k : roi_kind) (q : quad) : Prop := exists i a b dr,
  rk_prior k lo = Some a /\ rk_prior k hi = Some b /\ of_channel a i (q_lo q) /\ of_channel b i (q_hi q) /\
  nth_error (rk_draws k) i = Some dr /\ q_mean q = average dr /\ nth_error (rk_names k) i = Some (q_name q).

Lemma nth_len : forall A (l : list A) n, length l = n -> forall i d, (i < n)%nat -> nth_error l i = Some (nth i l d).
Proof. intros A l n H i d Hi. apply nth_error_nth'. lia. Qed.
Lemma map_seq_nth : forall A B (f : A -> B) (l : list A) n d, length l = n -> map (fun i => f (nth i l d)) (seq 0 n) = map f l.
Proof. intros A B f l n d <-. rewrite <- (map_nth_seq _ d l) at 2. rewrite map_map. reflexivity. Qed.

Lemma step_defined : forall k d Q, kind_ok lo hi k -> defined k = true -> aligned d Q ->
  exists d' Q', roi_data_step lo hi (Ok d) k = Ok d' /\ aligned d' (Q ++ Q') /\ Forall (quad_of k) Q' /\
    map q_name Q' = rk_names k /\ rd_undefined d' = rd_undefined d /\ rd_undefined_params d' = rd_undefined_params d.
Proof.
  intros k d Q [Hl Hp] Hd (A1 & A2 & A3 & A4). unfold defined in Hd. unfold roi_data_step. cbn [rbind].
  destruct (rk_prior k lo) as [a|] eqn:Ea; [|discriminate]. destruct (rk_prior k hi) as [b|] eqn:Eb; [|discriminate].
  destruct (Hp a b eq_refl eq_refl) as [Pa Pb].
  destruct (broadcast_lemma _ _ _ Pa) as (a' & -> & La & Va). destruct (broadcast_lemma _ _ _ Pb) as (b' & -> & Lb & Vb). cbn [rbind].
  set (n := length (rk_names k)) in *.
  set (Q' := map (fun i => mkQuad (nth i a' (Fin 0)) (nth i b' (Fin 0)) (mean (nth i (rk_draws k) [])) (nth i (rk_names k) ""%string)) (seq 0 n)).
  assert (N : map q_name Q' = rk_names k) by (unfold Q'; rewrite map_map; cbn [q_name]; apply map_nth_seq).
  eexists. exists Q'. split; [reflexivity|]. cbn [rd_undefined rd_undefined_params].
  split; [|split; [|auto]].
  - unfold aligned. cbn [rd_lo rd_hi rd_means rd_names]. rewrite !map_app, A1, A2, A3, A4, N. unfold Q'. rewrite !map_map. cbn [q_lo q_hi q_mean].
    rewrite (map_seq_nth _ _ (fun v => v) a' n (Fin 0) La), (map_seq_nth _ _ (fun v => v) b' n (Fin 0) Lb), !map_id,
      (map_seq_nth _ _ mean (rk_draws k) n [] Hl). auto.
  - apply Forall_forall. intros q Hq. unfold Q' in Hq. apply in_map_iff in Hq. destruct Hq as (i & <- & Hi). apply in_seq in Hi.
    exists i, a, b, (nth i (rk_draws k) []). cbn [q_lo q_hi q_mean q_name].
    split; [exact Ea|]. split; [exact Eb|]. split; [apply Va, (nth_len _ _ n); [exact La|lia]|].
    split; [apply Vb, (nth_len _ _ n); [exact Lb|lia]|]. split; [apply (nth_len _ _ n); [exact Hl|lia]|].
    split; [reflexivity|]. apply (nth_len _ _ n); [reflexivity|lia].
Qed.
Lemma step_undefined : forall k d, defined k = false ->
  roi_data_step lo hi (Ok d) k = Ok (mkRoiData (rd_lo d) (rd_hi d) (rd_means d) (rd_names d)
                  (rd_undefined d ++ rk_names k) (S (rd_undefined_params d))).
Proof.
  intros k d H. unfold defined in H. unfold roi_data_step. cbn [rbind].
  destruct (rk_prior k lo); [|reflexivity]. destruct (rk_prior k hi); [discriminate|reflexivity].
Qed.
Lemma data_lemma : forall ks d Q, Forall (kind_ok lo hi) ks -> aligned d Q ->
  exists d' Q', fold_left (roi_data_step lo hi) ks (Ok d) = Ok d' /\ aligned d' (Q ++ Q') /\
    Forall (fun q => exists k, In k ks /\ quad_of k q) Q' /\
    map q_name Q' = concat (map rk_names (filter defined ks)) /\
    rd_undefined d' = rd_undefined d ++ concat (map rk_names (filter (fun k => negb (defined k)) ks)) /\
    rd_undefined_params d' = (rd_undefined_params d + length (filter (fun k => negb (defined k)) ks))%nat.
Proof.
  induction ks as [|k ks IH]; intros d Q Hk HA; cbn [fold_left filter map concat length].
  - exists d, []. rewrite !app_nil_r, Nat.add_0_r. auto 10.
  - inversion Hk as [|? ? K1 K2]; subst. destruct (defined k) eqn:Hd; cbn [negb map concat length].
    + destruct (step_defined k d Q K1 Hd HA) as (d1 & Q1 & -> & A1 & F1 & N1 & U1 & P1).
      destruct (IH d1 (Q ++ Q1) K2 A1) as (d2 & Q2 & -> & A2 & F2 & N2 & U2 & P2).
      exists d2, (Q1 ++ Q2). split; [reflexivity|]. rewrite app_assoc. split; [exact A2|]. split.
      { apply Forall_app. split.
        - eapply Forall_impl; [|exact F1]. intros q Hq. exists k. split; [left; reflexivity|exact Hq].
        - eapply Forall_impl; [|exact F2]. intros q (k' & Hin & Hq). exists k'. split; [right; exact Hin|exact Hq]. }
      rewrite map_app, N1, N2, U2, U1, P2, P1. auto.
    + rewrite (step_undefined k d Hd).
      destruct (IH (mkRoiData (rd_lo d) (rd_hi d) (rd_means d) (rd_names d) (rd_undefined d ++ rk_names k) (S (rd_undefined_params d))) Q K2 HA)
        as (d2 & Q2 & -> & A2 & F2 & N2 & U2 & P2).
      exists d2, Q2. split; [reflexivity|]. split; [exact A2|]. split.
      { eapply Forall_impl; [|exact F2]. intros q (k' & Hin & Hq). exists k'. split; [right; exact Hin|exact Hq]. }
      rewrite N2, U2, P2. cbn [rd_undefined rd_undefined_params]. rewrite <- app_assoc. repeat split. lia.
Qed.

(** Names selected by a mask. *)
Lemma select_quads : forall (p : quad -> bool) Q, select (map p Q) (map q_name Q) = map q_name (filter p Q).
Proof.
  intros p Q. unfold select. induction Q as [|q Q IH]; [reflexivity|]. cbn. destruct (p q); cbn; rewrite IH; reflexivity.
Qed.
Definition quad_inf (q : quad) := is_inf (q_lo q) || is_inf (q_hi q).
Definition quad_low (q : quad) := ext_lt (Fin (q_mean q)) (q_lo q).
Definition quad_high (q : quad) := ext_lt (q_hi q) (Fin (q_mean q)).
Lemma combine_proj : forall A B (f : quad -> A) (g : quad -> B) Q, combine (map f Q) (map g Q) = map (fun q => (f q, g q)) Q.
Proof. intros. apply combine_map2. Qed.
Lemma channel_lists : forall d Q, aligned d Q ->
  inf_channels d = map q_name (filter quad_inf Q) /\ low_channels d = map q_name (filter quad_low Q) /\
  high_channels d = map q_name (filter quad_high Q).
Proof.
  intros d Q (A1 & A2 & A3 & A4). unfold inf_channels, low_channels, high_channels. rewrite A1, A2, A3, A4.
  rewrite !combine_proj, !map_map. cbn [fst snd].
  split; [apply (select_quads quad_inf)|]. split; [apply (select_quads quad_low)|apply (select_quads quad_high)].
Qed.
Lemma mem_filter : forall (p : quad -> bool) Q q, NoDup (map q_name Q) -> In q Q ->
  mem (q_name q) (map q_name (filter p Q)) = p q.
Proof.
  intros p Q q Hn Hq. apply eq_true_iff_eq. rewrite <- in_dec_mem.
  destruct (in_dec string_dec (q_name q) (map q_name (filter p Q))) as [H|H].
  - split; [|reflexivity]. intros _. apply in_map_iff in H. destruct H as (q' & E & H). apply filter_In in H. destruct H as [H Hp].
    assert (q' = q); [|subst; exact Hp]. clear -Hn Hq H E. induction Q as [|u Q IH]; [destruct Hq|]. cbn in Hn. inversion Hn as [|? ? N1 N2]; subst.
    destruct Hq as [->|Hq], H as [->|H]; auto.
    + elim N1. rewrite <- E. apply in_map. exact H.
    + elim N1. rewrite E. apply in_map. exact Hq.
  - split; [discriminate|]. intros Hp. elim H. apply in_map, filter_In. auto.
Qed.
Definition quad_case (q : quad) : roi_case :=
  if quad_inf q then QuantileInf else if quad_low q then RoiLow else if quad_high q then RoiHigh else RoiPass.
Lemma results_quads : forall d Q, aligned d Q -> NoDup (map q_name Q) ->
  roi_channel_results d = map (mkRoiChannel QuantileNotDefined) (rd_undefined d) ++ map (fun q => mkRoiChannel (quad_case q) (q_name q)) Q.
Proof.
  intros d Q HA Hn. destruct (channel_lists d Q HA) as (E1 & E2 & E3). unfold roi_channel_results. f_equal.
  destruct HA as (_ & _ & _ & A4). rewrite A4, map_map. apply map_ext_in. intros q Hq. f_equal.
  unfold roi_case_of, quad_case. rewrite E1, E2, E3, !mem_filter by assumption. reflexivity.
Qed.
Lemma quad_case_spec : forall k q, quad_of k q -> exists i, nth_error (rk_names k) i = Some (q_name q) /\ is_roi_case lo hi k i (quad_case q).
Proof.
  intros k q (i & a & b & dr & Ea & Eb & Oa & Ob & Ed & Em & En). exists i. split; [exact En|].
  unfold quad_case. destruct (quad_inf q) eqn:E1.
  - cbn [is_roi_case]. exists a, b, (q_lo q), (q_hi q), dr. repeat (split; [assumption|]).
    unfold quad_inf in E1. apply orb_true_iff in E1. destruct E1 as [E1|E1]; apply is_inf_infinite in E1; auto.
  - unfold quad_inf in E1. apply orb_false_iff in E1. destruct E1 as [I1 I2].
    assert (N1 : ~ infinite (q_lo q)) by (rewrite <- is_inf_infinite; congruence).
    assert (N2 : ~ infinite (q_hi q)) by (rewrite <- is_inf_infinite; congruence).
    destruct (quad_low q) eqn:E2; unfold quad_low in E2; rewrite Em in E2.
    + apply lt_fin_below in E2. cbn [is_roi_case]. exists a, b, (q_lo q), (q_hi q), dr. auto 10.
    + assert (N3 : ~ below (average dr) (q_lo q)) by (rewrite <- lt_fin_below; congruence).
      destruct (quad_high q) eqn:E3; unfold quad_high in E3; rewrite Em in E3.
      * apply lt_fin_above in E3. cbn [is_roi_case]. exists a, b, (q_lo q), (q_hi q), dr. auto 12.
      * assert (N4 : ~ above (average dr) (q_hi q)) by (rewrite <- lt_fin_above; congruence).
        cbn [is_roi_case]. exists a, b, (q_lo q), (q_hi q), dr. auto 12.
Qed.

(** A name belongs to one kind. *)
Lemma nodup_kind : forall (ks : list roi_kind) k k' n, NoDup (concat (map rk_names ks)) -> In k ks -> In k' ks ->
  In n (rk_names k) -> In n (rk_names k') -> k = k'.
Proof.
  induction ks as [|u ks IH]; intros k k' n Hn Hk Hk' H H'; [destruct Hk|]. cbn in Hn.
  assert (D : forall v, In v ks -> In n (rk_names v) -> In n (rk_names u) -> False).
  { intros v Hv Hnv Hnu. assert (Hc : In n (concat (map rk_names ks))) by (apply in_concat; exists (rk_names v); split; [apply in_map; exact Hv|exact Hnv]).
    clear -Hn Hnu Hc. induction (rk_names u) as [|m l IHl]; [destruct Hnu|]. cbn in Hn. inversion Hn as [|? ? N1 N2]; subst.
    destruct Hnu as [->|Hnu]; [apply N1; apply in_or_app; right; exact Hc|auto]. }
  destruct Hk as [->|Hk], Hk' as [->|Hk']; auto.
  - elim (D k' Hk' H' H).
  - elim (D k Hk H H').
  - apply (IH k k' n); auto. clear -Hn. induction (rk_names u); [exact Hn|]. inversion Hn; auto.
Qed.
Lemma nodup_one : forall (ks : list roi_kind) k, NoDup (concat (map rk_names ks)) -> In k ks -> NoDup (rk_names k).
Proof.
  induction ks as [|u ks IH]; intros k Hn Hk; [destruct Hk|]. cbn in Hn. destruct Hk as [->|Hk].
  - clear -Hn. induction (rk_names k); [constructor|]. cbn in Hn. inversion Hn; subst. constructor; [|auto]. intros F. apply H1, in_or_app. auto.
  - apply IH; [|exact Hk]. clear -Hn. induction (rk_names u); [exact Hn|]. inversion Hn; auto.
Qed.
Lemma split_kinds : forall (ks : list roi_kind), Permutation (concat (map rk_names (filter (fun k => negb (defined k)) ks)) ++ concat (map rk_names (filter defined ks)))
  (concat (map rk_names ks)).
Proof.
  induction ks as [|k ks IH]; [constructor|]. cbn [filter map concat]. destruct (defined k); cbn [negb map concat].
  - rewrite Permutation_app_swap_app. apply Permutation_app_head. exact IH.
  - rewrite <- app_assoc. apply Permutation_app_head. exact IH.
Qed.

Lemma roi_lemma : forall t ks, Forall (kind_ok lo hi) ks -> Forall (ordered lo hi) ks -> NoDup (concat (map rk_names ks)) ->
  exists res, roi_consistency_check t lo hi ks = Ok res /\
    Permutation (map rc_name (ro_channels res)) (concat (map rk_names ks)) /\
    (forall k i name c, In k ks -> nth_error (rk_names k) i = Some name -> In (mkRoiChannel c name) (ro_channels res) ->
       is_roi_case lo hi k i c) /\
    (ro_case res = PASS <->
       (forall k, In k ks -> ~ undefined lo hi k) /\
       (forall name, ~ In (mkRoiChannel QuantileInf name) (ro_channels res)) /\
       tolerated t (length (filter in_tail (ro_channels res))) (length (ro_channels res))) /\
    (ro_case res = PASS \/ ro_case res = REVIEW).
Proof.
  intros t ks Hk Ho Hn. unfold roi_consistency_check, get_roi_data.
  destruct (data_lemma ks (mkRoiData [] [] [] [] [] 0) [] Hk) as (d & Q & E & HA & HF & HN & HU & HP); [repeat split|].
  cbn [app rd_undefined rd_undefined_params Nat.add] in HA, HU, HP. rewrite E. cbn [rbind]. clear E.
  pose proof (split_kinds ks) as SP.
  assert (NQ : NoDup (map q_name Q)).
  { rewrite HN. apply Permutation_sym in SP. pose proof (Permutation_NoDup SP Hn) as N. clear -N.
    induction (concat (map rk_names (filter (fun k => negb (defined k)) ks))); [exact N|]. inversion N; auto. }
  destruct (channel_lists d Q HA) as (E1 & E2 & E3).
  eexists. split; [reflexivity|]. cbn [ro_channels ro_case]. rewrite (results_quads d Q HA NQ).
  assert (UndefIff : forall k, defined k = false <-> undefined lo hi k).
  { intros k. unfold defined, undefined. destruct (rk_prior k lo), (rk_prior k hi); split; intros H; auto; try discriminate. destruct H; discriminate. }
  refine (conj _ (conj _ (conj _ _))).
  - rewrite map_app, !map_map. cbn [rc_name]. rewrite map_id, HU. change (map (fun q : quad => q_name q) Q) with (map q_name Q). rewrite HN. exact SP.
  - intros k i name c Hin Hi Hc. apply in_app_or in Hc. destruct Hc as [Hc|Hc].
    + apply in_map_iff in Hc. destruct Hc as (n' & Ec & Hc). inversion Ec; subst n' c. clear Ec. cbn [is_roi_case].
      rewrite HU in Hc. apply in_concat in Hc. destruct Hc as (l & Hl & Hc). apply in_map_iff in Hl. destruct Hl as (k' & <- & Hk').
      apply filter_In in Hk'. destruct Hk' as [Hk' Hd]. assert (k = k') by (eapply nodup_kind; eauto; eapply nth_error_In; eauto). subst k'.
      apply UndefIff. destruct (defined k); [discriminate|reflexivity].
    + apply in_map_iff in Hc. destruct Hc as (q & Ec & Hq). inversion Ec; subst name c. clear Ec.
      rewrite Forall_forall in HF. destruct (HF q Hq) as (k' & Hk' & Hqk). destruct (quad_case_spec k' q Hqk) as (i' & Hi' & Hcase).
      assert (k = k') by (eapply (nodup_kind ks k k' (q_name q)); eauto; eapply nth_error_In; eauto). subst k'.
      assert (i = i'). { refine (proj1 (NoDup_nth_error (rk_names k)) (nodup_one ks k Hn Hin) i i' _ _); [apply nth_error_Some; congruence|congruence]. }
      subst i'. exact Hcase.
  - rewrite E1, E2, E3, !map_length. set (nu := rd_undefined_params d) in *.
    assert (IffU : nu = 0%nat <-> forall k, In k ks -> ~ undefined lo hi k).
    { rewrite HP, length_zero_iff_nil. split.
      - intros Z k Hin Hu. apply UndefIff in Hu. assert (F : In k (filter (fun k => negb (defined k)) ks)) by (apply filter_In; rewrite Hu; auto). rewrite Z in F. destruct F.
      - intros H. destruct (filter (fun k => negb (defined k)) ks) as [|k l] eqn:Ef; [reflexivity|]. assert (F : In k (k :: l)) by (left; reflexivity).
        rewrite <- Ef in F. apply filter_In in F. destruct F as [F1 F2]. elim (H k F1). apply UndefIff. destruct (defined k); [discriminate|reflexivity]. }
    assert (IffI : length (filter quad_inf Q) = 0%nat <-> forall name, ~ In (mkRoiChannel QuantileInf name)
        (map (mkRoiChannel QuantileNotDefined) (rd_undefined d) ++ map (fun q => mkRoiChannel (quad_case q) (q_name q)) Q)).
    { rewrite length_zero_iff_nil. split.
      - intros Z name Hin. apply in_app_or in Hin. destruct Hin as [Hin|Hin]; apply in_map_iff in Hin.
        + destruct Hin as (? & F & _). discriminate.
        + destruct Hin as (q & F & Hq). assert (C : quad_case q = QuantileInf) by congruence. unfold quad_case in C.
          destruct (quad_inf q) eqn:Eq; [|destruct (quad_low q), (quad_high q); discriminate].
          assert (G : In q (filter quad_inf Q)) by (apply filter_In; auto). rewrite Z in G. destruct G.
      - intros H. destruct (filter quad_inf Q) as [|q l] eqn:Ef; [reflexivity|]. assert (F : In q (q :: l)) by (left; reflexivity).
        rewrite <- Ef in F. apply filter_In in F. destruct F as [F1 F2]. elim (H (q_name q)). apply in_or_app. right. apply in_map_iff.
        exists q. split; [|exact F1]. unfold quad_case. rewrite F2. reflexivity. }
    assert (Cnt : nu = 0%nat -> length (filter quad_inf Q) = 0%nat ->
      length (filter in_tail (map (mkRoiChannel QuantileNotDefined) (rd_undefined d) ++ map (fun q => mkRoiChannel (quad_case q) (q_name q)) Q))
        = (length (filter quad_low Q) + length (filter quad_high Q))%nat /\
      length (map (mkRoiChannel QuantileNotDefined) (rd_undefined d) ++ map (fun q => mkRoiChannel (quad_case q) (q_name q)) Q) = length (rd_names d)).
    { intros Z1 Z2. assert (U0 : rd_undefined d = []).
      { rewrite HU. rewrite HP in Z1. apply length_zero_iff_nil in Z1. rewrite Z1. reflexivity. }
      rewrite U0. cbn [map app]. split.
      - apply length_zero_iff_nil in Z2.
        assert (Ex : forall q, In q Q -> quad_inf q = false /\ (quad_low q && quad_high q) = false).
        { intros q Hq. split.
          - destruct (quad_inf q) eqn:Eq; [|reflexivity]. assert (G : In q (filter quad_inf Q)) by (apply filter_In; auto). rewrite Z2 in G. destruct G.
          - destruct (quad_low q && quad_high q) eqn:Eq; [|reflexivity]. apply andb_true_iff in Eq. destruct Eq as [Q1 Q2].
            apply lt_fin_below in Q1. apply lt_fin_above in Q2. rewrite Forall_forall in HF, Ho. destruct (HF q Hq) as (k & Hin & i & a & b & dr & Ea & Eb & Oa & Ob & _).
            elim (Ho k Hin a b i _ _ (q_mean q) Ea Eb Oa Ob). auto. }
        clear -Ex. induction Q as [|q Q IH]; [reflexivity|]. cbn [map filter].
        assert (IH' : length (filter in_tail (map (fun q => mkRoiChannel (quad_case q) (q_name q)) Q)) = (length (filter quad_low Q) + length (filter quad_high Q))%nat)
          by (apply IH; intros; apply Ex; right; assumption).
        destruct (Ex q (or_introl eq_refl)) as [X1 X2]. unfold in_tail at 1. cbn [rc_case]. unfold quad_case at 1. rewrite X1.
        destruct (quad_low q); [destruct (quad_high q); [discriminate|]|destruct (quad_high q)]; cbn [length]; lia.
      - destruct HA as (_ & _ & _ & ->). rewrite !map_length. reflexivity. }
    destruct (Nat.eqb nu 0) eqn:Eu; cbn [negb orb].
    + apply Nat.eqb_eq in Eu. destruct (Nat.eqb (length (filter quad_inf Q)) 0) eqn:Ei; cbn [negb orb].
      * apply Nat.eqb_eq in Ei. destruct (Cnt Eu Ei) as [C1 C2]. rewrite C1, C2.
        set (f := (length (filter quad_low Q) + length (filter quad_high Q))%nat) in *.
        pose proof (tolerance_lemma t f (length (rd_names d))) as TL. pose proof (proj1 IffU Eu) as Eu'. pose proof (proj1 IffI Ei) as Ei'. clear Eu Ei. rename Eu' into Eu. rename Ei' into Ei.
        destruct (Nat.eqb f 0) eqn:Ef.
        -- apply Nat.eqb_eq in Ef. split; [|reflexivity]. intros _. split; [exact Eu|]. split; [exact Ei|]. left. exact Ef.
        -- destruct (within_tolerance t f (length (rd_names d))).
           ++ split; [|reflexivity]. intros _. split; [exact Eu|]. split; [exact Ei|]. apply TL. reflexivity.
           ++ split; [discriminate|]. intros (_ & _ & T). apply TL in T. discriminate.
      * apply Nat.eqb_neq in Ei. split; [discriminate|]. intros (_ & H & _). elim Ei. apply IffI. exact H.
    + apply Nat.eqb_neq in Eu. split; [discriminate|]. intros (H & _). elim Eu. apply IffU. exact H.
  - destruct (negb _ || _); [auto|]. destruct (Nat.eqb _ 0); [auto|]. destruct (within_tolerance _ _ _); auto.
Qed.
End Roi.

(** ** Prior-posterior shift *)
Lemma quantile_unique : forall l q v w, is_quantile l q v -> is_quantile l q w -> v = w.
Proof.
  intros l q v w (s & i & f & P & S & Hi & Hf & E & Ev) (s' & i' & f' & P' & S' & Hi' & Hf' & E' & Ew).
  assert (s = s') by (apply sorted_unique; auto; eapply Permutation_trans; [apply Permutation_sym|]; eassumption). subst s'.
  assert (i = i').
  { rewrite E in E'. destruct (lt_eq_lt_dec i i') as [[L|L]|L]; [|exact L|]; exfalso; apply lt_INR in L as L'; apply le_INR in L;
      rewrite S_INR in L; lra. }
  subst i'. assert (f = f') by lra. subst f'. congruence.
Qed.
Lemma share_unique : forall A (P : A -> Prop) l p q, share P l p -> share P l q -> p = q.
Proof.
  intros A P l p q (s & H & ->) (s' & H' & ->). assert (E : filter s l = filter s' l); [|rewrite E; reflexivity].
  apply filter_ext_in. intros a Ha. pose proof (H a Ha). pose proof (H' a Ha). destruct (s a), (s' a); try reflexivity; [symmetry|]; tauto.
Qed.

Section Shift.
Variables (alpha : R) (boots : list (list nat)).
Hypothesis Hb : boots <> [].
Hypothesis He : Forall (fun cols => cols <> []) boots.

Definition stat_shifted (stat : list R -> R -> Prop) (l : list ext) (i : nat) (d : list R) : Prop :=
  exists q (v : list nat -> R) up down, of_channel l i q /\
    (forall cols, In cols boots -> stat (resampled cols d) (v cols)) /\
    share (fun cols => above (v cols) q) boots up /\ share (fun cols => below (v cols) q) boots down /\
    (up < alpha \/ down < alpha).

Lemma shares_lemma : forall (f : list nat -> R) q,
  shares_shift alpha (map f boots) q = true <->
  exists up down, share (fun c => above (f c) q) boots up /\ share (fun c => below (f c) q) boots down /\ (up < alpha \/ down < alpha).
Proof.
  intros f q. unfold shares_shift. destruct (map f boots) as [|s0 l0] eqn:Em; [destruct boots; [congruence|discriminate]|]. rewrite <- Em. clear s0 l0 Em.
  rewrite !map_map. rewrite (mean_indicator _ (fun c => ext_lt q (Fin (f c)))), (mean_indicator _ (fun c => ext_lt (Fin (f c)) q)).
  rewrite orb_true_iff, !rltb_true.
  assert (U : share (fun c => above (f c) q) boots (INR (length (filter (fun c => ext_lt q (Fin (f c))) boots)) / INR (length boots)))
    by (apply share_intro; intros; apply lt_fin_above).
  assert (D : share (fun c => below (f c) q) boots (INR (length (filter (fun c => ext_lt (Fin (f c)) q) boots)) / INR (length boots)))
    by (apply share_intro; intros; apply lt_fin_below).
  split.
  - intros H. eexists _, _. split; [exact U|]. split; [exact D|exact H].
  - intros (up & down & Hu & Hd & H). rewrite (share_unique _ _ _ _ _ U Hu), (share_unique _ _ _ _ _ D Hd). exact H.
Qed.

Lemma f2_length : forall A B (P : A -> B -> Prop) l1 l2, Forall2 P l1 l2 -> length l1 = length l2.
Proof. intros A B P l1 l2 F. induction F; cbn; congruence. Qed.
Lemma nth_pair : forall A B (a : list A) (b : list B) i x y, nth_error a i = Some x -> nth_error b i = Some y ->
  nth_error (combine a b) i = Some (x, y).
Proof. induction a as [|u a IH]; intros [|v b] [|i] x y H H'; try discriminate; cbn in *; [congruence|apply IH; assumption]. Qed.
Lemma stat_lemma : forall (stat : list R -> result R) (statP : list R -> R -> Prop) p draws,
  (forall l, l <> [] -> exists v, stat l = Ok v /\ statP l v) ->
  (forall l v w, statP l v -> statP l w -> v = w) ->
  per_channel (length draws) p ->
  exists l, stat_shift alpha boots stat (Some p) draws = Ok l /\ length l = length draws /\
    forall i d, nth_error draws i = Some d -> (nth i l false = true <-> stat_shifted statP p i d).
Proof.
  intros stat statP p draws Hs Hu Hp. unfold stat_shift. destruct (broadcast_lemma _ _ _ Hp) as (p' & -> & Lp & Vp). cbn [rbind].
  destruct (mapM_forall2 _ _ (fun q : ext * list R => rbind (mapM (fun cols => stat (resample cols (snd q))) boots) (fun stats => Ok (shares_shift alpha stats (fst q))))
    (fun q b => b = true <-> exists (v : list nat -> R) up down,
       (forall cols, In cols boots -> statP (resampled cols (snd q)) (v cols)) /\
       share (fun cols => above (v cols) (fst q)) boots up /\ share (fun cols => below (v cols) (fst q)) boots down /\ (up < alpha \/ down < alpha))
    (combine p' draws)) as (l & El & Fl).
  { intros [q d] _. cbn [fst snd].
    set (f := fun cols => match stat (resample cols d) with Ok v => v | Err _ => 0 end).
    assert (Hf : forall cols, In cols boots -> stat (resample cols d) = Ok (f cols) /\ statP (resampled cols d) (f cols)).
    { intros cols Hc. rewrite Forall_forall in He. specialize (He cols Hc). destruct (Hs (resample cols d)) as (v & Ev & Pv).
      - unfold resample. destruct cols; [congruence|discriminate].
      - unfold f. rewrite Ev. split; [reflexivity|exact Pv]. }
    assert (Em : mapM (fun cols => stat (resample cols d)) boots = Ok (map f boots)).
    { clear Hb He. induction boots as [|c b IH]; [reflexivity|]. cbn [mapM map]. rewrite (proj1 (Hf c (or_introl eq_refl))). cbn [rbind].
      rewrite IH by (intros; apply Hf; right; assumption). reflexivity. }
    rewrite Em. cbn [rbind]. eexists. split; [reflexivity|]. rewrite shares_lemma. split.
    - intros (up & down & H1 & H2 & H3). exists f, up, down. split; [intros; apply Hf; assumption|]. auto.
    - intros (v & up & down & Hv & H1 & H2 & H3). exists up, down.
      assert (Eq : forall cols, In cols boots -> v cols = f cols) by (intros cols Hc; exact (Hu _ _ _ (Hv cols Hc) (proj2 (Hf cols Hc)))).
      assert (Sh : forall (P : R -> Prop) r, share (fun cols => P (v cols)) boots r -> share (fun cols => P (f cols)) boots r).
      { intros P r (s & Hsel & ->). exists s. split; [|reflexivity]. intros a Ha. rewrite <- (Eq a Ha). apply Hsel. exact Ha. }
      split; [apply (Sh (fun r => above r q)); exact H1|]. split; [apply (Sh (fun r => below r q)); exact H2|exact H3]. }
  exists l. split; [exact El|]. assert (Len : length l = length draws).
  { pose proof (f2_length _ _ _ _ _ Fl) as FL. rewrite combine_length, Lp, Nat.min_id in FL. symmetry. exact FL. }
  split; [exact Len|]. intros i d Hd. assert (Li : (i < length draws)%nat) by (apply nth_error_Some; congruence).
  assert (Ep : nth_error p' i = Some (nth i p' (Fin 0))) by (apply nth_error_nth'; lia).
  assert (Fi : forall l1 l2 i a, Forall2 (fun q b => b = true <-> exists (v : list nat -> R) up down,
       (forall cols, In cols boots -> statP (resampled cols (snd q)) (v cols)) /\
       share (fun cols => above (v cols) (fst q)) boots up /\ share (fun cols => below (v cols) (fst q)) boots down /\ (up < alpha \/ down < alpha)) l1 l2 ->
     nth_error l1 i = Some a -> (nth i l2 false = true <-> exists (v : list nat -> R) up down,
       (forall cols, In cols boots -> statP (resampled cols (snd a)) (v cols)) /\
       share (fun cols => above (v cols) (fst a)) boots up /\ share (fun cols => below (v cols) (fst a)) boots down /\ (up < alpha \/ down < alpha))).
  { intros l1 l2 j a F. revert j. induction F as [|u w l1 l2 H F IH]; intros [|j] E; try discriminate; cbn in E |- *; [|apply IH; exact E].
    assert (u = a) by congruence. subst u. exact H. }
  rewrite (Fi _ _ _ _ Fl (nth_pair _ _ _ _ _ _ _ Ep Hd)). cbn [fst snd]. pose proof (Vp i _ Ep) as Oq. split.
  - intros (v & up & down & H). exists (nth i p' (Fin 0)), v, up, down. tauto.
  - intros (q & v & up & down & Oq' & H). rewrite (of_channel_unique _ _ _ _ _ Oq Oq'). exists v, up, down. exact H.
Qed.

Lemma opt_stat_lemma : forall stat statP p draws,
  (forall l, l <> [] -> exists v, stat l = Ok v /\ statP l v) ->
  (forall l v w, statP l v -> statP l w -> v = w) ->
  (forall l, p = Some l -> per_channel (length draws) l) ->
  exists l, stat_shift alpha boots stat p draws = Ok l /\ length l = length draws /\
    forall i d, nth_error draws i = Some d -> (nth i l false = true <-> exists q, p = Some q /\ stat_shifted statP q i d).
Proof.
  intros stat statP [p|] draws Hs Hu Hp.
  - destruct (stat_lemma stat statP p draws Hs Hu (Hp p eq_refl)) as (l & E & L & H). exists l. split; [exact E|]. split; [exact L|].
    intros i d Hd. rewrite (H i d Hd). split; [intros S; exists p; auto|]. intros (q & Eq & S). inversion Eq; subst. exact S.
  - exists (repeat false (length draws)). split; [reflexivity|]. split; [apply repeat_length|]. intros i d Hd.
    split; [|intros (q & F & _); discriminate]. intros H.
    assert (Li : (i < length draws)%nat) by (apply nth_error_Some; congruence).
    rewrite nth_repeat in H. discriminate.
Qed.

Lemma any_shift_lemma : forall p draws, (forall l stat, In (Some l, stat) (prior_of p) -> per_channel (length draws) l) ->
  exists l, any_shift alpha boots p draws = Ok l /\ length l = length draws /\
    forall i d, nth_error draws i = Some d -> (nth i l false = true <-> shifted alpha boots p i d).
Proof.
  intros p draws Hp.
  assert (Q : forall r, 0 <= r <= 1 -> forall l, l <> [] -> exists v, quantile l r = Ok v /\ is_quantile l r v).
  { intros r Hr l Hl. eexists. rewrite (quantile_runs l r Hl Hr). split; [reflexivity|]. apply quantile_spec. apply quantile_runs; assumption. }
  assert (P1 : forall l, ps_mean p = Some l -> per_channel (length draws) l) by (intros l E; eapply Hp; left; rewrite E; reflexivity).
  assert (P2 : forall l, ps_median p = Some l -> per_channel (length draws) l) by (intros l E; eapply Hp; right; left; rewrite E; reflexivity).
  assert (P3 : forall l, ps_q1 p = Some l -> per_channel (length draws) l) by (intros l E; eapply Hp; right; right; left; rewrite E; reflexivity).
  assert (P4 : forall l, ps_q3 p = Some l -> per_channel (length draws) l) by (intros l E; eapply Hp; right; right; right; left; rewrite E; reflexivity).
  destruct (opt_stat_lemma (fun l => Ok (mean l)) (fun l v => v = average l) (ps_mean p) draws) as (a & Ea & La & Va);
    [intros l _; eexists; split; reflexivity|congruence|exact P1|].
  destruct (opt_stat_lemma (fun l => quantile l (1 / 2)) (fun l v => is_quantile l (1 / 2) v) (ps_median p) draws) as (b & Eb & Lb & Vb);
    [apply Q; lra|intros; eapply quantile_unique; eassumption|exact P2|].
  destruct (opt_stat_lemma (fun l => quantile l (1 / 4)) (fun l v => is_quantile l (1 / 4) v) (ps_q1 p) draws) as (c & Ec & Lc & Vc);
    [apply Q; lra|intros; eapply quantile_unique; eassumption|exact P3|].
  destruct (opt_stat_lemma (fun l => quantile l (3 / 4)) (fun l v => is_quantile l (3 / 4) v) (ps_q3 p) draws) as (d & Ed & Ld & Vd);
    [apply Q; lra|intros; eapply quantile_unique; eassumption|exact P4|].
  eexists. unfold any_shift. rewrite Ea. cbn [rbind]. rewrite Eb. cbn [rbind]. rewrite Ec. cbn [rbind]. rewrite Ed. cbn [rbind].
  split; [reflexivity|]. split; [rewrite map_length, seq_length; reflexivity|]. intros i u Hu.
  assert (Li : (i < length draws)%nat) by (apply nth_error_Some; congruence).
  set (F := fun i => nth i a false || nth i b false || nth i c false || nth i d false).
  rewrite (nth_indep _ false (F 0%nat)) by (rewrite map_length, seq_length; exact Li). rewrite (map_nth F), seq_nth by exact Li. unfold F. cbn [Nat.add].
  rewrite !orb_true_iff, (Va i u Hu), (Vb i u Hu), (Vc i u Hu), (Vd i u Hu).
  assert (T : forall stat l, In (Some l, stat) (prior_of p) -> stat_shifted stat l i u -> shifted alpha boots p i u).
  { intros stat l Hin (q & v & up & down & H). exists l, stat, q, v, up, down. tauto. }
  split.
  - intros [[[(q & E & S)|(q & E & S)]|(q & E & S)]|(q & E & S)]; eapply T; try exact S; unfold prior_of; rewrite E; cbn; auto.
  - intros (l & stat & q & v & up & down & Hin & Ho & Hv & Hup & Hd & Hlt).
    assert (S : stat_shifted stat l i u) by (exists q, v, up, down; auto).
    unfold prior_of in Hin. destruct Hin as [E|[E|[E|[E|[]]]]]; injection E as E1 E2; subst stat.
    + left. left. left. exists l. auto.
    + left. left. right. exists l. auto.
    + left. right. exists l. auto.
    + right. exists l. auto.
Qed.
End Shift.

Lemma nth_combine_l : forall A B (a : list A) (b : list B) i x y d, nth_error (combine a b) i = Some (x, y) ->
  nth_error a i = Some x /\ nth_error b i = Some y /\ nth i b d = y.
Proof.
  induction a as [|u a IH]; intros [|v b] [|i] x y d H; try discriminate; cbn in *; [inversion H; auto|apply IH; exact H].
Qed.
Lemma map_fst_combine : forall A B (a : list A) (b : list B), length a = length b -> map fst (combine a b) = a.
Proof. induction a as [|u a IH]; intros [|v b] H; try discriminate; cbn in *; [reflexivity|]. f_equal. apply IH. lia. Qed.

Lemma shift_lemma : forall t alpha ks, (forall k, In k ks -> exists draws, shift_ok k draws) ->
  exists res ls, prior_posterior_shift_check t alpha ks = Ok res /\
    sh_channels res = concat ls /\ Forall2 (kind_result alpha) ks ls /\
    sh_no_shift res = map fst (filter (fun p => negb (snd p)) (sh_channels res)) /\
    (sh_case res = PASS <-> tolerated t (length (sh_no_shift res)) (length (sh_channels res))) /\
    (sh_case res = PASS \/ sh_case res = REVIEW).
Proof.
  intros t alpha ks H. unfold prior_posterior_shift_check.
  destruct (mapM_forall2 _ _ (shift_kind_results alpha) (kind_result alpha) ks) as (ls & -> & HF).
  { intros k Hk. destruct (H k Hk) as (draws & [E1 E2 E3 E4 E5]). unfold shift_kind_results. rewrite E1.
    destruct (any_shift_lemma alpha (sk_boots k) E4 E5 (sk_prior k) draws) as (l & -> & Ll & Vl); [rewrite E2; exact E3|]. cbn [rbind].
    eexists. split; [reflexivity|]. split; [apply map_fst_combine; lia|]. intros i name b Hi.
    destruct (nth_combine_l _ _ _ _ _ _ _ false Hi) as (N1 & N2 & N3).
    assert (Li : (i < length l)%nat) by (apply nth_error_Some; congruence).
    exists draws, (nth i draws []). split; [exact E1|]. assert (Hd : nth_error draws i = Some (nth i draws [])) by (apply nth_error_nth'; lia).
    split; [exact Hd|]. rewrite <- (Vl i _ Hd), N3. reflexivity. }
  cbn [rbind]. eexists _, ls. split; [reflexivity|]. cbn [sh_channels sh_no_shift sh_case]. split; [reflexivity|]. split; [exact HF|].
  split; [reflexivity|]. set (n := length _). set (c := length _).
  pose proof (tolerance_lemma t n c) as T. destruct (within_tolerance t n c); split; auto.
  - split; [|reflexivity]. intros _. apply T. reflexivity.
  - split; [discriminate|]. intros Q. apply T in Q. discriminate.
Qed.

Lemma shift_missing : forall t alpha ks k, In k ks -> sk_draws k = None ->
  (forall k', In k' ks -> (exists draws, shift_ok k' draws) \/ sk_draws k' = None) ->
  prior_posterior_shift_check t alpha ks = Err KeyError.
Proof.
  intros t alpha ks k Hk Hn H. unfold prior_posterior_shift_check.
  assert (E : mapM (shift_kind_results alpha) ks = Err KeyError); [|rewrite E; reflexivity].
  induction ks as [|u ks IH]; [destruct Hk|]. cbn [mapM].
  destruct (H u (or_introl eq_refl)) as [(draws & [E1 E2 E3 E4 E5])|E].
  - unfold shift_kind_results at 1. rewrite E1.
    destruct (any_shift_lemma alpha (sk_boots u) E4 E5 (sk_prior u) draws) as (l & -> & _); [rewrite E2; exact E3|]. cbn [rbind].
    destruct Hk as [->|Hk]; [congruence|]. rewrite (IH Hk) by (intros; apply H; right; assumption). reflexivity.
  - unfold shift_kind_results at 1. rewrite E. reflexivity.
Qed.
