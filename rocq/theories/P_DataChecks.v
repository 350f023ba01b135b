(** Proofs for C86. *)
From Coq Require Import Reals ZArith List Bool Arith Lia Lra Permutation Sorted.
From Verif Require Import Lib_Sum M_Base M_Transformers P_Transformers M_Stats S_Stats P_Stats M_DataChecks S_DataChecks.
From Verif Require M_Eda.
Import ListNotations.
Local Open Scope R_scope.

Lemma lt_bool_spec : forall a b, lt_bool a b = true <-> a < b.
Proof. intros a b. unfold lt_bool. destruct (Rlt_dec a b); split; intros; auto; try discriminate; contradiction. Qed.
Lemma le_bool_spec : forall a b, le_bool a b = true <-> a <= b.
Proof. intros a b. unfold le_bool. destruct (Rle_dec a b); split; intros; auto; try discriminate; contradiction. Qed.
Lemma zero_spec : forall a, zero a = true <-> a = 0.
Proof. intros a. unfold zero. destruct (Req_EM_T a 0); split; intros; auto; try discriminate; contradiction. Qed.

(** Interpolation at a position given by index and fraction. *)
Lemma interpolate_at : forall s i f, 0 <= f < 1 ->
  interpolate s (INR i + f) = nth i s 0 + (nth (Nat.min (S i) (length s - 1)) s 0 - nth i s 0) * f.
Proof.
  intros s i f H. unfold interpolate. cbv zeta. rewrite (int_part_INR i f H). rewrite Nat2Z.id.
  rewrite <- INR_IZR_INZ. replace (INR i + f - INR i) with f by ring. reflexivity.
Qed.

Lemma is_quantile_quantile : forall l q v, 0 <= q <= 1 -> is_quantile l q v -> quantile l q = Ok v.
Proof.
  intros l q v Hq (s & i & f & P & Ss & Hi & Hf & Hp & Hv).
  assert (Es : sort_values l = s).
  { apply sorted_unique; [apply sort_values_sorted|exact Ss|].
    eapply Permutation_trans; [apply Permutation_sym, sort_values_perm|exact P]. }
  assert (Hl : l <> []). { intros E. subst l. apply Permutation_nil in P. subst s. cbn in Hi. lia. }
  rewrite (quantile_runs l q Hl Hq). f_equal. rewrite Es, Hp, (interpolate_at s i f Hf). rewrite Hv.
  destruct (Nat.eqb_spec i (length s - 1)) as [E|E].
  - replace (Nat.min (S i) (length s - 1)) with i by lia. ring.
  - replace (Nat.min (S i) (length s - 1)) with (S i) by lia. ring.
Qed.
Lemma quantile_of_nil : forall q v, ~ is_quantile [] q v.
Proof. intros q v (s & i & f & P & _ & Hi & _). apply Permutation_nil in P. subst s. cbn in Hi. lia. Qed.

Definition q1_of (l : list R) : R := interpolate (sort_values l) (INR (length l - 1) * (1 / 4)).
Definition q3_of (l : list R) : R := interpolate (sort_values l) (INR (length l - 1) * (3 / 4)).
Lemma bounds_of : forall l, l <> [] ->
  get_outlier_bounds l = Some (q1_of l - 3 / 2 * (q3_of l - q1_of l), q3_of l + 3 / 2 * (q3_of l - q1_of l)).
Proof.
  intros l Hl. unfold get_outlier_bounds. rewrite (quantile_runs l (1/4) Hl) by lra.
  rewrite (quantile_runs l (3/4) Hl) by lra. reflexivity.
Qed.
Lemma outlying_of : forall l x, l <> [] -> (outlying l x <->
  (x < q1_of l - 3 / 2 * (q3_of l - q1_of l) \/ q3_of l + 3 / 2 * (q3_of l - q1_of l) < x)).
Proof.
  intros l x Hl. split.
  - intros (a & b & A & B & H). apply is_quantile_quantile in A; [|lra]. apply is_quantile_quantile in B; [|lra].
    rewrite (quantile_runs l (1/4) Hl) in A by lra. rewrite (quantile_runs l (3/4) Hl) in B by lra.
    unfold q1_of, q3_of. injection A as ->. injection B as ->. exact H.
  - intros H. exists (q1_of l), (q3_of l).
    split; [apply quantile_spec; apply (quantile_runs l (1/4) Hl); lra|].
    split; [apply quantile_spec; apply (quantile_runs l (3/4) Hl); lra|]. exact H.
Qed.
Lemma is_outlier_spec : forall l x, is_outlier l x = true <-> outlying l x.
Proof.
  intros l x. destruct l as [|a l].
  - split.
    + intros H. unfold is_outlier in H.
      replace (get_outlier_bounds []) with (@None (R * R)) in H; [discriminate|].
      unfold get_outlier_bounds, quantile. cbv zeta.
      destruct (Rlt_dec (1/4) 0); [lra|]. destruct (Rlt_dec 1 (1/4)); [lra|]. reflexivity.
    + intros (q & q' & A & _). exfalso. exact (quantile_of_nil _ _ A).
  - rewrite (outlying_of (a :: l) x) by discriminate. unfold is_outlier.
    rewrite (bounds_of (a :: l)) by discriminate. rewrite orb_true_iff, !lt_bool_spec. reflexivity.
Qed.
Lemma is_inside_spec : forall l x, In x l -> (is_inside l x = true <-> ~ outlying l x).
Proof.
  intros l x Hx. assert (Hl : l <> []) by (destruct l; [contradiction|discriminate]).
  rewrite (outlying_of l x Hl). unfold is_inside. rewrite (bounds_of l Hl). rewrite andb_true_iff, !le_bool_spec. lra.
Qed.

(** Kept values. *)
Lemma kept_filter : forall (p : R -> Prop) (b : R -> bool) l, (forall x, In x l -> (b x = true <-> p x)) ->
  kept p l (filter b l).
Proof.
  intros p b l. induction l as [|x l IH]; intros H; [constructor|]. cbn [filter].
  pose proof (H x (or_introl eq_refl)) as Hx. assert (K := IH (fun y Hy => H y (or_intror Hy))).
  destruct (b x); [apply kept_in; [apply Hx; reflexivity|exact K]|].
  apply kept_out; [|exact K]. intros C. apply Hx in C. discriminate.
Qed.
Lemma kept_unique : forall p l a b, kept p l a -> kept p l b -> a = b.
Proof.
  intros p l a b H. revert b. induction H as [|x l l' Hp H IH|x l l' Hp H IH]; intros b K; inversion K; subst; auto;
  try contradiction. f_equal. apply IH. assumption.
Qed.
Lemma kept_inside : forall l, kept (fun r => ~ outlying l r) l (filter (is_inside l) l).
Proof. intros l. apply kept_filter. intros x Hx. apply is_inside_spec. exact Hx. Qed.

(** Standard deviations. *)
Lemma squares_nonneg : forall m l, 0 <= lsum (map (fun x => (x - m) ^ 2) l).
Proof.
  intros m l. apply lsum_nonneg. intros y Hy. apply in_map_iff in Hy. destruct Hy as (x & <- & _). apply pow2_ge_0.
Qed.
Lemma sample_std_spec : forall l s, sample_std l = Some s <-> is_sample_std l s.
Proof.
  intros l s. unfold sample_std, is_sample_std. destruct (Nat.leb_spec (length l) 1) as [H|H].
  - split; [discriminate|]. intros (A & _). lia.
  - assert (Hn : 0 < INR (length l)) by (apply lt_0_INR; lia).
    assert (Hm : 0 < INR (length l - 1)) by (apply lt_0_INR; lia).
    assert (Hd : 0 <= lsum (map (fun x => (x - mean l) ^ 2) l) / INR (length l - 1)).
    { unfold Rdiv. apply Rmult_le_pos; [apply squares_nonneg|]. left. apply Rinv_0_lt_compat. exact Hm. }
    split.
    + intros E. assert (Es : s = sqrt (lsum (map (fun x => (x - mean l) ^ 2) l) / INR (length l - 1))) by congruence.
      rewrite Es. clear E Es. split; [lia|]. split; [apply sqrt_pos|]. exists (mean l).
      split; [unfold mean; field; lra|]. rewrite (pow2_sqrt _ Hd).
      set (k := INR (length l - 1)) in *. set (z := lsum _). clearbody k z. field. lra.
    + intros (_ & Hs & m & Em & Es). assert (m = mean l).
      { unfold mean. rewrite <- Em. field. lra. }
      subst m. f_equal. rewrite <- Es. set (k := INR (length l - 1)) in *. clearbody k.
      replace (k * s ^ 2 / k) with (s ^ 2) by (field; lra).
      apply sqrt_pow2. exact Hs.
Qed.
Lemma hardly_spec : forall th l,
  match snd (calculate_std l) with Some s => lt_bool s th | None => false end = true <-> hardly_varies th l.
Proof.
  intros th l. unfold calculate_std. cbn [snd]. split.
  - destruct (sample_std (filter (is_inside l) l)) as [s|] eqn:E; [|discriminate]. intros H. apply lt_bool_spec in H.
    exists (filter (is_inside l) l), s. split; [apply kept_inside|]. split; [apply sample_std_spec; exact E|exact H].
  - intros (l' & s & K & S & H). rewrite (kept_unique _ _ _ _ K (kept_inside l)) in S.
    apply sample_std_spec in S. rewrite S. apply lt_bool_spec. exact H.
Qed.

(** Tables. *)
Lemma known_in : forall n f r, In r (known n f) <-> exists t, (t < n)%nat /\ f t = Some r.
Proof.
  intros n f r. induction n as [|n IH].
  - split; [intros []|]. intros (t & H & _). lia.
  - cbn [known]. rewrite in_app_iff, IH. split.
    + intros [(t & Ht & E)|H]; [exists t; split; [lia|exact E]|].
      destruct (f n) as [v|] eqn:E; [|contradiction]. destruct H as [<-|[]]. exists n. split; [lia|exact E].
    + intros (t & Ht & E). destruct (Nat.eq_dec t n) as [->|N]; [right; rewrite E; left; reflexivity|].
      left. exists t. split; [lia|exact E].
Qed.
Lemma in_series : forall x g v r, In r (series x g v) <-> exists t, (t < cu_times x)%nat /\ cu_at x g t v = Some r.
Proof. intros x g v r. apply (known_in (cu_times x) (fun t => cu_at x g t v) r). Qed.

Lemma cells_in : forall x a, In a (cells x) <->
  (ce_geo a < cu_geos x)%nat /\ (ce_time a < cu_times x)%nat /\ (ce_var a < cu_vars x)%nat /\
  cu_at x (ce_geo a) (ce_time a) (ce_var a) = Some (ce_value a).
Proof.
  intros x a. unfold cells. rewrite in_flat_map. split.
  - intros (g & Hg & H). apply in_flat_map in H. destruct H as (t & Ht & H). apply in_flat_map in H.
    destruct H as (v & Hv & H). apply in_seq in Hg. apply in_seq in Ht. apply in_seq in Hv.
    destruct (cu_at x g t v) as [r|] eqn:E; [|contradiction]. destruct H as [<-|[]]. cbn.
    repeat split; try lia. exact E.
  - intros (Hg & Ht & Hv & E). exists (ce_geo a). split; [apply in_seq; lia|]. apply in_flat_map.
    exists (ce_time a). split; [apply in_seq; lia|]. apply in_flat_map.
    exists (ce_var a). split; [apply in_seq; lia|]. rewrite E. left. destruct a; reflexivity.
Qed.
Lemma NoDup_app_disjoint : forall A (l m : list A), NoDup l -> NoDup m -> (forall a, In a l -> ~ In a m) -> NoDup (l ++ m).
Proof.
  intros A l m H. induction H as [|a l Ha H IH]; intros Hm D; [exact Hm|]. cbn [app]. constructor.
  - rewrite in_app_iff. intros [C|C]; [contradiction|]. exact (D a (or_introl eq_refl) C).
  - apply IH; [exact Hm|]. intros b Hb. apply D. right. exact Hb.
Qed.
Lemma NoDup_flat_map : forall A B (f : A -> list B) (k : B -> A) l, NoDup l -> (forall a, In a l -> NoDup (f a)) ->
  (forall a b, In b (f a) -> k b = a) -> NoDup (flat_map f l).
Proof.
  intros A B f k l H. induction H as [|a l Ha H IH]; intros Hf Hk; [constructor|]. cbn [flat_map].
  apply NoDup_app_disjoint.
  - apply Hf. left. reflexivity.
  - apply IH; [|exact Hk]. intros b Hb. apply Hf. right. exact Hb.
  - intros b Hb C. apply in_flat_map in C. destruct C as (a' & Ha' & Hb'). apply Hk in Hb. apply Hk in Hb'. congruence.
Qed.
Lemma cells_nodup : forall x, NoDup (cells x).
Proof.
  intros x. unfold cells. apply (NoDup_flat_map nat cell _ ce_geo); [apply seq_NoDup| |].
  - intros g _. apply (NoDup_flat_map nat cell _ ce_time); [apply seq_NoDup| |].
    + intros t _. apply (NoDup_flat_map nat cell _ ce_var); [apply seq_NoDup| |].
      * intros v _. destruct (cu_at x g t v); [|constructor]. constructor; [intros []|constructor].
      * intros v b H. destruct (cu_at x g t v); [|contradiction]. destruct H as [<-|[]]. reflexivity.
    + intros t b H. apply in_flat_map in H. destruct H as (v & _ & H).
      destruct (cu_at x g t v); [|contradiction]. destruct H as [<-|[]]. reflexivity.
  - intros g b H. apply in_flat_map in H. destruct H as (t & _ & H). apply in_flat_map in H. destruct H as (v & _ & H).
    destruct (cu_at x g t v); [|contradiction]. destruct H as [<-|[]]. reflexivity.
Qed.
Lemma insert_cell_perm : forall a l, Permutation (insert_cell a l) (a :: l).
Proof.
  intros a l. induction l as [|b l IH]; [reflexivity|]. cbn [insert_cell].
  destruct (le_bool _ _); [reflexivity|]. eapply Permutation_trans; [apply perm_skip; exact IH|]. apply perm_swap.
Qed.
Lemma sort_cells_perm : forall l, Permutation (sort_cells l) l.
Proof.
  intros l. induction l as [|a l IH]; [reflexivity|]. cbn [sort_cells].
  eapply Permutation_trans; [apply insert_cell_perm|]. apply perm_skip. exact IH.
Qed.
Lemma insert_cell_sorted : forall a l, StronglySorted larger l -> StronglySorted larger (insert_cell a l).
Proof.
  intros a l H. induction H as [|b l H IH F]; [repeat constructor|]. cbn [insert_cell].
  destruct (le_bool (Rabs (ce_value b)) (Rabs (ce_value a))) eqn:E.
  - apply le_bool_spec in E. constructor; [constructor; assumption|]. constructor; [exact E|].
    rewrite Forall_forall in *. intros c Hc. specialize (F c Hc). unfold larger in *. eapply Rle_trans; eassumption.
  - constructor; [exact IH|]. assert (larger b a).
    { unfold larger. destruct (Rle_dec (Rabs (ce_value a)) (Rabs (ce_value b))) as [L|L]; [exact L|].
      exfalso. apply Rnot_le_lt in L. apply Rlt_le, le_bool_spec in L. congruence. }
    rewrite Forall_forall in *. intros c Hc.
    apply (Permutation_in c (insert_cell_perm a l)) in Hc. destruct Hc as [<-|Hc]; auto.
Qed.
Lemma sort_cells_sorted : forall l, StronglySorted larger (sort_cells l).
Proof. intros l. induction l as [|a l IH]; [constructor|]. cbn [sort_cells]. apply insert_cell_sorted. exact IH. Qed.

Lemma outliers_lemma : forall x,
  NoDup (calculate_outliers x) /\ StronglySorted larger (calculate_outliers x) /\
  forall a, In a (calculate_outliers x) <-> outlier_cell x a.
Proof.
  intros x. unfold calculate_outliers. split; [|split].
  - eapply Permutation_NoDup; [apply Permutation_sym, sort_cells_perm|]. apply NoDup_filter, cells_nodup.
  - apply sort_cells_sorted.
  - intros a. split.
    + intros H. apply (Permutation_in a (sort_cells_perm _)) in H. apply filter_In in H. destruct H as [H O].
      apply cells_in in H. apply is_outlier_spec in O. unfold outlier_cell. tauto.
    + intros (A & B & C & D & O). apply (Permutation_in a (Permutation_sym (sort_cells_perm _))). apply filter_In.
      split; [apply cells_in; tauto|]. apply is_outlier_spec. exact O.
Qed.

(** Findings of one array. *)
Lemma flat_spec : forall x th, flat_series x th = true <-> exists l, series_of x l /\ hardly_varies th l.
Proof.
  intros x th. unfold flat_series. rewrite existsb_exists. split.
  - intros (g & Hg & H). apply existsb_exists in H. destruct H as (v & Hv & H). apply in_seq in Hg. apply in_seq in Hv.
    exists (series x g v). split; [exists g, v; repeat split; lia|]. apply hardly_spec. exact H.
  - intros (l & (g & v & Hg & Hv & ->) & H). exists g. split; [apply in_seq; lia|]. apply existsb_exists.
    exists v. split; [apply in_seq; lia|]. apply hardly_spec. exact H.
Qed.
Lemma empty_spec : forall A (l : list A), M_Eda.empty l = false <-> exists a, In a l.
Proof.
  intros A [|a l]; cbn; split; intros H; try discriminate; auto; [|exists a; left; reflexivity].
  destruct H as (a & []).
Qed.
Lemma some_outlier : forall x, M_Eda.empty (calculate_outliers x) = false <->
  exists l r, series_of x l /\ In r l /\ outlying l r.
Proof.
  intros x. rewrite empty_spec. destruct (outliers_lemma x) as (_ & _ & H). split.
  - intros (a & Ha). apply H in Ha. destruct Ha as (A & B & C & D & O).
    exists (series x (ce_geo a) (ce_var a)), (ce_value a). split; [exists (ce_geo a), (ce_var a); auto|].
    split; [apply in_series; exists (ce_time a); auto|exact O].
  - intros (l & r & (g & v & Hg & Hv & ->) & Hr & O). apply in_series in Hr. destruct Hr as (t & Ht & E).
    exists (mkCell g t v r). apply H. unfold outlier_cell. cbn. auto.
Qed.
Lemma check_of_spec : forall x th,
  (In (M_Eda.Attention, Variability) (check_std_of x th) <-> exists l, series_of x l /\ hardly_varies th l) /\
  (In (M_Eda.Attention, Outlier) (check_std_of x th) <-> exists l r, series_of x l /\ In r l /\ outlying l r) /\
  (forall f, In f (check_std_of x th) -> f = (M_Eda.Attention, Variability) \/ f = (M_Eda.Attention, Outlier)).
Proof.
  intros x th. rewrite <- flat_spec, <- some_outlier. unfold check_std_of.
  destruct (flat_series x th), (M_Eda.empty (calculate_outliers x)); cbn [app In];
  repeat split; intros; try tauto; try discriminate;
  repeat match goal with H : _ \/ _ |- _ => destruct H | H : False |- _ => destruct H end; try discriminate; auto.
Qed.

(** Paid and organic together. *)
Lemma concat_series : forall a b l, cu_geos b = cu_geos a -> cu_times b = cu_times a ->
  (series_of (concat_vars a b) l <-> series_of a l \/ series_of b l).
Proof.
  intros a b l Hg Ht. unfold series_of, series, concat_vars. cbn [cu_geos cu_times cu_vars cu_at]. split.
  - intros (g & v & A & B & ->). destruct (Nat.ltb_spec v (cu_vars a)) as [L|L].
    + left. exists g, v. auto.
    + right. exists g, (v - cu_vars a)%nat. rewrite Hg, Ht. repeat split; try lia.
  - intros [(g & v & A & B & ->)|(g & v & A & B & ->)].
    + exists g, v. repeat split; try lia. destruct (Nat.ltb_spec v (cu_vars a)); [reflexivity|lia].
    + exists g, (cu_vars a + v)%nat. repeat split; try lia. rewrite Ht.
      destruct (Nat.ltb_spec (cu_vars a + v) (cu_vars a)); [lia|].
      replace (cu_vars a + v - cu_vars a)%nat with v by lia. reflexivity.
Qed.
Lemma all_of_series : forall a b l, same_frame a b -> (series_in (all_of a b) l <-> series_in a l \/ series_in b l).
Proof.
  intros a b l H. unfold series_in. destruct a as [a|], b as [b|]; cbn [all_of].
  - destruct (H a b eq_refl eq_refl) as [Hg Ht]. split.
    + intros (y & E & S). injection E as <-. apply (concat_series a b l Hg Ht) in S. destruct S; eauto.
    + intros S. exists (concat_vars a b). split; [reflexivity|]. apply (concat_series a b l Hg Ht).
      destruct S as [(y & E & S)|(y & E & S)]; injection E as <-; auto.
  - split; [auto|]. intros [S|(y & E & _)]; [exact S|discriminate].
  - split; [auto|]. intros [(y & E & _)|S]; [discriminate|exact S].
  - split; [auto|]. intros [S|S]; exact S.
Qed.

Definition arrays (d : scaled) : list (option cube) :=
  [Some (sc_kpi d); Some (sc_treatments d); all_of (sc_reach d) (sc_organic_reach d);
   all_of (sc_frequency d) (sc_organic_frequency d)].
Lemma arrays_checked : forall d l, well_formed d -> ((exists o, In o (arrays d) /\ series_in o l) <-> checked d l).
Proof.
  intros d l [HR HF]. unfold checked. split.
  - intros (o & H & S). unfold arrays in H. cbn [In] in H. destruct H as [<-|[<-|[<-|[<-|[]]]]].
    + destruct S as (y & E & S). injection E as <-. auto.
    + destruct S as (y & E & S). injection E as <-. auto.
    + apply (all_of_series _ _ l HR) in S. tauto.
    + apply (all_of_series _ _ l HF) in S. tauto.
  - intros H. unfold arrays.
    assert (D : series_in (Some (sc_kpi d)) l \/ series_in (Some (sc_treatments d)) l \/
      series_in (all_of (sc_reach d) (sc_organic_reach d)) l \/
      series_in (all_of (sc_frequency d) (sc_organic_frequency d)) l).
    { rewrite (all_of_series _ _ l HR), (all_of_series _ _ l HF). unfold series_in at 1 2.
      destruct H as [H|[H|H]]; [left; eauto|right; left; eauto|tauto]. }
    destruct D as [D|[D|[D|D]]]; eexists; (split; [|exact D]); cbn [In]; tauto.
Qed.
Definition all_findings (d : scaled) (th : R) : list finding :=
  flat_map (fun o => match o with Some x => check_std_of x th | None => [] end) (arrays d).
Lemma all_findings_spec : forall d th, well_formed d ->
  (In (M_Eda.Attention, Variability) (all_findings d th) <-> exists l, checked d l /\ hardly_varies th l) /\
  (In (M_Eda.Attention, Outlier) (all_findings d th) <-> exists l r, checked d l /\ In r l /\ outlying l r) /\
  (forall f, In f (all_findings d th) -> f = (M_Eda.Attention, Variability) \/ f = (M_Eda.Attention, Outlier)).
Proof.
  intros d th W. unfold all_findings. split; [|split].
  - rewrite in_flat_map. split.
    + intros (o & Ho & H). destruct o as [x|]; [|contradiction]. apply (proj1 (check_of_spec x th)) in H. destruct H as (l & S & V).
      exists l. split; [|exact V]. apply (arrays_checked d l W). exists (Some x). split; [exact Ho|]. exists x. auto.
    + intros (l & C & V). apply (arrays_checked d l W) in C. destruct C as (o & Ho & (y & -> & S)).
      exists (Some y). split; [exact Ho|]. apply check_of_spec. eauto.
  - rewrite in_flat_map. split.
    + intros (o & Ho & H). destruct o as [x|]; [|contradiction]. apply (proj1 (proj1 (proj2 (check_of_spec x th)))) in H. destruct H as (l & r & S & V).
      exists l, r. split; [|exact V]. apply (arrays_checked d l W). exists (Some x). split; [exact Ho|]. exists x. auto.
    + intros (l & r & C & V). apply (arrays_checked d l W) in C. destruct C as (o & Ho & (y & -> & S)).
      exists (Some y). split; [exact Ho|]. apply check_of_spec. eauto.
  - intros f H. apply in_flat_map in H. destruct H as (o & _ & H). destruct o as [x|]; [|contradiction].
    destruct (check_of_spec x th) as (_ & _ & Q). exact (Q f H).
Qed.
Lemma or_info_spec : forall l f, f <> (M_Eda.Info, NoCause) -> (In f (or_info l) <-> In f l).
Proof.
  intros l f H. unfold or_info. destruct l as [|a l]; cbn [M_Eda.empty]; [|reflexivity]. cbn. split; [|tauto].
  intros [E|[]]. congruence.
Qed.
Lemma std_lemma : forall d th, well_formed d ->
  (In (M_Eda.Attention, Variability) (std_checks d th) <-> exists l, checked d l /\ hardly_varies th l) /\
  (In (M_Eda.Attention, Outlier) (std_checks d th) <-> exists l r, checked d l /\ In r l /\ outlying l r) /\
  (std_checks d th = [(M_Eda.Info, NoCause)] \/
   (std_checks d th <> [] /\ forall f, In f (std_checks d th) ->
      f = (M_Eda.Attention, Variability) \/ f = (M_Eda.Attention, Outlier))).
Proof.
  intros d th W. destruct (all_findings_spec d th W) as (A & B & C).
  change (std_checks d th) with (or_info (all_findings d th)).
  rewrite !or_info_spec by discriminate. split; [exact A|]. split; [exact B|].
  unfold or_info. destruct (all_findings d th) as [|a l]; [left; reflexivity|right]. cbn [M_Eda.empty].
  split; [discriminate|exact C].
Qed.

(** Counting. *)
Definition count (p : R -> bool) (l : list R) : nat := length (filter p l).
Lemma count_perm : forall p l m, Permutation l m -> count p l = count p m.
Proof.
  intros p l m P. unfold count. induction P as [|x l m P IH|x y l|l m n P1 I1 P2 I2]; cbn [filter]; auto.
  - destruct (p x); cbn; congruence.
  - destruct (p x), (p y); reflexivity.
  - congruence.
Qed.
Lemma count_app : forall p l m, count p (l ++ m) = (count p l + count p m)%nat.
Proof. intros p l m. unfold count. rewrite filter_app, app_length. reflexivity. Qed.
Lemma count_le : forall p l, (count p l <= length l)%nat.
Proof. intros p l. unfold count. induction l as [|a l IH]; cbn; [lia|]. destruct (p a); cbn; lia. Qed.
Lemma count_none : forall p l, (forall x, In x l -> p x = false) -> count p l = 0%nat.
Proof.
  intros p l H. unfold count. induction l as [|a l IH]; [reflexivity|]. cbn [filter].
  rewrite (H a (or_introl eq_refl)). apply IH. intros x Hx. apply H. right. exact Hx.
Qed.
Lemma count_all : forall p l, (forall x, In x l -> p x = true) -> count p l = length l.
Proof.
  intros p l H. unfold count. induction l as [|a l IH]; [reflexivity|]. cbn [filter].
  rewrite (H a (or_introl eq_refl)). cbn [length]. f_equal. apply IH. intros x Hx. apply H. right. exact Hx.
Qed.
Lemma in_firstn : forall k (s : list R) x, In x (firstn k s) -> exists i, (i < k)%nat /\ (i < length s)%nat /\ nth i s 0 = x.
Proof.
  intros k. induction k as [|k IH]; intros s x H; [contradiction|]. destruct s as [|a s]; [contradiction|].
  cbn [firstn] in H. destruct H as [<-|H]; [exists 0%nat; cbn; repeat split; lia|].
  apply IH in H. destruct H as (i & A & B & E). exists (S i). cbn. repeat split; try lia. exact E.
Qed.
Lemma in_skipn : forall k (s : list R) x, In x (skipn k s) -> exists i, (k <= i)%nat /\ (i < length s)%nat /\ nth i s 0 = x.
Proof.
  intros k. induction k as [|k IH]; intros s x H.
  - apply (In_nth _ _ 0) in H. destruct H as (i & A & B). exists i. cbn in *. repeat split; try lia. exact B.
  - destruct s as [|a s]; [contradiction|]. cbn [skipn] in H.
    apply IH in H. destruct H as (i & A & B & E). exists (S i). cbn. repeat split; try lia. exact E.
Qed.
(** In a sorted list, at most [k] values are below value number [k]; at most [n - 1 - k] above. *)
Lemma few_below : forall p s k, StronglySorted Rle s -> (k < length s)%nat ->
  (forall x, nth k s 0 <= x -> p x = false) -> (count p s <= k)%nat.
Proof.
  intros p s k Ss Hk Hp. rewrite <- (firstn_skipn k s), count_app.
  rewrite (count_none p (skipn k s)).
  - pose proof (count_le p (firstn k s)). rewrite firstn_length in H. lia.
  - intros x Hx. apply in_skipn in Hx. destruct Hx as (i & A & B & <-). apply Hp. apply sorted_nth; auto.
Qed.
Lemma few_above : forall p s k, StronglySorted Rle s -> (k < length s)%nat ->
  (forall x, x <= nth k s 0 -> p x = false) -> (count p s <= length s - 1 - k)%nat.
Proof.
  intros p s k Ss Hk Hp. rewrite <- (firstn_skipn (S k) s) at 1. rewrite count_app.
  rewrite (count_none p (firstn (S k) s)).
  - pose proof (count_le p (skipn (S k) s)). rewrite skipn_length in H. lia.
  - intros x Hx. apply in_firstn in Hx. destruct Hx as (i & A & B & <-). apply Hp. apply sorted_nth; auto. lia.
Qed.

(** The quartiles, by the remainder of the number of values. *)
Lemma quarter_position : forall m r, (1 <= r <= 4)%nat ->
  INR (4 * m + r - 1) * (1 / 4) = INR m + (INR r - 1) / 4.
Proof.
  intros m r H. replace (4 * m + r - 1)%nat with (4 * m + (r - 1))%nat by lia.
  rewrite plus_INR, mult_INR, minus_INR by lia. replace (INR 4) with 4 by (cbn; lra). cbn [INR]. lra.
Qed.
Section Fences.
Variable s : list R.
Hypothesis Ss : StronglySorted Rle s.
Let n := length s.
Let q1 := interpolate s (INR (n - 1) * (1 / 4)).
Let q3 := interpolate s (INR (n - 1) * (3 / 4)).
Let at_ i := nth i s 0.
Let le i j : (i <= j)%nat -> (j < n)%nat -> at_ i <= at_ j.
Proof. intros A B. apply sorted_nth; auto. Qed.

Lemma fences : (0 < n)%nat ->
  q1 <= q3 /\ q1 - 3 / 2 * (q3 - q1) <= at_ (n / 4) /\ at_ (n - 1 - n / 4) <= q3 + 3 / 2 * (q3 - q1).
Proof.
  intros Hn. set (m := (n / 4)%nat).
  pose proof (Nat.div_mod n 4 ltac:(lia)) as D. fold m in D. pose proof (Nat.mod_upper_bound n 4 ltac:(lia)) as Mr.
  assert (Hs : s <> []) by (intros E; unfold n in Hn; rewrite E in Hn; cbn in Hn; lia).
  assert (Q : q1 <= q3).
  { unfold q1, q3. apply interpolate_mono; auto; pose proof (pos_INR (n - 1)); try fold n; nra. }
  split; [exact Q|].
  assert (I3 : forall k f, 0 <= f < 1 -> INR (n - 1) * (3 / 4) = INR k + f ->
     q3 = at_ k + (at_ (Nat.min (S k) (n - 1)) - at_ k) * f).
  { intros k f Hf E. unfold q3. rewrite E. apply (interpolate_at s k f Hf). }
  assert (I1 : forall k f, 0 <= f < 1 -> INR (n - 1) * (1 / 4) = INR k + f ->
     q1 = at_ k + (at_ (Nat.min (S k) (n - 1)) - at_ k) * f).
  { intros k f Hf E. unfold q1. rewrite E. apply (interpolate_at s k f Hf). }
  clearbody q1 q3.
  destruct (Nat.eq_dec (n mod 4) 0) as [R0|R0]; [|destruct (Nat.eq_dec (n mod 4) 1) as [R1|R1];
    [|destruct (Nat.eq_dec (n mod 4) 2) as [R2|R2]]].
  - (* n = 4 m *)
    assert (E : INR (n - 1) = 4 * INR m - 1).
    { rewrite minus_INR by lia. rewrite D, R0, Nat.add_0_r, mult_INR. cbn. lra. }
    assert (Hm : (1 <= m)%nat) by lia.
    specialize (I1 (m - 1)%nat (3/4) ltac:(lra)). specialize (I3 (3 * m - 1)%nat (1/4) ltac:(lra)).
    rewrite E in I1, I3. rewrite minus_INR in I1, I3 by lia. rewrite mult_INR in I3. cbn [INR] in I1, I3.
    specialize (I1 ltac:(lra)). specialize (I3 ltac:(lra)).
    replace (Nat.min (S (m - 1)) (n - 1)) with m in I1 by lia.
    replace (Nat.min (S (3 * m - 1)) (n - 1)) with (3 * m)%nat in I3 by lia.
    replace (n - 1 - m)%nat with (3 * m - 1)%nat by lia.
    pose proof (le (m - 1) m ltac:(lia) ltac:(lia)). pose proof (le (3 * m - 1) (3 * m) ltac:(lia) ltac:(lia)).
    lra.
  - assert (E : INR (n - 1) = 4 * INR m).
    { replace (n - 1)%nat with (4 * m)%nat by lia. rewrite mult_INR. cbn. lra. }
    specialize (I1 m 0 ltac:(lra)). specialize (I3 (3 * m)%nat 0 ltac:(lra)).
    rewrite E in I1, I3. rewrite mult_INR in I3. cbn [INR] in I1, I3.
    specialize (I1 ltac:(lra)). specialize (I3 ltac:(lra)).
    replace (n - 1 - m)%nat with (3 * m)%nat by lia. lra.
  - assert (E : INR (n - 1) = 4 * INR m + 1).
    { replace (n - 1)%nat with (4 * m + 1)%nat by lia. rewrite plus_INR, mult_INR. cbn. lra. }
    specialize (I1 m (1/4) ltac:(lra)). specialize (I3 (3 * m)%nat (3/4) ltac:(lra)).
    rewrite E in I1, I3. rewrite mult_INR in I3. cbn [INR] in I1, I3.
    specialize (I1 ltac:(lra)). specialize (I3 ltac:(lra)).
    replace (Nat.min (S m) (n - 1)) with (m + 1)%nat in I1 by lia.
    replace (Nat.min (S (3 * m)) (n - 1)) with (3 * m + 1)%nat in I3 by lia.
    replace (n - 1 - m)%nat with (3 * m + 1)%nat by lia.
    pose proof (le m (m + 1) ltac:(lia) ltac:(lia)). pose proof (le (3 * m) (3 * m + 1) ltac:(lia) ltac:(lia)).
    destruct (Nat.eq_dec m 0) as [M0|M0].
    + rewrite M0 in *. cbn [Nat.mul Nat.add] in *. lra.
    + pose proof (le (m + 1) (3 * m) ltac:(lia) ltac:(lia)). lra.
  - assert (E : INR (n - 1) = 4 * INR m + 2).
    { replace (n - 1)%nat with (4 * m + 2)%nat by lia. rewrite plus_INR, mult_INR. cbn. lra. }
    specialize (I1 m (1/2) ltac:(lra)). specialize (I3 (3 * m + 1)%nat (1/2) ltac:(lra)).
    rewrite E in I1, I3. rewrite plus_INR, mult_INR in I3. cbn [INR] in I1, I3.
    specialize (I1 ltac:(lra)). specialize (I3 ltac:(lra)).
    replace (Nat.min (S m) (n - 1)) with (m + 1)%nat in I1 by lia.
    replace (Nat.min (S (3 * m + 1)) (n - 1)) with (3 * m + 2)%nat in I3 by lia.
    replace (n - 1 - m)%nat with (3 * m + 2)%nat by lia.
    pose proof (le m (m + 1) ltac:(lia) ltac:(lia)). pose proof (le (3 * m + 1) (3 * m + 2) ltac:(lia) ltac:(lia)).
    pose proof (le (m + 1) (3 * m + 1) ltac:(lia) ltac:(lia)). lra.
Qed.

(** A value that fills the middle of the list is both quartiles. *)
Lemma middle : forall c o, (4 * o < n)%nat -> (forall i, (o <= i)%nat -> (i + o < n)%nat -> at_ i = c) -> q1 = c /\ q3 = c.
Proof.
  intros c o Ho H. set (m := ((n - 1) / 4)%nat).
  pose proof (Nat.div_mod (n - 1) 4 ltac:(lia)) as D. fold m in D.
  pose proof (Nat.mod_upper_bound (n - 1) 4 ltac:(lia)) as Mr. set (r := ((n - 1) mod 4)%nat) in *.
  assert (E : INR (n - 1) = 4 * INR m + INR r). { rewrite D at 1. rewrite plus_INR, mult_INR. cbn. lra. }
  assert (Hr : INR r = 0 /\ r = 0%nat \/ INR r = 1 /\ r = 1%nat \/ INR r = 2 /\ r = 2%nat \/ INR r = 3 /\ r = 3%nat).
  { clearbody r. destruct r as [|[|[|[|r]]]]; [left|right; left|right; right; left|right; right; right|lia]; split; cbn; lra || reflexivity. }
  assert (Hm : (o <= m)%nat) by lia.
  split.
  - unfold q1. rewrite E. replace ((4 * INR m + INR r) * (1 / 4)) with (INR m + INR r / 4) by lra.
    rewrite (interpolate_at s m (INR r / 4)) by lra. fold n. fold (at_ m). fold (at_ (Nat.min (S m) (n - 1))).
    rewrite (H m) by lia. destruct (Nat.eq_dec r 0) as [Z|Z].
    + replace (INR r) with 0 by (rewrite Z; reflexivity). lra.
    + rewrite (H (Nat.min (S m) (n - 1))) by lia. ring.
  - unfold q3. rewrite E.
    destruct Hr as [[Er Zr]|[[Er Zr]|[[Er Zr]|[Er Zr]]]]; rewrite Er.
    + replace ((4 * INR m + 0) * (3 / 4)) with (INR (3 * m) + 0) by (rewrite mult_INR; cbn; lra).
      rewrite (interpolate_at s (3 * m) 0) by lra. fold n. fold (at_ (3 * m)). rewrite (H (3 * m)%nat) by lia. ring.
    + replace ((4 * INR m + 1) * (3 / 4)) with (INR (3 * m) + 3 / 4) by (rewrite mult_INR; cbn; lra).
      rewrite (interpolate_at s (3 * m) (3/4)) by lra. fold n. fold (at_ (3 * m)). fold (at_ (Nat.min (S (3 * m)) (n - 1))).
      rewrite (H (3 * m)%nat) by lia. rewrite (H (Nat.min (S (3 * m)) (n - 1))) by lia. ring.
    + replace ((4 * INR m + 2) * (3 / 4)) with (INR (3 * m + 1) + 1 / 2) by (rewrite plus_INR, mult_INR; cbn; lra).
      rewrite (interpolate_at s (3 * m + 1) (1/2)) by lra. fold n. fold (at_ (3 * m + 1)).
      fold (at_ (Nat.min (S (3 * m + 1)) (n - 1))).
      rewrite (H (3 * m + 1)%nat) by lia. rewrite (H (Nat.min (S (3 * m + 1)) (n - 1))) by lia. ring.
    + replace ((4 * INR m + 3) * (3 / 4)) with (INR (3 * m + 2) + 1 / 4) by (rewrite plus_INR, mult_INR; cbn; lra).
      rewrite (interpolate_at s (3 * m + 2) (1/4)) by lra. fold n. fold (at_ (3 * m + 2)).
      fold (at_ (Nat.min (S (3 * m + 2)) (n - 1))).
      rewrite (H (3 * m + 2)%nat) by lia. rewrite (H (Nat.min (S (3 * m + 2)) (n - 1))) by lia. ring.
Qed.
End Fences.

Definition low (l : list R) (x : R) : bool := lt_bool x (q1_of l - 3 / 2 * (q3_of l - q1_of l)).
Definition high (l : list R) (x : R) : bool := lt_bool (q3_of l + 3 / 2 * (q3_of l - q1_of l)) x.
Lemma few_outliers : forall l, (count (low l) l <= length l / 4 /\ count (high l) l <= length l / 4)%nat.
Proof.
  intros l. destruct (Nat.eq_dec (length l) 0) as [Z|Z].
  - destruct l; [cbn; auto|discriminate].
  - pose proof (fences (sort_values l) (sort_values_sorted l)) as F. cbv zeta in F. rewrite sort_values_length in F.
    specialize (F ltac:(lia)). fold (q1_of l) in F. fold (q3_of l) in F. destruct F as (_ & A & B).
    assert (L : (length l / 4 <= length l - 1)%nat).
    { pose proof (Nat.div_mod (length l) 4 ltac:(lia)). lia. }
    rewrite (count_perm (low l) l _ (sort_values_perm l)), (count_perm (high l) l _ (sort_values_perm l)). split.
    + apply (few_below (low l) (sort_values l) (length l / 4) (sort_values_sorted l)); [rewrite sort_values_length; lia|].
      intros x Hx. unfold low, lt_bool. destruct (Rlt_dec _ _); [lra|reflexivity].
    + pose proof (few_above (high l) (sort_values l) (length l - 1 - length l / 4) (sort_values_sorted l)) as H.
      rewrite sort_values_length in H. specialize (H ltac:(lia)).
      assert (forall x, x <= nth (length l - 1 - length l / 4) (sort_values l) 0 -> high l x = false).
      { intros x Hx. unfold high, lt_bool. destruct (Rlt_dec _ _); [lra|reflexivity]. }
      specialize (H H0). lia.
Qed.

(** Periods of a series with a property. *)
Lemma count_known : forall p n f,
  count p (known n f) = length (filter (fun t => match f t with Some v => p v | None => false end) (seq 0 n)).
Proof.
  intros p n f. induction n as [|n IH]; [reflexivity|]. cbn [known]. rewrite count_app, IH, seq_S, filter_app, app_length.
  f_equal. cbn [plus filter]. destruct (f n) as [v|]; [|reflexivity]. unfold count. cbn [filter]. destruct (p v); reflexivity.
Qed.
Lemma periods_bound : forall p n f ts, NoDup ts -> (forall t, In t ts -> (t < n)%nat /\ exists v, f t = Some v /\ p v = true) ->
  (length ts <= count p (known n f))%nat.
Proof.
  intros p n f ts N H. rewrite count_known. apply NoDup_incl_length; [exact N|]. intros t Ht.
  destruct (H t Ht) as (A & v & E & B). apply filter_In. split; [apply in_seq; lia|]. rewrite E. exact B.
Qed.
Lemma number_lemma : forall x g v ts, NoDup ts ->
  (forall t, In t ts -> (t < cu_times x)%nat /\ exists r, cu_at x g t v = Some r /\ outlying (series x g v) r) ->
  (length ts <= 2 * (length (series x g v) / 4))%nat.
Proof.
  intros x g v ts N H. set (l := series x g v) in *.
  destruct ts as [|t0 ts0]; [cbn; lia|]. set (ts := t0 :: ts0) in *.
  assert (Hl : l <> []).
  { destruct (H t0 (or_introl eq_refl)) as (A & r & E & _). intros C.
    assert (In r l) by (apply in_series; exists t0; auto). rewrite C in H0. contradiction. }
  pose proof (few_outliers l) as [A B].
  pose proof (periods_bound (fun r => low l r || high l r) (cu_times x) (fun t => cu_at x g t v) ts N) as P.
  fold (series x g v) in P. fold l in P.
  assert (Q : (length ts <= count (fun r => low l r || high l r) l)%nat).
  { apply P. intros t Ht. destruct (H t Ht) as (Ht' & r & E & O). split; [exact Ht'|]. exists r. split; [exact E|].
    apply (outlying_of l r Hl) in O. rewrite orb_true_iff. unfold low, high. rewrite !lt_bool_spec. exact O. }
  assert (C : forall m, (count (fun r => low l r || high l r) m <= count (low l) m + count (high l) m)%nat).
  { intros m. unfold count. induction m as [|a m IH]; [cbn; lia|]. cbn [filter].
    destruct (low l a), (high l a); cbn [orb length]; lia. }
  specialize (C l). lia.
Qed.
Lemma too_few_lemma : forall l x, (length l < 4)%nat -> In x l -> ~ outlying l x.
Proof.
  intros l x H Hx O. assert (Hl : l <> []) by (destruct l; [contradiction|discriminate]).
  pose proof (few_outliers l) as [A B]. rewrite Nat.div_small in A, B by exact H.
  apply (outlying_of l x Hl) in O. unfold count in A, B.
  destruct O as [O|O].
  - assert (K : In x (filter (low l) l)) by (apply filter_In; split; [exact Hx|apply lt_bool_spec; exact O]).
    destruct (filter (low l) l); [contradiction|cbn in A; lia].
  - assert (K : In x (filter (high l) l)) by (apply filter_In; split; [exact Hx|apply lt_bool_spec; exact O]).
    destruct (filter (high l) l); [contradiction|cbn in B; lia].
Qed.

(** A value that is taken in more than three quarters of the periods. *)
Definition differs (c x : R) : bool := negb (if Req_EM_T x c then true else false).
Lemma count_differs : forall c l, (count (differs c) l + count_occ Req_EM_T l c = length l)%nat.
Proof.
  intros c l. unfold count, differs. induction l as [|a l IH]; [reflexivity|]. cbn [filter count_occ].
  destruct (Req_EM_T a c); cbn [negb length]; lia.
Qed.
Lemma middle_values : forall c s o, StronglySorted Rle s -> count (differs c) s = o ->
  forall i, (o <= i)%nat -> (i + o < length s)%nat -> nth i s 0 = c.
Proof.
  intros c s o Ss Ho i A B. destruct (Rtotal_order (nth i s 0) c) as [L|[E|G]]; [|exact E|].
  - exfalso. assert (count (differs c) (firstn (S i) s) = length (firstn (S i) s)).
    { apply count_all. intros x Hx. apply in_firstn in Hx. destruct Hx as (j & J1 & J2 & <-).
      pose proof (sorted_nth s j i Ss ltac:(lia) ltac:(lia)). unfold differs. destruct (Req_EM_T _ _); [lra|reflexivity]. }
    rewrite firstn_length in H. rewrite <- (firstn_skipn (S i) s), count_app, H in Ho. lia.
  - exfalso. assert (count (differs c) (skipn i s) = length (skipn i s)).
    { apply count_all. intros x Hx. apply in_skipn in Hx. destruct Hx as (j & J1 & J2 & <-).
      pose proof (sorted_nth s i j Ss ltac:(lia) ltac:(lia)). unfold differs. destruct (Req_EM_T _ _); [lra|reflexivity]. }
    rewrite skipn_length in H. rewrite <- (firstn_skipn i s), count_app, H in Ho. lia.
Qed.
Lemma mostly_constant : forall l c, (3 * length l < 4 * count_occ Req_EM_T l c)%nat -> q1_of l = c /\ q3_of l = c.
Proof.
  intros l c H. pose proof (count_differs c l) as D.
  rewrite (count_perm (differs c) l _ (sort_values_perm l)) in D.
  pose proof (middle (sort_values l) c (count (differs c) (sort_values l))) as M. rewrite sort_values_length in M.
  apply M; [lia|]. intros i A B. apply (middle_values c (sort_values l) _ (sort_values_sorted l) eq_refl i A).
  rewrite sort_values_length. exact B.
Qed.
Lemma mostly_outlying : forall l c, (3 * length l < 4 * count_occ Req_EM_T l c)%nat ->
  forall x, outlying l x <-> x <> c.
Proof.
  intros l c H x. assert (Hl : l <> []) by (intros E; subst l; cbn in H; lia).
  destruct (mostly_constant l c H) as [A B]. rewrite (outlying_of l x Hl), A, B. lra.
Qed.
Lemma kept_constant : forall c l, filter (fun x => negb (differs c x)) l = repeat c (count_occ Req_EM_T l c).
Proof.
  intros c l. unfold differs. induction l as [|a l IH]; [reflexivity|]. cbn [filter count_occ].
  destruct (Req_EM_T a c) as [E|E]; cbn [negb repeat]; [|exact IH]. subst a. f_equal. exact IH.
Qed.
Lemma constant_std : forall c k, (2 <= k)%nat -> is_sample_std (repeat c k) 0.
Proof.
  intros c k H. assert (A : forall j, lsum (repeat c j) = INR j * c).
  { intros j. induction j as [|j IH]; [cbn; ring|]. cbn [repeat lsum]. rewrite IH, S_INR. ring. }
  assert (B : forall j, lsum (map (fun x => (x - c) ^ 2) (repeat c j)) = 0).
  { intros j. induction j as [|j IH]; [reflexivity|]. cbn [repeat map lsum]. rewrite IH. ring. }
  unfold is_sample_std. rewrite repeat_length. split; [exact H|]. split; [lra|]. exists c. rewrite A, B. split; ring.
Qed.
Lemma mostly_hardly : forall l c th, (3 * length l < 4 * count_occ Req_EM_T l c)%nat -> (2 <= length l)%nat -> 0 < th ->
  hardly_varies th l.
Proof.
  intros l c th H Hn Ht. exists (repeat c (count_occ Req_EM_T l c)), 0. split.
  - rewrite <- kept_constant. apply kept_filter. intros x _. rewrite (mostly_outlying l c H x). unfold differs.
    destruct (Req_EM_T x c) as [E|E]; cbn [negb]; split; intros; auto; try discriminate; contradiction.
  - split; [apply constant_std; lia|exact Ht].
Qed.

(** Units. *)
Lemma known_map : forall f n h, known n (fun t => option_map h (f t)) = map h (known n f).
Proof.
  intros f n h. induction n as [|n IH]; [reflexivity|]. cbn [known]. rewrite IH, map_app. f_equal.
  destruct (f n); reflexivity.
Qed.
Lemma known_ext : forall f g n, (forall t, f t = g t) -> known n f = known n g.
Proof. intros f g n H. induction n as [|n IH]; [reflexivity|]. cbn [known]. rewrite IH, (H n). reflexivity. Qed.
Lemma outlying_affine : forall a b l x, 0 < a -> (outlying (map (fun r => a * r + b) l) (a * x + b) <-> outlying l x).
Proof.
  intros a b l x Ha. destruct l as [|y l0].
  - cbn [map]. split; intros (q & q' & A & _); exfalso; exact (quantile_of_nil _ _ A).
  - set (l := y :: l0). assert (Hl : l <> []) by discriminate.
    assert (Hl' : map (fun r => a * r + b) l <> []) by discriminate.
    rewrite (outlying_of l x Hl), (outlying_of _ (a * x + b) Hl').
    assert (E : forall q, 0 <= q <= 1 ->
      interpolate (sort_values (map (fun r => a * r + b) l)) (INR (length (map (fun r => a * r + b) l) - 1) * q)
      = a * interpolate (sort_values l) (INR (length l - 1) * q) + b).
    { intros q Hq. rewrite (sort_affine a b l Ha), map_length. apply interpolate_affine.
      - apply sort_nonempty. exact Hl.
      - rewrite sort_values_length. apply pos_range. exact Hq. }
    assert (E1 : q1_of (map (fun r => a * r + b) l) = a * q1_of l + b) by (unfold q1_of; apply E; lra).
    assert (E3 : q3_of (map (fun r => a * r + b) l) = a * q3_of l + b) by (unfold q3_of; apply E; lra).
    rewrite E1, E3. set (p := q1_of l). set (q := q3_of l).
    replace (a * p + b - 3 / 2 * (a * q + b - (a * p + b))) with (a * (p - 3 / 2 * (q - p)) + b) by ring.
    replace (a * q + b + 3 / 2 * (a * q + b - (a * p + b))) with (a * (q + 3 / 2 * (q - p)) + b) by ring.
    set (u := p - 3 / 2 * (q - p)). set (w := q + 3 / 2 * (q - p)).
    split; (intros [H|H]; [left|right]).
    + apply (Rmult_lt_reg_l a); lra.
    + apply (Rmult_lt_reg_l a); lra.
    + apply (Rmult_lt_compat_l a) in H; lra.
    + apply (Rmult_lt_compat_l a) in H; lra.
Qed.
Lemma units_series : forall a b x y g v, in_units a b x y -> series y g v = map (fun r => a v * r + b v) (series x g v).
Proof.
  intros a b x y g v (_ & Ht & _ & E). unfold series. rewrite Ht, <- known_map. apply known_ext. intros t. apply E.
Qed.
Lemma units_lemma : forall a b x y, (forall v, 0 < a v) -> in_units a b x y ->
  forall g t v, (exists r, In (mkCell g t v r) (calculate_outliers y)) <-> (exists r, In (mkCell g t v r) (calculate_outliers x)).
Proof.
  intros a b x y Ha U g t v. destruct (outliers_lemma x) as (_ & _ & X). destruct (outliers_lemma y) as (_ & _ & Y).
  pose proof (units_series a b x y g v U) as S. destruct U as (Ug & Ut & Uv & E). split; intros (r & H).
  - apply Y in H. destruct H as (A & B & C & D & O). cbn in A, B, C, D, O. rewrite E in D.
    destruct (cu_at x g t v) as [r0|] eqn:D0; [|discriminate]. cbn in D. injection D as <-.
    exists r0. apply X. unfold outlier_cell. cbn. rewrite <- Ug, <- Ut, <- Uv. repeat split; auto.
    rewrite S in O. apply (outlying_affine (a v) (b v) (series x g v) r0 (Ha v)) in O. exact O.
  - apply X in H. destruct H as (A & B & C & D & O). cbn in A, B, C, D, O.
    exists (a v * r + b v). apply Y. unfold outlier_cell. cbn. rewrite Ug, Ut, Uv, E, D. repeat split; auto.
    rewrite S. apply (outlying_affine (a v) (b v) (series x g v) r (Ha v)). exact O.
Qed.

(** Costs. *)
Lemma positions_in : forall c g t v, In (g, t, v) (positions c) <->
  (g < co_geos c)%nat /\ (t < co_times c)%nat /\ (v < co_channels c)%nat.
Proof.
  intros c g t v. unfold positions. rewrite in_flat_map. split.
  - intros (g' & Hg & H). apply in_flat_map in H. destruct H as (t' & Ht & H). apply in_map_iff in H.
    destruct H as (v' & E & Hv). apply in_seq in Hg. apply in_seq in Ht. apply in_seq in Hv.
    injection E as <- <- <-. lia.
  - intros (A & B & C). exists g. split; [apply in_seq; lia|]. apply in_flat_map. exists t.
    split; [apply in_seq; lia|]. apply in_map_iff. exists v. split; [reflexivity|apply in_seq; lia].
Qed.
Lemma positions_nodup : forall c, NoDup (positions c).
Proof.
  intros c. unfold positions. apply (NoDup_flat_map nat _ _ (fun p => fst (fst p))); [apply seq_NoDup| |].
  - intros g _. apply (NoDup_flat_map nat _ _ (fun p => snd (fst p))); [apply seq_NoDup| |].
    + intros t _. apply FinFun.Injective_map_NoDup; [|apply seq_NoDup]. intros v v' E. congruence.
    + intros t b H. apply in_map_iff in H. destruct H as (v & <- & _). reflexivity.
  - intros g b H. apply in_flat_map in H. destruct H as (t & _ & H). apply in_map_iff in H. destruct H as (v & <- & _). reflexivity.
Qed.
Lemma inconsistent_lemma : forall c, NoDup (inconsistencies c) /\ forall p, In p (inconsistencies c) <-> inconsistent c p.
Proof.
  intros c. unfold inconsistencies. cbv zeta. split.
  - apply NoDup_app_disjoint; try (apply NoDup_filter, positions_nodup).
    intros [[g t] v] A B. apply filter_In in A. apply filter_In in B. destruct A as [_ A]. destruct B as [_ B].
    apply andb_true_iff in A. apply andb_true_iff in B. destruct A as [A _]. destruct B as [B _].
    apply zero_spec in A. apply lt_bool_spec in B. lra.
  - intros [[g t] v]. rewrite in_app_iff, !filter_In, !andb_true_iff, !zero_spec, !lt_bool_spec, positions_in.
    unfold inconsistent. tauto.
Qed.
Lemma cost_cell : forall c a, outlier_cell (cost_per_media_unit c) a <->
  (ce_geo a < co_geos c)%nat /\ (ce_time a < co_times c)%nat /\ (ce_var a < co_channels c)%nat /\
  unit_cost c (ce_geo a) (ce_time a) (ce_var a) (ce_value a) /\
  outlying (series (cost_per_media_unit c) (ce_geo a) (ce_var a)) (ce_value a).
Proof.
  intros c a. unfold outlier_cell, unit_cost. cbn [cu_geos cu_times cu_vars cu_at cost_per_media_unit].
  assert (E : (if Req_EM_T (co_units c (ce_geo a) (ce_time a) (ce_var a)) 0 then None
     else Some (co_spend c (ce_geo a) (ce_time a) (ce_var a) / co_units c (ce_geo a) (ce_time a) (ce_var a))) = Some (ce_value a)
     <-> co_units c (ce_geo a) (ce_time a) (ce_var a) <> 0 /\
         ce_value a * co_units c (ce_geo a) (ce_time a) (ce_var a) = co_spend c (ce_geo a) (ce_time a) (ce_var a)).
  { destruct (Req_EM_T _ 0) as [Z|Z]; split.
    - discriminate.
    - intros [N _]. contradiction.
    - intros H. injection H as <-. split; [exact Z|field; exact Z].
    - intros [_ <-]. f_equal. field. exact Z. }
  rewrite E. reflexivity.
Qed.
Lemma cost_series : forall c g v q, In q (series (cost_per_media_unit c) g v) <->
  exists t, (t < co_times c)%nat /\ unit_cost c g t v q.
Proof.
  intros c g v q. rewrite in_series. cbn [cu_times cu_at cost_per_media_unit]. unfold unit_cost.
  split; intros (t & Ht & H); exists t; (split; [exact Ht|]).
  - destruct (Req_EM_T _ 0) as [Z|Z]; [discriminate|]. injection H as <-. split; [exact Z|field; exact Z].
  - destruct (Req_EM_T _ 0) as [Z|Z]; [tauto|]. f_equal. destruct H as [_ <-]. field. exact Z.
Qed.
Lemma cost_lemma : forall c, let o := check_cost_per_media_unit c in
  (NoDup (cp_inconsistent o) /\ forall p, In p (cp_inconsistent o) <-> inconsistent c p) /\
  (NoDup (map fst (cp_outliers o)) /\ StronglySorted larger (map fst (cp_outliers o)) /\
   (forall a, In a (map fst (cp_outliers o)) <->
     (ce_geo a < co_geos c)%nat /\ (ce_time a < co_times c)%nat /\ (ce_var a < co_channels c)%nat /\
     unit_cost c (ce_geo a) (ce_time a) (ce_var a) (ce_value a) /\
     outlying (series (cp_cost_per_unit o) (ce_geo a) (ce_var a)) (ce_value a)) /\
   (forall a s u, In (a, (s, u)) (cp_outliers o) ->
     s = co_spend c (ce_geo a) (ce_time a) (ce_var a) /\ u = co_units c (ce_geo a) (ce_time a) (ce_var a))) /\
  (forall g v q, In q (series (cp_cost_per_unit o) g v) <-> exists t, (t < co_times c)%nat /\ unit_cost c g t v q) /\
  (In (M_Eda.Attention, InconsistentData) (cp_findings o) <-> exists p, inconsistent c p) /\
  (In (M_Eda.Attention, Outlier) (cp_findings o) <-> exists r, In r (cp_outliers o)) /\
  (cp_findings o = [(M_Eda.Info, NoCause)] <-> (forall p, ~ inconsistent c p) /\ cp_outliers o = []).
Proof.
  intros c. cbv zeta. destruct (inconsistent_lemma c) as [N I]. destruct (outliers_lemma (cost_per_media_unit c)) as (NO & SO & O).
  unfold check_cost_per_media_unit. cbv zeta. cbn [cp_inconsistent cp_outliers cp_cost_per_unit cp_findings].
  rewrite map_map. cbn [fst]. rewrite map_id.
  split; [split; [exact N|exact I]|]. split.
  { split; [exact NO|]. split; [exact SO|]. split.
    - intros a. rewrite O. apply cost_cell.
    - intros a s u H. apply in_map_iff in H. destruct H as (b & E & _). injection E as <- <- <-. auto. }
  split; [apply cost_series|].
  set (out := map _ (calculate_outliers (cost_per_media_unit c))).
  assert (IE : M_Eda.empty (inconsistencies c) = false <-> exists p, inconsistent c p).
  { rewrite empty_spec. split; intros (p & H); exists p; apply I; exact H. }
  pose proof (empty_spec _ out) as OE. rewrite !or_info_spec by discriminate. rewrite <- IE, <- OE.
  assert (IN : (forall p, ~ inconsistent c p) <-> M_Eda.empty (inconsistencies c) = true).
  { destruct (M_Eda.empty (inconsistencies c)); split; intros H; auto; try discriminate.
    - intros p Hp. assert (true = false) by (apply IE; eauto). discriminate.
    - exfalso. destruct (proj1 IE eq_refl) as (p & Hp). exact (H p Hp). }
  rewrite IN. clear IN. clearbody out.
  split; [|split].
  - destruct (M_Eda.empty (inconsistencies c)), (M_Eda.empty out); cbn; split; intros H; auto; try discriminate;
    repeat match goal with H : _ \/ _ |- _ => destruct H | H : False |- _ => destruct H end; try discriminate.
  - destruct (M_Eda.empty (inconsistencies c)), (M_Eda.empty out); cbn; split; intros H; auto; try discriminate;
    repeat match goal with H : _ \/ _ |- _ => destruct H | H : False |- _ => destruct H end; try discriminate.
  - destruct (M_Eda.empty (inconsistencies c)), out as [|r out]; cbn; split; intros H; auto; try discriminate;
    destruct H; discriminate.
Qed.

(** Spend that follows the units at one price. *)
Lemma count_occ_const : forall (l : list R) c, (forall x, In x l -> x = c) -> count_occ Req_EM_T l c = length l.
Proof.
  intros l c H. induction l as [|a l IH]; [reflexivity|]. cbn [count_occ length].
  rewrite (H a (or_introl eq_refl)). destruct (Req_EM_T c c); [|congruence]. f_equal. apply IH. intros x Hx. apply H. right. exact Hx.
Qed.
Lemma price_lemma : forall c (price : nat -> nat -> R),
  (forall g v, 0 < price g v) ->
  (forall g t v, (g < co_geos c)%nat -> (t < co_times c)%nat -> (v < co_channels c)%nat ->
     co_spend c g t v = price g v * co_units c g t v) ->
  cp_findings (check_cost_per_media_unit c) = [(M_Eda.Info, NoCause)].
Proof.
  intros c price Hp H. pose proof (cost_lemma c) as L. cbv zeta in L. destruct L as (_ & (_ & _ & O & _) & S & _ & _ & F).
  apply F. split.
  - intros [[g t] v] (Hg & Ht & Hv & D). rewrite (H g t v Hg Ht Hv) in D. pose proof (Hp g v).
    destruct D as [[Z U]|[Z U]].
    + apply Rmult_integral in Z. lra.
    + rewrite U in Z. lra.
  - destruct (cp_outliers (check_cost_per_media_unit c)) as [|[a su] l] eqn:E; [reflexivity|]. exfalso.
    assert (Ha : In a (map fst (cp_outliers (check_cost_per_media_unit c)))) by (rewrite E; left; reflexivity).
    rewrite E in Ha. apply O in Ha. destruct Ha as (Hg & Ht & Hv & U & Out).
    set (ser := series (cp_cost_per_unit (check_cost_per_media_unit c)) (ce_geo a) (ce_var a)) in *.
    assert (K : forall x, In x ser -> x = price (ce_geo a) (ce_var a)).
    { intros x Hx. apply S in Hx. destruct Hx as (t & Ht' & N & E'). rewrite (H _ t _ Hg Ht' Hv) in E'.
      apply Rmult_eq_reg_r in E'; auto. }
    assert (In (ce_value a) ser) by (apply S; exists (ce_time a); auto).
    pose proof (count_occ_const ser _ K) as CO. assert (1 <= length ser)%nat by (destruct ser; [contradiction|cbn; lia]).
    apply (mostly_outlying ser (price (ce_geo a) (ce_var a)) ltac:(lia)) in Out. apply Out. apply K. exact H0.
Qed.
