(** Proofs of property C72. *)
From Coq Require Import Reals ZArith String List Bool Lia Lra.
From Verif Require Import M_Base M_Time S_Time P_Time P_Period M_InputData S_InputData.
Import ListNotations.
Local Open Scope string_scope.
Local Open Scope nat_scope.
Local Open Scope list_scope.

Lemma raise_tt : forall (b : bool) (e : exn) (k : result unit), raise_if b e k = Ok tt <-> b = false /\ k = Ok tt.
Proof. intros [|] e k; cbn [raise_if]; split; intros H; try discriminate; [destruct H; discriminate|auto|tauto]. Qed.
Lemma bind_tt : forall (a b : result unit), rbind a (fun _ => b) = Ok tt <-> a = Ok tt /\ b = Ok tt.
Proof. intros [[]|e] b; cbn [rbind]; split; intros H; try discriminate; [auto|tauto|destruct H; discriminate]. Qed.
Lemma existsb_none : forall A (f : A -> bool) l, existsb f l = false <-> (forall x, In x l -> f x = false).
Proof.
  intros A f l. induction l as [|a l IH]; cbn [existsb]; [split; [intros _ x []|reflexivity]|].
  rewrite orb_false_iff, IH. split.
  - intros [H1 H2] x [<-|Hx]; auto.
  - intros H. split; [apply H; left; reflexivity|intros x Hx; apply H; right; exact Hx].
Qed.
Lemma in_of_option : forall A B (f : A -> list B) o x, In x (of_option f o) <-> exists a, o = Some a /\ In x (f a).
Proof.
  intros A B f [a|] x; cbn [of_option].
  - split; [intros H; exists a; auto|intros (b & E & H); congruence].
  - split; [intros []|intros (b & E & _); discriminate].
Qed.
Lemma in_present : forall A B (f : A -> B) o x, In x (present f o) <-> exists a, o = Some a /\ x = f a.
Proof.
  intros A B f [a|] x; cbn [present].
  - split; [intros [H|[]]; exists a; auto|intros (b & E & H); left; congruence].
  - split; [intros []|intros (b & E & _); discriminate].
Qed.

Lemma vector_in : forall v x, In x (vector_values v) <-> in_vector v x.
Proof.
  intros v x. unfold vector_values, in_vector. rewrite in_map_iff. split.
  - intros (i & E & H). apply in_seq in H. exists i. split; [lia|auto].
  - intros (i & H & E). exists i. split; [auto|apply in_seq; lia].
Qed.
Lemma matrix_in : forall m x, In x (matrix_values m) <-> in_matrix m x.
Proof.
  intros m x. unfold matrix_values, in_matrix. rewrite in_flat_map. split.
  - intros (i & Hi & H). apply in_map_iff in H. destruct H as (j & E & Hj). apply in_seq in Hi, Hj. exists i, j. repeat split; [lia|lia|auto].
  - intros (i & j & Hi & Hj & E). exists i. split; [apply in_seq; lia|]. apply in_map_iff. exists j. split; [auto|apply in_seq; lia].
Qed.
Lemma panel_in : forall p x, In x (panel_values p) <-> in_panel p x.
Proof.
  intros p x. unfold panel_values, in_panel. rewrite in_flat_map. split.
  - intros (i & Hi & H). apply in_flat_map in H. destruct H as (j & Hj & H). apply in_map_iff in H. destruct H as (k & E & Hk).
    apply in_seq in Hi, Hj, Hk. exists i, j, k. repeat split; [lia|lia|lia|auto].
  - intros (i & j & k & Hi & Hj & Hk & E). exists i. split; [apply in_seq; lia|]. apply in_flat_map. exists j. split; [apply in_seq; lia|].
    apply in_map_iff. exists k. split; [auto|apply in_seq; lia].
Qed.
Lemma spend_in : forall s x, In x (spend_values s) <-> in_spend s x.
Proof.
  intros [p|n a] x; cbn [spend_values in_spend]; [apply panel_in|]. rewrite in_map_iff. split.
  - intros (k & E & H). apply in_seq in H. exists k. split; [lia|auto].
  - intros (k & H & E). exists k. split; [auto|apply in_seq; lia].
Qed.

(** *** Missing and negative values *)
Lemma nas_ok : forall d, validate_nas d = Ok tt <-> (forall x, entry_of d x -> x <> None).
Proof.
  intros d. unfold validate_nas. rewrite raise_tt, existsb_none.
  assert (Q : forall (P : option R -> Prop), (forall x, P x -> is_na x = false) <-> (forall x, P x -> x <> None)).
  { intros P. split; intros H x Hx; specialize (H x Hx); destruct x; cbn in *; congruence. }
  rewrite Q. split.
  - intros [H _] x E. apply H. rewrite !in_app_iff, !in_of_option, matrix_in, vector_in. unfold entry_of, panels in E.
    destruct E as [E|[E|[(m & E & F)|[(p & E & F)|(s & E & F)]]]]; [tauto|tauto| | |].
    + do 3 right. left. exists m. split; [exact E|apply matrix_in; exact F].
    + apply panel_in in F. cbn [In] in E. destruct E as [E|[E|[E|[E|[E|[E|[E|[E|[]]]]]]]]]; rewrite E.
      * do 2 right. left. eauto.
      * do 7 right. left. eauto.
      * do 8 right. left. eauto.
      * do 9 right. left. eauto.
      * do 10 right. left. eauto.
      * do 11 right. left. eauto.
      * do 12 right. eauto.
      * do 6 right. left. eauto.
    + apply spend_in in F. cbn [In] in E. destruct E as [E|[E|[]]]; rewrite E.
      * do 4 right. left. eauto.
      * do 5 right. left. eauto.
  - intros H. split; [|reflexivity]. intros x E. apply H. rewrite !in_app_iff, !in_of_option, matrix_in, vector_in in E. unfold entry_of, panels.
    destruct E as [E|[E|[E|[E|[E|[E|[E|[E|[E|[E|[E|[E|E]]]]]]]]]]]]; [tauto|tauto|..]; destruct E as (a & Ea & F).
    + do 3 right. left. exists a. split; [cbn; tauto|apply panel_in; exact F].
    + do 2 right. left. exists a. split; [exact Ea|apply matrix_in; exact F].
    + do 4 right. exists a. split; [cbn; tauto|apply spend_in; exact F].
    + do 4 right. exists a. split; [cbn; tauto|apply spend_in; exact F].
    + do 3 right. left. exists a. split; [cbn; tauto|apply panel_in; exact F].
    + do 3 right. left. exists a. split; [cbn; tauto|apply panel_in; exact F].
    + do 3 right. left. exists a. split; [cbn; tauto|apply panel_in; exact F].
    + do 3 right. left. exists a. split; [cbn; tauto|apply panel_in; exact F].
    + do 3 right. left. exists a. split; [cbn; tauto|apply panel_in; exact F].
    + do 3 right. left. exists a. split; [cbn; tauto|apply panel_in; exact F].
    + do 3 right. left. exists a. split; [cbn; tauto|apply panel_in; exact F].
Qed.

(** Entries of the data after [_validate_scenarios] that may not be negative. *)
Definition signed_kept (d : input) (x : option R) : Prop :=
  in_matrix (i_kpi d) x \/ (exists m, i_rpk d = Some m /\ in_matrix m x) \/
  (exists p, In (Some p) [i_reach d; i_frequency d; i_organic_reach d; i_organic_frequency d] /\ in_panel p x) \/
  (exists s, In (Some s) [i_media_spend d; i_rf_spend d] /\ in_spend s x).
Lemma negative_ok : forall d, validate_no_negative_values d = Ok tt <-> (forall x, signed_kept d (Some x) -> (0 <= x)%R).
Proof.
  intros d. unfold validate_no_negative_values. rewrite raise_tt, existsb_none.
  assert (Q : forall (P : option R -> Prop), (forall x, P x -> is_negative x = false) <-> (forall x, P (Some x) -> (0 <= x)%R)).
  { intros P. split; intros H.
    - intros x Hx. specialize (H (Some x) Hx). cbn in H. destruct (Rlt_dec x 0); [discriminate|lra].
    - intros [x|] Hx; cbn; [|reflexivity]. specialize (H x Hx). destruct (Rlt_dec x 0); [lra|reflexivity]. }
  rewrite Q. unfold signed_kept. split.
  - intros [H _] x E. apply H. rewrite !in_app_iff, !in_of_option, matrix_in.
    destruct E as [E|[(m & E & F)|[(p & E & F)|(s & E & F)]]]; [tauto| | |].
    + do 6 right. left. exists m. split; [exact E|apply matrix_in; exact F].
    + apply panel_in in F. cbn [In] in E. destruct E as [E|[E|[E|[E|[]]]]]; rewrite E.
      * do 2 right. left. eauto.
      * do 3 right. left. eauto.
      * do 4 right. left. eauto.
      * do 5 right. left. eauto.
    + apply spend_in in F. cbn [In] in E. destruct E as [E|[E|[]]]; rewrite E.
      * left. eauto.
      * right. left. eauto.
  - intros H. split; [|reflexivity]. intros x E. apply H. rewrite !in_app_iff, !in_of_option, matrix_in in E.
    destruct E as [E|[E|[E|[E|[E|[E|[E|E]]]]]]]; [..|tauto]; destruct E as (a & Ea & F).
    + do 3 right. exists a. split; [cbn; tauto|apply spend_in; exact F].
    + do 3 right. exists a. split; [cbn; tauto|apply spend_in; exact F].
    + do 2 right. left. exists a. split; [cbn; tauto|apply panel_in; exact F].
    + do 2 right. left. exists a. split; [cbn; tauto|apply panel_in; exact F].
    + do 2 right. left. exists a. split; [cbn; tauto|apply panel_in; exact F].
    + do 2 right. left. exists a. split; [cbn; tauto|apply panel_in; exact F].
    + right. left. exists a. split; [exact Ea|apply matrix_in; exact F].
Qed.

Lemma kpi_ok : forall d, validate_kpi d = Ok tt <->
  (i_kpi_type d = "revenue" \/ i_kpi_type d = "non_revenue") /\ (forall m, i_rpk d = Some m -> exists x, in_matrix m x /\ x <> Some 0%R).
Proof.
  intros d. unfold validate_kpi. rewrite !raise_tt.
  assert (A : negb (String.eqb (i_kpi_type d) "revenue") && negb (String.eqb (i_kpi_type d) "non_revenue") = false <->
              (i_kpi_type d = "revenue" \/ i_kpi_type d = "non_revenue")).
  { destruct (String.eqb_spec (i_kpi_type d) "revenue"), (String.eqb_spec (i_kpi_type d) "non_revenue"); cbn [negb andb]; intuition congruence. }
  rewrite A.
  assert (B : match i_rpk d with None => false | Some m => forallb is_zero (matrix_values m) end = false <->
              (forall m, i_rpk d = Some m -> exists x, in_matrix m x /\ x <> Some 0%R)).
  { destruct (i_rpk d) as [m|]; [|split; [intros _ m E; discriminate|reflexivity]].
    assert (Z : forall x, is_zero x = false <-> x <> Some 0%R).
    { intros [x|]; cbn; [|split; [discriminate|reflexivity]]. destruct (Req_EM_T x 0); split; intros H; congruence. }
    split.
    - intros H m' E. assert (m' = m) by congruence. subst m'. clear E.
      assert (W : exists x, In x (matrix_values m) /\ is_zero x = false).
      { revert H. generalize (matrix_values m). intros l. induction l as [|a l IH]; cbn [forallb]; [discriminate|].
        destruct (is_zero a) eqn:Ea; cbn [andb]; intros H.
        - destruct (IH H) as (x & H1 & H2). exists x. split; [right; exact H1|exact H2].
        - exists a. split; [left; reflexivity|exact Ea]. }
      destruct W as (x & H1 & H2). exists x. split; [apply matrix_in; exact H1|apply Z; exact H2].
    - intros H. destruct (H m eq_refl) as (x & H1 & H2). destruct (forallb is_zero (matrix_values m)) eqn:E; [|reflexivity].
      rewrite forallb_forall in E. specialize (E x (proj2 (matrix_in m x) H1)). apply Z in H2. congruence. }
  rewrite B. tauto.
Qed.

(** *** Coordinates *)
Lemma dim_ok : forall l, check_dim_match l = Ok tt <-> (forall x y, In x l -> In y l -> x = y).
Proof.
  intros [|a l]; cbn [check_dim_match]; [split; [intros _ x y []|reflexivity]|]. rewrite raise_tt, existsb_none. split.
  - intros [H _]. assert (K : forall x, In x (a :: l) -> x = a).
    { intros x [<-|Hx]; [reflexivity|]. specialize (H x Hx). apply negb_false_iff, Nat.eqb_eq in H. exact H. }
    intros x y Hx Hy. rewrite (K x Hx), (K y Hy). reflexivity.
  - intros H. split; [|reflexivity]. intros x Hx. apply negb_false_iff, Nat.eqb_eq. apply H; [right; exact Hx|left; reflexivity].
Qed.
Lemma coords_ok : forall l, check_coords_match l = Ok tt <-> (forall x y, In x l -> In y l -> x = y).
Proof.
  intros [|a l]; cbn [check_coords_match]; [split; [intros _ x y []|reflexivity]|]. rewrite raise_tt, existsb_none.
  assert (L : forall x, negb (labels_eqb x a) = false <-> x = a).
  { intros x. unfold labels_eqb. destruct (list_eq_dec string_dec x a); cbn; split; congruence. }
  split.
  - intros [H _]. assert (K : forall x, In x (a :: l) -> x = a) by (intros x [<-|Hx]; [reflexivity|apply L; auto]).
    intros x y Hx Hy. rewrite (K x Hx), (K y Hy). reflexivity.
  - intros H. split; [|reflexivity]. intros x Hx. apply L. apply H; [right; exact Hx|left; reflexivity].
Qed.
Lemma channels_ok : forall l, match_channels l = Ok tt <-> (forall x y, In x l -> In y l -> x = y).
Proof.
  intros l. unfold match_channels. rewrite bind_tt, dim_ok, coords_ok. split; [tauto|]. intros H. split; [|exact H].
  intros x y Hx Hy. apply in_map_iff in Hx, Hy. destruct Hx as (a & <- & Ha), Hy as (b & <- & Hb). rewrite (H a b Ha Hb). reflexivity.
Qed.
Lemma distinct_ok : forall l, distinct l = true <-> NoDup l.
Proof.
  induction l as [|a l IH]; cbn [distinct]; [split; [constructor|reflexivity]|].
  rewrite andb_true_iff, negb_true_iff, existsb_none, IH. split.
  - intros [H1 H2]. constructor; [|exact H2]. intros Hin. specialize (H1 a Hin). rewrite String.eqb_refl in H1. discriminate.
  - intros H. inversion H as [|? ? H1 H2]; subst. split; [|exact H2]. intros x Hx.
    destruct (String.eqb_spec a x); [subst; contradiction|reflexivity].
Qed.

Definition geos_agree (d : input) : Prop :=
  v_geos (i_population d) = m_geos (i_kpi d) /\ (forall p, In (Some p) (panels d) -> p_geos p = m_geos (i_kpi d)) /\
  (forall m, i_rpk d = Some m -> m_geos m = m_geos (i_kpi d)).
Lemma geo_coords_spec : forall d, (forall x y, In x (geo_coords d) -> In y (geo_coords d) -> x = y) <-> geos_agree d.
Proof.
  intros d. unfold geos_agree. split.
  - intros H. assert (K : forall x, In x (geo_coords d) -> x = m_geos (i_kpi d)) by (intros x Hx; apply H; [exact Hx|left; reflexivity]).
    split; [|split].
    + apply K. unfold geo_coords. right. rewrite !in_app_iff. do 3 right. left. left. reflexivity.
    + intros p Hp. apply K. unfold geo_coords. right. rewrite !in_app_iff, !in_present. unfold panels in Hp. cbn [In] in Hp.
      destruct Hp as [E|[E|[E|[E|[E|[E|[E|[E|[]]]]]]]]]; rewrite E.
      * do 2 right. left. eauto.
      * do 1 right. left. eauto.
      * do 4 right. left. eauto.
      * do 5 right. left. eauto.
      * do 6 right. left. eauto.
      * do 7 right. left. eauto.
      * do 8 right. left. eauto.
      * do 9 right. eauto.
    + intros m Hm. apply K. unfold geo_coords. right. rewrite !in_app_iff, !in_present. left. eauto.
  - intros (H1 & H2 & H3).
    assert (K : forall x, In x (geo_coords d) -> x = m_geos (i_kpi d)).
    { intros x Hx. unfold geo_coords in Hx. cbn [In] in Hx. rewrite !in_app_iff, !in_present in Hx. cbn [In] in Hx.
      assert (P : forall o, In o (panels d) -> (exists a, o = Some a /\ x = p_geos a) -> x = m_geos (i_kpi d)).
      { intros o Ho (a & -> & ->). apply H2. exact Ho. }
      destruct Hx as [Hx|[(m & Em & ->)|[Hx|[Hx|[[Hx|[]]|[Hx|[Hx|[Hx|[Hx|[Hx|Hx]]]]]]]]]]; try congruence; [apply H3; exact Em|..];
        (eapply P; [|exact Hx]; unfold panels; cbn [In]; tauto). }
    intros x y Hx Hy. rewrite (K x Hx), (K y Hy). reflexivity.
Qed.

Definition times_agree (d : input) : Prop :=
  (forall p, In (Some p) [i_controls d; i_non_media d] -> length (p_times p) = length (m_times (i_kpi d))) /\
  (forall m, i_rpk d = Some m -> length (m_times m) = length (m_times (i_kpi d))).
Lemma time_lengths_spec : forall d, (forall x y, In x (time_lengths d) -> In y (time_lengths d) -> x = y) <-> times_agree d.
Proof.
  intros d. unfold times_agree, time_lengths. split.
  - intros H. split.
    + intros p Hp. apply H; [right|left; reflexivity]. rewrite !in_app_iff, !in_present. cbn [In] in Hp.
      destruct Hp as [E|[E|[]]]; rewrite E; [right; left; eauto|right; right; eauto].
    + intros m Em. apply H; [right|left; reflexivity]. rewrite !in_app_iff, !in_present. left. eauto.
  - intros [H1 H2] x y Hx Hy.
    assert (K : forall x, In x (length (m_times (i_kpi d)) :: present (fun m => length (m_times m)) (i_rpk d) ++
       present (fun p => length (p_times p)) (i_controls d) ++ present (fun p => length (p_times p)) (i_non_media d)) -> x = length (m_times (i_kpi d))).
    { clear x y Hx Hy. intros x [Hx|Hx]; [auto|]. rewrite !in_app_iff, !in_present in Hx.
      destruct Hx as [(m & E & ->)|[(p & E & ->)|(p & E & ->)]]; [auto|apply H1; cbn; auto|apply H1; cbn; auto]. }
    rewrite (K x Hx), (K y Hy). reflexivity.
Qed.

Lemma two_agree : forall A B (f : A -> list string) (g : B -> list string) a b,
  (forall x y, In x (present f a ++ present g b) -> In y (present f a ++ present g b) -> x = y) <-> agree f g a b.
Proof.
  intros A B f g a b. unfold agree. split.
  - intros H x y -> ->. apply H; cbn; tauto.
  - intros H x y Hx Hy. rewrite in_app_iff, !in_present in Hx, Hy.
    destruct Hx as [(u & E1 & ->)|(u & E1 & ->)], Hy as [(v & E2 & ->)|(v & E2 & ->)]; try congruence; [auto|symmetry; auto].
Qed.
Lemma three_agree : forall A B C (f : A -> list string) (g : B -> list string) (h : C -> list string) a b c,
  (forall x y, In x (present f a ++ present g b ++ present h c) -> In y (present f a ++ present g b ++ present h c) -> x = y) <->
  agree f g a b /\ agree f h a c /\ agree g h b c.
Proof.
  intros A B C f g h a b c. unfold agree. split.
  - intros H. repeat split; intros x y E1 E2; subst; apply H; rewrite !in_app_iff, !in_present; eauto 6.
  - intros (H1 & H2 & H3) x y Hx Hy. rewrite !in_app_iff, !in_present in Hx, Hy.
    destruct Hx as [(u & E1 & ->)|[(u & E1 & ->)|(u & E1 & ->)]], Hy as [(v & E2 & ->)|[(v & E2 & ->)|(v & E2 & ->)]];
      try congruence; first [apply H1|apply H2|apply H3|symmetry; apply H1|symmetry; apply H2|symmetry; apply H3]; assumption.
Qed.
Lemma one_agrees : forall A (f : A -> list string) a, (forall x y, In x (present f a) -> In y (present f a) -> x = y).
Proof. intros A f [a|] x y; cbn; intuition congruence. Qed.

Lemma dimensions_ok : forall d, validate_dimensions d = Ok tt <->
  (forall x y, In x (map (@length string) (geo_coords d)) -> In y (map (@length string) (geo_coords d)) -> x = y) /\ times_agree d /\
  agree p_names spend_names (i_media d) (i_media_spend d) /\
  (agree p_names p_names (i_reach d) (i_frequency d) /\ agree p_names spend_names (i_reach d) (i_rf_spend d) /\
   agree p_names spend_names (i_frequency d) (i_rf_spend d)) /\
  agree p_names p_names (i_organic_reach d) (i_organic_frequency d).
Proof.
  intros d. unfold validate_dimensions. rewrite !bind_tt, !dim_ok, !channels_ok, time_lengths_spec, !two_agree, three_agree.
  split; [tauto|]. intros (H1 & H2 & H3 & H4 & H5).
  split; [exact H1|]. split; [exact H2|]. split; [exact H3|]. split; [exact H4|]. split; [apply one_agrees|]. split; [exact H5|].
  split; apply one_agrees.
Qed.

Definition channel_list (d : input) : list string :=
  of_option p_names (i_media d) ++ of_option p_names (i_reach d) ++ of_option p_names (i_organic_media d) ++
  of_option p_names (i_organic_reach d) ++ of_option p_names (i_non_media d).
Lemma media_channels_ok : forall d, validate_media_channels d = Ok tt <-> (i_media d <> None \/ i_reach d <> None) /\ NoDup (channel_list d).
Proof.
  intros d. unfold validate_media_channels, get_all_channels, get_all_paid_channels, channel_list.
  destruct (i_media d) as [m|], (i_reach d) as [r|]; cbn [rbind of_option app]; rewrite ?raise_tt, ?negb_false_iff, ?distinct_ok, <- ?app_assoc.
  - split; [intros [H _]; split; [left; discriminate|exact H]|tauto].
  - split; [intros [H _]; split; [left; discriminate|exact H]|tauto].
  - split; [intros [H _]; split; [right; discriminate|exact H]|tauto].
  - split; [discriminate|]. intros [[H|H] _]; congruence.
Qed.

Lemma interval_ok : forall l, check_interval_days l = Ok tt <-> evenly_spaced l.
Proof.
  intros l. unfold check_interval_days, evenly_spaced. rewrite <- is_regular_iff. split.
  - destruct (time_coordinates l) as [l'|e] eqn:E; cbn [rbind]; [|discriminate]. rewrite raise_tt, negb_false_iff. intros [H _].
    assert (l' = l).
    { unfold time_coordinates in E. destruct (Nat.leb (length l) 1); [discriminate|]. cbn [raise_if] in E.
      destruct (negb (nondecreasing l)); [discriminate|]. cbn [raise_if] in E. congruence. }
    subst l'. apply time_coordinates_ok in E. tauto.
  - intros (H1 & H2 & H3). assert (E : time_coordinates l = Ok l) by (apply time_coordinates_ok; tauto). rewrite E. cbn [rbind].
    rewrite H3. reflexivity.
Qed.
Lemma time_ok : forall d o, validate_time d o = Ok tt <-> (forall p, o = Some p -> length (m_times (i_kpi d)) <= length (p_times p)).
Proof.
  intros d [p|]; cbn [validate_time]; [|split; [intros _ p E; discriminate|reflexivity]]. rewrite raise_tt, Nat.ltb_ge. split.
  - intros [H _] q E. assert (q = p) by congruence. subst. exact H.
  - intros H. split; [apply H; reflexivity|reflexivity].
Qed.
Lemma times_ok : forall d, i_media d <> None \/ i_reach d <> None -> (validate_times d = Ok tt <->
  (forall p, In (Some p) (media_panels d) -> length (m_times (i_kpi d)) <= length (p_times p)) /\
  evenly_spaced (m_times (i_kpi d)) /\ (forall p, i_media d = Some p -> evenly_spaced (p_times p)) /\
  (forall p, i_media d = None -> i_reach d = Some p -> evenly_spaced (p_times p))).
Proof.
  intros d Hd. unfold validate_times. rewrite !bind_tt, !time_ok, interval_ok.
  assert (M : rbind (media_time d) check_interval_days = Ok tt <->
    (forall p, i_media d = Some p -> evenly_spaced (p_times p)) /\ (forall p, i_media d = None -> i_reach d = Some p -> evenly_spaced (p_times p))).
  { unfold media_time. destruct (i_media d) as [m|]; [|destruct (i_reach d) as [r|]]; cbn [rbind]; rewrite ?interval_ok.
    - split; [intros H; split; intros p E; [congruence|discriminate]|intros [H _]; apply H; reflexivity].
    - split; [intros H; split; intros p E; [discriminate|congruence]|intros [_ H]; apply H; reflexivity].
    - destruct Hd; congruence. }
  rewrite M. unfold media_panels.
  assert (P : (forall p, In (Some p) [i_media d; i_reach d; i_frequency d; i_organic_media d; i_organic_reach d; i_organic_frequency d] -> length (m_times (i_kpi d)) <= length (p_times p)) <->
    (forall p, i_media d = Some p -> length (m_times (i_kpi d)) <= length (p_times p)) /\ (forall p, i_reach d = Some p -> length (m_times (i_kpi d)) <= length (p_times p)) /\
    (forall p, i_frequency d = Some p -> length (m_times (i_kpi d)) <= length (p_times p)) /\ (forall p, i_organic_media d = Some p -> length (m_times (i_kpi d)) <= length (p_times p)) /\
    (forall p, i_organic_reach d = Some p -> length (m_times (i_kpi d)) <= length (p_times p)) /\ (forall p, i_organic_frequency d = Some p -> length (m_times (i_kpi d)) <= length (p_times p))).
  { split.
    - intros H. repeat split; intros p E; apply H; cbn [In]; tauto.
    - intros (H1 & H2 & H3 & H4 & H5 & H6) p Hp. cbn [In] in Hp. destruct Hp as [E|[E|[E|[E|[E|[E|[]]]]]]]; auto. }
  rewrite P. tauto.
Qed.
Lemma geos_ok : forall d, validate_geos d = Ok tt <-> NoDup (m_geos (i_kpi d)) /\ geos_agree d.
Proof.
  intros d. unfold validate_geos. rewrite raise_tt, existsb_none, coords_ok, geo_coords_spec. split.
  - intros [H1 H2]. split; [|exact H2]. apply distinct_ok. apply negb_false_iff. apply H1. left. reflexivity.
  - intros [H1 H2]. split; [|exact H2]. intros x Hx. apply negb_false_iff, distinct_ok.
    assert (E : x = m_geos (i_kpi d)) by (apply (proj2 (geo_coords_spec d) H2); [exact Hx|left; reflexivity]). rewrite E. exact H1.
Qed.

(** *** The constructor *)
Lemma new_input_inv : forall d d', new_input d = Ok d' <->
  d' = validate_scenarios d /\ validate_nas d = Ok tt /\ validate_kpi d = Ok tt /\ validate_dimensions d' = Ok tt /\
  validate_media_channels d' = Ok tt /\ validate_times d' = Ok tt /\ validate_geos d' = Ok tt /\ validate_no_negative_values d' = Ok tt.
Proof.
  intros d d'. unfold new_input. split.
  - intros H. destruct (validate_nas d) as [[]|] eqn:E1; cbn [rbind] in H; [|discriminate].
    destruct (validate_kpi d) as [[]|] eqn:E2; cbn [rbind] in H; [|discriminate]. cbv zeta in H.
    destruct (validate_dimensions _) as [[]|] eqn:E3; cbn [rbind] in H; [|discriminate].
    destruct (validate_media_channels _) as [[]|] eqn:E4; cbn [rbind] in H; [|discriminate].
    destruct (validate_times _) as [[]|] eqn:E5; cbn [rbind] in H; [|discriminate].
    destruct (validate_geos _) as [[]|] eqn:E6; cbn [rbind] in H; [|discriminate].
    destruct (validate_no_negative_values _) as [[]|] eqn:E7; cbn [rbind] in H; [|discriminate].
    assert (E : d' = validate_scenarios d) by congruence. rewrite E. tauto.
  - intros (-> & E1 & E2 & E3 & E4 & E5 & E6 & E7). rewrite E1, E2. cbn [rbind]. cbv zeta. rewrite E3, E4, E5, E6, E7. reflexivity.
Qed.

Lemma scenarios_revenue : forall d, i_kpi_type d = "revenue" -> with_ones d (validate_scenarios d).
Proof.
  intros d E. unfold validate_scenarios, with_ones. rewrite E. cbn [String.eqb Ascii.eqb Bool.eqb]. right. split; [reflexivity|]. split.
  - exists (ones (i_kpi d)). cbn. split; [reflexivity|split; [reflexivity|split; [reflexivity|]]]. intros x (i & j & _ & _ & ->). reflexivity.
  - cbn. repeat split.  
Qed.
Lemma scenarios_other : forall d, i_kpi_type d <> "revenue" -> validate_scenarios d = d.
Proof. intros d E. unfold validate_scenarios. destruct (String.eqb_spec (i_kpi_type d) "revenue"); [contradiction|reflexivity]. Qed.

Lemma accepts : forall d, new_input d = Ok (validate_scenarios d) <-> acceptable d.
Proof.
  intros d. rewrite new_input_inv, nas_ok, kpi_ok, dimensions_ok, media_channels_ok, geos_ok, negative_ok. unfold acceptable.
  assert (Len : geos_agree (validate_scenarios d) ->
    (forall x y, In x (map (@length string) (geo_coords (validate_scenarios d))) -> In y (map (@length string) (geo_coords (validate_scenarios d))) -> x = y)).
  { intros H x y Hx Hy. apply in_map_iff in Hx, Hy. destruct Hx as (a & <- & Ha), Hy as (b & <- & Hb).
    rewrite (proj2 (geo_coords_spec _) H a b Ha Hb). reflexivity. }
  destruct (string_dec (i_kpi_type d) "revenue") as [E|E].
  - set (d' := validate_scenarios d) in *.
    assert (F : i_kpi d' = i_kpi d /\ i_population d' = i_population d /\ panels d' = panels d /\ media_panels d' = media_panels d /\
      i_media d' = i_media d /\ i_media_spend d' = i_media_spend d /\ i_reach d' = i_reach d /\ i_frequency d' = i_frequency d /\
      i_rf_spend d' = i_rf_spend d /\ i_organic_reach d' = i_organic_reach d /\ i_organic_frequency d' = i_organic_frequency d /\
      channel_list d' = channel_list d /\ i_rpk d' = Some (ones (i_kpi d)) /\ [i_controls d'; i_non_media d'] = [i_controls d; i_non_media d]).
    { unfold d', validate_scenarios. rewrite E. cbn [String.eqb Ascii.eqb Bool.eqb]. repeat split; reflexivity. }
    destruct F as (F1 & F2 & F3 & F4 & F5 & F6 & F7 & F8 & F9 & F10 & F11 & F12 & F13 & F14).
    assert (T : (forall x, signed_kept d' (Some x) -> (0 <= x)%R) <-> (forall x, signed_entry d (Some x) -> (0 <= x)%R)).
    { unfold signed_kept, signed_entry. rewrite F1, F6, F7, F8, F9, F10, F11, F13. split; intros H x Hx; [apply H; tauto|].
      destruct Hx as [Hx|[(m & Em & Hx)|Hx]]; [apply H; tauto| |apply H; tauto].
      assert (m = ones (i_kpi d)) by congruence. subst m. destruct Hx as (i & j & _ & _ & Hx). cbn in Hx.
      assert (x = 1%R) by congruence. subst. lra. }
    rewrite T. unfold geos_agree, times_agree in *. rewrite F1, F2, F3, F5, F6, F7, F8, F9, F10, F11, F12, F13, F14 in *.
    fold (channel_list d). split.
    + intros (_ & H1 & [H2 H3] & (H4 & [H5 H6] & H7 & (H8 & H9 & H10) & H11) & [H12 H13] & H14 & [H15 (H16 & H17 & H18)] & H19).
      apply times_ok in H14; [|rewrite F5, F7; exact H12]. rewrite F4, F1, F5, F7 in H14. destruct H14 as (H20 & H21 & H22 & H23).
      repeat (split; [first [assumption | intros m Hm Hr; congruence] |]). assumption.
    + intros (H2 & H3 & H1 & H19 & H15 & H16 & H17 & _ & H5 & _ & H20 & H21 & H22 & H23 & H12 & H7 & H8 & H9 & H10 & H11 & H13).
      assert (G : v_geos (i_population d) = m_geos (i_kpi d) /\ (forall p, In (Some p) (panels d) -> p_geos p = m_geos (i_kpi d)) /\
        (forall m, Some (ones (i_kpi d)) = Some m -> m_geos m = m_geos (i_kpi d))).
      { split; [exact H16|split; [exact H17|]]. intros m Em. assert (m = ones (i_kpi d)) by congruence. subst. reflexivity. }
      split; [reflexivity|]. split; [exact H1|]. split; [split; assumption|].
      split; [split; [exact (Len G)|split; [split; [exact H5|]|tauto]]|].
      { intros m Em. assert (m = ones (i_kpi d)) by congruence. subst. reflexivity. }
      split; [tauto|]. split; [|split; [split; assumption|exact H19]].
      apply times_ok; [rewrite F5, F7; exact H12|]. rewrite F4, F1, F5, F7. tauto.
  - rewrite (scenarios_other d E) in *.
    assert (T : (forall x, signed_kept d (Some x) -> (0 <= x)%R) <-> (forall x, signed_entry d (Some x) -> (0 <= x)%R)).
    { unfold signed_kept, signed_entry. split; intros H x Hx; apply H; tauto. }
    rewrite T. fold (channel_list d). unfold geos_agree, times_agree in *. split.
    + intros (_ & H1 & [H2 H3] & (H4 & [H5 H6] & H7 & (H8 & H9 & H10) & H11) & [H12 H13] & H14 & [H15 (H16 & H17 & H18)] & H19).
      apply times_ok in H14; [|exact H12]. destruct H14 as (H20 & H21 & H22 & H23).
      repeat (split; [first [assumption | intros m Hm Hr; auto] |]). assumption.
    + intros (H2 & H3 & H1 & H19 & H15 & H16 & H17 & H18 & H5 & H6 & H20 & H21 & H22 & H23 & H12 & H7 & H8 & H9 & H10 & H11 & H13).
      assert (G : v_geos (i_population d) = m_geos (i_kpi d) /\ (forall p, In (Some p) (panels d) -> p_geos p = m_geos (i_kpi d)) /\
        (forall m, i_rpk d = Some m -> m_geos m = m_geos (i_kpi d))) by auto.
      split; [reflexivity|]. split; [exact H1|]. split; [split; assumption|].
      split; [split; [exact (Len G)|split; [split; [exact H5|auto]|tauto]]|].
      split; [tauto|]. split; [|split; [split; assumption|exact H19]].
      apply times_ok; [exact H12|]. tauto.
Qed.

(** Every refusal is a ValueError. *)
Definition fine {A} (r : result A) : Prop := forall e, r = Err e -> e = ValueError.
Lemma fine_bind : forall A B (r : result A) (f : A -> result B), fine r -> (forall a, r = Ok a -> fine (f a)) -> fine (rbind r f).
Proof. intros A B [a|e] f H1 H2; cbn [rbind]; [apply H2; reflexivity|]. intros e' E. apply H1. congruence. Qed.
Lemma fine_raise : forall A b (k : result A), fine k -> fine (raise_if b ValueError k).
Proof. intros A [|] k H; cbn [raise_if]; [intros e E; congruence|exact H]. Qed.
Lemma fine_ok : forall A (a : A), fine (Ok a).
Proof. intros A a e E. discriminate. Qed.
Lemma fine_channels : forall l, fine (match_channels l).
Proof.
  intros l. unfold match_channels, check_dim_match, check_coords_match. apply fine_bind; [|intros _ _].
  - destruct (map _ l); [apply fine_ok|apply fine_raise, fine_ok].
  - destruct l; [apply fine_ok|apply fine_raise, fine_ok].
Qed.
Lemma new_input_fine : forall d, fine (new_input d).
Proof.
  intros d. unfold new_input. apply fine_bind; [apply fine_raise, fine_ok|intros _ _].
  apply fine_bind; [apply fine_raise, fine_raise, fine_ok|intros _ _]. cbv zeta. generalize (validate_scenarios d). clear d. intros d.
  assert (D : forall l, fine (check_dim_match l)) by (intros [|a l]; [apply fine_ok|apply fine_raise, fine_ok]).
  apply fine_bind; [|intros _ _].
  { unfold validate_dimensions. do 7 (apply fine_bind; [first [apply D|apply fine_channels]|intros _ _]). apply fine_channels. }
  assert (P : fine (get_all_paid_channels d)).
  { unfold get_all_paid_channels. destruct (i_media d), (i_reach d); try apply fine_ok. intros e E. congruence. }
  apply fine_bind; [|intros [] Hc].
  { unfold validate_media_channels, get_all_channels. apply fine_bind; [apply fine_bind; [exact P|intros c _; apply fine_ok]|].
    intros c _. apply fine_raise, fine_ok. }
  apply media_channels_ok in Hc. destruct Hc as [Hc _].
  assert (I : forall l, fine (check_interval_days l)).
  { intros l. unfold check_interval_days, time_coordinates. apply fine_bind; [apply fine_raise, fine_raise, fine_ok|intros l' _; apply fine_raise, fine_ok]. }
  assert (T : forall o, fine (validate_time d o)) by (intros [p|]; [apply fine_raise, fine_ok|apply fine_ok]).
  apply fine_bind; [|intros _ _].
  { unfold validate_times. repeat (apply fine_bind; [first [apply T|apply I]|intros _ _]). apply fine_bind; [|intros l _; apply I].
    unfold media_time. destruct (i_media d), (i_reach d); try apply fine_ok. destruct Hc; congruence. }
  apply fine_bind; [|intros _ _].
  { unfold validate_geos. apply fine_raise. unfold check_coords_match. destruct (geo_coords d); [apply fine_ok|apply fine_raise, fine_ok]. }
  apply fine_bind; [apply fine_raise, fine_ok|intros _ _; apply fine_ok].
Qed.
