(** Proofs for property C74. *)
From Coq Require Import Reals ZArith String List Bool Lia.
From Verif Require Import M_Base M_Time M_Spec M_Knots M_Hyper S_Hyper M_DistSerde S_DistSerde P_DistSerde M_InputData S_InputData M_Marketing S_Marketing
  M_ModelSerde S_ModelSerde.
Import ListNotations.
Local Open Scope string_scope.
Local Open Scope nat_scope.
Local Open Scope list_scope.

Lemma nc3_array_ok : forall a b, nc3_array a = Ok b -> b = a.
Proof. intros [l|l|l|l] b H; cbn [nc3_array] in H; unfold raise_if in H; try congruence. destruct (existsb _ l); congruence. Qed.
Lemma nc3_array_fits : forall a, nc3_array a = Ok a <-> forall l z, a = NcInts l -> In z l -> fits32 z.
Proof.
  intros [l|l|l|l]; cbn [nc3_array]; unfold raise_if; try (split; [intros _ l' z E; discriminate E|reflexivity]).
  split.
  - destruct (existsb _ l) eqn:E; [discriminate|]. intros _ l' z E' Hz. assert (l' = l) by congruence. subst.
    assert (N : negb ((-2147483648 <=? z)%Z && (z <=? 2147483647)%Z) = false).
    { destruct (negb _) eqn:X; [|reflexivity]. assert (Y : existsb (fun z => negb ((-2147483648 <=? z)%Z && (z <=? 2147483647)%Z)) l = true).
      { apply existsb_exists. exists z. auto. } congruence. }
    apply negb_false_iff, andb_true_iff in N. destruct N as [N1 N2]. apply Z.leb_le in N1, N2. split; assumption.
  - intros H. destruct (existsb _ l) eqn:E; [|reflexivity]. apply existsb_exists in E. destruct E as (z & Hz & N).
    destruct (H l z eq_refl Hz) as [A B]. apply Z.leb_le in A, B. rewrite A, B in N. discriminate.
Qed.

Lemma all_ok_same : forall A (f : A -> result A) l, (forall x, In x l -> f x = Ok x) -> all_ok f l = Ok l.
Proof.
  intros A f l H. induction l as [|x l IH]; [reflexivity|]. cbn [all_ok]. rewrite H by (left; reflexivity). cbn [rbind].
  rewrite IH by (intros y Hy; apply H; right; exact Hy). reflexivity.
Qed.
Lemma all_ok_identity : forall A (f : A -> result A) l l', (forall x y, f x = Ok y -> y = x) -> all_ok f l = Ok l' -> l' = l /\ forall x, In x l -> f x = Ok x.
Proof.
  intros A f l l' H E. apply all_ok_forall in E. induction E as [|x y l l' X Hr IH]; [split; [reflexivity|contradiction]|].
  destruct IH as [-> IH]. pose proof (H _ _ X). subst. split; [reflexivity|]. intros z [<-|Hz]; auto.
Qed.

Definition group_small (g : dataset) : Prop := forall l z, in_group g (NcInts l) -> In z l -> fits32 z.
Lemma to_netcdf_ok : forall g, group_small g <-> to_netcdf g = Ok g.
Proof.
  intros [attrs coords vars]. unfold to_netcdf, group_small, in_group. cbn [ds_coords ds_vars ds_attrs]. split.
  - intros H. rewrite all_ok_same.
    2: { intros [n a] Hin. cbn [fst snd]. assert (X : nc3_array a = Ok a) by (apply nc3_array_fits; intros l z -> Hz; apply (H l z); eauto).
         rewrite X. reflexivity. }
    cbn [rbind]. rewrite all_ok_same; [reflexivity|]. intros [n [dims a]] Hin. cbn [fst snd].
    assert (X : nc3_array a = Ok a) by (apply nc3_array_fits; intros l z -> Hz; apply (H l z); eauto). rewrite X. reflexivity.
  - intros E. destruct (all_ok _ coords) as [cs|] eqn:Ec; cbn [rbind] in E; [|discriminate].
    destruct (all_ok _ vars) as [vs|] eqn:Ev; cbn [rbind] in E; [|discriminate].
    apply all_ok_identity in Ec. 2: { intros [n a] [n' a'] X. cbn [fst snd] in X. destruct (nc3_array a) as [b|] eqn:Eb; cbn [rbind] in X; [|discriminate].
      apply nc3_array_ok in Eb. congruence. }
    apply all_ok_identity in Ev. 2: { intros [n [di a]] [n' [di' a']] X. cbn [fst snd] in X. destruct (nc3_array a) as [b|] eqn:Eb; cbn [rbind] in X; [|discriminate].
      apply nc3_array_ok in Eb. congruence. }
    destruct Ec as [_ Ec], Ev as [_ Ev]. intros l z [[n Hin]|(n & dims & Hin)] Hz.
    + pose proof (Ec _ Hin) as X. cbn [fst snd] in X. destruct (nc3_array (NcInts l)) as [b|] eqn:Eb; cbn [rbind] in X; [|discriminate].
      pose proof (nc3_array_ok _ _ Eb). subst b. apply (proj1 (nc3_array_fits _) Eb l z eq_refl Hz).
    + pose proof (Ev _ Hin) as X. cbn [fst snd] in X. destruct (nc3_array (NcInts l)) as [b|] eqn:Eb; cbn [rbind] in X; [|discriminate].
      pose proof (nc3_array_ok _ _ Eb). subst b. apply (proj1 (nc3_array_fits _) Eb l z eq_refl Hz).
Qed.
Lemma to_netcdf_err : forall g r, to_netcdf g = Ok r -> r = g.
Proof.
  intros [attrs coords vars] r E. unfold to_netcdf in E. cbn [ds_coords ds_vars ds_attrs] in E.
  destruct (all_ok _ coords) as [cs|] eqn:Ec; cbn [rbind] in E; [|discriminate].
  destruct (all_ok _ vars) as [vs|] eqn:Ev; cbn [rbind] in E; [|discriminate].
  apply all_ok_identity in Ec. 2: { intros [n a] [n' a'] X. cbn [fst snd] in X. destruct (nc3_array a) as [b|] eqn:Eb; cbn [rbind] in X; [|discriminate].
    apply nc3_array_ok in Eb. congruence. }
  apply all_ok_identity in Ev. 2: { intros [n [di a]] [n' [di' a']] X. cbn [fst snd] in X. destruct (nc3_array a) as [b|] eqn:Eb; cbn [rbind] in X; [|discriminate].
    apply nc3_array_ok in Eb. congruence. }
  destruct Ec as [-> _], Ev as [-> _]. congruence.
Qed.
Lemma removed_after : forall g, group_after g (remove_created_at g).
Proof.
  intros g. unfold group_after, remove_created_at. cbn [ds_coords ds_vars ds_attrs]. split; [reflexivity|split; [reflexivity|]].
  intros a. rewrite filter_In. split; intros [H1 H2]; (split; [exact H1|]).
  - intros E. rewrite E, String.eqb_refl in H2. discriminate.
  - apply negb_true_iff, String.eqb_neq. exact H2.
Qed.
Lemma write_group_ok : forall g, group_small g -> exists g', write_group g = Ok g' /\ group_after g g'.
Proof.
  intros g H. exists (remove_created_at g). split; [|apply removed_after]. unfold write_group. apply to_netcdf_ok. exact H.
Qed.
Lemma write_group_inv : forall g g', write_group g = Ok g' -> group_small g /\ group_after g g'.
Proof.
  intros g g' H. unfold write_group in H. pose proof (to_netcdf_err _ _ H) as E. subst g'. split; [|apply removed_after].
  apply to_netcdf_ok in H. exact H.
Qed.

Lemma samples_written : forall s, integers_fit s -> exists s', serialize_samples s = Ok s' /\ samples_after s s'.
Proof.
  intros [pr po aux] H. unfold serialize_samples. cbn [s_prior s_posterior s_aux].
  assert (P : exists pr', optional write_group pr = Ok pr' /\ both group_after pr pr').
  { destruct pr as [g|]; cbn [optional]; [|exists None; split; [reflexivity|exact Logic.I]].
    destruct (write_group_ok g) as (g' & E & A); [intros l z; apply H; left; reflexivity|]. rewrite E. exists (Some g'). split; [reflexivity|exact A]. }
  assert (Q : exists po', optional write_group po = Ok po' /\ both group_after po po').
  { destruct po as [g|]; cbn [optional]; [|exists None; split; [reflexivity|exact Logic.I]].
    destruct (write_group_ok g) as (g' & E & A); [intros l z; apply H; right; left; reflexivity|]. rewrite E. exists (Some g'). split; [reflexivity|exact A]. }
  assert (X : exists aux', all_ok (fun g => rbind (write_group (snd g)) (fun d => Ok (fst g, d))) aux = Ok aux' /\
     Forall2 (fun g g' => fst g' = fst g /\ group_after (snd g) (snd g')) aux aux').
  { assert (Ha : forall n g, In (n, g) aux -> group_small g).
    { intros n g Hin l z. apply H. right. right. exists n. exact Hin. }
    clear H P Q. induction aux as [|[n g] aux IH]; [exists []; split; [reflexivity|constructor]|]. cbn [all_ok fst snd].
    destruct (write_group_ok g) as (g' & E & A); [apply (Ha n); left; reflexivity|]. rewrite E. cbn [rbind].
    destruct IH as (aux' & Ea & F); [intros n' g1 Hin; apply (Ha n'); right; exact Hin|]. rewrite Ea. cbn [rbind].
    exists ((n, g') :: aux'). split; [reflexivity|]. constructor; [split; [reflexivity|exact A]|exact F]. }
  destruct P as (pr' & -> & P), Q as (po' & -> & Q), X as (aux' & X & F). cbn [rbind]. rewrite X. cbn [rbind].
  exists (mkSamples pr' po' aux'). split; [reflexivity|]. split; [exact P|split; [exact Q|exact F]].
Qed.
Lemma samples_written_inv : forall s s', serialize_samples s = Ok s' -> integers_fit s /\ samples_after s s'.
Proof.
  intros [pr po aux] s' E. unfold serialize_samples in E. cbn [s_prior s_posterior s_aux] in E.
  destruct (optional write_group pr) as [pr'|] eqn:Ep; cbn [rbind] in E; [|discriminate].
  destruct (optional write_group po) as [po'|] eqn:Eq; cbn [rbind] in E; [|discriminate].
  destruct (all_ok _ aux) as [aux'|] eqn:Ea; cbn [rbind] in E; [|discriminate].
  assert (s' = mkSamples pr' po' aux') by congruence. subst s'. clear E.
  assert (P : forall o o', optional write_group o = Ok o' -> (forall g, o = Some g -> group_small g) /\ both group_after o o').
  { intros [g|] o' X; cbn [optional] in X.
    - destruct (write_group g) as [g'|] eqn:Eg; cbn [rbind] in X; [|discriminate]. apply write_group_inv in Eg. destruct Eg as [S A].
      assert (o' = Some g') by congruence. subst o'. split; [intros g1 E1; assert (g1 = g) by congruence; subst; exact S|exact A].
    - assert (o' = None) by congruence. subst. split; [discriminate|exact Logic.I]. }
  apply P in Ep. apply P in Eq. destruct Ep as [S1 A1], Eq as [S2 A2]. apply all_ok_forall in Ea.
  assert (X : (forall n g, In (n, g) aux -> group_small g) /\ Forall2 (fun g g' => fst g' = fst g /\ group_after (snd g) (snd g')) aux aux').
  { clear S1 A1 S2 A2. induction Ea as [|[n g] [n' g'] aux aux' X Hr IH]; [split; [contradiction|constructor]|]. destruct IH as [I1 I2]. cbn [fst snd] in X.
    destruct (write_group g) as [g1|] eqn:Eg; cbn [rbind] in X; [|discriminate]. apply write_group_inv in Eg. destruct Eg as [S A].
    assert (n' = n /\ g' = g1) as [-> ->] by (split; congruence). split.
    - intros n1 g2 [Hin|Hin]; [assert (g2 = g) by congruence; subst; exact S|apply (I1 n1); exact Hin].
    - constructor; [split; [reflexivity|exact A]|exact I2]. }
  destruct X as [S3 A3]. split; [|split; [exact A1|split; [exact A2|exact A3]]].
  intros g l z [Hg|[Hg|(n & Hg)]]; [apply S1; exact Hg|apply S2; exact Hg|apply (S3 n); exact Hg].
Qed.

(** The data checks. *)
Section Eda.
Variable source : nat -> option string.
Variable hash : string -> string.
Lemma hashed_total : forall reg : registry, (forall k f, In (k, f) reg -> source f <> None) -> exists h, hashed_registry source hash reg = Ok h.
Proof.
  intros reg H. unfold hashed_registry. induction reg as [|[k f] reg IH]; [exists []; reflexivity|]. cbn [all_ok snd fst].
  destruct (source f) as [s|] eqn:E; [|exfalso; exact (H k f (or_introl eq_refl) E)]. cbn [rbind].
  destruct IH as [h ->]; [intros k' f' Hin; apply (H k' f'); right; exact Hin|]. cbn [rbind]. eexists. reflexivity.
Qed.
Lemma validate_same : forall (reg : registry) h, NoDup (map fst reg) -> hashed_registry source hash reg = Ok h -> validate source hash reg h = Ok tt.
Proof.
  intros reg h N E. pose proof (hashed_spec source hash reg h E) as F.
  assert (V : validate_entries source hash reg h = Ok tt).
  { apply validate_entries_ok. apply Forall_forall. intros [k x] Hin.
    assert (G : exists f s, In (k, f) reg /\ source f = Some s /\ x = hash s).
    { clear E N. induction F as [|[k1 f1] [k2 x2] reg h He Hr IH]; [contradiction|]. cbn [fst snd] in He. destruct He as [-> (s & Es & ->)].
      destruct Hin as [Hin|Hin]; [|destruct (IH Hin) as (f & s' & H1 & H2); exists f, s'; split; [right; exact H1|exact H2]].
      exists f1, s. assert (k2 = k /\ hash s = x) as [-> <-] by (split; congruence). split; [left; reflexivity|auto]. }
    destruct G as (f & s & Hf & Hs & ->). exists f, s. cbn [fst snd]. split; [apply lookup_unique; assumption|auto]. }
  unfold validate. destruct h; [destruct reg; [reflexivity|reflexivity]|exact V].
Qed.
Lemma aggregation_round : forall (reg : registry) l, NoDup (map fst reg) -> ~ In "" (map fst reg) -> (forall n f, In (n, f) l -> In f (map snd reg)) ->
  exists p, aggregation_to_proto reg l = Ok p /\ aggregation_from_proto reg p = Ok l.
Proof.
  intros reg l N Ne H. unfold aggregation_to_proto, aggregation_from_proto.
  induction l as [|[n f] l IH]; [exists []; split; reflexivity|]. cbn [all_ok fst snd].
  destruct (key_exists reg f) as [k Ek]; [apply (H n); left; reflexivity|]. rewrite Ek. cbn [rbind].
  destruct IH as (p & -> & P); [intros n' f' Hin; apply (H n'); right; exact Hin|]. cbn [rbind].
  exists ((n, k) :: p). split; [reflexivity|]. cbn [all_ok fst snd]. apply key_found in Ek.
  assert (Nk : String.eqb k "" = false).
  { apply String.eqb_neq. intros ->. apply Ne. apply in_map_iff. exists ("", f). auto. }
  rewrite Nk. cbn [raise_if]. rewrite (lookup_unique _ reg k f N Ek). cbn [rbind]. rewrite P. reflexivity.
Qed.
Lemma eda_round : forall (reg : registry) e, NoDup (map fst reg) -> (forall k f, In (k, f) reg -> source f <> None) -> eda_registered reg e ->
  exists p, serialize_eda source hash reg e = Ok p /\ forall force, deserialize_eda source hash reg force p = Ok e.
Proof.
  intros reg [cs ns [v1 v2 v3 v4] [c1 c2 c3] k [s1 s2]] N S [Ne R]. cbn [e_controls e_non_media] in R. unfold serialize_eda. cbn [e_controls e_non_media].
  destruct (aggregation_round reg cs N Ne) as (pc & -> & Pc); [intros n f Hin; apply (R n f); apply in_or_app; left; exact Hin|].
  destruct (aggregation_round reg ns N Ne) as (pn & -> & Pn); [intros n f Hin; apply (R n f); apply in_or_app; right; exact Hin|].
  destruct (hashed_total reg S) as [h Eh]. rewrite Eh. cbn [rbind]. eexists. split; [reflexivity|]. intros force. unfold deserialize_eda.
  cbn [pe_registry pe_config]. rewrite (validate_same reg h N Eh).
  assert (X : (if force then Ok tt else Ok tt) = Ok tt) by (destruct force; reflexivity). rewrite X. cbn [rbind]. rewrite Pc. cbn [rbind]. rewrite Pn. cbn [rbind].
  reflexivity.
Qed.
End Eda.

(** The sizes of the samples. *)
Lemma coord_size_labelled : forall g c n, coord_size g c = n <-> labelled g c n.
Proof.
  intros g c n. unfold coord_size, labelled. destruct (lookup c (ds_coords g)) as [a|].
  - split; [intros E; left; exists a; auto|]. intros [(b & Eb & E)|[E _]]; [congruence|discriminate].
  - split; [intros <-; right; auto|]. intros [(b & Eb & _)|[_ E]]; [discriminate|congruence].
Qed.
Lemma names_number : forall o, number o (names_of o).
Proof. intros [p|]; reflexivity. Qed.
Lemma number_names : forall o n, number o n -> n = names_of o.
Proof. intros [p|] n; cbn [number names_of]; congruence. Qed.
Lemma group_ok_iff : forall d k g, group_ok d k g = true <-> group_fits d k g.
Proof.
  intros d k g. unfold group_ok, group_fits, expected_sizes. cbn [forallb fst snd]. rewrite !andb_true_iff, !Nat.eqb_eq, !coord_size_labelled.
  pose proof names_number as N. split.
  - intros (H1 & H2 & H3 & H4 & H5 & H6 & H7 & H8 & H9 & _). repeat (split; [first [assumption | eexists; split; [apply N|assumption]]|]).
    eexists; split; [apply N|assumption].
  - intros (H1 & H4 & H3 & (n2 & N2 & H2) & (n5 & N5 & H5) & (n6 & N6 & H6) & (n7 & N7 & H7) & (n8 & N8 & H8) & (n9 & N9 & H9)).
    apply number_names in N2, N5, N6, N7, N8, N9. subst. repeat (split; [assumption|]). reflexivity.
Qed.
Lemma validate_samples_iff : forall d k s, validate_samples d k s = Ok tt <-> samples_fit d k s.
Proof.
  intros d k [pr po aux]. unfold validate_samples, samples_fit, raise_if. cbn [s_prior s_posterior]. split.
  - destruct pr as [g|]; [destruct (group_ok d k g) eqn:E1; cbn [negb]; [|discriminate]|]; (destruct po as [g'|]; [destruct (group_ok d k g') eqn:E2; cbn [negb]; [|discriminate]|]);
      intros _ h [H|H]; try discriminate H; apply group_ok_iff; congruence.
  - intros H. destruct pr as [g|]; [pose proof (H g (or_introl eq_refl)) as G; apply group_ok_iff in G; rewrite G; cbn [negb]|];
      (destruct po as [g'|]; [pose proof (H g' (or_intror eq_refl)) as G'; apply group_ok_iff in G'; rewrite G'; reflexivity|reflexivity]).
Qed.
Lemma same_names : forall (rel : panel -> panel -> Prop) a b, (forall p q, rel p q -> p_names q = p_names p) -> both rel a b -> names_of b = names_of a.
Proof. intros rel [p|] [q|] H B; cbn [both names_of] in *; try contradiction; [|reflexivity]. rewrite (H p q B). reflexivity. Qed.
Lemma restored_sizes : forall d e k, restored (panel_by rounded_down) d e -> expected_sizes e k = expected_sizes d k.
Proof.
  intros d e k ((Kg & Kt & _) & _ & _ & Co & _ & Me & _ & Re & _ & _ & Om & Or & _ & Nm & _). unfold expected_sizes.
  assert (P : forall (rel : option R -> option R -> Prop) p q, panel_by rel p q -> p_names q = p_names p) by (intros rel p q (_ & _ & E & _); exact E).
  rewrite Kg, Kt. rewrite (same_names _ _ _ (P eq) Co), (same_names _ _ _ (P eq) Me), (same_names _ _ _ (P rounded_down) Re),
    (same_names _ _ _ (P eq) Om), (same_names _ _ _ (P rounded_down) Or), (same_names _ _ _ (P eq) Nm). reflexivity.
Qed.
Lemma after_fits : forall d e k s s', restored (panel_by rounded_down) d e -> samples_after s s' -> samples_fit d k s -> samples_fit e k s'.
Proof.
  intros d e k s s' Rs (A1 & A2 & _) F.
  assert (G : forall g g', group_after g g' -> group_fits d k g -> group_fits e k g').
  { intros g g' (Ec & _ & _) X. apply group_ok_iff. apply group_ok_iff in X. unfold group_ok in *. rewrite (restored_sizes d e k Rs).
    unfold coord_size in *. rewrite Ec. exact X. }
  intros g' [H|H]; rewrite H in *.
  - destruct (s_prior s) as [g|] eqn:E; cbn [both] in A1; [|contradiction]. apply (G g g' A1). apply F. left. exact E.
  - destruct (s_posterior s) as [g|] eqn:E; cbn [both] in A2; [|contradiction]. apply (G g g' A2). apply F. right. exact E.
Qed.
Lemma version_le_iff : forall v w, version_le v w = true <-> (earlier v w \/ v = w).
Proof.
  intros [[a b] c] [[x y] z]. unfold version_le, earlier. rewrite !orb_true_iff, !andb_true_iff, !orb_true_iff, !andb_true_iff, !Z.ltb_lt, !Z.eqb_eq, Z.leb_le.
  split.
  - intros [H|[H1 [H|[H2 H3]]]]; [left; left; exact H|left; right; auto|]. destruct (Z.eq_dec c z); [right; congruence|left; right; split; [exact H1|right; split; [exact H2|lia]]].
  - intros [[H|[H1 [H|[H2 H3]]]]|E]; [left; exact H|right; split; [exact H1|left; exact H]|right; split; [exact H1|right; split; [exact H2|lia]]|].
    assert (a = x /\ b = y /\ c = z) as (-> & -> & ->) by (repeat split; congruence). right. split; [reflexivity|right; split; [reflexivity|lia]].
Qed.

Lemma finish_count : forall t n l i, finish_knots t n l = Ok i -> n_knots i = n.
Proof.
  intros t n l i H. unfold finish_knots in H. destruct (Nat.eqb n 1); [assert (i = mkKnots n l (repeat [1%R] t)) by congruence; subst; reflexivity|].
  destruct (l1_distance_weights t l) as [w|]; cbn [rbind] in H; [|discriminate]. assert (i = mkKnots n l w) by congruence. subst. reflexivity.
Qed.
Lemma one_location : forall t k nat_ i, get_knot_info t (KnList [k]) nat_ = Ok i -> n_knots i = 1.
Proof. intros t k b i H. unfold get_knot_info, raise_if in H. destruct (existsb _ _); [discriminate|]. destruct (existsb _ _); [discriminate|]. apply finish_count in H. exact H. Qed.
Lemma int_count : forall t k nat_ i, get_knot_info t (KnInt k) nat_ = Ok i -> Z.of_nat (n_knots i) = k.
Proof.
  intros t k b i H. unfold get_knot_info, raise_if in H. destruct (Z.ltb_spec k 1); [discriminate|]. destruct (Z.ltb _ _); [discriminate|].
  destruct (b && _)%bool; [discriminate|]. apply finish_count in H. rewrite H. apply Z2Nat.id. lia.
Qed.
