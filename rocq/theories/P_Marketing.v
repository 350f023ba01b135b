(** Proofs of property C73: generic part. *)
From Coq Require Import Reals ZArith String List Bool Lia Lra.
From Verif Require Import M_Base M_Time S_Time P_Time P_Period M_Hyper M_InputData S_InputData P_InputData P_DistSerde M_Marketing S_Marketing.
Import ListNotations.
Local Open Scope string_scope.
Local Open Scope nat_scope.
Local Open Scope list_scope.

Lemma str_spec : forall a b, String.eqb a b = true <-> a = b.
Proof. intros a b. apply String.eqb_eq. Qed.
Lemma existsb_str : forall a l, existsb (String.eqb a) l = true <-> In a l.
Proof. intros a l. rewrite existsb_exists. split; [intros (x & H & E); apply String.eqb_eq in E; subst; auto|intros H; exists a; split; auto; apply String.eqb_refl]. Qed.

(** *** [first_seen] *)
Section Seen.
Context {A : Type} (eqb : A -> A -> bool) (spec : forall a b, eqb a b = true <-> a = b).
Lemma existsb_spec : forall a l, existsb (eqb a) l = true <-> In a l.
Proof. intros a l. rewrite existsb_exists. split; [intros (x & H & E); apply spec in E; subst; auto|intros H; exists a; split; auto; apply spec; auto]. Qed.
Lemma add_old : forall l x, In x l -> add_new eqb l x = l.
Proof. intros l x H. unfold add_new. apply existsb_spec in H. rewrite H. reflexivity. Qed.
Lemma add_fresh : forall l x, ~ In x l -> add_new eqb l x = l ++ [x].
Proof. intros l x H. unfold add_new. destruct (existsb (eqb x) l) eqn:E; [apply existsb_spec in E; tauto|reflexivity]. Qed.
Lemma seen_old : forall l acc, incl l acc -> fold_left (add_new eqb) l acc = acc.
Proof.
  induction l as [|x l IH]; intros acc H; cbn [fold_left]; [reflexivity|].
  rewrite (add_old acc x) by (apply H; left; reflexivity). apply IH. intros y Hy. apply H. right. exact Hy.
Qed.
Lemma seen_blocks : forall (l : list A) (f : A -> list A) acc, NoDup (acc ++ l) ->
  (forall x, In x l -> f x <> [] /\ forall y, In y (f x) -> y = x) -> fold_left (add_new eqb) (flat_map f l) acc = acc ++ l.
Proof.
  induction l as [|x l IH]; intros f acc Hn Hf; cbn [flat_map fold_left]; [rewrite app_nil_r; reflexivity|].
  rewrite fold_left_app. destruct (Hf x (or_introl eq_refl)) as [Hne Heq].
  assert (E : fold_left (add_new eqb) (f x) acc = acc ++ [x]).
  { destruct (f x) as [|y r]; [contradiction|]. cbn [fold_left]. assert (Hy : y = x) by (apply Heq; left; reflexivity). subst y.
    rewrite add_fresh by (intros Hin; apply NoDup_remove_2 in Hn; apply Hn, in_or_app; left; exact Hin).
    apply seen_old. intros z Hz. rewrite (Heq z (or_intror Hz)). apply in_or_app. right. left. reflexivity. }
  rewrite E, IH.
  - rewrite <- app_assoc. reflexivity.
  - rewrite <- app_assoc. exact Hn.
  - intros y Hy. apply Hf. right. exact Hy.
Qed.
Lemma first_blocks : forall l f, NoDup l -> (forall x, In x l -> f x <> [] /\ forall y, In y (f x) -> y = x) ->
  first_seen eqb (flat_map f l) = l.
Proof. intros l f Hn Hf. unfold first_seen. rewrite (seen_blocks l f []); auto. Qed.
Lemma first_distinct : forall l, NoDup l -> first_seen eqb l = l.
Proof.
  intros l Hn. transitivity (first_seen eqb (flat_map (fun x => [x]) l)).
  - f_equal. clear. induction l as [|x l IH]; [reflexivity|]. cbn [flat_map app]. rewrite <- IH. reflexivity.
  - apply first_blocks; auto. intros x _. split; [discriminate|]. intros y [H|[]]. auto.
Qed.
Lemma first_app : forall l1 l2, incl l2 (first_seen eqb l1) -> first_seen eqb (l1 ++ l2) = first_seen eqb l1.
Proof. intros l1 l2 H. unfold first_seen. rewrite fold_left_app. apply seen_old. exact H. Qed.

Lemma position_in : forall x l, In x l -> exists i, position eqb x l = Some i /\ nth_error l i = Some x.
Proof.
  induction l as [|y l IH]; intros H; [destruct H|]. cbn [position]. destruct (eqb x y) eqn:E.
  - apply spec in E. subst. exists 0. auto.
  - destruct H as [->|H]; [assert (eqb x x = true) by (apply spec; auto); congruence|].
    destruct (IH H) as (i & Hi & Hn). exists (S i). rewrite Hi. auto.
Qed.
Lemma position_nth : forall l i x, NoDup l -> nth_error l i = Some x -> position eqb x l = Some i.
Proof.
  intros l i x Hn H. destruct (position_in x l (nth_error_In _ _ H)) as (j & Hj & E). rewrite Hj. f_equal.
  apply (NoDup_nth_error l); auto; [apply nth_error_Some; congruence|congruence].
Qed.
Lemma select_nth : forall l i x, NoDup l -> nth_error l i = Some x -> select eqb x l = Ok i.
Proof. intros l i x Hn H. unfold select. rewrite (position_nth l i x Hn H). reflexivity. Qed.
End Seen.

Lemma combine_nth : forall A B (f : nat * A -> B) (g : A -> B) (l : list A),
  (forall k x, nth_error l k = Some x -> f (k, x) = g x) -> map f (combine (seq 0 (length l)) l) = map g l.
Proof.
  intros A B f g l H.
  assert (G : forall l s, (forall k x, nth_error l k = Some x -> f (s + k, x) = g x) -> map f (combine (seq s (length l)) l) = map g l).
  { clear. induction l as [|x l IH]; intros s H; cbn [length seq combine map]; [reflexivity|]. f_equal.
    - pose proof (H 0 x eq_refl) as E. rewrite Nat.add_0_r in E. exact E.
    - apply IH. intros k y Hk. replace (S s + k) with (s + S k) by lia. apply H. exact Hk. }
  apply G. exact H.
Qed.
Lemma all_ok_map : forall A B (f : A -> result B) (g : A -> B) l, (forall x, In x l -> f x = Ok (g x)) -> all_ok f l = Ok (map g l).
Proof.
  intros A B f g l H. induction l as [|x l IH]; cbn [all_ok map]; [reflexivity|].
  rewrite (H x) by (left; reflexivity). cbn [rbind]. rewrite IH by (intros y Hy; apply H; right; exact Hy). reflexivity.
Qed.
Lemma in_combine_seq : forall A (l : list A) k x, In (k, x) (combine (seq 0 (length l)) l) -> nth_error l k = Some x.
Proof.
  intros A l k x.
  assert (G : forall l s, In (k, x) (combine (seq s (length l)) l) -> s <= k /\ nth_error l (k - s) = Some x).
  { clear. induction l as [|y l IH]; intros s H; [destruct H|]. cbn [length seq combine] in H. destruct H as [H|H].
    - assert (k = s /\ x = y) as [-> ->] by (split; congruence). rewrite Nat.sub_diag. split; [lia|reflexivity].
    - destruct (IH (S s) H) as [Hk E]. split; [lia|]. replace (k - s) with (S (k - S s)) by lia. exact E. }
  intros H. destruct (G l 0 H) as [_ E]. rewrite Nat.sub_0_r in E. exact E.
Qed.

(** *** Entries by label *)
Definition pval (p : panel) (g : string) (t : date) (n : string) : option R :=
  match position String.eqb g (p_geos p), position date_eqb t (p_times p), position String.eqb n (p_names p) with
  | Some i, Some j, Some k => p_at p i j k
  | _, _, _ => None
  end.
Definition mval (m : matrix) (g : string) (t : date) : option R :=
  match position String.eqb g (m_geos m), position date_eqb t (m_times m) with Some i, Some j => m_at m i j | _, _ => None end.
Lemma pval_at : forall p i j k g t n, NoDup (p_geos p) -> NoDup (p_times p) -> NoDup (p_names p) ->
  nth_error (p_geos p) i = Some g -> nth_error (p_times p) j = Some t -> nth_error (p_names p) k = Some n -> pval p g t n = p_at p i j k.
Proof.
  intros p i j k g t n H1 H2 H3 E1 E2 E3. unfold pval.
  rewrite (position_nth String.eqb str_spec _ _ _ H1 E1), (position_nth date_eqb date_eqb_iff _ _ _ H2 E2), (position_nth String.eqb str_spec _ _ _ H3 E3). reflexivity.
Qed.
Lemma mval_at : forall m i j g t, NoDup (m_geos m) -> NoDup (m_times m) ->
  nth_error (m_geos m) i = Some g -> nth_error (m_times m) j = Some t -> mval m g t = m_at m i j.
Proof.
  intros m i j g t H1 H2 E1 E2. unfold mval.
  rewrite (position_nth String.eqb str_spec _ _ _ H1 E1), (position_nth date_eqb date_eqb_iff _ _ _ H2 E2). reflexivity.
Qed.

(** *** Rows of a grid *)
Lemma flat_map_map : forall A B C (f : A -> B) (g : B -> list C) l, flat_map g (map f l) = flat_map (fun x => g (f x)) l.
Proof. intros A B C f g l. induction l as [|x l IH]; [reflexivity|]. cbn [map flat_map]. rewrite IH. reflexivity. Qed.
Lemma map_flat_map : forall A B C (f : A -> list B) (g : B -> C) l, map g (flat_map f l) = flat_map (fun x => map g (f x)) l.
Proof. intros A B C f g l. induction l as [|x l IH]; [reflexivity|]. cbn [flat_map]. rewrite map_app, IH. reflexivity. Qed.
Lemma flat_map_filter : forall A B (t : A -> bool) (f : A -> list B) l, flat_map (fun x => if t x then f x else []) l = flat_map f (filter t l).
Proof. intros A B t f l. induction l as [|x l IH]; [reflexivity|]. cbn [flat_map filter]. destruct (t x); cbn [flat_map app]; rewrite IH; reflexivity. Qed.
Lemma flat_map_same : forall A B (f g : A -> list B) l, (forall x, In x l -> f x = g x) -> flat_map f l = flat_map g l.
Proof.
  intros A B f g l H. induction l as [|x l IH]; [reflexivity|]. cbn [flat_map]. rewrite (H x) by (left; reflexivity).
  rewrite IH by (intros y Hy; apply H; right; exact Hy). reflexivity.
Qed.
Lemma flat_map_prod : forall A B C (f : A * B -> list C) la lb,
  flat_map f (list_prod la lb) = flat_map (fun a => flat_map (fun b => f (a, b)) lb) la.
Proof.
  intros A B C f la lb. induction la as [|a la IH]; [reflexivity|]. cbn [list_prod flat_map]. rewrite flat_map_app, IH.
  rewrite flat_map_map. reflexivity.
Qed.
Lemma flat_map_nil : forall A B (l : list A), flat_map (fun _ => @nil B) l = [].
Proof. intros A B l. induction l; [reflexivity|]. exact IHl. Qed.
Lemma flat_map_ne : forall A B (f : A -> list B) l, l <> [] -> (forall x, In x l -> f x <> []) -> flat_map f l <> [].
Proof.
  intros A B f [|x l] Hl Hf; [contradiction|]. cbn [flat_map]. pose proof (Hf x (or_introl eq_refl)) as H.
  destruct (f x); [contradiction|discriminate].
Qed.

Definition grid (G : list string) (T : list date) (N : list string) (v : string -> date -> string -> option R) : list row :=
  flat_map (fun g => flat_map (fun t => map (fun n => (g, t, n, v g t n)) N) T) G.
Lemma grid_in : forall G T N v r, In r (grid G T N v) ->
  In (r_geo r) G /\ In (r_time r) T /\ In (r_name r) N /\ r_value r = v (r_geo r) (r_time r) (r_name r).
Proof.
  intros G T N v r H. apply in_flat_map in H. destruct H as (g & Hg & H). apply in_flat_map in H. destruct H as (t & Ht & H).
  apply in_map_iff in H. destruct H as (n & <- & Hn). cbn. auto.
Qed.
Lemma in_grid : forall G T N v g t n, In g G -> In t T -> In n N -> In (g, t, n, v g t n) (grid G T N v).
Proof.
  intros G T N v g t n Hg Ht Hn. apply in_flat_map. exists g. split; auto. apply in_flat_map. exists t. split; auto.
  apply in_map_iff. exists n. auto.
Qed.
Lemma grid_geos : forall G T N v, NoDup G -> T <> [] -> N <> [] -> first_seen String.eqb (map r_geo (grid G T N v)) = G.
Proof.
  intros G T N v HG HT HN. unfold grid. rewrite map_flat_map. apply (first_blocks String.eqb str_spec); auto.
  intros g _. split.
  - rewrite map_flat_map. apply flat_map_ne; auto. intros t _. destruct N; [contradiction|discriminate].
  - intros y Hy. apply in_map_iff in Hy. destruct Hy as (r & <- & Hr). apply in_flat_map in Hr. destruct Hr as (t & _ & Hr).
    apply in_map_iff in Hr. destruct Hr as (n & <- & _). reflexivity.
Qed.
Lemma grid_times : forall G T N v, G <> [] -> NoDup T -> N <> [] -> first_seen date_eqb (map r_time (grid G T N v)) = T.
Proof.
  intros [|g G] T N v HG HT HN; [contradiction|]. unfold grid. cbn [flat_map]. rewrite map_app.
  assert (E : first_seen date_eqb (map r_time (flat_map (fun t => map (fun n => (g, t, n, v g t n)) N) T)) = T).
  { rewrite map_flat_map. apply (first_blocks date_eqb date_eqb_iff); auto. intros t _. split.
    - destruct N; [contradiction|discriminate].
    - intros y Hy. apply in_map_iff in Hy. destruct Hy as (r & <- & Hr). apply in_map_iff in Hr. destruct Hr as (n & <- & _). reflexivity. }
  rewrite (first_app date_eqb date_eqb_iff); [exact E|]. eapply incl_tran; [|exact (eq_ind_r (fun l => incl T l) (incl_refl T) E)]. intros t Ht. apply in_map_iff in Ht. destruct Ht as (r & <- & Hr).
  apply (grid_in G T N v r Hr).
Qed.
Lemma grid_names : forall G T N v, G <> [] -> T <> [] -> NoDup N -> first_seen String.eqb (map r_name (grid G T N v)) = N.
Proof.
  intros [|g G] [|t T] N v HG HT HN; try contradiction. unfold grid. cbn [flat_map]. rewrite <- app_assoc, map_app.
  assert (E : first_seen String.eqb (map r_name (map (fun n => (g, t, n, v g t n)) N)) = N).
  { rewrite map_map. cbn. rewrite map_id. apply (first_distinct String.eqb str_spec). exact HN. }
  rewrite (first_app String.eqb str_spec); [exact E|]. eapply incl_tran; [|exact (eq_ind_r (fun l => incl N l) (incl_refl N) E)]. intros n Hn. apply in_map_iff in Hn. destruct Hn as (r & <- & Hr).
  apply in_app_or in Hr. destruct Hr as [Hr|Hr].
  - apply in_flat_map in Hr. destruct Hr as (t' & Ht & Hr). apply in_map_iff in Hr. destruct Hr as (n & <- & Hn). exact Hn.
  - apply (grid_in G (t :: T) N v r Hr).
Qed.
Lemma grid_find : forall G T N v g t n, In g G -> In t T -> In n N -> find_row (grid G T N v) g t n = v g t n.
Proof.
  intros G T N v g t n Hg Ht Hn. unfold find_row.
  destruct (find (fun r => String.eqb (r_geo r) g && date_eqb (r_time r) t && String.eqb (r_name r) n) (rev (grid G T N v))) as [r|] eqn:E.
  - apply find_some in E. destruct E as [Hr E]. apply in_rev in Hr. apply andb_true_iff in E. destruct E as [E E3].
    apply andb_true_iff in E. destruct E as [E1 E2]. apply String.eqb_eq in E1, E3. apply date_eqb_iff in E2.
    destruct (grid_in _ _ _ _ _ Hr) as (_ & _ & _ & Hv). rewrite Hv, E1, E2, E3. reflexivity.
  - exfalso. pose proof (find_none _ _ E (g, t, n, v g t n)) as F.
    assert (Hin : In (g, t, n, v g t n) (rev (grid G T N v))) by (apply in_rev; rewrite rev_involutive; apply in_grid; auto).
    specialize (F Hin). cbn in F. rewrite !String.eqb_refl in F. assert (date_eqb t t = true) as Q by (apply date_eqb_iff; auto). rewrite Q in F. discriminate.
Qed.
Lemma grid_ne : forall G T N v, G <> [] -> T <> [] -> N <> [] -> grid G T N v <> [].
Proof.
  intros G T N v HG HT HN. apply flat_map_ne; auto. intros g _. apply flat_map_ne; auto. intros t _. destruct N; [contradiction|discriminate].
Qed.
Lemma extract_grid : forall G T N v, NoDup G -> NoDup T -> NoDup N -> G <> [] -> T <> [] -> N <> [] ->
  exists p, extract_3d (grid G T N v) = Some p /\ p_geos p = G /\ p_times p = T /\ p_names p = N /\
  forall i j k g t n, nth_error G i = Some g -> nth_error T j = Some t -> nth_error N k = Some n -> p_at p i j k = v g t n.
Proof.
  intros G T N v H1 H2 H3 H4 H5 H6. unfold extract_3d. pose proof (grid_ne G T N v H4 H5 H6) as Hne.
  destruct (grid G T N v) as [|r rs] eqn:E; [contradiction|]. rewrite <- E.
  rewrite (grid_geos G T N v) by auto. rewrite (grid_times G T N v) by auto. rewrite (grid_names G T N v) by auto.
  eexists. split; [reflexivity|]. cbn. repeat (split; [reflexivity|]).
  intros i j k g t n Eg Et En. rewrite Eg, Et, En. apply grid_find; eapply nth_error_In; eauto.
Qed.
Lemma nth_lt : forall A (l : list A) i, i < length l -> exists x, nth_error l i = Some x.
Proof. intros A l i H. apply nth_error_Some in H. destruct (nth_error l i) as [x|]; [eauto|contradiction]. Qed.

(** A panel's own grid gives the panel back. *)
Lemma extract_panel : forall (rel : option R -> option R -> Prop) p G T v, NoDup (p_geos p) -> NoDup (p_times p) -> NoDup (p_names p) ->
  p_geos p <> [] -> p_times p <> [] -> p_names p <> [] -> G = p_geos p -> T = p_times p ->
  (forall i j k g t n, nth_error (p_geos p) i = Some g -> nth_error (p_times p) j = Some t -> nth_error (p_names p) k = Some n ->
     rel (p_at p i j k) (v g t n)) ->
  exists q, extract_3d (grid G T (p_names p) v) = Some q /\ panel_by rel p q.
Proof.
  intros rel p G T v H1 H2 H3 H4 H5 H6 -> -> Hv.
  destruct (extract_grid (p_geos p) (p_times p) (p_names p) v H1 H2 H3 H4 H5 H6) as (q & E & Eg & Et & En & Hq).
  exists q. split; [exact E|]. split; [exact Eg|]. split; [exact Et|]. split; [exact En|].
  intros i j k Hi Hj Hk. destruct (nth_lt _ _ _ Hi) as [g Ei], (nth_lt _ _ _ Hj) as [t Ej], (nth_lt _ _ _ Hk) as [n Ek].
  rewrite (Hq i j k g t n Ei Ej Ek). apply Hv; auto.
Qed.
Lemma extract_matrix : forall m G T, NoDup (m_geos m) -> NoDup (m_times m) -> m_geos m <> [] -> m_times m <> [] -> G = m_geos m -> T = m_times m ->
  exists q, extract_2d (grid G T [""] (fun g t _ => mval m g t)) = Some q /\ same_matrix m q.
Proof.
  intros m G T H1 H2 H4 H5 -> ->. unfold extract_2d.
  destruct (extract_grid (m_geos m) (m_times m) [""] (fun g t _ => mval m g t)) as (q & E & Eg & Et & En & Hq); auto;
    [constructor; [intros []|constructor]|discriminate|].
  rewrite E. eexists. split; [reflexivity|]. split; [exact Eg|]. split; [exact Et|].
  intros i j Hi Hj. destruct (nth_lt _ _ _ Hi) as [g Ei], (nth_lt _ _ _ Hj) as [t Ej]. cbn [m_at].
  rewrite (Hq i j 0 g t "" Ei Ej eq_refl). apply mval_at; auto.
Qed.
