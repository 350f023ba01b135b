(** Proofs for C99. *)
From Coq Require Import ZArith QArith Lqa String List Bool Arith Lia Permutation.
From Verif Require Import Lib_QSum Lib_Sort M_Base M_Opt M_Optimizer M_BudgetSpec S_Opt S_Optimizer S_BudgetSpec P_Opt P_OptGrid P_Optimizer.
Import ListNotations.
Local Open Scope string_scope.
Local Open Scope list_scope.

(** *** dicts *)
Lemma dget_put : forall (A : Type) (d : list (string * A)) k x c, dget (dput d k x) c = if String.eqb k c then Some x else dget d c.
Proof.
  intros A d k x c. induction d as [|[m y] r IH]; cbn [dput dget].
  - reflexivity.
  - destruct (String.eqb_spec m k) as [->|E]; cbn [dget].
    + destruct (String.eqb k c); reflexivity.
    + rewrite IH. destruct (String.eqb_spec m c) as [->|F]; auto. destruct (String.eqb_spec k c) as [->|G]; auto. contradiction.
Qed.

Lemma find_app : forall (A : Type) (f : A -> bool) l m, find f (l ++ m) = match find f l with Some x => Some x | None => find f m end.
Proof. intros A f l m. induction l as [|x r IH]; cbn [app find]; auto. destruct (f x); auto. Qed.

Lemma dget_fold : forall (A : Type) l (d : list (string * A)) c,
  dget (fold_left (fun d e => dput d (fst e) (snd e)) l d) c = match find (fun e => String.eqb (fst e) c) (rev l) with Some e => Some (snd e) | None => dget d c end.
Proof.
  intros A l. induction l as [|[k x] r IH]; intros d c; cbn [fold_left rev].
  - reflexivity.
  - rewrite IH, find_app, dget_put. cbn [find fst snd]. destruct (find (fun e => String.eqb (fst e) c) (rev r)); auto. destruct (String.eqb k c); reflexivity.
Qed.

Lemma put_keys : forall (A : Type) (d : list (string * A)) k x c, In c (map fst (dput d k x)) <-> c = k \/ In c (map fst d).
Proof.
  intros A d k x c. induction d as [|[m y] r IH]; cbn [dput map fst In].
  - intuition.
  - destruct (String.eqb_spec m k) as [->|E]; cbn [map fst In]; [intuition|]. rewrite IH. intuition.
Qed.

Lemma fold_keys : forall (A : Type) l (d : list (string * A)) c,
  In c (map fst (fold_left (fun d e => dput d (fst e) (snd e)) l d)) <-> In c (map fst l) \/ In c (map fst d).
Proof.
  intros A l. induction l as [|[k x] r IH]; intros d c; cbn [fold_left map fst In snd]; [tauto|]. rewrite IH, put_keys. intuition.
Qed.

Lemma put_fresh : forall (A : Type) (d : list (string * A)) k x, ~ In k (map fst d) -> dput d k x = d ++ [(k, x)].
Proof.
  intros A d k x. induction d as [|[m y] r IH]; cbn [dput map fst In app]; intros H; auto.
  destruct (String.eqb_spec m k) as [->|E]; [exfalso; auto|]. rewrite IH; auto.
Qed.

Lemma to_dict_nodup : forall (A : Type) (l : list (string * A)), NoDup (map fst l) -> to_dict l = l.
Proof.
  intros A l H. unfold to_dict. assert (G : forall (m d : list (string * A)), NoDup (map fst (d ++ m)) -> fold_left (fun d e => dput d (fst e) (snd e)) m d = d ++ m).
  { clear. induction m as [|[k x] r IH]; intros d H; cbn [fold_left fst snd]; [rewrite app_nil_r; auto|].
    rewrite put_fresh.
    - rewrite IH; rewrite <- app_assoc; auto.
    - intros I. rewrite map_app in H. cbn [map fst] in H. apply NoDup_remove_2 in H. apply H. apply in_or_app. auto. }
  apply (G l []). exact H.
Qed.

(** *** Constraints *)
Lemma find_map : forall (A B : Type) (f : B -> bool) (g : A -> B) l, find f (map g l) = option_map g (find (fun x => f (g x)) l).
Proof. intros A B f g l. induction l as [|x r IH]; cbn [map find]; auto. destruct (f (g x)); auto. Qed.

Lemma dict_given : forall cs c, dget (to_dict (map (fun k => (constraint_name k, k)) cs)) c = given_for cs c.
Proof.
  intros cs c. unfold to_dict. rewrite dget_fold. unfold given_for. rewrite <- map_rev, find_map. cbn [fst].
  destruct (find (fun x => String.eqb (constraint_name x) c) (rev cs)); reflexivity.
Qed.

Lemma mem_in : forall k l, mem k l = true <-> In k l.
Proof.
  intros k l. unfold mem. rewrite existsb_exists. split.
  - intros [x [H E]]. apply String.eqb_eq in E. subst. exact H.
  - intros H. exists k. split; auto. apply String.eqb_refl.
Qed.

Lemma lists_spec : forall cs l,
  (forall c name lo hi, In c l -> given_for cs c <> Some (Abs name lo hi)) /\
  constraint_lists (to_dict (map (fun k => (constraint_name k, k)) cs)) l = Ok (map (down cs) l, map (up cs) l) \/
  (exists c name lo hi, In c l /\ given_for cs c = Some (Abs name lo hi)) /\
  constraint_lists (to_dict (map (fun k => (constraint_name k, k)) cs)) l = Err ValueError.
Proof.
  intros cs l. induction l as [|c r IH].
  - left. split; [intros ? ? ? ? []|reflexivity].
  - cbn [constraint_lists map]. rewrite dict_given. unfold down at 1, up at 1. destruct (given_for cs c) as [[name lo hi|name lo hi]|] eqn:E.
    + cbn [rbind fst snd]. destruct IH as [[A B]|[A B]]; rewrite B; cbn [rbind fst snd].
      * left. split; [|reflexivity]. intros c' ? ? ? [->|I]; [rewrite E; discriminate|eauto].
      * right. split; [|reflexivity]. destruct A as [c' [n' [lo' [hi' [I J]]]]]. exists c', n', lo', hi'. cbn. auto.
    + right. split; [|reflexivity]. exists c, name, lo, hi. cbn. auto.
    + cbn [rbind fst snd]. destruct IH as [[A B]|[A B]]; rewrite B; cbn [rbind fst snd].
      * left. split; [|reflexivity]. intros c' ? ? ? [->|I]; [rewrite E; discriminate|eauto].
      * right. split; [|reflexivity]. destruct A as [c' [n' [lo' [hi' [I J]]]]]. exists c', n', lo', hi'. cbn. auto.
Qed.

Lemma constraints_lemma : forall cs channels,
  (usable cs channels /\ build_constraints cs channels = Ok (map (down cs) channels, map (up cs) channels)) \/
  (~ usable cs channels /\ build_constraints cs channels = Err ValueError).
Proof.
  intros cs channels. unfold build_constraints. cbv zeta.
  destruct (forallb (fun e => mem (fst e) channels) (to_dict (map (fun k => (constraint_name k, k)) cs))) eqn:E; cbn [negb raise_if].
  - rewrite forallb_forall in E.
    assert (Hn : forall k, In k cs -> In (constraint_name k) channels).
    { intros k Hk. assert (I : In (constraint_name k) (map fst (to_dict (map (fun k => (constraint_name k, k)) cs)))).
      { unfold to_dict. apply fold_keys. left. rewrite map_map. cbn [fst]. apply in_map_iff. exists k. auto. }
      apply in_map_iff in I. destruct I as [e [Ee I]]. specialize (E e I). apply mem_in in E. rewrite <- Ee. exact E. }
    destruct (lists_spec cs channels) as [[A B]|[A B]]; [left|right]; (split; [|exact B]).
    + split; auto.
    + intros [_ X]. destruct A as [c [n' [lo [hi [I J]]]]]. exact (X c n' lo hi I J).
  - right. split; [|reflexivity]. intros [Hn _].
    assert (X : forallb (fun e => mem (fst e) channels) (to_dict (map (fun k => (constraint_name k, k)) cs)) = true); [|congruence].
    apply forallb_forall. intros e He. apply mem_in.
    assert (I : In (fst e) (map fst (to_dict (map (fun k => (constraint_name k, k)) cs)))) by (apply in_map; auto).
    unfold to_dict in I. apply fold_keys in I. destruct I as [I|[]]. rewrite map_map in I. cbn [fst] in I. apply in_map_iff in I. destruct I as [k [Ek I]]. rewrite <- Ek. auto.
Qed.

(** *** Sets of ids *)
Lemma unique_spec : forall ids, unique_ids ids = true <-> ids_distinct ids.
Proof.
  intros ids. unfold unique_ids, ids_distinct. cbv zeta. set (l := filter _ ids). clearbody l. rewrite Nat.eqb_eq. split.
  - intros H. induction l as [|x r IH]; [constructor|]. cbn [nodup length] in H.
    assert (B : forall m : list string, (length (nodup string_dec m) <= length m)%nat).
    { clear. induction m as [|y m IH]; cbn [nodup length]; [lia|]. destruct (in_dec string_dec y m); cbn [length]; lia. }
    specialize (B r). destruct (in_dec string_dec x r) as [I|I]; cbn [length] in H; [lia|]. constructor; auto.
  - intros H. rewrite nodup_fixed_point; auto.
Qed.

Lemma mapR_ok : forall (A B : Type) (f : A -> result B) l m, mapR f l = Ok m <-> Forall2 (fun x y => f x = Ok y) l m.
Proof.
  intros A B f l. induction l as [|x r IH]; intros m; cbn [mapR]; split; intros H.
  - injection H as <-. constructor.
  - inversion H. reflexivity.
  - apply rbind_ok in H. destruct H as [y [E H]]. apply rbind_ok in H. destruct H as [ys [F H]]. injection H as <-. constructor; auto. apply IH. auto.
  - inversion H as [|? y ? ys E F]; subst. rewrite E. cbn [rbind]. apply IH in F. rewrite F. reflexivity.
Qed.

Lemma blank_spec : forall s, blank s = false <-> named s.
Proof.
  induction s as [|c s IH]; cbn [blank].
  - split; [discriminate|]. intros [[|x a] [c [b [E _]]]]; discriminate E.
  - destruct (is_space c) eqn:Ec; cbn [andb].
    + rewrite IH. split; intros [a [d [b [E H]]]].
      * exists (String c a), d, b. rewrite E. auto.
      * destruct a as [|x a]; cbn in E; injection E as -> E; [congruence|]. exists a, d, b. auto.
    + split; auto. intros _. exists "", c, s. auto.
Qed.

Lemma validate_lemma : forall (New Frequency : Type) (dated : New -> bool) (s : spec New Frequency),
  (validate New Frequency dated s = Ok tt <->
    (forall a b, s_start s = Some a -> s_end s = Some b -> (a <= b)%Z) /\ named (s_name s) /\ named (s_grid_name s) /\
    (0 <= s_confidence s)%Q /\ (s_confidence s <= 1)%Q /\ (0 < s_batch s)%Z /\ (forall d, s_new s = Some d -> dated d = true) /\
    (s_optimal_frequency s = true -> forall f, s_max_frequency s = Some f -> (1 <= f)%Q)) /\
  (validate New Frequency dated s = Ok tt \/ validate New Frequency dated s = Err ValueError).
Proof.
  intros New Frequency dated s. unfold validate.
  assert (A : match s_start s, s_end s with Some a, Some b => Z.ltb b a | _, _ => false end = false <-> (forall a b, s_start s = Some a -> s_end s = Some b -> (a <= b)%Z)).
  { destruct (s_start s) as [x|], (s_end s) as [y|]; split; intros H; auto; try discriminate.
    - intros a b Ea Eb. injection Ea as <-. injection Eb as <-. apply Z.ltb_ge. exact H.
    - apply Z.ltb_ge. auto. }
  assert (B : Qlt_bool (s_confidence s) 0 || Qlt_bool 1 (s_confidence s) = false <-> (0 <= s_confidence s)%Q /\ (s_confidence s <= 1)%Q) by (rewrite orb_false_iff, !Qlt_bool_false; tauto).
  assert (C : Z.leb (s_batch s) 0 = false <-> (0 < s_batch s)%Z) by apply Z.leb_gt.
  assert (D : match s_new s with Some d => negb (dated d) | None => false end = false <-> (forall d, s_new s = Some d -> dated d = true)).
  { destruct (s_new s) as [d|]; split; intros H; auto; try discriminate.
    - intros d' E. injection E as <-. apply negb_false_iff. exact H.
    - apply negb_false_iff. auto. }
  assert (E : s_optimal_frequency s && match s_max_frequency s with Some f => Qlt_bool f 1 | None => false end = false <-> (s_optimal_frequency s = true -> forall f, s_max_frequency s = Some f -> (1 <= f)%Q)).
  { destruct (s_optimal_frequency s); cbn [andb]; [|split; auto; discriminate]. destruct (s_max_frequency s) as [f|]; split; intros H; auto; try discriminate.
    - intros _ f' Ef. injection Ef as <-. apply Qlt_bool_false. exact H.
    - apply Qlt_bool_false. auto. }
  pose proof (blank_spec (s_name s)) as F. pose proof (blank_spec (s_grid_name s)) as G. rewrite <- A, <- C, <- D, <- E, <- F, <- G. clear A C D E F G.
  destruct (match s_start s, s_end s with Some a, Some b => Z.ltb b a | _, _ => false end); cbn [raise_if]; [split; [split; [discriminate|intros [X _]; discriminate]|auto]|].
  destruct (blank (s_name s)); cbn [raise_if]; [split; [split; [discriminate|intros [_ [X _]]; discriminate]|auto]|].
  destruct (blank (s_grid_name s)); cbn [raise_if]; [split; [split; [discriminate|intros [_ [_ [X _]]]; discriminate]|auto]|].
  destruct (Qlt_bool (s_confidence s) 0 || Qlt_bool 1 (s_confidence s)); cbn [raise_if]; [split; [split; [discriminate|intros [_ [_ [_ [X [Y _]]]]]; destruct B as [_ B]; discriminate (B (conj X Y))]|auto]|].
  destruct (Z.leb (s_batch s) 0); cbn [raise_if]; [split; [split; [discriminate|intros [_ [_ [_ [_ [_ [X _]]]]]]; discriminate]|auto]|].
  destruct (match s_new s with Some d => negb (dated d) | None => false end); cbn [raise_if]; [split; [split; [discriminate|intros [_ [_ [_ [_ [_ [_ [X _]]]]]]]; discriminate]|auto]|].
  destruct (s_optimal_frequency s && match s_max_frequency s with Some f => Qlt_bool f 1 | None => false end); cbn [raise_if]; [split; [split; [discriminate|intros [_ [_ [_ [_ [_ [_ [_ X]]]]]]]; discriminate]|auto]|].
  split; [|auto]. destruct B as [B _]. destruct (B eq_refl) as [B1 B2]. split; auto. intros _. repeat split; auto.
Qed.
