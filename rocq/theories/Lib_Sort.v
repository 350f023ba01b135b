(** Sorting lists by a total preorder, stably (Python's [sorted], [np.sort], [natsort.natsorted]). *)
From Coq Require Import List Bool Arith Lia Permutation Sorted.
Import ListNotations.
Local Open Scope list_scope.

Section Sort.
Context {A : Type} (leb : A -> A -> bool).
Fixpoint insert (x : A) (l : list A) : list A :=
  match l with
  | [] => [x]
  | y :: r => if leb x y then x :: y :: r else y :: insert x r
  end.
Definition isort (l : list A) : list A := fold_right insert [] l.

Lemma insert_perm : forall x l, Permutation (x :: l) (insert x l).
Proof.
  intros x l. induction l as [|y l IH]; cbn; [auto|]. destruct (leb x y); [auto|].
  transitivity (y :: x :: l); [apply perm_swap|]. constructor. exact IH.
Qed.
Lemma isort_perm : forall l, Permutation l (isort l).
Proof.
  induction l as [|x l IH]; cbn; [auto|]. transitivity (x :: isort l); [constructor; exact IH|apply insert_perm].
Qed.
Lemma isort_in : forall l x, In x (isort l) <-> In x l.
Proof. intros l x. split; apply Permutation_in; [apply Permutation_sym|]; apply isort_perm. Qed.
Lemma isort_length : forall l, length (isort l) = length l.
Proof. intros l. symmetry. apply Permutation_length, isort_perm. Qed.
Lemma isort_nodup : forall l, NoDup l -> NoDup (isort l).
Proof. intros l. apply Permutation_NoDup, isort_perm. Qed.

Definition le_sorted (l : list A) : Prop := StronglySorted (fun a b => leb a b = true) l.
Hypothesis total : forall a b, leb a b = true \/ leb b a = true.
Hypothesis trans : forall a b c, leb a b = true -> leb b c = true -> leb a c = true.
Lemma insert_sorted : forall x l, le_sorted l -> le_sorted (insert x l).
Proof.
  intros x l H. induction H as [|y l Hs IH Hy]; cbn; [repeat constructor|].
  destruct (leb x y) eqn:E.
  - constructor; [constructor; assumption|]. constructor; [exact E|]. eapply Forall_impl; [|exact Hy]. intros a Ha. exact (trans _ _ _ E Ha).
  - constructor; [exact IH|]. apply Forall_forall. intros a Ha.
    apply (Permutation_in _ (Permutation_sym (insert_perm x l))) in Ha. destruct Ha as [<-|Ha].
    + destruct (total x y); congruence.
    + rewrite Forall_forall in Hy. auto.
Qed.
Lemma isort_sorted : forall l, le_sorted (isort l).
Proof. induction l as [|x l IH]; cbn; [constructor|apply insert_sorted; exact IH]. Qed.

Lemma sorted_unique : forall l m, (forall a b, In a l -> In b l -> leb a b = true -> leb b a = true -> a = b) ->
  le_sorted l -> le_sorted m -> Permutation l m -> l = m.
Proof.
  induction l as [|x l IH]; intros m Anti Hl Hm P.
  - apply Permutation_nil in P. congruence.
  - destruct m as [|y m]; [apply Permutation_sym, Permutation_nil in P; discriminate|].
    inversion Hl as [|? ? Hl1 Hl2]; inversion Hm as [|? ? Hm1 Hm2]; subst. rewrite Forall_forall in Hl2, Hm2.
    assert (x = y).
    { assert (Iy : In y (x :: l)) by (apply (Permutation_in _ (Permutation_sym P)); left; reflexivity).
      assert (Ix : In x (y :: m)) by (apply (Permutation_in _ P); left; reflexivity).
      destruct Iy as [->|Iy]; [reflexivity|]. destruct Ix as [->|Ix]; [reflexivity|].
      apply Anti; [left; reflexivity|right; exact Iy|auto|auto]. }
    subst y. f_equal. apply IH; auto.
    + intros a b Ha Hb. apply Anti; right; assumption.
    + eapply Permutation_cons_inv. exact P.
Qed.
Lemma isort_unique : forall l m, (forall a b, In a l -> In b l -> leb a b = true -> leb b a = true -> a = b) ->
  Permutation l m -> isort l = isort m.
Proof.
  intros l m Anti P. apply sorted_unique.
  - intros a b Ha Hb. apply Anti; apply isort_in; assumption.
  - apply isort_sorted.
  - apply isort_sorted.
  - transitivity l; [apply Permutation_sym, isort_perm|]. transitivity m; [exact P|apply isort_perm].
Qed.
Lemma sorted_app : forall l m, le_sorted (l ++ m) -> le_sorted m.
Proof. induction l as [|x l IH]; intros m H; [exact H|]. inversion H; subst. auto. Qed.
End Sort.

(** Sorting by two orders that agree on the elements. *)
Lemma sorted_ext : forall A (le1 le2 : A -> A -> bool) l,
  (forall a b, In a l -> In b l -> le1 a b = true -> le2 a b = true) -> le_sorted le1 l -> le_sorted le2 l.
Proof.
  intros A le1 le2 l. induction l as [|x l IH]; intros E H; [constructor|]. inversion H as [|? ? H1 H2]; subst.
  constructor.
  - apply IH; [|exact H1]. intros a b Ha Hb. apply E; right; assumption.
  - rewrite Forall_forall in *. intros a Ha. apply E; [left; reflexivity|right; exact Ha|auto].
Qed.
