(** Python dictionaries with string keys as association lists in insertion order. *)
From Coq Require Import List String Bool Arith Lia.
Import ListNotations.

(** [d.get(k)]. *)
Fixpoint dget {A} (k : string) (d : list (string * A)) : option A :=
  match d with
  | [] => None
  | (k', v) :: r => if String.eqb k k' then Some v else dget k r
  end.

(** [k in d]. *)
Definition dmem {A} (k : string) (d : list (string * A)) : bool :=
  match dget k d with Some _ => true | None => false end.

(** [d[k] = v]: overwrite in place, or append. *)
Fixpoint dset {A} (k : string) (v : A) (d : list (string * A)) : list (string * A) :=
  match d with
  | [] => [(k, v)]
  | (k', v') :: r => if String.eqb k k' then (k', v) :: r else (k', v') :: dset k v r
  end.

Definition dkeys {A} (d : list (string * A)) : list string := map fst d.

Lemma dget_dset_same : forall A k (v : A) d, dget k (dset k v d) = Some v.
Proof.
  induction d as [|[k' v'] r IH]; simpl.
  - rewrite String.eqb_refl. auto.
  - destruct (String.eqb k k') eqn:E; simpl; rewrite E; auto.
Qed.

Lemma dget_dset_other : forall A k k2 (v : A) d, k2 <> k -> dget k2 (dset k v d) = dget k2 d.
Proof.
  intros A k k2 v d Hn. induction d as [|[k' v'] r IH]; simpl.
  - apply String.eqb_neq in Hn. rewrite Hn. auto.
  - destruct (String.eqb k k') eqn:E; simpl.
    + apply String.eqb_eq in E. subst k'. apply String.eqb_neq in Hn. rewrite Hn. auto.
    + rewrite IH. auto.
Qed.

Lemma dget_In : forall A k (v : A) d, dget k d = Some v -> In (k, v) d.
Proof.
  induction d as [|[k' v'] r IH]; simpl; intros H; try discriminate.
  destruct (String.eqb k k') eqn:E.
  - apply String.eqb_eq in E. inversion H; subst. auto.
  - auto.
Qed.

Lemma dget_None : forall A k (d : list (string * A)), dget k d = None <-> ~ In k (dkeys d).
Proof.
  induction d as [|[k' v'] r IH]; simpl.
  - tauto.
  - destruct (String.eqb k k') eqn:E.
    + apply String.eqb_eq in E. subst. split; [discriminate|]. intros H. exfalso. auto.
    + apply String.eqb_neq in E. rewrite IH. split; intros H; [intros [?|?]; [congruence|auto]|auto].
Qed.

Lemma dget_map : forall A B (f : A -> B) k d,
  dget k (map (fun e => (fst e, f (snd e))) d) = option_map f (dget k d).
Proof.
  induction d as [|[k' v'] r IH]; simpl; auto.
  destruct (String.eqb k k'); auto.
Qed.

Lemma In_dget : forall A k (v : A) d, NoDup (dkeys d) -> In (k, v) d -> dget k d = Some v.
Proof.
  induction d as [|[k' v'] r IH]; simpl; intros N H; [contradiction|].
  inversion N; subst. destruct H as [H|H].
  - inversion H; subst. rewrite String.eqb_refl. auto.
  - destruct (String.eqb k k') eqn:E.
    + apply String.eqb_eq in E. subst. exfalso. apply H2.
      change k' with (fst (k', v)). apply in_map. auto.
    + auto.
Qed.
