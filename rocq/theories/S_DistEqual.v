(** Specification for C84: distributions that are the same up to rounding. *)
From Coq Require Import Reals String List Bool Arith.
From Verif Require Import M_Base M_DistEqual.
Import ListNotations.
Local Open Scope string_scope.
Local Open Scope R_scope.
Local Open Scope nat_scope.
Local Open Scope list_scope.

(** [x] is within the tolerances of [y], relative to [y]. *)
Definition near (x y : R) : Prop := (Rabs (x - y) <= 1 / 10 ^ 8 + 1 / 10 ^ 5 * Rabs y)%R.

(** Parameters that agree: numbers near each other place by place, a single number standing for
    as many as needed; anything else the same. *)
Inductive agree : pvalue -> pvalue -> Prop :=
| A_other : forall i, agree (Other i) (Other i)
| A_numbers : forall x y, near x y -> agree (Number x) (Number y)
| A_arrays : forall l l', Forall2 near l l' -> agree (Array l) (Array l')
| A_each_r : forall x l, (forall y, In y l -> near x y) -> agree (Number x) (Array l)
| A_each_l : forall l y, (forall x, In x l -> near x y) -> agree (Array l) (Number y)
| A_single_r : forall x l, (forall y, In y l -> near x y) -> agree (Array [x]) (Array l)
| A_single_l : forall l y, (forall x, In x l -> near x y) -> agree (Array l) (Array [y]).

(** Arrays that can be compared. *)
Definition comparable (a b : pvalue) : Prop :=
  forall l l', a = Array l -> b = Array l' -> length l = length l' \/ length l = 1 \/ length l' = 1.

(** The same distribution up to rounding: same class, same distributions inside, same parameters. *)
Inductive same : distr -> distr -> Prop :=
| Same : forall c d d' ds ds' p p',
    same_option d d' -> same_options ds ds' ->
    (forall k, (exists v, In (k, v) p) <-> (exists v, In (k, v) p')) ->
    (forall k v v', In (k, v) p -> In (k, v') p' -> agree v v') ->
    same (Distr c d ds p) (Distr c d' ds' p')
with same_option : option distr -> option distr -> Prop :=
| SN : same_option None None
| SS : forall d d', same d d' -> same_option (Some d) (Some d')
with same_options : option (list distr) -> option (list distr) -> Prop :=
| SsN : same_options None None
| SsS : forall l l', same_list l l' -> same_options (Some l) (Some l')
with same_list : list distr -> list distr -> Prop :=
| SL_nil : same_list [] []
| SL_cons : forall d d' l l', same d d' -> same_list l l' -> same_list (d :: l) (d' :: l').

(** Every distribution inside [d], with [d]. *)
Inductive inside : distr -> distr -> Prop :=
| In_self : forall d, inside d d
| In_one : forall x c d ds p, inside x d -> inside x (Distr c (Some d) ds p)
| In_list : forall x c o l p d, In d l -> inside x d -> inside x (Distr c o (Some l) p).

Definition params_of (d : distr) : list (string * pvalue) := match d with Distr _ _ _ p => p end.

(** Parameters have distinct names. *)
Definition distinct (d : distr) : Prop := forall x, inside x d -> NoDup (map fst (params_of x)).

(** Any two arrays of the two distributions can be compared. *)
Definition all_comparable (a b : distr) : Prop :=
  forall x y k v w, inside x a -> inside y b -> In (k, v) (params_of x) -> In (k, w) (params_of y) -> comparable v w.

(** The priors of the paid media, and of the paid reach and frequency, channels' effects; under each
    type of prior exactly one of them is read. *)
Definition media_effects : list string := ["roi_m"; "mroi_m"; "contribution_m"; "beta_m"].
Definition rf_effects : list string := ["roi_rf"; "mroi_rf"; "contribution_rf"; "beta_rf"].

Definition position (t : prior_type) : nat :=
  match t with Roi => 0 | Mroi => 1 | Contribution => 2 | Coefficient => 3 end.

Definition is_read (media_type rf_type : prior_type) (k : string) : Prop :=
  k = nth (position media_type) media_effects "" \/ k = nth (position rf_type) rf_effects "".
