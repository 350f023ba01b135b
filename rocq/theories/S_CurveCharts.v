(** Specification of the charts of response curves and of the range of the waterfall chart. *)
From Coq Require Import Reals QArith ZArith String List Bool Arith.
From Verif Require Import M_CurveCharts.
Import ListNotations.
Local Open Scope Q_scope.

(** The multipliers: all different, and one of them is 1. *)
Definition mult_ok (mult : list Q) : Prop :=
  (exists i, (i < length mult)%nat /\ nth i mult 0 == 1) /\
  (forall i j, (i < length mult)%nat -> (j < length mult)%nat -> nth i mult 0 == nth j mult 0 -> i = j).
(** What a channel spends at present: its spend at the multiplier 1. *)
Definition spends (mult : list Q) (c : curve) (v : Q) : Prop :=
  exists i, (i < length mult)%nat /\ nth i mult 0 == 1 /\ v = v_spend (c_at c i).
(** [top] are [n] of the things [all] (all of them, if they are fewer), and none of the others has more. *)
Definition the_most {A} (has : A -> Q -> Prop) (n : nat) (all top : list A) : Prop :=
  length top = Nat.min n (length all) /\
  exists rest, Permutation.Permutation all (top ++ rest) /\
    forall a b v w, In a top -> In b rest -> has a v -> has b w -> w <= v.
(** The row of the table for the multiplier of a given position on the curve of a channel. *)
Definition is_row (mult : list Q) (c : curve) (i : nat) (r : row) : Prop :=
  r_name r = c_name c /\ r_mult r = nth i mult 0 /\ r_spend r = v_spend (c_at c i) /\ r_mean r = v_mean (c_at c i) /\
  r_lo r = v_lo (c_at c i) /\ r_hi r = v_hi (c_at c i) /\ (r_current r = true <-> nth i mult 0 == 1).
(** Ordered by name, then spend, then multiplier. *)
Definition row_before (a b : row) : Prop :=
  String.compare (r_name a) (r_name b) = Lt \/
  (r_name a = r_name b /\ (r_spend a < r_spend b \/ (r_spend a == r_spend b /\ r_mult a <= r_mult b))).

(** A row of the optimizer's table that belongs to a channel: a point of its curve, or one of its two plans, with the
    limits of the channel. *)
Definition channel_rows (h : chan) : list limited :=
  map (fun p => mkLimited (mkMark (h_name h) (Some (fst (fst p))) (snd (fst p)) (snd p) None) (h_lower h) (h_upper h)) (h_curve h)
  ++ [mkLimited (mkMark (h_name h) None (fst (h_opt h)) (snd (h_opt h)) (Some Optimized)) (h_lower h) (h_upper h);
      mkLimited (mkMark (h_name h) None (fst (h_non h)) (snd (h_non h)) (Some NonOptimized)) (h_lower h) (h_upper h)].
(** Rows of channels in the order of [top]. *)
Definition in_channel_order (top : list chan) (a b : limited) : Prop :=
  exists i j, (i <= j < length top)%nat /\ nth_error (map h_name top) i = Some (m_name (l_mark a)) /\
    nth_error (map h_name top) j = Some (m_name (l_mark b)).
Definition more_optimized (a b : chan) : Prop := fst (h_opt b) <= fst (h_opt a).
