(** Specification for flighting data: what a broadcast argument means for one cell, and which
    argument combinations are meaningful. *)
From Coq Require Import Reals QArith List.
From Verif Require Import Lib_Sum M_Base M_Budget.
Import ListNotations.
Local Open Scope R_scope.

(** The value an argument of shape (), (C), (T, C) or (G, T, C) gives for one cell. *)
Definition given_for (x : tensor) (g t c : nat) : R :=
  match length (shape x) with
  | O => at_ x []
  | S O => at_ x [c]
  | S (S O) => at_ x [t; c]
  | _ => at_ x [g; t; c]
  end.

(** The same for arguments of shape (), (T) or (G, T). *)
Definition given_for2 (x : tensor) (g t : nat) : R :=
  match length (shape x) with
  | O => at_ x []
  | S O => at_ x [t]
  | _ => at_ x [g; t]
  end.

(** Shapes documented for costs and frequencies, for totals or per-geo data, and for revenue. *)
Definition cost_shape (G T C : nat) (x : tensor) : Prop :=
  shape x = [] \/ shape x = [C] \/ shape x = [T; C] \/ shape x = [G; T; C].
Definition data_shape (G T C : nat) (x : tensor) : Prop :=
  shape x = [T; C] \/ shape x = [G; T; C].
Definition rpk_shape (G T : nat) (x : tensor) : Prop :=
  shape x = [] \/ shape x = [T] \/ shape x = [G; T].

(** One kind of channel: no data and no cost, or one data tensor with a fitting cost. *)
Definition data_and_cost (G T : nat) (units spend cost : option tensor) : Prop :=
  (units = None /\ spend = None /\ cost = None) \/
  exists x p C, cost = Some p /\ data_shape G T C x /\ cost_shape G T C p /\
    ((units = Some x /\ spend = None) \/ (units = None /\ spend = Some x)).

(** The frequency argument: absent when the optimal frequency is used; otherwise it fits the
    reach/frequency data, if there is any (if there is none, only its geo and time sizes are
    looked at). *)
Definition frequency_fits (G T : nat) (a : flight_args) : Prop :=
  if a_use_optimal_frequency a then a_frequency a = None
  else
    match a_frequency a with
    | None => a_rf_impressions a = None /\ a_rf_spend a = None
    | Some f =>
        (forall x C, (a_rf_impressions a = Some x \/ a_rf_spend a = Some x) ->
           data_shape G T C x -> cost_shape G T C f) /\
        (forall g t c, shape f = [g; t; c] -> g = G /\ t = T) /\
        (forall t c, shape f = [t; c] -> t = T)
    end.

Definition flight_args_ok (G T : nat) (a : flight_args) : Prop :=
  data_and_cost G T (a_media a) (a_media_spend a) (a_cpmu a) /\
  data_and_cost G T (a_rf_impressions a) (a_rf_spend a) (a_cprf a) /\
  frequency_fits G T a /\
  (forall r, a_revenue_per_kpi a = Some r -> rpk_shape G T r).

(** Data [y] of shape (G, T, C) spreads the user's [x]: per-geo data is kept, national data is
    split over the geos in proportion to their population. *)
Definition spreads (G T C : nat) (population : nat -> R) (x y : tensor) : Prop :=
  shape y = [G; T; C] /\
  (shape x = [G; T; C] -> forall g t c, at_ y [g; t; c] = at_ x [g; t; c]) /\
  (shape x = [T; C] -> forall t c,
     rsum G (fun g => at_ y [g; t; c]) = at_ x [t; c] /\
     (forall g h, at_ y [g; t; c] * population h = at_ y [h; t; c] * population g)).

(** A grid column as the optimizer builds it: increasing spends, then NaN. *)
Definition column (xs : list Q) (k : nat) : list (option Q) := map Some xs ++ repeat None k.

Fixpoint increasing_from (lo : Q) (l : list Q) : Prop :=
  match l with
  | [] => True
  | x :: r => (lo < x)%Q /\ increasing_from x r
  end.

(** Two columns with the same NaN entries and equal numbers. *)
Definition same_value (a b : option Q) : Prop :=
  match a, b with
  | Some x, Some y => (x == y)%Q
  | None, None => True
  | _, _ => False
  end.
Definition same_column (a b : list (option Q)) : Prop := Forall2 same_value a b.

(** An increasing column starting at a non-negative spend. *)
Definition good_spends (xs : list Q) : Prop :=
  match xs with [] => False | x :: r => (0 <= x)%Q /\ increasing_from x r end.
