(** Specification for property C41. *)
From Coq Require Import ZArith QArith List Bool.
From Verif Require Import Lib_QSum M_Base M_Opt M_Time M_Weekly.
Import ListNotations.
Local Open Scope nat_scope.
Local Open Scope list_scope.

(** The same optional value, the same list of values. *)
Definition same_opt {A} (same : A -> A -> Prop) (a b : option A) : Prop :=
  match a, b with Some x, Some y => same x y | None, None => True | _, _ => False end.
(** Two grids have the same attributes, channels and multipliers. *)
Definition agree {T} (a b : @wgrid T) : Prop :=
  let s := g_settings a in let t := g_settings b in
  use_kpi s = use_kpi t /\ use_posterior s = use_posterior t /\
  (multiplier_step s == multiplier_step t)%Q /\ (percent_decrease s == percent_decrease t)%Q /\
  (percent_increase s == percent_increase t)%Q /\ (constraint_variation s == constraint_variation t)%Q /\
  n_rf s = n_rf t /\ use_optimal_frequency s = use_optimal_frequency t /\
  same_opt Qeq (max_frequency s) (max_frequency t) /\
  same_opt (Forall2 Qeq) (optimal_frequency s) (optimal_frequency t) /\
  g_channels a = g_channels b /\ Forall2 Qeq (g_mults a) (g_mults b).

(** The labels are the dates of consecutive weeks, the first one on day [z]. *)
Fixpoint weeks_from {T} (parse : T -> option date) (z : Z) (l : list T) : Prop :=
  match l with
  | [] => True
  | t :: r => (exists d, parse t = Some d /\ ordinal d = z) /\ weeks_from parse (z + 7) r
  end.
(** Labels are ordered as the dates they stand for. *)
Definition chronological {T} (tle : T -> T -> bool) (parse : T -> option date) : Prop :=
  forall a b d e, parse a = Some d -> parse b = Some e -> (tle a b = true <-> (ordinal d <= ordinal e)%Z).

(** The two calls fail alike, or return grids with the same attributes and the same weeks. *)
Definition same_outcome {T} (r r' : result (@wgrid T)) : Prop :=
  match r, r' with
  | Ok g, Ok g' => agree g g' /\ g_weeks g = g_weeks g'
  | Err e, Err e' => e = e'
  | _, _ => False
  end.

(** [f] is the piecewise linear function through the points, constant outside them. *)
Definition through (pts : list (Q * Q)) (f : Q -> Q) : Prop :=
  (forall x0 y0 r, pts = (x0, y0) :: r -> forall x, (x <= x0)%Q -> (f x == y0)%Q) /\
  (forall l x0 y0 x1 y1 r, pts = l ++ (x0, y0) :: (x1, y1) :: r ->
     forall x, (x0 <= x)%Q -> (x <= x1)%Q -> ((f x - y0) * (x1 - x0) == (y1 - y0) * (x - x0))%Q) /\
  (forall l x1 y1, pts = l ++ [(x1, y1)] -> forall x, (x1 <= x)%Q -> (f x == y1)%Q).
Fixpoint increasing_q (l : list Q) : Prop :=
  match l with
  | x :: ((y :: _) as r) => (x < y)%Q /\ increasing_q r
  | _ => True
  end.

(** The weeks from [s] to [e], both included. *)
Definition between {T} (tle : T -> T -> bool) (s e : T) (g : @wgrid T) : list (@week T) :=
  filter (fun w => tle s (w_time w) && tle (w_time w) e) (g_weeks g).
(** The budget of a call, and its constraints. *)
Definition total_of {T} (g : @wgrid T) (og : @opt_grid T) (budget : option Q) : Q :=
  match budget with Some b => b | None => qsum (length (g_channels g)) (o_hist og) end.
Definition dflt {T} (g : @wgrid T) (c : option constraint) : constraint :=
  match c with Some c => c | None => Scalar (constraint_variation (g_settings g)) end.
(** The multipliers with the outcomes of a channel in a week. *)
Definition samples {T} (g : @wgrid T) (w : @week T) (c : nat) : list (Q * Q) :=
  combine (g_mults g) (map (w_outcome w c) (seq 0 (length (g_mults g)))).
