(** Specification for C82: where priors may lie, and which prior each parameter of a model has. *)
From Coq Require Import Reals String List Bool Arith.
From Verif Require Import M_Base M_PriorDist M_PriorBroadcast.
Import ListNotations.
Local Open Scope string_scope.
Local Open Scope R_scope.
Local Open Scope nat_scope.
Local Open Scope list_scope.

(** The documented table of parameters, by what they are parameters of. *)
Definition of_media := ["beta_m"; "eta_m"; "alpha_m"; "ec_m"; "slope_m"; "roi_m"; "mroi_m"; "contribution_m"].
Definition of_rf := ["beta_rf"; "eta_rf"; "alpha_rf"; "ec_rf"; "slope_rf"; "roi_rf"; "mroi_rf"; "contribution_rf"].
Definition of_organic_media := ["beta_om"; "eta_om"; "alpha_om"; "ec_om"; "slope_om"; "contribution_om"].
Definition of_organic_rf := ["beta_orf"; "eta_orf"; "alpha_orf"; "ec_orf"; "slope_orf"; "contribution_orf"].
Definition of_controls := ["gamma_c"; "xi_c"].
Definition of_non_media := ["gamma_n"; "xi_n"; "contribution_n"].

Inductive channel_size (z : sizes) : string -> nat -> Prop :=
| CS_media : forall x, In x of_media -> channel_size z x (z_media z)
| CS_rf : forall x, In x of_rf -> channel_size z x (z_rf z)
| CS_om : forall x, In x of_organic_media -> channel_size z x (z_om z)
| CS_orf : forall x, In x of_organic_rf -> channel_size z x (z_orf z)
| CS_controls : forall x, In x of_controls -> channel_size z x (z_controls z)
| CS_non_media : forall x, In x of_non_media -> channel_size z x (z_non_media z).

(** The documented batch shape of every parameter. *)
Inductive documented_shape (z : sizes) : string -> list nat -> Prop :=
| DS_channel : forall x n, channel_size z x n -> documented_shape z x [n]
| DS_knots : documented_shape z "knot_values" [z_knots z]
| DS_tau : documented_shape z "tau_g_excl_baseline" [z_geos z - 1]
| DS_sigma_geo : 1 < z_geos z -> z_unique_sigma z = true -> documented_shape z "sigma" [z_geos z]
| DS_sigma : (z_geos z <= 1 \/ z_unique_sigma z = false) -> documented_shape z "sigma" [].

(** The prior set for a parameter is one law for all its elements, or one for each of them. *)
Definition one_for_all (d : dist) : Prop := batch_shape d = Ok [].
Definition one_each (d : dist) (shape : list nat) : Prop := batch_shape d = Ok shape.
Definition fits (d : dist) (shape : list nat) : Prop := one_for_all d \/ one_each d shape.

(** A batch with at most one dimension. *)
Definition at_most_vector (d : dist) : Prop := exists s, batch_shape d = Ok s /\ length s <= 1.

(** [i] is an index of a batch of that shape. *)
Definition index_of (shape i : list nat) : Prop := Forall2 lt i shape.

(** A batch of one number. *)
Definition single (shape : list nat) : Prop := Forall (fun k => k = 1) shape.

(** Parameters that describe differences between geos, and the return on investment. *)
Definition between_geos :=
  ["tau_g_excl_baseline"; "eta_m"; "eta_rf"; "eta_om"; "eta_orf"; "xi_c"; "xi_n"].
Definition roi := ["roi_m"; "roi_rf"].

(** The law of element [i] of parameter [x] when the priors set are [p]. *)
Inductive intended (z : sizes) (p : prior) (x : string) (i : list nat) : law -> Prop :=
| I_national : z_national z = true -> In x between_geos -> intended z p x i (Point (Fin 0))
| I_total : z_total_prior z = true -> In x roi ->
    intended z p x i (LN (total_media_contribution_prior (z_kpi z) (z_total_spend z) (4 / 10) (2 / 10)))
| I_all : ~ (z_national z = true /\ In x between_geos) -> ~ (z_total_prior z = true /\ In x roi) ->
    one_for_all (p x) -> intended z p x i (law_at (p x) [])
| I_each : ~ (z_national z = true /\ In x between_geos) -> ~ (z_total_prior z = true /\ In x roi) ->
    ~ one_for_all (p x) -> intended z p x i (law_at (p x) i).

(** ** Where priors may lie *)

(** The values a law is spread over, as its two ends. *)
Inductive ends : law -> num -> num -> Prop :=
| E_point : forall x, ends (Point x) x x
| E_range : forall a b id, ends (Range a b id) a b
| E_log_normal : forall l, ends (LN l) (Fin 0) Inf.

Definition number (x : num) : Prop := x <> NaN.

Definition at_least (r : R) (x : num) : Prop :=
  match x with Fin v => (r <= v)%R | Inf => True | _ => False end.
Definition at_most (r : R) (x : num) : Prop :=
  match x with Fin v => (v <= r)%R | NInf => True | _ => False end.

(** Decay rates, parameters that cannot be negative, parameters of saturation curves. *)
Definition decay_rates := ["alpha_m"; "alpha_rf"; "alpha_om"; "alpha_orf"].
Definition curve_parameters :=
  ["ec_m"; "ec_rf"; "ec_om"; "ec_orf"; "slope_m"; "slope_rf"; "slope_om"; "slope_orf"].
Definition deviations := ["eta_m"; "eta_rf"; "eta_om"; "eta_orf"; "xi_c"; "xi_n"; "sigma"].

(** The laws a user gives: those of the distribution inside a broadcast one. *)
Fixpoint given (d : dist) (l : law) : Prop :=
  match d with
  | BatchBroadcast d' _ => given d' l
  | _ => exists s i, batch_shape d = Ok s /\ index_of s i /\ law_at d i = l
  end.

(** Fixed values: a [Deterministic] distribution, broadcast or not. *)
Inductive fixed : dist -> Prop :=
| F_plain : forall s f, fixed (Deterministic s f)
| F_broadcast : forall s f w, fixed (BatchBroadcast (Deterministic s f) w).

(** The support of the distribution can be found out. *)
Definition support_known (d : dist) : Prop := fixed d \/ quantile_implemented d = true.

(** No end of the support is NaN. *)
Definition proper (d : dist) : Prop := forall l a b, given d l -> ends l a b -> number a /\ number b.

(** The law [l] may be used in the prior [d] of parameter [x]. *)
Definition allowed (x : string) (d : dist) (l : law) : Prop :=
  forall a b, ends l a b ->
    (In x decay_rates -> at_least 0 a /\ at_most 1 b /\ (fixed d -> b <> Fin 1)) /\
    (In x curve_parameters -> at_least 0 a /\ (fixed d -> a <> Fin 0)) /\
    (In x deviations -> at_least 0 a).
