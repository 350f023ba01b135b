(** Specification for C86: outliers, series that do not vary, and costs per media unit. *)
From Coq Require Import Reals List.
From Verif Require Import Lib_Sum M_Base M_Stats S_Stats M_DataChecks.
Import ListNotations.
Local Open Scope R_scope.

(** [x] lies more than one and a half times the distance of the quartiles outside of them. *)
Definition outlying (l : list R) (x : R) : Prop :=
  exists q1 q3, is_quantile l (1 / 4) q1 /\ is_quantile l (3 / 4) q3 /\
    (x < q1 - 3 / 2 * (q3 - q1) \/ q3 + 3 / 2 * (q3 - q1) < x).

(** [s] is the standard deviation of a sample. *)
Definition is_sample_std (l : list R) (s : R) : Prop :=
  (2 <= length l)%nat /\ 0 <= s /\
  exists m, INR (length l) * m = lsum l /\ INR (length l - 1) * s ^ 2 = lsum (map (fun x => (x - m) ^ 2) l).

(** [l'] are the values of [l] with property [p], in order. *)
Inductive kept (p : R -> Prop) : list R -> list R -> Prop :=
| kept_nil : kept p [] []
| kept_in : forall x l l', p x -> kept p l l' -> kept p (x :: l) (x :: l')
| kept_out : forall x l l', ~ p x -> kept p l l' -> kept p (x :: l) l'.

(** The values vary by less than [threshold] once the outliers are removed. *)
Definition hardly_varies (threshold : R) (l : list R) : Prop :=
  exists l' s, kept (fun r => ~ outlying l r) l l' /\ is_sample_std l' s /\ s < threshold.

(** [l] are the values, over time, of one geo and one variable of the data. *)
Definition series_of (x : cube) (l : list R) : Prop :=
  exists g v, (g < cu_geos x)%nat /\ (v < cu_vars x)%nat /\ l = series x g v.
Definition series_in (x : option cube) (l : list R) : Prop := exists y, x = Some y /\ series_of y l.
Definition checked (d : scaled) (l : list R) : Prop :=
  series_of (sc_kpi d) l \/ series_of (sc_treatments d) l \/
  series_in (sc_reach d) l \/ series_in (sc_organic_reach d) l \/
  series_in (sc_frequency d) l \/ series_in (sc_organic_frequency d) l.
(** Paid and organic channels are observed in the same geos and periods. *)
Definition same_frame (a b : option cube) : Prop :=
  forall x y, a = Some x -> b = Some y -> cu_geos y = cu_geos x /\ cu_times y = cu_times x.
Definition well_formed (d : scaled) : Prop :=
  same_frame (sc_reach d) (sc_organic_reach d) /\ same_frame (sc_frequency d) (sc_organic_frequency d).

(** A value of the data that is an outlier among the values of its geo and variable. *)
Definition outlier_cell (x : cube) (a : cell) : Prop :=
  (ce_geo a < cu_geos x)%nat /\ (ce_time a < cu_times x)%nat /\ (ce_var a < cu_vars x)%nat /\
  cu_at x (ce_geo a) (ce_time a) (ce_var a) = Some (ce_value a) /\
  outlying (series x (ce_geo a) (ce_var a)) (ce_value a).
Definition larger (a b : cell) : Prop := Rabs (ce_value b) <= Rabs (ce_value a).

(** The data in other units: each variable is multiplied by a positive number and shifted. *)
Definition in_units (a b : nat -> R) (x y : cube) : Prop :=
  cu_geos y = cu_geos x /\ cu_times y = cu_times x /\ cu_vars y = cu_vars x /\
  forall g t v, cu_at y g t v = option_map (fun r => a v * r + b v) (cu_at x g t v).

(** Units without cost, or cost without units. *)
Definition inconsistent (c : costs) (p : nat * nat * nat) : Prop :=
  let '(g, t, v) := p in
  (g < co_geos c)%nat /\ (t < co_times c)%nat /\ (v < co_channels c)%nat /\
  ((co_spend c g t v = 0 /\ 0 < co_units c g t v) \/ (0 < co_spend c g t v /\ co_units c g t v = 0)).
(** The unit cost of geo [g] in period [t], where there are units. *)
Definition unit_cost (c : costs) (g t v : nat) (q : R) : Prop :=
  co_units c g t v <> 0 /\ q * co_units c g t v = co_spend c g t v.
