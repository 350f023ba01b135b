(** Specification for C87: the arrays the exploratory checks read. *)
From Coq Require Import Reals List.
From Verif Require Import Lib_Sum M_Base M_DataChecks M_National.
Import ListNotations.
Local Open Scope R_scope.

(** [y] holds the last [n] periods of [x]: counted from the end, the same values. *)
Definition last_periods (n : nat) (x y : T3) : Prop :=
  geos y = geos x /\ times y = n /\ chans y = chans x /\
  forall g k m, (k < n)%nat -> val y g (n - 1 - k)%nat m = val x g (times x - 1 - k)%nat m.
Definition last_periods_of_cube (n : nat) (x y : cube) : Prop :=
  cu_geos y = cu_geos x /\ cu_times y = n /\ cu_vars y = cu_vars x /\
  forall g k m, (k < n)%nat -> cu_at y g (n - 1 - k)%nat m = cu_at x g (cu_times x - 1 - k)%nat m.

(** Channel [m] reaches somebody, some times, in one of the last [n] periods. *)
Definition on_air (n : nat) (reach frequency : T3) (m : nat) : Prop :=
  exists g k, (g < geos reach)%nat /\ (k < n)%nat /\
    0 < val reach g (times reach - 1 - k)%nat m /\ 0 < val frequency g (times reach - 1 - k)%nat m.

(** Data that can be loaded: as many frequencies as reaches, none negative, positive populations,
    more media periods than KPI periods; a national model has one geo. *)
Definition loadable (national : bool) (n : nat) (population : nat -> R) (reach frequency : T3) : Prop :=
  geos frequency = geos reach /\ times frequency = times reach /\ chans frequency = chans reach /\
  (forall g t m, 0 <= val reach g t m /\ 0 <= val frequency g t m) /\
  (forall g, 0 < population g) /\ (n <= times reach)%nat /\ (national = true -> geos reach = 1%nat).

(** The model itself can scale the reach: every channel reaches somebody in some media period. *)
Definition model_builds (population : nat -> R) (reach : T3) : Prop :=
  exists c, model_scaled reach population = Ok c.

(** A variable of one geo has the given value in all periods. *)
Definition standardised (x : cube) (m : nat) : Prop :=
  exists z, (forall t, (t < cu_times x)%nat -> cu_at x 0 t m = Some (z t)) /\
    rsum (cu_times x) z = 0 /\ rsum (cu_times x) (fun t => z t ^ 2) = INR (cu_times x).
Definition varies (x : T3) (m : nat) : Prop :=
  exists t t', (t < times x)%nat /\ (t' < times x)%nat /\ val x 0 t m <> val x 0 t' m.
