(** Specification for C81, in terms of sums over geos and periods. *)
From Coq Require Import Reals List Arith.
From Verif Require Import Lib_Sum M_Eda.
Import ListNotations.
Local Open Scope R_scope.

(** A variable: a number per geo and period. *)
Definition variable := nat -> nat -> R.
Definition total (G T : nat) (x : variable) : R := rsum G (fun g => rsum T (fun t => x g t)).
Definition average (G T : nat) (x : variable) : R := total G T x / (INR G * INR T).
(** Sums of squares and products about the averages. *)
Definition sxy (G T : nat) (x y : variable) : R :=
  total G T (fun g t => (x g t - average G T x) * (y g t - average G T y)).
(** The correlation exceeds [c] in absolute value (for variables which vary). *)
Definition correlated_above (G T : nat) (c : R) (x y : variable) : Prop :=
  c ^ 2 * (sxy G T x x * sxy G T y y) < (sxy G T x y) ^ 2.

(** Predictions of [y] from the variables [xs] and a constant. *)
Fixpoint combination (cs : list R) (xs : list variable) (g t : nat) : R :=
  match cs, xs with c :: cs', x :: xs' => c * x g t + combination cs' xs' g t | _, _ => 0 end.
Definition squared_error (G T : nat) (xs : list variable) (y : variable) (b : R) (cs : list R) : R :=
  total G T (fun g t => (y g t - (b + combination cs xs g t)) ^ 2).
(** [r] is the smallest sum of squared errors. *)
Definition least_error (G T : nat) (xs : list variable) (y : variable) (r : R) : Prop :=
  (exists b cs, length cs = length xs /\ squared_error G T xs y b cs = r) /\
  (forall b cs, length cs = length xs -> r <= squared_error G T xs y b cs).
(** The variance inflation factor of [y] given [xs] exceeds [c]. *)
Definition inflated_above (G T : nat) (c : R) (xs : list variable) (y : variable) : Prop :=
  exists r, least_error G T xs y r /\ c * r < sxy G T y y.

(** The standard deviation is at least [c]. *)
Definition varies_by (G T : nat) (c : R) (x : variable) : Prop := c ^ 2 * (INR G * INR T) <= sxy G T x x.
(** Same, dividing by one less. *)
Definition sample_varies_by (G T : nat) (c : R) (x : variable) : Prop :=
  (2 <= G * T)%nat /\ c ^ 2 * (INR G * INR T - 1) <= sxy G T x x.
(** The other variables which vary. *)
Definition others (G T : nat) (c : R) (n : nat) (x : nat -> variable) (v : nat) (xs : list variable) : Prop :=
  exists l, NoDup l /\ (forall w, In w l <-> (w < n)%nat /\ w <> v /\ varies_by G T c (x w)) /\ xs = map x l.

(** Two variables are tied by a straight line. *)
Definition proportional (G T : nat) (x y : variable) : Prop :=
  exists a b, a <> 0 /\ forall g t, (g < G)%nat -> (t < T)%nat -> y g t = a * x g t + b.
Definition not_constant (G T : nat) (x : variable) : Prop :=
  exists g t g' t', (g < G)%nat /\ (t < T)%nat /\ (g' < G)%nat /\ (t' < T)%nat /\ x g t <> x g' t'.
(** [y] is a combination of [xs] and a constant. *)
Definition determined (G T : nat) (xs : list variable) (y : variable) : Prop :=
  exists b cs, length cs = length xs /\ forall g t, (g < G)%nat -> (t < T)%nat -> y g t = b + combination cs xs g t.

(** Engines and thresholds considered: some geo and period, a single geo in a national model,
    thresholds which are not negative. *)
Record good (e : engine) (s : thresholds) : Prop := mkGood {
  gd_geos : (1 <= en_geos e)%nat; gd_times : (1 <= en_times e)%nat;
  gd_one : en_national e = true -> en_geos e = 1%nat;
  gd_corr : 0 <= th_corr_overall s /\ 0 <= th_corr_geo s /\ 0 <= th_corr_national s;
  gd_vif : 0 <= th_vif_overall s /\ 0 <= th_vif_geo s /\ 0 <= th_vif_national s;
  gd_std : 0 < th_vif_std s; gd_kpi : 0 <= th_kpi s
}.
Definition corr_limit (e : engine) (s : thresholds) : R := if en_national e then th_corr_national s else th_corr_overall s.
Definition vif_limit (e : engine) (s : thresholds) : R := if en_national e then th_vif_national s else th_vif_overall s.

(** Data accepted for sampling: the KPI varies, no pair of variables is correlated above the
    threshold, no variable which varies has a variance inflation factor above the threshold. *)
Definition acceptable (e : engine) (s : thresholds) : Prop :=
  sample_varies_by (en_geos e) (en_times e) (th_kpi s) (en_kpi e) /\
  (forall i j, (i < j < en_vars e)%nat ->
     ~ correlated_above (en_geos e) (en_times e) (corr_limit e s) (en_data e i) (en_data e j)) /\
  (forall v xs, (v < en_vars e)%nat -> varies_by (en_geos e) (en_times e) (th_vif_std s) (en_data e v) ->
     others (en_geos e) (en_times e) (th_vif_std s) (en_vars e) (en_data e) v xs ->
     ~ inflated_above (en_geos e) (en_times e) (vif_limit e s) xs (en_data e v)).
(** Each variable in another unit. *)
Definition rescaled (a b : nat -> R) (e : engine) : engine :=
  mkEngine (en_national e) (en_geos e) (en_times e) (en_kpi e) (en_vars e) (fun v g t => a v * en_data e v g t + b v).
(** At least one finding, no finding twice, and information only on its own. *)
Definition well_shaped (l : list (severity * cause)) : Prop :=
  l <> [] /\ NoDup l /\ (forall f, In f l -> fst f = Info -> l = [(Info, NoCause)]).
