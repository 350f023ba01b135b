(** Vocabulary of property C72: what acceptable input data are. *)
From Coq Require Import Reals ZArith String List Bool.
From Verif Require Import M_Base M_Time S_Time M_InputData.
Import ListNotations.
Local Open Scope string_scope.
Local Open Scope nat_scope.
Local Open Scope list_scope.

(** Entries of an array. *)
Definition in_vector (v : vector) (x : option R) : Prop := exists i, i < length (v_geos v) /\ x = v_at v i.
Definition in_matrix (m : matrix) (x : option R) : Prop :=
  exists i j, i < length (m_geos m) /\ j < length (m_times m) /\ x = m_at m i j.
Definition in_panel (p : panel) (x : option R) : Prop :=
  exists i j k, i < length (p_geos p) /\ j < length (p_times p) /\ k < length (p_names p) /\ x = p_at p i j k.
Definition in_spend (s : spend) (x : option R) : Prop :=
  match s with SpendPanel p => in_panel p x | SpendTotal n a => exists k, k < length n /\ x = a k end.

Definition panels (d : input) : list (option panel) :=
  [i_controls d; i_media d; i_reach d; i_frequency d; i_organic_media d; i_organic_reach d; i_organic_frequency d; i_non_media d].
Definition media_panels (d : input) : list (option panel) :=
  [i_media d; i_reach d; i_frequency d; i_organic_media d; i_organic_reach d; i_organic_frequency d].

(** An entry of any array. *)
Definition entry_of (d : input) (x : option R) : Prop :=
  in_matrix (i_kpi d) x \/ in_vector (i_population d) x \/ (exists m, i_rpk d = Some m /\ in_matrix m x) \/
  (exists p, In (Some p) (panels d) /\ in_panel p x) \/
  (exists s, In (Some s) [i_media_spend d; i_rf_spend d] /\ in_spend s x).
(** An entry of an array that may not be negative: KPI, revenue per KPI, spend, reach and frequency. *)
Definition signed_entry (d : input) (x : option R) : Prop :=
  in_matrix (i_kpi d) x \/ (i_kpi_type d <> "revenue" /\ exists m, i_rpk d = Some m /\ in_matrix m x) \/
  (exists p, In (Some p) [i_reach d; i_frequency d; i_organic_reach d; i_organic_frequency d] /\ in_panel p x) \/
  (exists s, In (Some s) [i_media_spend d; i_rf_spend d] /\ in_spend s x).

(** The names two arrays give to their channels agree, if both are there. *)
Definition agree {A B} (f : A -> list string) (g : B -> list string) (a : option A) (b : option B) : Prop :=
  forall x y, a = Some x -> b = Some y -> f x = g y.

(** Evenly spaced dates in order: at least two, all intervals equal or all of one calendar cadence. *)
Definition evenly_spaced (l : list date) : Prop :=
  (2 <= length l)%nat /\ not_decreasing l /\
  ((exists c, forall x, In x (intervals l) -> x = c) \/ (forall x, In x (intervals l) -> In x [28; 29; 30; 31]%Z) \/
   (forall x, In x (intervals l) -> In x [90; 91; 92]%Z) \/ (forall x, In x (intervals l) -> In x [365; 366]%Z)).

Definition acceptable (d : input) : Prop :=
  (* KPI *)
  (i_kpi_type d = "revenue" \/ i_kpi_type d = "non_revenue") /\
  (forall m, i_rpk d = Some m -> exists x, in_matrix m x /\ x <> Some 0%R) /\
  (* numbers *)
  (forall x, entry_of d x -> x <> None) /\
  (forall x, signed_entry d (Some x) -> (0 <= x)%R) /\
  (* geos *)
  NoDup (m_geos (i_kpi d)) /\ v_geos (i_population d) = m_geos (i_kpi d) /\
  (forall p, In (Some p) (panels d) -> p_geos p = m_geos (i_kpi d)) /\
  (forall m, i_kpi_type d <> "revenue" -> i_rpk d = Some m -> m_geos m = m_geos (i_kpi d)) /\
  (* periods *)
  (forall p, In (Some p) [i_controls d; i_non_media d] -> length (p_times p) = length (m_times (i_kpi d))) /\
  (forall m, i_kpi_type d <> "revenue" -> i_rpk d = Some m -> length (m_times m) = length (m_times (i_kpi d))) /\
  (forall p, In (Some p) (media_panels d) -> length (m_times (i_kpi d)) <= length (p_times p)) /\
  evenly_spaced (m_times (i_kpi d)) /\
  (forall p, i_media d = Some p -> evenly_spaced (p_times p)) /\
  (forall p, i_media d = None -> i_reach d = Some p -> evenly_spaced (p_times p)) /\
  (* channels *)
  (i_media d <> None \/ i_reach d <> None) /\
  agree p_names spend_names (i_media d) (i_media_spend d) /\
  agree p_names p_names (i_reach d) (i_frequency d) /\ agree p_names spend_names (i_reach d) (i_rf_spend d) /\
  agree p_names spend_names (i_frequency d) (i_rf_spend d) /\
  agree p_names p_names (i_organic_reach d) (i_organic_frequency d) /\
  NoDup (of_option p_names (i_media d) ++ of_option p_names (i_reach d) ++ of_option p_names (i_organic_media d) ++
         of_option p_names (i_organic_reach d) ++ of_option p_names (i_non_media d)).

(** The data that are kept: those given, with a revenue per KPI of one if the KPI is revenue. *)
Definition with_ones (d d' : input) : Prop :=
  d' = d /\ i_kpi_type d <> "revenue" \/
  i_kpi_type d = "revenue" /\
  (exists m, i_rpk d' = Some m /\ m_geos m = m_geos (i_kpi d) /\ m_times m = m_times (i_kpi d) /\ forall x, in_matrix m x -> x = Some 1%R) /\
  i_kpi d' = i_kpi d /\ i_kpi_type d' = i_kpi_type d /\ i_population d' = i_population d /\ i_controls d' = i_controls d /\
  i_media d' = i_media d /\ i_media_spend d' = i_media_spend d /\ i_reach d' = i_reach d /\ i_frequency d' = i_frequency d /\
  i_rf_spend d' = i_rf_spend d /\ i_organic_media d' = i_organic_media d /\ i_organic_reach d' = i_organic_reach d /\
  i_organic_frequency d' = i_organic_frequency d /\ i_non_media d' = i_non_media d /\ i_currency d' = i_currency d.
