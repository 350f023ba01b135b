(** Vocabulary of property C73: which input data can be saved, and when loaded data are the saved ones. *)
From Coq Require Import Reals ZArith String List Bool.
From Verif Require Import M_Base M_Time M_InputData S_InputData.
Import ListNotations.
Local Open Scope string_scope.
Local Open Scope nat_scope.
Local Open Scope list_scope.

(** Same labels in the same order, and the same numbers. *)
Definition same_vector (a b : vector) : Prop :=
  v_geos b = v_geos a /\ forall i, i < length (v_geos a) -> v_at b i = v_at a i.
Definition same_matrix (a b : matrix) : Prop :=
  m_geos b = m_geos a /\ m_times b = m_times a /\
  forall i j, i < length (m_geos a) -> j < length (m_times a) -> m_at b i j = m_at a i j.
(** Same labels, and numbers in a relation to those of the first. *)
Definition panel_by (rel : option R -> option R -> Prop) (a b : panel) : Prop :=
  p_geos b = p_geos a /\ p_times b = p_times a /\ p_names b = p_names a /\
  forall i j k, i < length (p_geos a) -> j < length (p_times a) -> k < length (p_names a) -> rel (p_at a i j k) (p_at b i j k).
Definition same_panel : panel -> panel -> Prop := panel_by eq.
(** The whole number below. *)
Definition rounded_down (x y : option R) : Prop :=
  exists a z, x = Some a /\ y = Some (IZR z) /\ (IZR z <= a < IZR z + 1)%R.
Definition same_spend (a b : spend) : Prop :=
  match a, b with
  | SpendPanel p, SpendPanel q => same_panel p q
  | SpendTotal n f, SpendTotal m g => m = n /\ forall k, k < length n -> g k = f k
  | _, _ => False
  end.
Definition both {A} (rel : A -> A -> Prop) (a b : option A) : Prop :=
  match a, b with None, None => True | Some x, Some y => rel x y | _, _ => False end.

(** The data that come back: reach in whole numbers, all else as it was. *)
Definition restored (reach : panel -> panel -> Prop) (d e : input) : Prop :=
  same_matrix (i_kpi d) (i_kpi e) /\ i_kpi_type e = i_kpi_type d /\ same_vector (i_population d) (i_population e) /\
  both same_panel (i_controls d) (i_controls e) /\ both same_matrix (i_rpk d) (i_rpk e) /\
  both same_panel (i_media d) (i_media e) /\ both same_spend (i_media_spend d) (i_media_spend e) /\
  both reach (i_reach d) (i_reach e) /\ both same_panel (i_frequency d) (i_frequency e) /\
  both same_spend (i_rf_spend d) (i_rf_spend e) /\ both same_panel (i_organic_media d) (i_organic_media e) /\
  both reach (i_organic_reach d) (i_organic_reach e) /\ both same_panel (i_organic_frequency d) (i_organic_frequency e) /\
  both same_panel (i_non_media d) (i_non_media e) /\ i_currency e = i_currency d.

(** Arrays that fit together: what the constructor does not check. *)
Definition savable (d : input) : Prop :=
  (* geos have names; there are some *)
  m_geos (i_kpi d) <> [] /\ ~ In "" (m_geos (i_kpi d)) /\
  (* media arrays have the same dates, without repetitions, and the KPI dates are among them *)
  (forall p q, In (Some p) (media_panels d) -> In (Some q) (media_panels d) -> p_times q = p_times p) /\
  (forall p, In (Some p) (media_panels d) -> NoDup (p_times p) /\ incl (m_times (i_kpi d)) (p_times p)) /\
  NoDup (m_times (i_kpi d)) /\
  (* the other arrays have the KPI dates *)
  (forall p, In (Some p) [i_controls d; i_non_media d] -> p_times p = m_times (i_kpi d)) /\
  (forall m, i_rpk d = Some m -> m_times m = m_times (i_kpi d)) /\
  (forall p, In (Some (SpendPanel p)) [i_media_spend d; i_rf_spend d] -> p_geos p = m_geos (i_kpi d) /\ p_times p = m_times (i_kpi d)) /\
  (* no array is without channels, controls have different names *)
  (forall p, In (Some p) (panels d) -> p_names p <> []) /\ (forall p, i_controls d = Some p -> NoDup (p_names p)) /\
  (* spend comes with media, reach with frequency *)
  (i_media d = None -> i_media_spend d = None) /\ (i_reach d = None -> i_rf_spend d = None) /\
  (i_reach d = None <-> i_frequency d = None) /\ (i_organic_reach d = None <-> i_organic_frequency d = None) /\
  (* reach is below 2^63 *)
  (forall p x, In (Some p) [i_reach d; i_organic_reach d] -> in_panel p (Some x) -> (x < IZR (2 ^ 63))%R) /\
  i_currency d <> Some "".
