(** Specification for property C80: when a model is accepted. *)
From Coq Require Import Reals ZArith List Bool.
From Verif Require Import Lib_Sum M_Base M_Transformers M_Guard.
Import ListNotations.
Local Open Scope R_scope.

(** The explanatory variables. *)
Inductive variable := VControls | VNonMedia | VMedia | VReach | VOrganicMedia | VOrganicReach.
Definition data_of (d : inputs) (v : variable) : option T3 :=
  match v with
  | VControls => in_controls d | VNonMedia => in_non_media d | VMedia => in_media d
  | VReach => in_reach d | VOrganicMedia => in_organic_media d | VOrganicReach => in_organic_reach d
  end.
Definition is_media (v : variable) : bool := match v with VControls | VNonMedia => false | _ => true end.
(** Media are counted per capita; a control or non-media treatment is if its flag says so. *)
Definition per_capita (s : specs) (v : variable) (m : nat) : bool :=
  match v with
  | VControls => match sp_control_scaling s with Some (_, b) => b m | None => false end
  | VNonMedia => match sp_non_media_scaling s with Some (_, b) => b m | None => false end
  | _ => true
  end.
Definition level (d : inputs) (s : specs) (v : variable) (x : T3) (g t m : nat) : R :=
  if per_capita s v m then val x g t m / in_population d g else val x g t m.

(** Standard deviation of [f 0], ..., [f (n-1)]. *)
Definition mean (n : nat) (f : nat -> R) : R := rsum n f / INR n.
Definition spread (n : nat) (f : nat -> R) : R := sqrt (mean n (fun i => (f i - mean n f) ^ 2)).
(** The unit in which the spread of a channel is measured: the median of its non-zero values for
    media, the standard deviation over all geos and periods otherwise. *)
Definition unit_of (d : inputs) (s : specs) (v : variable) (x : T3) (m : nat) : R :=
  if is_media v then match channel_median x (in_population d) m with Some k => k | None => 0 end
  else std_gt (geos x) (times x) (fun g t => level d s v x g t m).
Definition varies_over_time (d : inputs) (s : specs) (v : variable) (x : T3) (m : nat) : Prop :=
  exists g, (g < geos x)%nat /\ 0 < unit_of d s v x m /\ unit_of d s v x m / 10000 <= spread (times x) (fun t => level d s v x g t m).
Definition varies_over_geos (d : inputs) (s : specs) (v : variable) (x : T3) (m : nat) : Prop :=
  exists t, (t < times x)%nat /\ 0 < unit_of d s v x m /\ unit_of d s v x m / 10000 <= spread (geos x) (fun g => level d s v x g t m).

(** Total spend of a paid channel; a total given for a channel without any units in the periods of the
    KPI counts as nothing. *)
Definition window_units (d : inputs) (u : T3) (m : nat) : R :=
  rsum (geos u) (fun g => rsum (in_times d) (fun t => val u g (times u - in_times d + t)%nat m)).
Definition spent (d : inputs) (u : T3) (sp : spends) (m : nat) : R :=
  match sp with
  | PerCell f => rsum (in_geos d) (fun g => rsum (in_times d) (fun t => f g t m))
  | PerChannel f => if Req_EM_T (window_units d u m) 0 then 0 else f m
  end.
Definition units_of (d : inputs) : list (option T3 * option spends) :=
  [(in_media d, in_media_spend d);
   (match in_reach d, in_frequency d with
    | Some r, Some f => Some (mkT3 (geos r) (times r) (chans r) (fun g t m => val r g t m * val f g t m))
    | _, _ => None end, in_rf_spend d)].

(** The KPI per capita is the same everywhere. *)
Definition constant_kpi (d : inputs) : Prop :=
  exists k, forall g t, (g < in_geos d)%nat -> (t < in_times d)%nat -> in_kpi d g t / in_population d g = k.
(** Priors that need the scale of the KPI: ROI, mROI, contribution. *)
Definition has (o : option T3) : Prop := (0 < n_chans o)%nat.
Definition needs_kpi (d : inputs) (s : specs) : Prop :=
  has (in_media d) /\ sp_media_type s <> Coefficient \/ has (in_reach d) /\ sp_rf_type s <> Coefficient \/
  has (in_organic_media d) /\ sp_organic_media_type s = Contribution \/
  has (in_organic_reach d) /\ sp_organic_rf_type s = Contribution \/
  has (in_non_media d) /\ sp_non_media_type s = Contribution.

(** Without revenue, default ROI and mROI priors mean nothing. *)
Definition default_roi_media (s : specs) : Prop := sp_media_type s = Roi /\ sp_roi_m_default s = true.
Definition default_roi_rf (s : specs) : Prop := sp_rf_type s = Roi /\ sp_roi_rf_default s = true.
Definition default_mroi (d : inputs) (s : specs) : Prop :=
  has (in_media d) /\ sp_media_type s = Mroi /\ sp_mroi_m_default s = true \/
  has (in_reach d) /\ sp_rf_type s = Mroi /\ sp_mroi_rf_default s = true.
(** All paid channels have the default ROI prior. *)
Definition all_default_roi (d : inputs) (s : specs) : Prop :=
  (has (in_media d) -> default_roi_media s) /\ (has (in_reach d) -> default_roi_rf s).
Definition some_default_roi (d : inputs) (s : specs) : Prop :=
  has (in_media d) /\ default_roi_media s \/ has (in_reach d) /\ default_roi_rf s.

Definition fits (o : option (list nat)) (shape : list nat) : Prop := forall l, o = Some l -> l = shape.
Record shapes_fit (d : inputs) (s : specs) : Prop := mkFit {
  fit_roi : fits (sp_roi_period s) [in_media_times d; n_chans (in_media d)];
  fit_rf_roi : fits (sp_rf_roi_period s) [in_media_times d; n_chans (in_reach d)];
  fit_holdout : fits (sp_holdout s) (if Nat.eqb (in_geos d) 1 then [in_times d] else [in_geos d; in_times d]);
  fit_controls : fits (option_map fst (sp_control_scaling s)) [n_chans (in_controls d)];
  fit_non_media : fits (option_map fst (sp_non_media_scaling s)) [n_chans (in_non_media d)]
}.

(** Data as checked by [InputData], with positive populations and non-negative media. *)
Record good_data (d : inputs) : Prop := mkGood {
  gd_geos : (0 < in_geos d)%nat;
  gd_times : (0 < in_times d <= in_media_times d)%nat;
  gd_population : forall g, (g < in_geos d)%nat -> 0 < in_population d g;
  gd_shape : forall v x, data_of d v = Some x ->
    geos x = in_geos d /\ times x = (if is_media v then in_media_times d else in_times d);
  gd_media : forall v x g t m, data_of d v = Some x -> is_media v = true ->
    (g < geos x)%nat -> (t < times x)%nat -> (m < chans x)%nat -> 0 <= val x g t m;
  gd_frequency : forall r f, in_reach d = Some r -> in_frequency d = Some f -> forall g t m,
    (g < geos r)%nat -> (t < times r)%nat -> (m < chans r)%nat -> 0 <= val f g t m;
  gd_paid : (has (in_media d) \/ has (in_reach d))
}.
