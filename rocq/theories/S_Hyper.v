(** Vocabulary of property C70: what a reloaded specification has to agree on. *)
From Coq Require Import Reals ZArith String List Bool.
From Verif Require Import M_Base M_TensorProto M_Hyper C_TensorProto.
Import ListNotations.
Local Open Scope string_scope.
Local Open Scope list_scope.

(** Numbers that fit the fields of the message: a 32-bit [max_lag], knots and geo index. *)
Definition fits32 (z : Z) : Prop := (-2147483648 <= z <= 2147483647)%Z.
Definition knots_listed (k : knots_value) : list Z :=
  match k with KsNone => [] | KsInt k => [k] | KsList l => l end.
Definition numbers_fit (h : hyper) : Prop :=
  (forall l, h_max_lag h = Some l -> (0 <= l <= 4294967295)%Z) /\
  Forall fits32 (knots_listed (h_knots h)) /\
  (forall z, h_baseline_geo h = GeoInt z -> fits32 z).
(** Arrays that survive [C43]; boolean arrays of every shape do. *)
Definition storable (o : option array) : Prop :=
  forall a, o = Some a -> well_formed a /\ supported a /\ ~ lost a.
Definition arrays_fit (h : hyper) : Prop :=
  storable (h_roi_calibration h) /\ storable (h_rf_roi_calibration h) /\ storable (h_holdout h) /\
  storable (h_control_scaling h) /\ storable (h_non_media_scaling h).

(** The function meant for a channel. *)
Definition assigned (default : string) (f : function_spec) (channel : string) : option string :=
  match f with
  | FnName s => Some s
  | FnMap l => Some (match lookup channel l with Some s => s | None => default end)
  | FnOther => None
  end.
(** A baseline value is a number or, whatever the case of its letters, "min" or "max". *)
Definition documented_value (v : baseline_value) : Prop :=
  match v with BvName s => lower s = "min" \/ lower s = "max" | BvNumber _ => True | BvOther => False end.

(** The fields that are kept as they are. *)
Definition plain_fields_kept (h h' : hyper) : Prop :=
  h_effects h' = h_effects h /\ h_hill_before_adstock h' = h_hill_before_adstock h /\
  h_max_lag h' = h_max_lag h /\ h_unique_sigma h' = h_unique_sigma h /\
  h_media_prior_type h' = h_media_prior_type h /\ h_rf_prior_type h' = h_rf_prior_type h /\
  h_paid_media_prior_type h' = h_paid_media_prior_type h /\
  h_organic_media_prior_type h' = h_organic_media_prior_type h /\
  h_organic_rf_prior_type h' = h_organic_rf_prior_type h /\
  h_non_media_prior_type h' = h_non_media_prior_type h /\
  h_enable_aks h' = h_enable_aks h /\
  h_roi_calibration h' = h_roi_calibration h /\ h_rf_roi_calibration h' = h_rf_roi_calibration h /\
  h_holdout h' = h_holdout h /\ h_control_scaling h' = h_control_scaling h /\
  h_non_media_scaling h' = h_non_media_scaling h /\
  (forall c, h_decay h <> FnOther -> assigned "geometric" (h_decay h') c = assigned "geometric" (h_decay h) c) /\
  (forall c, assigned "hill" (h_saturation h') c = assigned "hill" (h_saturation h) c).

(** What becomes of a baseline value: names are lower-cased, numbers take single precision. *)
Definition value_after (f32 : R -> R) (v v' : baseline_value) : Prop :=
  match v with BvName s => v' = BvName (lower s) | BvNumber x => v' = BvNumber (f32 x) | BvOther => False end.
Definition values_after (f32 : R -> R) (o o' : option (list baseline_value)) : Prop :=
  match o with
  | None | Some [] => o' = None
  | Some l => exists l', o' = Some l' /\ Forall2 (value_after f32) l l'
  end.
(** What becomes of the knots: the location of a single knot is read back as a number of knots. *)
Definition knots_after (k : knots_value) : knots_value := match k with KsList [k] => KsInt k | _ => k end.
(** What becomes of the baseline geo: a value of another type is forgotten. *)
Definition geo_after (g : geo_value) : geo_value := match g with GeoOther => GeoNone | _ => g end.
Definition changed_as_described (f32 : R -> R) (h h' : hyper) : Prop :=
  plain_fields_kept h h' /\ values_after f32 (h_non_media_baseline_values h) (h_non_media_baseline_values h') /\
  h_knots h' = knots_after (h_knots h) /\ h_baseline_geo h' = geo_after (h_baseline_geo h).

(** A message that can be read: not a single knot at location 0, only documented baseline values. *)
Definition readable (h : hyper) : Prop :=
  h_knots h <> KsList [0%Z] /\
  (forall l, h_non_media_baseline_values h = Some l -> Forall documented_value l).

(** The same specification. *)
Definition same_value (v v' : baseline_value) : Prop :=
  match v, v' with
  | BvName s, BvName s' => lower s = lower s'
  | BvNumber x, BvNumber x' => x = x'
  | _, _ => False
  end.
Definition same_values (o o' : option (list baseline_value)) : Prop :=
  match o, o' with
  | None, None => True
  | Some l, Some l' => Forall2 same_value l l'
  | _, _ => False
  end.
Definition same_spec (h h' : hyper) : Prop :=
  plain_fields_kept h h' /\ same_values (h_non_media_baseline_values h) (h_non_media_baseline_values h') /\
  h_knots h' = h_knots h /\ h_baseline_geo h' = h_baseline_geo h.

(** A number that single precision holds exactly (its exponent range aside). *)
Definition single_precision (x : R) : Prop :=
  exists m e : Z, (Z.abs m < 2 ^ 24)%Z /\ (x = IZR m * powerRZ 2 e)%R.
