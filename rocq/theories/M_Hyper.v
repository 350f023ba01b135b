(** Model of meridian/schema/serde/hyperparameters.py and of
    meridian/schema/utils/proto_enum_converter.py: how a model specification is written to and read
    from a [Hyperparameters] message.  The arrays are written with the functions of M_TensorProto. *)
From Coq Require Import Reals ZArith String List Bool Ascii.
From Verif Require Import M_Base M_AdstockHill M_Equations M_Priors M_Spec M_TensorProto.
Import ListNotations.
Local Open Scope string_scope.
Local Open Scope list_scope.

(** *** Enum conversion *)
(** proto_enum_converter.py:27-53.  The enum message is its list of (name, number) pairs
    (meridian_model.proto:212-245, 290-294). *)
Record converter := mkConverter {
  cv_enum : list (string * Z);
  cv_mapping : list (string * string);
  cv_unspecified : Z;
  cv_default : option string
}.
Fixpoint lookup {A} (k : string) (l : list (string * A)) : option A :=
  match l with [] => None | (k', v) :: r => if String.eqb k k' then Some v else lookup k r end.
Definition name_of (n : Z) (l : list (string * Z)) : option string :=
  option_map fst (find (fun e => Z.eqb (snd e) n) l).
Definition inverse (v : string) (l : list (string * string)) : option string :=
  option_map fst (find (fun e => String.eqb (snd e) v) l).

(** proto_enum_converter.py:55-90. *)
Definition to_proto (c : converter) (s : option string) : result Z :=
  match s with
  | None => Ok (cv_unspecified c)
  | Some s =>
      match lookup s (cv_mapping c) with
      | Some name => if String.eqb name "" then Err ValueError else
          match lookup name (cv_enum c) with Some n => Ok n | None => Ok (cv_unspecified c) end
      | None => Err ValueError
      end
  end.
(** proto_enum_converter.py:92-127. *)
Definition from_proto (c : converter) (n : Z) : result (option string) :=
  if Z.eqb n (cv_unspecified c) then Ok (cv_default c)
  else match name_of n (cv_enum c) with
       | None => Err ValueError
       | Some name => match inverse name (cv_mapping c) with Some s => Ok (Some s) | None => Err KeyError end
       end.

(** hyperparameters.py:37-46. *)
Definition media_effects_converter : converter := mkConverter
  [("MEDIA_EFFECTS_DISTRIBUTION_UNSPECIFIED", 0%Z); ("NORMAL", 1%Z); ("LOG_NORMAL", 2%Z)]
  [("log_normal", "LOG_NORMAL"); ("normal", "NORMAL")] 0 (Some "log_normal").
(** hyperparameters.py:48-59. *)
Definition paid_media_prior_type_converter : converter := mkConverter
  [("PAID_MEDIA_PRIOR_TYPE_UNSPECIFIED", 0%Z); ("ROI", 1%Z); ("MROI", 2%Z); ("COEFFICIENT", 3%Z); ("CONTRIBUTION", 4%Z)]
  [("roi", "ROI"); ("mroi", "MROI"); ("coefficient", "COEFFICIENT"); ("contribution", "CONTRIBUTION")] 0 None.
(** hyperparameters.py:61-75. *)
Definition non_paid_treatments_prior_type_converter : converter := mkConverter
  [("NON_PAID_TREATMENTS_PRIOR_TYPE_UNSPECIFIED", 0%Z); ("NON_PAID_TREATMENTS_PRIOR_TYPE_COEFFICIENT", 1%Z);
   ("NON_PAID_TREATMENTS_PRIOR_TYPE_CONTRIBUTION", 2%Z)]
  [("coefficient", "NON_PAID_TREATMENTS_PRIOR_TYPE_COEFFICIENT");
   ("contribution", "NON_PAID_TREATMENTS_PRIOR_TYPE_CONTRIBUTION")] 0 (Some "contribution").

(** *** The specification *)
Inductive baseline_value :=
  | BvName (s : string)
  | BvNumber (x : R)       (* Python float (NumPy float64 included) or int *)
  | BvOther.               (* anything else, e.g. a NumPy float32 *)
Inductive knots_value := KsNone | KsInt (k : Z) | KsList (l : list Z).
Inductive geo_value := GeoNone | GeoInt (z : Z) | GeoName (s : string)
  | GeoOther.              (* anything else, e.g. a NumPy integer *)
Inductive function_spec := FnName (s : string) | FnMap (l : list (string * string)) | FnOther.

(** spec.py:226-256: the fields of [ModelSpec] other than the prior; collections of knots are
    already the list that [__post_init__] (spec.py:353-357) makes of them. *)
Record hyper := mkHyper {
  h_effects : string;
  h_hill_before_adstock : bool;
  h_max_lag : option Z;
  h_unique_sigma : bool;
  h_media_prior_type : option string;
  h_rf_prior_type : option string;
  h_paid_media_prior_type : option string;
  h_organic_media_prior_type : string;
  h_organic_rf_prior_type : string;
  h_non_media_prior_type : string;
  h_non_media_baseline_values : option (list baseline_value);
  h_knots : knots_value;
  h_enable_aks : bool;
  h_baseline_geo : geo_value;
  h_roi_calibration : option array;
  h_rf_roi_calibration : option array;
  h_holdout : option array;
  h_control_scaling : option array;
  h_non_media_scaling : option array;
  h_decay : function_spec;
  h_saturation : function_spec
}.

(** The names as M_Spec sees them. *)
Definition effects_of (s : string) : option effects :=
  if String.eqb s "normal" then Some EffNormal else if String.eqb s "log_normal" then Some EffLogNormal else None.
Definition prior_type_of (s : string) : prior_type :=
  if String.eqb s "roi" then PtROI else if String.eqb s "mroi" then PtMROI
  else if String.eqb s "coefficient" then PtCoefficient
  else if String.eqb s "contribution" then PtContribution else PtOther.
Definition sat_of (s : string) : sat :=
  if String.eqb s "hill" then Hill else if String.eqb s "none" then NoSat else OtherSat.
Definition model_spec_of (h : hyper) : model_spec :=
  mkSpec (effects_of (h_effects h))
    (option_map prior_type_of (h_media_prior_type h)) (option_map prior_type_of (h_rf_prior_type h))
    (option_map prior_type_of (h_paid_media_prior_type h))
    (prior_type_of (h_organic_media_prior_type h)) (prior_type_of (h_organic_rf_prior_type h))
    (prior_type_of (h_non_media_prior_type h))
    (option_map (fun a => List.length (a_shape a)) (h_roi_calibration h))
    (option_map (fun a => List.length (a_shape a)) (h_rf_roi_calibration h))
    (match h_knots h with KsNone => KnNone | KsInt k => KnInt k | KsList l => KnList l end)
    (h_enable_aks h)
    (match h_saturation h with
     | FnName s => SatName (sat_of s)
     | FnMap l => SatMap (map (fun e => (fst e, sat_of (snd e))) l)
     | FnOther => SatBadType end).
(** The constructor [ModelSpec(...)]: spec.py:258-393. *)
Definition new_spec (h : hyper) : result hyper := rbind (spec_validate (model_spec_of h)) (fun _ => Ok h).

(** *** The message *)
Inductive baseline_proto := PvUnset | PvValue (x : R) | PvFunction (n : Z).
Inductive geo_proto := PgUnset | PgDeprecated (x : R) | PgInt (z : Z) | PgString (s : string).
Inductive function_proto := PfUnset | PfGlobal (s : string) | PfByChannel (l : list (string * string)).
(** meridian_model.proto:301-448 [Hyperparameters].  [holdout_ratio] is never written and is dropped
    here; a map field is a list of entries. *)
Record hyper_proto := mkHyperProto {
  q_effects : Z;
  q_hill_before_adstock : bool;
  q_max_lag : option Z;
  q_unique_sigma : bool;
  q_media_prior_type : Z;
  q_rf_prior_type : Z;
  q_paid_media_prior_type : Z;
  q_organic_media_prior_type : Z;
  q_organic_rf_prior_type : Z;
  q_non_media_prior_type : Z;
  q_non_media_baseline_values : list baseline_proto;
  q_knots : list Z;
  q_enable_aks : bool;
  q_baseline_geo : geo_proto;
  q_roi_calibration : option proto;
  q_rf_roi_calibration : option proto;
  q_holdout : option proto;
  q_control_scaling : option proto;
  q_non_media_scaling : option proto;
  q_decay : function_proto;
  q_saturation : function_proto
}.

(** Assigning an integer to an int32 / uint32 field raises when it is out of range. *)
Definition int32 (z : Z) : result Z :=
  raise_if (Z.ltb z (-2147483648) || Z.ltb 2147483647 z) ValueError (Ok z).
Definition uint32 (z : Z) : result Z :=
  raise_if (Z.ltb z 0 || Z.ltb 4294967295 z) ValueError (Ok z).

(** [str.lower] on ASCII letters. *)
Definition lower_char (c : ascii) : ascii :=
  let n := nat_of_ascii c in if Nat.leb 65 n && Nat.leb n 90 then ascii_of_nat (n + 32) else c.
Fixpoint lower (s : string) : string :=
  match s with EmptyString => EmptyString | String c r => String (lower_char c) (lower r) end.

Fixpoint all_ok {A B} (f : A -> result B) (l : list A) : result (list B) :=
  match l with [] => Ok [] | x :: r => rbind (f x) (fun y => rbind (all_ok f r) (fun ys => Ok (y :: ys))) end.
Definition optional {A B} (f : A -> result B) (o : option A) : result (option B) :=
  match o with None => Ok None | Some a => rbind (f a) (fun b => Ok (Some b)) end.

Section Serde.
(** The value that a single precision field holds after being assigned a number. *)
Variable f32 : R -> R.

(** hyperparameters.py:165-174. *)
Definition baseline_to_proto (v : baseline_value) : baseline_proto :=
  match v with
  | BvName s => if String.eqb (lower s) "min" then PvFunction 1
                else if String.eqb (lower s) "max" then PvFunction 2 else PvUnset
  | BvNumber x => PvValue (f32 x)
  | BvOther => PvUnset
  end.
(** hyperparameters.py:151-163: updating the map of the message with no entry leaves the oneof
    unset. *)
Definition function_to_proto (f : function_spec) : function_proto :=
  match f with
  | FnName s => PfGlobal s
  | FnMap [] => PfUnset
  | FnMap l => PfByChannel l
  | FnOther => PfUnset
  end.

(** hyperparameters.py:87-176 [serialize]. *)
Definition serialize (h : hyper) : result hyper_proto :=
  rbind (to_proto media_effects_converter (Some (h_effects h))) (fun e =>
  rbind (to_proto paid_media_prior_type_converter (h_media_prior_type h)) (fun pm =>
  rbind (to_proto paid_media_prior_type_converter (h_rf_prior_type h)) (fun pr =>
  rbind (to_proto paid_media_prior_type_converter (h_paid_media_prior_type h)) (fun pp =>
  rbind (to_proto non_paid_treatments_prior_type_converter (Some (h_organic_media_prior_type h))) (fun po =>
  rbind (to_proto non_paid_treatments_prior_type_converter (Some (h_organic_rf_prior_type h))) (fun px =>
  rbind (to_proto non_paid_treatments_prior_type_converter (Some (h_non_media_prior_type h))) (fun pn =>
  rbind (optional uint32 (h_max_lag h)) (fun lag =>
  rbind (match h_knots h with KsNone => Ok [] | KsInt k => all_ok int32 [k] | KsList l => all_ok int32 l end) (fun knots =>
  rbind (match h_baseline_geo h with
         | GeoName s => Ok (PgString s)
         | GeoInt z => rbind (int32 z) (fun z => Ok (PgInt z))
         | GeoNone | GeoOther => Ok PgUnset end) (fun geo =>
  rbind (optional make_tensor_proto (h_roi_calibration h)) (fun roi =>
  rbind (optional make_tensor_proto (h_rf_roi_calibration h)) (fun rf =>
  rbind (optional make_tensor_proto (h_holdout h)) (fun hold =>
  rbind (optional make_tensor_proto (h_control_scaling h)) (fun cs =>
  rbind (optional make_tensor_proto (h_non_media_scaling h)) (fun ns =>
  Ok (mkHyperProto e (h_hill_before_adstock h) lag (h_unique_sigma h) pm pr pp po px pn
        (match h_non_media_baseline_values h with None => [] | Some l => map baseline_to_proto l end)
        knots (h_enable_aks h) geo roi rf hold cs ns
        (function_to_proto (h_decay h)) (function_to_proto (h_saturation h)))))))))))))))))).

(** hyperparameters.py:242-271. *)
Definition baseline_from_proto (p : baseline_proto) : result baseline_value :=
  match p with
  | PvValue x => Ok (BvNumber x)
  | PvFunction n =>
      if Z.eqb n 1 then Ok (BvName "min") else if Z.eqb n 2 then Ok (BvName "max")
      else if Z.eqb n 0 then Ok (BvName "min") else Err ValueError
  | PvUnset => Err ValueError
  end.
(** hyperparameters.py:273-293. *)
Definition function_from_proto (default : string) (p : function_proto) : function_spec :=
  match p with PfGlobal s => FnName s | PfByChannel l => FnMap l | PfUnset => FnName default end.
(** A converter's result where [ModelSpec] expects a string: [None] (impossible for the converters
    used here) is not a valid name. *)
Definition name_or_bad (o : option string) : string := match o with Some s => s | None => "" end.

(** hyperparameters.py:178-329 [deserialize]. *)
Definition deserialize (p : hyper_proto) : result hyper :=
  let geo := match q_baseline_geo p with
             | PgInt z => GeoInt z | PgString s => GeoName s | PgUnset | PgDeprecated _ => GeoNone end in
  let knots := match q_knots p with [] => KsNone | [k] => KsInt k | l => KsList l end in
  rbind (optional make_ndarray (q_roi_calibration p)) (fun roi =>
  rbind (optional make_ndarray (q_rf_roi_calibration p)) (fun rf =>
  rbind (optional make_ndarray (q_holdout p)) (fun hold =>
  rbind (optional make_ndarray (q_control_scaling p)) (fun cs =>
  rbind (optional make_ndarray (q_non_media_scaling p)) (fun ns =>
  rbind (match q_non_media_baseline_values p with
         | [] => Ok None
         | l => rbind (all_ok baseline_from_proto l) (fun vs => Ok (Some vs)) end) (fun values =>
  rbind (from_proto media_effects_converter (q_effects p)) (fun e =>
  rbind (from_proto paid_media_prior_type_converter (q_media_prior_type p)) (fun pm =>
  rbind (from_proto paid_media_prior_type_converter (q_rf_prior_type p)) (fun pr =>
  rbind (from_proto paid_media_prior_type_converter (q_paid_media_prior_type p)) (fun pp =>
  rbind (from_proto non_paid_treatments_prior_type_converter (q_organic_media_prior_type p)) (fun po =>
  rbind (from_proto non_paid_treatments_prior_type_converter (q_organic_rf_prior_type p)) (fun px =>
  rbind (from_proto non_paid_treatments_prior_type_converter (q_non_media_prior_type p)) (fun pn =>
  new_spec (mkHyper (name_or_bad e) (q_hill_before_adstock p) (q_max_lag p) (q_unique_sigma p)
    pm pr pp (name_or_bad po) (name_or_bad px) (name_or_bad pn)
    values knots (q_enable_aks p) geo roi rf hold cs ns
    (function_from_proto "geometric" (q_decay p)) (function_from_proto "hill" (q_saturation p)))))))))))))))).

(** [save_meridian] followed by [load_meridian], for this part of the model. *)
Definition reload (h : hyper) : result hyper := rbind (serialize h) deserialize.
End Serde.
