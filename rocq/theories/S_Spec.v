(** Specification vocabulary for model specs and prior selection (C12, C13, C47). *)
From Coq Require Import Reals ZArith List Bool String.
From Verif Require Import M_Base M_AdstockHill M_Equations M_Priors M_Spec.
Import ListNotations.

(** The prior type the user selected for a treatment: its own option; for paid treatments the
    deprecated common option as fallback, and 'roi' when neither is given. *)
Definition selected_type (s : model_spec) (k : treatment) : prior_type :=
  match k with
  | Media | Rf =>
      let own := match k with Media => sp_media_prior_type s | _ => sp_rf_prior_type s end in
      match own, sp_paid_media_prior_type s with
      | Some t, _ => t
      | None, Some t => t
      | None, None => PtROI
      end
  | OrganicMedia => sp_organic_media_prior_type s
  | OrganicRf => sp_organic_rf_prior_type s
  | NonMedia => sp_non_media_prior_type s
  end.

(** The parameter a prior type speaks about. *)
Definition parameter_of (t : prior_type) : option drawn :=
  match t with
  | PtROI => Some DrawRoi
  | PtMROI => Some DrawMroi
  | PtContribution => Some DrawContribution
  | PtCoefficient => Some DrawCoefficient
  | PtOther => None
  end.

(** The requirements documented for a model spec. *)
Record well_formed_spec (s : model_spec) : Prop := {
  wf_effects : sp_effects s <> None;
  wf_paid_exclusive : sp_paid_media_prior_type s = None \/
    (sp_media_prior_type s = None /\ sp_rf_prior_type s = None);
  wf_paid : forall k, k = Media \/ k = Rf -> selected_type s k <> PtOther;
  wf_non_paid : forall k, k = OrganicMedia \/ k = OrganicRf \/ k = NonMedia ->
    selected_type s k = PtCoefficient \/ selected_type s k = PtContribution;
  wf_media_calibration : forall r, sp_roi_calibration s = Some r ->
    selected_type s Media = PtROI /\ r = 2;
  wf_rf_calibration : forall r, sp_rf_roi_calibration s = Some r ->
    selected_type s Rf = PtROI /\ r = 2;
  wf_knots : match sp_knots s with
             | KnNone => True
             | KnInt z => z <> 0%Z /\ sp_enable_aks s = false
             | KnList l => l <> [] /\ sp_enable_aks s = false
             | _ => False
             end;
  wf_saturation : match sp_saturation s with
                  | SatName x => x = Hill \/ x = NoSat
                  | SatMap l => forall c x, In (c, x) l -> x = Hill \/ x = NoSat
                  | SatBadType => False
                  end
}.

(** The prior that is active for treatment [k] puts mass below zero. *)
Definition active_prior_negative (s : model_spec) (negative : treatment -> drawn -> bool)
    (k : treatment) : Prop :=
  exists d, parameter_of (selected_type s k) = Some d /\ d <> DrawCoefficient /\ negative k d = true.
