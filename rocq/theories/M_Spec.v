(** Model of meridian/model/spec.py [ModelSpec], of the prior-type dispatch of
    prior_sampler.py / posterior_sampler.py and of the prior-support check of context.py. *)
From Coq Require Import Reals ZArith List Bool String.
From Verif Require Import M_Base M_AdstockHill M_Equations M_Priors.
Import ListNotations.

(** [knots] argument: None, int, collection of ints, collection with a non-int, other type. *)
Inductive knots_arg := KnNone | KnInt (k : Z) | KnList (l : list Z) | KnBadList | KnBadType.

(** [saturation_spec]: a name, a mapping channel -> name, or an unsupported type. *)
Inductive saturation_arg := SatName (s : sat) | SatMap (l : list (string * sat)) | SatBadType.

(** spec.py:226-256: the fields of [ModelSpec] that are validated or select priors.  A
    calibration period is represented by its rank. *)
Record model_spec := mkSpec {
  sp_effects : option effects;              (* None: not a known distribution name *)
  sp_media_prior_type : option prior_type;
  sp_rf_prior_type : option prior_type;
  sp_paid_media_prior_type : option prior_type;
  sp_organic_media_prior_type : prior_type;
  sp_organic_rf_prior_type : prior_type;
  sp_non_media_prior_type : prior_type;
  sp_roi_calibration : option nat;
  sp_rf_roi_calibration : option nat;
  sp_knots : knots_arg;
  sp_enable_aks : bool;
  sp_saturation : saturation_arg
}.

(** spec.py:395-410 [effective_media_prior_type]. *)
Definition effective_media_prior_type (s : model_spec) : prior_type :=
  match sp_media_prior_type s with
  | Some t => t
  | None => match sp_paid_media_prior_type s with Some t => t | None => PtROI end
  end.

(** spec.py:412-427 [effective_rf_prior_type]. *)
Definition effective_rf_prior_type (s : model_spec) : prior_type :=
  match sp_rf_prior_type s with
  | Some t => t
  | None => match sp_paid_media_prior_type s with Some t => t | None => PtROI end
  end.

(** constants.py:248-257. *)
Definition paid_prior_type (t : prior_type) : bool :=
  match t with PtROI | PtMROI | PtCoefficient | PtContribution => true | PtOther => false end.
Definition non_paid_prior_type (t : prior_type) : bool :=
  match t with PtCoefficient | PtContribution => true | _ => false end.

Definition is_some {A} (o : option A) : bool := match o with Some _ => true | None => false end.

(** spec.py:36-55 [_validate_roi_calibration_period]: true when it raises. *)
Definition bad_calibration (rank : option nat) (t : prior_type) : bool :=
  match rank with
  | None => false
  | Some r => match t with PtROI => negb (Nat.eqb r 2) | _ => true end
  end.

(** spec.py:353-372: true when the knots argument is rejected. *)
Definition bad_knots (k : knots_arg) (aks : bool) : bool :=
  match k with
  | KnNone => false
  | KnInt z => Z.eqb z 0 || aks
  | KnList l => match l with [] => true | _ => aks end
  | KnBadList => true
  | KnBadType => true
  end.

(** spec.py:374-393: true when the saturation argument is rejected. *)
Definition bad_saturation (s : saturation_arg) : bool :=
  match s with
  | SatName x => negb (valid_sat x)
  | SatMap l => negb (forallb (fun e => valid_sat (snd e)) l)
  | SatBadType => true
  end.

(** spec.py:258-393 [__post_init__]: every rejection is a ValueError. *)
Definition spec_validate (s : model_spec) : result unit :=
  raise_if (negb (is_some (sp_effects s))) ValueError (
  raise_if (is_some (sp_paid_media_prior_type s) &&
            (is_some (sp_media_prior_type s) || is_some (sp_rf_prior_type s))) ValueError (
  raise_if (negb (paid_prior_type (effective_media_prior_type s))) ValueError (
  raise_if (negb (paid_prior_type (effective_rf_prior_type s))) ValueError (
  raise_if (negb (non_paid_prior_type (sp_organic_media_prior_type s))) ValueError (
  raise_if (negb (non_paid_prior_type (sp_organic_rf_prior_type s))) ValueError (
  raise_if (negb (non_paid_prior_type (sp_non_media_prior_type s))) ValueError (
  raise_if (bad_calibration (sp_roi_calibration s) (effective_media_prior_type s)) ValueError (
  raise_if (bad_calibration (sp_rf_roi_calibration s) (effective_rf_prior_type s)) ValueError (
  raise_if (bad_knots (sp_knots s) (sp_enable_aks s)) ValueError (
  raise_if (bad_saturation (sp_saturation s)) ValueError (Ok tt))))))))))).

(** The five kinds of treatment variables. *)
Inductive treatment := Media | Rf | OrganicMedia | OrganicRf | NonMedia.

(** Which parameter of a treatment is drawn from its prior ([roi_m], [mroi_m],
    [contribution_m] or the coefficient [beta_m] / [gamma_n], and the RF / organic copies). *)
Inductive drawn := DrawRoi | DrawMroi | DrawContribution | DrawCoefficient.

(** The if/elif chain shared by the paid treatment blocks (prior_sampler.py:143-166, 255-278;
    posterior_sampler.py:318-330, 386-398). *)
Definition paid_dispatch (t : prior_type) : result drawn :=
  match t with
  | PtCoefficient => Ok DrawCoefficient
  | PtROI => Ok DrawRoi
  | PtMROI => Ok DrawMroi
  | PtContribution => Ok DrawContribution
  | PtOther => Err ValueError
  end.

(** The chain of the organic and non-media blocks (prior_sampler.py:366-399, 462-497, 548-580;
    posterior_sampler.py:454-469, 505-520, 580-602). *)
Definition non_paid_dispatch (t : prior_type) : result drawn :=
  match t with
  | PtCoefficient => Ok DrawCoefficient
  | PtContribution => Ok DrawContribution
  | _ => Err ValueError
  end.

(** prior_sampler.py: the parameter drawn by [_sample_media_priors] (141), [_sample_rf_priors]
    (253), [_sample_organic_media_priors] (365), [_sample_organic_rf_priors] (461, which reads
    [organic_media_prior_type]) and [_sample_non_media_treatments_priors] (547). *)
Definition prior_draws (s : model_spec) (k : treatment) : result drawn :=
  match k with
  | Media => paid_dispatch (effective_media_prior_type s)
  | Rf => paid_dispatch (effective_rf_prior_type s)
  | OrganicMedia => non_paid_dispatch (sp_organic_media_prior_type s)
  | OrganicRf => non_paid_dispatch (sp_organic_media_prior_type s)
  | NonMedia => non_paid_dispatch (sp_non_media_prior_type s)
  end.

(** posterior_sampler.py:317, 385, 453, 505, 579 [_joint_dist_base_logic]. *)
Definition posterior_draws (s : model_spec) (k : treatment) : result drawn :=
  match k with
  | Media => paid_dispatch (effective_media_prior_type s)
  | Rf => paid_dispatch (effective_rf_prior_type s)
  | OrganicMedia => non_paid_dispatch (sp_organic_media_prior_type s)
  | OrganicRf => non_paid_dispatch (sp_organic_rf_prior_type s)
  | NonMedia => non_paid_dispatch (sp_non_media_prior_type s)
  end.

(** Equality of two prior type strings; [PtOther] never equals a known name. *)
Definition same_type (a b : prior_type) : bool :=
  match a, b with
  | PtROI, PtROI | PtMROI, PtMROI | PtContribution, PtContribution
  | PtCoefficient, PtCoefficient => true
  | _, _ => false
  end.

(** context.py:876-906 [_check_for_negative_support]: true when it raises.  [negative] is
    [np.any(dist.cdf(0) > 0)]. *)
Definition negative_support_raises (s : model_spec) (eff : effects) (t : prior_type) (negative : bool) : bool :=
  match sp_media_prior_type s with
  | Some m => same_type t m && match eff with EffLogNormal => true | EffNormal => false end && negative
  | None => false
  end.

(** context.py:820-874 [_check_media_prior_support]; [has k] tells whether treatment [k] has
    channels and [negative k d] whether its prior [d] puts mass below zero. *)
Definition check_media_prior_support (s : model_spec) (eff : effects)
    (has : treatment -> bool) (negative : treatment -> drawn -> bool) : result unit :=
  let check k d t := has k && negative_support_raises s eff t (negative k d) in
  raise_if (check Media DrawRoi PtROI) ValueError (
  raise_if (check Media DrawMroi PtMROI) ValueError (
  raise_if (check Media DrawContribution PtContribution) ValueError (
  raise_if (check Rf DrawRoi PtROI) ValueError (
  raise_if (check Rf DrawMroi PtMROI) ValueError (
  raise_if (check Rf DrawContribution PtContribution) ValueError (
  raise_if (check OrganicMedia DrawContribution PtContribution) ValueError (
  raise_if (check OrganicRf DrawContribution PtContribution) ValueError (Ok tt)))))))).
