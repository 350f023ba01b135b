(** C12, C13, C47: model specs, prior selection and prior support. *)
From Coq Require Import Reals ZArith List Bool String.
From Verif Require Import M_Base M_AdstockHill M_Equations M_Priors M_Spec S_Spec P_Spec.
Import ListNotations.

(** C47. A model spec is accepted exactly when it meets the documented requirements, and every
    rejection is a ValueError. *)
Theorem C47_spec_accepted_iff_well_formed : forall s,
  spec_validate s = Ok tt <-> well_formed_spec s.
Proof. exact spec_validate_lemma. Qed.
Print Assumptions C47_spec_accepted_iff_well_formed.

Theorem C47_rejections_are_value_errors : forall s e, spec_validate s = Err e -> e = ValueError.
Proof. exact spec_error_lemma. Qed.
Print Assumptions C47_rejections_are_value_errors.

(** Two concrete specs: an accepted one and one rejected for mixing the deprecated option. *)
Definition spec_default : model_spec :=
  mkSpec (Some EffLogNormal) None None None PtContribution PtContribution PtContribution
    None None KnNone false (SatName Hill).

Definition spec_mixed_organic : model_spec :=
  mkSpec (Some EffLogNormal) (Some PtMROI) (Some PtROI) None PtContribution PtCoefficient PtContribution
    None (Some 2%nat) (KnList [0; 3]%Z) false (SatMap [("tv"%string, NoSat)]).

Example C47_accepts : spec_validate spec_default = Ok tt /\ spec_validate spec_mixed_organic = Ok tt.
Proof. split; reflexivity. Qed.

Example C47_rejects_deprecated_mix :
  spec_validate (mkSpec (Some EffLogNormal) None (Some PtROI) (Some PtROI) PtContribution PtContribution
    PtContribution None None KnNone false (SatName Hill)) = Err ValueError.
Proof. reflexivity. Qed.

(** C12. Posterior sampling draws, for every treatment type, the parameter named by the prior
    type the user selected for it. *)
Theorem C12_posterior_draws_selected_parameter : forall s k d, spec_validate s = Ok tt ->
  (posterior_draws s k = Ok d <-> parameter_of (selected_type s k) = Some d).
Proof. intros s k d H. exact (posterior_draws_lemma s k d (proj1 (spec_validate_lemma s) H)). Qed.
Print Assumptions C12_posterior_draws_selected_parameter.

(** C12. So does prior sampling, except for organic RF. *)
Theorem C12_prior_draws_selected_parameter : forall s k d, spec_validate s = Ok tt -> k <> OrganicRf ->
  (prior_draws s k = Ok d <-> parameter_of (selected_type s k) = Some d).
Proof.
  intros s k d H Hk. rewrite (draws_agree_lemma s k Hk).
  exact (posterior_draws_lemma s k d (proj1 (spec_validate_lemma s) H)).
Qed.
Print Assumptions C12_prior_draws_selected_parameter.

(** C12. For organic RF the two samplers agree only when both organic types coincide. *)
Theorem C12_organic_rf_agreement : forall s, spec_validate s = Ok tt ->
  (prior_draws s OrganicRf = posterior_draws s OrganicRf <->
   sp_organic_media_prior_type s = sp_organic_rf_prior_type s).
Proof. intros s H. exact (organic_rf_agree_lemma s (proj1 (spec_validate_lemma s) H)). Qed.
Print Assumptions C12_organic_rf_agreement.

(** C12. The full claim is false: an accepted spec whose organic RF prior is drawn from the
    wrong parameter by prior sampling. *)
Theorem C12_organic_rf_prior_refuted :
  ~ (forall s k d, spec_validate s = Ok tt ->
       (prior_draws s k = Ok d <-> parameter_of (selected_type s k) = Some d)).
Proof.
  intros H. specialize (H spec_mixed_organic OrganicRf DrawContribution eq_refl).
  destruct H as [H _]. specialize (H eq_refl). discriminate H.
Qed.
Print Assumptions C12_organic_rf_prior_refuted.

(** C13. With log-normal effects and an explicit media prior type, a paid media prior with
    mass below zero is rejected. *)
Theorem C13_explicit_media_prior_rejected : forall s has negative t,
  sp_media_prior_type s = Some t -> has Media = true ->
  active_prior_negative s negative Media ->
  check_media_prior_support s EffLogNormal has negative = Err ValueError.
Proof.
  intros s has negative t Ht Hh [d [Hp [Hc Hn]]]. apply support_lemma. split; auto.
  exists Media, d, t. unfold selected_type in Hp. rewrite Ht in Hp.
  repeat split; auto; try discriminate. intros [?|?]; discriminate.
Qed.
Print Assumptions C13_explicit_media_prior_rejected.

(** C13. The same holds for RF when both paid types are given explicitly and coincide. *)
Theorem C13_matching_rf_prior_rejected : forall s has negative t,
  sp_media_prior_type s = Some t -> sp_rf_prior_type s = Some t -> has Rf = true ->
  active_prior_negative s negative Rf ->
  check_media_prior_support s EffLogNormal has negative = Err ValueError.
Proof.
  intros s has negative t Ht Hr Hh [d [Hp [Hc Hn]]]. apply support_lemma. split; auto.
  exists Rf, d, t. unfold selected_type in Hp. rewrite Hr in Hp.
  repeat split; auto; try discriminate. intros [?|?]; discriminate.
Qed.
Print Assumptions C13_matching_rf_prior_rejected.

(** C13. Exactly which models are rejected. *)
Theorem C13_rejection_characterised : forall s eff has negative,
  check_media_prior_support s eff has negative = Err ValueError <->
  eff = EffLogNormal /\
  exists k d t, has k = true /\ negative k d = true /\ sp_media_prior_type s = Some t /\
    parameter_of t = Some d /\ d <> DrawCoefficient /\ k <> NonMedia /\
    ((k = OrganicMedia \/ k = OrganicRf) -> d = DrawContribution).
Proof. exact support_lemma. Qed.
Print Assumptions C13_rejection_characterised.

(** C13. The full claim is false.  With the default prior type (ROI) nothing is checked: a paid
    media ROI prior with mass below zero is accepted with log-normal effects. *)
Theorem C13_default_prior_type_refuted :
  ~ (forall s has negative k, spec_validate s = Ok tt -> has k = true ->
       active_prior_negative s negative k ->
       check_media_prior_support s EffLogNormal has negative = Err ValueError).
Proof.
  intros H. specialize (H spec_default (fun _ => true) (fun _ _ => true) Media eq_refl eq_refl).
  assert (A : active_prior_negative spec_default (fun _ _ => true) Media)
    by (exists DrawRoi; repeat split; discriminate).
  specialize (H A). discriminate H.
Qed.
Print Assumptions C13_default_prior_type_refuted.

(** C13. Even with an explicit media prior type the RF prior escapes the check when the RF
    prior type differs. *)
Theorem C13_rf_prior_type_refuted :
  ~ (forall s has negative k, spec_validate s = Ok tt -> sp_media_prior_type s <> None ->
       sp_rf_prior_type s <> None -> has k = true -> active_prior_negative s negative k ->
       check_media_prior_support s EffLogNormal has negative = Err ValueError).
Proof.
  intros H.
  set (neg := fun k d => match k, d with Rf, DrawRoi => true | _, _ => false end).
  specialize (H spec_mixed_organic (fun _ => true) neg Rf eq_refl ltac:(discriminate)
    ltac:(discriminate) eq_refl).
  assert (A : active_prior_negative spec_mixed_organic neg Rf)
    by (exists DrawRoi; repeat split; discriminate).
  specialize (H A). discriminate H.
Qed.
Print Assumptions C13_rf_prior_type_refuted.

(** C13. Conversely a model is rejected although no active prior has mass below zero: only the
    unused mROI prior of RF does. *)
Theorem C13_only_active_priors_refuted :
  ~ (forall s has negative, spec_validate s = Ok tt ->
       check_media_prior_support s EffLogNormal has negative = Err ValueError ->
       exists k, has k = true /\ active_prior_negative s negative k).
Proof.
  intros H.
  set (neg := fun k d => match k, d with Rf, DrawMroi => true | _, _ => false end).
  destruct (H spec_mixed_organic (fun _ => true) neg eq_refl eq_refl) as [k [_ [d [Hd [_ Hn]]]]].
  destruct k, d; simpl in Hn, Hd; discriminate.
Qed.
Print Assumptions C13_only_active_priors_refuted.

(** A concrete rejected model. *)
Example C13_rejects :
  check_media_prior_support spec_mixed_organic EffLogNormal
    (fun k => match k with Media => true | _ => false end)
    (fun k d => match k, d with Media, DrawMroi => true | _, _ => false end) = Err ValueError.
Proof. reflexivity. Qed.
