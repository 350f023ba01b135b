(** Proofs about model specs and prior selection. *)
From Coq Require Import Reals ZArith List Bool String Lia.
From Verif Require Import M_Base M_AdstockHill M_Equations M_Priors M_Spec S_Spec.
Import ListNotations.

Lemma raise_if_ok : forall A (b : bool) e (k : result A) v,
  raise_if b e k = Ok v <-> b = false /\ k = Ok v.
Proof. intros A [] e k v; simpl; split; intros H; try discriminate; try tauto; destruct H; congruence. Qed.

Lemma spec_validate_lemma : forall s, spec_validate s = Ok tt <-> well_formed_spec s.
Proof.
  intros s. unfold spec_validate. rewrite !raise_if_ok. split.
  - intros [H1 [H2 [H3 [H4 [H5 [H6 [H7 [H8 [H9 [H10 [H11 _]]]]]]]]]]].
    constructor.
    + destruct (sp_effects s); [congruence|discriminate].
    + destruct (sp_paid_media_prior_type s); [right|left; auto].
      destruct (sp_media_prior_type s), (sp_rf_prior_type s); simpl in H2; auto; discriminate.
    + intros k [->| ->] E.
      * unfold effective_media_prior_type in H3. unfold selected_type in E.
        destruct (sp_media_prior_type s); [subst; discriminate|].
        destruct (sp_paid_media_prior_type s); [subst; discriminate|discriminate].
      * unfold effective_rf_prior_type in H4. unfold selected_type in E.
        destruct (sp_rf_prior_type s); [subst; discriminate|].
        destruct (sp_paid_media_prior_type s); [subst; discriminate|discriminate].
    + intros k [->|[->| ->]]; simpl.
      * destruct (sp_organic_media_prior_type s); simpl in *; auto; discriminate.
      * destruct (sp_organic_rf_prior_type s); simpl in *; auto; discriminate.
      * destruct (sp_non_media_prior_type s); simpl in *; auto; discriminate.
    + intros r E. rewrite E in H8. unfold bad_calibration, effective_media_prior_type in H8. unfold selected_type.
      destruct (sp_media_prior_type s) as [t|].
      * destruct t; try discriminate. split; auto. apply negb_false_iff, Nat.eqb_eq in H8. auto.
      * destruct (sp_paid_media_prior_type s) as [t|].
        -- destruct t; try discriminate. split; auto. apply negb_false_iff, Nat.eqb_eq in H8. auto.
        -- split; auto. apply negb_false_iff, Nat.eqb_eq in H8. auto.
    + intros r E. rewrite E in H9. unfold bad_calibration, effective_rf_prior_type in H9. unfold selected_type.
      destruct (sp_rf_prior_type s) as [t|].
      * destruct t; try discriminate. split; auto. apply negb_false_iff, Nat.eqb_eq in H9. auto.
      * destruct (sp_paid_media_prior_type s) as [t|].
        -- destruct t; try discriminate. split; auto. apply negb_false_iff, Nat.eqb_eq in H9. auto.
        -- split; auto. apply negb_false_iff, Nat.eqb_eq in H9. auto.
    + destruct (sp_knots s); simpl in H10; auto; try discriminate.
      * apply orb_false_iff in H10. destruct H10. apply Z.eqb_neq in H. auto.
      * destruct l; [discriminate|]. split; [congruence|auto].
    + destruct (sp_saturation s) as [x|l|]; simpl in H11.
      * destruct x; auto; discriminate.
      * apply negb_false_iff in H11. rewrite forallb_forall in H11. intros c x Hin.
        specialize (H11 _ Hin). simpl in H11. destruct x; auto; discriminate.
      * discriminate.
  - intros [W1 W2 W3 W4 W5 W6 W7 W8].
    assert (Em : effective_media_prior_type s = selected_type s Media)
      by (unfold effective_media_prior_type, selected_type;
          destruct (sp_media_prior_type s), (sp_paid_media_prior_type s); auto).
    assert (Er : effective_rf_prior_type s = selected_type s Rf)
      by (unfold effective_rf_prior_type, selected_type;
          destruct (sp_rf_prior_type s), (sp_paid_media_prior_type s); auto).
    rewrite Em, Er. repeat split.
    + destruct (sp_effects s); [reflexivity|congruence].
    + destruct W2 as [->|[-> ->]]; simpl; auto. destruct (is_some _); reflexivity.
    + pose proof (W3 Media (or_introl eq_refl)). destruct (selected_type s Media); simpl; congruence.
    + pose proof (W3 Rf (or_intror eq_refl)). destruct (selected_type s Rf); simpl; congruence.
    + destruct (W4 OrganicMedia ltac:(auto)) as [E|E]; simpl in E; rewrite E; reflexivity.
    + destruct (W4 OrganicRf ltac:(auto)) as [E|E]; simpl in E; rewrite E; reflexivity.
    + destruct (W4 NonMedia ltac:(auto)) as [E|E]; simpl in E; rewrite E; reflexivity.
    + unfold bad_calibration. destruct (sp_roi_calibration s) as [r|]; auto.
      destruct (W5 r eq_refl) as [-> ->]. reflexivity.
    + unfold bad_calibration. destruct (sp_rf_roi_calibration s) as [r|]; auto.
      destruct (W6 r eq_refl) as [-> ->]. reflexivity.
    + unfold bad_knots. destruct (sp_knots s); auto; try contradiction.
      * destruct W7 as [A B]. rewrite B. apply Z.eqb_neq in A. rewrite A. reflexivity.
      * destruct W7 as [A B]. destruct l; [congruence|auto].
    + unfold bad_saturation. destruct (sp_saturation s) as [x|l|]; [| |contradiction].
      * destruct W8 as [->| ->]; reflexivity.
      * apply negb_false_iff, forallb_forall. intros [c x] Hin. simpl.
        destruct (W8 c x Hin) as [->| ->]; reflexivity.
Qed.

Lemma spec_error_lemma : forall s e, spec_validate s = Err e -> e = ValueError.
Proof.
  intros s e. unfold spec_validate, raise_if.
  repeat match goal with |- context [if ?b then _ else _] => destruct b end; congruence.
Qed.

Lemma paid_dispatch_spec : forall t d, paid_dispatch t = Ok d <-> parameter_of t = Some d.
Proof. intros [] d; simpl; split; congruence. Qed.

Lemma posterior_draws_lemma : forall s k d, well_formed_spec s ->
  (posterior_draws s k = Ok d <-> parameter_of (selected_type s k) = Some d).
Proof.
  intros s k d W. destruct k; simpl.
  - rewrite paid_dispatch_spec. unfold effective_media_prior_type.
    destruct (sp_media_prior_type s), (sp_paid_media_prior_type s); reflexivity.
  - rewrite paid_dispatch_spec. unfold effective_rf_prior_type.
    destruct (sp_rf_prior_type s), (sp_paid_media_prior_type s); reflexivity.
  - destruct (wf_non_paid s W OrganicMedia ltac:(auto)) as [E|E]; simpl in E; rewrite E; simpl; split; congruence.
  - destruct (wf_non_paid s W OrganicRf ltac:(auto)) as [E|E]; simpl in E; rewrite E; simpl; split; congruence.
  - destruct (wf_non_paid s W NonMedia ltac:(auto)) as [E|E]; simpl in E; rewrite E; simpl; split; congruence.
Qed.

Lemma draws_agree_lemma : forall s k, k <> OrganicRf -> prior_draws s k = posterior_draws s k.
Proof. intros s [] H; try reflexivity. congruence. Qed.

Lemma organic_rf_agree_lemma : forall s, well_formed_spec s ->
  (prior_draws s OrganicRf = posterior_draws s OrganicRf <->
   sp_organic_media_prior_type s = sp_organic_rf_prior_type s).
Proof.
  intros s W. simpl.
  destruct (wf_non_paid s W OrganicMedia ltac:(auto)) as [E|E];
  destruct (wf_non_paid s W OrganicRf ltac:(auto)) as [E'|E']; simpl in E, E'; rewrite E, E'; simpl;
  split; congruence.
Qed.

(** Prior support. *)
Lemma support_lemma : forall s eff has negative,
  check_media_prior_support s eff has negative = Err ValueError <->
  eff = EffLogNormal /\
  exists k d t, has k = true /\ negative k d = true /\ sp_media_prior_type s = Some t /\
    parameter_of t = Some d /\ d <> DrawCoefficient /\ k <> NonMedia /\
    ((k = OrganicMedia \/ k = OrganicRf) -> d = DrawContribution).
Proof.
  intros s eff has negative. unfold check_media_prior_support, negative_support_raises.
  destruct (sp_media_prior_type s) as [m|].
  2:{ rewrite !andb_false_r. simpl. split; [discriminate|].
      intros [_ [k [d [t [_ [_ [H _]]]]]]]. discriminate. }
  destruct eff.
  { repeat (rewrite ?andb_false_r; cbn [raise_if andb]). split; [discriminate|]. intros [H _]. discriminate. }
  split.
  - intros H. split; auto.
    destruct m; simpl in H; rewrite ?andb_false_r in H; simpl in H; try discriminate.
    + destruct (has Media && negative Media DrawRoi) eqn:E1.
      { apply andb_true_iff in E1. destruct E1. exists Media, DrawRoi, PtROI.
        repeat split; auto; try discriminate. intros [?|?]; discriminate. }
      destruct (has Rf && negative Rf DrawRoi) eqn:E2.
      { apply andb_true_iff in E2. destruct E2. exists Rf, DrawRoi, PtROI.
        repeat split; auto; try discriminate. intros [?|?]; discriminate. }
      simpl in H. discriminate.
    + destruct (has Media && negative Media DrawMroi) eqn:E1.
      { apply andb_true_iff in E1. destruct E1. exists Media, DrawMroi, PtMROI.
        repeat split; auto; try discriminate. intros [?|?]; discriminate. }
      destruct (has Rf && negative Rf DrawMroi) eqn:E2.
      { apply andb_true_iff in E2. destruct E2. exists Rf, DrawMroi, PtMROI.
        repeat split; auto; try discriminate. intros [?|?]; discriminate. }
      simpl in H. discriminate.
    + assert (Hex : exists k, k <> NonMedia /\ has k = true /\ negative k DrawContribution = true).
      { destruct (has Media && negative Media DrawContribution) eqn:E1;
          [apply andb_true_iff in E1; exists Media; intuition discriminate|].
        destruct (has Rf && negative Rf DrawContribution) eqn:E2;
          [apply andb_true_iff in E2; exists Rf; intuition discriminate|].
        destruct (has OrganicMedia && negative OrganicMedia DrawContribution) eqn:E3;
          [apply andb_true_iff in E3; exists OrganicMedia; intuition discriminate|].
        destruct (has OrganicRf && negative OrganicRf DrawContribution) eqn:E4;
          [apply andb_true_iff in E4; exists OrganicRf; intuition discriminate|].
        simpl in H. discriminate. }
      destruct Hex as [k [Hk [Hh Hn]]]. exists k, DrawContribution, PtContribution.
      repeat split; auto; discriminate.
  - intros [_ [k [d [t [Hh [Hn [Hm [Hp [Hd [Hk Horg]]]]]]]]]]. inversion Hm; subst m. clear Hm.
    destruct t; simpl in Hp; inversion Hp; subst d; simpl; rewrite ?andb_false_r; simpl; try congruence.
    + destruct k; try (rewrite Hh, Hn; simpl); try reflexivity; try (destruct (has Media && _); reflexivity);
        try (exfalso; congruence); try (discriminate Horg; auto).
      all: try (specialize (Horg ltac:(auto)); discriminate).
    + destruct k; try (rewrite Hh, Hn; simpl); try reflexivity; try (destruct (has Media && _); reflexivity);
        try (exfalso; congruence).
      all: try (specialize (Horg ltac:(auto)); discriminate).
    + destruct k; try (exfalso; congruence); rewrite Hh, Hn; simpl; unfold raise_if;
      repeat match goal with |- context [if ?b then _ else _] => destruct b end; reflexivity.
Qed.
