(** Proofs of property C70. *)
From Coq Require Import Reals ZArith String List Bool Lia Lra.
From Verif Require Import M_Base M_AdstockHill M_Equations M_Priors M_Spec M_TensorProto M_Hyper C_TensorProto S_Hyper.
Import ListNotations.
Local Open Scope string_scope.
Local Open Scope list_scope.

(** *** Enums *)
Lemma effects_trip : forall s, effects_of s <> None ->
  exists n, to_proto media_effects_converter (Some s) = Ok n /\ from_proto media_effects_converter n = Ok (Some s).
Proof.
  intros s H. unfold effects_of in H.
  destruct (String.eqb_spec s "normal") as [Es|_]; [subst s; exists 1%Z; split; reflexivity|].
  destruct (String.eqb_spec s "log_normal") as [Es|_]; [subst s; exists 2%Z; split; reflexivity|congruence].
Qed.
Lemma paid_trip : forall s, paid_prior_type (prior_type_of s) = true ->
  exists n, to_proto paid_media_prior_type_converter (Some s) = Ok n /\
            from_proto paid_media_prior_type_converter n = Ok (Some s).
Proof.
  intros s H. unfold prior_type_of in H.
  destruct (String.eqb_spec s "roi") as [Es|_]; [subst s; exists 1%Z; split; reflexivity|].
  destruct (String.eqb_spec s "mroi") as [Es|_]; [subst s; exists 2%Z; split; reflexivity|].
  destruct (String.eqb_spec s "coefficient") as [Es|_]; [subst s; exists 3%Z; split; reflexivity|].
  destruct (String.eqb_spec s "contribution") as [Es|_]; [subst s; exists 4%Z; split; reflexivity|discriminate].
Qed.
Lemma non_paid_trip : forall s, non_paid_prior_type (prior_type_of s) = true ->
  exists n, to_proto non_paid_treatments_prior_type_converter (Some s) = Ok n /\
            from_proto non_paid_treatments_prior_type_converter n = Ok (Some s).
Proof.
  intros s H. unfold prior_type_of in H.
  destruct (String.eqb_spec s "roi") as [Es|_]; [subst s; discriminate|].
  destruct (String.eqb_spec s "mroi") as [Es|_]; [subst s; discriminate|].
  destruct (String.eqb_spec s "coefficient") as [Es|_]; [subst s; exists 1%Z; split; reflexivity|].
  destruct (String.eqb_spec s "contribution") as [Es|_]; [subst s; exists 2%Z; split; reflexivity|discriminate].
Qed.
Lemma paid_option_trip : forall o, match option_map prior_type_of o with Some t => paid_prior_type t = true | None => True end ->
  exists n, to_proto paid_media_prior_type_converter o = Ok n /\
            from_proto paid_media_prior_type_converter n = Ok o.
Proof.
  intros [s|] H; [exact (paid_trip s H)|]. exists 0%Z. split; reflexivity.
Qed.

(** *** Fields *)
Lemma array_trip : forall o, storable o ->
  exists q, optional make_tensor_proto o = Ok q /\ optional make_ndarray q = Ok o.
Proof.
  intros [a|] H; [|exists None; split; reflexivity].
  destruct (H a eq_refl) as (W & S & L).
  pose proof (proj2 (proj1 (C43_round_trip a W S)) L) as E. unfold round_trip in E.
  destruct (make_tensor_proto a) as [p|e] eqn:Ep; [|discriminate]. cbn [rbind] in E.
  exists (Some p). cbn [optional]. rewrite Ep, E. split; reflexivity.
Qed.
Lemma int32_fits : forall z, fits32 z -> int32 z = Ok z.
Proof.
  intros z [A B]. unfold int32. destruct (Z.ltb_spec z (-2147483648)); [lia|].
  destruct (Z.ltb_spec 2147483647 z); [lia|]. reflexivity.
Qed.
Lemma knots_fit : forall l, Forall fits32 l -> all_ok int32 l = Ok l.
Proof.
  intros l H. induction H as [|z l Hz Hl IH]; [reflexivity|]. cbn [all_ok]. rewrite (int32_fits z Hz). cbn [rbind].
  rewrite IH. reflexivity.
Qed.
Lemma values_trip : forall f32 l, Forall documented_value l ->
  exists l', all_ok baseline_from_proto (map (baseline_to_proto f32) l) = Ok l' /\ Forall2 (value_after f32) l l'.
Proof.
  intros f32 l H. induction H as [|v l Hv Hl (l' & E & F)]; [exists []; split; [reflexivity|constructor]|].
  destruct v as [s|x|]; cbn [documented_value] in Hv; [| |contradiction].
  - exists (BvName (lower s) :: l'). cbn [map all_ok baseline_to_proto]. split; [|constructor; [reflexivity|exact F]].
    destruct Hv as [Hv|Hv]; rewrite Hv; cbn [String.eqb Ascii.eqb Bool.eqb]; cbn; rewrite E; reflexivity.
  - exists (BvNumber (f32 x) :: l'). cbn [map all_ok baseline_to_proto baseline_from_proto rbind]. rewrite E.
    split; [reflexivity|constructor; [reflexivity|exact F]].
Qed.
Lemma values_refused : forall f32 l, ~ Forall documented_value l ->
  all_ok baseline_from_proto (map (baseline_to_proto f32) l) = Err ValueError.
Proof.
  intros f32 l. induction l as [|v l IH]; intros H; [exfalso; apply H; constructor|].
  assert (D : documented_value v \/ baseline_from_proto (baseline_to_proto f32 v) = Err ValueError).
  { destruct v as [s|x|]; cbn [documented_value baseline_to_proto]; auto.
    destruct (String.eqb_spec (lower s) "min"); [auto|].
    destruct (String.eqb_spec (lower s) "max"); [auto|]. right. reflexivity. }
  cbn [map all_ok]. destruct D as [D|D]; [|rewrite D; reflexivity].
  assert (H' : ~ Forall documented_value l) by (intros F; apply H; constructor; assumption).
  rewrite (IH H'). destruct (baseline_from_proto (baseline_to_proto f32 v)) as [w|e] eqn:E; [reflexivity|].
  exfalso. destruct v as [s|x|]; cbn [documented_value baseline_to_proto] in *; [|discriminate|contradiction].
  destruct D as [D|D]; rewrite D in E; cbn in E; discriminate.
Qed.
Lemma function_trip : forall d f c, f <> FnOther ->
  assigned d (function_from_proto d (function_to_proto f)) c = assigned d f c.
Proof. intros d [s|[|e l]|] c H; try reflexivity. congruence. Qed.

(** *** Validation *)
Lemma validate_iff : forall s, spec_validate s = Ok tt <->
  (is_some (sp_effects s) = true /\
   (is_some (sp_paid_media_prior_type s) && (is_some (sp_media_prior_type s) || is_some (sp_rf_prior_type s))) = false /\
   paid_prior_type (effective_media_prior_type s) = true /\ paid_prior_type (effective_rf_prior_type s) = true /\
   non_paid_prior_type (sp_organic_media_prior_type s) = true /\
   non_paid_prior_type (sp_organic_rf_prior_type s) = true /\
   non_paid_prior_type (sp_non_media_prior_type s) = true /\
   bad_calibration (sp_roi_calibration s) (effective_media_prior_type s) = false /\
   bad_calibration (sp_rf_roi_calibration s) (effective_rf_prior_type s) = false /\
   bad_knots (sp_knots s) (sp_enable_aks s) = false /\ bad_saturation (sp_saturation s) = false).
Proof.
  intros s. unfold spec_validate, raise_if. split.
  - intros H.
    repeat match type of H with (if ?b then _ else _) = _ => destruct b eqn:?; [discriminate|] end.
    repeat match goal with E : negb _ = false |- _ => apply negb_false_iff in E end.
    repeat split; assumption.
  - intros (A & B & C & D & E & F & G & I & J & K & L). rewrite A, B, C, D, E, F, G, I, J, K, L. reflexivity.
Qed.
Lemma validate_error : forall s, spec_validate s = Ok tt \/ spec_validate s = Err ValueError.
Proof.
  intros s. unfold spec_validate, raise_if.
  repeat match goal with |- (if ?b then _ else _) = _ \/ _ => destruct b; [right; reflexivity|] end. left. reflexivity.
Qed.
Lemma new_spec_iff : forall h, new_spec h = Ok h <-> spec_validate (model_spec_of h) = Ok tt.
Proof.
  intros h. unfold new_spec. destruct (validate_error (model_spec_of h)) as [E|E]; rewrite E; cbn [rbind]; split; congruence.
Qed.

Local Strategy 1000 [rbind new_spec from_proto to_proto make_ndarray make_tensor_proto optional all_ok spec_validate].

(** What is written and what is handed to the constructor of the loaded specification. *)
Definition loaded (h : hyper) (values : option (list baseline_value)) : hyper :=
  mkHyper (h_effects h) (h_hill_before_adstock h) (h_max_lag h) (h_unique_sigma h)
    (h_media_prior_type h) (h_rf_prior_type h) (h_paid_media_prior_type h)
    (h_organic_media_prior_type h) (h_organic_rf_prior_type h) (h_non_media_prior_type h)
    values (knots_after (h_knots h)) (h_enable_aks h) (geo_after (h_baseline_geo h))
    (h_roi_calibration h) (h_rf_roi_calibration h) (h_holdout h) (h_control_scaling h) (h_non_media_scaling h)
    (function_from_proto "geometric" (function_to_proto (h_decay h)))
    (function_from_proto "hill" (function_to_proto (h_saturation h))).

Lemma written : forall f32 h, new_spec h = Ok h -> numbers_fit h -> arrays_fit h ->
  exists p, serialize f32 h = Ok p /\
    deserialize p =
      rbind (match match h_non_media_baseline_values h with None => [] | Some l => map (baseline_to_proto f32) l end with
             | [] => Ok None
             | l => rbind (all_ok baseline_from_proto l) (fun vs => Ok (Some vs)) end)
            (fun values => new_spec (loaded h values)).
Proof.
  intros f32 h V (Nl & Nk & Ng) (A1 & A2 & A3 & A4 & A5).
  apply new_spec_iff in V. apply validate_iff in V.
  destruct V as (V1 & V2 & V3 & V4 & V5 & V6 & V7 & V8 & V9 & V10 & V11).
  cbn [model_spec_of sp_effects sp_media_prior_type sp_rf_prior_type sp_paid_media_prior_type
       sp_organic_media_prior_type sp_organic_rf_prior_type sp_non_media_prior_type] in *.
  destruct (effects_trip (h_effects h)) as (e & E1 & E2).
  { destruct (effects_of (h_effects h)); [discriminate|discriminate V1]. }
  assert (Pm : match option_map prior_type_of (h_media_prior_type h) with Some t => paid_prior_type t = true | None => True end).
  { unfold effective_media_prior_type in V3. cbn [model_spec_of sp_media_prior_type] in V3.
    destruct (option_map prior_type_of (h_media_prior_type h)); [exact V3|exact Logic.I]. }
  assert (Pr : match option_map prior_type_of (h_rf_prior_type h) with Some t => paid_prior_type t = true | None => True end).
  { unfold effective_rf_prior_type in V4. cbn [model_spec_of sp_rf_prior_type] in V4.
    destruct (option_map prior_type_of (h_rf_prior_type h)); [exact V4|exact Logic.I]. }
  assert (Pp : match option_map prior_type_of (h_paid_media_prior_type h) with Some t => paid_prior_type t = true | None => True end).
  { unfold effective_media_prior_type in V3. cbn [model_spec_of sp_media_prior_type sp_paid_media_prior_type] in V3.
    destruct (option_map prior_type_of (h_paid_media_prior_type h)); [|exact Logic.I].
    destruct (option_map prior_type_of (h_media_prior_type h)); [discriminate V2|exact V3]. }
  destruct (paid_option_trip _ Pm) as (pm & M1 & M2).
  destruct (paid_option_trip _ Pr) as (pr & R1 & R2).
  destruct (paid_option_trip _ Pp) as (pp & P1 & P2).
  destruct (non_paid_trip _ V5) as (po & O1 & O2).
  destruct (non_paid_trip _ V6) as (px & X1 & X2).
  destruct (non_paid_trip _ V7) as (pn & N1 & N2).
  destruct (array_trip _ A1) as (q1 & B1 & C1).
  destruct (array_trip _ A2) as (q2 & B2 & C2).
  destruct (array_trip _ A3) as (q3 & B3 & C3).
  destruct (array_trip _ A4) as (q4 & B4 & C4).
  destruct (array_trip _ A5) as (q5 & B5 & C5).
  assert (Lag : optional uint32 (h_max_lag h) = Ok (h_max_lag h)).
  { destruct (h_max_lag h) as [l|]; [|reflexivity]. specialize (Nl l eq_refl). cbn [optional]. unfold uint32.
    destruct (Z.ltb_spec l 0); [lia|]. destruct (Z.ltb_spec 4294967295 l); [lia|]. reflexivity. }
  assert (Kn : (match h_knots h with KsNone => Ok [] | KsInt k => all_ok int32 [k] | KsList l => all_ok int32 l end)
               = Ok (knots_listed (h_knots h))).
  { destruct (h_knots h) as [|k|l]; [reflexivity| |]; apply knots_fit; exact Nk. }
  assert (Ge : exists g, (match h_baseline_geo h with
         | GeoName s => Ok (PgString s)
         | GeoInt z => rbind (int32 z) (fun z => Ok (PgInt z))
         | GeoNone | GeoOther => Ok PgUnset end) = Ok g /\
         (match g with PgInt z => GeoInt z | PgString s => GeoName s | PgUnset | PgDeprecated _ => GeoNone end)
           = geo_after (h_baseline_geo h)).
  { destruct (h_baseline_geo h) as [|z|s|]; [exists PgUnset| |exists (PgString s)|exists PgUnset];
      try (split; reflexivity).
    exists (PgInt z). rewrite (int32_fits z (Ng z eq_refl)). split; reflexivity. }
  destruct Ge as (g & G1 & G2).
  unfold serialize. rewrite E1. cbn [rbind]. rewrite M1. cbn [rbind]. rewrite R1. cbn [rbind]. rewrite P1. cbn [rbind].
  rewrite O1. cbn [rbind]. rewrite X1. cbn [rbind]. rewrite N1. cbn [rbind]. rewrite Lag. cbn [rbind]. rewrite Kn. cbn [rbind].
  rewrite G1. cbn [rbind]. rewrite B1. cbn [rbind]. rewrite B2. cbn [rbind]. rewrite B3. cbn [rbind]. rewrite B4. cbn [rbind].
  rewrite B5. cbn [rbind]. eexists. split; [reflexivity|].
  unfold deserialize. cbn [q_effects q_hill_before_adstock q_max_lag q_unique_sigma q_media_prior_type q_rf_prior_type
    q_paid_media_prior_type q_organic_media_prior_type q_organic_rf_prior_type q_non_media_prior_type
    q_non_media_baseline_values q_knots q_enable_aks q_baseline_geo q_roi_calibration q_rf_roi_calibration q_holdout
    q_control_scaling q_non_media_scaling q_decay q_saturation].
  rewrite C1. cbn [rbind]. rewrite C2. cbn [rbind]. rewrite C3. cbn [rbind]. rewrite C4. cbn [rbind]. rewrite C5. cbn [rbind].
  destruct (match match h_non_media_baseline_values h with None => [] | Some l => map (baseline_to_proto f32) l end with
             | [] => Ok None
             | l => rbind (all_ok baseline_from_proto l) (fun vs => Ok (Some vs)) end) as [values|err]; [|reflexivity].
  cbn [rbind]. rewrite E2. cbn [rbind]. rewrite M2. cbn [rbind]. rewrite R2. cbn [rbind]. rewrite P2. cbn [rbind].
  rewrite O2. cbn [rbind]. rewrite X2. cbn [rbind]. rewrite N2. cbn [rbind name_or_bad]. rewrite G2.
  unfold loaded. f_equal. f_equal.
  clear - V10. cbn [model_spec_of sp_knots sp_enable_aks] in V10. destruct (h_knots h) as [|k|[|k [|k' l]]]; try reflexivity. discriminate.
Qed.

Lemma loaded_valid : forall h values, new_spec h = Ok h ->
  (h_knots h <> KsList [0%Z] -> new_spec (loaded h values) = Ok (loaded h values)) /\
  (h_knots h = KsList [0%Z] -> new_spec (loaded h values) = Err ValueError).
Proof.
  intros h values V. apply new_spec_iff in V. apply validate_iff in V.
  destruct V as (V1 & V2 & V3 & V4 & V5 & V6 & V7 & V8 & V9 & V10 & V11).
  split; intros K.
  - apply new_spec_iff, validate_iff.
    change (effective_media_prior_type (model_spec_of (loaded h values))) with (effective_media_prior_type (model_spec_of h)).
    change (effective_rf_prior_type (model_spec_of (loaded h values))) with (effective_rf_prior_type (model_spec_of h)).
    change (sp_effects (model_spec_of (loaded h values))) with (sp_effects (model_spec_of h)).
    repeat match goal with |- _ /\ _ => split end; try assumption.
    + cbn [model_spec_of loaded h_knots h_enable_aks sp_knots sp_enable_aks] in *.
      destruct (h_knots h) as [|k|[|k [|k' l]]]; try exact V10.
      cbn [knots_after bad_knots] in *. rewrite V10, orb_false_r. destruct (Z.eqb_spec k 0); [subst; congruence|reflexivity].
    + cbn [model_spec_of loaded h_saturation sp_saturation] in *.
      destruct (h_saturation h) as [s|[|x l]|]; try exact V11; reflexivity.
  - unfold new_spec. destruct (validate_error (model_spec_of (loaded h values))) as [E|E]; [|rewrite E; reflexivity].
    exfalso. apply validate_iff in E. destruct E as (_ & _ & _ & _ & _ & _ & _ & _ & _ & E & _).
    cbn [model_spec_of loaded h_knots h_enable_aks sp_knots sp_enable_aks] in E. rewrite K in E. discriminate.
Qed.

Lemma reload_lemma : forall f32 h, new_spec h = Ok h -> numbers_fit h -> arrays_fit h ->
  (readable h -> exists h', reload f32 h = Ok h' /\ changed_as_described f32 h h') /\
  (~ readable h -> reload f32 h = Err ValueError) /\
  (exists p, serialize f32 h = Ok p).
Proof.
  intros f32 h V Nf Af. destruct (written f32 h V Nf Af) as (p & S & D).
  assert (E : reload f32 h = deserialize p) by (unfold reload; rewrite S; reflexivity).
  rewrite E, D. clear E D.
  assert (Sat : h_saturation h <> FnOther).
  { intros K. apply new_spec_iff, validate_iff in V. destruct V as (_ & _ & _ & _ & _ & _ & _ & _ & _ & _ & V).
    cbn [model_spec_of sp_saturation] in V. rewrite K in V. discriminate. }
  assert (Plain : forall values, plain_fields_kept h (loaded h values)).
  { intros values. unfold plain_fields_kept, loaded;
    cbn [h_effects h_hill_before_adstock h_max_lag h_unique_sigma h_media_prior_type h_rf_prior_type h_paid_media_prior_type
    h_organic_media_prior_type h_organic_rf_prior_type h_non_media_prior_type h_enable_aks h_roi_calibration
    h_rf_roi_calibration h_holdout h_control_scaling h_non_media_scaling h_decay h_saturation].
    repeat split; intros; apply function_trip; auto. }
  split; [|split; [|exists p; exact S]].
  - intros [Hk Hv].
    assert (Vs : exists values, (match match h_non_media_baseline_values h with None => [] | Some l => map (baseline_to_proto f32) l end with
             | [] => Ok None
             | l => rbind (all_ok baseline_from_proto l) (fun vs => Ok (Some vs)) end) = Ok values /\
             values_after f32 (h_non_media_baseline_values h) values).
    { destruct (h_non_media_baseline_values h) as [[|v l]|]; [exists None; split; reflexivity| |exists None; split; reflexivity].
      destruct (values_trip f32 (v :: l) (Hv _ eq_refl)) as (l' & E & F). exists (Some l').
      cbn [map] in *. rewrite E. split; [reflexivity|]. cbn [values_after]. exists l'. split; [reflexivity|exact F]. }
    destruct Vs as (values & E & Va). rewrite E. cbn [rbind]. exists (loaded h values).
    split; [exact (proj1 (loaded_valid h values V) Hk)|].
    split; [apply Plain|split; [exact Va|split; reflexivity]].
  - intros Nr.
    destruct (match match h_non_media_baseline_values h with None => [] | Some l => map (baseline_to_proto f32) l end with
             | [] => Ok None
             | l => rbind (all_ok baseline_from_proto l) (fun vs => Ok (Some vs)) end) as [values|e] eqn:E.
    + cbn [rbind]. apply (loaded_valid h values V).
      assert (Kd : h_knots h = KsList [0%Z] \/ h_knots h <> KsList [0%Z]).
      { destruct (h_knots h) as [|k|[|k [|k' l]]]; try (right; discriminate).
        destruct (Z.eq_dec k 0) as [->|N]; [left; reflexivity|right; congruence]. }
      destruct Kd as [Kd|Kd]; [exact Kd|exfalso]. apply Nr. split; [exact Kd|].
      intros l El. rewrite El in E. destruct l as [|v l]; [constructor|].
      assert (Dec : Forall documented_value (v :: l) \/ ~ Forall documented_value (v :: l)).
      { clear. generalize (v :: l). intros m. induction m as [|w m IH]; [left; constructor|].
        assert (documented_value w \/ ~ documented_value w).
        { destruct w as [s|x|]; cbn; [|left; exact Logic.I|right; tauto].
          destruct (string_dec (lower s) "min"); [left; left; assumption|].
          destruct (string_dec (lower s) "max"); [left; right; assumption|]. right. tauto. }
        destruct H as [H|H]; [|right; intros F; inversion F; auto].
        destruct IH as [IH|IH]; [left; constructor; assumption|right; intros F; inversion F; auto]. }
      destruct Dec as [Dec|Dec]; [exact Dec|]. pose proof (values_refused f32 _ Dec) as Z.
      cbn [map] in *. rewrite Z in E. discriminate.
    + cbn [rbind]. destruct (h_non_media_baseline_values h) as [[|v l]|]; [cbn in E; discriminate E| |cbn in E; discriminate E].
      cbn [map] in E.
      assert (Any : forall m e', all_ok baseline_from_proto m = Err e' -> e' = ValueError).
      { induction m as [|w m IH]; intros e' H; [discriminate|]. cbn [all_ok] in H.
        destruct (baseline_from_proto w) as [y|e''] eqn:Ew; cbn [rbind] in H.
        - destruct (all_ok baseline_from_proto m) as [ys|e'']; cbn [rbind] in H; [discriminate|]. apply IH. congruence.
        - destruct w as [|x|n]; cbn in Ew; [congruence|discriminate|].
          destruct (Z.eqb n 1); [discriminate|]. destruct (Z.eqb n 2); [discriminate|]. destruct (Z.eqb n 0); [discriminate|congruence]. }
      destruct (all_ok baseline_from_proto (baseline_to_proto f32 v :: map (baseline_to_proto f32) l)) as [ys|e''] eqn:Ea.
      * cbn [rbind] in E. discriminate.
      * pose proof (Any _ _ Ea). subst e''. cbn [rbind] in E. congruence.
Qed.
