(** Property C74: a model survives being saved and loaded. *)
From Coq Require Import Reals ZArith String List Bool Lia Lra.
From Verif Require Import M_Base M_Time M_Spec M_Knots M_Hyper S_Hyper P_Hyper C_Hyper M_DistSerde S_DistSerde P_DistSerde C_DistSerde
  M_InputData S_InputData P_InputData C_InputData M_Marketing S_Marketing P_Marketing4 C_Marketing M_ModelSerde S_ModelSerde P_ModelSerde.
Import ListNotations.
Local Open Scope string_scope.
Local Open Scope nat_scope.
Local Open Scope list_scope.

(** The data of a model can be saved (C73), and so can its specification (C70), its prior (C71), its samples and
    the functions of its data checks; the samples are those of a model of this size. *)
Definition model_savable known_dist known_bij default_of (source : nat -> option string) (dist_reg eda_reg : registry) (m : meridian) : Prop :=
  (exists given, new_input given = Ok (mm_input m)) /\ S_Marketing.savable (mm_input m) /\
  new_spec (mm_spec m) = Ok (mm_spec m) /\ numbers_fit (mm_spec m) /\ arrays_fit (mm_spec m) /\ readable (mm_spec m) /\
  Forall (fun e => S_DistSerde.savable known_dist known_bij default_of dist_reg false "" "" "" (snd e)) (mm_prior m) /\
  NoDup (map fst dist_reg) /\ (forall k f, In (k, f) dist_reg -> source f <> None) /\
  NoDup (map fst eda_reg) /\ (forall k f, In (k, f) eda_reg -> source f <> None) /\
  eda_registered eda_reg (mm_eda m) /\ integers_fit (mm_samples m) /\ samples_fit (mm_input m) (mm_knots m) (mm_samples m).

Lemma count_same : forall aks d h e h', restored (panel_by rounded_down) d e -> (h_enable_aks h = true -> aks e = aks d) ->
  (forall k, h_knots h <> KsList [k]) -> h_enable_aks h' = h_enable_aks h -> h_knots h' = knots_after (h_knots h) ->
  count_knots aks e h' = count_knots aks d h.
Proof.
  intros aks d h e h' ((Kg & Kt & _) & _) A K Ea Ek. unfold count_knots. rewrite Kg, Kt. f_equal. f_equal. unfold knots_of. rewrite Ea.
  destruct (h_enable_aks h); [rewrite A by reflexivity; reflexivity|]. rewrite Ek. destruct (h_knots h) as [|k|[|k [|k2 l]]] eqn:E; try reflexivity.
  exfalso. apply (K k). reflexivity.
Qed.

(** C74. A model that can be saved is loaded again, with force or without, provided its constructor accepts the
    parts that come back and the automatic selection of knots, where enabled, selects the same ones.  It has the
    same data, specification and prior as described by C70, C71 and C73, and the very same data checks and
    samples; a warning is given exactly if backend or precision differ from those it was saved with. *)
Theorem C74_round_trip : forall source hash aks l170 l171 Legacy f32 fbk known_dist known_bij default_of read_legacy accepts
    backend precision dist_reg eda_reg m,
  model_savable known_dist known_bij default_of source dist_reg eda_reg m ->
  count_knots aks (mm_input m) (mm_spec m) = Ok (mm_knots m) -> (forall k, h_knots (mm_spec m) <> KsList [k]) ->
  (forall d h p, restored (panel_by rounded_down) (mm_input m) d -> changed_as_described f32 (mm_spec m) h -> reloaded_prior f32 fbk eq (mm_prior m) p ->
     accepts d h p (mm_eda m) = Ok tt /\ (h_enable_aks (mm_spec m) = true -> aks d = aks (mm_input m))) ->
  exists k m' w,
    serialize_model source hash Legacy f32 known_dist known_bij default_of current_version dist_reg eda_reg m = Ok k /\
    (forall force, deserialize_model source hash aks l170 l171 Legacy fbk known_dist known_bij default_of read_legacy accepts backend precision dist_reg eda_reg force k = Ok (m', w)) /\
    restored (panel_by rounded_down) (mm_input m) (mm_input m') /\ changed_as_described f32 (mm_spec m) (mm_spec m') /\
    reloaded_prior f32 fbk eq (mm_prior m) (mm_prior m') /\ mm_eda m' = mm_eda m /\
    samples_after (mm_samples m) (mm_samples m') /\ mm_knots m' = mm_knots m /\ mm_backend m' = backend /\ mm_precision m' = precision /\
    (In OtherBackend w <-> mm_backend m <> 0%Z /\ mm_backend m <> backend) /\
    (In OtherPrecision w <-> mm_precision m <> 0%Z /\ mm_precision m <> precision) /\ ~ In NoEdaSpec w.
Proof.
  intros source hash aks l170 l171 Legacy f32 fbk kd kb df rl accepts backend precision dreg ereg m
    ((given & Hi) & Si & Vs & Nf & Af & Rd & Sp & Nd & Sd & Ne & Se & Re & If & Sf) Ck K Acc.
  destruct (C70_reload f32 (mm_spec m) Vs Nf Af) as (Y & _ & (ph & Eph)). destruct (Y Rd) as (h' & Eh & Ch). clear Y.
  unfold reload in Eh. rewrite Eph in Eh. cbn [rbind] in Eh.
  destruct (C71_round_trip f32 fbk kd kb df source hash dreg (mm_prior m) Nd Sd Sp) as (pp & pr' & Epp & Dp & Rp).
  destruct (samples_written (mm_samples m) If) as (s' & Es & As).
  destruct (eda_round source hash ereg (mm_eda m) Ne Se Re) as (pe & Epe & De).
  destruct (C73_round_trip given (mm_input m) Hi Si) as (mk & d' & Sv & Ld & Rs).
  destruct (Acc d' h' pr' Rs Ch Rp) as [Ac Aa].
  assert (Ch' := Ch). destruct Ch' as (Pl & _ & Ek & _). assert (Ea : h_enable_aks h' = h_enable_aks (mm_spec m)) by (unfold plain_fields_kept in Pl; tauto).
  assert (Ck' : count_knots aks d' h' = Ok (mm_knots m)) by (rewrite (count_same aks (mm_input m) (mm_spec m) d' h' Rs Aa K Ea Ek); exact Ck).
  eexists. exists (mkMeridian d' h' pr' (mm_eda m) s' (mm_knots m) backend precision false). eexists. split.
  { unfold serialize_model. rewrite Eph. cbn [rbind]. rewrite Epp. cbn [rbind]. rewrite Es. cbn [rbind]. rewrite Epe. cbn [rbind]. rewrite Sv. cbn [rbind]. reflexivity. }
  split.
  { intros force. unfold deserialize_model.
    cbn [k_model k_marketing mp_version mp_backend mp_precision mp_hyper mp_legacy_prior mp_prior mp_samples mp_eda].
    rewrite Eh. cbn [rbind]. rewrite Dp. cbn [rbind]. rewrite Ld. cbn [rbind]. rewrite De. cbn [rbind fst snd]. unfold construct. rewrite Ac. cbn [rbind]. rewrite Ck'. cbn [rbind mm_knots].
    assert (Kn : (if h_enable_aks h' then if version_le current_version (1, 7, 0)%Z then inject_knots d' (l170 d') else
                  if version_le current_version (1, 7, 1)%Z then inject_knots d' (l171 d') else Ok (mm_knots m) else Ok (mm_knots m)) = Ok (mm_knots m)).
    { destruct (h_enable_aks h'); reflexivity. }
    rewrite Kn. cbn [rbind]. unfold deserialize_samples.
    assert (V : validate_samples d' (mm_knots m) s' = Ok tt) by (apply validate_samples_iff; apply (after_fits (mm_input m) d' (mm_knots m) (mm_samples m) s' Rs As Sf)).
    rewrite V. cbn [rbind]. reflexivity. }
  cbn [mm_input mm_spec mm_prior mm_eda mm_samples mm_knots mm_backend mm_precision].
  split; [exact Rs|]. split; [exact Ch|]. split; [exact Rp|]. split; [reflexivity|]. split; [exact As|]. do 3 (split; [reflexivity|]).
  destruct (Z.eqb_spec (mm_backend m) 0), (Z.eqb_spec (mm_backend m) backend), (Z.eqb_spec (mm_precision m) 0), (Z.eqb_spec (mm_precision m) precision);
    cbn [negb andb app In]; (split; [|split]); intuition (try discriminate; try congruence).
Qed.
Print Assumptions C74_round_trip.

(** C74. Samples can be saved exactly if their whole numbers fit 32 bits; they come back with all but the time of
    their creation. *)
Theorem C74_samples : forall s,
  (integers_fit s <-> exists p, serialize_samples s = Ok p) /\
  (forall p, serialize_samples s = Ok p -> samples_after s (deserialize_samples p)).
Proof.
  intros s. split.
  - split; [intros H; destruct (samples_written s H) as (p & E & _); exists p; exact E|]. intros [p E]. apply samples_written_inv in E. apply E.
  - intros p E. apply samples_written_inv in E. apply E.
Qed.
Print Assumptions C74_samples.

(** Inversion of a successful load. *)
Lemma loaded_inv : forall source hash aks l170 l171 Legacy fbk known_dist known_bij default_of read_legacy accepts backend precision dist_reg eda_reg force k m w,
  deserialize_model source hash aks l170 l171 Legacy fbk known_dist known_bij default_of read_legacy accepts backend precision dist_reg eda_reg force k = Ok (m, w) ->
  exists mp v, k_model Legacy k = AnyModel Legacy mp /\ mp_version Legacy mp = Some v /\ deserialize (mp_hyper Legacy mp) = Ok (mm_spec m) /\
    load (k_marketing Legacy k) = Ok (mm_input m) /\
    match mp_legacy_prior Legacy mp, mp_prior Legacy mp with
    | Some l, _ => read_legacy l = Ok (mm_prior m)
    | None, Some p => deserialize_prior fbk known_dist known_bij default_of source hash dist_reg force p = Ok (mm_prior m)
    | None, None => False
    end /\
    match mp_eda Legacy mp with
    | Some e => deserialize_eda source hash eda_reg force e = Ok (mm_eda m)
    | None => mm_eda m = default_eda
    end /\
    accepts (mm_input m) (mm_spec m) (mm_prior m) (mm_eda m) = Ok tt /\
    (exists n, count_knots aks (mm_input m) (mm_spec m) = Ok n /\
       (if h_enable_aks (mm_spec m) then
          if version_le v (1, 7, 0)%Z then inject_knots (mm_input m) (l170 (mm_input m))
          else if version_le v (1, 7, 1)%Z then inject_knots (mm_input m) (l171 (mm_input m)) else Ok n
        else Ok n) = Ok (mm_knots m)) /\
    mm_samples m = mp_samples Legacy mp /\ validate_samples (mm_input m) (mm_knots m) (mm_samples m) = Ok tt /\ mm_review m = false /\
    (In NoEdaSpec w <-> mp_eda Legacy mp = None).
Proof.
  intros source hash aks l170 l171 Legacy fbk kd kb df rl accepts backend precision dreg ereg force k m w H. unfold deserialize_model in H.
  destruct (k_model Legacy k) as [mp|] eqn:Em; [|discriminate]. destruct (mp_version Legacy mp) as [v|] eqn:Ev; [|discriminate].
  destruct (deserialize (mp_hyper Legacy mp)) as [h|] eqn:Eh; cbn [rbind] in H; [|discriminate].
  destruct (match mp_legacy_prior Legacy mp with Some l => _ | None => _ end) as [p|] eqn:Ep; cbn [rbind] in H; [|discriminate].
  destruct (load (k_marketing Legacy k)) as [d|] eqn:Ed; cbn [rbind] in H; [|discriminate].
  destruct (match mp_eda Legacy mp with Some e => _ | None => _ end) as [[e we]|] eqn:Ee; cbn [rbind fst snd] in H; [|discriminate].
  unfold construct in H. destruct (accepts d h p e) as [[]|] eqn:Ea; cbn [rbind] in H; [|discriminate].
  destruct (count_knots aks d h) as [n|] eqn:Ec; cbn [rbind mm_knots] in H; [|discriminate].
  match type of H with rbind ?x _ = _ => destruct x as [kn|] eqn:Ek; cbn [rbind] in H; [|discriminate] end.
  destruct (validate_samples d kn _) as [[]|] eqn:Es; cbn [rbind] in H; [|discriminate].
  match type of H with Ok (?a, ?b) = _ => assert (Hm : m = a) by congruence; assert (Hw : w = b) by congruence end. subst m w.
  cbn [mm_input mm_spec mm_prior mm_eda mm_samples mm_knots mm_review].
  exists mp, v. do 4 (split; [first [reflexivity|assumption]|]).
  split. { destruct (mp_legacy_prior Legacy mp), (mp_prior Legacy mp); try exact Ep. discriminate. }
  assert (We : match mp_eda Legacy mp with Some pe => deserialize_eda source hash ereg force pe = Ok e /\ we = [] | None => e = default_eda /\ we = [NoEdaSpec] end).
  { destruct (mp_eda Legacy mp) as [pe|]; [|split; congruence]. destruct (deserialize_eda source hash ereg force pe) as [e'|] eqn:X; cbn [rbind] in Ee; [|discriminate].
    split; congruence. }
  split. { destruct (mp_eda Legacy mp); apply We. }
  split; [exact Ea|]. split; [exists n; split; [exact Ec|exact Ek]|]. split; [reflexivity|]. split; [exact Es|]. split; [reflexivity|].
  rewrite !in_app_iff. destruct (mp_eda Legacy mp) as [pe|]; destruct We as [_ ->].
  - split; [|discriminate]. intros [X|[X|[]]]; match type of X with In _ (if ?b then _ else _) => destruct b end; cbn in X; intuition discriminate.
  - split; [reflexivity|]. intros _. right. right. left. reflexivity.
Qed.

(** C74. Whatever is loaded, its samples are those of a model of this size. *)
Theorem C74_samples_checked : forall source hash aks l170 l171 Legacy fbk known_dist known_bij default_of read_legacy accepts backend precision dist_reg eda_reg force k m w,
  deserialize_model source hash aks l170 l171 Legacy fbk known_dist known_bij default_of read_legacy accepts backend precision dist_reg eda_reg force k = Ok (m, w) ->
  samples_fit (mm_input m) (mm_knots m) (mm_samples m).
Proof.
  intros until w. intros H. apply loaded_inv in H. destruct H as (mp & v & _ & _ & _ & _ & _ & _ & _ & _ & _ & V & _). apply validate_samples_iff. exact V.
Qed.
Print Assumptions C74_samples_checked.

(** C74. A model saved with automatically selected knots gets the knots that the version it was saved with
    selects: up to 1.7.0, of 1.7.1, and later. *)
Theorem C74_versions : forall source hash aks l170 l171 Legacy fbk known_dist known_bij default_of read_legacy accepts backend precision dist_reg eda_reg force k m w mp v,
  deserialize_model source hash aks l170 l171 Legacy fbk known_dist known_bij default_of read_legacy accepts backend precision dist_reg eda_reg force k = Ok (m, w) ->
  k_model Legacy k = AnyModel Legacy mp -> mp_version Legacy mp = Some v ->
  (h_enable_aks (mm_spec m) = true -> earlier v (1, 7, 1)%Z -> ~ earlier (1, 7, 0)%Z v -> mm_knots m = length (l170 (mm_input m))) /\
  (h_enable_aks (mm_spec m) = true -> earlier (1, 7, 0)%Z v -> ~ earlier (1, 7, 1)%Z v -> mm_knots m = length (l171 (mm_input m))) /\
  (h_enable_aks (mm_spec m) = true -> earlier (1, 7, 1)%Z v -> count_knots aks (mm_input m) (mm_spec m) = Ok (mm_knots m)) /\
  (h_enable_aks (mm_spec m) = false -> count_knots aks (mm_input m) (mm_spec m) = Ok (mm_knots m)).
Proof.
  intros source hash aks l170 l171 Legacy fbk kd kb df rl accepts backend precision dreg ereg force k m w mp v H Em Ev. apply loaded_inv in H.
  destruct H as (mp' & v' & Em' & Ev' & _ & _ & _ & _ & _ & (n & Cn & Kn) & _). assert (mp' = mp) by congruence. subst mp'. assert (v' = v) by congruence. subst v'.
  assert (Inj : forall l, inject_knots (mm_input m) l = Ok (mm_knots m) -> mm_knots m = length l).
  { intros l X. unfold inject_knots in X. destruct (Nat.eqb_spec (length l) 1); [congruence|].
    destruct (l1_distance_weights _ l); cbn [rbind] in X; [congruence|discriminate]. }
  assert (Tot : forall a b : version, earlier a b \/ a = b \/ earlier b a).
  { intros [[a1 a2] a3] [[b1 b2] b3]. unfold earlier. destruct (Z.lt_trichotomy a1 b1) as [|[->|]]; [tauto| |tauto].
    destruct (Z.lt_trichotomy a2 b2) as [|[->|]]; [tauto| |tauto]. destruct (Z.lt_trichotomy a3 b3) as [|[->|]]; tauto. }
  assert (Anti : forall a b : version, earlier a b -> (earlier b a \/ b = a) -> False).
  { intros [[a1 a2] a3] [[b1 b2] b3] X [Y|Y]; unfold earlier in *; [lia|]. assert (b1 = a1 /\ b2 = a2 /\ b3 = a3) by (repeat split; congruence). lia. }
  pose proof (version_le_iff v (1, 7, 0)%Z) as L0. pose proof (version_le_iff v (1, 7, 1)%Z) as L1.
  repeat split.
  - intros A E1 E0. rewrite A in Kn. assert (X : version_le v (1, 7, 0)%Z = true).
    { apply L0. destruct (Tot v (1, 7, 0)%Z) as [?|[?|?]]; tauto. } rewrite X in Kn. apply Inj. exact Kn.
  - intros A E1 E0. rewrite A in Kn. assert (X : version_le v (1, 7, 0)%Z = false).
    { destruct (version_le v (1, 7, 0)%Z); [|reflexivity]. exfalso. exact (Anti _ _ E1 (proj1 L0 eq_refl)). }
    assert (Y : version_le v (1, 7, 1)%Z = true). { apply L1. destruct (Tot v (1, 7, 1)%Z) as [?|[?|?]]; tauto. }
    rewrite X, Y in Kn. apply Inj. exact Kn.
  - intros A E1. rewrite A in Kn. assert (Y : version_le v (1, 7, 1)%Z = false).
    { destruct (version_le v (1, 7, 1)%Z); [|reflexivity]. exfalso. exact (Anti _ _ E1 (proj1 L1 eq_refl)). }
    assert (E0 : earlier (1, 7, 0)%Z v) by (destruct v as [[v1 v2] v3]; unfold earlier in *; lia).
    assert (X : version_le v (1, 7, 0)%Z = false).
    { destruct (version_le v (1, 7, 0)%Z); [|reflexivity]. exfalso. exact (Anti _ _ E0 (proj1 L0 eq_refl)). }
    rewrite X, Y in Kn. assert (n = mm_knots m) by congruence. subst. exact Cn.
  - intros A. rewrite A in Kn. assert (n = mm_knots m) by congruence. subst. exact Cn.
Qed.
Print Assumptions C74_versions.

(** C74. Without force, no model is loaded with a function for the data checks that is missing or whose source
    has changed since it was saved. *)
Theorem C74_changed_function : forall source hash aks l170 l171 Legacy f32 fbk known_dist known_bij default_of read_legacy accepts backend precision
    dist_reg eda_reg dist_reg2 eda_reg2 m k key f s v,
  serialize_model source hash Legacy f32 known_dist known_bij default_of v dist_reg eda_reg m = Ok k ->
  In (key, f) eda_reg -> source f = Some s -> (forall f' s', lookup key eda_reg2 = Some f' -> source f' = Some s' -> hash s' <> hash s) ->
  exists e, deserialize_model source hash aks l170 l171 Legacy fbk known_dist known_bij default_of read_legacy accepts backend precision dist_reg2 eda_reg2 false k = Err e.
Proof.
  intros source hash aks l170 l171 Legacy f32 fbk kd kb df rl accepts backend precision dreg ereg dreg2 ereg2 m k key f s v S Hin Es Hc.
  destruct (deserialize_model source hash aks l170 l171 Legacy fbk kd kb df rl accepts backend precision dreg2 ereg2 false k) as [[m' w]|e] eqn:D; [|exists e; reflexivity].
  exfalso. apply loaded_inv in D. destruct D as (mp & v' & Em & _ & _ & _ & _ & De & _).
  unfold serialize_model in S. destruct (serialize f32 (mm_spec m)); cbn [rbind] in S; [|discriminate].
  destruct (serialize_prior _ _ _ _ _ _ _ _); cbn [rbind] in S; [|discriminate].
  destruct (serialize_samples _); cbn [rbind] in S; [|discriminate].
  destruct (serialize_eda source hash ereg (mm_eda m)) as [pe|] eqn:Ee; cbn [rbind] in S; [|discriminate].
  destruct (save _); cbn [rbind] in S; [|discriminate].
  match type of S with Ok ?a = _ => assert (k = a) by congruence; subst k end. cbn [k_model] in Em.
  match type of Em with AnyModel _ ?a = _ => assert (mp = a) by congruence; subst mp end. cbn [mp_eda] in De.
  unfold serialize_eda in Ee. destruct (aggregation_to_proto ereg (e_controls _)); cbn [rbind] in Ee; [|discriminate].
  destruct (aggregation_to_proto ereg (e_non_media _)); cbn [rbind] in Ee; [|discriminate].
  destruct (hashed_registry source hash ereg) as [h|] eqn:Eh; cbn [rbind] in Ee; [|discriminate].
  match type of Ee with Ok ?a = _ => assert (pe = a) by congruence; subst pe end. clear Ee S.
  unfold deserialize_eda in De. cbn [pe_registry] in De. destruct (hashed_in source hash ereg h key f Eh Hin) as (s' & Es' & Hh).
  assert (s' = s) by congruence. subst s'.
  assert (V : validate source hash ereg2 h <> Ok tt).
  { unfold validate. destruct h as [|x h]; [contradiction|]. intros V. apply validate_entries_ok in V. rewrite Forall_forall in V.
    destruct (V _ Hh) as (f' & s' & L1 & L2 & L3). exact (Hc f' s' L1 L2 L3). }
  destruct (validate source hash ereg2 h) as [[]|]; [apply V; reflexivity|]. discriminate.
Qed.
Print Assumptions C74_changed_function.

(** *** Refutations of "every model that was saved can be loaded, and is the same" *)
(** A model with the location of a single knot, other than 1, and samples: it is saved and cannot be loaded. *)
Theorem C74_single_knot_refuted : forall source hash aks l170 l171 Legacy f32 fbk known_dist known_bij default_of read_legacy accepts backend precision
    dist_reg eda_reg m k force location v,
  new_spec (mm_spec m) = Ok (mm_spec m) -> numbers_fit (mm_spec m) -> arrays_fit (mm_spec m) ->
  h_knots (mm_spec m) = KsList [location] -> location <> 1%Z -> h_enable_aks (mm_spec m) = false ->
  count_knots aks (mm_input m) (mm_spec m) = Ok (mm_knots m) ->
  samples_fit (mm_input m) (mm_knots m) (mm_samples m) -> s_posterior (mm_samples m) <> None ->
  serialize_model source hash Legacy f32 known_dist known_bij default_of v dist_reg eda_reg m = Ok k ->
  exists e, deserialize_model source hash aks l170 l171 Legacy fbk known_dist known_bij default_of read_legacy accepts backend precision dist_reg eda_reg force k = Err e.
Proof.
  intros source hash aks l170 l171 Legacy f32 fbk kd kb df rl accepts backend precision dreg ereg m k force x v Vs Nf Af Hk Nx Ha Ck Sf Ps S.
  destruct (deserialize_model source hash aks l170 l171 Legacy fbk kd kb df rl accepts backend precision dreg ereg force k) as [[m' w]|e] eqn:D; [|exists e; reflexivity].
  exfalso. apply loaded_inv in D. destruct D as (mp & v' & Em & _ & Dh & _ & _ & _ & _ & (n & Cn & Kn) & Ms & V & _).
  unfold serialize_model in S. destruct (serialize f32 (mm_spec m)) as [ph|] eqn:Eph; cbn [rbind] in S; [|discriminate].
  destruct (serialize_prior _ _ _ _ _ _ _ _); cbn [rbind] in S; [|discriminate].
  destruct (serialize_samples (mm_samples m)) as [s'|] eqn:Es; cbn [rbind] in S; [|discriminate].
  destruct (serialize_eda source hash ereg (mm_eda m)) as [pe|]; cbn [rbind] in S; [|discriminate].
  destruct (save (mm_input m)) as [mk|]; cbn [rbind] in S; [|discriminate].
  match type of S with Ok ?a = _ => assert (k = a) by congruence; subst k end. cbn [k_model] in Em.
  match type of Em with AnyModel _ ?a = _ => assert (mp = a) by congruence; subst mp end. cbn [mp_hyper mp_samples] in Dh, Ms.
  destruct (C70_reload f32 (mm_spec m) Vs Nf Af) as (Y & N & _).
  assert (Rl : reload f32 (mm_spec m) = Ok (mm_spec m')) by (unfold reload; rewrite Eph; exact Dh).
  assert (Ch : changed_as_described f32 (mm_spec m) (mm_spec m')).
  { destruct (C70_reload f32 (mm_spec m) Vs Nf Af) as (Y' & _). destruct (Classical_Prop.classic (readable (mm_spec m))) as [Rd|Rd].
    - destruct (Y' Rd) as (h & Eh & C). rewrite Rl in Eh. assert (h = mm_spec m') by congruence. subst. exact C.
    - apply N in Rd. congruence. }
  destruct Ch as (Pl & _ & Ek & _). assert (Ea : h_enable_aks (mm_spec m') = h_enable_aks (mm_spec m)) by (unfold plain_fields_kept in Pl; tauto).
  rewrite Ea, Ha in Kn. assert (n = mm_knots m') by congruence. subst n. clear Kn.
  unfold count_knots in Ck, Cn. unfold knots_of in Ck, Cn. rewrite Ea in Cn. rewrite Ha in Ck, Cn. rewrite Ek in Cn. rewrite Hk in Ck, Cn. cbn [knots_after] in Cn.
  destruct (get_knot_info _ (KnList [x]) _) as [i1|] eqn:G1; cbn [rbind] in Ck; [|discriminate]. apply one_location in G1.
  destruct (get_knot_info _ (KnInt x) _) as [i2|] eqn:G2; cbn [rbind] in Cn; [|discriminate]. apply int_count in G2.
  assert (K1 : mm_knots m = 1) by congruence. assert (K2 : Z.of_nat (mm_knots m') = x) by (rewrite <- G2; f_equal; congruence).
  apply validate_samples_iff in V. rewrite Ms in V. apply samples_written_inv in Es. destruct Es as (_ & _ & A2 & _).
  destruct (s_posterior (mm_samples m)) as [g|] eqn:Eg; [|apply Ps; reflexivity]. destruct (s_posterior s') as [g'|] eqn:Eg'; cbn [both] in A2; [|exact A2].
  pose proof (Sf g (or_intror Eg)) as (_ & _ & L & _). pose proof (V g' (or_intror Eg')) as (_ & _ & L' & _).
  apply coord_size_labelled in L, L'. destruct A2 as (Ec & _). unfold coord_size in L, L'. rewrite Ec in L'. rewrite L in L'. apply Nx. rewrite <- K2, <- L', K1. reflexivity.
Qed.
Print Assumptions C74_single_knot_refuted.

(** A function registered under the empty key: the data checks are saved and cannot be loaded. *)
Theorem C74_empty_key_refuted : forall source hash f n s force, source f = Some s ->
  exists p, serialize_eda source hash [("", f)] (mkEda [(n, f)] [] default_vif (e_corr default_eda) 0 (e_std default_eda)) = Ok p /\
    deserialize_eda source hash [("", f)] force p = Err ValueError.
Proof.
  intros source hash f n s force E. unfold serialize_eda, hashed_registry, aggregation_to_proto, get_function_key.
  cbn [e_controls e_non_media all_ok snd fst find option_map]. rewrite Nat.eqb_refl. cbn [option_map fst rbind]. rewrite E. cbn [rbind].
  eexists. split; [reflexivity|]. unfold deserialize_eda, validate, validate_entries. cbn [pe_registry pe_config lookup]. cbn [String.eqb]. rewrite E. rewrite String.eqb_refl.
  destruct force; reflexivity.
Qed.
Print Assumptions C74_empty_key_refuted.

(** The summary of a model review is never loaded. *)
Theorem C74_review_refuted : forall source hash aks l170 l171 Legacy fbk known_dist known_bij default_of read_legacy accepts backend precision dist_reg eda_reg force k m w,
  deserialize_model source hash aks l170 l171 Legacy fbk known_dist known_bij default_of read_legacy accepts backend precision dist_reg eda_reg force k = Ok (m, w) ->
  mm_review m = false.
Proof. intros until w. intros H. apply loaded_inv in H. destruct H as (mp & v & _ & _ & _ & _ & _ & _ & _ & _ & _ & _ & R & _). exact R. Qed.
Print Assumptions C74_review_refuted.

(** *** The hypotheses are met *)
Definition ex_group : dataset :=
  mkDataset [("created_at", "2024-05-01"); ("inference_library", "meridian")]
    [("geo", NcStrings ["x"]); ("time", NcStrings ["a"; "b"; "c"]); ("knots", NcInts [0%Z]); ("media_channel", NcStrings ["tv"]); ("chain", NcInts [0%Z; 1%Z])]
    [("beta_gm", (["chain"; "geo"; "media_channel"], NcFloats [Some 1%R; None]))].
Definition ex_samples : samples := mkSamples None (Some ex_group) [("sample_stats", mkDataset [] [] [("diverging", (["chain"], NcBools [true; false]))])].
Definition ex_reg : registry := [("other", 2); ("shift", 3)].
Definition ex_source (f : nat) : option string := Some (if Nat.eqb f 3 then "def shift(x): return x + 1" else "def other(x): return x").
Definition ex_eda : eda := mkEda [("gdp", 3)] [("price", 2)] (mkVif 10 20 30 0) (mkCorr 1 1 1) 2 (mkStd 1 1).
Definition ex_data : input := small [day2; day3; day4] [day2; day3; day4] [] None.
Definition ex_model (knots : knots_value) : meridian :=
  mkMeridian ex_data (ex_spec knots (GeoName "x") ex_values) ex_prior ex_eda ex_samples 1 1 2 true.
Lemma ex_data_savable : new_input ex_data = Ok ex_data /\ S_Marketing.savable ex_data.
Proof.
  assert (Nd : NoDup [day2; day3; day4]) by (repeat constructor; cbn; intuition discriminate).
  split; [apply small_new; [discriminate|reflexivity|apply weekly4|apply weekly4]|]. unfold S_Marketing.savable.
  assert (P : forall p, In (Some p) (panels ex_data) -> p = ex_panel ["x"] [day2; day3; day4] ["tv"]).
  { intros p Hp. destruct (small_panels _ _ _ _ p Hp) as [[Nc _]|[->|[Nr _]]]; [exfalso; apply Nc; reflexivity|reflexivity|exfalso; apply Nr; reflexivity]. }
  split; [discriminate|]. split; [cbn; intuition discriminate|].
  split; [intros p q Hp Hq; rewrite (small_media_panels _ _ _ _ p Hp), (small_media_panels _ _ _ _ q Hq); reflexivity|].
  split; [intros p Hp; rewrite (small_media_panels _ _ _ _ p Hp); split; [exact Nd|intros t Ht; exact Ht]|].
  split; [exact Nd|]. split; [intros p [E|[E|[]]]; discriminate|]. split; [intros m E; discriminate|].
  split; [intros p [E|[E|[]]]; discriminate|]. split; [intros p Hp; rewrite (P p Hp); discriminate|]. split; [intros p E; discriminate E|].
  split; [intros E; discriminate E|]. split; [reflexivity|]. split; [split; reflexivity|]. split; [split; reflexivity|].
  split; [|intros E; discriminate E]. intros p x [Hp|[Hp|[]]]; discriminate Hp.
Qed.
Lemma ex_samples_fit : samples_fit ex_data 1 ex_samples /\ integers_fit ex_samples.
Proof.
  split.
  - apply validate_samples_iff. reflexivity.
  - apply (proj1 (C74_samples ex_samples)). eexists. reflexivity.
Qed.
Example C74_example : forall aks f32 fbk,
  let m := ex_model (KsInt 1) in
  model_savable (fun _ => true) (fun _ => true) ex_default ex_source ex_reg ex_reg m /\
  count_knots aks (mm_input m) (mm_spec m) = Ok (mm_knots m) /\ (forall k, h_knots (mm_spec m) <> KsList [k]) /\
  (forall d h p, restored (panel_by rounded_down) (mm_input m) d -> changed_as_described f32 (mm_spec m) h -> reloaded_prior f32 fbk eq (mm_prior m) p ->
     Ok tt = Ok tt /\ (h_enable_aks (mm_spec m) = true -> aks d = aks (mm_input m))).
Proof.
  intros aks f32 fbk m. destruct ex_data_savable as [Di Ds]. destruct ex_samples_fit as [Sf If]. destruct C71_example as (R1 & R2 & R3 & _).
  split.
  - split; [exists ex_data; exact Di|]. split; [exact Ds|]. split; [reflexivity|].
    split; [apply (ex_spec_fits (KsInt 1) (GeoName "x") ex_values); [constructor; [unfold fits32; lia|constructor]|discriminate]|].
    split; [apply (ex_spec_fits (KsInt 1) (GeoName "x") ex_values)|].
    split. { split; [discriminate|]. intros l El. assert (l = [BvName "Max"; BvNumber 3%R; BvName "min"]) by (cbn in El; unfold ex_values in El; congruence). subst l.
             constructor; [right; reflexivity|constructor; [exact Logic.I|constructor; [left; reflexivity|constructor]]]. }
    split; [exact R3|]. split; [exact R1|]. split; [exact R2|]. split; [exact R1|]. split; [exact R2|].
    split; [|split; [exact If|exact Sf]]. split; [cbn; intuition discriminate|]. intros n f Hin. cbn in Hin.
    destruct Hin as [E|[E|[]]]; [assert (f = 3) by congruence|assert (f = 2) by congruence]; subst; cbn; tauto.
  - split; [reflexivity|]. split; [intros k; discriminate|]. intros d h p _ _ _. split; [reflexivity|discriminate].
Qed.
Example C74_single_knot_example : forall aks f32 hash, exists k,
  let m := ex_model (KsList [2%Z]) in
  new_spec (mm_spec m) = Ok (mm_spec m) /\ numbers_fit (mm_spec m) /\ arrays_fit (mm_spec m) /\
  count_knots aks (mm_input m) (mm_spec m) = Ok (mm_knots m) /\ samples_fit (mm_input m) (mm_knots m) (mm_samples m) /\ s_posterior (mm_samples m) <> None /\
  serialize_model ex_source hash unit f32 (fun _ => true) (fun _ => true) ex_default current_version ex_reg ex_reg m = Ok k.
Proof.
  intros aks f32 hash. destruct ex_data_savable as [Di Ds]. destruct ex_samples_fit as [Sf If]. destruct C71_example as (R1 & R2 & R3 & _).
  set (m := ex_model (KsList [2%Z])).
  assert (Nf : numbers_fit (mm_spec m)) by (apply (ex_spec_fits (KsList [2%Z]) (GeoName "x") ex_values); [constructor; [unfold fits32; lia|constructor]|discriminate]).
  assert (Af : arrays_fit (mm_spec m)) by apply (ex_spec_fits (KsList [2%Z]) (GeoName "x") ex_values).
  destruct (C70_reload f32 (mm_spec m) eq_refl Nf Af) as (_ & _ & (ph & Eph)).
  destruct (C71_round_trip f32 (fun x => x) (fun _ => true) (fun _ => true) ex_default ex_source hash ex_reg (mm_prior m) R1 R2 R3) as (pp & pr' & Epp & _ & _).
  destruct (samples_written (mm_samples m) If) as (s' & Es & As).
  destruct (eda_round ex_source hash ex_reg (mm_eda m) R1 R2) as (pe & Epe & De).
  { split; [cbn; intuition discriminate|]. intros n f Hin. cbn in Hin.
    destruct Hin as [E|[E|[]]]; [assert (f = 3) by congruence|assert (f = 2) by congruence]; subst; cbn; tauto. }
  destruct (C73_round_trip ex_data (mm_input m) Di Ds) as (mk & d' & Sv & Ld & Rs).
  eexists. split; [reflexivity|]. split; [exact Nf|]. split; [exact Af|]. split; [reflexivity|]. split; [exact Sf|]. split; [discriminate|].
  unfold serialize_model. rewrite Eph. cbn [rbind]. rewrite Epp. cbn [rbind]. rewrite Es. cbn [rbind]. rewrite Epe. cbn [rbind]. rewrite Sv. cbn [rbind]. reflexivity.
Qed.
