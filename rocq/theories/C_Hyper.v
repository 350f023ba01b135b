(** Property C70: saving and loading a model specification. *)
From Coq Require Import Reals ZArith String List Bool Lia Lra.
From Verif Require Import M_Base M_AdstockHill M_Equations M_Priors M_Spec M_TensorProto M_Hyper C_TensorProto S_Hyper P_Hyper.
Import ListNotations.
Local Open Scope string_scope.
Local Open Scope list_scope.

(** Every accepted specification whose numbers fit can be saved.  It can be loaded again exactly when
    it has documented baseline values and no single knot at 0 (otherwise: ValueError), and then every
    field is what it was, up to the changes spelled out in [changed_as_described]. *)
Theorem C70_reload : forall f32 h, new_spec h = Ok h -> numbers_fit h -> arrays_fit h ->
  (readable h -> exists h', reload f32 h = Ok h' /\ changed_as_described f32 h h') /\
  (~ readable h -> reload f32 h = Err ValueError) /\
  (exists p, serialize f32 h = Ok p).
Proof. exact reload_lemma. Qed.
Print Assumptions C70_reload.

(** Hence a specification comes back the same when moreover its knots are not a list of one, its
    baseline geo is an int or a str, its baseline values are exact in single precision and there is at
    least one of them if the list is given. *)
Theorem C70_round_trip : forall f32 h, (forall x, single_precision x -> f32 x = x) ->
  new_spec h = Ok h -> numbers_fit h -> arrays_fit h ->
  (forall k, h_knots h <> KsList [k]) -> h_baseline_geo h <> GeoOther ->
  (forall l, h_non_media_baseline_values h = Some l -> l <> [] /\ Forall documented_value l /\
     forall x, In (BvNumber x) l -> single_precision x) ->
  exists h', reload f32 h = Ok h' /\ same_spec h h'.
Proof.
  intros f32 h F V Nf Af Hk Hg Hv.
  assert (Rd : readable h) by (split; [apply Hk|intros l El; exact (proj1 (proj2 (Hv l El)))]).
  destruct (proj1 (C70_reload f32 h V Nf Af) Rd) as (h' & E & P & Va & K & G).
  exists h'. split; [exact E|]. split; [exact P|]. split; [|split].
  - destruct (h_non_media_baseline_values h) as [l|]; [|cbn in Va; rewrite Va; exact Logic.I].
    destruct (Hv l eq_refl) as (Nl & Dl & Sl). destruct l as [|v l]; [congruence|].
    destruct Va as (l' & -> & Fl). clear - Fl Sl F. cbn [same_values]. revert Fl Sl.
    generalize (v :: l). intros l0 Fl. induction Fl as [|w w' m m' Hw Hm IH]; intros Sl; constructor.
    + destruct w as [s|x|]; cbn [value_after] in Hw; [| |contradiction]; subst; cbn [same_value].
      * clear. induction s as [|c s IH]; [reflexivity|]. cbn [lower]. rewrite <- IH. f_equal.
        destruct c as [[] [] [] [] [] [] [] []]; reflexivity.
      * rewrite F; [reflexivity|]. apply Sl. left. reflexivity.
    + apply IH. intros x Hx. apply Sl. right. exact Hx.
  - rewrite K. destruct (h_knots h) as [|k|[|k [|k' l]]]; try reflexivity. exfalso. apply (Hk k). reflexivity.
  - rewrite G. destruct (h_baseline_geo h); try reflexivity. congruence.
Qed.
Print Assumptions C70_round_trip.

(** What has been loaded once is stable: it saves and loads as itself. *)
Theorem C70_stable : forall f32 h h', (forall x, f32 (f32 x) = f32 x) ->
  new_spec h = Ok h -> numbers_fit h -> arrays_fit h -> reload f32 h = Ok h' ->
  exists h'', reload f32 h' = Ok h'' /\ same_spec h' h''.
Proof.
  intros f32 h h' Id V Nf Af E.
  destruct (C70_reload f32 h V Nf Af) as (Y & N & _).
  assert (Rd : readable h).
  { destruct (written f32 h V Nf Af) as (p & S & D). split.
    - intros K. destruct (loaded_valid h None V) as [_ B].
      unfold reload in E. rewrite S in E. cbn [rbind] in E. rewrite D in E.
      destruct (match match h_non_media_baseline_values h with None => [] | Some l => map (baseline_to_proto f32) l end with
             | [] => Ok None
             | l => rbind (all_ok baseline_from_proto l) (fun vs => Ok (Some vs)) end) as [values|e]; [|discriminate].
      cbn [rbind] in E. rewrite (proj2 (loaded_valid h values V) K) in E. discriminate.
    - intros l El. unfold reload in E. rewrite S in E. cbn [rbind] in E. rewrite D, El in E.
      destruct l as [|v l]; [constructor|]. cbn [map] in E.
      assert (Dec : Forall documented_value (v :: l) \/ ~ Forall documented_value (v :: l)).
      { clear. generalize (v :: l). intros m. induction m as [|w m IH]; [left; constructor|].
        assert (documented_value w \/ ~ documented_value w).
        { destruct w as [s|x|]; cbn; [|left; exact Logic.I|right; tauto].
          destruct (string_dec (lower s) "min"); [left; left; assumption|].
          destruct (string_dec (lower s) "max"); [left; right; assumption|]. right. tauto. }
        destruct H as [H|H]; [|right; intros F; inversion F; auto].
        destruct IH as [IH|IH]; [left; constructor; assumption|right; intros F; inversion F; auto]. }
      destruct Dec as [Dec|Dec]; [exact Dec|]. pose proof (values_refused f32 _ Dec) as Z. cbn [map] in Z.
      rewrite Z in E. discriminate. }
  destruct (Y Rd) as (h1 & E1 & P & Va & K & G). assert (h1 = h') by congruence. subst h1.
  assert (V' : new_spec h' = Ok h').
  { destruct (written f32 h V Nf Af) as (p & S & D).
    unfold reload in E. rewrite S in E. cbn [rbind] in E. rewrite D in E.
    destruct (match match h_non_media_baseline_values h with None => [] | Some l => map (baseline_to_proto f32) l end with
             | [] => Ok None
             | l => rbind (all_ok baseline_from_proto l) (fun vs => Ok (Some vs)) end) as [values|e]; [|discriminate].
    cbn [rbind] in E. pose proof (proj1 (loaded_valid h values V) (proj1 Rd)) as L.
    rewrite L in E. assert (loaded h values = h') by congruence. subst h'. exact L. }
  assert (Nf' : numbers_fit h').
  { destruct Nf as (N1 & N2 & N3). destruct P as (_ & _ & P3 & _).
    split; [rewrite P3; exact N1|split].
    - rewrite K. destruct (h_knots h) as [|k|[|k [|k' l]]]; exact N2.
    - rewrite G. intros z Hz. destruct (h_baseline_geo h) as [|z0|s0|]; try discriminate. apply N3. exact Hz. }
  assert (Af' : arrays_fit h').
  { destruct P as (_ & _ & _ & _ & _ & _ & _ & _ & _ & _ & _ & Q1 & Q2 & Q3 & Q4 & Q5 & _).
    unfold arrays_fit. rewrite Q1, Q2, Q3, Q4, Q5. exact Af. }
  assert (Low : forall s, lower (lower s) = lower s).
  { induction s as [|c s IH]; [reflexivity|]. cbn [lower]. rewrite IH. f_equal.
    destruct c as [[] [] [] [] [] [] [] []]; reflexivity. }
  assert (Rd' : readable h').
  { split.
    - intros K'. rewrite K in K'. destruct (h_knots h) as [|k|[|k [|k' l]]] eqn:Ek; try discriminate.
    - intros l El. destruct (h_non_media_baseline_values h) as [[|v m]|] eqn:Em.
      + cbn in Va. congruence.
      + destruct Va as (l' & E' & Fl). assert (l' = l) by congruence. subst l'.
        pose proof (proj2 Rd _ Em) as Dm. clear - Fl Low Dm. revert Fl Dm.
        generalize (v :: m). intros m0 Fl. induction Fl as [|w w' m1 m' Hw Hm IH]; intros Dm; constructor.
        * inversion Dm as [|? ? D1 D2]; subst. destruct w as [s|x|]; cbn [value_after] in Hw; [|subst; exact Logic.I|contradiction].
          subst. cbn [documented_value] in *. rewrite Low. exact D1.
        * apply IH. inversion Dm; assumption.
      + cbn in Va. congruence. }
  destruct (proj1 (C70_reload f32 h' V' Nf' Af') Rd') as (h2 & E2 & P' & Va' & K' & G').
  exists h2. split; [exact E2|]. split; [exact P'|]. split; [|split].
  - destruct (h_non_media_baseline_values h) as [[|v m]|].
    + cbn in Va. rewrite Va in *. cbn in Va'. rewrite Va'. exact Logic.I.
    + destruct Va as (l' & E' & Fl). rewrite E' in *. destruct l' as [|v' l']; [inversion Fl|].
      destruct Va' as (l2 & -> & F2). cbn [same_values].
      clear - Fl F2 Low Id. revert Fl F2. generalize (v :: m) (v' :: l'). intros a b Fab Fbc. revert l2 Fbc.
      induction Fab as [|x y a b Hxy Hab IH]; intros l2 Fbc; inversion Fbc as [|? z ? c Hyz Hbc]; subst; constructor.
      * destruct x as [s|x|]; cbn [value_after] in Hxy; [| |contradiction]; subst; cbn [value_after] in Hyz; subst; cbn [same_value]; [|symmetry; apply Id].
        rewrite !Low. reflexivity.
      * apply IH. exact Hbc.
    + cbn in Va. rewrite Va in *. cbn in Va'. rewrite Va'. exact Logic.I.
  - rewrite K', K. destruct (h_knots h) as [|k|[|k [|k' l]]]; reflexivity.
  - rewrite G', G. destruct (h_baseline_geo h); reflexivity.
Qed.
Print Assumptions C70_stable.

(** The names of the enumerated fields: written exactly when allowed, and read back as themselves. *)
Theorem C70_names : forall s,
  ((s = "normal" \/ s = "log_normal") <-> exists n, to_proto media_effects_converter (Some s) = Ok n) /\
  ((s = "roi" \/ s = "mroi" \/ s = "coefficient" \/ s = "contribution") <->
     exists n, to_proto paid_media_prior_type_converter (Some s) = Ok n) /\
  ((s = "coefficient" \/ s = "contribution") <->
     exists n, to_proto non_paid_treatments_prior_type_converter (Some s) = Ok n) /\
  (forall c n, In c [media_effects_converter; paid_media_prior_type_converter; non_paid_treatments_prior_type_converter] ->
     to_proto c (Some s) = Ok n -> from_proto c n = Ok (Some s)).
Proof.
  intros s.
  assert (A : (s = "normal" \/ s = "log_normal") <-> exists n, to_proto media_effects_converter (Some s) = Ok n).
  { split; [intros [-> | ->]; eexists; reflexivity|]. intros (n & E). cbn [to_proto media_effects_converter cv_mapping lookup] in E.
    destruct (String.eqb_spec s "log_normal"); [auto|]. destruct (String.eqb_spec s "normal"); [auto|discriminate]. }
  assert (B : (s = "roi" \/ s = "mroi" \/ s = "coefficient" \/ s = "contribution") <->
     exists n, to_proto paid_media_prior_type_converter (Some s) = Ok n).
  { split; [intros [-> |[-> |[-> | ->]]]; eexists; reflexivity|]. intros (n & E).
    cbn [to_proto paid_media_prior_type_converter cv_mapping lookup] in E.
    destruct (String.eqb_spec s "roi"); [auto|]. destruct (String.eqb_spec s "mroi"); [auto|].
    destruct (String.eqb_spec s "coefficient"); [auto|]. destruct (String.eqb_spec s "contribution"); [auto|discriminate]. }
  assert (C : (s = "coefficient" \/ s = "contribution") <->
     exists n, to_proto non_paid_treatments_prior_type_converter (Some s) = Ok n).
  { split; [intros [-> | ->]; eexists; reflexivity|]. intros (n & E).
    cbn [to_proto non_paid_treatments_prior_type_converter cv_mapping lookup] in E.
    destruct (String.eqb_spec s "coefficient"); [auto|]. destruct (String.eqb_spec s "contribution"); [auto|discriminate]. }
  refine (conj A (conj B (conj C _))). intros c n [<-|[<-|[<-|[]]]] E.
  - destruct (proj2 A (ex_intro _ n E)) as [-> | ->]; cbn in E; assert (n = 1%Z \/ n = 2%Z) as [-> | ->] by (injection E; lia);
      try discriminate; reflexivity.
  - destruct (proj2 B (ex_intro _ n E)) as [-> |[-> |[-> | ->]]]; cbn in E;
      [assert (n = 1%Z) by congruence|assert (n = 2%Z) by congruence|assert (n = 3%Z) by congruence|assert (n = 4%Z) by congruence];
      subst n; reflexivity.
  - destruct (proj2 C (ex_intro _ n E)) as [-> | ->]; cbn in E;
      [assert (n = 1%Z) by congruence|assert (n = 2%Z) by congruence]; subst n; reflexivity.
Qed.
Print Assumptions C70_names.

(** *** Refutations of "every accepted specification comes back the same" *)
Definition ex_spec (knots : knots_value) (geo : geo_value) (values : option (list baseline_value)) : hyper :=
  mkHyper "log_normal" true (Some 8%Z) false (Some "roi") (Some "mroi") None "contribution" "coefficient" "contribution"
    values knots false geo (Some (mkArray BOOL [2; 1] [[1%Z]; [0%Z]])) None
    (Some (mkArray BOOL [2] [[0%Z]; [1%Z]])) None None
    (FnMap [("tv", "binomial"); ("radio", "geometric")]) (FnMap []).
Lemma ex_spec_fits : forall k g v, new_spec (ex_spec KsNone GeoNone v) = Ok (ex_spec KsNone GeoNone v) /\
  (Forall fits32 (knots_listed k) -> (forall z, g = GeoInt z -> fits32 z) -> numbers_fit (ex_spec k g v)) /\
  arrays_fit (ex_spec k g v).
Proof.
  intros k g v. split; [reflexivity|split].
  - intros Hk Hg. split; [|split; [exact Hk|exact Hg]]. intros l El. assert (l = 8%Z) by (cbn in El; congruence). subst. lia.
  - assert (B : forall s l, List.length l = fold_right Nat.mul 1 s -> Forall (fun e : element => List.length e = 1) l ->
                storable (Some (mkArray BOOL s l))).
    { intros s l El Fl a Ea. assert (a = mkArray BOOL s l) by congruence. subst a. split; [split; [exact El|exact Fl]|].
      split; [discriminate|]. intros [[[U|U] _]|[_ [F _]]]; try discriminate. apply F. unfold five. tauto. }
    refine (conj _ (conj _ (conj _ (conj _ _)))); try (intros a; discriminate); apply B; try reflexivity; repeat constructor.
Qed.

(** One knot at period k is accepted, and comes back as k knots. *)
Theorem C70_single_knot_refuted : forall f32, exists h, new_spec h = Ok h /\ numbers_fit h /\ arrays_fit h /\
  h_knots h = KsList [5%Z] /\ exists h', reload f32 h = Ok h' /\ h_knots h' = KsInt 5.
Proof.
  intros f32. exists (ex_spec (KsList [5%Z]) GeoNone None).
  assert (Nf : numbers_fit (ex_spec (KsList [5%Z]) GeoNone None)).
  { apply ex_spec_fits; [repeat constructor; discriminate|discriminate]. }
  split; [reflexivity|split; [exact Nf|split; [apply (ex_spec_fits KsNone GeoNone None)|split; [reflexivity|]]]].
  eexists. split; reflexivity.
Qed.
Print Assumptions C70_single_knot_refuted.

(** One knot at period 0 is accepted and saved, and cannot be loaded. *)
Theorem C70_zero_knot_refuted : forall f32, exists h p, new_spec h = Ok h /\ h_knots h = KsList [0%Z] /\
  serialize f32 h = Ok p /\ deserialize p = Err ValueError.
Proof.
  intros f32. exists (ex_spec (KsList [0%Z]) GeoNone None). eexists. split; [reflexivity|split; [reflexivity|split; reflexivity]].
Qed.
Print Assumptions C70_zero_knot_refuted.

(** Whatever the rounding to single precision, some baseline value changes. *)
Lemma not_single : ~ single_precision 16777217.
Proof.
  intros (m & e & Hm & E). destruct (Z_lt_le_dec 0 e) as [He|He].
  - assert (E' : 16777217%Z = (m * 2 ^ e)%Z).
    { apply eq_IZR. rewrite mult_IZR. rewrite E at 1. f_equal.
      destruct e as [|p|p]; [lia| |lia]. cbn [powerRZ].
      rewrite pow_IZR, positive_nat_Z. reflexivity. }
    assert (Z.odd 16777217 = Z.odd (m * 2 ^ e)) as O by (rewrite <- E'; reflexivity).
    rewrite Z.odd_mul in O. replace (2 ^ e)%Z with (2 * 2 ^ (e - 1))%Z in O.
    2: { rewrite <- Z.pow_succ_r by lia. f_equal. lia. }
    rewrite (Z.odd_mul 2) in O. cbn [Z.odd andb] in O. rewrite andb_false_r in O. discriminate.
  - assert (P : (1 <= powerRZ 2 (- e))%R).
    { destruct e as [|p|p]; cbn [Z.opp powerRZ]; [lra|lia|]. apply pow_R1_Rle. lra. }
    assert (M : (IZR m = 16777217 * powerRZ 2 (- e))%R).
    { rewrite E, Rmult_assoc, <- powerRZ_add by lra. replace (e + - e)%Z with 0%Z by lia. cbn [powerRZ]. lra. }
    assert (L : (16777217 <= m)%Z) by (apply le_IZR; rewrite M; lra).
    change (2 ^ 24)%Z with 16777216%Z in Hm. lia.
Qed.
Theorem C70_precision_refuted : forall f32, (forall x, single_precision (f32 x)) ->
  exists h x, new_spec h = Ok h /\ h_non_media_baseline_values h = Some [BvNumber x] /\
    exists h' x', reload f32 h = Ok h' /\ h_non_media_baseline_values h' = Some [BvNumber x'] /\ x' <> x.
Proof.
  intros f32 F. exists (ex_spec KsNone GeoNone (Some [BvNumber 16777217])), 16777217%R.
  split; [reflexivity|split; [reflexivity|]]. eexists. exists (f32 16777217%R). split; [reflexivity|split; [reflexivity|]].
  intros E. apply not_single. rewrite <- E. apply F.
Qed.
Print Assumptions C70_precision_refuted.

(** A baseline geo given as a NumPy integer is accepted and silently forgotten; an undocumented
    baseline value is accepted and saved, and cannot be loaded. *)
Theorem C70_silent_refuted : forall f32,
  (exists h h', new_spec h = Ok h /\ h_baseline_geo h = GeoOther /\ reload f32 h = Ok h' /\ h_baseline_geo h' = GeoNone) /\
  (exists h p, new_spec h = Ok h /\ h_non_media_baseline_values h = Some [BvName "mean"] /\
     serialize f32 h = Ok p /\ deserialize p = Err ValueError).
Proof.
  intros f32. split.
  - exists (ex_spec KsNone GeoOther None). eexists. split; [reflexivity|split; [reflexivity|split; reflexivity]].
  - exists (ex_spec KsNone GeoNone (Some [BvName "mean"])). eexists. split; [reflexivity|split; [reflexivity|split; reflexivity]].
Qed.
Print Assumptions C70_silent_refuted.

(** The hypotheses of the round trip are met: two knots, a named geo, a baseline of each kind. *)
Definition ex_values : option (list baseline_value) := Some [BvName "Max"; BvNumber 3%R; BvName "min"].
Example C70_example : forall f32, (forall x, single_precision x -> f32 x = x) ->
  let h := ex_spec (KsList [0%Z; 4%Z]) (GeoName "north") ex_values in
  new_spec h = Ok h /\ exists h', reload f32 h = Ok h' /\ same_spec h h' /\ h_knots h' = KsList [0%Z; 4%Z] /\
    h_non_media_baseline_values h' = Some [BvName "max"; BvNumber 3%R; BvName "min"].
Proof.
  intros f32 F h. assert (S3 : single_precision 3) by (exists 3%Z, 0%Z; split; [reflexivity|cbn [powerRZ]; lra]).
  split; [reflexivity|].
  destruct (C70_round_trip f32 h F) as (h' & E & S).
  - reflexivity.
  - apply ex_spec_fits; [repeat constructor; discriminate|discriminate].
  - apply (ex_spec_fits KsNone GeoNone None).
  - discriminate.
  - discriminate.
  - intros l El. assert (l = [BvName "Max"; BvNumber 3%R; BvName "min"]) by (cbn in El; unfold ex_values in El; congruence). subst l.
    split; [discriminate|split].
    + constructor; [right; reflexivity|constructor; [exact Logic.I|constructor; [left; reflexivity|constructor]]].
    + intros x [Hx|[Hx|[Hx|[]]]]; try discriminate. assert (x = 3%R) by congruence. subst x. exact S3.
  - exists h'. split; [exact E|split; [exact S|]].
    assert (Rl : reload f32 h = Ok (loaded h (Some [BvName "max"; BvNumber (f32 3%R); BvName "min"]))) by reflexivity.
    rewrite Rl in E. assert (h' = loaded h (Some [BvName "max"; BvNumber (f32 3%R); BvName "min"])) by congruence. subst h'.
    split; [reflexivity|]. cbn [loaded h_non_media_baseline_values]. rewrite (F 3%R S3). reflexivity.
Qed.
