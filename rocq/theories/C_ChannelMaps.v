(** C89: what is looked up by channel name is the channel's own. *)
From Coq Require Import String Reals List Bool Arith Lia Lra Permutation.
From Verif Require Import M_Base M_AdstockHill M_Equations M_Transformers M_ArgBuilder M_ChannelMaps S_Adstock S_Media S_ChannelMaps
  P_ChannelMaps.
Import ListNotations.
Local Open Scope string_scope.
Local Open Scope R_scope.
Local Open Scope list_scope.

(** Channels of three kinds, a treatment that is no medium, and controls. *)
Definition ex_names : name_data :=
  mkNameData (mkNames (Some ["tv"; "radio"]) (Some ["video"; "social"]) None (Some ["blog"])) (Some ["promo"]) (Some ["gqv"; "radio"]).
Definition ex_map : list (string * string) := [("social", "binomial"); ("blog", "binomial"); ("tv", "geometric")].
Example C89_example_names : distinct_names ex_names /\ proper_map ex_map /\
  channel_at ex_names ARf 1 "social" /\ channel_at ex_names AOrganicRf 0 "blog".
Proof.
  split; [unfold distinct_names; cbn; repeat constructor; cbn; intuition discriminate|].
  split; [unfold proper_map; cbn; repeat constructor; cbn; intuition discriminate|].
  split; eexists; split; reflexivity.
Qed.

(** A mapping of decay functions is accepted exactly if its keys are channels of the model (and not
    called "self") and its values are the two recognised functions; a name for all channels is
    accepted exactly if it is recognised. *)
Theorem C89_decay_accepted : forall d,
  (forall m, proper_map m ->
     ((exists fs, adstock_decay_spec d (SpecMap m) = Ok fs) <->
      forall c f, In (c, f) m -> a_channel d c /\ c <> "self" /\ In f ["geometric"; "binomial"])) /\
  (forall f, (exists fs, adstock_decay_spec d (SpecName f) = Ok fs) <-> In f ["geometric"; "binomial"]).
Proof.
  intros d. split; [exact (decay_accepted d)|]. intros f. cbn [adstock_decay_spec]. unfold validate_decay_spec.
  cbn [forallb all_kinds cf_of cf_media cf_rf cf_organic_media cf_organic_rf known_functions].
  destruct (mem f ADSTOCK_DECAY_FUNCTIONS) eqn:E; cbn [andb negb raise_if].
  - split; [intros _; apply mem_in in E; exact E|eauto].
  - split; [intros [fs Q]; discriminate|]. intros H. apply mem_not in E. contradiction.
Qed.
Print Assumptions C89_decay_accepted.
(** Refusals are [ValueError]s, except for a channel called "self". *)
Theorem C89_refusals : forall d s e, ~ a_channel d "self" -> adstock_decay_spec d s = Err e -> e = ValueError.
Proof. intros d s e N H. destruct (decay_errors d s e H) as [->|[_ A]]; [reflexivity|contradiction]. Qed.
Print Assumptions C89_refusals.
(** Not every channel can be given its own function: one called "self" makes the mapping fail. *)
Theorem C89_self_refuted : exists d m, distinct_names d /\ proper_map m /\
  (forall c f, In (c, f) m -> a_channel d c /\ In f ["geometric"; "binomial"]) /\
  adstock_decay_spec d (SpecMap m) = Err TypeError.
Proof.
  exists (mkNameData (mkNames (Some ["self"]) None None None) None None), [("self", "binomial")].
  split; [unfold distinct_names; cbn; repeat constructor; intros []|].
  split; [unfold proper_map; cbn; repeat constructor; intros []|]. split; [|reflexivity].
  intros c f [Q|[]]. injection Q as <- <-. split; [exists AMedia, 0%nat; exists ["self"]; split; reflexivity|cbn; auto].
Qed.
Print Assumptions C89_self_refuted.
(** Saturation mappings: the same condition on the keys. *)
Theorem C89_saturation_accepted : forall d,
  (forall m, (exists fs, saturation_spec d (SpecMap m) = Ok fs) <->
      forall c f, In (c, f) m -> a_channel d c /\ c <> "self") /\
  (forall f, exists fs, saturation_spec d (SpecName f) = Ok fs).
Proof. intros d. split; [exact (saturation_accepted d)|]. intros f. eexists. reflexivity. Qed.
Print Assumptions C89_saturation_accepted.

(** Every channel gets the function chosen for it, whatever its kind and position, and this is the
    function the adstock transformation applies to its column. *)
Theorem C89_decay_assigned : forall d s fs k l i name,
  match s with SpecMap m => proper_map m | SpecName _ => True end ->
  adstock_decay_spec d s = Ok fs -> names_of d k = Some l -> nth_error l i = Some name ->
  forall f, chosen s "geometric" name f ->
    gets fs k i f /\ (forall g, gets fs k i g -> g = f) /\
    assigned_decay (to_decay_arg (cf_of fs k)) (length l) i = Some (to_decay f).
Proof.
  intros d s fs k l i name P H E N f C. assert (CA : channel_at d k i name) by (exists l; auto).
  pose proof (proj2 (decay_gets d s fs k i name P H CA f) C) as G. split; [exact G|].
  split; [intros g Hg; exact (gets_unique _ _ _ _ _ Hg G)|].
  apply decay_arg_gets; [exact (decay_width d s fs k l H E)|exact G].
Qed.
Print Assumptions C89_decay_assigned.
Theorem C89_saturation_assigned : forall d s fs k l i name,
  match s with SpecMap m => proper_map m | SpecName _ => True end ->
  saturation_spec d s = Ok fs -> names_of d k = Some l -> nth_error l i = Some name ->
  forall f, chosen s "hill" name f ->
    gets fs k i f /\ (forall g, gets fs k i g -> g = f) /\
    assigned_sat (to_sat_arg (cf_of fs k)) (length l) i = Some (to_sat f).
Proof.
  intros d s fs k l i name P H E N f C. assert (CA : channel_at d k i name) by (exists l; auto).
  pose proof (proj2 (saturation_gets d s fs k i name P H CA f) C) as G. split; [exact G|].
  split; [intros g Hg; exact (gets_unique _ _ _ _ _ Hg G)|].
  assert (W : match cf_of fs k with FList l' => length l' = length l | FOne _ => True end).
  { destruct s as [g|m].
    - cbn [saturation_spec] in H. injection H as <-. destruct k; exact Logic.I.
    - rewrite (saturation_ok_inv d m fs H k). unfold spread. rewrite E. apply map_length. }
  unfold gets in G. destruct (cf_of fs k) as [g|l']; cbn [to_sat_arg assigned_sat].
  - congruence.
  - rewrite map_length, W, Nat.eqb_refl. apply map_nth_error. exact G.
Qed.
Print Assumptions C89_saturation_assigned.
Example C89_example_assigned : exists fs, adstock_decay_spec ex_names (SpecMap ex_map) = Ok fs /\
  gets fs ARf 1 "binomial" /\ gets fs ARf 0 "geometric" /\ gets fs AOrganicRf 0 "binomial" /\ gets fs AMedia 1 "geometric".
Proof. eexists. split; [vm_compute; reflexivity|]. repeat split. Qed.

(** The order in which the mapping lists the channels does not matter. *)
Theorem C89_order : forall d m m', proper_map m -> Permutation m m' ->
  forall fs, (adstock_decay_spec d (SpecMap m) = Ok fs <-> adstock_decay_spec d (SpecMap m') = Ok fs) /\
             (saturation_spec d (SpecMap m) = Ok fs <-> saturation_spec d (SpecMap m') = Ok fs).
Proof.
  assert (PP : forall m m' : list (string * string), Permutation m m' -> proper_map m -> proper_map m').
  { intros m m' Hp P. unfold proper_map in *. exact (Permutation_NoDup (Permutation_map fst Hp) P). }
  assert (PK : forall m m' default c, Permutation m m' -> proper_map m -> pick m default c = pick m' default c).
  { intros m m' default c Hp P. apply (chosen_unique (SpecMap m') default c); [exact (PP _ _ Hp P)| |apply pick_chosen].
    destruct (pick_chosen m default c) as [I|[N E]]; [left; exact (Permutation_in _ Hp I)|].
    right. split; [|exact E]. intros I. apply N. exact (Permutation_in _ (Permutation_sym (Permutation_map fst Hp)) I). }
  assert (SE : forall d default m m' k, Permutation m m' -> proper_map m -> spread d default m k = spread d default m' k).
  { intros d default m m' k Hp P. unfold spread. destruct (names_of d k) as [l|]; [|reflexivity].
    f_equal. apply map_ext. intros c. exact (PK m m' default c Hp P). }
  assert (FE : forall a b, (forall k, cf_of a k = cf_of b k) -> a = b).
  { intros [a1 a2 a3 a4] [b1 b2 b3 b4] H. f_equal; [exact (H AMedia)|exact (H ARf)|exact (H AOrganicMedia)|exact (H AOrganicRf)]. }
  assert (OneD : forall d m m' fs, Permutation m m' -> proper_map m ->
    adstock_decay_spec d (SpecMap m) = Ok fs -> adstock_decay_spec d (SpecMap m') = Ok fs).
  { intros d m m' fs Hp P H.
    assert (X : exists fs', adstock_decay_spec d (SpecMap m') = Ok fs').
    { apply (proj2 (decay_accepted d m' (PP _ _ Hp P))). intros c f I.
      exact (proj1 (decay_accepted d m P) (ex_intro _ fs H) c f (Permutation_in _ (Permutation_sym Hp) I)). }
    destruct X as [fs' X]. rewrite X. f_equal. apply FE. intros k.
    rewrite (decay_ok_inv d m' fs' X k), (decay_ok_inv d m fs H k). symmetry. exact (SE d _ m m' k Hp P). }
  assert (OneS : forall d m m' fs, Permutation m m' -> proper_map m ->
    saturation_spec d (SpecMap m) = Ok fs -> saturation_spec d (SpecMap m') = Ok fs).
  { intros d m m' fs Hp P H.
    assert (X : exists fs', saturation_spec d (SpecMap m') = Ok fs').
    { apply (proj2 (saturation_accepted d m')). intros c f I.
      exact (proj1 (saturation_accepted d m) (ex_intro _ fs H) c f (Permutation_in _ (Permutation_sym Hp) I)). }
    destruct X as [fs' X]. rewrite X. f_equal. apply FE. intros k.
    rewrite (saturation_ok_inv d m' fs' X k), (saturation_ok_inv d m fs H k). symmetry. exact (SE d _ m m' k Hp P). }
  intros d m m' P Hp fs. pose proof (PP _ _ Hp P) as P'. pose proof (Permutation_sym Hp) as Hs.
  split; split; intros H; [exact (OneD d m m' fs Hp P H)|exact (OneD d m' m fs Hs P' H)|exact (OneS d m m' fs Hp P H)|exact (OneS d m' m fs Hs P' H)].
Qed.
Print Assumptions C89_order.

(** [get_channel_parameters] answers exactly for channels: with the channel's own position, the
    prefix of its kind, its own decay function, and whether it has reach and frequency. *)
Theorem C89_parameters : forall d s fs name, distinct_names d ->
  match s with SpecMap m => proper_map m | SpecName _ => True end ->
  adstock_decay_spec d s = Ok fs ->
  (forall p, get_channel_parameters d s name = Ok p <->
     exists k, channel_at d k (cp_index p) name /\ chosen s "geometric" name (cp_decay p) /\
       cp_prefix p = match k with AMedia => "m" | ARf => "rf" | AOrganicMedia => "om" | AOrganicRf => "orf" end /\
       (cp_is_rf p = true <-> k = ARf \/ k = AOrganicRf)) /\
  (a_channel d name -> exists p, get_channel_parameters d s name = Ok p) /\
  (~ a_channel d name -> get_channel_parameters d s name = Err ValueError).
Proof.
  intros d s fs name Hd P H. split; [|split].
  - intros p. rewrite (parameters_lemma d s fs name p Hd P H).
    assert (R : forall k b, b = kind_is_rf k <-> (b = true <-> k = ARf \/ k = AOrganicRf)).
    { intros [] []; cbn; intuition (try discriminate; congruence). }
    split; intros [k [A [B [C D]]]]; exists k; (split; [exact A|]); (split; [exact B|]); (split; [exact C|]);
      apply R; exact D.
  - exact (parameters_run d s fs name H Hd P).
  - exact (parameters_unknown d s fs name H).
Qed.
Print Assumptions C89_parameters.
Example C89_example_parameters :
  get_channel_parameters ex_names (SpecMap ex_map) "social" = Ok (mkChannelParameters 1 "rf" "binomial" true) /\
  get_channel_parameters ex_names (SpecMap ex_map) "promo" = Err ValueError.
Proof. split; reflexivity. Qed.

(** The scaling factor of a channel is the one its own column is divided by. *)
Theorem C89_scaling : forall d tr k i name t, distinct_names d -> channel_at d k i name -> tr k = Some t ->
  ~ In name (listed (nd_controls d)) ->
  exists f, get_media_scaling_factor d tr name = Ok f /\
    forall g x, f g <> 0 -> media_forward t g i x = Some (x / f g).
Proof.
  intros d tr k i name t Hd C Ht N. destruct (scaling_lemma d tr k i name t Hd C Ht N) as [f [E F]].
  exists f. split; [exact E|]. intros g x Hg. unfold media_forward. rewrite <- F. unfold fdiv.
  destruct (Req_EM_T (f g) 0); [contradiction|reflexivity].
Qed.
Print Assumptions C89_scaling.
(** Names of treatments that are no media, of controls, and unknown names are refused. *)
Theorem C89_scaling_refused : forall d tr name,
  In name (listed (nd_non_media d)) \/ In name (listed (nd_controls d)) \/ ~ a_channel d name ->
  get_media_scaling_factor d tr name = Err ValueError.
Proof. exact scaling_refused. Qed.
Print Assumptions C89_scaling_refused.
(** So a media channel that has the name of a control, which the input data allow, has none. *)
Theorem C89_control_name_refuted : exists d k i name, distinct_names d /\ channel_at d k i name /\
  forall tr, get_media_scaling_factor d tr name = Err ValueError.
Proof.
  exists ex_names, AMedia, 1%nat, "radio". destruct C89_example_names as [A _]. split; [exact A|].
  split; [eexists; split; reflexivity|]. intros tr. apply scaling_refused. right. left. cbn. auto.
Qed.
Print Assumptions C89_control_name_refuted.

(** [get_channel_parameter_tensor] returns the slice of the channel itself, from the tensor of the
    channel's kind; other names of parameters or channels are refused. *)
Theorem C89_tensor : forall A d s fs (t : string -> option (list A)) base name, distinct_names d ->
  match s with SpecMap m => proper_map m | SpecName _ => True end ->
  adstock_decay_spec d s = Ok fs ->
  (forall k i l a, channel_at d k i name -> by_channel base -> t (tensor_name base k) = Some l -> nth_error l i = Some a ->
     get_channel_parameter_tensor d s t base name = Ok a) /\
  (~ a_channel d name \/ ~ by_channel base -> get_channel_parameter_tensor d s t base name = Err ValueError).
Proof.
  intros A d s fs t base name Hd P H. split.
  - intros k i l a C B Ht Ha. rewrite (tensor_lemma A d s fs t base name k i Hd P H C B), Ht, Ha. reflexivity.
  - intros X. exact (tensor_refused A d s fs t base name H X Hd P).
Qed.
Print Assumptions C89_tensor.
Example C89_example_tensor :
  get_channel_parameter_tensor ex_names (SpecMap ex_map)
    (fun n => if String.eqb n "beta_grf" then Some [10; 20]%nat else if String.eqb n "beta_gm" then Some [1; 2]%nat else None)
    "beta_g" "social" = Ok 20%nat.
Proof. reflexivity. Qed.
(** The documented [ValueError] for a parameter that is not there is a [TypeError] when the tensor
    of the parameter was not set. *)
Theorem C89_unset_refuted : forall d s fs k i name base, distinct_names d ->
  match s with SpecMap m => proper_map m | SpecName _ => True end ->
  adstock_decay_spec d s = Ok fs -> channel_at d k i name -> by_channel base ->
  get_channel_parameter_tensor d s (fun _ => @None (list R)) base name = Err TypeError.
Proof.
  intros d s fs k i name base Hd P H C B. rewrite (tensor_lemma R d s fs _ base name k i Hd P H C B). reflexivity.
Qed.
Print Assumptions C89_unset_refuted.
