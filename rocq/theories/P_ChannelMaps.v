(** Proofs about what is found by channel name. *)
From Coq Require Import String Reals List Bool Arith Lia Permutation.
From Verif Require Import M_Base M_AdstockHill M_Equations M_Transformers M_ArgBuilder M_ChannelMaps S_Adstock S_Media S_ChannelMaps.
Import ListNotations.
Local Open Scope string_scope.
Local Open Scope list_scope.

Lemma mem_in : forall s l, mem s l = true <-> In s l.
Proof. intros s l. unfold mem. destruct (in_dec string_dec s l); split; auto; discriminate. Qed.
Lemma mem_not : forall s l, mem s l = false <-> ~ In s l.
Proof. intros s l. unfold mem. destruct (in_dec string_dec s l); split; auto; try discriminate; tauto. Qed.

(** *** Positions *)
Lemma index_of_some : forall s l i, index_of s l = Some i -> nth_error l i = Some s.
Proof.
  induction l as [|a l IH]; intros i H; cbn [index_of] in H; [discriminate|].
  destruct (String.eqb a s) eqn:E.
  - apply String.eqb_eq in E. injection H as <-. subst. reflexivity.
  - destruct (index_of s l) as [j|] eqn:EJ; [|discriminate]. cbn [option_map] in H. injection H as <-. exact (IH j eq_refl).
Qed.
Lemma index_of_none : forall s l, index_of s l = None <-> ~ In s l.
Proof.
  induction l as [|a l IH]; cbn [index_of In]; [tauto|]. destruct (String.eqb a s) eqn:E.
  - apply String.eqb_eq in E. split; [discriminate|tauto].
  - apply String.eqb_neq in E. destruct (index_of s l) as [j|]; cbn [option_map].
    + split; [discriminate|]. intros H. exfalso. apply H. right. destruct (in_dec string_dec s l) as [I|I]; [exact I|].
      apply (proj2 IH) in I. discriminate.
    + split; [|reflexivity]. intros _ [Q|Q]; [congruence|]. exact (proj1 IH eq_refl Q).
Qed.
Lemma index_of_nodup : forall s l i, NoDup l -> nth_error l i = Some s -> index_of s l = Some i.
Proof.
  intros s l i ND H. destruct (index_of s l) as [j|] eqn:E.
  - apply index_of_some in E. f_equal. apply (proj1 (NoDup_nth_error l) ND); [apply nth_error_Some; congruence|congruence].
  - apply index_of_none in E. exfalso. apply E. exact (nth_error_In _ _ H).
Qed.

Lemma nodup_app : forall (a b : list string), NoDup (a ++ b) ->
  NoDup a /\ NoDup b /\ (forall s, In s a -> In s b -> False).
Proof.
  induction a as [|v a IH]; intros b H; cbn [app] in H.
  - split; [constructor|]. split; [assumption|]. intros s [].
  - inversion H as [|? ? H1 H2]; subst. destruct (IH b H2) as [A [B C]].
    split; [constructor; [intros Hi; apply H1; apply in_or_app; left; assumption|assumption]|].
    split; [assumption|]. intros s [->|Hs] Hb; [apply H1; apply in_or_app; right; assumption|].
    exact (C s Hs Hb).
Qed.

Lemma channel_listed : forall d k i name, channel_at d k i name <-> nth_error (listed (names_of d k)) i = Some name.
Proof.
  intros d k i name. unfold channel_at, listed. destruct (names_of d k) as [l|].
  - split; [intros [l' [E H]]; congruence|]. intros H. exists l. auto.
  - split; [intros [l' [E _]]; discriminate|]. destruct i; discriminate.
Qed.
Lemma a_channel_listed : forall d name, a_channel d name <-> In name (flat_map (fun k => listed (names_of d k)) all_kinds).
Proof.
  intros d name. rewrite in_flat_map. split.
  - intros [k [i H]]. apply channel_listed in H. exists k. split; [destruct k; cbn; auto|]. exact (nth_error_In _ _ H).
  - intros [k [_ H]]. apply In_nth_error in H. destruct H as [i H]. exists k, i. apply channel_listed. exact H.
Qed.

Lemma kinds_nodup : forall d, distinct_names d ->
  (forall k, NoDup (listed (names_of d k))) /\
  (forall k k' s, In s (listed (names_of d k)) -> In s (listed (names_of d k')) -> k = k') /\
  (forall k s, In s (listed (names_of d k)) -> In s (listed (nd_non_media d)) -> False).
Proof.
  intros d H. unfold distinct_names in H. apply nodup_app in H. destruct H as (ND & _ & X).
  cbn [flat_map all_kinds] in ND, X. rewrite app_nil_r in ND, X.
  destruct (nodup_app _ _ ND) as (A & ND1 & X1). destruct (nodup_app _ _ ND1) as (B & ND2 & X2).
  destruct (nodup_app _ _ ND2) as (C & D & X3).
  split; [intros []; assumption|]. split.
  - intros k k' s H1 H2.
    destruct k, k'; try reflexivity; exfalso;
      first [ apply (X1 s); [assumption|]; rewrite !in_app_iff; tauto
            | apply (X2 s); [assumption|]; rewrite !in_app_iff; tauto
            | apply (X3 s); [assumption|]; tauto ].
  - intros k s H1 H2. apply (X s); [|exact H2]. rewrite !in_app_iff. destruct k; tauto.
Qed.

Lemma find_kind_some : forall d name ks k i, find_kind d name ks = Some (k, i) -> channel_at d k i name.
Proof.
  induction ks as [|k' ks IH]; intros k i H; cbn [find_kind] in H; [discriminate|].
  destruct (index_of name (listed (names_of d k'))) as [j|] eqn:E.
  - injection H as <- <-. apply channel_listed. apply index_of_some. exact E.
  - exact (IH k i H).
Qed.
Lemma find_kind_none : forall d name, find_kind d name all_kinds = None <-> ~ a_channel d name.
Proof.
  intros d name. rewrite a_channel_listed, in_flat_map. generalize all_kinds as ks.
  induction ks as [|k ks IH]; cbn [find_kind In].
  - split; [intros _ [k [[] _]]|reflexivity].
  - destruct (index_of name (listed (names_of d k))) as [j|] eqn:E.
    + split; [discriminate|]. intros H. exfalso. apply H. exists k. split; [auto|]. apply index_of_some in E.
      exact (nth_error_In _ _ E).
    + rewrite IH. apply index_of_none in E. split.
      * intros H [k' [[->|I] Q]]; [exact (E Q)|]. apply H. eauto.
      * intros H [k' [I Q]]. apply H. eauto.
Qed.
Lemma find_kind_spec : forall d name k i, distinct_names d ->
  (find_kind d name all_kinds = Some (k, i) <-> channel_at d k i name).
Proof.
  intros d name k i Hd. split; [apply find_kind_some|]. intros H.
  destruct (find_kind d name all_kinds) as [[k' i']|] eqn:E.
  - apply find_kind_some in E. destruct (kinds_nodup d Hd) as (ND & U & _).
    apply channel_listed in E, H.
    assert (k' = k) by (apply (U k' k name); [exact (nth_error_In _ _ E)|exact (nth_error_In _ _ H)]). subst k'.
    f_equal. f_equal. apply (proj1 (NoDup_nth_error _) (ND k)); [apply nth_error_Some; congruence|congruence].
  - apply find_kind_none in E. exfalso. apply E. exists k, i. exact H.
Qed.

(** *** Mappings *)
Definition pick (m : list (string * string)) (default c : string) : string :=
  match get c (Some default) (map (fun p => (fst p, Some (snd p))) m) with Some s => s | None => "" end.

Lemma pick_chosen : forall m default c, chosen (SpecMap m) default c (pick m default c).
Proof.
  intros m default c. unfold pick, get. induction m as [|[n f] m IH]; cbn [map lookup fst snd chosen In].
  - right. split; [intros []|reflexivity].
  - destruct (string_dec n c) as [->|Ne]; [left; left; reflexivity|].
    destruct IH as [I|[I E]]; [left; right; exact I|].
    right. split; [intros [Q|Q]; [exact (Ne Q)|exact (I Q)]|exact E].
Qed.
Lemma chosen_unique : forall s default c f g,
  match s with SpecMap m => proper_map m | SpecName _ => True end ->
  chosen s default c f -> chosen s default c g -> f = g.
Proof.
  intros [h|m] default c f g P H1 H2; cbn [chosen] in *; [congruence|].
  destruct H1 as [I|[N E]], H2 as [I'|[N' E']].
  - unfold proper_map in P. clear default. revert P I I'. induction m as [|[n w] m IH]; intros P I I'; [destruct I|].
    cbn [map fst] in P. inversion P as [|? ? P1 P2]; subst. cbn [In] in I, I'.
    destruct I as [Q|I], I' as [Q'|I'].
    + congruence.
    + exfalso. apply P1. assert (n = c) by congruence. subst. exact (in_map fst _ _ I').
    + exfalso. apply P1. assert (n = c) by congruence. subst. exact (in_map fst _ _ I).
    + exact (IH P2 I I').
  - exfalso. apply N'. exact (in_map fst _ _ I).
  - exfalso. apply N. exact (in_map fst _ _ I').
  - congruence.
Qed.

Lemma functions_from_map_spec : forall d default m k,
  functions_from_map d default m k =
  match names_of d k with
  | None => Ok (FOne default)
  | Some l => if mem "self" (map fst m) then Err TypeError else Ok (FList (map (pick m default) l))
  end.
Proof.
  intros d default m k. unfold functions_from_map. destruct (names_of d k) as [l|] eqn:E; [|reflexivity].
  assert (EB : argument_builder string (nd_channels d) (builder_of k) = Ok (new_builder l)).
  { unfold argument_builder. destruct k; cbn [builder_of names_of] in *; unfold need; rewrite E; reflexivity. }
  rewrite EB. cbn [rbind]. unfold call_with_map. destruct (mem "self" (map fst m)); [reflexivity|].
  cbn [raise_if]. unfold call. cbn [with_default_value new_builder b_coords b_default andb raise_if rbind].
  rewrite map_map. reflexivity.
Qed.

Lemma check_keys_spec : forall d m,
  (check_keys d m = Ok tt /\ (forall c f, In (c, f) m -> a_channel d c)) \/
  (exists e, check_keys d m = Err e /\ (e = ValueError \/ e = KeyError) /\ exists c f, In (c, f) m /\ ~ a_channel d c).
Proof.
  intros d m. destruct m as [|[c0 f0] m'] eqn:Em; [left; split; [reflexivity|intros c f []]|]. cbn [check_keys]. rewrite <- Em.
  unfold all_adstock_hill_channels.
  destruct (forallb _ all_kinds) eqn:EA.
  - right. exists ValueError. split; [reflexivity|]. split; [auto|]. exists c0, f0. split; [rewrite Em; left; reflexivity|].
    intros [k [i [l [E _]]]]. rewrite forallb_forall in EA. specialize (EA k). rewrite E in EA.
    assert (In k all_kinds) by (destruct k; cbn; auto). specialize (EA H). discriminate.
  - cbn [raise_if rbind]. destruct (forallb _ m) eqn:EF.
    + left. cbn [negb raise_if]. split; [reflexivity|]. intros c f I. rewrite forallb_forall in EF. specialize (EF (c, f) I).
      cbn [fst] in EF. apply mem_in in EF. apply a_channel_listed. exact EF.
    + right. exists KeyError. cbn [negb raise_if]. split; [reflexivity|]. split; [auto|].
      assert (X : exists p, In p m /\ mem (fst p) (flat_map (fun k => listed (names_of d k)) all_kinds) = false).
      { clear Em EA. induction m as [|p m IH]; [discriminate|]. cbn [forallb] in EF.
        destruct (mem (fst p) _) eqn:EP; [|exists p; split; [left; reflexivity|exact EP]].
        destruct (IH EF) as [q [I Q]]. exists q. split; [right; exact I|exact Q]. }
      destruct X as [[c f] [I Q]]. exists c, f. split; [exact I|]. cbn [fst] in Q. apply mem_not in Q.
      rewrite a_channel_listed. exact Q.
Qed.

(** The members made from a mapping. *)
Definition spread (d : name_data) (default : string) (m : list (string * string)) (k : adstock_kind) : functions :=
  match names_of d k with None => FOne default | Some l => FList (map (pick m default) l) end.

Lemma create_spec : forall d default m,
  ((forall c f, In (c, f) m -> a_channel d c /\ c <> "self") /\
    create_from_map d default m =
      Ok (mkFunctions (spread d default m AMedia) (spread d default m ARf)
                      (spread d default m AOrganicMedia) (spread d default m AOrganicRf))) \/
  ((exists c f, In (c, f) m /\ ~ a_channel d c) /\
    (create_from_map d default m = Err ValueError \/ create_from_map d default m = Err KeyError)) \/
  (a_channel d "self" /\ (exists f, In ("self", f) m) /\ create_from_map d default m = Err TypeError).
Proof.
  intros d default m. unfold create_from_map.
  destruct (check_keys_spec d m) as [[E K]|[e [E [V X]]]].
  - rewrite E. cbn [rbind]. rewrite !functions_from_map_spec.
    destruct (mem "self" (map fst m)) eqn:ES.
    + right. right. apply mem_in, in_map_iff in ES. destruct ES as [[c f] [Q I]]. cbn [fst] in Q. subst c.
      pose proof (K "self" f I) as A. split; [exact A|]. split; [eauto|].
      destruct A as [k [i [l [EL _]]]].
      destruct k; cbn [names_of] in *; rewrite EL; cbn [rbind]; try reflexivity;
        repeat (match goal with |- context [match ?o with Some _ => _ | None => _ end] => destruct o end; cbn [rbind]; try reflexivity).
    + left. split.
      * intros c f I. split; [exact (K c f I)|]. intros ->. apply mem_not in ES. apply ES. exact (in_map fst _ _ I).
      * unfold spread. destruct (names_of d AMedia), (names_of d ARf), (names_of d AOrganicMedia), (names_of d AOrganicRf); reflexivity.
  - right. left. split; [exact X|]. rewrite E. cbn [rbind]. destruct V as [-> | ->]; auto.
Qed.

Lemma spread_gets : forall d default m k i name, channel_at d k i name ->
  forall fs, cf_of fs k = spread d default m k -> gets fs k i (pick m default name).
Proof.
  intros d default m k i name [l [E H]] fs EF. unfold gets. rewrite EF. unfold spread. rewrite E.
  apply map_nth_error. exact H.
Qed.
Lemma spread_of : forall d default m k,
  cf_of (mkFunctions (spread d default m AMedia) (spread d default m ARf)
                      (spread d default m AOrganicMedia) (spread d default m AOrganicRf)) k = spread d default m k.
Proof. intros d default m []; reflexivity. Qed.

Lemma pick_valid : forall (P : string -> Prop) m default c, P default -> (forall c' f, In (c', f) m -> P f) -> P (pick m default c).
Proof.
  intros P m default c D H. destruct (pick_chosen m default c) as [I|[_ ->]]; [exact (H _ _ I)|exact D].
Qed.

Lemma decay_accepted : forall d m, proper_map m ->
  ((exists fs, adstock_decay_spec d (SpecMap m) = Ok fs) <->
   forall c f, In (c, f) m -> a_channel d c /\ c <> "self" /\ In f ["geometric"; "binomial"]).
Proof.
  intros d m P. cbn [adstock_decay_spec].
  destruct (create_spec d "geometric" m) as [[K E]|[[[c [f [I N]]] E]|[A [[f I] E]]]].
  - rewrite E. cbn [rbind]. unfold validate_decay_spec. set (fs := mkFunctions _ _ _ _).
    destruct (forallb (fun k => known_functions (cf_of fs k)) all_kinds) eqn:EF; cbn [negb raise_if key_error_to_value_error].
    + split; [|eauto]. intros _ c f I. destruct (K c f I) as [C S]. split; [exact C|]. split; [exact S|].
      destruct C as [k [i C]]. rewrite forallb_forall in EF. specialize (EF k).
      assert (Ik : In k all_kinds) by (destruct k; cbn; auto). specialize (EF Ik). unfold fs in EF. rewrite spread_of in EF.
      destruct C as [l [EL H]]. unfold spread in EF. rewrite EL in EF. cbn [known_functions] in EF. rewrite forallb_forall in EF.
      apply mem_in. apply EF. apply in_map_iff. exists c. split; [|exact (nth_error_In _ _ H)].
      apply (chosen_unique (SpecMap m) "geometric" c); [exact P|apply pick_chosen|left; exact I].
    + split; [intros [x Q]; discriminate|]. intros H. exfalso.
      assert (T : forallb (fun k => known_functions (cf_of fs k)) all_kinds = true); [|congruence].
      apply forallb_forall. intros k _. unfold fs. rewrite spread_of. unfold spread.
      destruct (names_of d k) as [l|]; [|reflexivity]. cbn [known_functions]. apply forallb_forall. intros s Is.
      apply in_map_iff in Is. destruct Is as [c [<- _]]. apply mem_in.
      apply (pick_valid (fun s => In s ADSTOCK_DECAY_FUNCTIONS)); [cbn; auto|]. intros c' f I. exact (proj2 (proj2 (H c' f I))).
  - split.
    + intros [fs Q]. destruct E as [E|E]; rewrite E in Q; discriminate.
    + intros H. exfalso. apply N. exact (proj1 (H c f I)).
  - split.
    + intros [fs Q]. rewrite E in Q. discriminate.
    + intros H. exfalso. exact (proj1 (proj2 (H _ f I)) eq_refl).
Qed.

Lemma decay_ok_inv : forall d m fs, adstock_decay_spec d (SpecMap m) = Ok fs ->
  forall k, cf_of fs k = spread d "geometric" m k.
Proof.
  intros d m fs H. cbn [adstock_decay_spec] in H.
  destruct (create_spec d "geometric" m) as [[K E]|[[_ E]|[_ [_ E]]]].
  - rewrite E in H. cbn [rbind] in H. unfold validate_decay_spec in H. destruct (forallb _ all_kinds); cbn [negb raise_if key_error_to_value_error] in H; [|discriminate].
    intros k. assert (fs = mkFunctions (spread d "geometric" m AMedia) (spread d "geometric" m ARf)
                      (spread d "geometric" m AOrganicMedia) (spread d "geometric" m AOrganicRf)) by congruence. subst. apply spread_of.
  - destruct E as [E|E]; rewrite E in H; discriminate.
  - rewrite E in H. discriminate.
Qed.
Lemma saturation_ok_inv : forall d m fs, saturation_spec d (SpecMap m) = Ok fs ->
  forall k, cf_of fs k = spread d "hill" m k.
Proof.
  intros d m fs H. cbn [saturation_spec] in H.
  destruct (create_spec d "hill" m) as [[K E]|[[_ E]|[_ [_ E]]]].
  - rewrite E in H. cbn [key_error_to_value_error] in H.
    intros k. assert (fs = mkFunctions (spread d "hill" m AMedia) (spread d "hill" m ARf)
                      (spread d "hill" m AOrganicMedia) (spread d "hill" m AOrganicRf)) by congruence. subst. apply spread_of.
  - destruct E as [E|E]; rewrite E in H; discriminate.
  - rewrite E in H. discriminate.
Qed.
Lemma saturation_accepted : forall d m,
  ((exists fs, saturation_spec d (SpecMap m) = Ok fs) <->
   forall c f, In (c, f) m -> a_channel d c /\ c <> "self").
Proof.
  intros d m. cbn [saturation_spec].
  destruct (create_spec d "hill" m) as [[K E]|[[[c [f [I N]]] E]|[A [[f I] E]]]].
  - rewrite E. cbn [key_error_to_value_error]. split; [intros _; exact K|eauto].
  - split.
    + intros [fs Q]. destruct E as [E|E]; rewrite E in Q; discriminate.
    + intros H. exfalso. apply N. exact (proj1 (H c f I)).
  - split.
    + intros [fs Q]. rewrite E in Q. discriminate.
    + intros H. exfalso. exact (proj2 (H _ f I) eq_refl).
Qed.

Lemma gets_unique : forall fs k i f g, gets fs k i f -> gets fs k i g -> f = g.
Proof. intros fs k i f g. unfold gets. destruct (cf_of fs k); congruence. Qed.

Lemma decay_gets : forall d s fs k i name, match s with SpecMap m => proper_map m | SpecName _ => True end ->
  adstock_decay_spec d s = Ok fs -> channel_at d k i name ->
  forall f, gets fs k i f <-> chosen s "geometric" name f.
Proof.
  intros d [g|m] fs k i name P H C f.
  - cbn [adstock_decay_spec] in H. unfold validate_decay_spec in H. destruct (forallb _ all_kinds); [|discriminate].
    cbn [negb raise_if] in H. injection H as <-. unfold gets. destruct k; reflexivity.
  - pose proof (decay_ok_inv d m fs H k) as E. pose proof (spread_gets d "geometric" m k i name C fs E) as G.
    pose proof (pick_chosen m "geometric" name) as Q. split; intros X.
    + rewrite (gets_unique _ _ _ _ _ X G). exact Q.
    + rewrite (chosen_unique (SpecMap m) _ _ _ _ P X Q). exact G.
Qed.
Lemma saturation_gets : forall d s fs k i name, match s with SpecMap m => proper_map m | SpecName _ => True end ->
  saturation_spec d s = Ok fs -> channel_at d k i name ->
  forall f, gets fs k i f <-> chosen s "hill" name f.
Proof.
  intros d [g|m] fs k i name P H C f.
  - cbn [saturation_spec] in H. injection H as <-. unfold gets. destruct k; reflexivity.
  - pose proof (saturation_ok_inv d m fs H k) as E. pose proof (spread_gets d "hill" m k i name C fs E) as G.
    pose proof (pick_chosen m "hill" name) as Q. split; intros X.
    + rewrite (gets_unique _ _ _ _ _ X G). exact Q.
    + rewrite (chosen_unique (SpecMap m) _ _ _ _ P X Q). exact G.
Qed.

(** Errors of the two mappings. *)
Lemma decay_errors : forall d s e, adstock_decay_spec d s = Err e ->
  e = ValueError \/ (e = TypeError /\ a_channel d "self").
Proof.
  intros d [g|m] e H; cbn [adstock_decay_spec] in H.
  - unfold validate_decay_spec in H. destruct (forallb _ all_kinds); [discriminate|]. injection H as <-. auto.
  - destruct (create_spec d "geometric" m) as [[K E]|[[_ E]|[A [_ E]]]].
    + rewrite E in H. cbn [rbind] in H. unfold validate_decay_spec in H. destruct (forallb _ all_kinds); [discriminate|].
      injection H as <-. auto.
    + destruct E as [E|E]; rewrite E in H; injection H as <-; auto.
    + rewrite E in H. injection H as <-. auto.
Qed.

(** What the transformations are given. *)
Lemma decay_arg_gets : forall fs k n i f, (match cf_of fs k with FList l => length l = n | FOne _ => True end) ->
  gets fs k i f -> assigned_decay (to_decay_arg (cf_of fs k)) n i = Some (to_decay f).
Proof.
  intros fs k n i f L G. unfold gets in G. destruct (cf_of fs k) as [g|l]; cbn [to_decay_arg assigned_decay].
  - congruence.
  - rewrite map_length, L, Nat.eqb_refl. apply map_nth_error. exact G.
Qed.
Lemma decay_width : forall d s fs k l, adstock_decay_spec d s = Ok fs -> names_of d k = Some l ->
  match cf_of fs k with FList l' => length l' = length l | FOne _ => True end.
Proof.
  intros d [g|m] fs k l H E.
  - cbn [adstock_decay_spec] in H. unfold validate_decay_spec in H. destruct (forallb _ all_kinds); [|discriminate].
    cbn [negb raise_if] in H. injection H as <-. destruct k; exact I.
  - rewrite (decay_ok_inv d m fs H k). unfold spread. rewrite E. apply map_length.
Qed.

(** *** Parameters *)
Lemma get_decay_gets : forall fs k i f, get_decay (cf_of fs k) i = Ok f <-> gets fs k i f.
Proof.
  intros fs k i f. unfold get_decay, gets. destruct (cf_of fs k) as [g|l].
  - split; intros H; [injection H; congruence|congruence].
  - destruct (nth_error l i); split; intros H; try discriminate; [injection H; congruence|congruence].
Qed.
Lemma parameters_lemma : forall d s fs name p, distinct_names d ->
  match s with SpecMap m => proper_map m | SpecName _ => True end ->
  adstock_decay_spec d s = Ok fs ->
  (get_channel_parameters d s name = Ok p <->
   exists k, channel_at d k (cp_index p) name /\ chosen s "geometric" name (cp_decay p) /\
     cp_prefix p = prefix_of k /\ cp_is_rf p = kind_is_rf k).
Proof.
  intros d s fs name p Hd P H. unfold get_channel_parameters. rewrite H. cbn [rbind]. split.
  - intros G. destruct (find_kind d name all_kinds) as [[k i]|] eqn:E; [|discriminate].
    apply find_kind_some in E. destruct (get_decay (cf_of fs k) i) as [f|] eqn:ED; [|discriminate]. cbn [rbind] in G.
    injection G as <-. cbn [cp_index cp_decay cp_prefix cp_is_rf]. apply get_decay_gets in ED.
    exists k. split; [exact E|]. split; [|auto]. apply (decay_gets d s fs k i name P H E). exact ED.
  - intros [k [C [Ch [Ep Er]]]]. rewrite (proj2 (find_kind_spec d name k (cp_index p) Hd) C).
    apply (decay_gets d s fs k (cp_index p) name P H C) in Ch. apply get_decay_gets in Ch. rewrite Ch. cbn [rbind].
    rewrite <- Ep, <- Er. destruct p; reflexivity.
Qed.
Lemma parameters_unknown : forall d s fs name, adstock_decay_spec d s = Ok fs -> ~ a_channel d name ->
  get_channel_parameters d s name = Err ValueError.
Proof.
  intros d s fs name H N. unfold get_channel_parameters. rewrite H. cbn [rbind].
  rewrite (proj2 (find_kind_none d name) N). reflexivity.
Qed.
Lemma parameters_run : forall d s fs name, adstock_decay_spec d s = Ok fs -> distinct_names d ->
  match s with SpecMap m => proper_map m | SpecName _ => True end -> a_channel d name ->
  exists p, get_channel_parameters d s name = Ok p.
Proof.
  intros d s fs name H Hd P [k [i C]].
  assert (exists f, chosen s "geometric" name f) as [f F].
  { destruct s as [g|m]; [exists g; reflexivity|]. exists (pick m "geometric" name). apply pick_chosen. }
  exists (mkChannelParameters i (prefix_of k) f (kind_is_rf k)).
  apply (parameters_lemma d s fs name _ Hd P H). exists k. cbn. auto.
Qed.

(** *** Scaling factors *)
Lemma scaling_lemma : forall d tr k i name t, distinct_names d -> channel_at d k i name ->
  tr k = Some t -> ~ In name (listed (nd_controls d)) ->
  exists f, get_media_scaling_factor d tr name = Ok f /\ forall g, f g = scale_factors_gm t g i.
Proof.
  intros d tr k i name t Hd C Ht N. unfold get_media_scaling_factor.
  destruct (mem name (listed (nd_non_media d))) eqn:E1.
  { exfalso. apply mem_in in E1. destruct (kinds_nodup d Hd) as (_ & _ & X). apply channel_listed in C.
    exact (X k name (nth_error_In _ _ C) E1). }
  apply mem_not in N. rewrite N. rewrite (proj2 (find_kind_spec d name k i Hd) C), Ht. eexists. split; reflexivity.
Qed.
Lemma scaling_refused : forall d tr name,
  In name (listed (nd_non_media d)) \/ In name (listed (nd_controls d)) \/ ~ a_channel d name ->
  get_media_scaling_factor d tr name = Err ValueError.
Proof.
  intros d tr name H. unfold get_media_scaling_factor. destruct (mem name (listed (nd_non_media d))) eqn:E1; [reflexivity|].
  destruct (mem name (listed (nd_controls d))) eqn:E2; [reflexivity|]. apply mem_not in E1, E2.
  destruct H as [H|[H|H]]; [contradiction|contradiction|]. rewrite (proj2 (find_kind_none d name) H). reflexivity.
Qed.

(** *** Parameter tensors *)
Lemma full_name_spec : forall base k, by_channel base -> full_param_name base (prefix_of k) = tensor_name base k /\
  mem (tensor_name base k) DIST_FIELDS = true.
Proof. intros base k [-> | [-> | [-> | ->]]]; destruct k; split; reflexivity. Qed.

Lemma append_right : forall s a b, String.append a s = String.append b s -> a = b.
Proof.
  assert (L : forall a s, String.length (String.append a s) = (String.length a + String.length s)%nat).
  { induction a as [|x a IH]; intros s; cbn; [reflexivity|]. rewrite IH. reflexivity. }
  intros s. induction a as [|x a IH]; intros [|y b] H; cbn in H.
  - reflexivity.
  - exfalso. apply (f_equal String.length) in H. cbn in H. rewrite L in H. lia.
  - exfalso. apply (f_equal String.length) in H. cbn in H. rewrite L in H. lia.
  - injection H as -> H. f_equal. exact (IH b H).
Qed.

Lemma ends_length : forall a s, String.length (String.append a s) = (String.length a + String.length s)%nat.
Proof. induction a as [|x a IH]; intros s; cbn; [reflexivity|]. rewrite IH. reflexivity. Qed.

(** The end of a string. *)
Fixpoint last_char (s : string) : option Ascii.ascii :=
  match s with EmptyString => None | String c EmptyString => Some c | String _ r => last_char r end.
Fixpoint ends_with (e s : string) : bool :=
  String.eqb s e || match s with EmptyString => false | String _ r => ends_with e r end.
Lemma ends_append : forall b e, ends_with e (String.append b e) = true.
Proof.
  induction b as [|x b IH]; intros e.
  - cbn [String.append]. destruct e; cbn [ends_with]; rewrite String.eqb_refl; reflexivity.
  - cbn [String.append ends_with]. rewrite IH. apply orb_true_r.
Qed.

Lemma field_base : forall base k, ~ by_channel base -> mem (full_param_name base (prefix_of k)) DIST_FIELDS = false.
Proof.
  intros base k N. apply mem_not. intros H. unfold full_param_name in H.
  destruct (String.eqb base "beta_g") eqn:E; [apply String.eqb_eq in E; apply N; right; right; right; exact E|].
  assert (C : forall n, In n DIST_FIELDS -> String.append base (String.append "_" (prefix_of k)) = n ->
    exists b, by_channel b /\ String.append base (String.append "_" (prefix_of k)) = String.append b (String.append "_" (prefix_of k))).
  { intros n I Q. pose proof (ends_append base (String.append "_" (prefix_of k))) as EA. rewrite Q in EA.
    unfold by_channel.
    destruct k; cbn [prefix_of] in *; unfold DIST_FIELDS in I; cbn [In] in I;
      repeat (destruct I as [<-|I]); try destruct I; try (exfalso; vm_compute in EA; discriminate);
      rewrite Q; first [exists "alpha"; split; [auto|reflexivity] | exists "ec"; split; [auto|reflexivity] | exists "slope"; split; [auto|reflexivity]]. }
  destruct (C _ H eq_refl) as [b [B Q]]. apply append_right in Q. subst. exact (N B).
Qed.

Lemma tensor_lemma : forall A d s fs (t : string -> option (list A)) base name k i, distinct_names d ->
  match s with SpecMap m => proper_map m | SpecName _ => True end ->
  adstock_decay_spec d s = Ok fs -> channel_at d k i name -> by_channel base ->
  get_channel_parameter_tensor d s t base name =
  match t (tensor_name base k) with
  | None => Err TypeError
  | Some l => match nth_error l i with Some a => Ok a | None => Err IndexError end
  end.
Proof.
  intros A d s fs t base name k i Hd P H C B. unfold get_channel_parameter_tensor.
  destruct (parameters_run d s fs name H Hd P (ex_intro _ k (ex_intro _ i C))) as [p Hp]. rewrite Hp. cbn [rbind].
  apply (parameters_lemma d s fs name p Hd P H) in Hp. destruct Hp as [k' [C' [_ [Ep _]]]].
  assert (Q : k' = k /\ cp_index p = i).
  { apply (find_kind_spec d name k i Hd) in C. apply (find_kind_spec d name k' (cp_index p) Hd) in C'.
    rewrite C in C'. injection C'. auto. }
  destruct Q as [-> <-]. rewrite Ep. destruct (full_name_spec base k B) as [-> M]. unfold dist_attr. rewrite M.
  destruct (t (tensor_name base k)); reflexivity.
Qed.
Lemma tensor_refused : forall A d s fs (t : string -> option (list A)) base name,
  adstock_decay_spec d s = Ok fs -> ~ a_channel d name \/ ~ by_channel base ->
  distinct_names d -> match s with SpecMap m => proper_map m | SpecName _ => True end ->
  get_channel_parameter_tensor d s t base name = Err ValueError.
Proof.
  intros A d s fs t base name H X Hd P. unfold get_channel_parameter_tensor.
  destruct (find_kind d name all_kinds) as [[k i]|] eqn:E.
  - apply find_kind_some in E. assert (AC : a_channel d name) by (exists k, i; exact E). destruct X as [X|X]; [contradiction|].
    destruct (parameters_run d s fs name H Hd P AC) as [p Hp]. rewrite Hp. cbn [rbind].
    apply (parameters_lemma d s fs name p Hd P H) in Hp. destruct Hp as [k' [_ [_ [Ep _]]]].
    rewrite Ep. unfold dist_attr. rewrite (field_base base k' X). reflexivity.
  - apply find_kind_none in E. rewrite (parameters_unknown d s fs name H E). reflexivity.
Qed.
