(** The specs the planner's generator hands on. *)
From Coq Require Import ZArith QArith Ascii String List Bool Sorted Lia Arith.
From Verif Require Import M_Base M_Time S_Time P_Time P_Period M_Opt P_Opt M_BudgetSpec P_BudgetSpec P_MarketingSpec2 M_UiSpecs S_UiSpecs P_UiSpecs P_UiSpecs2.
Import ListNotations.
Local Open Scope string_scope.
Local Open Scope Z_scope.
Local Open Scope list_scope.

Lemma bind_ok : forall A B (r : result A) (f : A -> result B) b, rbind r f = Ok b -> exists a, r = Ok a /\ f a = Ok b.
Proof. intros A B [a|e] f b H; [exists a; auto|discriminate]. Qed.
Lemma raise_ok : forall A (c : bool) e (r : result A) b, raise_if c e r = Ok b -> c = false /\ r = Ok b.
Proof. intros A [|] e r b H; [discriminate|auto]. Qed.
Lemma concat_flat : forall A (l : list (list (list A))), concat (concat l) = concat (map (@concat A) l).
Proof. intros A l. induction l as [|x r IH]; [reflexivity|]. cbn. rewrite concat_app, IH. reflexivity. Qed.
Lemma forall2_concat : forall A B (R : A -> B -> Prop) cs l, Forall2 R (concat cs) l -> exists ls, l = concat ls /\ Forall2 (Forall2 R) cs ls.
Proof.
  intros A B R cs. induction cs as [|c cs IH]; intros l H; cbn in H.
  - inversion H; subst. exists []. split; [reflexivity|constructor].
  - apply Forall2_app_inv_l in H. destruct H as (l1 & l2 & H1 & H2 & ->). destruct (IH l2 H2) as (ls & -> & F).
    exists (l1 :: ls). split; [reflexivity|constructor; assumption].
Qed.
Lemma f2_nil : forall A B (R : A -> B -> Prop) l, Forall2 R [] l -> l = [].
Proof. intros. inversion H. reflexivity. Qed.
Lemma f2_cons : forall A B (R : A -> B -> Prop) a m l, Forall2 R (a :: m) l -> exists b l', l = b :: l' /\ R a b /\ Forall2 R m l'.
Proof. intros. inversion H; subst. eauto. Qed.
Lemma forall2_comp : forall A B C (R : A -> B -> Prop) (T : B -> C -> Prop) (U : A -> C -> Prop) l m n,
  (forall a b c, R a b -> T b c -> U a c) -> Forall2 R l m -> Forall2 T m n -> Forall2 U l n.
Proof.
  intros A B C R T U l m n H F. revert n. induction F as [|a b l m Rab F IH]; intros n G; inversion G; subst; constructor; eauto.
Qed.

Lemma nodup_app : forall A (a b : list A), NoDup a -> NoDup b -> (forall x, In x a -> ~ In x b) -> NoDup (a ++ b).
Proof.
  intros A a b Na Nb D. induction Na as [|x a Hx Na IH]; [exact Nb|]. cbn. constructor.
  - rewrite in_app_iff. intros [H|H]; [contradiction|]. exact (D x (or_introl eq_refl) H).
  - apply IH. intros y Hy. apply D. right. exact Hy.
Qed.

Lemma check_dates_ok : forall all p s z e, calendar all -> bounds all p s z e -> check_dates all p = Ok tt.
Proof.
  intros all p s z e C (A & B & D & Ve & O & Hs & He). pose proof C as (L & V & Y & I & R & G). rewrite Forall_forall in V.
  destruct (ends all C) as (first & r & q & last & Ef & El). pose proof (first_least all first r I Ef) as Hf. pose proof (last_most all q last I El) as Hl.
  assert (Li : In last all) by (rewrite El; apply in_app_iff; right; left; reflexivity).
  assert (Fi : In first all) by (rewrite Ef; left; reflexivity).
  pose proof (increasing_not_decreasing _ I) as ND. pose proof (interval_range all C) as N.
  unfold check_dates. rewrite Ef at 1. rewrite (checked_ok all C). cbn [rbind].
  rewrite (min_first first r) by (rewrite <- Ef; exact ND). rewrite (max_last first r q last) by (rewrite <- Ef; assumption).
  assert (T1 : match p_start p with Some s0 => date_ltb s0 first || date_ltb last s0 | None => false end = false).
  { destruct (p_start p) as [d|]; [|reflexivity]. subst d. apply orb_false_iff. split; apply date_ltb_nlt; [apply Hf|apply Hl]; exact A. }
  assert (T2 : match p_end p with Some e0 => date_leb e0 first || date_ltb (add_days last (interval_days all)) e0 | None => false end = false).
  { destruct (p_end p) as [d|]; [|reflexivity]. subst d. destruct (add_days_spec last (interval_days all) (V last Li)) as [V2 O2].
    assert (Oz : forall a b, In a all -> In b all -> ~ before b a -> ordinal a <= ordinal b).
    { intros a b Ia Ib Hb. destruct (date_ltb a b) eqn:E; [apply date_ltb_iff in E; pose proof (ordinal_before a b (V a Ia) (V b Ib) E); lia|].
      apply date_ltb_nlt in E. rewrite (before_total a b E Hb). lia. }
    apply orb_false_iff. split.
    - apply not_true_iff_false. rewrite date_leb_iff. intros F. apply F. apply ordinal_lt; [apply V; exact Fi|exact Ve|].
      pose proof (Oz first z Fi B (Hf z B)). lia.
    - apply date_ltb_nlt. intros F. pose proof (ordinal_before _ _ V2 Ve F). pose proof (Oz z last B Li (Hl z B)). lia. }
  rewrite T1, T2. reflexivity.
Qed.

Section Specs.
Variables Fit Marketing Rest : Type.
Notation spec := (spec Fit Marketing Rest).
Notation SFit := (SFit Fit Marketing Rest).
Notation SMarketing := (SMarketing Fit Marketing Rest).
Notation SBudget := (SBudget Fit Marketing Rest).
Notation SRf := (SRf Fit Marketing Rest).
Notation period_of := (period_of Fit Marketing Rest).

(** Places of the breakdown: the whole, or a bucket. *)
Definition place := option (breakdown * (date * date)).
Definition sub (s : spec) (j : place) : spec := match j with None => whole_spec _ _ _ s | Some (g, i) => part_spec _ _ _ s g i end.
Definition tag (j : place) : string := match j with None => "ALL" | Some (g, i) => create_tag g (fst i) end.
Definition ivs (l : list date) (g : breakdown) : list (date * date) := match date_intervals g l with Ok x => x | Err _ => [] end.
Definition places (l : list date) (gens : list breakdown) : list place := None :: concat (map (fun g => map (fun i => Some (g, i)) (ivs l g)) gens).

Lemma create_eq : forall s l gens, (forall g, exists x, date_intervals g l = Ok x) ->
  create_subspecs _ _ _ s l gens = Ok (map (sub s) (places l gens)).
Proof.
  intros s l gens H. unfold create_subspecs.
  assert (M : mapR (fun g => rbind (date_intervals g l) (fun x => Ok (map (part_spec _ _ _ s g) x))) gens =
              Ok (map (fun g => map (part_spec _ _ _ s g) (ivs l g)) gens)).
  { induction gens as [|g r IH]; [reflexivity|]. cbn [mapR map]. destruct (H g) as [x E]. assert (E' : ivs l g = x) by (unfold ivs; rewrite E; reflexivity).
    rewrite E, E', IH. reflexivity. }
  rewrite M. cbn [rbind]. unfold places. cbn [map sub]. f_equal. f_equal. rewrite concat_map. f_equal. rewrite map_map.
  apply map_ext. intros g. rewrite map_map. reflexivity.
Qed.

Lemma good_intervals : forall all l p s z e, calendar all -> good_dates all l p s z e -> forall g,
  date_intervals g l = Ok (ivs l g) /\ in_order (ivs l g) /\ (forall a b, In (a, b) (ivs l g) <-> starts_bucket g a /\ bucket_interval (bucket_no g) l a b).
Proof.
  intros all l p s z e C Gd g. destruct (good_increasing all l p s z e C Gd) as (I & V & _ & _). pose proof (good_gaps all l p s z e C Gd) as G.
  assert (N : l <> []) by (destruct Gd as [_ ->]; intros E; apply app_eq_nil in E; destruct E; discriminate).
  destruct (intervals_spec l g N I V G) as (x & X & A & B). unfold ivs. rewrite X. auto.
Qed.

Lemma whole_ok : forall s p, period_of s = Some p -> is_whole _ _ _ s (whole_spec _ _ _ s).
Proof. intros [f|p0 m|o sc mf r|o mn mx] p H; [discriminate| | |]; cbn; unfold renamed; cbn; repeat split; reflexivity. Qed.
Lemma part_ok : forall s p g i, period_of s = Some p -> is_part _ _ _ s g (fst i) (snd i) (part_spec _ _ _ s g i).
Proof.
  intros [f|p0 m|o sc mf r|o mn mx] p g i H; [discriminate| | |]; cbn; unfold renamed; cbn; repeat split; try reflexivity.
  destruct sc as [[b|]|t]; reflexivity.
Qed.

Lemma broken_ok : forall all gens s p l s0 z e, calendar all -> period_of s = Some p -> good_dates all l p s0 z e ->
  broken _ _ _ all gens s (map (sub s) (places l gens)).
Proof.
  intros all gens s p l s0 z e C Hp Gd. pose proof (good_intervals all l p s0 z e C Gd) as GI.
  exists p, l, (whole_spec _ _ _ s), (map (fun g => map (part_spec _ _ _ s g) (ivs l g)) gens).
  split; [exact Hp|]. split; [exact (dates_of_good all l p s0 z e C Gd)|]. split.
  { unfold places. cbn [map sub]. f_equal. rewrite concat_map. f_equal. rewrite map_map. apply map_ext. intros g. rewrite map_map. reflexivity. }
  split; [exact (whole_ok s p Hp)|]. induction gens as [|g r IH]; cbn [map]; constructor; [|exact IH].
  destruct (GI g) as (_ & A & B). exists (ivs l g). split; [exact A|]. split; [exact B|].
  generalize (ivs l g). intros x. induction x as [|i x IHx]; cbn [map]; constructor; [exact (part_ok s p g i Hp)|exact IHx].
Qed.

(** *** The specs collected *)
Definition valid_spec (s : spec) : Prop := forall p, period_of s = Some p -> valid_period p.
Definition copied (has_rf : bool) (s : spec) (c : list spec) : Prop :=
  match s with
  | M_UiSpecs.SBudget _ _ _ o sc mf r => exists o', regrouped o o' /\ c = SBudget o' sc mf r :: (if has_rf then [SRf (rf_of o') 1 mf] else [])
  | M_UiSpecs.SRf _ _ _ _ _ _ => False
  | _ => c = [s]
  end.

Lemma collect_spec : forall all has_rf fresh (specs : list spec) k seen copies,
  (forall j, fresh j <> "") -> collect _ _ _ all has_rf fresh k seen specs = Ok copies ->
  exists cs, copies = concat cs /\ Forall2 (copied has_rf) specs cs.
Proof.
  intros all has_rf fresh specs. induction specs as [|s r IH]; intros k seen copies Fr H; cbn [collect] in H.
  - inversion H; subst. exists []. split; [reflexivity|constructor].
  - apply bind_ok in H. destruct H as (u & Hk & H). apply bind_ok in H. destruct H as (u2 & Hd & H). destruct s as [f|p m|o sc mf rest|o mn mx]; [| | |discriminate].
    + apply bind_ok in H. destruct H as (cp & Hc & H). inversion H; subst. destruct (IH k seen cp Fr Hc) as (cs & -> & F).
      exists ([SFit f] :: cs). split; [reflexivity|]. constructor; [reflexivity|exact F].
    + apply bind_ok in H. destruct H as (cp & Hc & H). inversion H; subst. destruct (IH k seen cp Fr Hc) as (cs & -> & F).
      exists ([SMarketing p m] :: cs). split; [reflexivity|]. constructor; [reflexivity|exact F].
    + cbv zeta in H. apply raise_ok in H. destruct H as [_ H]. apply bind_ok in H. destruct H as (d & Hd2 & H). apply bind_ok in H. destruct H as (cp & Hc & H).
      inversion H; subst. destruct (IH _ _ cp Fr Hc) as (cs & -> & F).
      set (o' := if negb (String.eqb (o_group o) "") then o else mkOpt (o_period o) (o_name o) (o_grid o) (fresh k) (o_level o)) in *.
      exists ((SBudget o' sc mf rest :: d) :: cs). split; [reflexivity|]. constructor; [|exact F]. exists o'. split.
      * unfold o'. destruct (String.eqb_spec (o_group o) "") as [E|E]; cbn [negb]; unfold regrouped; cbn; repeat split; auto; intros X; contradiction.
      * f_equal. destruct has_rf; [|inversion Hd2; reflexivity]. apply bind_ok in Hd2. destruct Hd2 as (y & Hy & Hd2). inversion Hd2; subst.
        unfold derive_rf in Hy. apply raise_ok in Hy. destruct Hy as [_ Hy]. inversion Hy; subst. reflexivity.
Qed.

Definition block_of (all : list date) (gens : list breakdown) (s : spec) : result (list spec) :=
  match period_of s with
  | Some p => rbind (enumerate_dates all p) (fun dates => create_subspecs _ _ _ s dates gens)
  | None => Ok [s]
  end.

Lemma block_spec : forall all gens s b p, calendar all -> valid_period p -> period_of s = Some p -> block_of all gens s = Ok b ->
  exists l s0 z e, enumerate_dates all p = Ok l /\ good_dates all l p s0 z e /\ b = map (sub s) (places l gens).
Proof.
  intros all gens s b p C Vp Hp H. unfold block_of in H. rewrite Hp in H. apply bind_ok in H. destruct H as (l & El & H).
  destruct (enumerate_ok all p l C Vp El) as (s0 & z & e & Gd). exists l, s0, z, e. split; [exact El|]. split; [exact Gd|].
  rewrite create_eq in H; [inversion H; reflexivity|]. intros g. exists (ivs l g). exact (proj1 (good_intervals all l p s0 z e C Gd g)).
Qed.
Lemma block_broken : forall all gens s b p, calendar all -> valid_period p -> period_of s = Some p -> block_of all gens s = Ok b -> broken _ _ _ all gens s b.
Proof.
  intros all gens s b p C Vp Hp H. destruct (block_spec all gens s b p C Vp Hp H) as (l & s0 & z & e & _ & Gd & ->).
  exact (broken_ok all gens s p l s0 z e C Hp Gd).
Qed.

Lemma ui_parts : forall all has_rf fresh gens specs subs, (forall j, fresh j <> "") ->
  ui_specs _ _ _ all has_rf fresh gens specs = Ok subs ->
  exists cs lss, collect _ _ _ all has_rf fresh 0%nat [] specs = Ok (concat cs) /\ Forall2 (copied has_rf) specs cs /\
    Forall2 (Forall2 (fun s b => block_of all gens s = Ok b)) cs lss /\ subs = concat (map (@concat spec) lss).
Proof.
  intros all has_rf fresh gens specs subs Fr H. unfold ui_specs in H. apply bind_ok in H. destruct H as (copies & Hc & H).
  apply bind_ok in H. destruct H as (l & Hl & H). inversion H; subst subs. destruct (collect_spec all has_rf fresh specs 0 [] copies Fr Hc) as (cs & -> & F).
  apply mapR_ok in Hl. destruct (forall2_concat _ _ _ cs l Hl) as (lss & -> & G). exists cs, lss.
  split; [exact Hc|]. split; [exact F|]. split; [exact G|]. apply concat_flat.
Qed.

Lemma ui_becomes : forall all has_rf fresh gens specs subs, calendar all -> Forall valid_spec specs -> (forall j, fresh j <> "") ->
  ui_specs _ _ _ all has_rf fresh gens specs = Ok subs ->
  exists pieces, subs = concat pieces /\ Forall2 (becomes _ _ _ all has_rf gens) specs pieces.
Proof.
  intros all has_rf fresh gens specs subs C Vs Fr H. destruct (ui_parts all has_rf fresh gens specs subs Fr H) as (cs & lss & _ & F & G & ->).
  exists (map (@concat spec) lss). split; [reflexivity|]. clear H. revert lss G. induction F as [|s c specs cs Hc F IH]; intros lss G.
  - apply f2_nil in G. subst. constructor.
  - apply f2_cons in G. destruct G as (y & l' & -> & G1 & G2). apply Forall_inv in Vs as Vs1. apply Forall_inv_tail in Vs.
    cbn [map]. constructor; [|apply IH; assumption]. clear IH F G2. destruct s as [f|p m|o sc mf r|o mn mx]; cbn [copied] in Hc; [| | |contradiction].
    + subst c. apply f2_cons in G1. destruct G1 as (b & w & -> & Hb & G1). apply f2_nil in G1. subst w. unfold block_of in Hb. cbn in Hb. inversion Hb; subst. reflexivity.
    + subst c. apply f2_cons in G1. destruct G1 as (b & w & -> & Hb & G1). apply f2_nil in G1. subst w. cbn [concat becomes]. rewrite app_nil_r.
      exact (block_broken all gens (SMarketing p m) b p C (Vs1 p eq_refl) eq_refl Hb).
    + destruct Hc as (o' & Rg & ->). pose proof (Vs1 (o_period o) eq_refl) as Vp. rewrite <- (proj1 Rg) in Vp. apply f2_cons in G1. destruct G1 as (b & w & -> & Hb & G1).
      cbn [becomes]. exists o', b, (concat w). split; [reflexivity|]. split; [exact Rg|]. split.
      * exact (block_broken all gens (SBudget o' sc mf r) b (o_period o') C Vp eq_refl Hb).
      * destruct has_rf; [|apply f2_nil in G1; subst w; reflexivity]. apply f2_cons in G1. destruct G1 as (b2 & w2 & -> & Hb2 & G1). apply f2_nil in G1. subst w2.
        cbn [concat]. rewrite app_nil_r. exact (block_broken all gens (SRf (rf_of o') 1 mf) b2 (o_period o') C Vp eq_refl Hb2).
Qed.

(** *** Groups *)
Definition group_fun (grp : spec -> list string) : Prop :=
  (forall f, grp (SFit f) = []) /\ (forall s j, grp (sub s j) = map (fun i => String.append i (String.append ":" (tag j))) (grp s)) /\
  (forall s, grp s = [] \/ exists i, grp s = [i]).

Definition year_ok (all : list date) := Forall (fun d => 1 <= year d) all.
Lemma place_tags : forall all l p s z e gens, calendar all -> good_dates all l p s z e -> NoDup gens ->
  NoDup (map tag (places l gens)) /\ forall j, In j (places l gens) -> free ":"%char (tag j).
Proof.
  intros all l p s z e gens C Gd ND. destruct (good_increasing all l p s z e C Gd) as (I & V & F & Bz). pose proof (good_intervals all l p s z e C Gd) as GI.
  rewrite Forall_forall in V. assert (Y : forall d, In d l -> 1 <= year d).
  { pose proof C as (_ & _ & Ya & _). rewrite Forall_forall in Ya. intros d Hd. apply F in Hd. destruct Hd as [Hd| ->]; [apply Ya; tauto|].
    destruct Gd as ((_ & Hz & _) & _). pose proof (Ya z Hz). destruct Bz as [B|[B _]]; lia. }
  assert (In_iv : forall g a b, In (a, b) (ivs l g) -> In a l /\ valid_date a /\ 1 <= year a).
  { intros g a b H. apply (GI g) in H. destruct H as (_ & A & _). auto. }
  split.
  - unfold places. cbn [map tag]. constructor.
    + intros H. apply in_map_iff in H. destruct H as (j & E & H). apply in_concat in H. destruct H as (x & Hx & Hj). apply in_map_iff in Hx.
      destruct Hx as (g & <- & Hg). apply in_map_iff in Hj. destruct Hj as (i & <- & _). cbn in E. discriminate.
    + induction gens as [|g gens IH]; [constructor|]. inversion ND; subst. cbn [map concat]. rewrite map_app. 
      assert (Own : NoDup (map tag (map (fun i => Some (g, i)) (ivs l g)))).
      { rewrite map_map. cbn [tag]. pose proof (GI g) as (_ & O & B). assert (Sub : forall i, In i (ivs l g) -> In i (ivs l g)) by auto.
        revert Sub O. generalize (ivs l g) at 1 3 4. intros x. induction x as [|[a b] x IHx]; intros Sub O; [constructor|]. cbn [map fst].
        apply StronglySorted_inv in O. destruct O as [O1 O2]. constructor; [|apply IHx; [intros i Hi; apply Sub; right; exact Hi|exact O1]].
        intros Hin. apply in_map_iff in Hin. destruct Hin as ([a2 b2] & E & Hin). cbn [fst] in E.
        assert (H1' : In (a, b) (ivs l g)) by (apply Sub; left; reflexivity). assert (H2' : In (a2, b2) (ivs l g)) by (apply Sub; right; exact Hin).
        destruct (In_iv g a b H1') as (_ & Va & Ya). destruct (In_iv g a2 b2 H2') as (La & Vb & Yb).
        apply tag_spec in E; [|assumption|assumption|lia|lia]. destruct E as [_ E]. rewrite Forall_forall in O2. specialize (O2 _ Hin). cbn in O2.
        apply B in H1'. destruct H1' as (_ & _ & _ & _ & _ & K). apply (K a2 La) in E. tauto. }
      assert (Disj : forall t, In t (map tag (map (fun i => Some (g, i)) (ivs l g))) -> ~ In t (map tag (concat (map (fun g0 => map (fun i => Some (g0, i)) (ivs l g0)) gens)))).
      { intros t H H'. apply in_map_iff in H. destruct H as (j & <- & H). apply in_map_iff in H. destruct H as ([a b] & <- & H). cbn [tag fst] in H'.
        apply in_map_iff in H'. destruct H' as (j' & E & H'). apply in_concat in H'. destruct H' as (y & Hy & Hj). apply in_map_iff in Hy.
        destruct Hy as (g' & <- & Hg'). apply in_map_iff in Hj. destruct Hj as ([a2 b2] & <- & Hi). cbn [tag fst] in E.
        destruct (In_iv g a b H) as (_ & Va & Ya). destruct (In_iv g' a2 b2 Hi) as (_ & Vb & Yb).
        apply tag_spec in E; [|assumption|assumption|lia|lia]. destruct E as [E _]. subst g'. contradiction. }
      apply nodup_app; [exact Own|exact (IH H2)|exact Disj].
  - intros [[g [a b]]|] H; [|cbn; repeat split; discriminate]. cbn [tag fst]. destruct H as [H|H]; [discriminate|].
    apply in_concat in H. destruct H as (x & Hx & Hj). apply in_map_iff in Hx. destruct Hx as (g' & <- & _). apply in_map_iff in Hj.
    destruct Hj as (i & E & Hi). inversion E; subst. destruct (In_iv g a b Hi) as (_ & Va & _). apply valid_iff in Va. apply tag_colon. tauto.
Qed.

Lemma groups_nodup : forall grp all gens copies blocks, group_fun grp -> calendar all -> NoDup gens -> Forall valid_spec copies ->
  Forall2 (fun s b => block_of all gens s = Ok b) copies blocks -> NoDup (flat_map grp copies) ->
  NoDup (flat_map grp (concat blocks)) /\
  forall x, In x (flat_map grp (concat blocks)) -> exists i t, In i (flat_map grp copies) /\ free ":"%char t /\ x = String.append i (String.append ":" t).
Proof.
  intros grp all gens copies blocks (GF & GS & GO) C ND Vs F. induction F as [|s b copies blocks Hb F IH]; intros N; [split; [constructor|intros x []]|].
  inversion Vs; subst. cbn [flat_map concat] in *. rewrite flat_map_app.
  assert (NR : NoDup (flat_map grp copies)) by (revert N; generalize (grp s); intros l; induction l as [|a l IHl]; intros N; [exact N|inversion N; auto]).
  destruct (IH H2 NR) as [I1 I2].
  assert (B : NoDup (flat_map grp b) /\ forall x, In x (flat_map grp b) -> exists i t, In i (grp s) /\ free ":"%char t /\ x = String.append i (String.append ":" t)).
  { destruct (period_of s) as [p|] eqn:Hp.
    - destruct (block_spec all gens s b p C (H1 p Hp) Hp Hb) as (l & s0 & z & e & _ & Gd & ->).
      destruct (place_tags all l p s0 z e gens C Gd ND) as [T1 T2].
      assert (E : flat_map grp (map (sub s) (places l gens)) = flat_map (fun j => map (fun i => String.append i (String.append ":" (tag j))) (grp s)) (places l gens)).
      { generalize (places l gens). intros x. induction x as [|j x IHx]; [reflexivity|]. cbn [map flat_map]. rewrite GS, IHx. reflexivity. }
      rewrite E. destruct (GO s) as [Z|[i Z]]; rewrite Z; cbn [map].
      + assert (Z0 : flat_map (fun _ : place => @nil string) (places l gens) = []) by (generalize (places l gens); intros x; induction x; [reflexivity|exact IHx]).
        rewrite Z0. split; [constructor|intros x []].
      + assert (Z1 : flat_map (fun j => [String.append i (String.append ":" (tag j))]) (places l gens) = map (fun t => String.append i (String.append ":" t)) (map tag (places l gens))).
        { generalize (places l gens). intros x. induction x as [|j x IHx]; [reflexivity|]. cbn [map flat_map app]. rewrite IHx. reflexivity. }
        rewrite Z1. split.
        * assert (T3 : forall t, In t (map tag (places l gens)) -> free ":"%char t) by (intros t Ht; apply in_map_iff in Ht; destruct Ht as (j & <- & Hj); exact (T2 j Hj)).
          revert T1 T3. generalize (map tag (places l gens)). intros ts T1 T3. induction T1 as [|t ts Nt T1 IHt]; [constructor|]. cbn [map]. constructor.
          -- intros H. apply in_map_iff in H. destruct H as (t' & E' & Ht'). apply group_inj in E'; [|apply T3; right; exact Ht'|apply T3; left; reflexivity].
             destruct E' as [_ E']. subst t'. contradiction.
          -- apply IHt. intros t' Ht'. apply T3. right. exact Ht'.
        * intros x Hx. apply in_map_iff in Hx. destruct Hx as (t & <- & Ht). exists i, t. split; [left; reflexivity|]. split; [|reflexivity].
          apply in_map_iff in Ht. destruct Ht as (j & <- & Hj). exact (T2 j Hj).
    - unfold block_of in Hb. rewrite Hp in Hb. inversion Hb; subst. destruct s as [f|p m|o sc mf r|o mn mx]; try discriminate. cbn [flat_map]. rewrite GF. split; [constructor|intros x []]. }
  destruct B as [B1 B2]. split.
  - apply nodup_app; [exact B1|exact I1|]. intros x Hx Hx'. destruct (B2 x Hx) as (i & t & Hi & Ft & Ex). destruct (I2 x Hx') as (i' & t' & Hi' & Ft' & Ex').
    rewrite Ex in Ex'. apply group_inj in Ex'; [|assumption|assumption]. destruct Ex' as [<- _]. destruct (GO s) as [Z|[w Z]]; rewrite Z in *; [destruct Hi|].
    destruct Hi as [<-|[]]. inversion N; subst. contradiction.
  - intros x Hx. apply in_app_iff in Hx. destruct Hx as [Hx|Hx].
    + destruct (B2 x Hx) as (i & t & Hi & Ft & Ex). exists i, t. split; [apply in_app_iff; left; exact Hi|]. auto.
    + destruct (I2 x Hx) as (i & t & Hi & Ft & Ex). exists i, t. split; [apply in_app_iff; right; exact Hi|]. auto.
Qed.

Definition bgrp (s : spec) : list string := match s with M_UiSpecs.SBudget _ _ _ o _ _ _ => [o_group o] | _ => [] end.
Definition rgrp (s : spec) : list string := match s with M_UiSpecs.SRf _ _ _ o _ _ => [o_group o] | _ => [] end.
Lemma bgrp_fun : group_fun bgrp.
Proof.
  split; [reflexivity|]. split; [intros [f|p m|o sc mf r|o mn mx] [[g i]|]; reflexivity|].
  intros [f|p m|o sc mf r|o mn mx]; [left; reflexivity|left; reflexivity|right; eexists; reflexivity|left; reflexivity].
Qed.
Lemma rgrp_fun : group_fun rgrp.
Proof.
  split; [reflexivity|]. split; [intros [f|p m|o sc mf r|o mn mx] [[g i]|]; reflexivity|].
  intros [f|p m|o sc mf r|o mn mx]; [left; reflexivity|left; reflexivity|left; reflexivity|right; eexists; reflexivity].
Qed.

(** Identifiers of the specs collected. *)
Lemma collect_groups : forall all has_rf fresh (specs : list spec) k seen copies,
  (forall i j, fresh i = fresh j -> i = j) -> (forall j, ~ In (fresh j) (given_groups Fit Marketing Rest specs)) -> collect _ _ _ all has_rf fresh k seen specs = Ok copies ->
  NoDup (flat_map bgrp copies) /\ (flat_map rgrp copies = if has_rf then flat_map bgrp copies else []) /\
  forall x, In x (flat_map bgrp copies) -> (In x (given_groups Fit Marketing Rest specs) /\ ~ In x seen) \/ exists j, (k <= j)%nat /\ x = fresh j.
Proof.
  intros all has_rf fresh specs. induction specs as [|s r IH]; intros k seen copies Inj Fr H; cbn [collect] in H.
  - inversion H; subst. cbn. split; [constructor|]. split; [destruct has_rf; reflexivity|intros x []].
  - apply bind_ok in H. destruct H as (u & Hk & H). apply bind_ok in H. destruct H as (u2 & Hd & H). destruct s as [f|p m|o sc mf rest|o mn mx]; [| | |discriminate].
    + apply bind_ok in H. destruct H as (cp & Hc & H). inversion H; subst. exact (IH k seen cp Inj Fr Hc).
    + apply bind_ok in H. destruct H as (cp & Hc & H). inversion H; subst. exact (IH k seen cp Inj Fr Hc).
    + cbv zeta in H. apply raise_ok in H. destruct H as [Hs H]. apply bind_ok in H. destruct H as (d & Hd2 & H). apply bind_ok in H. destruct H as (cp & Hc & H).
      inversion H; subst copies. clear H. unfold given_groups, budget_groups in *. cbn [flat_map app filter] in Fr |- *.
      assert (D : flat_map bgrp d = [] /\ flat_map rgrp d = if has_rf then [o_group (if negb (String.eqb (o_group o) "") then o else mkOpt (o_period o) (o_name o) (o_grid o) (fresh k) (o_level o))] else []).
      { destruct has_rf; [|inversion Hd2; split; reflexivity]. apply bind_ok in Hd2. destruct Hd2 as (y & Hy & Hd2). inversion Hd2; subst.
        unfold derive_rf in Hy. apply raise_ok in Hy. destruct Hy as [_ Hy]. inversion Hy; subst. split; reflexivity. }
      destruct D as [D1 D2]. cbn [flat_map bgrp rgrp app]. rewrite !flat_map_app, D1, D2.
      destruct (String.eqb_spec (o_group o) "") as [E|E]; cbn [negb andb] in *; cbn [o_group app].
      * destruct (IH (S k) seen cp Inj Fr Hc) as (A & B & Cx). split; [|split].
        -- constructor; [|exact A]. intros Hin. destruct (Cx _ Hin) as [[G _]|(j & Hj & Ej)]; [exact (Fr k G)|]. apply Inj in Ej. lia.
        -- rewrite B. destruct has_rf; reflexivity.
        -- intros x [<-|Hx]; [right; exists k; split; [lia|reflexivity]|]. destruct (Cx x Hx) as [G|(j & Hj & Ej)]; [left; exact G|]. right. exists j. split; [lia|exact Ej].
      * assert (Fr' : forall j, ~ In (fresh j) (filter (fun g => negb (String.eqb g "")) (flat_map (fun s => match s with M_UiSpecs.SBudget _ _ _ o _ _ _ => [o_group o] | _ => [] end) r))) by (intros j Hj; apply (Fr j); right; exact Hj).
        destruct (IH k (o_group o :: seen) cp Inj Fr' Hc) as (A & B & Cx). apply not_true_iff_false in Hs. rewrite mem_in in Hs. split; [|split].
        -- constructor; [|exact A]. intros Hin. destruct (Cx _ Hin) as [[_ G]|(j & Hj & Ej)]; [apply G; left; reflexivity|]. apply (Fr j). left. exact Ej.
        -- rewrite B. destruct has_rf; reflexivity.
        -- intros x [<-|Hx]; [left; split; [left; reflexivity|exact Hs]|]. destruct (Cx x Hx) as [[G1 G2]|G]; [left; split; [right; exact G1|intros Hi; apply G2; right; exact Hi]|right; exact G].
Qed.

Lemma copied_valid : forall has_rf specs cs, Forall valid_spec specs -> Forall2 (copied has_rf) specs cs -> Forall valid_spec (concat cs).
Proof.
  intros has_rf specs cs V F. induction F as [|s c specs cs Hc F IH]; [constructor|]. inversion V; subst. cbn [concat]. apply Forall_app. split; [|apply IH; assumption].
  destruct s as [f|p m|o sc mf r|o mn mx]; cbn [copied] in Hc; [subst c; repeat constructor; exact H1|subst c; repeat constructor; exact H1| |contradiction].
  destruct Hc as (o' & Rg & ->). assert (Vo : forall p, Some (o_period o') = Some p -> valid_period p).
  { intros p Hp. apply (H1 p). rewrite (proj1 Rg) in Hp. exact Hp. }
  constructor; [exact Vo|]. destruct has_rf; constructor; [exact Vo|constructor].
Qed.

Lemma ui_groups : forall all has_rf fresh gens specs subs, calendar all -> NoDup gens -> Forall valid_spec specs -> unique_source _ _ _ fresh specs ->
  ui_specs _ _ _ all has_rf fresh gens specs = Ok subs -> NoDup (budget_groups _ _ _ subs) /\ NoDup (rf_groups _ _ _ subs).
Proof.
  intros all has_rf fresh gens specs subs C ND Vs [Inj Fr] H. assert (Fr0 : forall j, fresh j <> "") by (intros j; apply Fr).
  destruct (ui_parts all has_rf fresh gens specs subs Fr0 H) as (cs & lss & Hc & F & G & ->). clear H.
  rewrite <- concat_flat. assert (G' : Forall2 (fun s b => block_of all gens s = Ok b) (concat cs) (concat lss)).
  { clear -G. induction G; [constructor|]. cbn. apply Forall2_app; assumption. }
  destruct (collect_groups all has_rf fresh specs 0 [] (concat cs) Inj (fun j => proj2 (Fr j)) Hc) as (A & B & _).
  pose proof (copied_valid has_rf specs cs Vs F) as Vc. split.
  - exact (proj1 (groups_nodup bgrp all gens _ _ bgrp_fun C ND Vc G' A)).
  - assert (A' : NoDup (flat_map rgrp (concat cs))) by (rewrite B; destruct has_rf; [exact A|constructor]).
    exact (proj1 (groups_nodup rgrp all gens _ _ rgrp_fun C ND Vc G' A')).
Qed.

(** *** Pairs *)
Definition paired (b r : spec) : Prop :=
  exists o o', opt_of _ _ _ b = Some o /\ opt_of _ _ _ r = Some o' /\ o_period o' = o_period o /\ o_group o' = o_group o /\ o_level o' = o_level o.
Lemma kind_sub : forall s j k, is_kind _ _ _ k (sub s j) = is_kind _ _ _ k s.
Proof. intros [f|p m|o sc mf r|o mn mx] [[g i]|] k; reflexivity. Qed.
Lemma filter_sub : forall s k l, filter (is_kind _ _ _ k) (map (sub s) l) = if is_kind _ _ _ k s then map (sub s) l else [].
Proof.
  intros s k l. induction l as [|j l IH]; [destruct (is_kind _ _ _ k s); reflexivity|]. cbn [map filter]. rewrite kind_sub, IH. destruct (is_kind _ _ _ k s); reflexivity.
Qed.

Lemma ui_paired : forall all has_rf fresh gens specs subs, calendar all -> Forall valid_spec specs -> (forall j, fresh j <> "") ->
  ui_specs _ _ _ all has_rf fresh gens specs = Ok subs ->
  if has_rf then Forall2 paired (filter (is_kind _ _ _ KBudget) subs) (filter (is_kind _ _ _ KRf) subs) else filter (is_kind _ _ _ KRf) subs = [].
Proof.
  intros all has_rf fresh gens specs subs C Vs Fr H. destruct (ui_parts all has_rf fresh gens specs subs Fr H) as (cs & lss & _ & F & G & ->).
  clear H. revert lss G. induction F as [|s c specs cs Hc F IH]; intros lss G.
  { apply f2_nil in G. subst. destruct has_rf; [constructor|reflexivity]. }
  apply f2_cons in G. destruct G as (y & l' & -> & G1 & G2). apply Forall_inv in Vs as Vs1. apply Forall_inv_tail in Vs.
  specialize (IH Vs l' G2). cbn [map concat]. rewrite !filter_app.
  assert (P : if has_rf then Forall2 paired (filter (is_kind _ _ _ KBudget) (concat y)) (filter (is_kind _ _ _ KRf) (concat y)) else filter (is_kind _ _ _ KRf) (concat y) = []).
  { clear IH F G2. destruct s as [f|p m|o sc mf r|o mn mx]; cbn [copied] in Hc; [| | |contradiction].
    - subst c. apply f2_cons in G1. destruct G1 as (b & w & -> & Hb & G1). apply f2_nil in G1. subst w. unfold block_of in Hb. cbn in Hb. inversion Hb; subst. destruct has_rf; [constructor|reflexivity].
    - subst c. apply f2_cons in G1. destruct G1 as (b & w & -> & Hb & G1). apply f2_nil in G1. subst w.
      destruct (block_spec all gens (SMarketing p m) b p C (Vs1 p eq_refl) eq_refl Hb) as (l & s0 & z & e & _ & Gd & ->).
      cbn [concat]. rewrite app_nil_r, !filter_sub. destruct has_rf; [constructor|reflexivity].
    - destruct Hc as (o' & Rg & ->). pose proof (Vs1 (o_period o) eq_refl) as Vp. rewrite <- (proj1 Rg) in Vp. apply f2_cons in G1. destruct G1 as (b & w & -> & Hb & G1).
      destruct (block_spec all gens (SBudget o' sc mf r) b (o_period o') C Vp eq_refl Hb) as (l & s0 & z & e & El & Gd & ->).
      destruct has_rf.
      + apply f2_cons in G1. destruct G1 as (b2 & w2 & -> & Hb2 & G1). apply f2_nil in G1. subst w2.
        destruct (block_spec all gens (SRf (rf_of o') 1 mf) b2 (o_period o') C Vp eq_refl Hb2) as (l2 & s2 & z2 & e2 & El2 & Gd2 & ->).
        assert (l2 = l) by congruence. subst l2. cbn [concat]. rewrite app_nil_r, !filter_app, !filter_sub. cbn [is_kind kind_of kind_eqb]. cbn [app]. rewrite app_nil_r.
        generalize (places l gens). intros x. induction x as [|j x IHx]; cbn [map]; constructor; [|exact IHx].
        destruct j as [[g i]|]; do 2 eexists; (split; [reflexivity|]; split; [reflexivity|]; repeat split; reflexivity).
      + apply f2_nil in G1. subst w. cbn [concat]. rewrite app_nil_r, filter_sub. reflexivity. }
  destruct has_rf; [apply Forall2_app; assumption|]. rewrite P, IH. reflexivity.
Qed.

(** *** Acceptance *)
Lemma block_total : forall all gens s, calendar all -> valid_spec s ->
  match period_of s with Some p => exists a z e, bounds all p a z e | None => True end -> exists b, block_of all gens s = Ok b.
Proof.
  intros all gens s C V H. unfold block_of. destruct (period_of s) as [p|] eqn:Hp; [|eexists; reflexivity].
  destruct H as (a & z & e & Bd). destruct (enumerate_total all p a z e C (V p Hp) Bd) as [l El]. rewrite El. cbn [rbind].
  destruct (enumerate_ok all p l C (V p Hp) El) as (a2 & z2 & e2 & Gd). eexists. apply create_eq. intros g. exists (ivs l g).
  exact (proj1 (good_intervals all l p a2 z2 e2 C Gd g)).
Qed.

Lemma given_cons : forall o sc mf (r : Rest) specs, o_group o <> "" -> given_groups _ _ _ (SBudget o sc mf r :: specs) = o_group o :: given_groups _ _ _ specs.
Proof. intros. unfold given_groups. cbn. destruct (String.eqb_spec (o_group o) ""); [contradiction|reflexivity]. Qed.
Lemma given_none : forall o sc mf (r : Rest) specs, o_group o = "" -> given_groups _ _ _ (SBudget o sc mf r :: specs) = given_groups _ _ _ specs.
Proof. intros. unfold given_groups. cbn. rewrite H. reflexivity. Qed.

Lemma qlt_one : forall m, (1 <= m)%Q <-> Qlt_bool m 1 = false.
Proof. intros m. rewrite Qlt_bool_false. reflexivity. Qed.

Lemma collect_total : forall all has_rf fresh (specs : list spec) k seen, calendar all -> Forall (acceptable Fit Marketing Rest all has_rf) specs -> NoDup (given_groups Fit Marketing Rest specs) ->
  (forall x, In x seen -> ~ In x (given_groups Fit Marketing Rest specs)) -> exists copies, collect _ _ _ all has_rf fresh k seen specs = Ok copies.
Proof.
  intros all has_rf fresh specs. induction specs as [|s r IH]; intros k seen C A N D; [eexists; reflexivity|]. inversion A; subst. destruct H1 as (K & P & M).
  cbn [collect]. destruct s as [f|p m|o sc mf rest|o mn mx]; [| | |contradiction]; cbn [rbind M_UiSpecs.period_of] in *.
  - destruct (IH k seen C H2 N D) as [cp ->]. eexists; reflexivity.
  - destruct P as (a & z & e & Bd). rewrite (check_dates_ok all p a z e C Bd). cbn [rbind]. destruct (IH k seen C H2 N D) as [cp ->]. eexists; reflexivity.
  - destruct P as (a & z & e & Bd). rewrite (check_dates_ok all _ a z e C Bd). cbn [rbind]. cbv zeta.
    destruct (String.eqb_spec (o_group o) "") as [E|E]; cbn [negb andb raise_if].
    + rewrite given_none in N, D by exact E.
      assert (Dd : forall o', exists d, (if has_rf then rbind (derive_rf Fit Marketing Rest o' mf) (fun d => Ok [d]) else Ok []) = Ok d).
      { intros o'. destruct has_rf; [|eexists; reflexivity]. unfold derive_rf. destruct mf as [q|]; cbn; [rewrite (proj1 (qlt_one q) (M eq_refl))|]; eexists; reflexivity. }
      destruct (Dd (mkOpt (o_period o) (o_name o) (o_grid o) (fresh k) (o_level o))) as [d ->]. cbn [rbind].
      destruct (IH (S k) seen C H2 N D) as [cp ->]. eexists; reflexivity.
    + rewrite given_cons in N, D by exact E. apply NoDup_cons_iff in N. destruct N as [N1 N2].
      assert (Ms : mem (o_group o) seen = false). { apply not_true_iff_false. rewrite mem_in. intros Hin. apply (D _ Hin). left. reflexivity. }
      rewrite Ms. cbn [raise_if].
      assert (Dd : forall o', exists d, (if has_rf then rbind (derive_rf Fit Marketing Rest o' mf) (fun d => Ok [d]) else Ok []) = Ok d).
      { intros o'. destruct has_rf; [|eexists; reflexivity]. unfold derive_rf. destruct mf as [q|]; cbn; [rewrite (proj1 (qlt_one q) (M eq_refl))|]; eexists; reflexivity. }
      destruct (Dd o) as [d ->]. cbn [rbind].
      destruct (IH k (o_group o :: seen) C H2 N2) as [cp ->]; [|eexists; reflexivity]. intros x [<-|Hx]; [exact N1|]. intros Hi. apply (D x Hx). right. exact Hi.
Qed.

Lemma collect_given : forall all has_rf fresh (specs : list spec) k seen copies, collect _ _ _ all has_rf fresh k seen specs = Ok copies ->
  NoDup (given_groups Fit Marketing Rest specs) /\ (forall x, In x seen -> ~ In x (given_groups Fit Marketing Rest specs)) /\
  Forall (fun s : spec => match s with M_UiSpecs.SBudget _ _ _ _ _ (Some m) _ => has_rf = true -> (1 <= m)%Q | _ => True end) specs.
Proof.
  intros all has_rf fresh specs. induction specs as [|s r IH]; intros k seen copies H; cbn [collect] in H.
  - split; [constructor|]. split; [intros x _ []|constructor].
  - apply bind_ok in H. destruct H as (u & Hk & H). apply bind_ok in H. destruct H as (u2 & Hd & H). destruct s as [f|p m|o sc mf rest|o mn mx]; [| | |discriminate].
    + apply bind_ok in H. destruct H as (cp & Hc & H). destruct (IH k seen cp Hc) as (A & B & D). split; [exact A|]. split; [exact B|constructor; [exact Logic.I|exact D]].
    + apply bind_ok in H. destruct H as (cp & Hc & H). destruct (IH k seen cp Hc) as (A & B & D). split; [exact A|]. split; [exact B|constructor; [exact Logic.I|exact D]].
    + cbv zeta in H. apply raise_ok in H. destruct H as [Hs H]. apply bind_ok in H. destruct H as (d & Hd2 & H). apply bind_ok in H. destruct H as (cp & Hc & H).
      assert (Mf : match mf with Some m => has_rf = true -> (1 <= m)%Q | None => True end).
      { destruct mf as [q|]; [|exact Logic.I]. intros ->. apply bind_ok in Hd2. destruct Hd2 as (y & Hy & _). unfold derive_rf in Hy. apply raise_ok in Hy.
        apply qlt_one. exact (proj1 Hy). }
      assert (Mf' : match SBudget o sc mf rest with M_UiSpecs.SBudget _ _ _ _ _ (Some m) _ => has_rf = true -> (1 <= m)%Q | _ => True end) by exact Mf.
      destruct (String.eqb_spec (o_group o) "") as [E|E]; cbn [negb andb] in *.
      * rewrite given_none by exact E. destruct (IH _ _ cp Hc) as (A & B & D). split; [exact A|]. split; [exact B|constructor; [exact Mf'|exact D]].
      * rewrite given_cons by exact E. destruct (IH _ _ cp Hc) as (A & B & D). apply not_true_iff_false in Hs. rewrite mem_in in Hs.
        split; [constructor; [apply B; left; reflexivity|exact A]|]. split; [|constructor; [exact Mf'|exact D]].
        intros x Hx [<-|Hi]; [contradiction|]. apply (B x); [right; exact Hx|exact Hi].
Qed.

Lemma ui_accepted : forall all has_rf fresh gens specs, calendar all -> Forall valid_spec specs -> (forall j, fresh j <> "") ->
  ((exists subs, ui_specs _ _ _ all has_rf fresh gens specs = Ok subs) <-> Forall (acceptable Fit Marketing Rest all has_rf) specs /\ NoDup (given_groups Fit Marketing Rest specs)).
Proof.
  intros all has_rf fresh gens specs C Vs Fr. split.
  - intros [subs H]. destruct (ui_parts all has_rf fresh gens specs subs Fr H) as (cs & lss & Hc & F & G & _).
    destruct (collect_given all has_rf fresh specs 0 [] _ Hc) as (A & _ & M). split; [|exact A]. clear A H Hc.
    revert lss G Vs M. induction F as [|s c specs cs Hc F IH]; intros lss G Vs M; [constructor|]. apply f2_cons in G. destruct G as (y & l' & -> & G1 & G2).
    apply Forall_inv in Vs as Vs1. apply Forall_inv_tail in Vs. apply Forall_inv in M as M1. apply Forall_inv_tail in M.
    constructor; [|exact (IH l' G2 Vs M)]. clear IH. unfold acceptable.
    split; [destruct s; try exact Logic.I; contradiction|]. split; [|destruct s; try exact Logic.I; exact M1].
    destruct s as [f|p m|o sc mf r|o mn mx]; cbn [copied] in Hc; [exact Logic.I| | |contradiction]; cbn [M_UiSpecs.period_of].
    + subst c. apply f2_cons in G1. destruct G1 as (b & w & -> & Hb & G1).
      destruct (block_spec all gens (SMarketing p m) b p C (Vs1 p eq_refl) eq_refl Hb) as (l & a & z & e & _ & Gd & _). exists a, z, e. exact (proj1 Gd).
    + destruct Hc as (o' & Rg & ->). pose proof (Vs1 (o_period o) eq_refl) as Vp. rewrite <- (proj1 Rg) in Vp |- *. apply f2_cons in G1. destruct G1 as (b & w & -> & Hb & G1).
      destruct (block_spec all gens (SBudget o' sc mf r) b _ C Vp eq_refl Hb) as (l & a & z & e & _ & Gd & _). exists a, z, e. exact (proj1 Gd).
  - intros [A N]. destruct (collect_total all has_rf fresh specs 0 [] C A N ltac:(intros x [])) as [copies Hc].
    destruct (collect_spec all has_rf fresh specs 0 [] copies Fr Hc) as (cs & -> & F). unfold ui_specs. rewrite Hc. cbn [rbind].
    destruct (mapR_total _ _ (block_of all gens) (concat cs)) as [m Hm]; [|change (fun s => match period_of s with Some p => _ | None => _ end) with (block_of all gens); rewrite Hm; eexists; reflexivity].
    assert (AC : Forall (fun s => exists b, block_of all gens s = Ok b) (concat cs)).
    { clear Hc N. induction F as [|s c specs cs Hc F IH]; [constructor|]. inversion A; subst. inversion Vs; subst. cbn [concat]. apply Forall_app. split; [|apply IH; assumption].
      destruct H1 as (_ & P & _). destruct s as [f|p m|o sc mf r|o mn mx]; cbn [copied] in Hc; [subst c; repeat constructor; eexists; reflexivity| | |contradiction].
      - subst c. constructor; [|constructor]. apply block_total; assumption.
      - destruct Hc as (o' & Rg & ->). cbn [M_UiSpecs.period_of] in P. rewrite <- (proj1 Rg) in P. pose proof (H3 (o_period o) eq_refl) as Vp. rewrite <- (proj1 Rg) in Vp.
        assert (Vo : forall p, Some (o_period o') = Some p -> valid_period p) by (intros p Hp; inversion Hp; subst; exact Vp).
        constructor; [apply block_total; [exact C|exact Vo|exact P]|]. destruct has_rf; constructor; [apply block_total; [exact C|exact Vo|exact P]|constructor]. }
    rewrite Forall_forall in AC. exact AC.
Qed.
End Specs.
