(** Property C72: what input data are accepted. *)
From Coq Require Import Reals ZArith String List Bool Lia Lra Sorted.
From Verif Require Import M_Base M_Time S_Time P_Time M_InputData S_InputData P_InputData.
Import ListNotations.
Local Open Scope string_scope.
Local Open Scope nat_scope.
Local Open Scope list_scope.

(** Input data are accepted exactly when they are acceptable. *)
Theorem C72_accepts : forall d, (exists d', new_input d = Ok d') <-> acceptable d.
Proof.
  intros d. rewrite <- accepts. split; [|intros H; exists (validate_scenarios d); exact H].
  intros (d' & H). pose proof (proj1 (new_input_inv d d') H) as [E _]. subst d'. exact H.
Qed.
Print Assumptions C72_accepts.

(** They are kept as given, the revenue per KPI being one if the KPI is revenue. *)
Theorem C72_kept : forall d d', new_input d = Ok d' -> with_ones d d'.
Proof.
  intros d d' H. apply new_input_inv in H. destruct H as [-> _].
  destruct (string_dec (i_kpi_type d) "revenue") as [E|E]; [apply scenarios_revenue; exact E|].
  left. split; [apply scenarios_other; exact E|exact E].
Qed.
Print Assumptions C72_kept.

(** Everything else is refused with ValueError. *)
Theorem C72_refused : forall d, ~ acceptable d -> new_input d = Err ValueError.
Proof.
  intros d H. destruct (new_input d) as [d'|e] eqn:E.
  - exfalso. apply H. apply C72_accepts. exists d'. exact E.
  - rewrite (new_input_fine d e E). reflexivity.
Qed.
Print Assumptions C72_refused.

(** Constructing the data once more ([InputData.copy]) changes nothing. *)
Theorem C72_copy : forall d d', new_input d = Ok d' -> m_geos (i_kpi d) <> [] -> new_input d' = Ok d'.
Proof.
  intros d d' H Hg. pose proof H as H0. apply new_input_inv in H. destruct H as (E & N & K & Hr).
  destruct (string_dec (i_kpi_type d) "revenue") as [T|T].
  - assert (Same : validate_scenarios d' = d').
    { subst d'. unfold validate_scenarios at 2 3. rewrite T. cbn [String.eqb Ascii.eqb Bool.eqb]. reflexivity. }
    apply new_input_inv. rewrite Same. split; [reflexivity|].
    assert (F : i_kpi d' = i_kpi d /\ i_kpi_type d' = "revenue" /\ i_population d' = i_population d /\ panels d' = panels d /\
      [i_media_spend d'; i_rf_spend d'] = [i_media_spend d; i_rf_spend d] /\ i_rpk d' = Some (ones (i_kpi d))).
    { subst d'. unfold validate_scenarios. rewrite T. cbn [String.eqb Ascii.eqb Bool.eqb]. repeat split; assumption. }
    destruct F as (F1 & F2 & F3 & F4 & F5 & F6). split; [|split; [|exact Hr]].
    + apply nas_ok. intros x Hx. pose proof (proj1 (nas_ok d) N) as Nd. unfold entry_of in *. rewrite F1, F3, F4, F5, F6 in Hx.
      destruct Hx as [Hx|[Hx|[(m & Em & Hx)|[Hx|Hx]]]]; [apply Nd; tauto|apply Nd; tauto| |apply Nd; tauto|apply Nd; tauto].
      assert (m = ones (i_kpi d)) by congruence. subst m. destruct Hx as (i & j & _ & _ & ->). discriminate.
    + apply kpi_ok. split; [left; exact F2|]. rewrite F6. intros m Em. assert (m = ones (i_kpi d)) by congruence. subst m.
      assert (A : acceptable d) by (apply C72_accepts; exists d'; exact H0).
      destruct A as (_ & _ & _ & _ & _ & _ & _ & _ & _ & _ & _ & (L & _) & _).
      exists (Some 1%R). split; [|intros X; assert (1 = 0)%R by congruence; lra].
      exists 0, 0. cbn [ones m_geos m_times m_at]. destruct (m_geos (i_kpi d)); [contradiction|cbn [length]]. repeat split; lia.
  - rewrite (scenarios_other d T) in E. subst d'. exact H0.
Qed.
Print Assumptions C72_copy.

(** *** Examples and what is not checked *)

(** Two geos, one media channel and one RF channel, all numbers one. *)
Definition ex_panel (geos : list string) (times : list date) (names : list string) : panel := mkPanel geos times names (fun _ _ _ => Some 1%R).
Definition ex_input (type : string) (times control_times media_times reach_times : list date) (spend : option spend) : input :=
  let g := ["x"; "y"] in
  mkInput (mkMatrix g times (fun _ _ => Some 1%R)) type (mkVector g (fun _ => Some 1%R)) (Some (ex_panel g control_times ["temperature"]))
    None (Some (ex_panel g media_times ["tv"])) spend (Some (ex_panel g reach_times ["video"])) (Some (ex_panel g reach_times ["video"]))
    (Some (SpendTotal ["video"] (fun _ => Some 1%R))) None None None None None.
Definition one_spend (s : spend) : Prop := spend_names s = ["tv"] /\ forall x, in_spend s x -> x = Some 1%R.
Lemma ex_acceptable : forall type times ct mt rt sp, (type = "revenue" \/ type = "non_revenue") ->
  (forall s, sp = Some s -> one_spend s) -> length ct = length times -> length times <= length mt -> length times <= length rt ->
  evenly_spaced times -> evenly_spaced mt -> acceptable (ex_input type times ct mt rt sp).
Proof.
  intros type times ct mt rt sp Ht Hs Lc Lm Lr Et Em.
  assert (P : forall g t n x, in_panel (ex_panel g t n) x -> x = Some 1%R) by (intros g t n x (i & j & k & _ & _ & _ & ->); reflexivity).
  assert (Q : forall x, entry_of (ex_input type times ct mt rt sp) x -> x = Some 1%R).
  { intros x [(i & j & _ & _ & ->)|[(i & _ & ->)|[(m & E & _)|[(p & E & F)|(s & E & F)]]]]; [reflexivity|reflexivity|discriminate| |].
    - cbn [ex_input panels In i_controls i_media i_reach i_frequency i_organic_media i_organic_reach i_organic_frequency i_non_media] in E.
      destruct E as [E|[E|[E|[E|[E|[E|[E|[E|[]]]]]]]]]; try discriminate;
        match type of E with Some ?q = _ => assert (p = q) by congruence; subst p; exact (P _ _ _ _ F) end.
    - cbn [ex_input In i_media_spend i_rf_spend] in E. destruct E as [E|[E|[]]]; [exact (proj2 (Hs s E) x F)|].
      assert (s = SpendTotal ["video"] (fun _ => Some 1%R)) by congruence. subst s. destruct F as (k & _ & ->). reflexivity. }
  unfold acceptable. split; [exact Ht|]. split; [intros m E; discriminate|].
  split; [intros x Hx; rewrite (Q x Hx); discriminate|].
  split. { intros x Hx. assert (E : Some x = Some 1%R).
    { apply Q. unfold signed_entry in Hx. unfold entry_of. destruct Hx as [Hx|[(_ & m & E & _)|[(p & E & F)|Hx]]]; [tauto|discriminate| |tauto].
      do 3 right. left. exists p. split; [|exact F]. cbn [ex_input panels In i_controls i_media i_reach i_frequency i_organic_media i_organic_reach i_organic_frequency i_non_media] in *. tauto. }
    assert (x = 1%R) by congruence. subst. lra. }
  split; [repeat constructor; cbn; intuition discriminate|]. split; [reflexivity|].
  assert (Pn : forall p, In (Some p) (panels (ex_input type times ct mt rt sp)) -> p = ex_panel ["x"; "y"] ct ["temperature"] \/ p = ex_panel ["x"; "y"] mt ["tv"] \/ p = ex_panel ["x"; "y"] rt ["video"]).
  { intros p E. cbn [ex_input panels In i_controls i_media i_reach i_frequency i_organic_media i_organic_reach i_organic_frequency i_non_media] in E.
    destruct E as [E|[E|[E|[E|[E|[E|[E|[E|[]]]]]]]]]; try discriminate; [left|right; left|right; right|right; right]; congruence. }
  split. { intros p Hp. destruct (Pn p Hp) as [->|[->| ->]]; reflexivity. }
  split; [intros m _ E; discriminate|].
  split. { intros p E. cbn [ex_input In i_controls i_non_media] in E. destruct E as [E|[E|[]]]; [|discriminate].
    assert (p = ex_panel ["x"; "y"] ct ["temperature"]) by congruence. subst p. exact Lc. }
  split; [intros m _ E; discriminate|].
  split. { intros p E. cbn [ex_input media_panels In i_media i_reach i_frequency i_organic_media i_organic_reach i_organic_frequency i_kpi m_times] in *.
    destruct E as [E|[E|[E|[E|[E|[E|[]]]]]]]; try discriminate;
      match type of E with Some ?q = _ => assert (p = q) by congruence; subst p; assumption end. }
  split; [exact Et|]. split. { intros p E. cbn [ex_input i_media] in E. assert (p = ex_panel ["x"; "y"] mt ["tv"]) by congruence. subst p. exact Em. }
  split; [intros p E; discriminate|]. split; [left; discriminate|].
  split. { intros a b E1 E2. cbn [ex_input i_media i_media_spend] in *. assert (a = ex_panel ["x"; "y"] mt ["tv"]) by congruence. subst a.
    rewrite (proj1 (Hs b E2)). reflexivity. }
  assert (V : forall a, Some (ex_panel ["x"; "y"] rt ["video"]) = Some a -> p_names a = ["video"]).
  { intros a E. assert (a = ex_panel ["x"; "y"] rt ["video"]) by congruence. subst. reflexivity. }
  assert (W : forall b, Some (SpendTotal ["video"] (fun _ => Some 1%R)) = Some b -> spend_names b = ["video"]).
  { intros b E. assert (b = SpendTotal ["video"] (fun _ => Some 1%R)) by congruence. subst. reflexivity. }
  split; [intros a b E1 E2; rewrite (V a E1), (V b E2); reflexivity|].
  split; [intros a b E1 E2; rewrite (V a E1), (W b E2); reflexivity|].
  split; [intros a b E1 E2; rewrite (V a E1), (W b E2); reflexivity|].
  split; [intros a b E1 E2; discriminate|]. cbn. repeat constructor; cbn; intuition discriminate.
Qed.

Definition day1 := mkDate 2024 1 1.  Definition day2 := mkDate 2024 1 8.  Definition day3 := mkDate 2024 1 15.
Definition old1 := mkDate 2020 1 6.  Definition old2 := mkDate 2020 1 13. Definition old3 := mkDate 2020 1 20.
Lemma weekly : evenly_spaced [day1; day2; day3] /\ evenly_spaced [day2; day3] /\ evenly_spaced [old1; old2; old3] /\ evenly_spaced [day1; day1].
Proof.
  assert (H : forall l, (2 <= length l)%nat -> nondecreasing l = true -> (forall x, In x (intervals l) -> x = hd 0%Z (intervals l)) -> evenly_spaced l).
  { intros l H1 H2 H3. split; [exact H1|]. split; [apply nondecreasing_iff; exact H2|]. left. eexists. exact H3. }
  repeat split; try (cbn; lia); try (apply nondecreasing_iff; reflexivity); left; (exists 7%Z + exists 0%Z);
    cbv [intervals ordinal]; cbn; intuition lia.
Qed.

(** The hypotheses of [C72_accepts] and [C72_copy] are met. *)
Example C72_example : acceptable (ex_input "revenue" [day2; day3] [day2; day3] [day1; day2; day3] [day2; day3] (Some (SpendTotal ["tv"] (fun _ => Some 1%R)))) /\
  ~ acceptable (ex_input "sales" [day2; day3] [day2; day3] [day1; day2; day3] [day2; day3] None).
Proof.
  split.
  - apply ex_acceptable; try (cbn; lia); try apply weekly; [tauto|]. intros s E.
    assert (s = SpendTotal ["tv"] (fun _ => Some 1%R)) by congruence. subst s. split; [reflexivity|]. intros x (k & _ & ->). reflexivity.
  - intros [[E|E] _]; discriminate.
Qed.
Print Assumptions C72_example.

(** The documentation requires that the final media periods are the periods of the KPI and that the
    controls are for the same periods: neither is checked. *)
Theorem C72_dates_refuted :
  ~ (forall d d', new_input d = Ok d' ->
      (forall p, i_media d = Some p -> exists early, p_times p = early ++ m_times (i_kpi d)) /\
      (forall p, i_controls d = Some p -> p_times p = m_times (i_kpi d))).
Proof.
  intros H. set (d := ex_input "non_revenue" [day2; day3] [old1; old2] [old1; old2; old3] [day2; day3] None).
  assert (A : acceptable d) by (apply ex_acceptable; try (cbn; lia); try apply weekly; [tauto|discriminate]).
  apply C72_accepts in A. destruct A as (d' & E). destruct (H d d' E) as [_ H2]. specialize (H2 _ eq_refl). discriminate.
Qed.
Print Assumptions C72_dates_refuted.
Theorem C72_media_dates_refuted :
  ~ (forall d d', new_input d = Ok d' -> forall p t, i_media d = Some p -> In t (m_times (i_kpi d)) -> In t (p_times p)).
Proof.
  intros H. set (d := ex_input "non_revenue" [day2; day3] [day2; day3] [old1; old2; old3] [day2; day3] None).
  assert (A : acceptable d) by (apply ex_acceptable; try (cbn; lia); try apply weekly; [tauto|discriminate]).
  apply C72_accepts in A. destruct A as (d' & E). specialize (H d d' E _ day2 eq_refl (or_introl eq_refl)).
  cbn in H. intuition discriminate.
Qed.
Print Assumptions C72_media_dates_refuted.

(** "If either of [media] and [media_spend] is passed, the other is not optional": not checked. *)
Theorem C72_spend_refuted : ~ (forall d d', new_input d = Ok d' -> i_media d <> None -> i_media_spend d <> None).
Proof.
  intros H. set (d := ex_input "non_revenue" [day2; day3] [day2; day3] [day1; day2; day3] [day2; day3] None).
  assert (A : acceptable d) by (apply ex_acceptable; try (cbn; lia); try apply weekly; [tauto|discriminate]).
  apply C72_accepts in A. destruct A as (d' & E). apply (H d d' E); [discriminate|reflexivity].
Qed.
Print Assumptions C72_spend_refuted.

(** Spend by geo may be for other geos and other periods, and media and reach may have different numbers of
    periods. *)
Theorem C72_spend_geos_refuted :
  ~ (forall d d' p, new_input d = Ok d' -> i_media_spend d = Some (SpendPanel p) ->
       p_geos p = m_geos (i_kpi d) /\ length (p_times p) = length (m_times (i_kpi d))) /\
  ~ (forall d d' p q, new_input d = Ok d' -> i_media d = Some p -> i_reach d = Some q -> length (p_times p) = length (p_times q)).
Proof.
  set (sp := ex_panel ["elsewhere"] [old1] ["tv"]).
  set (d := ex_input "non_revenue" [day2; day3] [day2; day3] [day1; day2; day3] [day2; day3] (Some (SpendPanel sp))).
  assert (A : acceptable d).
  { apply ex_acceptable; try (cbn; lia); try apply weekly; [tauto|]. intros s E. assert (s = SpendPanel sp) by congruence. subst s.
    split; [reflexivity|]. intros x (i & j & k & _ & _ & _ & ->). reflexivity. }
  apply C72_accepts in A. destruct A as (d' & E). split.
  - intros H. destruct (H d d' sp E eq_refl) as [H1 _]. discriminate.
  - intros H. specialize (H d d' _ _ E eq_refl eq_refl). discriminate.
Qed.
Print Assumptions C72_spend_geos_refuted.

(** "Time coordinates must be strictly increasing": a date may occur twice. *)
Theorem C72_repeated_date_refuted : ~ (forall d d', new_input d = Ok d' -> NoDup (m_times (i_kpi d))).
Proof.
  intros H. set (d := ex_input "non_revenue" [day1; day1] [day1; day1] [day1; day2; day3] [day2; day3] None).
  assert (A : acceptable d) by (apply ex_acceptable; try (cbn; lia); try apply weekly; [tauto|discriminate]).
  apply C72_accepts in A. destruct A as (d' & E). specialize (H d d' E). inversion H as [|? ? X _]. apply X. left. reflexivity.
Qed.
Print Assumptions C72_repeated_date_refuted.

(** Names of control variables need not be distinct. *)
Theorem C72_controls_refuted : ~ (forall d d' p, new_input d = Ok d' -> i_controls d = Some p -> NoDup (p_names p)).
Proof.
  intros H. set (g := ["x"; "y"]).
  set (e := ex_input "non_revenue" [day2; day3] [day2; day3] [day1; day2; day3] [day2; day3] None).
  set (c := ex_panel g [day2; day3] ["rain"; "rain"]).
  set (d := mkInput (i_kpi e) (i_kpi_type e) (i_population e) (Some c) (i_rpk e) (i_media e) (i_media_spend e) (i_reach e) (i_frequency e)
              (i_rf_spend e) (i_organic_media e) (i_organic_reach e) (i_organic_frequency e) (i_non_media e) (i_currency e)).
  assert (A : acceptable e) by (apply ex_acceptable; try (cbn; lia); try apply weekly; [tauto|discriminate]).
  assert (Pn : forall p, In (Some p) (panels d) -> In (Some p) (panels e) \/ p = c).
  { intros p Hp. unfold panels, d in *. cbn [In i_controls i_media i_reach i_frequency i_organic_media i_organic_reach i_organic_frequency i_non_media] in *.
    destruct Hp as [E|Hp]; [right; congruence|left; tauto]. }
  assert (B : acceptable d).
  { destruct A as (A1 & A2 & A3 & A4 & A5 & A6 & A7 & A8 & A9 & A10 & A11 & A12). unfold acceptable.
    split; [exact A1|]. split; [exact A2|]. split.
    { intros x Hx. destruct Hx as [Hx|[Hx|[Hx|[(p & E & F)|Hx]]]].
      - apply A3. left. exact Hx.
      - apply A3. right. left. exact Hx.
      - apply A3. right. right. left. exact Hx.
      - destruct (Pn p E) as [E'| ->]; [apply A3; do 3 right; left; exists p; split; assumption|].
        destruct F as (i & j & k & _ & _ & _ & ->). discriminate.
      - apply A3. do 4 right. exact Hx. }
    split; [exact A4|]. split; [exact A5|]. split; [exact A6|].
    split; [intros p Hp; destruct (Pn p Hp) as [E'| ->]; [apply A7; exact E'|reflexivity]|]. split; [exact A8|].
    split. { intros p Hp. cbn [In d i_controls i_non_media] in Hp. destruct Hp as [E|[E|[]]]; [|discriminate].
      assert (p = c) by congruence. subst p. reflexivity. }
    split; [exact A10|]. split; [exact A11|]. exact A12. }
  apply C72_accepts in B. destruct B as (d' & E). specialize (H d d' c E eq_refl). inversion H as [|? ? X _]. apply X. left. reflexivity.
Qed.
Print Assumptions C72_controls_refuted.
