(** Property C98: what the scenario planner says was spent is what the input data say. *)
From Coq Require Import Reals ZArith String List Bool Lia Lra Sorted.
From Verif Require Import Lib_Sum M_Base M_Time S_Time P_Time M_InputData S_InputData P_InputData M_Marketing S_Marketing P_Marketing P_Marketing2
  M_Planner S_Planner P_Planner P_Planner2 C_InputData.
Import ListNotations.
Local Open Scope string_scope.
Local Open Scope nat_scope.
Local Open Scope list_scope.

Lemma kept_acceptable : forall given d, new_input given = Ok d -> savable d -> acceptable d.
Proof.
  intros given d H S. assert (N : m_geos (i_kpi given) <> []).
  { destruct (C72_kept given d H) as [[E _]|(_ & _ & E & _)]; [subst d; apply S|rewrite <- E; apply S]. }
  pose proof (C72_copy given d H N) as Hd. assert (Sc : validate_scenarios d = d) by (pose proof Hd as Q; apply new_input_inv in Q; destruct Q as (E & _); congruence).
  apply accepts. rewrite Sc. exact Hd.
Qed.

(** C98. For data that can be saved, the planner's spends between two dates: of a paid channel what the data say it
    spent in the periods inside, of an organic channel zero, and of no other name anything. *)
Theorem C98_spends : forall given d m first rest s e inside, new_input given = Ok d -> savable d -> save d = Ok m ->
  media_time d = Ok (first :: rest) -> tells s e inside ->
  exists D, all_channel_spends m (s, e) = Ok D /\
  (forall c y, spent_by (names_of (i_media d)) (i_media_spend d) first inside c y -> get D c = Some (Some y)) /\
  (forall c y, spent_by (names_of (i_reach d)) (i_rf_spend d) first inside c y -> get D c = Some (Some y)) /\
  (forall c, In c (names_of (i_organic_media d)) \/ In c (names_of (i_organic_reach d)) -> get D c = Some (Some 0%R)) /\
  (forall c, (exists x, get D c = Some x) ->
     In c (names_of (i_media d)) \/ In c (names_of (i_reach d)) \/ In c (names_of (i_organic_media d)) \/ In c (names_of (i_organic_reach d))).
Proof. intros given d m first rest s e inside H S Sv T I. exact (all_get d (kept_acceptable given d H S) S m Sv first rest T s e inside I). Qed.
Print Assumptions C98_spends.

(** C98. The spends of the two kinds of channels by themselves. *)
Theorem C98_kinds : forall given d m first rest s e inside, new_input given = Ok d -> savable d -> save d = Ok m ->
  media_time d = Ok (first :: rest) -> tells s e inside ->
  (exists D, media_channel_spends m (s, e) = Ok D /\
    (forall c y, spent_by (names_of (i_media d)) (i_media_spend d) first inside c y -> get D c = Some (Some y)) /\
    (forall c, (exists x, get D c = Some x) <-> In c (names_of (i_media d)) \/ In c (names_of (i_organic_media d)))) /\
  (exists D, rf_channel_spends m (s, e) = Ok D /\
    (forall c y, spent_by (names_of (i_reach d)) (i_rf_spend d) first inside c y -> get D c = Some (Some y)) /\
    (forall c, (exists x, get D c = Some x) <-> In c (names_of (i_reach d)) \/ In c (names_of (i_organic_reach d)))).
Proof.
  intros given d m first rest s e inside H S Sv T I. pose proof (kept_acceptable given d H S) as A. split.
  - destruct (media_get d A S m Sv first rest T s e inside I) as (D & E & G & _ & K). exists D. split; [exact E|]. split; [|exact K].
    intros c y (k & Hk & ->). exact (G c k Hk).
  - destruct (rf_get d A S m Sv first rest T s e inside I) as (D & E & G & _ & K). exists D. split; [exact E|]. split; [|exact K].
    intros c y (k & Hk & ->). exact (G c k Hk).
Qed.
Print Assumptions C98_kinds.

(** C98. The lists of channels: in alphabetical order, each name once; media and organic media, reach and frequency and
    organic reach and frequency. *)
Theorem C98_channels : forall given d m, new_input given = Ok d -> savable d -> save d = Ok m ->
  StronglySorted (fun a b => String.compare a b = Lt) (media_channels m) /\ StronglySorted (fun a b => String.compare a b = Lt) (rf_channels m) /\
  (forall c, In c (media_channels m) <-> In c (names_of (i_media d)) \/ In c (names_of (i_organic_media d))) /\
  (forall c, In c (rf_channels m) <-> In c (names_of (i_reach d)) \/ In c (names_of (i_organic_reach d))).
Proof.
  intros given d m H S Sv. pose proof (kept_acceptable given d H S) as A. destruct (media_time_ok d A S) as (mt & Em & Es & _).
  destruct mt as [|first rest]; [destruct Es as [L _]; cbn in L; lia|].
  split; [apply sorted_sorted|]. split; [apply sorted_sorted|]. split.
  - exact (media_names d A S m Sv first rest Em).
  - exact (rf_names d A S m Sv first rest Em).
Qed.
Print Assumptions C98_channels.

(** C98. For any message: the spends of two adjacent intervals add up to those of the whole, channel by channel, and
    asking never fails. *)
Theorem C98_adjacent : forall m a b c, ~ before b a -> ~ before c b ->
  exists D1 D2 D3, all_channel_spends m (a, b) = Ok D1 /\ all_channel_spends m (b, c) = Ok D2 /\ all_channel_spends m (a, c) = Ok D3 /\
  forall n, get D3 n = match get D1 n, get D2 n with
                       | Some x, Some y => Some (match x, y with Some u, Some v => Some (u + v)%R | _, _ => None end)
                       | _, _ => None
                       end.
Proof. exact all_split. Qed.
Print Assumptions C98_adjacent.

(** The hypotheses are met: two geos, two periods and an earlier media period, a paid and an organic channel. *)
Definition spend98 : panel := mkPanel ["x"; "y"] [day2; day3] ["tv"] (fun i j _ => Some (INR (10 * i + j + 1))).
Definition ex98 (sp : spend) : input :=
  mkInput (mkMatrix ["x"; "y"] [day2; day3] (fun _ _ => Some 1%R)) "non_revenue" (mkVector ["x"; "y"] (fun _ => Some 1%R)) None
    None (Some (ex_panel ["x"; "y"] [day1; day2; day3] ["tv"])) (Some sp) None None None
    (Some (ex_panel ["x"; "y"] [day1; day2; day3] ["blog"])) None None None None.
Definition total98 : spend := SpendTotal ["tv"] (fun _ => Some 36%R).
Definition fits98 (sp : spend) : Prop := spend_names sp = ["tv"] /\ (forall x, in_spend sp x -> exists a, x = Some a /\ (0 <= a)%R) /\
  forall p, sp = SpendPanel p -> p_geos p = ["x"; "y"] /\ p_times p = [day2; day3].
Lemma ex98_panels : forall sp p, In (Some p) (panels (ex98 sp)) -> p = ex_panel ["x"; "y"] [day1; day2; day3] ["tv"] \/ p = ex_panel ["x"; "y"] [day1; day2; day3] ["blog"].
Proof.
  intros sp p E. cbn [ex98 panels In i_controls i_media i_reach i_frequency i_organic_media i_organic_reach i_organic_frequency i_non_media] in E.
  destruct E as [E|[E|[E|[E|[E|[E|[E|[E|[]]]]]]]]]; try discriminate; [left|right]; congruence.
Qed.
Lemma ex98_media : forall sp p, In (Some p) (media_panels (ex98 sp)) -> p_times p = [day1; day2; day3].
Proof.
  intros sp p E. cbn [ex98 media_panels In i_media i_reach i_frequency i_organic_media i_organic_reach i_organic_frequency] in E.
  destruct E as [E|[E|[E|[E|[E|[E|[]]]]]]]; try discriminate; match type of E with Some ?q = _ => assert (p = q) by congruence; subst p; reflexivity end.
Qed.
Lemma ex98_acceptable : forall sp, fits98 sp -> acceptable (ex98 sp).
Proof.
  intros sp (Hn & Hx & Hp).
  assert (P : forall g t n x, in_panel (ex_panel g t n) x -> x = Some 1%R) by (intros g t n x (i & j & k & _ & _ & _ & ->); reflexivity).
  assert (Q : forall x, entry_of (ex98 sp) x -> exists a, x = Some a /\ (0 <= a)%R).
  { intros x [(i & j & _ & _ & ->)|[(i & _ & ->)|[(m & E & _)|[(p & E & F)|(s & E & F)]]]]; [exists 1%R; split; [reflexivity|lra]|exists 1%R; split; [reflexivity|lra]|discriminate| |].
    - destruct (ex98_panels sp p E) as [->| ->]; exists 1%R; (split; [exact (P _ _ _ _ F)|lra]).
    - cbn [ex98 In i_media_spend i_rf_spend] in E. destruct E as [E|[E|[]]]; [|discriminate]. assert (s = sp) by congruence. subst s. exact (Hx x F). }
  unfold acceptable. split; [right; reflexivity|]. split; [intros m E; discriminate|].
  split; [intros x H; destruct (Q x H) as (a & -> & _); discriminate|].
  split. { intros x H. assert (E : exists a, Some x = Some a /\ (0 <= a)%R).
    { apply Q. unfold signed_entry in H. unfold entry_of. destruct H as [H|[(_ & m & E & _)|[(p & E & F)|H]]]; [tauto|discriminate| |tauto].
      do 3 right. left. exists p. split; [|exact F]. cbn [ex98 panels In i_controls i_media i_reach i_frequency i_organic_media i_organic_reach i_organic_frequency i_non_media] in *. tauto. }
    destruct E as (a & E & L). assert (x = a) by congruence. subst. exact L. }
  split; [repeat constructor; cbn; intuition discriminate|]. split; [reflexivity|].
  split. { intros p E. destruct (ex98_panels sp p E) as [->| ->]; reflexivity. }
  split; [intros m _ E; discriminate|].
  split. { intros p E. cbn [ex98 In i_controls i_non_media] in E. destruct E as [E|[E|[]]]; discriminate. }
  split; [intros m _ E; discriminate|].
  split. { intros p E. rewrite (ex98_media sp p E). cbn. lia. }
  split; [apply weekly|]. split. { intros p E. rewrite (ex98_media sp p); [apply weekly|left; exact E]. }
  split; [intros p E; discriminate|]. split; [left; discriminate|].
  split. { intros a b E1 E2. cbn [ex98 i_media i_media_spend] in *. assert (b = sp) by congruence. subst b. assert (a = ex_panel ["x"; "y"] [day1; day2; day3] ["tv"]) by congruence. subst a. rewrite Hn. reflexivity. }
  split; [intros a b E1 E2; discriminate|]. split; [intros a b E1 E2; discriminate|]. split; [intros a b E1 E2; discriminate|]. split; [intros a b E1 E2; discriminate|].
  cbn. repeat constructor; cbn; intuition discriminate.
Qed.
Lemma ex98_savable : forall sp, fits98 sp -> savable (ex98 sp).
Proof.
  intros sp (Hn & Hx & Hp). unfold savable. split; [discriminate|]. split; [cbn; intuition discriminate|].
  split; [intros p q E1 E2; rewrite (ex98_media sp p E1), (ex98_media sp q E2); reflexivity|].
  split; [intros p E; rewrite (ex98_media sp p E); split; [repeat constructor; cbn; intuition discriminate|intros t Ht; right; exact Ht]|].
  split; [cbn; repeat constructor; cbn; intuition discriminate|].
  split; [intros p [E|[E|[]]]; discriminate|]. split; [intros m E; discriminate|].
  split; [intros p [E|[E|[]]]; [|discriminate]; cbn [ex98 i_media_spend] in E; assert (sp = SpendPanel p) by congruence; exact (Hp p H)|].
  split; [intros p E; destruct (ex98_panels sp p E) as [->| ->]; discriminate|].
  split; [intros p E; discriminate|]. split; [discriminate|]. split; [reflexivity|]. split; [split; reflexivity|]. split; [split; reflexivity|].
  split; [intros p x [E|[E|[]]]; discriminate|discriminate].
Qed.
Lemma ex98_new : forall sp, fits98 sp -> new_input (ex98 sp) = Ok (ex98 sp).
Proof. intros sp H. pose proof (ex98_acceptable sp H) as A. apply accepts in A. exact A. Qed.
Lemma spend98_fits : fits98 (SpendPanel spend98).
Proof.
  split; [reflexivity|]. split.
  - intros x (i & j & k & _ & _ & _ & ->). eexists. split; [reflexivity|apply pos_INR].
  - intros p E. assert (p = spend98) by congruence. subst p. split; reflexivity.
Qed.
Lemma total98_fits : fits98 total98.
Proof.
  split; [reflexivity|]. split; [|discriminate]. intros x (k & _ & ->). exists 36%R. split; [reflexivity|lra].
Qed.
Lemma ex98_saves : forall sp, fits98 sp -> exists m, save (ex98 sp) = Ok m.
Proof.
  intros sp H. destruct (P_Marketing4.round_trip (ex98 sp) (ex98_new sp H) (ex98_savable sp H)) as (m & e & Sv & _). exists m. exact Sv.
Qed.

(** In the first KPI period one geo spent 1 and the other 11: together 12. *)
Example C98_example : exists m D, new_input (ex98 (SpendPanel spend98)) = Ok (ex98 (SpendPanel spend98)) /\ savable (ex98 (SpendPanel spend98)) /\
  save (ex98 (SpendPanel spend98)) = Ok m /\ media_time (ex98 (SpendPanel spend98)) = Ok [day1; day2; day3] /\ tells day2 day3 (contains (day2, day3)) /\
  all_channel_spends m (day2, day3) = Ok D /\ get D "tv" = Some (Some 12%R) /\ get D "blog" = Some (Some 0%R) /\ get D "radio" = None.
Proof.
  pose proof (ex98_new _ spend98_fits) as N. pose proof (ex98_savable _ spend98_fits) as S. destruct (ex98_saves _ spend98_fits) as (m & Sv).
  assert (I : tells day2 day3 (contains (day2, day3))) by (intros t; apply contains_between).
  destruct (C98_spends _ _ m day1 [day2; day3] day2 day3 _ N S Sv eq_refl I) as (D & E & G1 & G2 & G3 & G4).
  exists m, D. split; [exact N|]. split; [exact S|]. split; [exact Sv|]. split; [reflexivity|]. split; [exact I|]. split; [exact E|]. split; [|split].
  - apply G1. exists 0. split; [reflexivity|]. cbn [ex98 i_media_spend spent spend98 p_times p_geos p_at]. cbn. lra.
  - apply G3. left. left. reflexivity.
  - destruct (get D "radio") as [x|] eqn:Q; [|reflexivity]. exfalso. assert (W : exists x, get D "radio" = Some x) by eauto. apply G4 in W. cbn in W. intuition discriminate.
Qed.
Print Assumptions C98_example.

(** Spend that is given by channel only is counted for the interval with the first media period, and for no other:
    periods with spend may show none. *)
Theorem C98_part_refuted :
  ~ (forall given d m n a k c x s e t D, new_input given = Ok d -> savable d -> save d = Ok m -> i_media_spend d = Some (SpendTotal n a) ->
       nth_error n k = Some c -> a k = Some x -> (0 < x)%R -> In t (m_times (i_kpi d)) -> between s e t -> all_channel_spends m (s, e) = Ok D ->
       exists y, get D c = Some (Some y) /\ (0 < y)%R).
Proof.
  intros H. pose proof (ex98_new _ total98_fits) as N. pose proof (ex98_savable _ total98_fits) as S. destruct (ex98_saves _ total98_fits) as (m & Sv).
  set (day4 := mkDate 2024 1 22). assert (I : tells day2 day4 (contains (day2, day4))) by (intros t; apply contains_between).
  destruct (C98_spends _ _ m day1 [day2; day3] day2 day4 _ N S Sv eq_refl I) as (D & E & G1 & _).
  destruct (H _ _ m ["tv"] (fun _ => Some 36%R) 0 "tv" 36%R day2 day4 day2 D N S Sv eq_refl eq_refl eq_refl ltac:(lra) (or_introl eq_refl)) as (y & Y & L); [apply contains_between; reflexivity|exact E|].
  assert (Z : get D "tv" = Some (Some 0%R)) by (apply G1; exists 0; split; reflexivity). rewrite Z in Y. assert (y = 0%R) by congruence. lra.
Qed.
Print Assumptions C98_part_refuted.

(** The planner's media channels are not the paid ones: organic channels are among them. *)
Theorem C98_paid_refuted :
  ~ (forall given d m c, new_input given = Ok d -> savable d -> save d = Ok m -> In c (media_channels m) -> In c (names_of (i_media d))).
Proof.
  intros H. pose proof (ex98_new _ total98_fits) as N. pose proof (ex98_savable _ total98_fits) as S. destruct (ex98_saves _ total98_fits) as (m & Sv).
  destruct (C98_channels _ _ m N S Sv) as (_ & _ & K & _).
  assert (X : In "blog" (media_channels m)) by (apply K; right; left; reflexivity).
  pose proof (H _ _ m "blog" N S Sv X) as Y. cbn in Y. intuition discriminate.
Qed.
Print Assumptions C98_paid_refuted.
