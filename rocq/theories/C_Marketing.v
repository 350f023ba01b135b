(** Property C73: input data survive being saved and loaded. *)
From Coq Require Import Reals ZArith String List Bool Lia Lra.
From Verif Require Import M_Base M_Time S_Time P_Time M_Hyper M_InputData S_InputData P_InputData M_Marketing S_Marketing
  P_Marketing P_Marketing2 P_Marketing3 P_Marketing4 C_InputData.
Import ListNotations.
Local Open Scope string_scope.
Local Open Scope nat_scope.
Local Open Scope list_scope.

(** C73. Data whose arrays fit together can be saved, loading them succeeds, and gives the same labels and
    numbers, reach rounded down to whole numbers. *)
Theorem C73_round_trip : forall given d, new_input given = Ok d -> savable d ->
  exists m e, save d = Ok m /\ load m = Ok e /\ restored (panel_by rounded_down) d e.
Proof.
  intros given d H S. apply round_trip; [|exact S]. apply (C72_copy given d H).
  destruct (C72_kept given d H) as [[E _]|(_ & _ & E & _)]; [subst d|rewrite <- E]; apply S.
Qed.
Print Assumptions C73_round_trip.

(** C73. They are the same data if all reach is in whole numbers. *)
Definition whole_reach (d : input) : Prop :=
  forall p x, In (Some p) [i_reach d; i_organic_reach d] -> in_panel p (Some x) -> exists z, x = IZR z.
Lemma rounded_whole : forall p q, panel_by rounded_down p q -> (forall x, in_panel p (Some x) -> exists z, x = IZR z) -> same_panel p q.
Proof.
  intros p q (Eg & Et & En & H) W. split; [exact Eg|]. split; [exact Et|]. split; [exact En|]. intros i j k Hi Hj Hk.
  destruct (H i j k Hi Hj Hk) as (a & z & Ea & Eb & L). rewrite Ea, Eb. f_equal.
  destruct (W a) as [y ->]; [exists i, j, k; auto|]. f_equal. destruct L as [L1 L2].
  apply le_IZR in L1. rewrite <- plus_IZR in L2. apply lt_IZR in L2. lia.
Qed.
Lemma restored_whole : forall d e, whole_reach d -> restored (panel_by rounded_down) d e -> restored same_panel d e.
Proof.
  intros d e W (B1 & B2 & B3 & B4 & B5 & B6 & B7 & B8 & B9 & B10 & B11 & B12 & B13 & B14 & B15).
  assert (R1 : both same_panel (i_reach d) (i_reach e)).
  { unfold whole_reach in W. destruct (i_reach d) as [p|], (i_reach e) as [q|]; cbn [both] in *; auto. apply rounded_whole; [exact B8|].
    intros x Hx. apply (W p); [left; reflexivity|exact Hx]. }
  assert (R2 : both same_panel (i_organic_reach d) (i_organic_reach e)).
  { unfold whole_reach in W. destruct (i_organic_reach d) as [p|], (i_organic_reach e) as [q|]; cbn [both] in *; auto. apply rounded_whole; [exact B12|].
    intros x Hx. apply (W p); [right; left; reflexivity|exact Hx]. }
  unfold restored. repeat (split; [assumption|]). assumption.
Qed.
Theorem C73_exact : forall given d, new_input given = Ok d -> savable d -> whole_reach d ->
  exists m e, save d = Ok m /\ load m = Ok e /\ restored same_panel d e.
Proof.
  intros given d H S W. destruct (C73_round_trip given d H S) as (m & e & H1 & H2 & R). exists m, e. split; [exact H1|]. split; [exact H2|].
  apply restored_whole; auto.
Qed.
Print Assumptions C73_exact.

(** C73. Saving loaded data again changes nothing. *)
Lemma like_all : forall d e, restored (panel_by rounded_down) d e -> Forall2 (both like) (panels d) (panels e) /\ Forall2 (both like) (media_panels d) (media_panels e) /\
  Forall2 (both like) [i_controls d; i_non_media d] [i_controls e; i_non_media e].
Proof.
  intros d e (B1 & B2 & B3 & B4 & B5 & B6 & B7 & B8 & B9 & B10 & B11 & B12 & B13 & B14 & B15).
  apply (both_impl _ _ like _ _ same_like) in B4, B6, B9, B11, B13, B14. apply (both_impl _ _ like _ _ rounded_like) in B8, B12.
  repeat split; repeat (constructor; [assumption|]); constructor.
Qed.
Lemma restored_savable : forall d e, restored (panel_by rounded_down) d e -> savable d -> savable e /\ whole_reach e.
Proof.
  intros d e Rs S. destruct (like_all d e Rs) as (Pa & Mp & Cn).
  destruct Rs as ((Kg & Kt & _) & Ty & Pop & Co & Rpk & Me & Ms & Re & Fr & Rsp & Om & Or & Of & Nm & Cu).
  destruct S as (S1 & S2 & S3 & S4 & S5 & S6 & S7 & S8 & S9 & S10 & S11 & S12 & S13 & S14 & S15 & S16).
  assert (Rd : forall p x, In (Some p) [i_reach e; i_organic_reach e] -> in_panel p (Some x) ->
    exists q a z, In (Some q) [i_reach d; i_organic_reach d] /\ in_panel q (Some a) /\ x = IZR z /\ (IZR z <= a)%R).
  { intros p x Hp Hx. assert (Q : exists q, In (Some q) [i_reach d; i_organic_reach d] /\ panel_by rounded_down q p).
    { destruct Hp as [Hp|[Hp|[]]]; [destruct (both_some _ _ _ _ p Re Hp) as (q & E & R)|destruct (both_some _ _ _ _ p Or Hp) as (q & E & R)];
        exists q; (split; [|exact R]); [left|right; left]; exact E. }
    destruct Q as (q & Hq & R). destruct (panel_entry _ _ _ _ R Hx) as (y & Hy & (a & z & -> & Ex & L)). exists q, a, z.
    split; [exact Hq|]. split; [exact Hy|]. split; [congruence|lra]. }
  split.
  - unfold savable. rewrite Kg, Kt. split; [exact S1|]. split; [exact S2|].
    split. { intros p q Hp Hq. destruct (forall2_in _ _ p Mp Hp) as (p0 & Hp0 & (_ & E1 & _)). destruct (forall2_in _ _ q Mp Hq) as (q0 & Hq0 & (_ & E2 & _)).
      rewrite E1, E2. apply S3; auto. }
    split. { intros p Hp. destruct (forall2_in _ _ p Mp Hp) as (p0 & Hp0 & (_ & E1 & _)). rewrite E1. apply S4; auto. }
    split; [exact S5|].
    split. { intros p Hp. destruct (forall2_in _ _ p Cn Hp) as (p0 & Hp0 & (_ & E1 & _)). rewrite E1. apply S6; auto. }
    split. { intros m Em. destruct (both_some _ _ _ _ m Rpk Em) as (m0 & Em0 & (_ & E & _)). rewrite E. apply S7; auto. }
    split. { intros p [Hp|[Hp|[]]].
      - destruct (both_some _ _ _ _ _ Ms Hp) as ([q|] & Eq & R); cbn [same_spend] in R; [|destruct R]. destruct R as (R1 & R2 & _). rewrite R1, R2. apply S8. left. exact Eq.
      - destruct (both_some _ _ _ _ _ Rsp Hp) as ([q|] & Eq & R); cbn [same_spend] in R; [|destruct R]. destruct R as (R1 & R2 & _). rewrite R1, R2. apply S8. right. left. exact Eq. }
    split. { intros p Hp. destruct (forall2_in _ _ p Pa Hp) as (p0 & Hp0 & (_ & _ & E1 & _)). rewrite E1. apply S9; auto. }
    split. { intros p Hp. destruct (both_some _ _ _ _ p Co Hp) as (p0 & Hp0 & (_ & _ & E1 & _)). rewrite E1. apply S10; auto. }
    split; [intros E; apply (both_none _ _ _ _ Ms); apply S11; apply (both_none _ _ _ _ Me); exact E|].
    split; [intros E; apply (both_none _ _ _ _ Rsp); apply S12; apply (both_none _ _ _ _ Re); exact E|].
    split; [rewrite (both_none _ _ _ _ Re), (both_none _ _ _ _ Fr); exact S13|].
    split; [rewrite (both_none _ _ _ _ Or), (both_none _ _ _ _ Of); exact S14|].
    split; [|rewrite Cu; exact S16].
    intros p x Hp Hx. destruct (Rd p x Hp Hx) as (q & a & z & Hq & Ha & -> & L). pose proof (S15 q a Hq Ha). lra.
  - intros p x Hp Hx. destruct (Rd p x Hp Hx) as (q & a & z & _ & _ & -> & _). exists z. reflexivity.
Qed.
Lemma load_input : forall m e, load m = Ok e -> exists r, new_input r = Ok e.
Proof.
  intros m e H. unfold load in H. destruct (extract_kpi_type (mk_points m)) as [t|]; [|discriminate]. cbn [rbind] in H.
  destruct (extract_2d (flat_map kpi_rows (mk_points m))); [|discriminate].
  destruct (check_metadata (mk_metadata m)); [|discriminate]. cbn [rbind] in H.
  match type of H with rbind ?a _ = _ => destruct a; [|discriminate] end. cbn [rbind] in H.
  match type of H with rbind ?a _ = _ => destruct a; [|discriminate] end. cbn [rbind] in H.
  eexists. exact H.
Qed.
Theorem C73_again : forall given d m e, new_input given = Ok d -> savable d -> save d = Ok m -> load m = Ok e ->
  exists m' e', save e = Ok m' /\ load m' = Ok e' /\ restored same_panel e e'.
Proof.
  intros given d m e H S Sv Ld. destruct (C73_round_trip given d H S) as (m0 & e0 & H1 & H2 & R).
  assert (m0 = m) by congruence. subst m0. assert (e0 = e) by congruence. subst e0.
  destruct (restored_savable d e R S) as [Se We]. destruct (load_input m e Ld) as (r & Hr). exact (C73_exact r e Hr Se We).
Qed.
Print Assumptions C73_again.

(** C73. Whatever message is loaded, every combination of geo, period and channel of the result is in a data
    point of the message, with its number: nothing is filled in. *)
Lemma extract_3d_entry : forall rows p i j k g t n x, extract_3d rows = Some p ->
  nth_error (p_geos p) i = Some g -> nth_error (p_times p) j = Some t -> nth_error (p_names p) k = Some n -> p_at p i j k = Some x ->
  In (g, t, n, Some x) rows.
Proof.
  intros rows p i j k g t n x H Eg Et En Ex. unfold extract_3d in H. destruct rows as [|r l] eqn:E; [discriminate|]. rewrite <- E in *.
  assert (Hp : p = mkPanel (first_seen String.eqb (map r_geo rows)) (first_seen date_eqb (map r_time rows)) (first_seen String.eqb (map r_name rows))
     (fun i j k => match nth_error (first_seen String.eqb (map r_geo rows)) i, nth_error (first_seen date_eqb (map r_time rows)) j, nth_error (first_seen String.eqb (map r_name rows)) k with
        | Some g, Some t, Some n => find_row rows g t n | _, _, _ => None end)) by congruence.
  rewrite Hp in Eg, Et, En, Ex. cbn [p_geos p_times p_names p_at] in Eg, Et, En, Ex. rewrite Eg, Et, En in Ex. unfold find_row in Ex.
  match type of Ex with match ?f with _ => _ end = _ => destruct f as [[[[g' t'] n'] v]|] eqn:F; [|discriminate] end.
  apply find_some in F. destruct F as [F1 F2]. apply in_rev in F1. cbn [r_geo r_time r_name r_value fst snd] in *.
  apply andb_true_iff in F2. destruct F2 as [F2 F3]. apply andb_true_iff in F2. destruct F2 as [F2 F4].
  apply String.eqb_eq in F2, F3. apply date_eqb_iff in F4. subst. exact F1.
Qed.
Lemma extract_3d_name : forall rows p i j k x, extract_3d rows = Some p -> p_at p i j k = Some x -> exists n, nth_error (p_names p) k = Some n.
Proof.
  intros rows p i j k x H Ex. unfold extract_3d in H. destruct rows as [|r l] eqn:E; [discriminate|]. rewrite <- E in *.
  assert (Hp : p = mkPanel (first_seen String.eqb (map r_geo rows)) (first_seen date_eqb (map r_time rows)) (first_seen String.eqb (map r_name rows))
     (fun i j k => match nth_error (first_seen String.eqb (map r_geo rows)) i, nth_error (first_seen date_eqb (map r_time rows)) j, nth_error (first_seen String.eqb (map r_name rows)) k with
        | Some g, Some t, Some n => find_row rows g t n | _, _, _ => None end)) by congruence.
  rewrite Hp in Ex |- *. cbn [p_geos p_times p_names p_at] in Ex |- *.
  destruct (nth_error (first_seen String.eqb (map r_geo rows)) i); [|discriminate].
  destruct (nth_error (first_seen date_eqb (map r_time rows)) j); [|discriminate].
  destruct (nth_error (first_seen String.eqb (map r_name rows)) k) as [n|]; [|discriminate]. exists n. reflexivity.
Qed.
Theorem C73_nothing_filled_in : forall m e, load m = Ok e ->
  (forall i j g t, nth_error (m_geos (i_kpi e)) i = Some g -> nth_error (m_times (i_kpi e)) j = Some t ->
     exists p x, In p (mk_points m) /\ geo_id p = g /\ dp_start p = t /\ m_at (i_kpi e) i j = Some x /\
       (dp_kpi p = Some (KpiRevenue (Some x)) \/ exists r, dp_kpi p = Some (KpiNonRevenue (Some x) r))) /\
  (forall q i j k g t n, i_media e = Some q -> nth_error (p_geos q) i = Some g -> nth_error (p_times q) j = Some t -> nth_error (p_names q) k = Some n ->
     exists p v x, In p (mk_points m) /\ geo_id p = g /\ dp_start p = t /\ In v (dp_media p) /\ mv_name v = n /\ mv_value v = Some x /\ p_at q i j k = Some x).
Proof.
  intros m e H. destruct (load_input m e H) as (r & Hr). pose proof (proj1 (C72_accepts r) (ex_intro _ e Hr)) as (_ & _ & Na & _).
  pose proof (C72_kept r e Hr) as W. unfold load in H. destruct (extract_kpi_type (mk_points m)) as [ty|]; [|discriminate]. cbn [rbind] in H.
  destruct (extract_2d (flat_map kpi_rows (mk_points m))) as [kpi|] eqn:Ek; [|discriminate].
  destruct (check_metadata (mk_metadata m)); [|discriminate]. cbn [rbind] in H.
  match type of H with rbind ?a _ = _ => destruct a as [ms|]; [|discriminate] end. cbn [rbind] in H.
  match type of H with rbind ?a _ = _ => destruct a as [rs|]; [|discriminate] end. cbn [rbind] in H.
  match type of H with new_input ?x = _ => set (raw := x) in * end.
  pose proof (proj1 (C72_accepts raw) (ex_intro _ e H)) as (_ & _ & Nr & _).
  assert (Same : i_kpi e = kpi /\ i_media e = extract_3d (flat_map (media_rows (mk_metadata m) "media_channel") (mk_points m))).
  { destruct (C72_kept raw e H) as [[E _]|(_ & _ & E1 & _ & _ & _ & E2 & _)]; [subst e; split; reflexivity|]. rewrite E1, E2. split; reflexivity. }
  destruct Same as [Sk Sm]. split.
  - intros i j g t Eg Et. rewrite Sk in Eg, Et |- *. clear Sk.
    assert (Hx : m_at kpi i j <> None).
    { apply Nr. left. exists i, j. split; [apply nth_error_Some; cbn; congruence|]. split; [apply nth_error_Some; cbn; congruence|reflexivity]. }
    destruct (m_at kpi i j) as [x|] eqn:Ex; [|contradiction]. unfold extract_2d in Ek.
    destruct (extract_3d (flat_map kpi_rows (mk_points m))) as [q|] eqn:Eq; [|discriminate].
    assert (kpi = mkMatrix (p_geos q) (p_times q) (fun i j => p_at q i j 0)) as Eqk by congruence. rewrite Eqk in Eg, Et, Ex. cbn [m_geos m_times m_at] in Eg, Et, Ex.
    assert (En : exists n, nth_error (p_names q) 0 = Some n).
    { exact (extract_3d_name _ _ i j 0 x Eq Ex). }
    destruct En as [n En]. pose proof (extract_3d_entry _ _ _ _ _ _ _ _ _ Eq Eg Et En Ex) as Hin.
    apply in_flat_map in Hin. destruct Hin as (p & Hp & Hr0). exists p, x. split; [exact Hp|]. unfold kpi_rows in Hr0.
    destruct (dp_kpi p) as [[v|v r0]|]; [| |destruct Hr0]; destruct Hr0 as [E|[]]; assert (geo_id p = g /\ dp_start p = t /\ v = Some x) as (-> & -> & ->) by (repeat split; congruence);
      (split; [reflexivity|]; split; [reflexivity|]; split; [first [reflexivity|exact Ex|rewrite Eqk; exact Ex]|]); [left; reflexivity|right; exists r0; reflexivity].
  - intros q i j k g t n Eq Eg Et En. rewrite Sm in Eq.
    assert (Hx : p_at q i j k <> None).
    { apply Nr. do 3 right. left. exists q. split; [right; left; exact Eq|]. exists i, j, k. repeat split; apply nth_error_Some; congruence. }
    destruct (p_at q i j k) as [x|] eqn:Ex; [|contradiction].
    pose proof (extract_3d_entry _ _ _ _ _ _ _ _ _ Eq Eg Et En Ex) as Hin.
    apply in_flat_map in Hin. destruct Hin as (p & Hp & Hr0). unfold media_rows, with_geo in Hr0. destruct (String.eqb (geo_id p) ""); [destruct Hr0|].
    apply in_map_iff in Hr0. destruct Hr0 as (v & E & Hv). apply filter_In in Hv. destruct Hv as [Hv _].
    exists p, v, x. repeat split; try assumption; congruence.
Qed.
Print Assumptions C73_nothing_filled_in.

(** The hypotheses are met: two geos, two periods and an earlier media period, totals of spend, a control. *)
Definition ex73 : input := ex_input "non_revenue" [day2; day3] [day2; day3] [day1; day2; day3] [day1; day2; day3] (Some (SpendTotal ["tv"] (fun _ => Some 1%R))).
Lemma ex73_nodup : NoDup [day1; day2; day3] /\ NoDup [day2; day3].
Proof. split; repeat constructor; cbn; intuition discriminate. Qed.
Lemma ex73_ok : acceptable ex73.
Proof.
  apply ex_acceptable; try (cbn; lia); try apply weekly; [tauto|]. intros s E.
  assert (s = SpendTotal ["tv"] (fun _ => Some 1%R)) by congruence. subst s. split; [reflexivity|]. intros x (k & _ & ->). reflexivity.
Qed.
Lemma ex73_panels : forall p, In (Some p) (panels ex73) ->
  p = ex_panel ["x"; "y"] [day2; day3] ["temperature"] \/ p = ex_panel ["x"; "y"] [day1; day2; day3] ["tv"] \/ p = ex_panel ["x"; "y"] [day1; day2; day3] ["video"].
Proof.
  intros p E. cbn [ex73 ex_input panels In i_controls i_media i_reach i_frequency i_organic_media i_organic_reach i_organic_frequency i_non_media] in E.
  destruct E as [E|[E|[E|[E|[E|[E|[E|[E|[]]]]]]]]]; try discriminate; [left|right; left|right; right|right; right]; congruence.
Qed.
Lemma ex73_times : forall p, In (Some p) (media_panels ex73) -> p_times p = [day1; day2; day3].
Proof.
  intros p E. cbn [ex73 ex_input media_panels In i_media i_reach i_frequency i_organic_media i_organic_reach i_organic_frequency] in E.
  destruct E as [E|[E|[E|[E|[E|[E|[]]]]]]]; try discriminate; match type of E with Some ?q = _ => assert (p = q) by congruence; subst p; reflexivity end.
Qed.
Example C73_example : new_input ex73 = Ok ex73 /\ savable ex73 /\ whole_reach ex73.
Proof.
  split; [pose proof ex73_ok as H; apply accepts in H; rewrite H; reflexivity|]. split.
  - unfold savable. split; [discriminate|]. split; [cbn; intuition discriminate|].
    split; [intros p q Hp Hq; rewrite (ex73_times p Hp), (ex73_times q Hq); reflexivity|].
    split; [intros p Hp; rewrite (ex73_times p Hp); split; [apply ex73_nodup|intros t Ht; right; exact Ht]|].
    split; [apply ex73_nodup|].
    split; [intros p [Hp|[Hp|[]]]; [|discriminate]; assert (p = ex_panel ["x"; "y"] [day2; day3] ["temperature"]) by (cbn [ex73 ex_input i_controls] in Hp; congruence); subst p; reflexivity|].
    split; [intros m E; discriminate|]. split; [intros p [E|[E|[]]]; discriminate|].
    split; [intros p Hp; destruct (ex73_panels p Hp) as [->|[->| ->]]; discriminate|].
    split; [intros p E; assert (p = ex_panel ["x"; "y"] [day2; day3] ["temperature"]) by (cbn [ex73 ex_input i_controls] in E; congruence); subst p; repeat constructor; intros []|].
    split; [discriminate|]. split; [discriminate|]. split; [split; discriminate|]. split; [split; reflexivity|]. split; [|discriminate].
    intros p x [Hp|[Hp|[]]]; [|discriminate]. cbn [ex73 ex_input i_reach] in Hp. match type of Hp with Some ?q = _ => assert (p = q) by congruence; subst p end.
    intros (i & j & k & _ & _ & _ & E). cbn in E. assert (x = 1%R) by congruence. subst. apply IZR_lt. reflexivity.
  - intros p x [Hp|[Hp|[]]]; [|discriminate]. cbn [ex73 ex_input i_reach] in Hp. match type of Hp with Some ?q = _ => assert (p = q) by congruence; subst p end.
    intros (i & j & k & _ & _ & _ & E). cbn in E. exists 1%Z. congruence.
Qed.
Print Assumptions C73_example.

(** *** What does not come back *)
Definition small_controls (times : list date) (names : list string) : option panel :=
  match names with [] => None | _ => Some (ex_panel ["x"] times names) end.
Definition small_reach (times : list date) (r : option R) : option panel :=
  match r with None => None | Some _ => Some (mkPanel ["x"] times ["video"] (fun _ _ _ => r)) end.
Definition small (kt mt : list date) (controls : list string) (r : option R) : input :=
  mkInput (mkMatrix ["x"] kt (fun _ _ => Some 1%R)) "non_revenue" (mkVector ["x"] (fun _ => Some 1%R)) (small_controls kt controls)
    None (Some (ex_panel ["x"] mt ["tv"])) None (small_reach mt r) (small_reach mt r) None None None None None None.
Lemma small_panels : forall kt mt cs r p, In (Some p) (panels (small kt mt cs r)) ->
  (cs <> [] /\ p = ex_panel ["x"] kt cs) \/ p = ex_panel ["x"] mt ["tv"] \/ (r <> None /\ p = mkPanel ["x"] mt ["video"] (fun _ _ _ => r)).
Proof.
  intros kt mt cs r p E. cbn [small panels In i_controls i_media i_reach i_frequency i_organic_media i_organic_reach i_organic_frequency i_non_media] in E.
  destruct E as [E|[E|[E|[E|[E|[E|[E|[E|[]]]]]]]]]; try discriminate; [left|right; left|right; right|right; right].
  - unfold small_controls in E. destruct cs; [discriminate|]. split; [discriminate|congruence].
  - congruence.
  - unfold small_reach in E. destruct r; [|discriminate]. split; [discriminate|congruence].
  - unfold small_reach in E. destruct r; [|discriminate]. split; [discriminate|congruence].
Qed.
Lemma small_media_panels : forall kt mt cs r p, In (Some p) (media_panels (small kt mt cs r)) -> p_times p = mt.
Proof.
  intros kt mt cs r p E. cbn [small media_panels In i_media i_reach i_frequency i_organic_media i_organic_reach i_organic_frequency] in E.
  destruct E as [E|[E|[E|[E|[E|[E|[]]]]]]]; try discriminate.
  - assert (p = ex_panel ["x"] mt ["tv"]) by congruence. subst p. reflexivity.
  - unfold small_reach in E. destruct r; [|discriminate]. match type of E with Some ?q = _ => assert (p = q) by congruence; subst p; reflexivity end.
  - unfold small_reach in E. destruct r; [|discriminate]. match type of E with Some ?q = _ => assert (p = q) by congruence; subst p; reflexivity end.
Qed.
Lemma small_acceptable : forall kt mt cs r, (forall x, r = Some x -> (0 <= x)%R) -> length kt <= length mt ->
  evenly_spaced kt -> evenly_spaced mt -> acceptable (small kt mt cs r).
Proof.
  intros kt mt cs r Hr L Ek Em.
  assert (Q : forall x, entry_of (small kt mt cs r) x -> x = Some 1%R \/ (r <> None /\ x = r)).
  { intros x [(i & j & _ & _ & ->)|[(i & _ & ->)|[(m & E & _)|[(p & E & F)|(s & E & F)]]]]; [left; reflexivity|left; reflexivity|discriminate| |].
    - destruct (small_panels kt mt cs r p E) as [[_ ->]|[->|[N ->]]]; destruct F as (i & j & k & _ & _ & _ & ->); auto.
    - cbn [small In i_media_spend i_rf_spend] in E. destruct E as [E|[E|[]]]; discriminate. }
  unfold acceptable. split; [right; reflexivity|]. split; [intros m E; discriminate|].
  split; [intros x Hx; destruct (Q x Hx) as [->|[N ->]]; [discriminate|exact N]|].
  split. { intros x Hx. assert (E : Some x = Some 1%R \/ (r <> None /\ Some x = r)).
    { apply Q. unfold signed_entry in Hx. unfold entry_of. destruct Hx as [Hx|[(_ & m & E & _)|[(p & E & F)|Hx]]]; [tauto|discriminate| |tauto].
      do 3 right. left. exists p. split; [|exact F]. cbn [small panels In i_controls i_media i_reach i_frequency i_organic_media i_organic_reach i_organic_frequency i_non_media] in *. tauto. }
    destruct E as [E|[_ E]]; [assert (x = 1%R) by congruence; subst; lra|apply Hr; symmetry; exact E]. }
  split; [repeat constructor; cbn; intuition discriminate|]. split; [reflexivity|].
  split. { intros p Hp. destruct (small_panels kt mt cs r p Hp) as [[_ ->]|[->|[_ ->]]]; reflexivity. }
  split; [intros m _ E; discriminate|].
  split. { intros p E. cbn [small In i_controls i_non_media] in E. destruct E as [E|[E|[]]]; [|discriminate].
    unfold small_controls in E. destruct cs; [discriminate|]. match type of E with Some ?q = _ => assert (p = q) by congruence; subst p; reflexivity end. }
  split; [intros m _ E; discriminate|].
  split. { intros p E. rewrite (small_media_panels kt mt cs r p E). exact L. }
  split; [exact Ek|]. split. { intros p E. rewrite (small_media_panels kt mt cs r p); [exact Em|left; exact E]. }
  split; [intros p E; discriminate|]. split; [left; discriminate|].
  split; [intros a b E1 E2; discriminate|].
  assert (V : forall a, small_reach mt r = Some a -> p_names a = ["video"]).
  { intros a E. unfold small_reach in E. destruct r; [|discriminate]. match type of E with Some ?q = _ => assert (a = q) by congruence; subst a; reflexivity end. }
  split; [intros a b E1 E2; rewrite (V a E1), (V b E2); reflexivity|].
  split; [intros a b E1 E2; discriminate|]. split; [intros a b E1 E2; discriminate|]. split; [intros a b E1 E2; discriminate|].
  cbn [small i_media i_reach i_organic_media i_organic_reach i_non_media of_option]. destruct r; cbn; repeat constructor; cbn; intuition discriminate.
Qed.
Lemma small_new : forall kt mt cs r, (forall x, r = Some x -> (0 <= x)%R) -> length kt <= length mt ->
  evenly_spaced kt -> evenly_spaced mt -> new_input (small kt mt cs r) = Ok (small kt mt cs r).
Proof. intros. pose proof (small_acceptable kt mt cs r) as A. apply accepts in A; auto. Qed.

(** Loaded data are not always those saved: reach of half a person is lost. *)
Theorem C73_fraction_refuted :
  ~ (forall given d m e, new_input given = Ok d -> savable d -> save d = Ok m -> load m = Ok e -> restored same_panel d e).
Proof.
  intros H. set (d := small [day1; day2; day3] [day1; day2; day3] [] (Some (1 / 2)%R)).
  assert (N : new_input d = Ok d) by (apply small_new; [intros x E; assert (x = (1 / 2)%R) by congruence; subst; lra|cbn; lia|apply weekly|apply weekly]).
  assert (S : savable d).
  { unfold savable. split; [discriminate|]. split; [cbn; intuition discriminate|].
    split; [intros p q Hp Hq; unfold d in *; rewrite (small_media_panels _ _ _ _ p Hp), (small_media_panels _ _ _ _ q Hq); reflexivity|].
    split; [intros p Hp; unfold d in Hp; rewrite (small_media_panels _ _ _ _ p Hp); split; [apply ex73_nodup|intros t Ht; exact Ht]|].
    split; [apply ex73_nodup|]. split; [intros p [E|[E|[]]]; discriminate|]. split; [intros m E; discriminate|].
    split; [intros p [E|[E|[]]]; discriminate|].
    split; [intros p Hp; destruct (small_panels _ _ _ _ p Hp) as [[Nc _]|[->|[_ ->]]]; [exfalso; apply Nc; reflexivity|intros E; discriminate E|intros E; discriminate E]|].
    split; [intros p E; discriminate E|]. split; [intros E; discriminate E|]. split; [reflexivity|]. split; [split; intros E; discriminate E|]. split; [split; reflexivity|].
    split; [|intros E; discriminate E]. intros p x [Hp|[Hp|[]]]; [|discriminate Hp].
    cbn [d small i_reach small_reach] in Hp. match type of Hp with Some ?q = _ => assert (p = q) by congruence; subst p end.
    intros (i & j & k & _ & _ & _ & E). cbn in E. assert (x = (1 / 2)%R) by congruence. subst. apply Rlt_trans with 1%R; [lra|]. apply IZR_lt. reflexivity. }
  destruct (C73_round_trip d d N S) as (m & e & Sv & Ld & R).
  pose proof (H d d m e N S Sv Ld) as X. destruct R as (_ & _ & _ & _ & _ & _ & _ & R & _). destruct X as (_ & _ & _ & _ & _ & _ & _ & X & _).
  cbn [d small i_reach small_reach both] in R, X. destruct (i_reach e) as [q|]; [|exact R]. cbn [both] in R, X.
  destruct R as (_ & _ & _ & R). destruct X as (_ & _ & _ & X). cbn [p_geos p_times p_names p_at] in R, X.
  destruct (R 0 0 0) as (a & z & Ea & Eb & Lz); [cbn; lia|cbn; lia|cbn; lia|]. rewrite <- (X 0 0 0) in Eb; [|cbn; lia|cbn; lia|cbn; lia].
  assert (E : IZR z = (1 / 2)%R) by congruence. assert (E2 : IZR (2 * z) = IZR 1) by (rewrite mult_IZR; lra). apply eq_IZR in E2. lia.
Qed.
Print Assumptions C73_fraction_refuted.

(** KPI periods that are not media periods are dropped without notice. *)
Definition day4 := mkDate 2024 1 22.
Lemma weekly4 : evenly_spaced [day2; day3; day4].
Proof. apply interval_ok. reflexivity. Qed.
Lemma comes_back_as : forall d d2, acceptable d2 -> i_kpi_type d2 = "non_revenue" ->
  (exists m r, save d = Ok m /\ load m = new_input r /\ read_back d2 r) ->
  exists m e, save d = Ok m /\ load m = Ok e /\ m_times (i_kpi e) = m_times (i_kpi d2) /\ both same_panel (i_controls d2) (i_controls e).
Proof.
  intros d d2 A K (m & r & S & L & R). pose proof (read_acceptable d2 r A R) as Ar. apply accepts in Ar. exists m, (validate_scenarios r).
  split; [exact S|]. split; [rewrite L; exact Ar|]. pose proof (C72_kept _ _ Ar) as W. destruct R as ((_ & Rt & _) & Rk & _ & Rc & _).
  destruct W as [[-> _]|(E & _)]; [split; [exact Rt|exact Rc]|]. congruence.
Qed.
Ltac bounded := intros;
  repeat match goal with H : ?i < ?n |- _ => is_var i; let m := eval cbn in n in change (i < m) in H; destruct i as [|[|[|i]]]; try (exfalso; lia); clear H end;
  reflexivity.
Theorem C73_periods_refuted :
  ~ (forall given d m e, new_input given = Ok d -> save d = Ok m -> load m = Ok e -> m_times (i_kpi e) = m_times (i_kpi d)).
Proof.
  intros H. set (d := small [day1; day2; day3] [day2; day3; day4] [] None).
  assert (N : new_input d = Ok d) by (apply small_new; [intros x E; discriminate|cbn; lia|apply weekly|apply weekly4]).
  destruct (comes_back_as d (small [day2; day3] [day2; day3; day4] [] None)) as (m & e & Sv & Ld & T & _).
  - apply small_acceptable; [intros x E; discriminate|cbn; lia|apply weekly|apply weekly4].
  - reflexivity.
  - eexists. eexists. split; [lazy -[IZR]; reflexivity|]. split; [lazy -[new_input IZR]; reflexivity|].
    unfold read_back. repeat split; try exact Logic.I; bounded.
  - pose proof (H d d m e N Sv Ld) as X. rewrite T in X. discriminate.
Qed.
Print Assumptions C73_periods_refuted.
(** Controls of the same name are merged. *)
Theorem C73_controls_refuted :
  ~ (forall given d m e p q, new_input given = Ok d -> save d = Ok m -> load m = Ok e -> i_controls d = Some p -> i_controls e = Some q ->
       p_names q = p_names p).
Proof.
  intros H. set (d := small [day1; day2; day3] [day1; day2; day3] ["a"; "a"] None).
  assert (N : new_input d = Ok d) by (apply small_new; [intros x E; discriminate|cbn; lia|apply weekly|apply weekly]).
  destruct (comes_back_as d (small [day1; day2; day3] [day1; day2; day3] ["a"] None)) as (m & e & Sv & Ld & _ & C).
  - apply small_acceptable; [intros x E; discriminate|cbn; lia|apply weekly|apply weekly].
  - reflexivity.
  - eexists. eexists. split; [lazy -[IZR]; reflexivity|]. split; [lazy -[new_input IZR]; reflexivity|].
    unfold read_back. repeat split; try exact Logic.I; bounded.
  - cbn [small small_controls i_controls both] in C. destruct (i_controls e) as [q|] eqn:Q; [|exact C]. destruct C as (_ & _ & C & _).
    pose proof (H d d m e _ q N Sv Ld eq_refl Q) as X. rewrite C in X. discriminate.
Qed.
Print Assumptions C73_controls_refuted.
