(** Properties C20 (time selections), C44 (date buckets) and C51 (period bounds). *)
From Coq Require Import ZArith List Bool Lia Sorted Arith.
From Verif Require Import M_Base M_Time S_Time P_Spec P_Time P_Period.
Import ListNotations.
Open Scope Z_scope.

(** C20. Time coordinates are accepted exactly when there are at least two and they never go back. *)
Theorem C20_coordinates : forall l,
  (time_coordinates l = Ok l <-> (2 <= length l)%nat /\ not_decreasing l) /\
  (time_coordinates l = Ok l \/ time_coordinates l = Err ValueError).
Proof.
  intros l. split; [apply time_coordinates_ok|]. unfold time_coordinates.
  destruct (Nat.leb (length l) 1), (negb (nondecreasing l)); auto.
Qed.
Print Assumptions C20_coordinates.

(** C20. It is false that accepted coordinates are strictly increasing, as the error message says. *)
Theorem C20_strict_coordinates_refuted : ~ (forall l, time_coordinates l = Ok l -> increasing l).
Proof.
  intros H. specialize (H [mkDate 2024 1 1; mkDate 2024 1 1] eq_refl).
  apply StronglySorted_inv in H. destruct H as [_ H]. inversion H; subst. eapply before_irrefl; eauto.
Qed.
Print Assumptions C20_strict_coordinates_refuted.

(** C20. The expansion of a selection, with a missing bound standing for the first or last date: the
    whole range is reported as "no selection", any other selection is exactly the contiguous stretch of
    coordinates between the bounds, and ValueError is raised exactly for unknown or crossed bounds. *)
Theorem C20_expansion : forall all first last r q s e, time_coordinates all = Ok all ->
  all = first :: r -> all = q ++ [last] -> (s <> None \/ e <> None) ->
  let s0 := match s with Some d => d | None => first end in
  let e0 := match e with Some d => d | None => last end in
  (expand_selected_time_dims all s e = Ok None <-> s0 = first /\ e0 = last) /\
  (forall sel, expand_selected_time_dims all s e = Ok (Some sel) <->
     ~ (s0 = first /\ e0 = last) /\ In s0 all /\ In e0 all /\ ~ before e0 s0 /\ selection all s0 e0 sel) /\
  (forall x, expand_selected_time_dims all s e = Err x <->
     x = ValueError /\ (~ In s0 all \/ ~ In e0 all \/ before e0 s0)).
Proof.
  intros all first last r q s e Ht E1 E2 Hne. apply time_coordinates_ok in Ht.
  apply (expand_spec all first last r q s e); tauto.
Qed.
Print Assumptions C20_expansion.

(** C20. No bounds, no selection. *)
Theorem C20_no_bounds : forall all, expand_selected_time_dims all None None = Ok None /\ get_selected_dates all None = Ok all.
Proof. intros [|a r]; split; reflexivity. Qed.
Print Assumptions C20_no_bounds.

(** C20. Selected dates are the stretch from start to end, both included. *)
Theorem C20_selected_dates : forall all s e, time_coordinates all = Ok all ->
  (forall sel, get_selected_dates all (Some (s, e)) = Ok sel <-> In s all /\ In e all /\ ~ before e s /\ selection all s e sel) /\
  (forall x, get_selected_dates all (Some (s, e)) = Err x <-> x = ValueError /\ (~ In s all \/ ~ In e all \/ before e s)).
Proof. exact selected_spec. Qed.
Print Assumptions C20_selected_dates.

Example C20_concrete :
  let all := [mkDate 2023 12 18; mkDate 2023 12 25; mkDate 2024 1 1; mkDate 2024 1 8] in
  time_coordinates all = Ok all /\
  expand_selected_time_dims all (Some (mkDate 2023 12 25)) None = Ok (Some [mkDate 2023 12 25; mkDate 2024 1 1; mkDate 2024 1 8]) /\
  expand_selected_time_dims all (Some (mkDate 2023 12 18)) (Some (mkDate 2024 1 8)) = Ok None /\
  expand_selected_time_dims all (Some (mkDate 2024 1 1)) (Some (mkDate 2023 12 25)) = Err ValueError.
Proof. repeat split; reflexivity. Qed.

(** C51. The ordinal of a date counts calendar days. *)
Theorem C51_ordinal_counts_days :
  ordinal (mkDate 1 1 1) = 1 /\ (forall a b, next_day a b -> ordinal b = ordinal a + 1) /\
  (forall a b, valid_date a -> valid_date b -> (ordinal a < ordinal b <-> before a b)).
Proof.
  split; [reflexivity|]. split; [exact next_day_ordinal|]. intros a b Ha Hb. split; [|apply ordinal_before; auto].
  intros H. destruct (date_ltb a b) eqn:E; [apply date_ltb_iff; auto|]. apply date_ltb_nlt in E. exfalso.
  destruct (date_ltb b a) eqn:E2; [apply date_ltb_iff in E2; pose proof (ordinal_before b a Hb Ha E2); lia|].
  apply date_ltb_nlt in E2. rewrite (before_total a b E E2) in H. lia.
Qed.
Print Assumptions C51_ordinal_counts_days.

(** C51. The periods of the selected dates start at those dates, are non-empty, and each ends where
    the next begins. *)
Theorem C51_contiguous_periods : forall all sel b, Forall valid_date all -> time_coordinates all = Ok all -> increasing all ->
  get_period_bounds all sel = Ok b ->
  exists l, get_selected_dates all sel = Ok l /\ map fst b = map ordinal l /\
    (forall i p q, nth_error b i = Some p -> nth_error b (S i) = Some q -> snd p = fst q) /\
    (forall p, In p b -> fst p < snd p).
Proof. exact period_bounds_spec. Qed.
Print Assumptions C51_contiguous_periods.

(** C51. They exist exactly for regularly spaced coordinates and selections of two dates or more. *)
Theorem C51_accepts : forall all sel, (exists b, get_period_bounds all sel = Ok b) <->
  ((exists c, forall x, In x (intervals all) -> x = c) \/ (forall x, In x (intervals all) -> In x [28; 29; 30; 31]) \/
   (forall x, In x (intervals all) -> In x [90; 91; 92]) \/ (forall x, In x (intervals all) -> In x [365; 366])) /\
  exists l, get_selected_dates all sel = Ok l /\ (2 <= length l)%nat.
Proof.
  intros all sel. rewrite <- is_regular_iff. unfold get_period_bounds. split.
  - intros [b H]. apply raise_if_ok in H. destruct H as [H1 H]. apply negb_false_iff in H1. split; auto.
    destruct (get_selected_dates all sel) as [l|]; [|discriminate]. cbn [rbind] in H. apply raise_if_ok in H. destruct H as [H _].
    exists l. split; auto. apply Nat.ltb_ge. auto.
  - intros [H1 [l [-> H2]]]. rewrite H1. cbn [negb raise_if rbind]. apply Nat.ltb_ge in H2. rewrite H2. cbn. eauto.
Qed.
Print Assumptions C51_accepts.

(** C51. Length of the last period: the common interval for fixed cadences outside the calendar
    ranges; the same day one month, one quarter or one year later for calendar cadences. *)
Theorem C51_last_period : forall all sel b l d, time_coordinates all = Ok all -> valid_date d ->
  get_period_bounds all sel = Ok b -> get_selected_dates all sel = Ok (l ++ [d]) ->
  exists pre e, b = pre ++ [(ordinal d, e)] /\
  (forall c, (forall x, In x (intervals all) -> x = c) -> ~ In c [28; 29; 30; 31; 90; 91; 92; 365; 366] -> e = ordinal d + c) /\
  ((forall x, In x (intervals all) -> In x [28; 29; 30; 31]) -> day d <= 28 -> exists d', valid_date d' /\ months_later d 1 d' /\ e = ordinal d') /\
  ((forall x, In x (intervals all) -> In x [90; 91; 92]) -> day d <= 28 -> exists d', valid_date d' /\ months_later d 3 d' /\ e = ordinal d') /\
  ((forall x, In x (intervals all) -> In x [365; 366]) -> day d <= 28 -> exists d', valid_date d' /\ months_later d 12 d' /\ e = ordinal d').
Proof.
  intros all sel b l d Ht Hd H Hl. apply time_coordinates_ok in Ht. destruct Ht as [Hlen _].
  unfold get_period_bounds in H. apply raise_if_ok in H. destruct H as [_ H].
  rewrite Hl in H. cbn [rbind] in H. apply raise_if_ok in H. destruct H as [_ H]. injection H as <-.
  destruct (bounds_last all l d) as [pre E]. exists pre, (last_end all d). split; auto. unfold last_end.
  assert (Hx : exists x, In x (intervals all)).
  { destruct (intervals all) as [|x iv] eqn:Ei; [|exists x; left; auto]. pose proof (intervals_length all) as Hi. rewrite Ei in Hi. simpl in Hi. lia. }
  destruct Hx as [x Hx].
  assert (Hno : forall ref ref', all_in (intervals all) ref = true -> (forall x, In x (intervals all) -> In x ref') -> (forall y, In y ref -> ~ In y ref') -> False).
  { intros ref ref' H1 H2 H3. apply (H3 x); auto. rewrite all_in_iff in H1. auto. }
  split; [|split; [|split]].
  - intros c Hc Hn.
    assert (Hf : forall ref, (forall y, In y ref -> In y [28; 29; 30; 31; 90; 91; 92; 365; 366]) -> all_in (intervals all) ref = false).
    { intros ref Hr. destruct (all_in (intervals all) ref) eqn:Ea; auto. exfalso. rewrite all_in_iff in Ea. apply Hn, Hr.
      rewrite <- (Hc x Hx). auto. }
    rewrite !Hf by (simpl; tauto). rewrite (interval_days_const all c Hlen Hc). reflexivity.
  - intros H1 Hd28. apply all_in_iff in H1. rewrite H1. exists (add_months d 1). auto using add_months_valid, add_months_later.
  - intros H1 Hd28. destruct (all_in (intervals all) [28; 29; 30; 31]) eqn:E1.
    { exfalso. eapply Hno; [exact E1|exact H1|]. simpl. lia. }
    apply all_in_iff in H1. rewrite H1. exists (add_months d 3). auto using add_months_valid, add_months_later.
  - intros H1 Hd28. destruct (all_in (intervals all) [28; 29; 30; 31]) eqn:E1.
    { exfalso. eapply Hno; [exact E1|exact H1|]. simpl. lia. }
    destruct (all_in (intervals all) [90; 91; 92]) eqn:E2.
    { exfalso. eapply Hno; [exact E2|exact H1|]. simpl. lia. }
    apply all_in_iff in H1. rewrite H1. exists (add_months d 12). auto using add_months_valid, add_months_later.
Qed.
Print Assumptions C51_last_period.

(** C51. It is false that equally spaced coordinates get periods of equal length: with one date every
    four weeks the last period is stretched to a calendar month. *)
Theorem C51_equal_spacing_refuted :
  ~ (forall all b c, Forall valid_date all -> time_coordinates all = Ok all -> increasing all ->
       (forall x, In x (intervals all) -> x = c) -> get_period_bounds all None = Ok b ->
       forall p, In p b -> snd p - fst p = c).
Proof.
  intros H.
  assert (Hb : exists b, get_period_bounds [mkDate 2023 3 6; mkDate 2023 4 3; mkDate 2023 5 1] None = Ok b /\
    In (ordinal (mkDate 2023 5 1), ordinal (mkDate 2023 6 1)) b).
  { eexists. split; [reflexivity|]. right. right. left. reflexivity. }
  destruct Hb as [b [Hb Hin]].
  specialize (H [mkDate 2023 3 6; mkDate 2023 4 3; mkDate 2023 5 1] b 28).
  assert (Hc : ordinal (mkDate 2023 6 1) - ordinal (mkDate 2023 5 1) = 28); [|vm_compute in Hc; discriminate].
  apply (H) with (p := (ordinal (mkDate 2023 5 1), ordinal (mkDate 2023 6 1))); auto.
  - repeat constructor; apply valid_iff; vm_compute; intuition discriminate.
  - apply ascending_iff. reflexivity.
  - intros x [<-|[<-|[]]]; reflexivity.
Qed.
Print Assumptions C51_equal_spacing_refuted.

Example C51_concrete :
  let weeks := [mkDate 2023 12 18; mkDate 2023 12 25; mkDate 2024 1 1] in
  let months := [mkDate 2023 11 1; mkDate 2023 12 1; mkDate 2024 1 1] in
  get_period_bounds weeks None = Ok [(738872, 738879); (738879, 738886); (738886, 738893)] /\
  get_period_bounds months (Some (mkDate 2023 12 1, mkDate 2024 1 1)) = Ok [(738855, 738886); (738886, 738917)].
Proof. split; reflexivity. Qed.

(** C44. Bucketers accept exactly the strictly increasing sequences; iterating an empty one fails. *)
Theorem C44_accepts : forall l,
  (increasing l /\ l <> [] <-> exists out, monthly l = Ok out) /\
  (increasing l /\ l <> [] <-> exists out, quarterly l = Ok out) /\
  (increasing l /\ l <> [] <-> exists out, yearly l = Ok out) /\
  (~ increasing l -> monthly l = Err ValueError /\ quarterly l = Err ValueError /\ yearly l = Err ValueError).
Proof.
  intros l. unfold monthly, quarterly, yearly, bucketer.
  destruct (ascending l) eqn:E; cbn [negb raise_if rbind].
  - apply ascending_iff in E. destruct l as [|a r]; cbn [generate_date_intervals].
    + assert (Hn : forall P : Prop, increasing [] /\ @nil date <> [] <-> exists out : list (date * date), Err IndexError = Ok out).
      { intros _. split; [intros [_ H]; congruence|intros [out H]; discriminate]. }
      split; [|split; [|split]]; try (apply (Hn True)). intros H. contradiction.
    + assert (Hy : forall x : list (date * date), increasing (a :: r) /\ a :: r <> [] <-> exists out, Ok x = Ok out).
      { intros x. split; [eauto|]. intros _. split; [auto|discriminate]. }
      split; [|split; [|split]]; try (apply Hy). intros H. contradiction.
  - assert (Hn : ~ increasing l) by (rewrite <- ascending_iff; congruence).
    assert (Hn2 : increasing l /\ l <> [] <-> exists out : list (date * date), Err ValueError = Ok out).
    { split; [intros [H _]; contradiction|intros [out H]; discriminate]. }
    split; [exact Hn2|split; [exact Hn2|split; [exact Hn2|]]]. auto.
Qed.
Print Assumptions C44_accepts.

(** C44. For every increasing list of dates with gaps shorter than ten months (eight for quarters, no
    restriction for years) the generated intervals are exactly the buckets opened by a date in the first
    seven days, from their first available date up to the first date of the next bucket, in order and
    without overlap. *)
Theorem C44_monthly : forall l out, Forall valid_date l -> gaps_at_most 308 l -> monthly l = Ok out ->
  (forall s e, In (s, e) out <-> day s <= 7 /\ bucket_interval month_no l s e) /\ in_order out.
Proof. exact monthly_spec. Qed.
Print Assumptions C44_monthly.

Theorem C44_quarterly : forall l out, Forall valid_date l -> gaps_at_most 252 l -> quarterly l = Ok out ->
  (forall s e, In (s, e) out <-> (day s <= 7 /\ In (month s) [1; 4; 7; 10]) /\ bucket_interval quarter_no l s e) /\ in_order out.
Proof.
  intros l out Hv Hg H. destruct (quarterly_spec l out Hv Hg H) as [H1 H2]. split; auto. intros s e. rewrite H1.
  assert (Hq : bucket_interval quarter_no l s e -> (month s = (quarter_number s - 1) * 3 + 1 <-> In (month s) [1; 4; 7; 10])).
  { intros [Hin _]. rewrite Forall_forall in Hv. specialize (Hv s Hin). apply valid_iff in Hv. unfold quarter_number. simpl.
    pose proof (Z.div_mod (month s - 1) 3 ltac:(lia)). pose proof (Z.mod_pos_bound (month s - 1) 3 ltac:(lia)). lia. }
  tauto.
Qed.
Print Assumptions C44_quarterly.

Theorem C44_yearly : forall l out, Forall valid_date l -> yearly l = Ok out ->
  (forall s e, In (s, e) out <-> (day s <= 7 /\ month s = 1) /\ bucket_interval year_no l s e) /\ in_order out.
Proof. exact yearly_spec. Qed.
Print Assumptions C44_yearly.

(** C44. Without the restriction on gaps the monthly claim is false: dates of the same month of
    different years end up in one interval. *)
Theorem C44_same_month_refuted :
  ~ (forall l out, Forall valid_date l -> monthly l = Ok out -> forall s e, In (s, e) out -> bucket_interval month_no l s e).
Proof.
  intros H. specialize (H [mkDate 2020 1 5; mkDate 2021 1 3; mkDate 2021 2 7] [(mkDate 2020 1 5, mkDate 2021 2 7)]).
  destruct (H) with (s := mkDate 2020 1 5) (e := mkDate 2021 2 7) as [_ [_ [_ [_ H5]]]]; auto.
  - repeat constructor; apply valid_iff; vm_compute; intuition discriminate.
  - left; auto.
  - specialize (H5 (mkDate 2021 1 3) ltac:(simpl; auto)).
    assert (E : month_no (mkDate 2021 1 3) = month_no (mkDate 2020 1 5)); [|vm_compute in E; discriminate].
    apply H5. unfold before. simpl. lia.
Qed.
Print Assumptions C44_same_month_refuted.

(** C44. It is false that every bucket but the last is reported from its first available date: monthly
    data dated the 15th yields no month at all. *)
Theorem C44_all_buckets_refuted :
  ~ (forall l out, Forall valid_date l -> gaps_at_most 31 l -> monthly l = Ok out ->
       forall s e, bucket_interval month_no l s e -> In (s, e) out).
Proof.
  intros H. apply (H [mkDate 2024 1 15; mkDate 2024 2 15; mkDate 2024 3 15] [] ) with (s := mkDate 2024 1 15) (e := mkDate 2024 2 15).
  - repeat constructor; apply valid_iff; vm_compute; intuition discriminate.
  - intros [|[|[|i]]] a b Ha Hb; simpl in *; try discriminate; injection Ha as <-; injection Hb as <-; vm_compute; discriminate.
  - reflexivity.
  - split; [left; auto|]. split; [right; left; auto|]. split; [unfold before; simpl; lia|]. split; [vm_compute; discriminate|].
    intros d [<-|[<-|[<-|[]]]]; unfold before, month_no; simpl; lia.
Qed.
Print Assumptions C44_all_buckets_refuted.

Example C44_concrete :
  let l := [mkDate 2023 12 4; mkDate 2023 12 25; mkDate 2024 1 1; mkDate 2024 1 29; mkDate 2024 2 5; mkDate 2024 4 1; mkDate 2025 1 6] in
  monthly l = Ok [(mkDate 2023 12 4, mkDate 2024 1 1); (mkDate 2024 1 1, mkDate 2024 2 5); (mkDate 2024 2 5, mkDate 2024 4 1); (mkDate 2024 4 1, mkDate 2025 1 6)] /\
  quarterly l = Ok [(mkDate 2024 1 1, mkDate 2024 4 1); (mkDate 2024 4 1, mkDate 2025 1 6)] /\
  yearly l = Ok [(mkDate 2024 1 1, mkDate 2025 1 6)].
Proof. repeat split; reflexivity. Qed.
