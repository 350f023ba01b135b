(** Proofs of property C98: saved data. *)
From Coq Require Import Reals ZArith String List Bool Lia Lra Sorted Permutation.
From Verif Require Import Lib_Sum Lib_Sort M_Base M_Time S_Time P_Time P_Period M_Hyper M_InputData S_InputData P_InputData P_DistSerde
  M_Marketing S_Marketing P_Marketing P_Marketing2 P_Marketing3 P_Marketing4 M_Planner S_Planner P_Planner.
Import ListNotations.
Local Open Scope string_scope.
Local Open Scope nat_scope.
Local Open Scope list_scope.

Lemma span_first : forall iv s t r, span iv = Ok s -> map fst iv = t :: r -> not_decreasing (t :: r) -> fst s = t.
Proof.
  intros [|[u i] iv] s t r H E N; [discriminate|]. cbn [span] in H. cbn [map fst] in E. assert (u = t) by congruence. subst u. assert (Er : map fst iv = r) by congruence.
  match type of H with Ok ?x = _ => assert (s = x) by congruence end. subst s. cbn [fst].
  assert (F : forall x, In x iv -> date_ltb (fst x) t = false).
  { intros x Hx. inversion N as [|? ? _ F]; subst. rewrite Forall_forall in F. apply date_ltb_nlt. apply F. apply in_map. exact Hx. }
  clear - F. induction iv as [|x iv IH]; [reflexivity|]. cbn [fold_left]. rewrite (F x) by (left; reflexivity). apply IH. intros y Hy. apply F. right. exact Hy.
Qed.
Lemma contains_between : forall s e t, contains (s, e) t = true <-> between s e t.
Proof. intros s e t. unfold contains, between. cbn [fst snd]. rewrite andb_true_iff, date_leb_iff, date_ltb_iff. tauto. Qed.
Lemma tells_contains : forall s e inside, tells s e inside -> forall t, inside t = contains (s, e) t.
Proof.
  intros s e inside H t. destruct (inside t) eqn:A; destruct (contains (s, e) t) eqn:B; auto.
  - apply H, contains_between in A. congruence.
  - apply contains_between, H in B. congruence.
Qed.

Lemma same_values : forall a b, (forall c, values c a = values c b) -> forall c x, fold_left plus (values c a) x = fold_left plus (values c b) x.
Proof. intros a b H c x. rewrite H. reflexivity. Qed.

Section Saved.
Variable d : input.
Hypothesis ok : acceptable d.
Hypothesis sv : savable d.
Variable m : marketing.
Hypothesis saved : save d = Ok m.
Variables (first : date) (rest : list date).
Hypothesis times : media_time d = Ok (first :: rest).
Variables (s e : date) (inside : date -> bool).
Hypothesis tell : tells s e inside.

Lemma mspend_none : forall sp, i_media d = None -> i_media_spend d = Some sp -> False.
Proof. intros sp H E. rewrite (spend_media d sv H) in E. discriminate. Qed.

Lemma saved_points : exists iv sp, mk_points m = map (fun gt => closed d iv (fst gt) (snd gt)) (list_prod (m_geos (i_kpi d)) (first :: rest)) ++ media_total d sp ++ rf_total d sp /\
  fst sp = first /\ evenly_spaced (first :: rest) /\ NoDup (first :: rest) /\ incl (m_times (i_kpi d)) (first :: rest).
Proof.
  destruct (media_time_ok d ok sv) as (mt & Em & Es & Nm & Im & Pm). assert (mt = first :: rest) by congruence. subst mt.
  destruct (intervals_ok _ Es) as (iv & Eiv & Fiv). destruct (span_ok iv) as (sp & Esp); [intros ->; discriminate|].
  pose proof (save_ok d ok sv _ Pm Es iv Eiv sp Esp Em) as Sv. exists iv, sp.
  split; [assert (Q : m = mkMarketing (map (fun gt => closed d iv (fst gt) (snd gt)) (list_prod (m_geos (i_kpi d)) (first :: rest)) ++ media_total d sp ++ rf_total d sp) (make_metadata d (first :: rest))) by congruence; rewrite Q; reflexivity|].
  split; [|auto]. apply (span_first iv sp first rest Esp Fiv). apply Es.
Qed.

Lemma grid_entries : forall (variables : point -> list (string * option R)) (f : string -> date -> list (string * option R)) iv G mt,
  (forall g t, variables (closed d iv g t) = f g t) ->
  entries variables (s, e) (map (fun gt => closed d iv (fst gt) (snd gt)) (list_prod G mt)) = flat_map (fun g => flat_map (fun t => if inside t then f g t else []) mt) G.
Proof.
  intros variables f iv G mt H. unfold entries. rewrite flat_map_map, flat_map_prod. apply flat_map_ext. intros g. apply flat_map_ext. intros t. cbn [fst snd].
  rewrite (tells_contains s e inside tell t), H. reflexivity.
Qed.
Lemma entries_app : forall variables i a b, entries variables i (a ++ b) = entries variables i a ++ entries variables i b.
Proof. intros. unfold entries. apply flat_map_app. Qed.

Lemma media_side : entries media_entries (s, e) (mk_points m) =
  kind_entries (m_geos (i_kpi d)) (first :: rest) first inside (names_of (i_media d)) (names_of (i_organic_media d)) (i_media_spend d).
Proof.
  destruct saved_points as (iv & sp & -> & E1 & _). unfold kind_entries. rewrite !entries_app. f_equal.
  - apply grid_entries. intros g t. unfold media_entries. cbn [closed dp_media]. rewrite map_app. unfold mvars, named. f_equal.
    + destruct (i_media d) as [p|]; [|reflexivity]. cbn [names_of]. rewrite map_map. reflexivity.
    + destruct (i_organic_media d) as [p|]; [|reflexivity]. cbn [names_of]. rewrite map_map. reflexivity.
  - unfold media_total, rf_total. replace (entries media_entries (s, e) (match i_rf_spend d with Some (SpendTotal n a) => [aggregated_rf_point sp n a] | _ => [] end)) with (@nil (string * option R)).
    2: { destruct (i_rf_spend d) as [[?|n a]|]; try reflexivity. unfold entries. cbn [flat_map]. destruct (contains _ _); reflexivity. }
    rewrite app_nil_r. destruct (i_media_spend d) as [[p|n a]|]; try reflexivity. unfold entries. cbn [flat_map aggregated_media_point dp_start].
    rewrite E1, <- (tells_contains s e inside tell first), app_nil_r. destruct (inside first); [|reflexivity].
    unfold media_entries, aggregated_media_point. cbn [dp_media]. rewrite map_map. reflexivity.
Qed.
Lemma rf_side : entries rf_entries (s, e) (mk_points m) =
  kind_entries (m_geos (i_kpi d)) (first :: rest) first inside (names_of (i_reach d)) (names_of (i_organic_reach d)) (i_rf_spend d).
Proof.
  destruct saved_points as (iv & sp & -> & E1 & _). unfold kind_entries. rewrite !entries_app. f_equal.
  - apply grid_entries. intros g t. unfold rf_entries. cbn [closed dp_rf]. rewrite map_app. unfold rvars, named. f_equal.
    + pose proof (reach_frequency d sv) as H. destruct (i_reach d) as [r|]; [|reflexivity]. destruct (i_frequency d) as [f|].
      * cbn [names_of]. rewrite map_map. reflexivity.
      * destruct H as [_ H]. discriminate (H eq_refl).
    + pose proof (organic_reach_frequency d sv) as H. destruct (i_organic_reach d) as [r|]; [|reflexivity]. destruct (i_organic_frequency d) as [f|].
      * cbn [names_of]. rewrite map_map. reflexivity.
      * destruct H as [_ H]. discriminate (H eq_refl).
  - unfold media_total, rf_total. replace (entries rf_entries (s, e) (match i_media_spend d with Some (SpendTotal n a) => [aggregated_media_point sp n a] | _ => [] end)) with (@nil (string * option R)).
    2: { destruct (i_media_spend d) as [[?|n a]|]; try reflexivity. unfold entries. cbn [flat_map]. destruct (contains _ _); reflexivity. }
    cbn [app]. destruct (i_rf_spend d) as [[p|n a]|]; try reflexivity. unfold entries. cbn [flat_map aggregated_rf_point dp_start].
    rewrite E1, <- (tells_contains s e inside tell first), app_nil_r. destruct (inside first); [|reflexivity].
    unfold rf_entries, aggregated_rf_point. cbn [dp_rf]. rewrite map_map. reflexivity.
Qed.

(** The names. *)
Lemma media_names : forall c, In c (media_channels m) <-> In c (names_of (i_media d)) \/ In c (names_of (i_organic_media d)).
Proof.
  intros c. unfold media_channels. rewrite sorted_in. destruct saved_points as (iv & sp & -> & _). rewrite flat_map_app, in_app_iff, flat_map_app, in_app_iff.
  assert (Z : forall g t, In c (map mv_name (dp_media (closed d iv g t))) <-> In c (names_of (i_media d)) \/ In c (names_of (i_organic_media d))).
  { intros g t. cbn [closed dp_media]. unfold mvars. rewrite map_app, in_app_iff. destruct (i_media d), (i_organic_media d); cbn [names_of]; rewrite ?map_map; cbn [mv_name map]; rewrite ?map_id; tauto. }
  split.
  - intros [H|[H|H]].
    + apply in_flat_map in H. destruct H as (p & Hp & H). apply in_map_iff in Hp. destruct Hp as ([g t] & <- & _). apply Z in H. exact H.
    + left. unfold media_total in H. destruct (i_media_spend d) as [[p|n a]|] eqn:E; try destruct H. cbn [flat_map aggregated_media_point dp_media] in H.
      rewrite app_nil_r, map_map in H. cbn [mv_name] in H. destruct (i_media d) as [q|] eqn:Q; [|exfalso; exact (mspend_none _ Q E)].
      pose proof (media_spend_names d ok _ _ Q E) as En. cbn [spend_names] in En. cbn [names_of]. rewrite En.
      apply in_map_iff in H. destruct H as ([k b] & <- & H). apply in_combine_r in H. exact H.
    + unfold rf_total in H. destruct (i_rf_spend d) as [[p|n a]|]; destruct H.
  - intros H. left. destruct (m_geos (i_kpi d)) as [|g G] eqn:EG; [exfalso; exact (geos_ne d sv EG)|].
    apply in_flat_map. exists (closed d iv g first). split; [apply in_map_iff; exists (g, first); split; [reflexivity|apply in_prod; left; reflexivity]|].
    apply Z. exact H.
Qed.
Lemma rf_names : forall c, In c (rf_channels m) <-> In c (names_of (i_reach d)) \/ In c (names_of (i_organic_reach d)).
Proof.
  intros c. unfold rf_channels. rewrite sorted_in. destruct saved_points as (iv & sp & -> & _). rewrite flat_map_app, in_app_iff, flat_map_app, in_app_iff.
  assert (Z : forall g t, In c (map rv_name (dp_rf (closed d iv g t))) <-> In c (names_of (i_reach d)) \/ In c (names_of (i_organic_reach d))).
  { intros g t. cbn [closed dp_rf]. unfold rvars. rewrite map_app, in_app_iff.
    pose proof (reach_frequency d sv) as H1. pose proof (organic_reach_frequency d sv) as H2.
    destruct (i_reach d), (i_frequency d); try (destruct H1 as [H1 H1']; (discriminate (H1 eq_refl) || discriminate (H1' eq_refl)));
    destruct (i_organic_reach d), (i_organic_frequency d); try (destruct H2 as [H2 H2']; (discriminate (H2 eq_refl) || discriminate (H2' eq_refl)));
    cbn [names_of]; rewrite ?map_map; cbn [rv_name map]; rewrite ?map_id; tauto. }
  split.
  - intros [H|[H|H]].
    + apply in_flat_map in H. destruct H as (p & Hp & H). apply in_map_iff in Hp. destruct Hp as ([g t] & <- & _). apply Z in H. exact H.
    + unfold media_total in H. destruct (i_media_spend d) as [[p|n a]|]; destruct H.
    + left. unfold rf_total in H. destruct (i_rf_spend d) as [[p|n a]|] eqn:E; try destruct H. cbn [flat_map aggregated_rf_point dp_rf] in H.
      rewrite app_nil_r, map_map in H. cbn [rv_name] in H. destruct (i_reach d) as [q|] eqn:Q; [|rewrite (spend_reach d sv Q) in E; discriminate].
      pose proof (reach_spend_names d ok _ _ Q E) as En. cbn [spend_names] in En. cbn [names_of]. rewrite En.
      apply in_map_iff in H. destruct H as ([k b] & <- & H). apply in_combine_r in H. exact H.
  - intros H. left. destruct (m_geos (i_kpi d)) as [|g G] eqn:EG; [exfalso; exact (geos_ne d sv EG)|].
    apply in_flat_map. exists (closed d iv g first). split; [apply in_map_iff; exists (g, first); split; [reflexivity|apply in_prod; left; reflexivity]|].
    apply Z. exact H.
Qed.

Lemma spend_full : forall sp x, i_media_spend d = Some sp \/ i_rf_spend d = Some sp -> in_spend sp x -> x <> None.
Proof.
  intros sp x E Hx. destruct ok as (_ & _ & Na & _). apply Na. right. right. right. right. exists sp. split; [|exact Hx]. destruct E as [E|E]; [left|right; left]; exact E.
Qed.
Lemma of_names : forall o, of_option p_names o = names_of o.
Proof. intros [p|]; reflexivity. Qed.
Lemma nodup_join : forall A (a b : list A), NoDup a -> NoDup b -> (forall x, In x a -> ~ In x b) -> NoDup (a ++ b).
Proof.
  intros A a b Na Nb H. induction Na as [|x a Hx Na IH]; [exact Nb|]. cbn [app]. constructor.
  - rewrite in_app_iff. intros [Q|Q]; [contradiction|]. exact (H x (or_introl eq_refl) Q).
  - apply IH. intros y Hy. apply H. right. exact Hy.
Qed.
Lemma distinct_names : NoDup (names_of (i_media d) ++ names_of (i_organic_media d)) /\ NoDup (names_of (i_reach d) ++ names_of (i_organic_reach d)) /\
  (forall c, In c (names_of (i_reach d)) \/ In c (names_of (i_organic_reach d)) -> ~ (In c (names_of (i_media d)) \/ In c (names_of (i_organic_media d)))).
Proof.
  pose proof (channels_nodup d ok) as H. rewrite !of_names in H. apply nodup_app in H. destruct H as (N1 & H & D1). apply nodup_app in H. destruct H as (N2 & H & D2).
  apply nodup_app in H. destruct H as (N3 & H & D3). apply nodup_app in H. destruct H as (N4 & _ & _).
  split; [apply nodup_join; auto; intros c Hc Q; apply (D1 c Hc); rewrite !in_app_iff; tauto|].
  split; [apply nodup_join; auto; intros c Hc Q; apply (D2 c Hc); rewrite !in_app_iff; tauto|].
  intros c [Hc|Hc] [Q|Q].
  - apply (D1 c Q). rewrite !in_app_iff. tauto.
  - apply (D2 c Hc). rewrite !in_app_iff. tauto.
  - apply (D1 c Q). rewrite !in_app_iff. tauto.
  - apply (D3 c Q). rewrite !in_app_iff. tauto.
Qed.

Lemma media_get : exists D, media_channel_spends m (s, e) = Ok D /\
  (forall c k, nth_error (names_of (i_media d)) k = Some c ->
     get D c = Some (Some (match i_media_spend d with Some sp => spent sp first inside k | None => 0%R end))) /\
  (forall c, In c (names_of (i_organic_media d)) -> get D c = Some (Some 0%R)) /\
  (forall c, (exists x, get D c = Some x) <-> In c (names_of (i_media d)) \/ In c (names_of (i_organic_media d))).
Proof.
  destruct (media_spends_ok m (s, e)) as (D & E & K & G). exists D. split; [exact E|]. destruct distinct_names as (N & _ & _).
  destruct saved_points as (_ & _ & _ & _ & Es & Nt & It). rewrite media_side in G.
  assert (Nm : forall sp, i_media_spend d = Some sp -> spend_names sp = names_of (i_media d)).
  { intros sp Q. destruct (i_media d) as [q|] eqn:W; [|exfalso; exact (mspend_none _ W Q)]. symmetry. exact (media_spend_names d ok _ _ W Q). }
  split; [|split].
  - intros c k Hk. rewrite G by (apply media_names; left; eapply nth_error_In; exact Hk). f_equal.
    apply (paid_spent _ _ (m_times (i_kpi d))); auto.
    + intros p Q. apply (granular_labels d sv). left. exact Q.
    + apply (geos_nodup d ok).
    + apply (times_nodup d sv).
    + apply (kpi_spaced d ok).
    + apply Es.
    + intros sp x Q. apply spend_full. left. exact Q.
  - intros c Hc. rewrite G by (apply media_names; right; exact Hc). f_equal. apply organic_zero; auto.
  - intros c. rewrite <- get_in, K. apply media_names.
Qed.
Lemma rf_get : exists D, rf_channel_spends m (s, e) = Ok D /\
  (forall c k, nth_error (names_of (i_reach d)) k = Some c ->
     get D c = Some (Some (match i_rf_spend d with Some sp => spent sp first inside k | None => 0%R end))) /\
  (forall c, In c (names_of (i_organic_reach d)) -> get D c = Some (Some 0%R)) /\
  (forall c, (exists x, get D c = Some x) <-> In c (names_of (i_reach d)) \/ In c (names_of (i_organic_reach d))).
Proof.
  destruct (rf_spends_ok m (s, e)) as (D & E & K & G). exists D. split; [exact E|]. destruct distinct_names as (_ & N & _).
  destruct saved_points as (_ & _ & _ & _ & Es & Nt & It). rewrite rf_side in G.
  assert (Nm : forall sp, i_rf_spend d = Some sp -> spend_names sp = names_of (i_reach d)).
  { intros sp Q. destruct (i_reach d) as [q|] eqn:W; [|rewrite (spend_reach d sv W) in Q; discriminate]. symmetry. exact (reach_spend_names d ok _ _ W Q). }
  split; [|split].
  - intros c k Hk. rewrite G by (apply rf_names; left; eapply nth_error_In; exact Hk). f_equal.
    apply (paid_spent _ _ (m_times (i_kpi d))); auto.
    + intros p Q. apply (granular_labels d sv). right. left. exact Q.
    + apply (geos_nodup d ok).
    + apply (times_nodup d sv).
    + apply (kpi_spaced d ok).
    + apply Es.
    + intros sp x Q. apply spend_full. right. exact Q.
  - intros c Hc. rewrite G by (apply rf_names; right; exact Hc). f_equal. apply organic_zero; auto.
  - intros c. rewrite <- get_in, K. apply rf_names.
Qed.

(** Everything together. *)
Definition paid_spend (names : list string) (sp : option spend) (c : string) (x : option R) : Prop :=
  exists y, spent_by names sp first inside c y /\ x = Some y.
Lemma all_get : exists D, all_channel_spends m (s, e) = Ok D /\
  (forall c y, spent_by (names_of (i_media d)) (i_media_spend d) first inside c y -> get D c = Some (Some y)) /\
  (forall c y, spent_by (names_of (i_reach d)) (i_rf_spend d) first inside c y -> get D c = Some (Some y)) /\
  (forall c, In c (names_of (i_organic_media d)) \/ In c (names_of (i_organic_reach d)) -> get D c = Some (Some 0%R)) /\
  (forall c, (exists x, get D c = Some x) -> In c (names_of (i_media d)) \/ In c (names_of (i_reach d)) \/ In c (names_of (i_organic_media d)) \/ In c (names_of (i_organic_reach d))).
Proof.
  destruct (all_spends_ok m (s, e)) as (D & M & F & ED & EM & EF & G). exists D. split; [exact ED|].
  destruct media_get as (M' & EM' & M1 & M2 & M3). assert (M' = M) by congruence. subst M'.
  destruct rf_get as (F' & EF' & F1 & F2 & F3). assert (F' = F) by congruence. subst F'. destruct distinct_names as (_ & _ & Dj).
  assert (No : forall c, In c (names_of (i_reach d)) \/ In c (names_of (i_organic_reach d)) -> get M c = None).
  { intros c Hc. destruct (get M c) as [x|] eqn:Q; [|reflexivity]. exfalso. apply (Dj c Hc). apply M3. eauto. }
  split; [|split; [|split]].
  - intros c y (k & Hk & ->). rewrite G, (M1 c k Hk). reflexivity.
  - intros c y (k & Hk & ->). rewrite G, No by (left; eapply nth_error_In; exact Hk). apply (F1 c k Hk).
  - intros c [Hc|Hc]; rewrite G; [rewrite (M2 c Hc); reflexivity|rewrite No by (right; exact Hc); apply (F2 c Hc)].
  - intros c [x Hx]. rewrite G in Hx. destruct (get M c) as [z|] eqn:Q.
    + assert (W : exists x, get M c = Some x) by eauto. apply M3 in W. tauto.
    + assert (W : exists x, get F c = Some x) by eauto. apply F3 in W. tauto.
Qed.
End Saved.

(** *** Adjacent intervals, for any message *)
Lemma contains_split : forall a b c t, ~ before b a -> ~ before c b -> contains (a, c) t = contains (a, b) t || contains (b, c) t.
Proof.
  intros a b c t H1 H2. unfold contains. cbn [fst snd]. apply date_leb_iff in H1, H2.
  destruct (date_leb b t) eqn:E.
  - assert (A : date_leb a t = true).
    { apply date_leb_iff. intros Q. apply date_leb_iff in E, H1. apply E. destruct (date_ltb b a) eqn:W; [apply date_ltb_iff in W; contradiction|]. clear W. unfold before in *. lia. }
    assert (B : date_ltb t b = false) by (apply date_ltb_nlt; apply date_leb_iff; exact E). rewrite A, B. destruct (date_ltb t c); reflexivity.
  - assert (B : date_ltb t b = true) by (destruct (date_ltb t b) eqn:Q; [reflexivity|]; apply date_ltb_nlt, date_leb_iff in Q; congruence).
    assert (C : date_ltb t c = true).
    { apply date_ltb_iff. apply date_ltb_iff in B. apply date_leb_iff in H2. unfold before in *. lia. }
    rewrite B, C. destruct (date_leb a t); reflexivity.
Qed.
Lemma plus_zero : forall a, plus (Some 0%R) a = a.
Proof. intros [a|]; cbn; [f_equal; lra|reflexivity]. Qed.
Lemma plus_assoc : forall a b c, plus (plus a b) c = plus a (plus b c).
Proof. intros [a|] [b|] [c|]; cbn; try reflexivity. f_equal. lra. Qed.
Lemma plus_comm : forall a b, plus a b = plus b a.
Proof. intros [a|] [b|]; cbn; try reflexivity. f_equal. lra. Qed.
Lemma fold_plus : forall l a, fold_left plus l a = plus a (fold_left plus l (Some 0%R)).
Proof.
  induction l as [|x l IH]; intros a; cbn [fold_left]; [rewrite plus_comm, plus_zero; reflexivity|].
  rewrite (IH (plus a x)), (IH (plus (Some 0%R) x)), plus_zero. apply plus_assoc.
Qed.
Lemma sum_split : forall variables a b c points n, ~ before b a -> ~ before c b ->
  fold_left plus (values n (entries variables (a, c) points)) (Some 0%R) =
  plus (fold_left plus (values n (entries variables (a, b) points)) (Some 0%R)) (fold_left plus (values n (entries variables (b, c) points)) (Some 0%R)).
Proof.
  intros variables a b c points n H1 H2. induction points as [|p points IH]; [cbn; f_equal; lra|].
  unfold entries in *. cbn [flat_map]. rewrite !values_app, !fold_left_app.
  rewrite (fold_plus (values n (flat_map _ points)) (fold_left plus (values n (if contains (a, c) (dp_start p) then variables p else [])) (Some 0%R))), IH.
  rewrite (fold_plus (values n (flat_map (fun p => if contains (a, b) (dp_start p) then variables p else []) points)) (fold_left plus _ _)).
  rewrite (fold_plus (values n (flat_map (fun p => if contains (b, c) (dp_start p) then variables p else []) points)) (fold_left plus _ _)).
  rewrite (contains_split a b c (dp_start p) H1 H2).
  assert (D : contains (a, b) (dp_start p) = true -> contains (b, c) (dp_start p) = true -> False).
  { unfold contains. cbn [fst snd]. rewrite !andb_true_iff, date_ltb_iff, !date_leb_iff. tauto. }
  generalize (fold_left plus (values n (flat_map (fun p0 => if contains (a, b) (dp_start p0) then variables p0 else []) points)) (Some 0%R)) as X.
  generalize (fold_left plus (values n (flat_map (fun p0 => if contains (b, c) (dp_start p0) then variables p0 else []) points)) (Some 0%R)) as Y. intros Y X.
  destruct (contains (a, b) (dp_start p)), (contains (b, c) (dp_start p)); cbn [orb]; [exfalso; auto| | |];
    change (fold_left plus (values n []) (Some 0%R)) with (Some 0%R); rewrite ?plus_zero; rewrite ?plus_assoc; try reflexivity.
  rewrite <- !plus_assoc. f_equal. apply plus_comm.
Qed.
Definition added (o p : option (option R)) : option (option R) := match o, p with Some x, Some y => Some (plus x y) | _, _ => None end.
Lemma all_split : forall m a b c, ~ before b a -> ~ before c b ->
  exists D1 D2 D3, all_channel_spends m (a, b) = Ok D1 /\ all_channel_spends m (b, c) = Ok D2 /\ all_channel_spends m (a, c) = Ok D3 /\
  forall n, get D3 n = added (get D1 n) (get D2 n).
Proof.
  intros m a b c H1 H2.
  destruct (all_spends_ok m (a, b)) as (D1 & M1 & F1 & E1 & EM1 & EF1 & G1). destruct (all_spends_ok m (b, c)) as (D2 & M2 & F2 & E2 & EM2 & EF2 & G2).
  destruct (all_spends_ok m (a, c)) as (D3 & M3 & F3 & E3 & EM3 & EF3 & G3). exists D1, D2, D3. split; [exact E1|]. split; [exact E2|]. split; [exact E3|].
  intros n. rewrite G1, G2, G3.
  assert (Hm : get M3 n = added (get M1 n) (get M2 n) /\ (get M1 n = None <-> get M2 n = None)).
  { destruct (media_spends_ok m (a, b)) as (X1 & Q1 & K1 & V1). assert (X1 = M1) by congruence. subst X1.
    destruct (media_spends_ok m (b, c)) as (X2 & Q2 & K2 & V2). assert (X2 = M2) by congruence. subst X2.
    destruct (media_spends_ok m (a, c)) as (X3 & Q3 & K3 & V3). assert (X3 = M3) by congruence. subst X3.
    destruct (in_dec string_dec n (media_channels m)) as [Hn|Hn].
    - rewrite (V1 n Hn), (V2 n Hn), (V3 n Hn). split; [|split; discriminate]. cbn [added]. f_equal. apply sum_split; assumption.
    - assert (N : forall X, map fst X = media_channels m -> get X n = None).
      { intros X K. destruct (get X n) as [x|] eqn:E; [|reflexivity]. exfalso. apply Hn. rewrite <- K. apply get_in. eauto. }
      rewrite (N M1 K1), (N M2 K2), (N M3 K3). split; [reflexivity|tauto]. }
  assert (Hf : get F3 n = added (get F1 n) (get F2 n)).
  { destruct (rf_spends_ok m (a, b)) as (X1 & Q1 & K1 & V1). assert (X1 = F1) by congruence. subst X1.
    destruct (rf_spends_ok m (b, c)) as (X2 & Q2 & K2 & V2). assert (X2 = F2) by congruence. subst X2.
    destruct (rf_spends_ok m (a, c)) as (X3 & Q3 & K3 & V3). assert (X3 = F3) by congruence. subst X3.
    destruct (in_dec string_dec n (rf_channels m)) as [Hn|Hn].
    - rewrite (V1 n Hn), (V2 n Hn), (V3 n Hn). cbn [added]. f_equal. apply sum_split; assumption.
    - assert (N : forall X, map fst X = rf_channels m -> get X n = None).
      { intros X K. destruct (get X n) as [x|] eqn:E; [|reflexivity]. exfalso. apply Hn. rewrite <- K. apply get_in. eauto. }
      rewrite (N F1 K1), (N F2 K2), (N F3 K3). reflexivity. }
  destruct Hm as [Hm Hd]. rewrite Hm. destruct (get M1 n), (get M2 n); cbn [added]; try reflexivity; [exfalso; assert (X : @None (option R) = None) by reflexivity; apply Hd in X; discriminate|exfalso; assert (X : @None (option R) = None) by reflexivity; apply Hd in X; discriminate|exact Hf].
Qed.
