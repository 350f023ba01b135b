(** Proofs of property C73: spend and the round trip. *)
From Coq Require Import Reals ZArith String List Bool Lia Lra Sorted.
From Verif Require Import M_Base M_Time S_Time P_Time P_Period M_Hyper M_InputData S_InputData P_InputData P_DistSerde M_Marketing S_Marketing
  P_Marketing P_Marketing2 P_Marketing3.
Import ListNotations.
Local Open Scope string_scope.
Local Open Scope nat_scope.
Local Open Scope list_scope.

(** *** The three ways to read spend *)
Section Spend.
Variable md : metadata.
Variable dim : string.
Variables typed all : point -> list (string * option R).
Lemma spend_none : forall pts, (forall p, In p pts -> typed p = []) -> extract_spend md dim typed all pts = Ok None.
Proof.
  intros pts H. unfold extract_spend.
  assert (E : filter (fun p => match typed p with [] => false | _ => true end) pts = []).
  { apply filter_none. intros p Hp. rewrite (H p Hp). reflexivity. }
  rewrite E. reflexivity.
Qed.
Lemma spend_granular : forall pts q, (forall p, In p pts -> typed p <> [] -> dp_geo p <> None) ->
  extract_3d (flat_map (fun p => map (fun cv => (geo_id p, dp_start p, fst cv, snd cv)) (typed p)) pts) = Some q ->
  extract_spend md dim typed all pts = Ok (Some (SpendPanel q)).
Proof.
  intros pts q H E. unfold extract_spend. set (sp := filter (fun p => match typed p with [] => false | _ => true end) pts).
  assert (E2 : flat_map (fun p => map (fun cv => (geo_id p, dp_start p, fst cv, snd cv)) (typed p)) sp =
    flat_map (fun p => map (fun cv => (geo_id p, dp_start p, fst cv, snd cv)) (typed p)) pts).
  { unfold sp. clear. induction pts as [|p l IH]; [reflexivity|]. cbn [filter flat_map]. destruct (typed p) as [|c r] eqn:Q; [exact IH|].
    cbn [flat_map]. rewrite Q, IH. reflexivity. }
  assert (F : filter_ok (is_aggregated md) sp = Ok []).
  { assert (S : forall p, In p sp -> is_aggregated md p = Ok false).
    { intros p Hp. apply filter_In in Hp. destruct Hp as [Hp Ht]. unfold is_aggregated.
      assert (Q : dp_geo p <> None) by (apply H; [exact Hp|destruct (typed p); [discriminate|discriminate]]).
      destruct (dp_geo p); [reflexivity|contradiction]. }
    revert S. generalize sp. clear. induction sp as [|p l IH]; intros S; [reflexivity|]. cbn [filter_ok].
    rewrite (S p) by (left; reflexivity). cbn [rbind]. rewrite IH by (intros x Hx; apply S; right; exact Hx). reflexivity. }
  rewrite F. rewrite E2, E. destruct sp as [|p l] eqn:Es; [|reflexivity]. cbn [flat_map] in E2. rewrite <- E2 in E. discriminate.
Qed.
Lemma spend_total : forall l1 x l2, (forall p, In p (l1 ++ l2) -> typed p = []) -> typed x <> [] -> is_aggregated md x = Ok true ->
  extract_spend md dim typed all (l1 ++ x :: l2) = Ok (extract_total (in_dimension md dim (all x))).
Proof.
  intros l1 x l2 H Hx Ha. unfold extract_spend. rewrite filter_app. cbn [filter].
  assert (E1 : filter (fun p => match typed p with [] => false | _ => true end) l1 = []).
  { apply filter_none. intros p Hp. rewrite (H p) by (apply in_or_app; auto). reflexivity. }
  assert (E2 : filter (fun p => match typed p with [] => false | _ => true end) l2 = []).
  { apply filter_none. intros p Hp. rewrite (H p) by (apply in_or_app; auto). reflexivity. }
  rewrite E1, E2. destruct (typed x) as [|c r]; [contradiction|]. cbn [app filter_ok]. rewrite Ha. cbn [rbind flat_map].
  rewrite app_nil_r. reflexivity.
Qed.
End Spend.

Lemma total_back : forall names (a : nat -> option R), NoDup names -> names <> [] ->
  exists s, extract_total (map (fun kc => (snd kc, a (fst kc))) (combine (seq 0 (length names)) names)) = Some s /\ same_spend (SpendTotal names a) s.
Proof.
  intros names a N Hne. set (rows := map (fun kc => (snd kc, a (fst kc))) (combine (seq 0 (length names)) names)).
  assert (Ef : map fst rows = names).
  { unfold rows. rewrite map_map. cbn [fst]. rewrite <- (map_id names) at 3. apply combine_nth. reflexivity. }
  unfold extract_total. destruct rows as [|r l] eqn:E; [destruct names; [contradiction|discriminate]|]. rewrite <- E in *.
  rewrite Ef, (first_distinct String.eqb str_spec names N). eexists. split; [reflexivity|]. split; [reflexivity|].
  intros k Hk. destruct (nth_lt _ _ _ Hk) as [c Ec]. rewrite Ec. unfold last_value.
  assert (Hin : In (c, a k) rows).
  { unfold rows. apply in_map_iff. exists (k, c). split; [reflexivity|].
    assert (Q : forall (l : list string) (s i : nat) (x : string), nth_error l i = Some x -> In (s + i, x) (combine (seq s (length l)) l)).
    { clear. induction l as [|y l IH]; intros s [|i] x H; try discriminate; cbn [nth_error length seq combine] in *.
      - left. rewrite Nat.add_0_r. congruence.
      - right. replace (s + S i) with (S s + i) by lia. apply IH. exact H. }
    apply (Q names 0 k c Ec). }
  destruct (find (fun r => String.eqb (fst r) c) (rev rows)) as [q|] eqn:F.
  - apply find_some in F. destruct F as [Hq F]. apply in_rev in Hq. apply String.eqb_eq in F. unfold rows in Hq.
    apply in_map_iff in Hq. destruct Hq as ([k' c'] & <- & Hq). apply in_combine_seq in Hq. cbn [fst snd] in *. subst c'.
    f_equal. apply (proj1 (NoDup_nth_error names) N); [apply nth_error_Some; congruence|congruence].
  - exfalso. rewrite in_rev in Hin. pose proof (find_none _ _ F _ Hin) as Q. cbn in Q. rewrite String.eqb_refl in Q. discriminate.
Qed.

Section Whole.
Variable d : input.
Hypothesis ok : acceptable d.
Hypothesis sv : savable d.
Variable mt : list date.
Hypothesis mt_panels : forall p, In (Some p) (media_panels d) -> p_times p = mt.
Hypothesis mt_nodup : NoDup mt.
Hypothesis mt_spaced : evenly_spaced mt.
Hypothesis mt_incl : incl (m_times (i_kpi d)) mt.
Variable iv : list (date * (Z * Z)).
Hypothesis iv_ok : date_intervals mt = Ok iv.
Variable sp : date * Z.
Hypothesis sp_ok : span iv = Ok sp.
Let md := make_metadata d mt.
Let G := m_geos (i_kpi d).
Let T := m_times (i_kpi d).
Let points := map (fun gt => closed d iv (fst gt) (snd gt)) (list_prod G mt).
Definition media_total : list point := match i_media_spend d with Some (SpendTotal n a) => [aggregated_media_point sp n a] | _ => [] end.
Definition rf_total : list point := match i_rf_spend d with Some (SpendTotal n a) => [aggregated_rf_point sp n a] | _ => [] end.
Let totals := media_total ++ rf_total.

Lemma totals_shape : forall p, In p totals -> total_point p.
Proof.
  intros p H. apply in_app_or in H. destruct H as [H|H].
  - unfold media_total in H. destruct (i_media_spend d) as [[q|n a]|]; try (exfalso; exact H); destruct H as [<-|[]]. repeat split.
  - unfold rf_total in H. destruct (i_rf_spend d) as [[q|n a]|]; try (exfalso; exact H); destruct H as [<-|[]]. repeat split.
Qed.

Lemma aggregated_true : forall p, dp_geo p = None -> dp_start p = fst sp -> dp_end p = snd sp -> is_aggregated md p = Ok true.
Proof.
  intros p E1 E2 E3. unfold is_aggregated. rewrite E1. unfold md, make_metadata. cbn [md_media_time]. rewrite iv_ok. cbn [rbind]. rewrite sp_ok. cbn [rbind].
  rewrite E2, E3, Z.eqb_refl. assert (Q : date_eqb (fst sp) (fst sp) = true) by (apply date_eqb_iff; auto). rewrite Q. reflexivity.
Qed.
Lemma media_dimension : forall p, i_media d = Some p -> dimension_channels md "media" = p_names p.
Proof.
  intros p E. unfold dimension_channels, md, make_metadata. cbn [md_channels]. rewrite E.
  destruct (i_reach d), (i_frequency d), (i_organic_media d), (i_organic_reach d), (i_organic_frequency d); reflexivity.
Qed.
Lemma reach_dimension : forall p, i_reach d = Some p -> dimension_channels md "reach" = p_names p.
Proof.
  intros p E. unfold dimension_channels, md, make_metadata. cbn [md_channels]. rewrite E.
  destruct (i_media d), (i_frequency d), (i_organic_media d), (i_organic_reach d), (i_organic_frequency d); reflexivity.
Qed.

(** Spend entries of the data points of the grid. *)
Lemma media_spends_closed : forall g t, media_spends md (closed d iv g t) =
  match i_media d, granular (i_media_spend d) with
  | Some p, Some s => if date_in t (p_times s) then map (fun n => (n, pval s g t n)) (p_names p) else []
  | _, _ => []
  end.
Proof.
  intros g t. unfold media_spends. cbn [closed dp_media]. rewrite flat_map_app.
  assert (E : flat_map (fun v => match mv_spend v with Some s => if is_type md "media_channel" (mv_name v) then [(mv_name v, s)] else [] | None => [] end)
     (mvars (i_organic_media d) None g t) = []).
  { destruct (i_organic_media d) as [p|]; [|reflexivity]. cbn [mvars sval]. rewrite flat_map_map. cbn [mv_spend]. apply flat_map_nil. }
  rewrite E, app_nil_r. clear E. destruct (i_media d) as [p|] eqn:Em; [|reflexivity]. cbn [mvars]. rewrite flat_map_map. cbn [mv_spend mv_name].
  destruct (granular (i_media_spend d)) as [s|]; cbn [sval]; [|apply flat_map_nil].
  destruct (date_in t (p_times s)); [|apply flat_map_nil].
  rewrite (flat_map_same _ _ _ (fun n => [(n, pval s g t n)])).
  - generalize (p_names p). clear. induction l as [|n l IH]; [reflexivity|]. cbn [flat_map app map]. rewrite IH. reflexivity.
  - intros n Hn. unfold md. rewrite (is_type_eq d mt "media_channel" "media_channel" n); [reflexivity|].
    apply (type_media d ok sv mt). rewrite Em. exact Hn.
Qed.
Lemma rf_spends_closed : forall g t, rf_spends md (closed d iv g t) =
  match i_reach d, granular (i_rf_spend d) with
  | Some p, Some s => if date_in t (p_times s) then map (fun n => (n, pval s g t n)) (p_names p) else []
  | _, _ => []
  end.
Proof.
  intros g t. unfold rf_spends. cbn [closed dp_rf]. rewrite flat_map_app.
  assert (E : flat_map (fun v => match rv_spend v with Some s => if is_type md "rf_channel" (rv_name v) then [(rv_name v, s)] else [] | None => [] end)
     (rvars (i_organic_reach d) (i_organic_frequency d) None g t) = []).
  { destruct (i_organic_reach d) as [p|]; [|reflexivity]. destruct (i_organic_frequency d) as [q|]; [|reflexivity].
    cbn [rvars sval]. rewrite flat_map_map. cbn [rv_spend]. apply flat_map_nil. }
  rewrite E, app_nil_r. clear E. pose proof (reach_frequency d sv) as RF.
  destruct (i_reach d) as [p|] eqn:Em; [|reflexivity]. destruct (i_frequency d) as [f|]; [|destruct RF as [_ RF]; discriminate (RF eq_refl)].
  cbn [rvars]. rewrite flat_map_map. cbn [rv_spend rv_name].
  destruct (granular (i_rf_spend d)) as [s|]; cbn [sval]; [|apply flat_map_nil].
  destruct (date_in t (p_times s)); [|apply flat_map_nil].
  rewrite (flat_map_same _ _ _ (fun n => [(n, pval s g t n)])).
  - generalize (p_names p). clear. induction l as [|n l IH]; [reflexivity|]. cbn [flat_map app map]. rewrite IH. reflexivity.
  - intros n Hn. unfold md. rewrite (is_type_eq d mt "rf_channel" "rf_channel" n); [reflexivity|].
    apply (type_reach d ok sv mt). rewrite Em. exact Hn.
Qed.

Lemma total_rows : forall A (f : nat * string -> A) (g : A -> list (string * option R)) (a : nat -> option R) names,
  (forall k c, In c names -> g (f (k, c)) = [(c, a k)]) ->
  flat_map g (map f (combine (seq 0 (length names)) names)) = map (fun kc => (snd kc, a (fst kc))) (combine (seq 0 (length names)) names).
Proof.
  intros A f g a names H. rewrite flat_map_map.
  assert (Q : forall k c, In (k, c) (combine (seq 0 (length names)) names) -> g (f (k, c)) = [(c, a k)]).
  { intros k c Hk. apply H. apply in_combine_r in Hk. exact Hk. }
  revert Q. generalize (combine (seq 0 (length names)) names). clear. induction l as [|[k c] l IH]; intros Q; [reflexivity|].
  cbn [flat_map map fst snd]. rewrite (Q k c) by (left; reflexivity). cbn [app]. f_equal. apply IH. intros k' c' H. apply Q. right. exact H.
Qed.
Lemma in_dimension_all : forall dim names (a : nat -> option R), dimension_channels md dim = names ->
  in_dimension md dim (map (fun kc => (snd kc, a (fst kc))) (combine (seq 0 (length names)) names)) =
  map (fun kc => (snd kc, a (fst kc))) (combine (seq 0 (length names)) names).
Proof.
  intros dim names a E. unfold in_dimension. apply filter_id. intros x Hx. apply in_map_iff in Hx. destruct Hx as ([k c] & <- & Hk).
  apply in_combine_r in Hk. cbn [fst snd]. rewrite E. apply existsb_str. exact Hk.
Qed.
Lemma combine_ne : forall A B (f : nat * A -> B) (l : list A), l <> [] -> map f (combine (seq 0 (length l)) l) <> [].
Proof. intros A B f [|x l] H; [contradiction|discriminate]. Qed.

Lemma media_spend_back : exists o, extract_spend md "media" (media_spends md) all_media_spends (points ++ totals) = Ok o /\
  both same_spend (i_media_spend d) o.
Proof.
  pose proof (spend_media d sv) as SM. pose proof (media_spend_names d ok) as SN.
  assert (Rf : forall p, In p rf_total -> media_spends md p = []).
  { intros p H. unfold rf_total in H. destruct (i_rf_spend d) as [[q|n a]|]; try (exfalso; exact H); destruct H as [<-|[]]. reflexivity. }
  destruct (i_media_spend d) as [s|] eqn:Es.
  - destruct (i_media d) as [p|] eqn:Em; [|discriminate (SM eq_refl)]. pose proof (SN p s eq_refl eq_refl) as En.
    assert (Hp : In (Some p) (panels d)) by (apply in_panels; tauto). pose proof (media_nodup d ok p Em) as N. pose proof (names_ne d sv p Hp) as Hne.
    destruct s as [q|n a]; cbn [spend_names] in En.
    + destruct (granular_labels d sv q) as [Eg Et]; [left; exact Es|].
      assert (Em0 : media_total = []) by (unfold media_total; rewrite Es; reflexivity).
      assert (Rows : flat_map (fun p => map (fun cv => (geo_id p, dp_start p, fst cv, snd cv)) (media_spends md p)) (points ++ totals) =
        grid G (filter (fun t => date_in t T) mt) (p_names q) (pval q)).
      { apply (rows_grid d mt iv totals).
        - intros x Hx. unfold totals in Hx. rewrite Em0 in Hx. rewrite (Rf x Hx). reflexivity.
        - intros g t _. rewrite media_spends_closed, Em, Es. cbn [granular]. rewrite Et. fold T. destruct (date_in t T); [|reflexivity].
          rewrite map_map, En. reflexivity. }
      destruct (kpi_dates_back d ok sv mt mt_nodup mt_spaced mt_incl q Eg Et) as (q' & Eq & R);
        [rewrite <- En; exact Hne|rewrite <- En; exact N|].
      exists (Some (SpendPanel q')). split; [|exact R]. apply spend_granular; [|exact (eq_trans (f_equal extract_3d Rows) Eq)].
      intros x Hx Ht. apply in_app_or in Hx. destruct Hx as [Hx|Hx].
      * apply in_map_iff in Hx. destruct Hx as (gt & <- & _). discriminate.
      * unfold totals in Hx. rewrite Em0 in Hx. rewrite (Rf x Hx) in Ht. contradiction.
    + assert (Em0 : media_total = [aggregated_media_point sp n a]) by (unfold media_total; rewrite Es; reflexivity).
      unfold totals. rewrite Em0. cbn [app].
      assert (Ha : all_media_spends (aggregated_media_point sp n a) = map (fun kc => (snd kc, a (fst kc))) (combine (seq 0 (length n)) n)).
      { unfold all_media_spends. cbn [aggregated_media_point dp_media]. apply total_rows. reflexivity. }
      assert (Ht : media_spends md (aggregated_media_point sp n a) = map (fun kc => (snd kc, a (fst kc))) (combine (seq 0 (length n)) n)).
      { unfold media_spends. cbn [aggregated_media_point dp_media]. apply total_rows. intros k c Hc. cbn [mv_spend mv_name fst snd].
        unfold md. rewrite (is_type_eq d mt "media_channel" "media_channel" c); [reflexivity|].
        apply (type_media d ok sv mt). rewrite Em. cbn [of_option]. rewrite En. exact Hc. }
      rewrite spend_total.
      * rewrite Ha, in_dimension_all by (rewrite <- En; apply media_dimension; exact Em). rewrite En in N, Hne.
        destruct (total_back n a N Hne) as (s & -> & R). exists (Some s). split; [reflexivity|exact R].
      * intros x Hx. apply in_app_or in Hx. destruct Hx as [Hx|Hx]; [|exact (Rf x Hx)].
        apply in_map_iff in Hx. destruct Hx as (gt & <- & _). rewrite media_spends_closed, Es. cbn [granular]. destruct (i_media d); reflexivity.
      * rewrite Ht. apply combine_ne. rewrite <- En. exact Hne.
      * apply aggregated_true; reflexivity.
  - exists None. split; [|exact Logic.I]. apply spend_none. intros x Hx. apply in_app_or in Hx. destruct Hx as [Hx|Hx].
    + apply in_map_iff in Hx. destruct Hx as (gt & <- & _). rewrite media_spends_closed, Es. cbn [granular]. destruct (i_media d); reflexivity.
    + unfold totals, media_total in Hx. rewrite Es in Hx. exact (Rf x Hx).
Qed.
Lemma rf_spend_back : exists o, extract_spend md "reach" (rf_spends md) all_rf_spends (points ++ totals) = Ok o /\
  both same_spend (i_rf_spend d) o.
Proof.
  pose proof (spend_reach d sv) as SM. pose proof (reach_spend_names d ok) as SN.
  assert (Rf : forall p, In p media_total -> rf_spends md p = []).
  { intros p H. unfold media_total in H. destruct (i_media_spend d) as [[q|n a]|]; try (exfalso; exact H); destruct H as [<-|[]]. reflexivity. }
  destruct (i_rf_spend d) as [s|] eqn:Es.
  - destruct (i_reach d) as [p|] eqn:Em; [|discriminate (SM eq_refl)]. pose proof (SN p s eq_refl eq_refl) as En.
    assert (Hp : In (Some p) (panels d)) by (apply in_panels; tauto). pose proof (reach_nodup d ok p Em) as N. pose proof (names_ne d sv p Hp) as Hne.
    destruct s as [q|n a]; cbn [spend_names] in En.
    + destruct (granular_labels d sv q) as [Eg Et]; [right; left; exact Es|].
      assert (Em0 : rf_total = []) by (unfold rf_total; rewrite Es; reflexivity).
      assert (Rows : flat_map (fun p => map (fun cv => (geo_id p, dp_start p, fst cv, snd cv)) (rf_spends md p)) (points ++ totals) =
        grid G (filter (fun t => date_in t T) mt) (p_names q) (pval q)).
      { apply (rows_grid d mt iv totals).
        - intros x Hx. unfold totals in Hx. rewrite Em0, app_nil_r in Hx. rewrite (Rf x Hx). reflexivity.
        - intros g t _. rewrite rf_spends_closed, Em, Es. cbn [granular]. rewrite Et. fold T. destruct (date_in t T); [|reflexivity].
          rewrite map_map, En. reflexivity. }
      destruct (kpi_dates_back d ok sv mt mt_nodup mt_spaced mt_incl q Eg Et) as (q' & Eq & R);
        [rewrite <- En; exact Hne|rewrite <- En; exact N|].
      exists (Some (SpendPanel q')). split; [|exact R]. apply spend_granular; [|exact (eq_trans (f_equal extract_3d Rows) Eq)].
      intros x Hx Ht. apply in_app_or in Hx. destruct Hx as [Hx|Hx].
      * apply in_map_iff in Hx. destruct Hx as (gt & <- & _). discriminate.
      * unfold totals in Hx. rewrite Em0, app_nil_r in Hx. rewrite (Rf x Hx) in Ht. contradiction.
    + assert (Em0 : rf_total = [aggregated_rf_point sp n a]) by (unfold rf_total; rewrite Es; reflexivity).
      unfold totals. rewrite Em0, app_assoc.
      assert (Ha : all_rf_spends (aggregated_rf_point sp n a) = map (fun kc => (snd kc, a (fst kc))) (combine (seq 0 (length n)) n)).
      { unfold all_rf_spends. cbn [aggregated_rf_point dp_rf]. apply total_rows. reflexivity. }
      assert (Ht : rf_spends md (aggregated_rf_point sp n a) = map (fun kc => (snd kc, a (fst kc))) (combine (seq 0 (length n)) n)).
      { unfold rf_spends. cbn [aggregated_rf_point dp_rf]. apply total_rows. intros k c Hc. cbn [rv_spend rv_name fst snd].
        unfold md. rewrite (is_type_eq d mt "rf_channel" "rf_channel" c); [reflexivity|].
        apply (type_reach d ok sv mt). rewrite Em. cbn [of_option]. rewrite En. exact Hc. }
      rewrite spend_total.
      * rewrite Ha, in_dimension_all by (rewrite <- En; apply reach_dimension; exact Em). rewrite En in N, Hne.
        destruct (total_back n a N Hne) as (s & -> & R). exists (Some s). split; [reflexivity|exact R].
      * intros x Hx. rewrite app_nil_r in Hx. apply in_app_or in Hx. destruct Hx as [Hx|Hx]; [|exact (Rf x Hx)].
        apply in_map_iff in Hx. destruct Hx as (gt & <- & _). rewrite rf_spends_closed, Es. cbn [granular]. destruct (i_reach d); reflexivity.
      * rewrite Ht. apply combine_ne. rewrite <- En. exact Hne.
      * apply aggregated_true; reflexivity.
  - exists None. split; [|exact Logic.I]. apply spend_none. intros x Hx. apply in_app_or in Hx. destruct Hx as [Hx|Hx].
    + apply in_map_iff in Hx. destruct Hx as (gt & <- & _). rewrite rf_spends_closed, Es. cbn [granular]. destruct (i_reach d); reflexivity.
    + unfold totals, rf_total in Hx. rewrite Es, app_nil_r in Hx. exact (Rf x Hx).
Qed.

Lemma save_ok : media_time d = Ok mt -> save d = Ok (mkMarketing (points ++ totals) md).
Proof.
  intros Em. unfold save. rewrite Em. cbn [rbind]. rewrite iv_ok. cbn [rbind].
  assert (Ef : map fst iv = mt).
  { destruct (intervals_ok mt mt_spaced) as (iv' & E & F). assert (Q : iv' = iv) by congruence. rewrite <- Q. exact F. }
  rewrite (all_ok_map _ _ _ (fun gt => closed d iv (fst gt) (snd gt))).
  - cbn [rbind]. unfold totals, media_total, rf_total.
    destruct (i_media_spend d) as [[q|n a]|], (i_rf_spend d) as [[q'|n' a']|]; rewrite ?sp_ok; cbn [rbind]; rewrite ?sp_ok; reflexivity.
  - intros [g t] H. apply in_prod_iff in H. cbn [fst snd]. apply (data_point_ok d ok sv mt); tauto.
Qed.
End Whole.

(** *** Acceptance of what is loaded *)
Definition like (p q : panel) : Prop :=
  p_geos q = p_geos p /\ p_times q = p_times p /\ p_names q = p_names p /\
  forall y, in_panel q y -> exists x, in_panel p x /\ (x <> None -> y <> None) /\ (forall b, y = Some b -> exists a, x = Some a /\ ((0 <= a)%R -> (0 <= b)%R)).
Lemma panel_entry : forall rel p q y, panel_by rel p q -> in_panel q y -> exists x, in_panel p x /\ rel x y.
Proof.
  intros rel p q y (Eg & Et & En & H) (i & j & k & Hi & Hj & Hk & ->). rewrite Eg in Hi. rewrite Et in Hj. rewrite En in Hk.
  exists (p_at p i j k). split; [exists i, j, k; auto|apply H; auto].
Qed.
Lemma same_like : forall p q, same_panel p q -> like p q.
Proof.
  intros p q S. pose proof S as (Eg & Et & En & H). split; [exact Eg|]. split; [exact Et|]. split; [exact En|].
  intros y Hy. destruct (panel_entry eq p q y S Hy) as (x & Hx & <-). exists x. split; [exact Hx|]. split; [auto|]. intros b ->. exists b. auto.
Qed.
Lemma rounded_like : forall p q, panel_by rounded_down p q -> like p q.
Proof.
  intros p q S. pose proof S as (Eg & Et & En & H). split; [exact Eg|]. split; [exact Et|]. split; [exact En|].
  intros y Hy. destruct (panel_entry rounded_down p q y S Hy) as (x & Hx & (a & z & -> & -> & L)). exists (Some a). split; [exact Hx|].
  split; [discriminate|]. intros b Eb. exists a. split; [reflexivity|]. intros H0. assert (b = IZR z) by congruence. subst b.
  assert (Z0 : (-1 < z)%Z) by (apply lt_IZR; lra). apply IZR_le. lia.
Qed.
Lemma both_impl : forall A (r s : A -> A -> Prop) a b, (forall x y, r x y -> s x y) -> both r a b -> both s a b.
Proof. intros A r s [x|] [y|] H; cbn [both]; auto. Qed.
Lemma both_some : forall A (r : A -> A -> Prop) a b y, both r a b -> b = Some y -> exists x, a = Some x /\ r x y.
Proof. intros A r [x|] b y H ->; cbn [both] in H; [eauto|destruct H]. Qed.
Lemma forall2_in : forall l l' q, Forall2 (both like) l l' -> In (Some q) l' -> exists p, In (Some p) l /\ like p q.
Proof.
  intros l l' q H. induction H as [|a b l l' Hab H IH]; [intros []|]; intros [E|E].
  - subst b. destruct (both_some _ _ _ _ q Hab eq_refl) as (p & -> & L). exists p. split; [left; reflexivity|exact L].
  - destruct (IH E) as (p & Hp & L). exists p. split; [right; exact Hp|exact L].
Qed.
Lemma same_matrix_entry : forall m n, same_matrix m n -> forall x, in_matrix n x <-> in_matrix m x.
Proof.
  intros m n (Eg & Et & H) x. split; intros (i & j & Hi & Hj & ->).
  - rewrite Eg in Hi. rewrite Et in Hj. exists i, j. split; [exact Hi|]. split; [exact Hj|]. apply H; auto.
  - exists i, j. rewrite Eg, Et. split; [exact Hi|]. split; [exact Hj|]. symmetry. apply H; auto.
Qed.
Lemma same_spend_entry : forall s r x, same_spend s r -> in_spend r x -> in_spend s x.
Proof.
  intros [p|n a] [q|m b] x H Hx; cbn [same_spend in_spend] in *; try destruct H.
  - destruct (panel_entry eq p q x) as (y & Hy & <-); [split; auto|exact Hx|exact Hy].
  - subst m. destruct Hx as (k & Hk & ->). exists k. split; [exact Hk|]. apply H0. exact Hk.
Qed.
Lemma same_spend_names : forall s r, same_spend s r -> spend_names r = spend_names s.
Proof. intros [p|n a] [q|m b] H; cbn [same_spend spend_names] in *; try destruct H; [|exact H]. destruct H0 as (_ & H0 & _). exact H0. Qed.

(** What is read, before the constructor: no revenue per KPI for a revenue KPI. *)
Definition read_back (d e : input) : Prop :=
  same_matrix (i_kpi d) (i_kpi e) /\ i_kpi_type e = i_kpi_type d /\ same_vector (i_population d) (i_population e) /\
  both same_panel (i_controls d) (i_controls e) /\
  (if String.eqb (i_kpi_type d) "revenue" then i_rpk e = None else both same_matrix (i_rpk d) (i_rpk e)) /\
  both same_panel (i_media d) (i_media e) /\ both same_spend (i_media_spend d) (i_media_spend e) /\
  both (panel_by rounded_down) (i_reach d) (i_reach e) /\ both same_panel (i_frequency d) (i_frequency e) /\
  both same_spend (i_rf_spend d) (i_rf_spend e) /\ both same_panel (i_organic_media d) (i_organic_media e) /\
  both (panel_by rounded_down) (i_organic_reach d) (i_organic_reach e) /\ both same_panel (i_organic_frequency d) (i_organic_frequency e) /\
  both same_panel (i_non_media d) (i_non_media e) /\ i_currency e = i_currency d.

Lemma names_back : forall a b, both like a b -> of_option p_names b = of_option p_names a.
Proof. intros [p|] [q|] H; cbn [both of_option] in *; try destruct H; auto. destruct H0 as (_ & H0 & _). exact H0. Qed.
Lemma both_none : forall A (r : A -> A -> Prop) a b, both r a b -> (b = None <-> a = None).
Proof. intros A r [x|] [y|] H; cbn [both] in H; split; intros E; try discriminate; try destruct H; auto. Qed.

Lemma read_acceptable : forall d e, acceptable d -> read_back d e -> acceptable e.
Proof.
  intros d e A (Kpi & Ty & Pop & Co & Rpk & Me & Ms & Re & Fr & Rs & Om & Or & Of & Nm & Cu).
  destruct A as (A1 & A2 & A3 & A4 & A5 & A6 & A7 & A8 & A9 & A10 & A11 & A12 & A13 & A14 & A15 & A16 & A17 & A18 & A19 & A20 & A21).
  apply (both_impl _ _ like _ _ same_like) in Co, Me, Fr, Om, Of, Nm. apply (both_impl _ _ like _ _ rounded_like) in Re, Or.
  assert (Pa : Forall2 (both like) (panels d) (panels e)) by (repeat (constructor; [assumption|]); constructor).
  assert (Mp : Forall2 (both like) (media_panels d) (media_panels e)) by (repeat (constructor; [assumption|]); constructor).
  assert (Cn : Forall2 (both like) [i_controls d; i_non_media d] [i_controls e; i_non_media e]) by (repeat (constructor; [assumption|]); constructor).
  assert (Rf : Forall2 (both like) [i_reach d; i_frequency d; i_organic_reach d; i_organic_frequency d] [i_reach e; i_frequency e; i_organic_reach e; i_organic_frequency e])
    by (repeat (constructor; [assumption|]); constructor).
  assert (Rm : forall m, i_rpk e = Some m -> exists m0, i_rpk d = Some m0 /\ i_kpi_type d <> "revenue" /\ same_matrix m0 m).
  { intros m Em. destruct (String.eqb (i_kpi_type d) "revenue") eqn:K; [congruence|]. apply String.eqb_neq in K.
    destruct (both_some _ _ _ _ m Rpk Em) as (m0 & E0 & S). exists m0. auto. }
  assert (Sp : forall s x, In (Some s) [i_media_spend e; i_rf_spend e] -> in_spend s x -> exists s0, In (Some s0) [i_media_spend d; i_rf_spend d] /\ in_spend s0 x).
  { intros s x [Hs|[Hs|[]]] Hx.
    - destruct (both_some _ _ _ _ s Ms Hs) as (s0 & E0 & S). exists s0. split; [left; exact E0|apply (same_spend_entry s0 s); auto].
    - destruct (both_some _ _ _ _ s Rs Hs) as (s0 & E0 & S). exists s0. split; [right; left; exact E0|apply (same_spend_entry s0 s); auto]. }
  pose proof Kpi as (Kg & Kt & _).
  unfold acceptable. rewrite Ty, Kg, Kt.
  split; [exact A1|]. split.
  { intros m Em. destruct (Rm m Em) as (m0 & E0 & _ & S). destruct (A2 m0 E0) as (x & Hx & Nz). exists x. split; [apply (same_matrix_entry m0 m S); exact Hx|exact Nz]. }
  split.
  { intros x [H|[H|[(m & Em & H)|[(p & Hp & H)|(s & Hs & H)]]]].
    - apply A3. left. apply (same_matrix_entry _ _ Kpi). exact H.
    - destruct Pop as (Pg & Pv). destruct H as (i & Hi & ->). rewrite Pg in Hi. rewrite (Pv i Hi). apply A3. right. left. exists i. auto.
    - destruct (Rm m Em) as (m0 & E0 & _ & S). apply A3. right. right. left. exists m0. split; [exact E0|]. apply (same_matrix_entry m0 m S). exact H.
    - destruct (forall2_in _ _ p Pa Hp) as (q & Hq & (_ & _ & _ & L)). destruct (L x H) as (y & Hy & Ny & _). apply Ny. apply A3.
      right. right. right. left. exists q. auto.
    - destruct (Sp s x Hs H) as (s0 & Hs0 & H0). apply A3. right. right. right. right. exists s0. auto. }
  split.
  { intros x [H|[(Nr & m & Em & H)|[(p & Hp & H)|(s & Hs & H)]]].
    - apply A4. left. apply (same_matrix_entry _ _ Kpi). exact H.
    - destruct (Rm m Em) as (m0 & E0 & Nr0 & S). apply A4. right. left. split; [exact Nr0|]. exists m0. split; [exact E0|]. apply (same_matrix_entry m0 m S). exact H.
    - destruct (forall2_in _ _ p Rf Hp) as (q & Hq & (_ & _ & _ & L)). destruct (L _ H) as (y & Hy & _ & P). destruct (P x eq_refl) as (a & -> & Pa0).
      apply Pa0. apply A4. right. right. left. exists q. auto.
    - destruct (Sp s (Some x) Hs H) as (s0 & Hs0 & H0). apply A4. right. right. right. exists s0. auto. }
  split; [exact A5|]. split; [destruct Pop as (Pg & _); rewrite Pg; exact A6|].
  split; [intros p Hp; destruct (forall2_in _ _ p Pa Hp) as (q & Hq & (L & _)); rewrite L; apply A7; exact Hq|].
  split; [intros m Nr Em; destruct (Rm m Em) as (m0 & E0 & _ & (S & _)); rewrite S; apply A8; auto|].
  split; [intros p Hp; destruct (forall2_in _ _ p Cn Hp) as (q & Hq & (_ & L & _)); rewrite L; apply A9; exact Hq|].
  split; [intros m Nr Em; destruct (Rm m Em) as (m0 & E0 & _ & (_ & S & _)); rewrite S; apply A10; auto|].
  split; [intros p Hp; destruct (forall2_in _ _ p Mp Hp) as (q & Hq & (_ & L & _)); rewrite L; apply A11; exact Hq|].
  split; [exact A12|].
  split; [intros p E; destruct (both_some _ _ _ _ p Me E) as (q & Eq & (_ & L & _)); rewrite L; apply A13; exact Eq|].
  split; [intros p E E2; destruct (both_some _ _ _ _ p Re E2) as (q & Eq & (_ & L & _)); rewrite L; apply A14; [apply (both_none _ _ _ _ Me); exact E|exact Eq]|].
  split; [destruct A15 as [Q|Q]; [left|right]; intros E; apply Q; [apply (both_none _ _ _ _ Me); exact E|apply (both_none _ _ _ _ Re); exact E]|].
  assert (Agp : forall a a' (b b' : option panel), both like a a' -> both like b b' -> agree p_names p_names a b -> agree p_names p_names a' b').
  { intros a a' b b' Ha Hb H x y Ex Ey. destruct (both_some _ _ _ _ x Ha Ex) as (x0 & Ex0 & (_ & _ & Lx & _)).
    destruct (both_some _ _ _ _ y Hb Ey) as (y0 & Ey0 & (_ & _ & Ly & _)). rewrite Lx, Ly. apply H; auto. }
  assert (Ags : forall a a' b b', both like a a' -> both same_spend b b' -> agree p_names spend_names a b -> agree p_names spend_names a' b').
  { intros a a' b b' Ha Hb H x y Ex Ey. destruct (both_some _ _ _ _ x Ha Ex) as (x0 & Ex0 & (_ & _ & Lx & _)).
    destruct (both_some _ _ _ _ y Hb Ey) as (y0 & Ey0 & Ly). apply same_spend_names in Ly. rewrite Lx, Ly. apply H; auto. }
  split; [exact (Ags _ _ _ _ Me Ms A16)|]. split; [exact (Agp _ _ _ _ Re Fr A17)|]. split; [exact (Ags _ _ _ _ Re Rs A18)|].
  split; [exact (Ags _ _ _ _ Fr Rs A19)|]. split; [exact (Agp _ _ _ _ Or Of A20)|].
  rewrite (names_back _ _ Me), (names_back _ _ Re), (names_back _ _ Om), (names_back _ _ Or), (names_back _ _ Nm). exact A21.
Qed.

(** *** The round trip *)
Lemma span_ok : forall iv, iv <> [] -> exists s, span iv = Ok s.
Proof. intros [|[t i] r] H; [contradiction|]. eexists. reflexivity. Qed.
Lemma round_trip : forall d, new_input d = Ok d -> savable d -> exists m e, save d = Ok m /\ load m = Ok e /\ restored (panel_by rounded_down) d e.
Proof.
  intros d Hd sv.
  assert (Sc : validate_scenarios d = d) by (apply new_input_inv in Hd; destruct Hd as (E & _); congruence).
  assert (ok : acceptable d) by (apply accepts; rewrite Sc; exact Hd).
  destruct (media_time_ok d ok sv) as (mt & Em & Es & Nm & Im & Pm).
  destruct (intervals_ok mt Es) as (iv & Eiv & Fiv).
  destruct (span_ok iv) as (sp & Esp).
  { intros ->. destruct Es as [L _]. rewrite <- Fiv in L. cbn in L. lia. }
  pose proof (save_ok d ok sv mt Pm Es iv Eiv sp Esp Em) as Sv.
  destruct (media_spend_back d ok sv mt Nm Es Im iv Eiv sp Esp) as (ms & Ems & Rms).
  destruct (rf_spend_back d ok sv mt Nm Es Im iv Eiv sp Esp) as (rs & Ers & Rrs).
  match type of Sv with _ = Ok (mkMarketing (_ ++ ?tt) _) => set (totals := tt) in *; assert (Ht : forall p, In p totals -> total_point p) by (exact (totals_shape d sp)) end.
  set (pts := map (fun gt => closed d iv (fst gt) (snd gt)) (list_prod (m_geos (i_kpi d)) mt) ++ totals) in *.
  destruct (kpi_back d ok sv mt Nm Es Im iv totals Ht) as (kpi & Ekpi & Rkpi). fold pts in Ekpi.
  pose proof (kpi_type_back d ok sv mt Im iv totals Ht) as Ety. fold pts in Ety.
  set (raw := mkInput kpi (i_kpi_type d) (extract_population pts) (extract_3d (flat_map control_rows pts))
        (if String.eqb (i_kpi_type d) "non_revenue" then extract_2d (flat_map rpk_rows pts) else None)
        (extract_3d (flat_map (media_rows (make_metadata d mt) "media_channel") pts)) ms
        (extract_3d (flat_map (reach_rows (make_metadata d mt) "rf_channel") pts)) (extract_3d (flat_map (frequency_rows (make_metadata d mt) "rf_channel") pts)) rs
        (extract_3d (flat_map (media_rows (make_metadata d mt) "organic_media_channel") pts))
        (extract_3d (flat_map (reach_rows (make_metadata d mt) "organic_rf_channel") pts)) (extract_3d (flat_map (frequency_rows (make_metadata d mt) "organic_rf_channel") pts))
        (extract_3d (flat_map non_media_rows pts))
        (if String.eqb (md_currency (make_metadata d mt)) "" then None else Some (md_currency (make_metadata d mt)))).
  assert (Rb : read_back d raw).
  { unfold read_back, raw. cbn [i_kpi i_kpi_type i_population i_controls i_rpk i_media i_media_spend i_reach i_frequency i_rf_spend i_organic_media i_organic_reach i_organic_frequency i_non_media i_currency].
    split; [exact Rkpi|]. split; [reflexivity|]. split; [unfold pts; eapply population_back; eassumption|].
    split; [unfold pts; eapply controls_back; eassumption|]. split.
    { destruct (String.eqb (i_kpi_type d) "revenue") eqn:K.
      - apply String.eqb_eq in K. rewrite K. reflexivity.
      - apply String.eqb_neq in K. assert (K2 : i_kpi_type d = "non_revenue") by (destruct ok as ([Q|Q] & _); [contradiction|exact Q]).
        rewrite K2. cbn [String.eqb Ascii.eqb Bool.eqb]. unfold pts; eapply rpk_back; eassumption. }
    split; [unfold pts; eapply media_back; eassumption|]. split; [exact Rms|].
    assert (QR1 : both (panel_by rounded_down) (i_reach d) (extract_3d (flat_map (reach_rows (make_metadata d mt) "rf_channel") pts)) /\ both same_panel (i_frequency d) (extract_3d (flat_map (frequency_rows (make_metadata d mt) "rf_channel") pts))) by (unfold pts; eapply reach_back; eassumption). destruct QR1 as [R1 R2]. split; [exact R1|]. split; [exact R2|]. split; [exact Rrs|].
    split; [unfold pts; eapply organic_back; eassumption|].
    assert (QR3 : both (panel_by rounded_down) (i_organic_reach d) (extract_3d (flat_map (reach_rows (make_metadata d mt) "organic_rf_channel") pts)) /\ both same_panel (i_organic_frequency d) (extract_3d (flat_map (frequency_rows (make_metadata d mt) "organic_rf_channel") pts))) by (unfold pts; eapply organic_reach_back; eassumption). destruct QR3 as [R3 R4]. split; [exact R3|]. split; [exact R4|].
    split; [unfold pts; eapply non_media_back; eassumption|].
    unfold make_metadata. cbn [md_currency]. assert (C : i_currency d <> Some "") by apply sv.
    destruct (i_currency d) as [c|]; [|reflexivity]. destruct (String.eqb c "") eqn:Ec; [apply String.eqb_eq in Ec; congruence|reflexivity]. }
  pose proof (read_acceptable d raw ok Rb) as Acc. apply accepts in Acc.
  exists (mkMarketing pts (make_metadata d mt)), (validate_scenarios raw). split; [exact Sv|]. split.
  - unfold load. cbn [mk_points mk_metadata]. rewrite Ety. cbn [rbind]. rewrite Ekpi.
    assert (Ck : check_metadata (make_metadata d mt) = Ok tt).
    { unfold check_metadata, make_metadata. cbn [md_time md_media_time]. pose proof (times_ne d ok) as Q1.
      destruct (m_times (i_kpi d)); [contradiction|]. destruct mt; [destruct Es as [L _]; cbn in L; lia|reflexivity]. }
    rewrite Ck. cbn [rbind]. rewrite Ems. cbn [rbind]. rewrite Ers. cbn [rbind]. exact Acc.
  - destruct Rb as (B1 & B2 & B3 & B4 & B5 & B6 & B7 & B8 & B9 & B10 & B11 & B12 & B13 & B14 & B15).
    destruct (String.eqb (i_kpi_type d) "revenue") eqn:K.
    + unfold validate_scenarios. rewrite B2, K. unfold restored.
      cbn [i_kpi i_kpi_type i_population i_controls i_rpk i_media i_media_spend i_reach i_frequency i_rf_spend i_organic_media i_organic_reach i_organic_frequency i_non_media i_currency].
      split; [exact B1|]. split; [reflexivity|]. split; [exact B3|]. split; [exact B4|]. split.
      { rewrite <- Sc. unfold validate_scenarios. rewrite K. cbn [i_rpk both]. unfold same_matrix, ones. cbn [m_geos m_times m_at].
        destruct B1 as (Q1 & Q2 & _). auto. }
      repeat (split; [assumption|]). assumption.
    + assert (Er : validate_scenarios raw = raw) by (unfold validate_scenarios; rewrite B2, K; reflexivity). rewrite Er. unfold restored.
      repeat (split; [assumption|]). assumption.
Qed.
