(** Proofs of property C73: loading. *)
From Coq Require Import Reals ZArith String List Bool Lia Lra Sorted.
From Verif Require Import M_Base M_Time S_Time P_Time P_Period M_Hyper M_InputData S_InputData P_InputData P_DistSerde M_Marketing S_Marketing P_Marketing P_Marketing2.
Import ListNotations.
Local Open Scope string_scope.
Local Open Scope nat_scope.
Local Open Scope list_scope.

(** *** Channel types *)
Lemma type_app : forall l1 l2 c, channel_type (l1 ++ l2) c = match channel_type l2 c with Some t => Some t | None => channel_type l1 c end.
Proof.
  induction l1 as [|[n cs] l1 IH]; intros l2 c; cbn [app channel_type]; [destruct (channel_type l2 c); reflexivity|].
  rewrite IH. destruct (channel_type l2 c); reflexivity.
Qed.
Definition chan (name : string) (o : option panel) (c : string) : option string :=
  if existsb (String.eqb c) (of_option p_names o) then coord_name name else None.
Lemma type_dimension : forall name o c, channel_type (channel_dimension name o) c = chan name o c.
Proof. intros name [p|] c; reflexivity. Qed.
Lemma chan_in : forall name o c, In c (of_option p_names o) -> chan name o c = coord_name name.
Proof. intros name o c H. unfold chan. rewrite (proj2 (existsb_str c _) H). reflexivity. Qed.
Lemma chan_out : forall name o c, ~ In c (of_option p_names o) -> chan name o c = None.
Proof.
  intros name o c H. unfold chan. destruct (existsb (String.eqb c) (of_option p_names o)) eqn:E; [|reflexivity].
  apply existsb_str in E. contradiction.
Qed.

Section Load.
Variable d : input.
Hypothesis ok : acceptable d.
Hypothesis sv : savable d.
Variable mt : list date.
Hypothesis mt_panels : forall p, In (Some p) (media_panels d) -> p_times p = mt.
Hypothesis mt_nodup : NoDup mt.
Hypothesis mt_spaced : evenly_spaced mt.
Hypothesis mt_incl : incl (m_times (i_kpi d)) mt.
Variable iv : list (date * (Z * Z)).
Hypothesis iv_ok : date_intervals mt = Ok iv.
Let md := make_metadata d mt.
Let G := m_geos (i_kpi d).
Let T := m_times (i_kpi d).

Lemma frequency_same : of_option p_names (i_frequency d) = of_option p_names (i_reach d).
Proof.
  pose proof (reach_frequency d sv) as H. pose proof (frequency_names d ok) as N.
  destruct (i_reach d) as [r|], (i_frequency d) as [f|]; cbn [of_option]; auto.
  - symmetry. exact (N r f eq_refl eq_refl).
  - destruct H as [_ H]. discriminate (H eq_refl).
  - destruct H as [H _]. discriminate (H eq_refl).
Qed.
Lemma organic_frequency_same : of_option p_names (i_organic_frequency d) = of_option p_names (i_organic_reach d).
Proof.
  pose proof (organic_reach_frequency d sv) as H. pose proof (organic_frequency_names d ok) as N.
  destruct (i_organic_reach d) as [r|], (i_organic_frequency d) as [f|]; cbn [of_option]; auto.
  - symmetry. exact (N r f eq_refl eq_refl).
  - destruct H as [_ H]. discriminate (H eq_refl).
  - destruct H as [H _]. discriminate (H eq_refl).
Qed.
Lemma type_of : forall c, channel_type (md_channels md) c =
  match chan "organic_frequency" (i_organic_frequency d) c with Some t => Some t | None =>
  match chan "organic_reach" (i_organic_reach d) c with Some t => Some t | None =>
  match chan "organic_media" (i_organic_media d) c with Some t => Some t | None =>
  match chan "frequency" (i_frequency d) c with Some t => Some t | None =>
  match chan "reach" (i_reach d) c with Some t => Some t | None => chan "media" (i_media d) c end end end end end.
Proof.
  intros c. unfold md, make_metadata. cbn [md_channels]. rewrite !type_app, !type_dimension.
  destruct (chan "organic_frequency" (i_organic_frequency d) c); [reflexivity|].
  destruct (chan "organic_reach" (i_organic_reach d) c); [reflexivity|].
  destruct (chan "organic_media" (i_organic_media d) c); [reflexivity|].
  destruct (chan "frequency" (i_frequency d) c); [reflexivity|].
  destruct (chan "reach" (i_reach d) c); reflexivity.
Qed.
Lemma disjoint : forall c,
  (In c (of_option p_names (i_media d)) -> ~ In c (of_option p_names (i_reach d)) /\ ~ In c (of_option p_names (i_organic_media d)) /\ ~ In c (of_option p_names (i_organic_reach d))) /\
  (In c (of_option p_names (i_reach d)) -> ~ In c (of_option p_names (i_organic_media d)) /\ ~ In c (of_option p_names (i_organic_reach d))) /\
  (In c (of_option p_names (i_organic_media d)) -> ~ In c (of_option p_names (i_organic_reach d))).
Proof.
  intros c. pose proof (channels_nodup d ok) as H. apply nodup_app in H. destruct H as (_ & H & D1).
  apply nodup_app in H. destruct H as (_ & H & D2). apply nodup_app in H. destruct H as (_ & H & D3).
  split; [|split].
  - intros Hc. pose proof (D1 c Hc) as Q. rewrite !in_app_iff in Q. tauto.
  - intros Hc. pose proof (D2 c Hc) as Q. rewrite !in_app_iff in Q. tauto.
  - intros Hc. pose proof (D3 c Hc) as Q. rewrite !in_app_iff in Q. tauto.
Qed.
Ltac types c := rewrite type_of; destruct (disjoint c) as (D1 & D2 & D3);
  pose proof frequency_same as F1; pose proof organic_frequency_same as F2;
  unfold chan at 1 2 3 4 5 6;
  repeat match goal with |- context [existsb (String.eqb c) ?l] =>
    let E := fresh in destruct (existsb (String.eqb c) l) eqn:E;
    [apply existsb_str in E|assert (~ In c l) by (intros Q; apply existsb_str in Q; congruence); clear E] end;
  try reflexivity; exfalso; rewrite ?F1, ?F2 in *; tauto.
Lemma type_media : forall c, In c (of_option p_names (i_media d)) -> channel_type (md_channels md) c = Some "media_channel".
Proof.
  intros c Hc. rewrite type_of. destruct (disjoint c) as (D1 & _ & _). destruct (D1 Hc) as (N1 & N2 & N3).
  rewrite (chan_out _ (i_organic_frequency d)) by (rewrite organic_frequency_same; exact N3).
  rewrite (chan_out _ (i_organic_reach d)) by exact N3. rewrite (chan_out _ (i_organic_media d)) by exact N2.
  rewrite (chan_out _ (i_frequency d)) by (rewrite frequency_same; exact N1). rewrite (chan_out _ (i_reach d)) by exact N1.
  rewrite chan_in by exact Hc. reflexivity.
Qed.
Lemma type_reach : forall c, In c (of_option p_names (i_reach d)) -> channel_type (md_channels md) c = Some "rf_channel".
Proof.
  intros c Hc. rewrite type_of. destruct (disjoint c) as (_ & D2 & _). destruct (D2 Hc) as (N2 & N3).
  rewrite (chan_out _ (i_organic_frequency d)) by (rewrite organic_frequency_same; exact N3).
  rewrite (chan_out _ (i_organic_reach d)) by exact N3. rewrite (chan_out _ (i_organic_media d)) by exact N2.
  rewrite chan_in by (rewrite frequency_same; exact Hc). reflexivity.
Qed.
Lemma type_organic : forall c, In c (of_option p_names (i_organic_media d)) -> channel_type (md_channels md) c = Some "organic_media_channel".
Proof.
  intros c Hc. rewrite type_of. destruct (disjoint c) as (_ & _ & D3). pose proof (D3 Hc) as N3.
  rewrite (chan_out _ (i_organic_frequency d)) by (rewrite organic_frequency_same; exact N3).
  rewrite (chan_out _ (i_organic_reach d)) by exact N3. rewrite chan_in by exact Hc. reflexivity.
Qed.
Lemma type_organic_reach : forall c, In c (of_option p_names (i_organic_reach d)) -> channel_type (md_channels md) c = Some "organic_rf_channel".
Proof.
  intros c Hc. rewrite type_of. rewrite chan_in by (rewrite organic_frequency_same; exact Hc). reflexivity.
Qed.
Lemma is_type_eq : forall t u c, channel_type (md_channels md) c = Some u -> is_type md t c = String.eqb u t.
Proof. intros t u c H. unfold is_type. rewrite H. reflexivity. Qed.

(** *** Rows *)
Lemma filter_all : forall A (f : A -> bool) l, (forall x, In x l -> f x = true) -> filter f l = l.
Proof. intros A f l H. apply filter_id. exact H. Qed.
Lemma filter_none : forall A (f : A -> bool) l, (forall x, In x l -> f x = false) -> filter f l = [].
Proof.
  intros A f l H. induction l as [|x l IH]; [reflexivity|]. cbn [filter]. rewrite (H x) by (left; reflexivity).
  apply IH. intros y Hy. apply H. right. exact Hy.
Qed.
Lemma mvars_names : forall o sp g t v, In v (mvars o sp g t) -> In (mv_name v) (of_option p_names o).
Proof. intros [p|] sp g t v H; [|destruct H]. apply in_map_iff in H. destruct H as (n & <- & H). exact H. Qed.
Lemma rvars_names : forall r f sp g t v, In v (rvars r f sp g t) -> In (rv_name v) (of_option p_names r).
Proof. intros [r|] [f|] sp g t v H; try destruct H. apply in_map_iff in H. destruct H as (n & <- & H). exact H. Qed.

(** The data points: those of the grid, then those of the totals. *)
Definition total_point (p : point) : Prop := dp_geo p = None /\ dp_controls p = [] /\ dp_non_media p = [] /\ dp_kpi p = None.
Variable totals : list point.
Hypothesis totals_ok : forall p, In p totals -> total_point p.
Let points := map (fun gt => closed d iv (fst gt) (snd gt)) (list_prod G mt).
Let pts := points ++ totals.

Lemma rows_grid : forall (f : point -> list row) (keep : date -> bool) (N : list string) (v : string -> date -> string -> option R), (forall p, In p totals -> f p = []) ->
  (forall g t, In g G -> f (closed d iv g t) = if keep t then map (fun n => (g, t, n, v g t n)) N else []) ->
  flat_map f pts = grid G (filter keep mt) N v.
Proof.
  intros f keep N v Ht Hf. unfold pts. rewrite flat_map_app.
  assert (E : flat_map f totals = []).
  { clear - Ht totals_ok. clear totals_ok. induction totals as [|x l IH]; [reflexivity|]. cbn [flat_map]. rewrite (Ht x) by (left; reflexivity).
    cbn [app]. apply IH; intros p Hp; apply Ht; right; exact Hp. }
  rewrite E, app_nil_r. unfold points. rewrite flat_map_map, flat_map_prod. unfold grid. apply flat_map_same. intros g Hg.
  rewrite <- flat_map_filter. apply flat_map_same. intros t _. cbn [fst snd]. apply Hf. exact Hg.
Qed.
Lemma keep_times : filter (fun t => date_in t T) mt = T.
Proof. apply filter_dates; [apply mt_spaced|exact mt_nodup|apply (kpi_spaced d ok)|apply (times_nodup d sv)|exact mt_incl]. Qed.
Lemma keep_all : filter (fun _ => true) mt = mt.
Proof. apply filter_id. reflexivity. Qed.
Lemma mt_ne : mt <> [].
Proof. destruct mt_spaced as [L _]. destruct mt; [cbn in L; lia|discriminate]. Qed.

Lemma closed_geo : forall g t, geo_id (closed d iv g t) = g.
Proof. reflexivity. Qed.
Lemma media_rows_grid : forall ty o, 
  (forall g t, In g G -> filter (fun v => is_type md ty (mv_name v)) (dp_media (closed d iv g t)) = mvars o (if String.eqb ty "media_channel" then granular (i_media_spend d) else None) g t) ->
  forall p, o = Some p -> flat_map (media_rows md ty) pts = grid G mt (p_names p) (pval p).
Proof.
  intros ty o H p ->. rewrite (rows_grid (media_rows md ty) (fun _ => true) (p_names p) (pval p)).
  - rewrite keep_all. reflexivity.
  - intros q Hq. destruct (totals_ok q Hq) as (E & _). unfold media_rows, with_geo, geo_id. rewrite E. reflexivity.
  - intros g t Hg. unfold media_rows, with_geo. rewrite closed_geo, (no_empty_geo d sv g Hg), (H g t Hg). cbn [mvars dp_start closed].
    rewrite map_map. reflexivity.
Qed.
Lemma media_rows_none : forall ty, (forall g t, In g G -> filter (fun v => is_type md ty (mv_name v)) (dp_media (closed d iv g t)) = []) ->
  flat_map (media_rows md ty) pts = [].
Proof.
  intros ty H. rewrite (rows_grid (media_rows md ty) (fun _ => true) [] (fun _ _ _ => @None R)).
  - unfold grid. cbn [map]. rewrite (flat_map_same _ _ _ (fun _ : string => @nil row)); [apply flat_map_nil|]. intros g _. apply flat_map_nil.
  - intros q Hq. destruct (totals_ok q Hq) as (E & _). unfold media_rows, with_geo, geo_id. rewrite E. reflexivity.
  - intros g t Hg. unfold media_rows, with_geo. rewrite closed_geo, (no_empty_geo d sv g Hg), (H g t Hg). reflexivity.
Qed.
Lemma media_split : forall g t, 
  filter (fun v => is_type md "media_channel" (mv_name v)) (dp_media (closed d iv g t)) = mvars (i_media d) (granular (i_media_spend d)) g t /\
  filter (fun v => is_type md "organic_media_channel" (mv_name v)) (dp_media (closed d iv g t)) = mvars (i_organic_media d) None g t.
Proof.
  intros g t. cbn [closed dp_media]. rewrite !filter_app. split.
  - rewrite filter_all, filter_none; [apply app_nil_r| |].
    + intros v Hv. rewrite (is_type_eq _ _ _ (type_organic _ (mvars_names _ _ _ _ _ Hv))). reflexivity.
    + intros v Hv. rewrite (is_type_eq _ _ _ (type_media _ (mvars_names _ _ _ _ _ Hv))). reflexivity.
  - rewrite filter_none, filter_all; [reflexivity| |].
    + intros v Hv. rewrite (is_type_eq _ _ _ (type_organic _ (mvars_names _ _ _ _ _ Hv))). reflexivity.
    + intros v Hv. rewrite (is_type_eq _ _ _ (type_media _ (mvars_names _ _ _ _ _ Hv))). reflexivity.
Qed.
Lemma rf_split : forall g t, 
  filter (fun v => is_type md "rf_channel" (rv_name v)) (dp_rf (closed d iv g t)) = rvars (i_reach d) (i_frequency d) (granular (i_rf_spend d)) g t /\
  filter (fun v => is_type md "organic_rf_channel" (rv_name v)) (dp_rf (closed d iv g t)) = rvars (i_organic_reach d) (i_organic_frequency d) None g t.
Proof.
  intros g t. cbn [closed dp_rf]. rewrite !filter_app. split.
  - rewrite filter_all, filter_none; [apply app_nil_r| |].
    + intros v Hv. rewrite (is_type_eq _ _ _ (type_organic_reach _ (rvars_names _ _ _ _ _ _ Hv))). reflexivity.
    + intros v Hv. rewrite (is_type_eq _ _ _ (type_reach _ (rvars_names _ _ _ _ _ _ Hv))). reflexivity.
  - rewrite filter_none, filter_all; [reflexivity| |].
    + intros v Hv. rewrite (is_type_eq _ _ _ (type_organic_reach _ (rvars_names _ _ _ _ _ _ Hv))). reflexivity.
    + intros v Hv. rewrite (is_type_eq _ _ _ (type_reach _ (rvars_names _ _ _ _ _ _ Hv))). reflexivity.
Qed.
Lemma extract_nil : extract_3d [] = None.
Proof. reflexivity. Qed.

(** A panel on the media dates comes back. *)
Lemma media_dates_back : forall (rel : option R -> option R -> Prop) (p : panel) (v : string -> date -> string -> option R), In (Some p) (panels d) -> In (Some p) (media_panels d) -> NoDup (p_names p) ->
  (forall i j k g t n, nth_error (p_geos p) i = Some g -> nth_error (p_times p) j = Some t -> nth_error (p_names p) k = Some n ->
     rel (p_at p i j k) (v g t n)) ->
  exists q, extract_3d (grid G mt (p_names p) v) = Some q /\ panel_by rel p q.
Proof.
  intros rel p v Hp Hm N Hv. apply extract_panel; auto.
  - rewrite (panel_geos d ok p Hp). apply (geos_nodup d ok).
  - rewrite (mt_panels p Hm). exact mt_nodup.
  - rewrite (panel_geos d ok p Hp). apply (geos_ne d sv).
  - rewrite (mt_panels p Hm). exact mt_ne.
  - apply (names_ne d sv p Hp).
  - symmetry. apply (panel_geos d ok p Hp).
  - symmetry. apply (mt_panels p Hm).
Qed.
Lemma kpi_dates_back : forall p, p_geos p = G -> p_times p = T -> p_names p <> [] -> NoDup (p_names p) ->
  exists q, extract_3d (grid G (filter (fun t => date_in t T) mt) (p_names p) (pval p)) = Some q /\ same_panel p q.
Proof.
  intros p Hg Ht Hne N. rewrite keep_times.
  assert (Ng : NoDup (p_geos p)) by (rewrite Hg; apply (geos_nodup d ok)).
  assert (Nt : NoDup (p_times p)) by (rewrite Ht; apply (times_nodup d sv)).
  apply extract_panel; auto.
  - rewrite Hg. apply (geos_ne d sv).
  - rewrite Ht. apply (times_ne d ok).
  - intros i j k g t n E1 E2 E3. symmetry. apply pval_at; auto.
Qed.
Lemma own_value : forall p, In (Some p) (panels d) -> In (Some p) (media_panels d) -> NoDup (p_names p) ->
  forall i j k g t n, nth_error (p_geos p) i = Some g -> nth_error (p_times p) j = Some t -> nth_error (p_names p) k = Some n -> p_at p i j k = pval p g t n.
Proof.
  intros p Hp Hm N i j k g t n E1 E2 E3. symmetry. apply pval_at; auto.
  - rewrite (panel_geos d ok p Hp). apply (geos_nodup d ok).
  - rewrite (mt_panels p Hm). exact mt_nodup.
Qed.

Lemma media_back : both same_panel (i_media d) (extract_3d (flat_map (media_rows md "media_channel") pts)).
Proof.
  destruct (i_media d) as [p|] eqn:E.
  - rewrite (media_rows_grid "media_channel" (Some p)) with (p := p); [|intros g t Hg; rewrite <- E; apply media_split|reflexivity].
    assert (Hp : In (Some p) (panels d)) by (apply in_panels; tauto). assert (Hm : In (Some p) (media_panels d)) by (apply in_media_panels; tauto).
    pose proof (media_nodup d ok p E) as N.
    destruct (media_dates_back eq p (pval p) Hp Hm N (own_value p Hp Hm N)) as (q & Eq & R). rewrite Eq. exact R.
  - rewrite media_rows_none; [exact Logic.I|]. intros g t Hg. rewrite (proj1 (media_split g t)), E. reflexivity.
Qed.
Lemma organic_back : both same_panel (i_organic_media d) (extract_3d (flat_map (media_rows md "organic_media_channel") pts)).
Proof.
  destruct (i_organic_media d) as [p|] eqn:E.
  - rewrite (media_rows_grid "organic_media_channel" (Some p)) with (p := p); [|intros g t Hg; rewrite <- E; apply media_split|reflexivity].
    assert (Hp : In (Some p) (panels d)) by (apply in_panels; tauto). assert (Hm : In (Some p) (media_panels d)) by (apply in_media_panels; tauto).
    pose proof (organic_nodup d ok p E) as N.
    destruct (media_dates_back eq p (pval p) Hp Hm N (own_value p Hp Hm N)) as (q & Eq & R). rewrite Eq. exact R.
  - rewrite media_rows_none; [exact Logic.I|]. intros g t Hg. rewrite (proj2 (media_split g t)), E. reflexivity.
Qed.

Lemma reach_rows_grid : forall ty r f sp, (forall g t, In g G -> filter (fun v => is_type md ty (rv_name v)) (dp_rf (closed d iv g t)) = rvars (Some r) (Some f) sp g t) ->
  flat_map (reach_rows md ty) pts = grid G mt (p_names r) (fun g t n => Some (IZR (zval r g t n))) /\
  flat_map (frequency_rows md ty) pts = grid G mt (p_names r) (pval f).
Proof.
  intros ty r f sp H. split.
  - rewrite (rows_grid (reach_rows md ty) (fun _ => true) (p_names r) (fun g t n => Some (IZR (zval r g t n)))).
    + rewrite keep_all. reflexivity.
    + intros q Hq. destruct (totals_ok q Hq) as (E & _). unfold reach_rows, with_geo, geo_id. rewrite E. reflexivity.
    + intros g t Hg. unfold reach_rows, with_geo. rewrite closed_geo, (no_empty_geo d sv g Hg), (H g t Hg). cbn [rvars dp_start closed].
      rewrite map_map. reflexivity.
  - rewrite (rows_grid (frequency_rows md ty) (fun _ => true) (p_names r) (pval f)).
    + rewrite keep_all. reflexivity.
    + intros q Hq. destruct (totals_ok q Hq) as (E & _). unfold frequency_rows, with_geo, geo_id. rewrite E. reflexivity.
    + intros g t Hg. unfold frequency_rows, with_geo. rewrite closed_geo, (no_empty_geo d sv g Hg), (H g t Hg). cbn [rvars dp_start closed].
      rewrite map_map. reflexivity.
Qed.
Lemma reach_rows_none : forall ty, (forall g t, In g G -> filter (fun v => is_type md ty (rv_name v)) (dp_rf (closed d iv g t)) = []) ->
  flat_map (reach_rows md ty) pts = [] /\ flat_map (frequency_rows md ty) pts = [].
Proof.
  intros ty H. split.
  - rewrite (rows_grid (reach_rows md ty) (fun _ => true) [] (fun _ _ _ => @None R)).
    + unfold grid. cbn [map]. rewrite (flat_map_same _ _ _ (fun _ : string => @nil row)); [apply flat_map_nil|]. intros g _. apply flat_map_nil.
    + intros q Hq. destruct (totals_ok q Hq) as (E & _). unfold reach_rows, with_geo, geo_id. rewrite E. reflexivity.
    + intros g t Hg. unfold reach_rows, with_geo. rewrite closed_geo, (no_empty_geo d sv g Hg), (H g t Hg). reflexivity.
  - rewrite (rows_grid (frequency_rows md ty) (fun _ => true) [] (fun _ _ _ => @None R)).
    + unfold grid. cbn [map]. rewrite (flat_map_same _ _ _ (fun _ : string => @nil row)); [apply flat_map_nil|]. intros g _. apply flat_map_nil.
    + intros q Hq. destruct (totals_ok q Hq) as (E & _). unfold frequency_rows, with_geo, geo_id. rewrite E. reflexivity.
    + intros g t Hg. unfold frequency_rows, with_geo. rewrite closed_geo, (no_empty_geo d sv g Hg), (H g t Hg). reflexivity.
Qed.
Lemma reach_value : forall p, In (Some p) (panels d) -> In (Some p) (media_panels d) -> In (Some p) [i_reach d; i_organic_reach d] -> NoDup (p_names p) ->
  forall i j k g t n, nth_error (p_geos p) i = Some g -> nth_error (p_times p) j = Some t -> nth_error (p_names p) k = Some n ->
  rounded_down (p_at p i j k) (Some (IZR (zval p g t n))).
Proof.
  intros p Hp Hm Hr N i j k g t n E1 E2 E3.
  assert (F : fits (p_at p i j k)).
  { apply (reach_fits d ok sv p); [exact Hr|]. exists i, j, k. repeat split; apply nth_error_Some; congruence. }
  destruct F as (a & Ea & H0 & _). exists a, (truncate a). split; [exact Ea|]. split; [|apply truncate_nonneg; exact H0].
  unfold zval. rewrite <- (own_value p Hp Hm N i j k g t n E1 E2 E3), Ea. reflexivity.
Qed.
Lemma reach_back : both (panel_by rounded_down) (i_reach d) (extract_3d (flat_map (reach_rows md "rf_channel") pts)) /\
  both same_panel (i_frequency d) (extract_3d (flat_map (frequency_rows md "rf_channel") pts)).
Proof.
  pose proof (reach_frequency d sv) as RF. destruct (i_reach d) as [p|] eqn:E; destruct (i_frequency d) as [q|] eqn:E2.
  - destruct (reach_rows_grid "rf_channel" p q (granular (i_rf_spend d))) as [-> ->];
      [intros g t Hg; rewrite (proj1 (rf_split g t)), E, E2; reflexivity|].
    assert (Hp : In (Some p) (panels d)) by (apply in_panels; tauto). assert (Hm : In (Some p) (media_panels d)) by (apply in_media_panels; tauto).
    assert (Hq : In (Some q) (panels d)) by (apply in_panels; tauto). assert (Hmq : In (Some q) (media_panels d)) by (apply in_media_panels; tauto).
    pose proof (reach_nodup d ok p E) as N. pose proof (frequency_names d ok p q E E2) as En.
    destruct (media_dates_back rounded_down p _ Hp Hm N (reach_value p Hp Hm (or_introl E) N)) as (p' & -> & R).
    rewrite En in N |- *. destruct (media_dates_back eq q (pval q) Hq Hmq N (own_value q Hq Hmq N)) as (q' & -> & R'). split; [exact R|exact R'].
  - destruct RF as [_ H]. discriminate (H eq_refl).
  - destruct RF as [H _]. discriminate (H eq_refl).
  - destruct (reach_rows_none "rf_channel") as [-> ->]; [|split; exact Logic.I].
    intros g t Hg. rewrite (proj1 (rf_split g t)), E. reflexivity.
Qed.
Lemma organic_reach_back : both (panel_by rounded_down) (i_organic_reach d) (extract_3d (flat_map (reach_rows md "organic_rf_channel") pts)) /\
  both same_panel (i_organic_frequency d) (extract_3d (flat_map (frequency_rows md "organic_rf_channel") pts)).
Proof.
  pose proof (organic_reach_frequency d sv) as RF. destruct (i_organic_reach d) as [p|] eqn:E; destruct (i_organic_frequency d) as [q|] eqn:E2.
  - destruct (reach_rows_grid "organic_rf_channel" p q None) as [-> ->];
      [intros g t Hg; rewrite (proj2 (rf_split g t)), E, E2; reflexivity|].
    assert (Hp : In (Some p) (panels d)) by (apply in_panels; tauto). assert (Hm : In (Some p) (media_panels d)) by (apply in_media_panels; tauto).
    assert (Hq : In (Some q) (panels d)) by (apply in_panels; tauto). assert (Hmq : In (Some q) (media_panels d)) by (apply in_media_panels; tauto).
    pose proof (organic_reach_nodup d ok p E) as N. pose proof (organic_frequency_names d ok p q E E2) as En.
    destruct (media_dates_back rounded_down p _ Hp Hm N (reach_value p Hp Hm (or_intror (or_introl E)) N)) as (p' & -> & R).
    rewrite En in N |- *. destruct (media_dates_back eq q (pval q) Hq Hmq N (own_value q Hq Hmq N)) as (q' & -> & R'). split; [exact R|exact R'].
  - destruct RF as [_ H]. discriminate (H eq_refl).
  - destruct RF as [H _]. discriminate (H eq_refl).
  - destruct (reach_rows_none "organic_rf_channel") as [-> ->]; [|split; exact Logic.I].
    intros g t Hg. rewrite (proj2 (rf_split g t)), E. reflexivity.
Qed.

(** Controls and non-media treatments. *)
Lemma named_back : forall (o : option panel) (f : point -> list row), (forall p, In p totals -> f p = []) ->
  (forall g t, f (closed d iv g t) = map (fun nv => (g, t, fst nv, snd nv)) (nvals o g t)) ->
  (forall p, o = Some p -> In (Some p) (panels d) /\ p_times p = T /\ NoDup (p_names p)) ->
  both same_panel o (extract_3d (flat_map f pts)).
Proof.
  intros [p|] f Ht Hf Hp.
  - destruct (Hp p eq_refl) as (Hin & Et & N).
    rewrite (rows_grid f (fun t => date_in t T) (p_names p) (pval p) Ht).
    + destruct (kpi_dates_back p (panel_geos d ok p Hin) Et (names_ne d sv p Hin) N) as (q & -> & R). exact R.
    + intros g t _. rewrite Hf. cbn [nvals]. rewrite Et. destruct (date_in t T); [|reflexivity]. rewrite map_map. reflexivity.
  - rewrite (rows_grid f (fun _ => true) [] (fun _ _ _ => None) Ht).
    + unfold grid. cbn [map]. rewrite (flat_map_same _ _ _ (fun _ : string => @nil row)); [rewrite flat_map_nil; exact Logic.I|]. intros g _. apply flat_map_nil.
    + intros g t _. rewrite Hf. reflexivity.
Qed.
Lemma controls_back : both same_panel (i_controls d) (extract_3d (flat_map control_rows pts)).
Proof.
  apply named_back.
  - intros p Hp. destruct (totals_ok p Hp) as (_ & E & _). unfold control_rows. rewrite E. reflexivity.
  - reflexivity.
  - intros p E. split; [apply in_panels; tauto|]. split; [apply (control_times d sv); left; exact E|apply (control_names d sv); exact E].
Qed.
Lemma non_media_back : both same_panel (i_non_media d) (extract_3d (flat_map non_media_rows pts)).
Proof.
  apply named_back.
  - intros p Hp. destruct (totals_ok p Hp) as (_ & _ & E & _). unfold non_media_rows. rewrite E. reflexivity.
  - reflexivity.
  - intros p E. split; [apply in_panels; tauto|]. split; [apply (control_times d sv); right; left; exact E|apply (non_media_nodup d ok); exact E].
Qed.

(** KPI. *)
Lemma kpi_back : exists q, extract_2d (flat_map kpi_rows pts) = Some q /\ same_matrix (i_kpi d) q.
Proof.
  rewrite (rows_grid kpi_rows (fun t => date_in t T) [""] (fun g t _ => mval (i_kpi d) g t)).
  - rewrite keep_times. apply extract_matrix; auto; [apply (geos_nodup d ok)|apply (times_nodup d sv)|apply (geos_ne d sv)|apply (times_ne d ok)].
  - intros p Hp. destruct (totals_ok p Hp) as (_ & _ & _ & E). unfold kpi_rows. rewrite E. reflexivity.
  - intros g t _. unfold kpi_rows. cbn [closed dp_kpi]. unfold kmsg. fold T. destruct (date_in t T); [|reflexivity].
    destruct (String.eqb (i_kpi_type d) "revenue"); reflexivity.
Qed.
Lemma rpk_back : i_kpi_type d <> "revenue" -> both same_matrix (i_rpk d) (extract_2d (flat_map rpk_rows pts)).
Proof.
  intros K. destruct (i_rpk d) as [m|] eqn:E.
  - rewrite (rows_grid rpk_rows (fun t => date_in t T) [""] (fun g t _ => mval m g t)).
    + rewrite keep_times. pose proof (rpk_geos d ok m K E) as Eg. pose proof (rpk_times d sv m E) as Et.
      destruct (extract_matrix m G T) as (q & -> & R); auto.
      * rewrite Eg. apply (geos_nodup d ok).
      * rewrite Et. apply (times_nodup d sv).
      * rewrite Eg. apply (geos_ne d sv).
      * rewrite Et. apply (times_ne d ok).
    + intros p Hp. destruct (totals_ok p Hp) as (_ & _ & _ & E'). unfold rpk_rows. rewrite E'. reflexivity.
    + intros g t _. unfold rpk_rows. cbn [closed dp_kpi]. unfold kmsg. fold T. destruct (date_in t T); [|reflexivity].
      apply String.eqb_neq in K. rewrite K, E. reflexivity.
  - rewrite (rows_grid rpk_rows (fun _ => true) [] (fun _ _ _ => None)).
    + unfold grid. cbn [map]. rewrite (flat_map_same _ _ _ (fun _ : string => @nil row)); [rewrite flat_map_nil; exact Logic.I|]. intros g _. apply flat_map_nil.
    + intros p Hp. destruct (totals_ok p Hp) as (_ & _ & _ & E'). unfold rpk_rows. rewrite E'. reflexivity.
    + intros g t _. unfold rpk_rows. cbn [closed dp_kpi]. unfold kmsg. fold T. destruct (date_in t T); [|reflexivity].
      apply String.eqb_neq in K. rewrite K, E. reflexivity.
Qed.
Lemma kpi_type_back : extract_kpi_type pts = Ok (i_kpi_type d).
Proof.
  assert (Ty : i_kpi_type d = "revenue" \/ i_kpi_type d = "non_revenue") by apply ok.
  assert (All : forall t, In t (map type_of_kpi (kpi_messages pts)) -> t = i_kpi_type d).
  { intros t H. apply in_map_iff in H. destruct H as (k & <- & H). apply in_flat_map in H. destruct H as (p & Hp & Hk).
    apply in_app_or in Hp. destruct Hp as [Hp|Hp].
    - apply in_map_iff in Hp. destruct Hp as ([g t] & <- & _). cbn [closed dp_kpi fst snd] in Hk. unfold kmsg in Hk.
      destruct (date_in t (m_times (i_kpi d))); [|destruct Hk]. destruct Hk as [<-|[]].
      destruct (String.eqb (i_kpi_type d) "revenue") eqn:K; cbn [type_of_kpi].
      + apply String.eqb_eq in K. auto.
      + apply String.eqb_neq in K. destruct Ty; [contradiction|auto].
    - destruct (totals_ok p Hp) as (_ & _ & _ & E). rewrite E in Hk. destruct Hk. }
  assert (Some_k : kpi_messages pts <> []).
  { assert (Hg : exists g, In g G) by (pose proof (geos_ne d sv) as Q; unfold G; destruct (m_geos (i_kpi d)) as [|g l]; [contradiction|exists g; left; reflexivity]).
    assert (Ht : exists t, In t T) by (pose proof (times_ne d ok) as Q; unfold T; destruct (m_times (i_kpi d)) as [|t l]; [contradiction|exists t; left; reflexivity]).
    destruct Hg as [g Hg], Ht as [t Ht].
    intros H. assert (Q : forall k, ~ In k (kpi_messages pts)) by (intros k; rewrite H; intros []).
    assert (Hin : In (closed d iv g t) pts).
    { apply in_or_app. left. apply in_map_iff. exists (g, t). split; [reflexivity|]. apply in_prod; [exact Hg|]. apply mt_incl. exact Ht. }
    destruct (dp_kpi (closed d iv g t)) as [k|] eqn:Ek.
    - apply (Q k). apply in_flat_map. exists (closed d iv g t). split; [exact Hin|]. rewrite Ek. left. reflexivity.
    - cbn [closed dp_kpi] in Ek. unfold kmsg in Ek. fold T in Ek. rewrite (proj2 (date_in_iff t T) Ht) in Ek. discriminate. }
  unfold extract_kpi_type. destruct (kpi_messages pts) as [|k r]; [contradiction|]. cbn [map] in *.
  rewrite (All (type_of_kpi k)) by (left; reflexivity).
  assert (E : existsb (fun u => negb (String.eqb u (i_kpi_type d))) (map type_of_kpi r) = false).
  { apply existsb_none. intros u Hu. rewrite (All u) by (right; exact Hu). rewrite String.eqb_refl. reflexivity. }
  rewrite E. reflexivity.
Qed.

(** Population. *)
Lemma population_back : same_vector (i_population d) (extract_population pts).
Proof.
  pose proof (pop_geos d ok) as Eg. fold G in Eg. unfold extract_population.
  set (rows := flat_map (fun p => match dp_geo p with Some (g, v) => if String.eqb g "" then [] else [(g, v)] | None => [] end) pts).
  assert (Er : rows = flat_map (fun g => map (fun _ => (g, popval d g)) mt) G).
  { unfold rows, pts. rewrite flat_map_app.
    assert (E : flat_map (fun p => match dp_geo p with Some (g, v) => if String.eqb g "" then [] else [(g, v)] | None => [] end) totals = []).
    { revert totals_ok. generalize totals. clear. intros totals H. induction totals as [|x l IH]; [reflexivity|]. cbn [flat_map].
      destruct (H x (or_introl eq_refl)) as (E & _). rewrite E. cbn [app]. apply IH. intros p Hp. apply H. right. exact Hp. }
    rewrite E, app_nil_r. unfold points. rewrite flat_map_map, flat_map_prod. apply flat_map_same. intros g Hg.
    cbn [closed dp_geo fst snd]. rewrite (no_empty_geo d sv g Hg). clear. induction mt as [|t l IH]; [reflexivity|]. cbn [flat_map map app]. f_equal; exact IH. }
  assert (Eg2 : first_seen String.eqb (map fst rows) = G).
  { rewrite Er, map_flat_map. apply (first_blocks String.eqb str_spec); [apply (geos_nodup d ok)|]. intros g _. split.
    - pose proof mt_ne. destruct mt; [contradiction|discriminate].
    - intros y Hy. apply in_map_iff in Hy. destruct Hy as (r & <- & Hr). apply in_map_iff in Hr. destruct Hr as (t & <- & _). reflexivity. }
  rewrite Eg2. split; [cbn; auto|]. cbn [v_at]. rewrite Eg. intros i Hi. destruct (nth_lt _ _ _ Hi) as [g E]. rewrite E.
  assert (Hg : In g G) by (eapply nth_error_In; eauto).
  destruct (find (fun r => String.eqb (fst r) g) (rev rows)) as [r|] eqn:F.
  - apply find_some in F. destruct F as [Hr F]. apply in_rev in Hr. apply String.eqb_eq in F. rewrite Er in Hr.
    apply in_flat_map in Hr. destruct Hr as (g' & _ & Hr). apply in_map_iff in Hr. destruct Hr as (t & <- & _). cbn [fst snd] in *. subst g'.
    unfold popval. rewrite Eg. rewrite (position_nth String.eqb str_spec G i g (geos_nodup d ok) E). reflexivity.
  - exfalso. pose proof mt_ne as Hne. destruct mt as [|t l] eqn:Em; [contradiction|].
    assert (Hin : In (g, popval d g) (rev rows)).
    { apply in_rev. rewrite rev_involutive, Er. apply in_flat_map. exists g. split; [exact Hg|]. left. reflexivity. }
    pose proof (find_none _ _ F _ Hin) as Q. cbn in Q. rewrite String.eqb_refl in Q. discriminate.
Qed.
End Load.
