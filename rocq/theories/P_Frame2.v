(** Lemmas about loading from data frames: what the loader assigns. *)
From Coq Require Import Reals ZArith Lia String List Bool Permutation.
From Verif Require Import M_Base M_Time Lib_Sort M_Builder S_Builder P_Builder P_BuilderOrder M_Frame S_Frame P_Frame.
Import ListNotations.
Local Open Scope string_scope.
Local Open Scope R_scope.
Local Open Scope nat_scope.
Local Open Scope list_scope.

Lemma channels_in_map : forall d l ch, channels_in d l = Ok ch -> ch = map (channel d) l.
Proof.
  intros d l. induction l as [|c l IH]; intros ch E; cbn in E; [injection E as <-; reflexivity|]. cbn [map].
  unfold channel at 1. destruct (find (fun kv => String.eqb (fst kv) c) d) as [kv|]; [|discriminate].
  apply inv_rbind' in E. destruct E as (ch' & E & K). assert (ch = snd kv :: ch') by congruence. subst. rewrite (IH _ E). reflexivity.
Qed.
Lemma map_channel_pairs : forall d l, map fst (map (fun col => (col, channel d col)) l) = l /\
  map snd (map (fun col => (col, channel d col)) l) = map (channel d) l.
Proof. intros d l. rewrite !map_map. cbn. split; [apply map_id|reflexivity]. Qed.
Lemma map_own_pairs : forall l : list string, map fst (map (fun col => (col, col)) l) = l /\ map snd (map (fun col => (col, col)) l) = l.
Proof. intros l. rewrite !map_map. cbn. split; apply map_id. Qed.
Lemma or_default_some : forall s d, s <> "" -> or_default (Some s) d = s.
Proof. intros s d N. unfold or_default. destruct (String.eqb_spec s ""); [contradiction|reflexivity]. Qed.
Lemma list_eqb_iff : forall a b, list_eqb a b = true <-> a = b.
Proof. intros a b. unfold list_eqb. destruct (list_eq_dec string_dec a b); split; congruence. Qed.

Section P.
Context {G T : Type}.
Variables (geq : forall a b : G, {a = b} + {a <> b}) (teq : forall a b : T, {a = b} + {a <> b})
  (gord : G -> G -> bool) (tle : T -> T -> bool) (gle : G -> G -> bool)
  (parse : T -> option date) (national : G).
Notation da := (da G T string R).
Notation loader := (loader G T).
Notation row := (row G T).
Notation to_array := (to_array geq teq gord tle).
Notation with_geo := (with_geo national).
Notation validate_coords := (validate_coords geq teq gord tle national).
Notation run := (run geq teq string_dec tle parse national).
Notation array_of := (array_of geq teq gord tle national).
Notation load_calls := (load_calls geq teq gord tle national).

Lemma validate_coords_frame : forall geo time (f f' : frame G T), validate_coords geo time f = Ok f' -> f' = with_geo geo f.
Proof.
  intros geo [time|] f f' E; unfold M_Frame.validate_coords in E; [|congruence].
  apply raise_if_inv' in E. destruct E as [_ E]. apply raise_if_inv' in E. destruct E as [_ E]. congruence.
Qed.

Record init_facts (lo : loader) : Prop := {
  if_media : forall m ms, lo_media lo = Some m -> lo_media_spend lo = Some ms ->
    exists a b ch, co_media (lo_coord lo) = Some a /\ co_media_spend (lo_coord lo) = Some b /\
      channels_in m a = Ok ch /\ channels_in ms b = Ok ch;
  if_reach : forall m ms mt, lo_reach lo = Some m -> lo_frequency lo = Some ms -> lo_rf_spend lo = Some mt ->
    exists a b c ch, co_reach (lo_coord lo) = Some a /\ co_frequency (lo_coord lo) = Some b /\ co_rf_spend (lo_coord lo) = Some c /\
      channels_in m a = Ok ch /\ channels_in ms b = Ok ch /\ channels_in mt c = Ok ch;
  if_organic : forall m ms, lo_organic_reach lo = Some m -> lo_organic_frequency lo = Some ms ->
    exists a b ch, co_organic_reach (lo_coord lo) = Some a /\ co_organic_frequency (lo_coord lo) = Some b /\
      channels_in m a = Ok ch /\ channels_in ms b = Ok ch
}.
Lemma channels_of_some : forall d o ch, channels_of d o = Ok ch -> exists l, o = Some l /\ channels_in d l = Ok ch.
Proof. intros d [l|] ch E; [eauto|discriminate]. Qed.
Lemma init_inv : forall lo : loader, loader_init lo = Ok tt -> init_facts lo.
Proof.
  intros lo E. unfold loader_init in E. cbv zeta in E.
  do 7 (apply inv_rbind' in E; destruct E as (? & _ & E)).
  apply inv_rbind' in E. destruct E as ([] & E1 & E). apply inv_rbind' in E. destruct E as ([] & E2 & E3).
  constructor.
  - intros m ms A B. rewrite A, B in E1. apply raise_if_inv' in E1. destruct E1 as [_ E1].
    apply inv_rbind' in E1. destruct E1 as (a & Ea & E1). apply inv_rbind' in E1. destruct E1 as (b & Eb & E1).
    apply raise_if_inv' in E1. destruct E1 as [Eq _]. apply negb_false_iff, list_eqb_iff in Eq. subst b.
    apply channels_of_some in Ea, Eb. destruct Ea as (l1 & O1 & C1). destruct Eb as (l2 & O2 & C2). exists l1, l2, a. auto.
  - intros m ms mt A B C. rewrite A, B, C in E2. apply raise_if_inv' in E2. destruct E2 as [_ E2].
    apply inv_rbind' in E2. destruct E2 as (a & Ea & E2). apply inv_rbind' in E2. destruct E2 as (b & Eb & E2).
    apply inv_rbind' in E2. destruct E2 as (c & Ec & E2).
    apply raise_if_inv' in E2. destruct E2 as [Eq _]. apply negb_false_iff, andb_true_iff in Eq. destruct Eq as [Eq1 Eq2].
    apply list_eqb_iff in Eq1, Eq2. subst b c.
    apply channels_of_some in Ea, Eb, Ec. destruct Ea as (l1 & O1 & C1). destruct Eb as (l2 & O2 & C2). destruct Ec as (l3 & O3 & C3).
    exists l1, l2, l3, a. repeat split; assumption.
  - clear E1 E2. intros m ms A B. rewrite A, B in E3. apply raise_if_inv' in E3. destruct E3 as [_ E1].
    apply inv_rbind' in E1. destruct E1 as (a & Ea & E1). apply inv_rbind' in E1. destruct E1 as (b & Eb & E1).
    apply raise_if_inv' in E1. destruct E1 as [Eq _]. apply negb_false_iff, list_eqb_iff in Eq. subst b.
    apply channels_of_some in Ea, Eb. destruct Ea as (l1 & O1 & C1). destruct Eb as (l2 & O2 & C2). exists l1, l2, a. auto.
Qed.

(** A segment of the calls assigns the arrays of the components [comps]. *)
Definition present (lo : loader) (c : component) : bool := match columns_of lo c with [] => false | _ => true end.
Definition seg (lo : loader) (calls : list (result (@steps G T))) (comps : list component) : Prop :=
  forall stepss, calls = map Ok stepss -> concat stepss = map (fun c => (c, array_of lo c)) comps.
Lemma seg_app : forall lo a b ca cb, seg lo a ca -> seg lo b cb -> seg lo (a ++ b) (ca ++ cb).
Proof.
  intros lo a b ca cb A B ss E. symmetry in E. apply map_app_inv in E. destruct E as (l1 & l2 & -> & E1 & E2).
  rewrite concat_app, map_app, (A l1), (B l2); auto.
Qed.
Lemma seg_nil : forall lo, seg lo [] [].
Proof. intros lo [|a l] E; [reflexivity|discriminate]. Qed.
Lemma seg_one : forall lo call comps, (forall st, call = Ok st -> st = map (fun c => (c, array_of lo c)) comps) -> seg lo [call] comps.
Proof.
  intros lo call comps H [|st [|b l]] E; try discriminate. cbn in E. injection E as E. cbn. rewrite app_nil_r. apply H. exact E.
Qed.

Definition read_order : list component :=
  [Kpi] ++ [Population] ++ [Controls] ++ [NonMediaTreatments] ++ [RevenuePerKpi] ++ [Media; MediaSpend]
  ++ [Reach; Frequency; RfSpend] ++ [OrganicMedia] ++ [OrganicReach; OrganicFrequency].

Lemma own_present : forall l : list string, l <> [] -> map (fun col => (col, col)) l <> [].
Proof. intros [|a l] N; [congruence|discriminate]. Qed.

Lemma calls_seg : forall lo, coord_init (lo_coord lo) = Ok tt -> loader_init lo = Ok tt -> named_columns lo ->
  seg lo (load_calls lo) (filter (present lo) read_order).
Proof.
  intros lo Ci Li (Ng & Nt & Nk & Np). pose proof (init_inv lo Li) as [Fm Fr Fo].
  unfold M_Frame.load_calls, read_order. cbv zeta. rewrite !filter_app.
  assert (Pc : forall c l, columns_of lo c = l -> l <> [] -> present lo c = true).
  { intros c l E N. unfold present. rewrite E. destruct l; [contradiction|reflexivity]. }
  assert (Pn : forall c, columns_of lo c = [] -> present lo c = false).
  { intros c E. unfold present. rewrite E. reflexivity. }
  repeat apply seg_app.
  - cbn [filter]. rewrite (Pc Kpi [(co_kpi (lo_coord lo), "")] eq_refl) by discriminate.
    apply seg_one. intros st E. unfold with_kpi in E. rewrite !or_default_some in E by assumption. cbv zeta in E.
    apply inv_rbind' in E. destruct E as (? & _ & E). apply inv_rbind' in E. destruct E as (f' & Ev & E).
    apply validate_coords_frame in Ev. subst f'. injection E as <-. reflexivity.
  - cbn [filter]. unfold mem. destruct (in_dec string_dec (co_population (lo_coord lo)) (f_columns (lo_frame lo))) as [Ip|Ip].
    + rewrite (Pc Population [(co_population (lo_coord lo), "")]); [|cbn [columns_of]; destruct (in_dec string_dec (co_population (lo_coord lo)) (f_columns (lo_frame lo))); [reflexivity|contradiction]|discriminate].
      apply seg_one. intros st E. unfold with_population in E. rewrite !or_default_some in E by assumption. cbv zeta in E.
      apply inv_rbind' in E. destruct E as (? & _ & E). apply inv_rbind' in E. destruct E as (f' & Ev & E).
      apply validate_coords_frame in Ev. subst f'. injection E as <-. reflexivity.
    + rewrite (Pn Population); [apply seg_nil|]. cbn [columns_of]. destruct (in_dec string_dec (co_population (lo_coord lo)) (f_columns (lo_frame lo))); [contradiction|reflexivity].
  - cbn [filter]. destruct (co_controls (lo_coord lo)) as [[|a l]|] eqn:Ec; cbn [given].
    + rewrite (Pn Controls); [apply seg_nil|]. cbn [columns_of]. rewrite Ec. reflexivity.
    + assert (Cc : columns_of lo Controls = map (fun col => (col, col)) (a :: l)) by (cbn [columns_of]; rewrite Ec; reflexivity).
      rewrite (Pc Controls _ Cc) by discriminate. cbn [listed rbind].
      apply seg_one. intros st E. unfold with_controls, with_named in E. rewrite !or_default_some in E by assumption. cbn [empty] in E. cbv zeta in E.
      apply inv_rbind' in E. destruct E as (? & _ & E). apply inv_rbind' in E. destruct E as (f' & Ev & E).
      apply validate_coords_frame in Ev. subst f'. injection E as <-.
      cbn [map P_Frame.array_of]. unfold entries_of, names_of. rewrite Cc. destruct (map_own_pairs (a :: l)) as [-> ->]. reflexivity.
    + rewrite (Pn Controls); [apply seg_nil|]. cbn [columns_of]. rewrite Ec. reflexivity.
  - cbn [filter]. destruct (co_non_media (lo_coord lo)) as [[|a l]|] eqn:Ec; cbn [given].
    + rewrite (Pn NonMediaTreatments); [apply seg_nil|]. cbn [columns_of]. rewrite Ec. reflexivity.
    + assert (Cc : columns_of lo NonMediaTreatments = map (fun col => (col, col)) (a :: l)) by (cbn [columns_of]; rewrite Ec; reflexivity).
      rewrite (Pc NonMediaTreatments _ Cc) by discriminate. cbn [listed rbind].
      apply seg_one. intros st E. unfold with_non_media_treatments, with_named in E. rewrite !or_default_some in E by assumption. cbn [empty] in E. cbv zeta in E.
      apply inv_rbind' in E. destruct E as (? & _ & E). apply inv_rbind' in E. destruct E as (f' & Ev & E).
      apply validate_coords_frame in Ev. subst f'. injection E as <-.
      cbn [map P_Frame.array_of]. unfold entries_of, names_of. rewrite Cc. destruct (map_own_pairs (a :: l)) as [-> ->]. reflexivity.
    + rewrite (Pn NonMediaTreatments); [apply seg_nil|]. cbn [columns_of]. rewrite Ec. reflexivity.
  - cbn [filter]. destruct (co_rpk (lo_coord lo)) as [rpk|] eqn:Ec.
    + assert (Nr : rpk <> "").
      { unfold coord_init in Ci. rewrite Ec in Ci. apply raise_if_inv' in Ci. destruct Ci as [_ Ci]. apply raise_if_inv' in Ci.
        destruct Ci as [Ci _]. intros ->. discriminate. }
      assert (Cc : columns_of lo RevenuePerKpi = [(rpk, "")]) by (cbn [columns_of]; rewrite Ec; reflexivity).
      rewrite (Pc RevenuePerKpi _ Cc) by discriminate. destruct (String.eqb_spec rpk ""); [contradiction|].
      apply seg_one. intros st E. unfold with_revenue_per_kpi in E. rewrite !or_default_some in E by assumption. cbv zeta in E.
      apply inv_rbind' in E. destruct E as (? & _ & E). apply inv_rbind' in E. destruct E as (f' & Ev & E).
      apply validate_coords_frame in Ev. subst f'. injection E as <-.
      cbn [map P_Frame.array_of]. unfold entries_of, names_of, frame_of. rewrite Cc, Ec. reflexivity.
    + rewrite (Pn RevenuePerKpi); [apply seg_nil|]. cbn [columns_of]. rewrite Ec. reflexivity.
  - destruct (lo_media lo) as [m|] eqn:Em; [destruct (lo_media_spend lo) as [ms|] eqn:Es|].
    + destruct (Fm m ms eq_refl eq_refl) as (a & b & ch & Ea & Eb & Ca & Cb). rewrite Ea, Eb. cbn [listed rbind channels_of]. rewrite Ca. cbn [rbind].
      assert (C1 : columns_of lo Media = map (fun col => (col, channel m col)) a) by (cbn [columns_of]; rewrite Em, Es, Ea; reflexivity).
      assert (C2 : columns_of lo MediaSpend = map (fun col => (col, channel ms col)) b) by (cbn [columns_of]; rewrite Em, Es, Eb; reflexivity).
      apply seg_one. intros st E. unfold with_media in E. rewrite !or_default_some in E by assumption. apply raise_if_inv' in E.
      destruct E as [Ne E]. apply orb_false_iff in Ne. destruct Ne as [Ne _]. apply orb_false_iff in Ne. destruct Ne as [Ne1 Ne2].
      cbv zeta in E. apply inv_rbind' in E. destruct E as (? & _ & E). apply inv_rbind' in E. destruct E as (? & _ & E).
      apply inv_rbind' in E. destruct E as (f' & Ev & E). apply inv_rbind' in E. destruct E as (? & _ & E).
      apply validate_coords_frame in Ev. subst f'. injection E as <-.
      cbn [filter]. rewrite (Pc Media _ C1), (Pc MediaSpend _ C2) by (destruct a, b; discriminate).
      cbn [map P_Frame.array_of]. unfold entries_of, names_of. rewrite C1, C2.
      destruct (map_channel_pairs m a) as [-> ->]. destruct (map_channel_pairs ms b) as [-> ->].
      rewrite <- (channels_in_map _ _ _ Ca), <- (channels_in_map _ _ _ Cb). reflexivity.
    + cbn [filter]. rewrite (Pn Media), (Pn MediaSpend); [apply seg_nil| |]; cbn [columns_of]; rewrite Em, Es; reflexivity.
    + cbn [filter]. rewrite (Pn Media), (Pn MediaSpend); [apply seg_nil| |]; cbn [columns_of]; rewrite Em; reflexivity.
  - destruct (lo_reach lo) as [m|] eqn:Em; [destruct (lo_frequency lo) as [ms|] eqn:Es; [destruct (lo_rf_spend lo) as [mt|] eqn:Et|]|].
    + destruct (Fr m ms mt eq_refl eq_refl eq_refl) as (a & b & c & ch & Ea & Eb & Ec & Ca & Cb & Cc). rewrite Ea, Eb, Ec. cbn [listed rbind channels_of]. rewrite Ca. cbn [rbind].
      assert (C1 : columns_of lo Reach = map (fun col => (col, channel m col)) a) by (cbn [columns_of]; rewrite Em, Es, Et, Ea; reflexivity).
      assert (C2 : columns_of lo Frequency = map (fun col => (col, channel ms col)) b) by (cbn [columns_of]; rewrite Em, Es, Et, Eb; reflexivity).
      assert (C3 : columns_of lo RfSpend = map (fun col => (col, channel mt col)) c) by (cbn [columns_of]; rewrite Em, Es, Et, Ec; reflexivity).
      apply seg_one. intros st E. unfold with_reach in E. rewrite !or_default_some in E by assumption. apply raise_if_inv' in E.
      destruct E as [Ne E]. apply orb_false_iff in Ne. destruct Ne as [Ne _]. apply orb_false_iff in Ne. destruct Ne as [Ne Ne3]. apply orb_false_iff in Ne. destruct Ne as [Ne1 Ne2].
      cbv zeta in E. apply inv_rbind' in E. destruct E as (? & _ & E).
      apply inv_rbind' in E. destruct E as (f' & Ev & E). apply inv_rbind' in E. destruct E as (? & _ & E).
      apply validate_coords_frame in Ev. subst f'. injection E as <-.
      cbn [filter]. rewrite (Pc Reach _ C1), (Pc Frequency _ C2), (Pc RfSpend _ C3) by (destruct a, b, c; discriminate).
      cbn [map P_Frame.array_of]. unfold entries_of, names_of. rewrite C1, C2, C3.
      destruct (map_channel_pairs m a) as [-> ->]. destruct (map_channel_pairs ms b) as [-> ->]. destruct (map_channel_pairs mt c) as [-> ->].
      rewrite <- (channels_in_map _ _ _ Ca), <- (channels_in_map _ _ _ Cb), <- (channels_in_map _ _ _ Cc). reflexivity.
    + cbn [filter]. rewrite (Pn Reach), (Pn Frequency), (Pn RfSpend); [apply seg_nil| | |]; cbn [columns_of]; rewrite Em, Es, Et; reflexivity.
    + cbn [filter]. rewrite (Pn Reach), (Pn Frequency), (Pn RfSpend); [apply seg_nil| | |]; cbn [columns_of]; rewrite Em, Es; reflexivity.
    + cbn [filter]. rewrite (Pn Reach), (Pn Frequency), (Pn RfSpend); [apply seg_nil| | |]; cbn [columns_of]; rewrite Em; reflexivity.
  - cbn [filter]. destruct (co_organic_media (lo_coord lo)) as [[|a l]|] eqn:Ec; cbn [given].
    + rewrite (Pn OrganicMedia); [apply seg_nil|]. cbn [columns_of]. rewrite Ec. reflexivity.
    + assert (Cc : columns_of lo OrganicMedia = map (fun col => (col, col)) (a :: l)) by (cbn [columns_of]; rewrite Ec; reflexivity).
      rewrite (Pc OrganicMedia _ Cc) by discriminate. cbn [listed rbind].
      apply seg_one. intros st E. unfold with_organic_media in E. rewrite !or_default_some in E by assumption. cbn [empty] in E. cbv zeta in E.
      apply raise_if_inv' in E. destruct E as [_ E].
      apply inv_rbind' in E. destruct E as (? & _ & E). apply inv_rbind' in E. destruct E as (f' & Ev & E). apply inv_rbind' in E. destruct E as (? & _ & E).
      apply validate_coords_frame in Ev. subst f'. injection E as <-.
      cbn [map P_Frame.array_of]. unfold entries_of, names_of. rewrite Cc. destruct (map_own_pairs (a :: l)) as [-> ->]. reflexivity.
    + rewrite (Pn OrganicMedia); [apply seg_nil|]. cbn [columns_of]. rewrite Ec. reflexivity.
  - destruct (lo_organic_reach lo) as [m|] eqn:Em; [destruct (lo_organic_frequency lo) as [ms|] eqn:Es|].
    + destruct (Fo m ms eq_refl eq_refl) as (a & b & ch & Ea & Eb & Ca & Cb). rewrite Ea, Eb. cbn [listed rbind channels_of]. rewrite Ca. cbn [rbind].
      assert (C1 : columns_of lo OrganicReach = map (fun col => (col, channel m col)) a) by (cbn [columns_of]; rewrite Em, Es, Ea; reflexivity).
      assert (C2 : columns_of lo OrganicFrequency = map (fun col => (col, channel ms col)) b) by (cbn [columns_of]; rewrite Em, Es, Eb; reflexivity).
      apply seg_one. intros st E. unfold with_organic_reach in E. rewrite !or_default_some in E by assumption. apply raise_if_inv' in E.
      destruct E as [Ne E]. apply orb_false_iff in Ne. destruct Ne as [Ne _]. apply orb_false_iff in Ne. destruct Ne as [Ne1 Ne2].
      cbv zeta in E. apply inv_rbind' in E. destruct E as (? & _ & E).
      apply inv_rbind' in E. destruct E as (f' & Ev & E). apply inv_rbind' in E. destruct E as (? & _ & E).
      apply validate_coords_frame in Ev. subst f'. injection E as <-.
      cbn [filter]. rewrite (Pc OrganicReach _ C1), (Pc OrganicFrequency _ C2) by (destruct a, b; discriminate).
      cbn [map P_Frame.array_of]. unfold entries_of, names_of. rewrite C1, C2.
      destruct (map_channel_pairs m a) as [-> ->]. destruct (map_channel_pairs ms b) as [-> ->].
      rewrite <- (channels_in_map _ _ _ Ca), <- (channels_in_map _ _ _ Cb). reflexivity.
    + cbn [filter]. rewrite (Pn OrganicReach), (Pn OrganicFrequency); [apply seg_nil| |]; cbn [columns_of]; rewrite Em, Es; reflexivity.
    + cbn [filter]. rewrite (Pn OrganicReach), (Pn OrganicFrequency); [apply seg_nil| |]; cbn [columns_of]; rewrite Em; reflexivity.
Qed.

Lemma load_inv : forall valid lo out, named_columns lo -> load geq teq gord tle gle parse national valid lo = Ok out ->
  exists hist, Forall (fun r => r = Ok tt) (fst (run hist init)) /\
    build geq teq gle parse 1%R valid (snd (run hist init)) = Ok out /\
    map fst hist = filter (present lo) read_order /\
    (forall c x, In (c, x) hist <-> columns_of lo c <> [] /\ array_of lo c = Ok x) /\
    (exists f', validate_coords (co_geo (lo_coord lo)) (Some (co_time (lo_coord lo))) (lo_frame lo) = Ok f').
Proof.
  intros valid lo out Nm E. unfold load in E. apply inv_rbind' in E. destruct E as ([] & Ci & E).
  apply inv_rbind' in E. destruct E as ([] & Li & E).
  destruct (perform_all geq teq tle parse national (load_calls lo) init) as [[[]|e] s] eqn:P; [|discriminate].
  apply perform_all_lemma in P. destruct P as (ss & hist & Ec & Ch & F & ->).
  pose proof (calls_seg lo Ci Li Nm ss Ec) as Es. rewrite Ch in Es.
  exists hist. split; [exact F|]. split; [exact E|].
  assert (Mf : map fst hist = filter (present lo) read_order).
  { apply (f_equal (map fst)) in Es. rewrite !map_map in Es. cbn in Es. rewrite map_id in Es. exact Es. }
  split; [exact Mf|]. split.
  - assert (Gen : forall c, In c read_order) by (intros c; unfold read_order; destruct c; cbn; tauto).
    intros c x. split.
    + intros I. assert (I' : In (c, Ok x) (map (fun cx : component * da => (fst cx, Ok (snd cx))) hist)).
      { apply in_map_iff. exists (c, x). auto. }
      rewrite Es in I'. apply in_map_iff in I'. destruct I' as (c' & Eq & I'). injection Eq as -> Ex. apply filter_In in I'. destruct I' as [_ Pr].
      unfold present in Pr. split; [destruct (columns_of lo c); discriminate|exact Ex].
    + intros [Nc Ex].
      assert (I' : In (c, Ok x) (map (fun c => (c, array_of lo c)) (filter (present lo) read_order))).
      { apply in_map_iff. exists c. rewrite Ex. split; [reflexivity|]. apply filter_In. split; [apply Gen|].
        unfold present. destruct (columns_of lo c); [congruence|reflexivity]. }
      rewrite <- Es in I'. apply in_map_iff in I'. destruct I' as ([c' x'] & Eq & I'). cbn in Eq. injection Eq as -> ->. exact I'.
  - destruct Nm as (Ng & Nt & Nk & _). unfold M_Frame.load_calls in Ec. cbv zeta in Ec. destruct ss as [|st ss]; [discriminate|]. cbn [app map] in Ec.
    injection Ec as E0 _. unfold with_kpi in E0. rewrite !or_default_some in E0 by assumption. cbv zeta in E0.
    apply inv_rbind' in E0. destruct E0 as (? & _ & E0). apply inv_rbind' in E0. destruct E0 as (f' & Ev & _). eauto.
Qed.
End P.
