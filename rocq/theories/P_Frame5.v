(** Lemmas about loading from data frames: the documented layout is accepted. *)
From Coq Require Import Reals ZArith Lia String List Bool Permutation.
From Verif Require Import M_Base M_Time Lib_Sort M_Builder S_Builder P_Builder P_BuilderOrder C_Builder P_BuilderFull M_Frame S_Frame P_Frame P_Frame2 P_Frame3.
Import ListNotations.
Local Open Scope string_scope.
Local Open Scope R_scope.
Local Open Scope nat_scope.
Local Open Scope list_scope.

Section P.
Context {G T : Type}.
Variables (geq : forall a b : G, {a = b} + {a <> b}) (teq : forall a b : T, {a = b} + {a <> b})
  (gord : G -> G -> bool) (tle : T -> T -> bool) (gle : G -> G -> bool)
  (parse : T -> option date) (national : G).
Hypothesis tle_order : strict_order tle.
Notation da := (da G T string R).
Notation loader := (loader G T).
Notation row := (row G T).
Notation load := (load geq teq gord tle gle parse national).
Notation array_of := (array_of geq teq gord tle national).
Notation entries_of := (entries_of national).
Notation validate_coords := (validate_coords geq teq gord tle national).
Notation load_calls := (load_calls geq teq gord tle national).
Notation balanced := (balanced national).

Lemma validate_ok : forall (f : frame G T) cols time geo, NoDup cols -> In time (f_columns f) -> time <> geo ->
  (forall col, In col cols -> In col (f_columns f) /\ col <> time /\ col <> geo) -> validate_cols f (cols ++ [time]) [geo] = Ok tt.
Proof.
  intros f cols time geo N It Ne H. unfold validate_cols.
  assert (U : unique string_dec ((cols ++ [time]) ++ [geo]) = true).
  { apply unique_iff. rewrite <- app_assoc. cbn [app].
    assert (Pm : Permutation (time :: geo :: cols) (cols ++ [time; geo])) by (apply (Permutation_app_comm [time; geo] cols)).
    apply (Permutation_NoDup Pm). constructor.
    - intros [K|K]; [congruence|]. destruct (H _ K) as (_ & K1 & _). congruence.
    - constructor; [|exact N]. intros K. destruct (H _ K) as (_ & _ & K1). congruence. }
  rewrite U. cbn [negb raise_if].
  assert (A : forallb (fun c => mem string_dec c (f_columns f)) (cols ++ [time]) = true).
  { apply forallb_forall. intros c I. apply mem_iff. apply in_app_or in I. destruct I as [I|[<-|[]]]; [apply H; exact I|exact It]. }
  rewrite A. reflexivity.
Qed.
Lemma channel_cols_ok : forall ch cols, NoDup ch -> (forall l, In l cols -> length l = length ch) -> validate_channel_cols ch cols = Ok tt.
Proof.
  intros ch cols N H. unfold validate_channel_cols. rewrite (proj2 (unique_iff string_dec ch) N). cbn [negb raise_if].
  assert (A : forallb (fun l => Nat.eqb (length l) (length ch)) cols = true) by (apply forallb_forall; intros l I; apply Nat.eqb_eq, H, I).
  rewrite A. reflexivity.
Qed.

(** *** All calls are made *)
Definition runs (calls : list (result (@steps G T))) : Prop := exists ss, calls = map Ok ss.
Lemma runs_app : forall a b, runs a -> runs b -> runs (a ++ b).
Proof. intros a b (s1 & ->) (s2 & ->). exists (s1 ++ s2). rewrite map_app. reflexivity. Qed.
Lemma runs_nil : runs [].
Proof. exists []. reflexivity. Qed.
Lemma runs_one : forall call, (exists st, call = Ok st) -> runs [call].
Proof. intros call (st & ->). exists [st]. reflexivity. Qed.

Lemma coords_overwrite : forall geo time col v (f : frame G T), (exists f', validate_coords geo (Some time) f = Ok f') ->
  exists f', validate_coords geo (Some time) (overwrite col v f) = Ok f'.
Proof.
  intros geo time col v f (f' & E). unfold M_Frame.validate_coords in *. cbv zeta in *.
  set (h := fun r : row => mkRow (r_geo r) (r_time r) (fun c => if String.eqb c col then Some v else r_num r c)).
  assert (Hr : exists k : row -> row, f_rows (with_geo national geo (overwrite col v f)) = map k (f_rows (with_geo national geo f)) /\
     forall r, r_geo (k r) = r_geo r /\ r_time (k r) = r_time r).
  { unfold with_geo, overwrite. cbn [f_columns f_rows]. destruct (mem string_dec geo (f_columns f)).
    - exists h. split; [reflexivity|]. auto.
    - exists h. cbn [f_rows]. rewrite !map_map. split; [reflexivity|]. auto. }
  destruct Hr as (k & Ek & Hk).
  assert (Eg : geo_groups geq gord geo (with_geo national geo (overwrite col v f)) = geo_groups geq gord geo (with_geo national geo f)).
  { unfold geo_groups. rewrite Ek, map_map. f_equal. f_equal. apply map_ext. intros r. destruct (Hk r) as [-> _]. reflexivity. }
  assert (Et : forall g, times_of geq tle geo time (with_geo national geo (overwrite col v f)) g = times_of geq tle geo time (with_geo national geo f) g).
  { intros g. unfold times_of, rows_of. rewrite Ek, filter_map_comm, map_map. f_equal.
    rewrite (filter_ext _ (fun r => if geq (r_geo r geo) g then true else false)); [|intros r; destruct (Hk r) as [-> _]; reflexivity].
    apply map_ext. intros r. destruct (Hk r) as [_ ->]. reflexivity. }
  rewrite Eg, (map_ext _ _ Et). apply raise_if_inv' in E. destruct E as [E1 E]. apply raise_if_inv' in E. destruct E as [E2 _].
  rewrite E1. cbn [raise_if]. rewrite E2. cbn [raise_if]. eauto.
Qed.

Lemma calls_run : forall lo, loader_init lo = Ok tt -> proper_columns lo ->
  (exists f', validate_coords (co_geo (lo_coord lo)) (Some (co_time (lo_coord lo))) (lo_frame lo) = Ok f') -> runs (load_calls lo).
Proof.
  intros lo Li [(Ng & Nt & Nk & Np) [Tin Tne] Pp Po [Pr1 Pr2] (Gm & Gr & Go)] Vc. pose proof (init_inv lo Li) as [Fm Fr Fo].
  set (geo := co_geo (lo_coord lo)) in *. set (time := co_time (lo_coord lo)) in *.
  pose proof Vc as (f' & Ev).
  assert (Vo : forall cols, NoDup cols -> (forall col, In col cols -> exists c ch, In (col, ch) (columns_of lo c)) -> validate_cols (lo_frame lo) (cols ++ [time]) [geo] = Ok tt).
  { intros cols N H. apply validate_ok; auto. intros col I. destruct (H col I) as (c & ch & Ic). exact (Pp c col ch Ic). }
  assert (Own : forall c l, columns_of lo c = map (fun col => (col, col)) l -> NoDup l /\ (forall col, In col l -> exists c ch, In (col, ch) (columns_of lo c))).
  { intros c l E. destruct (Po c) as [P1 _]. rewrite E in P1. rewrite (proj1 (map_own_pairs l)) in P1. split; [exact P1|].
    intros col I. exists c, col. rewrite E. apply in_map_iff. exists col. auto. }
  assert (Mp : forall c m l, columns_of lo c = map (fun col => (col, channel m col)) l ->
             NoDup l /\ NoDup (map (channel m) l) /\ (forall col, In col l -> exists c ch, In (col, ch) (columns_of lo c))).
  { intros c m l E. destruct (Po c) as [P1 P2]. rewrite E in P1, P2. destruct (map_channel_pairs m l) as [M1 M2]. rewrite M1 in P1. rewrite M2 in P2.
    split; [exact P1|]. split; [exact P2|]. intros col I. exists c, (channel m col). rewrite E. apply in_map_iff. exists col. auto. }
  unfold M_Frame.load_calls. cbv zeta. fold geo time. repeat apply runs_app.
  - apply runs_one. unfold with_kpi. rewrite !or_default_some by assumption. cbv zeta.
    change [co_kpi (lo_coord lo); time] with ([co_kpi (lo_coord lo)] ++ [time]). rewrite Vo.
    + cbn [rbind]. rewrite Ev. cbn [rbind]. eauto.
    + repeat constructor. intros [].
    + intros col [<-|[]]. exists Kpi, "". left. reflexivity.
  - unfold mem. destruct (in_dec string_dec (co_population (lo_coord lo)) (f_columns (lo_frame lo))) as [Ip|]; [|apply runs_nil].
    apply runs_one. unfold with_population. rewrite !or_default_some by assumption. cbv zeta. unfold validate_cols.
    assert (Ic : In (co_population (lo_coord lo), "") (columns_of lo Population)).
    { cbn [columns_of]. destruct (in_dec string_dec (co_population (lo_coord lo)) (f_columns (lo_frame lo))); [left; reflexivity|contradiction]. }
    destruct (Pp _ _ _ Ic) as (P1 & P2 & P3).
    assert (U : unique string_dec ([co_population (lo_coord lo)] ++ [geo]) = true).
    { apply unique_iff. cbn. constructor; [intros [K|[]]; congruence|]. constructor; [intros []|constructor]. }
    fold geo. rewrite U. cbn [negb raise_if forallb]. rewrite (proj2 (mem_iff string_dec _ _) P1). cbn [andb negb raise_if rbind M_Frame.validate_coords]. eauto.
  - destruct (co_controls (lo_coord lo)) as [[|a l]|] eqn:Ec; cbn [given]; try apply runs_nil. cbn [listed rbind].
    destruct (Own Controls (a :: l)) as [N H]; [cbn [columns_of]; rewrite Ec; reflexivity|].
    apply runs_one. unfold with_controls, with_named. cbn [empty]. rewrite !or_default_some by assumption. cbv zeta. rewrite (Vo _ N H). cbn [rbind]. rewrite Ev. cbn [rbind]. eauto.
  - destruct (co_non_media (lo_coord lo)) as [[|a l]|] eqn:Ec; cbn [given]; try apply runs_nil. cbn [listed rbind].
    destruct (Own NonMediaTreatments (a :: l)) as [N H]; [cbn [columns_of]; rewrite Ec; reflexivity|].
    apply runs_one. unfold with_non_media_treatments, with_named. cbn [empty]. rewrite !or_default_some by assumption. cbv zeta. rewrite (Vo _ N H). cbn [rbind]. rewrite Ev. cbn [rbind]. eauto.
  - destruct (co_rpk (lo_coord lo)) as [rpk|] eqn:Ec; [|apply runs_nil]. destruct (String.eqb_spec rpk "") as [|Nr]; [apply runs_nil|].
    apply runs_one. unfold with_revenue_per_kpi. rewrite !or_default_some by assumption. cbv zeta.
    change [rpk; time] with ([rpk] ++ [time]). rewrite Vo.
    + cbn [rbind]. destruct (lo_revenue lo).
      * destruct (coords_overwrite geo time rpk 1%R (lo_frame lo) Vc) as (f2 & E2). rewrite E2. cbn [rbind]. eauto.
      * rewrite Ev. cbn [rbind]. eauto.
    + repeat constructor. intros [].
    + intros col [<-|[]]. exists RevenuePerKpi, "". cbn [columns_of]. rewrite Ec. left. reflexivity.
  - destruct (lo_media lo) as [m|] eqn:Em; [|apply runs_nil]. destruct (lo_media_spend lo) as [ms|] eqn:Es; [|apply runs_nil].
    destruct (Fm m ms eq_refl eq_refl) as (a & b & ch & Ea & Eb & Ca & Cb). rewrite Ea, Eb. cbn [listed rbind channels_of]. rewrite Ca. cbn [rbind].
    destruct (Mp Media m a) as (N1 & N1' & H1); [cbn [columns_of]; rewrite Em, Es, Ea; reflexivity|].
    destruct (Mp MediaSpend ms b) as (N2 & N2' & H2); [cbn [columns_of]; rewrite Em, Es, Eb; reflexivity|].
    pose proof (channels_in_map _ _ _ Ca) as Ha. pose proof (channels_in_map _ _ _ Cb) as Hb.
    assert (La : length a = length ch) by (rewrite Ha, map_length; reflexivity). assert (Lb : length b = length ch) by (rewrite Hb, map_length; reflexivity).
    assert (Ne : a <> []) by congruence.
    apply runs_one. unfold with_media. rewrite !or_default_some by assumption.
    destruct a as [|a1 a]; [congruence|]. destruct ch as [|c1 ch]; [discriminate|]. destruct b as [|b1 b]; [discriminate|].
    cbn [empty orb raise_if]. cbv zeta. rewrite (Vo _ N1 H1), (Vo _ N2 H2). cbn [rbind]. rewrite Ev. cbn [rbind].
    rewrite channel_cols_ok; [cbn [rbind]; eauto|rewrite Ha; exact N1'|]. intros l [<-|[<-|[]]]; assumption.
  - destruct (lo_reach lo) as [m|] eqn:Em; [|apply runs_nil]. destruct (lo_frequency lo) as [ms|] eqn:Es; [|apply runs_nil].
    destruct (lo_rf_spend lo) as [mt|] eqn:Et; [|apply runs_nil].
    destruct (Fr m ms mt eq_refl eq_refl eq_refl) as (a & b & c & ch & Ea & Eb & Ec & Ca & Cb & Cc). rewrite Ea, Eb, Ec. cbn [listed rbind channels_of]. rewrite Ca. cbn [rbind].
    assert (C1 : columns_of lo Reach = map (fun col => (col, channel m col)) a) by (cbn [columns_of]; rewrite Em, Es, Et, Ea; reflexivity).
    assert (C2 : columns_of lo Frequency = map (fun col => (col, channel ms col)) b) by (cbn [columns_of]; rewrite Em, Es, Et, Eb; reflexivity).
    assert (C3 : columns_of lo RfSpend = map (fun col => (col, channel mt col)) c) by (cbn [columns_of]; rewrite Em, Es, Et, Ec; reflexivity).
    destruct (Mp Reach m a C1) as (N1 & N1' & H1). destruct (Mp Frequency ms b C2) as (N2 & N2' & H2). destruct (Mp RfSpend mt c C3) as (N3 & N3' & H3).
    pose proof (channels_in_map _ _ _ Ca) as Ha. pose proof (channels_in_map _ _ _ Cb) as Hb. pose proof (channels_in_map _ _ _ Cc) as Hc.
    assert (La : length a = length ch) by (rewrite Ha, map_length; reflexivity). assert (Lb : length b = length ch) by (rewrite Hb, map_length; reflexivity).
    assert (Lc : length c = length ch) by (rewrite Hc, map_length; reflexivity).
    assert (Ne : a <> []) by congruence.
    assert (Nabc : NoDup (a ++ b ++ c)).
    { rewrite C1, C2, C3, !map_app in Pr1. rewrite (proj1 (map_channel_pairs m a)), (proj1 (map_channel_pairs ms b)), (proj1 (map_channel_pairs mt c)) in Pr1. exact Pr1. }
    assert (Vabc : validate_cols (lo_frame lo) (a ++ b ++ c ++ [time]) [geo] = Ok tt).
    { replace (a ++ b ++ c ++ [time]) with ((a ++ b ++ c) ++ [time]) by (rewrite <- !app_assoc; reflexivity). apply (Vo _ Nabc).
      intros col I. apply in_app_or in I. destruct I as [I|I]; [apply H1; exact I|]. apply in_app_or in I. destruct I; auto. }
    apply runs_one. unfold with_reach. rewrite !or_default_some by assumption.
    destruct a as [|a1 a]; [congruence|]. destruct ch as [|c1 ch]; [discriminate|]. destruct b as [|b1 b]; [discriminate|]. destruct c as [|d1 c]; [discriminate|].
    cbn [empty orb raise_if]. cbv zeta. rewrite Vabc. cbn [rbind]. rewrite Ev. cbn [rbind].
    rewrite channel_cols_ok; [cbn [rbind]; eauto|rewrite Ha; exact N1'|]. intros l [<-|[<-|[<-|[]]]]; assumption.
  - destruct (co_organic_media (lo_coord lo)) as [[|a l]|] eqn:Ec; cbn [given]; try apply runs_nil. cbn [listed rbind].
    destruct (Own OrganicMedia (a :: l)) as [N H]; [cbn [columns_of]; rewrite Ec; reflexivity|].
    apply runs_one. unfold with_organic_media. cbn [empty raise_if]. rewrite !or_default_some by assumption. cbv zeta. rewrite (Vo _ N H). cbn [rbind]. rewrite Ev. cbn [rbind].
    rewrite channel_cols_ok; [cbn [rbind]; eauto|exact N|]. intros q [<-|[]]. reflexivity.
  - destruct (lo_organic_reach lo) as [m|] eqn:Em; [|apply runs_nil]. destruct (lo_organic_frequency lo) as [ms|] eqn:Es; [|apply runs_nil].
    destruct (Fo m ms eq_refl eq_refl) as (a & b & ch & Ea & Eb & Ca & Cb). rewrite Ea, Eb. cbn [listed rbind channels_of]. rewrite Ca. cbn [rbind].
    assert (C1 : columns_of lo OrganicReach = map (fun col => (col, channel m col)) a) by (cbn [columns_of]; rewrite Em, Es, Ea; reflexivity).
    assert (C2 : columns_of lo OrganicFrequency = map (fun col => (col, channel ms col)) b) by (cbn [columns_of]; rewrite Em, Es, Eb; reflexivity).
    destruct (Mp OrganicReach m a C1) as (N1 & N1' & H1). destruct (Mp OrganicFrequency ms b C2) as (N2 & N2' & H2).
    pose proof (channels_in_map _ _ _ Ca) as Ha. pose proof (channels_in_map _ _ _ Cb) as Hb.
    assert (La : length a = length ch) by (rewrite Ha, map_length; reflexivity). assert (Lb : length b = length ch) by (rewrite Hb, map_length; reflexivity).
    assert (Ne : a <> []) by congruence.
    assert (Nab : NoDup (a ++ b)).
    { rewrite C1, C2, !map_app in Pr2. rewrite (proj1 (map_channel_pairs m a)), (proj1 (map_channel_pairs ms b)) in Pr2. exact Pr2. }
    assert (Vab : validate_cols (lo_frame lo) (a ++ b ++ [time]) [geo] = Ok tt).
    { replace (a ++ b ++ [time]) with ((a ++ b) ++ [time]) by (rewrite <- !app_assoc; reflexivity). apply (Vo _ Nab).
      intros col I. apply in_app_or in I. destruct I as [I|I]; auto. }
    apply runs_one. unfold with_organic_reach. rewrite !or_default_some by assumption.
    destruct a as [|a1 a]; [congruence|]. destruct ch as [|c1 ch]; [discriminate|]. destruct b as [|b1 b]; [discriminate|].
    cbn [empty orb raise_if]. cbv zeta. rewrite Vab. cbn [rbind]. rewrite Ev. cbn [rbind].
    rewrite channel_cols_ok; [cbn [rbind]; eauto|rewrite Ha; exact N1'|]. intros l [<-|[<-|[]]]; assumption.
Qed.

(** *** The arrays *)
Lemma stack_keys : forall geo time (cols : list string) chans (l : list row),
  NoDup (map (fun r => (r_geo r geo, r_time r time)) l) -> NoDup (map snd (combine cols chans)) ->
  NoDup (map fst (stack geo time cols chans (mkFrame [] l))).
Proof.
  intros geo time cols chans l N Nc. unfold stack. cbn [f_rows]. induction l as [|r l IH]; [constructor|].
  cbn [map flat_map] in *. inversion N as [|? ? N1 N2]; subst. rewrite map_app.
  assert (Dis : forall e, In e (map fst (flat_map (fun cc => match r_num r (fst cc) with Some v => [(r_geo r geo, r_time r time, snd cc, v)] | None => [] end) (combine cols chans))) ->
            exists ch, e = (r_geo r geo, r_time r time, ch) /\ In ch (map snd (combine cols chans))).
  { intros e I. apply in_map_iff in I. destruct I as (q & <- & I). apply in_flat_map in I. destruct I as (cc & Icc & I).
    destruct (r_num r (fst cc)); [|contradiction]. destruct I as [<-|[]]. exists (snd cc). split; [reflexivity|apply in_map; exact Icc]. }
  assert (Own : NoDup (map fst (flat_map (fun cc => match r_num r (fst cc) with Some v => [(r_geo r geo, r_time r time, snd cc, v)] | None => [] end) (combine cols chans)))).
  { clear Dis IH N N1 N2. induction (combine cols chans) as [|cc q IHq]; [constructor|]. cbn [map flat_map] in *. inversion Nc as [|? ? M1 M2]; subst.
    destruct (r_num r (fst cc)) as [v|]; cbn [app map]; [|apply IHq; exact M2]. constructor; [|apply IHq; exact M2].
    intros K. apply M1. apply in_map_iff in K. destruct K as (e & Ee & I). apply in_flat_map in I. destruct I as (c2 & I2 & I).
    destruct (r_num r (fst c2)); [|contradiction]. destruct I as [<-|[]]. cbn in Ee. injection Ee as Ee. rewrite <- Ee. apply in_map. exact I2. }
  specialize (IH N2).
  clear Nc. induction (map fst (flat_map _ (combine cols chans))) as [|e q IHq]; [exact IH|]. cbn. inversion Own as [|? ? O1 O2]; subst. constructor.
  - intros K. apply in_app_or in K. destruct K as [K|K]; [contradiction|]. destruct (Dis e (or_introl eq_refl)) as (ch & -> & _).
    apply N1. apply in_map_iff in K. destruct K as (e' & Ee & I). apply in_flat_map in I. destruct I as (r' & Ir & I). apply in_flat_map in I. destruct I as (cc & _ & I).
    destruct (r_num r' (fst cc)); [|contradiction]. destruct I as [<-|[]]. cbn in Ee. injection Ee as E1 E2 _. apply in_map_iff. exists r'. rewrite E1, E2. auto.
  - apply IHq; [|exact O2]. intros e' I. apply Dis. right. exact I.
Qed.

Lemma filter_all : forall A (p : A -> bool) l, (forall a, In a l -> p a = true) -> filter p l = l.
Proof.
  intros A p l H. induction l as [|a l IH]; [reflexivity|]. cbn. rewrite (H a (or_introl eq_refl)). f_equal. apply IH. intros b I. apply H. right. exact I.
Qed.

Section Doc.
Variables (lo : loader) (gs : list G) (pre ts : list T).
Hypothesis Doc : documented national tle parse lo gs pre ts.
Hypothesis Proper : proper_columns lo.
Hypothesis Ci : coord_init (lo_coord lo) = Ok tt.
Hypothesis Li : loader_init lo = Ok tt.
Hypothesis Lag : lo_revenue lo = true -> co_rpk (lo_coord lo) = None \/ pre = [].

Lemma doc_key : forall g t, (exists r, In r (rows lo) /\ geo_of_row national lo r = g /\ time_of_row lo r = t) <-> In g gs /\ In t (pre ++ ts).
Proof.
  intros g t. destruct Doc as [Dr _ _ _ _ _ _]. rewrite <- in_prod_iff. split.
  - intros (r & I & <- & <-). apply (Permutation_in _ Dr). apply in_map_iff. exists r. auto.
  - intros I. apply (Permutation_in _ (Permutation_sym Dr)) in I. apply in_map_iff in I. destruct I as (r & E & I). injection E as E1 E2. exists r. auto.
Qed.
Lemma NoDup_prod : forall A B (l : list A) (m : list B), NoDup l -> NoDup m -> NoDup (list_prod l m).
Proof.
  intros A B l m Nl Nm. induction Nl as [|a l Na Nl IH]; [constructor|]. cbn [list_prod].
  assert (H : NoDup (map (fun y : B => (a, y)) m)).
  { clear - Nm. induction Nm as [|b m Nb Nm IH]; [constructor|]. cbn. constructor; [|exact IH]. intros I. apply in_map_iff in I. destruct I as (x & E & I). injection E as ->. contradiction. }
  assert (D : forall x, In x (map (fun y : B => (a, y)) m) -> ~ In x (list_prod l m)).
  { intros x I K. apply in_map_iff in I. destruct I as (b & <- & _). apply in_prod_iff in K. tauto. }
  clear - H D IH. induction H as [|x q Nx H IHq]; [exact IH|]. cbn. constructor.
  - intros I. apply in_app_or in I. destruct I as [I|I]; [contradiction|]. exact (D x (or_introl eq_refl) I).
  - apply IHq. intros y I. apply D. right. exact I.
Qed.
Lemma doc_nodup : NoDup (map (fun r => (geo_of_row national lo r, time_of_row lo r)) (rows lo)).
Proof.
  destruct Doc as [Dr [Dg _] [Dt _] _ _ _ _]. apply (Permutation_NoDup (Permutation_sym Dr)). apply NoDup_prod; assumption.
Qed.
Lemma doc_balanced : balanced lo.
Proof.
  split; [exact doc_nodup|]. intros r1 r2 I1 I2. apply doc_key.
  assert (H1 : In (geo_of_row national lo r1) gs /\ In (time_of_row lo r1) (pre ++ ts)) by (apply doc_key; eauto).
  assert (H2 : In (geo_of_row national lo r2) gs /\ In (time_of_row lo r2) (pre ++ ts)) by (apply doc_key; eauto). tauto.
Qed.

Definition doc_axis (c : component) : list T := match dim_of c with WithMediaTime => pre ++ ts | _ => ts end.
Lemma doc_cell : forall c col ch r, c <> Population -> In (col, ch) (columns_of lo c) -> In r (rows lo) ->
  (cell lo c r col <> None <-> In (time_of_row lo r) (doc_axis c)).
Proof.
  intros c col ch r Nc Ic Ir. pose proof (doc_cells _ _ _ _ _ _ _ Doc c col ch r Ic Ir) as D. unfold doc_axis.
  assert (At : In (time_of_row lo r) (pre ++ ts)) by (apply (doc_key (geo_of_row national lo r) (time_of_row lo r)); eauto).
  destruct c; cbn [dim_of cell] in *; try exact D; try (split; [intros _; exact At|intros _; exact D]); try contradiction.
  destruct (lo_revenue lo) eqn:Rv; [|exact D]. destruct (Lag eq_refl) as [K| ->].
  - cbn [columns_of] in Ic. rewrite K in Ic. contradiction.
  - cbn [app] in At. split; [intros _; exact At|discriminate].
Qed.
Lemma doc_entries : forall c, c <> Population -> forall g t ch, (exists v, In (g, t, ch, v) (entries_of lo c)) <->
  In g gs /\ In t (doc_axis c) /\ In ch (map snd (columns_of lo c)).
Proof.
  intros c Nc g t ch. split.
  - intros (v & I). apply entries_in in I. destruct I as (r & col & Ir & Ic & Ec & -> & ->).
    assert (K : In (geo_of_row national lo r) gs /\ In (time_of_row lo r) (pre ++ ts)) by (apply doc_key; eauto).
    split; [apply K|]. split; [apply (doc_cell c col ch r Nc Ic Ir); congruence|]. change ch with (snd (col, ch)). apply in_map. exact Ic.
  - intros (Ig & It & Ic). apply in_map_iff in Ic. destruct Ic as ([col ch'] & E & Ic). cbn in E. subst ch'.
    assert (K : exists r, In r (rows lo) /\ geo_of_row national lo r = g /\ time_of_row lo r = t).
    { apply doc_key. split; [exact Ig|]. unfold doc_axis in It. destruct (dim_of c); [apply in_or_app; auto|exact It|apply in_or_app; auto]. }
    destruct K as (r & Ir & <- & <-). pose proof (proj2 (doc_cell c col ch r Nc Ic Ir) It) as Ne.
    destruct (cell lo c r col) as [v|] eqn:Ev; [|congruence]. exists v. apply entries_in. exists r, col. auto.
Qed.
Lemma doc_ts : exists t, In t ts.
Proof.
  destruct (doc_regular _ _ _ _ _ _ _ Doc) as [_ (ds & E & _)]. destruct ts as [|t l]; [cbn in E; discriminate|exists t; left; reflexivity].
Qed.
Lemma doc_array : forall c, columns_of lo c <> [] -> c <> Population ->
  exists x, array_of lo c = Ok x /\ (forall g, In g (d_geos x) <-> In g gs) /\ (forall t, In t (d_times x) <-> In t (doc_axis c)) /\
    NoDup (d_geos x) /\ NoDup (d_times x) /\ d_chans x = (if plain c then [] else map snd (columns_of lo c)) /\ full c x.
Proof.
  intros c Nn Nc. rewrite (array_of_entries geq teq gord tle national lo c Nc).
  destruct Proper as [_ _ _ Po _ _]. destruct (Po c) as [_ Ps].
  assert (N : NoDup (map fst (entries_of lo c))).
  { unfold P_Frame.entries_of. set (F := with_geo national (co_geo (lo_coord lo)) (frame_of lo c)).
    change (stack (co_geo (lo_coord lo)) (co_time (lo_coord lo)) (map fst (columns_of lo c)) (map snd (columns_of lo c)) F)
      with (stack (co_geo (lo_coord lo)) (co_time (lo_coord lo)) (map fst (columns_of lo c)) (map snd (columns_of lo c)) (mkFrame [] (f_rows F))).
    apply stack_keys; [|rewrite combine_split_pairs; exact Ps].
    assert (Ek : map (fun r => (r_geo r (co_geo (lo_coord lo)), r_time r (co_time (lo_coord lo)))) (f_rows F) = map (fun r => (geo_of_row national lo r, time_of_row lo r)) (rows lo)).
    { assert (Fr : exists k : row -> row, f_rows (frame_of lo c) = map k (rows lo) /\ f_columns (frame_of lo c) = f_columns (lo_frame lo) /\
                     forall r, r_geo (k r) = r_geo r /\ r_time (k r) = r_time r).
      { assert (Same : exists k : row -> row, f_rows (lo_frame lo) = map k (f_rows (lo_frame lo)) /\ f_columns (lo_frame lo) = f_columns (lo_frame lo) /\
                     forall r, r_geo (k r) = r_geo r /\ r_time (k r) = r_time r) by (exists (fun r => r); rewrite map_id; auto).
        unfold frame_of, rows. destruct c; try exact Same.
        destruct (co_rpk (lo_coord lo)); [|exact Same]. destruct (lo_revenue lo); [|exact Same].
        eexists. split; [reflexivity|]. split; [reflexivity|]. auto. }
      destruct Fr as (k & Ef & Ecl & Hk). unfold F, with_geo, mem, geo_of_row, time_of_row. rewrite Ecl, Ef.
      destruct (in_dec string_dec (co_geo (lo_coord lo)) (f_columns (lo_frame lo))).
      - rewrite Ef, map_map. apply map_ext. intros r. destruct (Hk r) as [-> ->]. reflexivity.
      - cbn [f_rows]. rewrite !map_map. apply map_ext. intros r. cbn. rewrite String.eqb_refl. destruct (Hk r) as [_ ->]. reflexivity. }
    rewrite Ek. exact doc_nodup. }
  destruct (to_array_runs geq teq gord tle (entries_of lo c) (names_of lo c) N) as (x & Ex). exists x. split; [exact Ex|].
  destruct (columns_of lo c) as [|[col0 ch0] rest] eqn:Ecols; [congruence|]. rewrite <- Ecols in *.
  assert (Ich0 : In ch0 (map snd (columns_of lo c))) by (rewrite Ecols; left; reflexivity).
  destruct doc_ts as (t0 & It0).
  assert (It0' : In t0 (doc_axis c)) by (unfold doc_axis; destruct (dim_of c); auto; apply in_or_app; auto).
  assert (Hg0 : exists g0, In g0 gs). { destruct (doc_geos _ _ _ _ _ _ _ Doc) as [_ K]. destruct gs as [|g0 q]; [congruence|exists g0; left; reflexivity]. }
  destruct Hg0 as (g0 & Ig0).
  assert (Geos : forall g, In g (d_geos x) <-> In g gs).
  { intros g. rewrite (to_array_geos _ _ _ _ _ _ _ Ex g). split.
    - intros (t & ch & v & I). assert (K : exists v, In (g, t, ch, v) (entries_of lo c)) by eauto. apply (doc_entries c Nc) in K. apply K.
    - intros I. destruct (proj2 (doc_entries c Nc g t0 ch0) (conj I (conj It0' Ich0))) as (v & K). eauto. }
  assert (Times : forall t, In t (d_times x) <-> In t (doc_axis c)).
  { intros t. rewrite (to_array_times _ _ _ _ _ _ _ Ex t). split.
    - intros (g & ch & v & I). assert (K : exists v, In (g, t, ch, v) (entries_of lo c)) by eauto. apply (doc_entries c Nc) in K. apply K.
    - intros I. destruct (proj2 (doc_entries c Nc g0 t ch0) (conj Ig0 (conj I Ich0))) as (v & K). eauto. }
  destruct (to_array_nodup _ _ _ _ _ _ _ Ex) as (Ng & Nt & _).
  assert (Chans : d_chans x = if plain c then [] else map snd (columns_of lo c)).
  { rewrite (to_array_chans _ _ _ _ _ _ _ Ex). unfold names_of. destruct (plain c); [reflexivity|].
    assert (All : forall ch, In ch (map snd (columns_of lo c)) -> mem string_dec ch (map e_chan (entries_of lo c)) = true).
    { intros ch I. apply mem_iff. destruct (proj2 (doc_entries c Nc g0 t0 ch) (conj Ig0 (conj It0' I))) as (v & K).
      change ch with (e_chan (g0, t0, ch, v)). apply in_map. exact K. }
    apply filter_all. exact All. }
  repeat (split; [assumption|]).
  intros i j k Hi Hj Hk.
  destruct (nth_error (d_geos x) i) as [g|] eqn:Eg; [|apply nth_error_None in Eg; lia].
  assert (Hj' : j < length (d_times x)) by (unfold n_times_of in Hj; destruct c; try exact Hj; contradiction).
  destruct (nth_error (d_times x) j) as [t|] eqn:Et; [|apply nth_error_None in Et; lia].
  assert (Ig : In g gs) by (apply Geos; eapply nth_error_In; exact Eg).
  assert (It : In t (doc_axis c)) by (apply Times; eapply nth_error_In; exact Et).
  assert (Hch : exists ch, chan_labels x (names_of lo c) k ch /\ In ch (map snd (columns_of lo c))).
  { unfold chan_labels, names_of. destruct (plain c) eqn:Pc.
    - exists "". split; [reflexivity|]. destruct c; try discriminate; cbn [columns_of] in *; [left; reflexivity|].
      destruct (co_rpk (lo_coord lo)); [left; reflexivity|congruence].
    - assert (Hk' : k < length (d_chans x)) by (unfold n_chans_of in Hk; destruct c; try exact Hk; try discriminate; contradiction).
      destruct (nth_error (d_chans x) k) as [ch|] eqn:Ek; [|apply nth_error_None in Ek; lia]. exists ch. split; [reflexivity|].
      rewrite <- Chans. eapply nth_error_In. exact Ek. }
  destruct Hch as (ch & Cl & Ich).
  destruct (proj2 (doc_entries c Nc g t ch) (conj Ig (conj It Ich))) as (v & K).
  rewrite (to_array_complete geq teq gord tle (entries_of lo c) (names_of lo c) x i j k g t ch v Ex Eg Et Cl K). discriminate.
Qed.
Lemma doc_pop : exists x, array_of lo Population = Ok x /\ (forall g, In g (d_geos x) <-> In g gs) /\ NoDup (d_geos x) /\ d_chans x = [] /\
  (length gs <> 1 -> full Population x).
Proof.
  cbn [P_Frame.array_of]. cbv zeta. eexists. split; [reflexivity|]. cbn [d_geos d_chans].
  assert (Geos : forall g, In g (geo_groups geq gord (co_geo (lo_coord lo)) (with_geo national (co_geo (lo_coord lo)) (lo_frame lo))) <-> In g gs).
  { intros g. rewrite (groups_at geq gord national lo g). destruct doc_ts as (t0 & It0). split.
    - intros (r & Ir & <-). apply (doc_key (geo_of_row national lo r) (time_of_row lo r)). eauto.
    - intros I. assert (K : exists r, In r (rows lo) /\ geo_of_row national lo r = g /\ time_of_row lo r = t0) by (apply doc_key; split; [exact I|apply in_or_app; auto]).
      destruct K as (r & Ir & Eg & _). eauto. }
  split; [exact Geos|]. split; [apply isort_nodup, NoDup_nodup|]. split; [reflexivity|].
  intros L i j k Hi _ _. cbn [d_geos d_val] in *.
  destruct (nth_error (geo_groups geq gord (co_geo (lo_coord lo)) (with_geo national (co_geo (lo_coord lo)) (lo_frame lo))) i) as [g|] eqn:Eg; [|apply nth_error_None in Eg; lia].
  assert (Ig : In g gs) by (apply Geos; eapply nth_error_In; exact Eg).
  destruct (doc_population _ _ _ _ _ _ _ Doc L) as (col & Ic & Hp). destruct (Hp g Ig) as (r & Ir & Er & Ne).
  assert (Ecol : col = co_population (lo_coord lo)).
  { cbn [columns_of] in Ic. destruct (in_dec string_dec (co_population (lo_coord lo)) (f_columns (lo_frame lo))); [|contradiction]. destruct Ic as [Ic|[]]. congruence. }
  subst col. destruct (with_geo_rows national lo) as (f & Ef & Hf).
  assert (Iv : exists v, In v (some_values (map (fun r => r_num r (co_population (lo_coord lo)))
             (rows_of geq (co_geo (lo_coord lo)) (with_geo national (co_geo (lo_coord lo)) (lo_frame lo)) g)))).
  { destruct (r_num r (co_population (lo_coord lo))) as [v|] eqn:Ev; [|congruence]. exists v. unfold some_values. apply in_flat_map. exists (Some v).
    split; [|left; reflexivity]. apply in_map_iff. exists (f r). destruct (Hf r) as (Hg & _ & Hn). rewrite Hn. split; [exact Ev|].
    unfold rows_of. apply filter_In. rewrite Ef, Hg, Er. split; [apply in_map; exact Ir|]. destruct (geq g g); [reflexivity|congruence]. }
  destruct Iv as (v & Iv). unfold mean. destruct (some_values _); [contradiction|discriminate].
Qed.

Definition doc_x (c : component) : da := match array_of lo c with Ok x => x | Err _ => mkDa [] [] [] (fun _ _ _ => None) end.
Definition doc_comps : list component := filter (present lo) read_order.
Definition doc_hist : list (component * da) := map (fun c => (c, doc_x c)) doc_comps.
Lemma in_doc_comps : forall c, In c doc_comps <-> columns_of lo c <> [].
Proof.
  intros c. unfold doc_comps. rewrite filter_In. unfold present. split.
  - intros [_ K]. destruct (columns_of lo c); [discriminate|discriminate].
  - intros K. split; [unfold read_order; destruct c; cbn; tauto|]. destruct (columns_of lo c); [congruence|reflexivity].
Qed.
Lemma in_doc_hist : forall c x, In (c, x) doc_hist -> columns_of lo c <> [] /\ x = doc_x c.
Proof.
  intros c x I. unfold doc_hist in I. apply in_map_iff in I. destruct I as (c' & E & I). injection E as -> <-. split; [apply in_doc_comps; exact I|reflexivity].
Qed.
Lemma doc_x_facts : forall c, columns_of lo c <> [] ->
  array_of lo c = Ok (doc_x c) /\ (forall g, In g (d_geos (doc_x c)) <-> In g gs) /\ NoDup (d_geos (doc_x c)) /\
  (c <> Population -> (forall t, In t (d_times (doc_x c)) <-> In t (doc_axis c)) /\ NoDup (d_times (doc_x c)) /\
     d_chans (doc_x c) = (if plain c then [] else map snd (columns_of lo c))) /\
  (c <> Population \/ length gs <> 1 -> full c (doc_x c)).
Proof.
  intros c Nn. unfold doc_x. destruct (component_eq_dec c Population) as [->|Nc].
  - destruct doc_pop as (x & Ex & H1 & H2 & H3 & H4). rewrite Ex. split; [reflexivity|]. split; [exact H1|]. split; [exact H2|]. split; [congruence|]. intros [K|K]; [congruence|auto].
  - destruct (doc_array c Nn Nc) as (x & Ex & H1 & H2 & H3 & H4 & H5 & H6). rewrite Ex. split; [reflexivity|]. split; [exact H1|]. split; [exact H3|]. split; [auto|]. intros _. exact H6.
Qed.
Lemma labels_same : forall x y : da, NoDup (d_geos x) -> NoDup (d_geos y) -> (forall g, In g (d_geos x) <-> In g gs) -> (forall g, In g (d_geos y) <-> In g gs) ->
  forall g, In g (geo_labels national x) <-> In g (geo_labels national y).
Proof.
  intros x y Nx Ny Hx Hy g. assert (Pm : Permutation (d_geos x) (d_geos y)) by (apply NoDup_Permutation; auto; intros q; rewrite Hx, Hy; reflexivity).
  pose proof (Permutation_length Pm) as L. unfold geo_labels.
  destruct (d_geos x) as [|a [|b l]] eqn:Ex, (d_geos y) as [|a' [|b' l']] eqn:Ey; cbn in L; try discriminate; try reflexivity.
  split; apply Permutation_in; [exact Pm|apply Permutation_sym; exact Pm].
Qed.
Lemma labels_nodup : forall x : da, NoDup (d_geos x) -> NoDup (geo_labels national x).
Proof. intros x N. unfold geo_labels. destruct (d_geos x) as [|a [|b l]]; [constructor|repeat constructor; intros []|exact N]. Qed.
Lemma tsort_same : forall l m, NoDup l -> NoDup m -> (forall t, In t l <-> In t m) -> isort tle l = isort tle m.
Proof. intros l m Nl Nm H. apply tsort_perm; [exact tle_order|]. apply NoDup_Permutation; assumption. Qed.
Lemma doc_ts_nodup : NoDup ts /\ le_sorted tle ts.
Proof.
  destruct (doc_times _ _ _ _ _ _ _ Doc) as [N S]. split; [|eapply sorted_app; exact S]. clear - N. induction pre as [|a l IH]; [exact N|]. inversion N; auto.
Qed.
Lemma doc_axis_facts : forall c, NoDup (doc_axis c) /\ (forall t, In t (doc_axis c) -> parse t <> None) /\ regular tle parse (doc_axis c) /\ isort tle (doc_axis c) = doc_axis c.
Proof.
  intros c. destruct (doc_times _ _ _ _ _ _ _ Doc) as [N S]. destruct doc_ts_nodup as [N2 S2]. destruct (doc_regular _ _ _ _ _ _ _ Doc) as [R1 R2].
  pose proof (doc_dates _ _ _ _ _ _ _ Doc) as D. unfold doc_axis.
  destruct (dim_of c); (split; [assumption|]); (split; [intros t I; apply D; auto; apply in_or_app; auto|]); (split; [assumption|]);
    apply (tsort_fixed tle tle_order); auto.
Qed.

Lemma doc_fine : Forall (fine tle parse national) doc_hist.
Proof.
  apply Forall_forall. intros [c x] I. apply in_doc_hist in I. destruct I as [Nn ->]. destruct (doc_x_facts c Nn) as (_ & Hg & Ng & Ht & _).
  split; [apply labels_nodup; exact Ng|]. intros Tc. assert (Nc : c <> Population) by (intros ->; apply Tc; reflexivity).
  destruct (Ht Nc) as (H1 & H2 & _). destruct (doc_axis_facts c) as (A1 & A2 & A3 & A4).
  split; [intros t It; apply A2, H1, It|]. split; [exact H2|].
  destruct A3 as (ds & E & R). exists ds. rewrite (tsort_same _ _ H2 A1 H1). auto.
Qed.
Lemma doc_names : forall c c', In c' (partners c) -> map snd (columns_of lo c) = map snd (columns_of lo c').
Proof.
  intros c c' I. pose proof (init_inv lo Li) as [Fm Fr Fo].
  assert (M : lo_media lo <> None -> lo_media_spend lo <> None -> map snd (columns_of lo Media) = map snd (columns_of lo MediaSpend)).
  { destruct (lo_media lo) as [m|] eqn:A; [|congruence]. destruct (lo_media_spend lo) as [ms|] eqn:B; [|congruence]. intros _ _.
    destruct (Fm m ms eq_refl eq_refl) as (a & b & ch & Ea & Eb & Ca & Cb). cbn [columns_of]. rewrite A, B, Ea, Eb. cbn [mapped].
    rewrite (proj2 (map_channel_pairs m a)), (proj2 (map_channel_pairs ms b)), <- (channels_in_map _ _ _ Ca), <- (channels_in_map _ _ _ Cb). reflexivity. }
  assert (Rr : lo_reach lo <> None -> lo_frequency lo <> None -> lo_rf_spend lo <> None ->
     map snd (columns_of lo Reach) = map snd (columns_of lo Frequency) /\ map snd (columns_of lo Reach) = map snd (columns_of lo RfSpend)).
  { destruct (lo_reach lo) as [m|] eqn:A; [|congruence]. destruct (lo_frequency lo) as [ms|] eqn:B; [|congruence]. destruct (lo_rf_spend lo) as [mt|] eqn:C; [|congruence]. intros _ _ _.
    destruct (Fr m ms mt eq_refl eq_refl eq_refl) as (a & b & c0 & ch & Ea & Eb & Ec & Ca & Cb & Cc). cbn [columns_of]. rewrite A, B, C, Ea, Eb, Ec. cbn [mapped].
    rewrite (proj2 (map_channel_pairs m a)), (proj2 (map_channel_pairs ms b)), (proj2 (map_channel_pairs mt c0)), <- (channels_in_map _ _ _ Ca), <- (channels_in_map _ _ _ Cb), <- (channels_in_map _ _ _ Cc). auto. }
  assert (O : lo_organic_reach lo <> None -> lo_organic_frequency lo <> None -> map snd (columns_of lo OrganicReach) = map snd (columns_of lo OrganicFrequency)).
  { destruct (lo_organic_reach lo) as [m|] eqn:A; [|congruence]. destruct (lo_organic_frequency lo) as [ms|] eqn:B; [|congruence]. intros _ _.
    destruct (Fo m ms eq_refl eq_refl) as (a & b & ch & Ea & Eb & Ca & Cb). cbn [columns_of]. rewrite A, B, Ea, Eb. cbn [mapped].
    rewrite (proj2 (map_channel_pairs m a)), (proj2 (map_channel_pairs ms b)), <- (channels_in_map _ _ _ Ca), <- (channels_in_map _ _ _ Cb). reflexivity. }
  assert (M' : map snd (columns_of lo Media) = map snd (columns_of lo MediaSpend)).
  { destruct (lo_media lo) eqn:A; [destruct (lo_media_spend lo) eqn:B; [apply M; discriminate|]|]; cbn [columns_of]; rewrite ?A, ?B; reflexivity. }
  assert (R' : map snd (columns_of lo Reach) = map snd (columns_of lo Frequency) /\ map snd (columns_of lo Reach) = map snd (columns_of lo RfSpend)).
  { destruct (lo_reach lo) eqn:A; [destruct (lo_frequency lo) eqn:B; [destruct (lo_rf_spend lo) eqn:C; [apply Rr; discriminate|]|]|]; cbn [columns_of]; rewrite ?A, ?B, ?C; auto. }
  assert (O' : map snd (columns_of lo OrganicReach) = map snd (columns_of lo OrganicFrequency)).
  { destruct (lo_organic_reach lo) eqn:A; [destruct (lo_organic_frequency lo) eqn:B; [apply O; discriminate|]|]; cbn [columns_of]; rewrite ?A, ?B; reflexivity. }
  destruct R' as [R1 R2]. destruct c; cbn in I; repeat (destruct I as [<-|I]); try contradiction; congruence.
Qed.
Lemma doc_partner_plain : forall c c', In c' (partners c) -> plain c = false /\ plain c' = false /\ c <> Population /\ c' <> Population.
Proof. intros c c' I. destruct c; cbn in I; repeat (destruct I as [<-|I]); try contradiction; cbn; repeat split; discriminate. Qed.
Lemma doc_compatible : ForallOrdPairs (compatible tle national) doc_hist.
Proof.
  assert (Nd : NoDup doc_comps).
  { apply NoDup_filter. unfold read_order. cbn. repeat constructor; cbn; intuition discriminate. }
  assert (Pair : forall c c', columns_of lo c <> [] -> columns_of lo c' <> [] -> c <> c' -> compatible tle national (c, doc_x c) (c', doc_x c')).
  { intros c c' N1 N2 Ne. destruct (doc_x_facts c N1) as (_ & Hg & Ng & Ht & _). destruct (doc_x_facts c' N2) as (_ & Hg' & Ng' & Ht' & _).
    split; [exact Ne|]. split; [|split].
    - intros Ip. destruct (doc_partner_plain c c' Ip) as (P1 & P2 & P3 & P4). destruct (Ht P3) as (_ & _ & C1). destruct (Ht' P4) as (_ & _ & C2).
      rewrite C1, C2, P1, P2. apply doc_names. exact Ip.
    - apply labels_same; assumption.
    - destruct doc_ts_nodup as [Nts Sts]. destruct (doc_times _ _ _ _ _ _ _ Doc) as [Nall Sall].
      assert (Ax : forall q, doc_axis q = match dim_of q with WithMediaTime => pre ++ ts | _ => ts end) by reflexivity.
      destruct (dim_of c) eqn:D1, (dim_of c') eqn:D2; try exact Logic.I.
      + assert (Nc : c <> Population) by (intros ->; discriminate). assert (Nc' : c' <> Population) by (intros ->; discriminate).
        intros t. rewrite (proj1 (Ht Nc) t), (proj1 (Ht' Nc') t), !Ax, D1, D2. reflexivity.
      + assert (Nc : c <> Population) by (intros ->; discriminate). assert (Nc' : c' <> Population) by (intros ->; discriminate).
        destruct (Ht Nc) as (T1 & T2 & _). destruct (Ht' Nc') as (T3 & T4 & _). exists pre.
        rewrite (tsort_same _ (pre ++ ts) T4 Nall) by (intros t; rewrite T3, Ax, D2; reflexivity).
        rewrite (tsort_same _ ts T2 Nts) by (intros t; rewrite T1, Ax, D1; reflexivity).
        rewrite (tsort_fixed tle tle_order _ _ (Permutation_refl _) Sall), (tsort_fixed tle tle_order _ _ (Permutation_refl _) Sts). reflexivity.
      + assert (Nc : c <> Population) by (intros ->; discriminate). assert (Nc' : c' <> Population) by (intros ->; discriminate).
        destruct (Ht Nc) as (T1 & T2 & _). destruct (Ht' Nc') as (T3 & T4 & _). exists pre.
        rewrite (tsort_same _ (pre ++ ts) T2 Nall) by (intros t; rewrite T1, Ax, D1; reflexivity).
        rewrite (tsort_same _ ts T4 Nts) by (intros t; rewrite T3, Ax, D2; reflexivity).
        rewrite (tsort_fixed tle tle_order _ _ (Permutation_refl _) Sall), (tsort_fixed tle tle_order _ _ (Permutation_refl _) Sts). reflexivity.
      + assert (Nc : c <> Population) by (intros ->; discriminate). assert (Nc' : c' <> Population) by (intros ->; discriminate).
        intros t. rewrite (proj1 (Ht Nc) t), (proj1 (Ht' Nc') t), !Ax, D1, D2. reflexivity. }
  unfold doc_hist. assert (All : forall c, In c doc_comps -> columns_of lo c <> []) by (intros c; apply in_doc_comps).
  induction Nd as [|c l Nc Nd IH]; [constructor|]. cbn [map]. constructor.
  - apply Forall_forall. intros q I. apply in_map_iff in I. destruct I as (c' & <- & I). apply Pair.
    + apply All. left. reflexivity.
    + apply All. right. exact I.
    + intros ->. contradiction.
  - apply IH. intros c' I. apply All. right. exact I.
Qed.

Lemma documented_lemma : exists out, forall valid, load valid lo = if valid out then Ok out else Err ValueError.
Proof.
  assert (Nm : named_columns lo) by apply Proper.
  assert (Vc : exists f', validate_coords (co_geo (lo_coord lo)) (Some (co_time (lo_coord lo))) (lo_frame lo) = Ok f')
    by (apply (coords_iff geq teq gord tle national tle_order); exact doc_balanced).
  destruct (calls_run lo Li Proper Vc) as (ss & Ess).
  pose proof (calls_seg geq teq gord tle national lo Ci Li Nm ss Ess) as Ec.
  assert (Eh : concat ss = map (fun cx : component * da => (fst cx, Ok (snd cx))) doc_hist).
  { rewrite Ec. unfold doc_hist. rewrite map_map. cbn [fst snd]. apply map_ext_in. intros c I. apply in_doc_comps in I.
    destruct (doc_x_facts c I) as (-> & _). reflexivity. }
  assert (Acc : Forall (fun r => r = Ok tt) (fst (run geq teq string_dec tle parse national doc_hist init))).
  { apply (accepted_lemma geq teq string_dec tle gle parse national tle_order). split; [exact doc_fine|exact doc_compatible]. }
  assert (P : perform_all geq teq tle parse national (load_calls lo) init = (Ok tt, snd (run geq teq string_dec tle parse national doc_hist init))).
  { apply perform_all_lemma. exists ss, doc_hist. auto. }
  assert (Mf : forall c, In c (map fst doc_hist) <-> columns_of lo c <> []).
  { intros c. unfold doc_hist. rewrite map_map. cbn [fst]. rewrite map_id. apply in_doc_comps. }
  assert (Pn : forall c c', In c' (partners c) -> (columns_of lo c <> [] <-> columns_of lo c' <> [])).
  { intros c c' I. pose proof (doc_names c c' I) as En. destruct (columns_of lo c), (columns_of lo c'); try discriminate; split; intros; try congruence; discriminate. }
  assert (Med : columns_of lo Media <> [] \/ columns_of lo Reach <> []).
  { unfold coord_init in Ci. apply raise_if_inv' in Ci. destruct Ci as [K _]. apply negb_false_iff, orb_true_iff in K.
    unfold loader_init in Li. cbv zeta in Li. apply inv_rbind' in Li. destruct Li as (u1 & M1 & Li1). apply inv_rbind' in Li1. destruct Li1 as (u2 & M2 & Li1).
    apply inv_rbind' in Li1. destruct Li1 as (u3 & M3 & Li1). apply inv_rbind' in Li1. destruct Li1 as (u4 & M4 & Li1). apply inv_rbind' in Li1. destruct Li1 as (u5 & M5 & _).
    destruct K as [K|K].
    - left. apply andb_true_iff in K. destruct K as [K1 K2]. destruct (co_media (lo_coord lo)) as [[|a l]|] eqn:Ea; try discriminate.
      destruct (co_media_spend (lo_coord lo)) as [l2|] eqn:Eb; [|discriminate]. unfold mapping_ok in M1, M2.
      destruct (lo_media lo) eqn:A; [|discriminate]. destruct (lo_media_spend lo) eqn:B; [|discriminate]. cbn [columns_of]. rewrite A, B, Ea. discriminate.
    - right. apply andb_true_iff in K. destruct K as [K K3]. apply andb_true_iff in K. destruct K as [K1 K2]. destruct (co_reach (lo_coord lo)) as [[|a l]|] eqn:Ea; try discriminate.
      destruct (co_frequency (lo_coord lo)) as [l2|] eqn:Eb; [|discriminate]. destruct (co_rf_spend (lo_coord lo)) as [l3|] eqn:Ec3; [|discriminate]. unfold mapping_ok in M3, M4, M5.
      destruct (lo_reach lo) eqn:A; [|discriminate]. destruct (lo_frequency lo) eqn:B; [|discriminate]. destruct (lo_rf_spend lo) eqn:C; [|discriminate].
      cbn [columns_of]. rewrite A, B, C, Ea. discriminate. }
  assert (Fx : forall c x, In (c, x) doc_hist -> NoDup (d_geos x) /\ (forall g, In g (d_geos x) <-> In g gs)).
  { intros c x I. apply in_doc_hist in I. destruct I as [Nn ->]. destruct (doc_x_facts c Nn) as (_ & A & B & _). auto. }
  assert (Ngs : NoDup gs) by apply (doc_geos _ _ _ _ _ _ _ Doc).
  assert (Len : forall c x, In (c, x) doc_hist -> length (d_geos x) = length gs).
  { intros c x I. destruct (Fx c x I) as [A B]. apply Permutation_length, NoDup_Permutation; assumption. }
  assert (Full : forall c x, In (c, x) doc_hist -> c <> Population \/ length (d_geos x) <> 1 -> full c x).
  { intros c x I H. rewrite (Len c x I) in H. apply in_doc_hist in I. destruct I as [Nn ->]. destruct (doc_x_facts c Nn) as (_ & _ & _ & _ & F). exact (F H). }
  destruct (build_runs geq teq string_dec tle gle parse national 1%R tle_order doc_hist Acc Full) as (out & Ho).
  - apply Mf. discriminate.
  - rewrite !Mf. exact Med.
  - rewrite !Mf. apply Pn. cbn; tauto.
  - rewrite !Mf. apply Pn. cbn; tauto.
  - rewrite !Mf. apply Pn. cbn; tauto.
  - rewrite !Mf. apply Pn. cbn; tauto.
  - intros K. apply Mf. destruct (doc_population _ _ _ _ _ _ _ Doc) as (col & Ic & _).
    + assert (Kp : In Kpi (map fst doc_hist)) by (apply Mf; discriminate). apply in_map_iff in Kp. destruct Kp as ([c x] & _ & I). rewrite <- (Len c x I). exact (K c x I).
    + intros E. rewrite E in Ic. contradiction.
  - exists out. intros valid. rewrite <- (Ho valid). unfold M_Frame.load. rewrite Ci. cbn [rbind]. rewrite Li. cbn [rbind]. rewrite P. reflexivity.
Qed.
End Doc.
End P.
