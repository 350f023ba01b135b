(** Lemmas about loading from data frames. *)
From Coq Require Import Reals ZArith Lia String List Bool Permutation FunctionalExtensionality.
From Verif Require Import M_Base M_Time Lib_Sort M_Builder S_Builder P_Builder P_BuilderOrder M_Frame S_Frame.
Import ListNotations.
Local Open Scope string_scope.
Local Open Scope R_scope.
Local Open Scope nat_scope.
Local Open Scope list_scope.

Section P.
Context {G T : Type}.
Variables (geq : forall a b : G, {a = b} + {a <> b}) (teq : forall a b : T, {a = b} + {a <> b})
  (gord : G -> G -> bool) (tle : T -> T -> bool) (gle : G -> G -> bool)
  (parse : T -> option date) (national : G).
Notation da := (da G T string R).
Notation state := (state G T string R).
Notation loader := (loader G T).
Notation row := (row G T).
Notation entry := (@entry G T).
Notation to_array := (to_array geq teq gord tle).
Notation with_geo := (with_geo national).
Notation validate_coords := (validate_coords geq teq gord tle national).
Notation run := (run geq teq string_dec tle parse national).

(** *** Arrays from entries *)
Definition chan_labels (x : da) (chans : option (list string)) (k : nat) (c : string) : Prop :=
  match chans with Some _ => nth_error (d_chans x) k = Some c | None => c = "" end.

Lemma find_in_unique : forall (l : list entry) g t c v, NoDup (map fst l) -> In (g, t, c, v) l ->
  cell_value geq teq l g t c = Some v.
Proof.
  intros l g t c v N I. unfold cell_value.
  induction l as [|e l IH]; [contradiction|]. cbn [find]. cbn in N. inversion N as [|? ? N1 N2]; subst.
  destruct I as [->|I].
  - cbn [fst]. destruct (entry_key_dec geq teq (g, t, c) (g, t, c)); [reflexivity|congruence].
  - destruct (entry_key_dec geq teq (fst e) (g, t, c)) as [E|_]; [|apply IH; assumption].
    exfalso. apply N1. rewrite E. change (g, t, c) with (fst ((g, t, c), v)). apply in_map. exact I.
Qed.
Lemma find_in : forall (l : list entry) g t c v, cell_value geq teq l g t c = Some v -> In (g, t, c, v) l.
Proof.
  intros l g t c v E. unfold cell_value in E. lazymatch type of E with match ?q with _ => _ end = _ => destruct q as [e|] eqn:F; [|discriminate] end.
  apply find_some in F. destruct F as [I K]. destruct (entry_key_dec geq teq (fst e) (g, t, c)) as [Ek|]; [|discriminate].
  assert (Ev : snd e = v) by congruence. destruct e as [k v']. cbn in *. subst. exact I.
Qed.

Lemma to_array_geos : forall l chans x, to_array l chans = Ok x -> forall g, In g (d_geos x) <-> exists t c v, In (g, t, c, v) l.
Proof.
  intros l chans x E g. apply raise_if_inv' in E. destruct E as [_ E]. cbv zeta in E. injection E as <-. cbn [d_geos].
  rewrite isort_in, nodup_In, in_map_iff. split.
  - intros ([[[g' t] c] v] & E & I). cbn in E. subst. eauto.
  - intros (t & c & v & I). exists (g, t, c, v). split; [reflexivity|exact I].
Qed.
Lemma to_array_times : forall l chans x, to_array l chans = Ok x -> forall t, In t (d_times x) <-> exists g c v, In (g, t, c, v) l.
Proof.
  intros l chans x E t. apply raise_if_inv' in E. destruct E as [_ E]. cbv zeta in E. injection E as <-. cbn [d_times].
  rewrite isort_in, nodup_In, in_map_iff. split.
  - intros ([[[g t'] c] v] & E & I). cbn in E. subst. eauto.
  - intros (g & c & v & I). exists (g, t, c, v). split; [reflexivity|exact I].
Qed.
Lemma to_array_chans : forall l chans x, to_array l chans = Ok x ->
  d_chans x = match chans with Some cs => filter (fun c => mem string_dec c (map e_chan l)) cs | None => [] end.
Proof. intros l chans x E. apply raise_if_inv' in E. destruct E as [_ E]. cbv zeta in E. injection E as <-. reflexivity. Qed.
Lemma to_array_nodup : forall l chans x, to_array l chans = Ok x -> NoDup (d_geos x) /\ NoDup (d_times x) /\ NoDup (map fst l).
Proof.
  intros l chans x E. apply raise_if_inv' in E. destruct E as [U E]. cbv zeta in E. injection E as <-. cbn.
  apply negb_false_iff, unique_iff in U. split; [|split; [|exact U]]; apply isort_nodup, NoDup_nodup.
Qed.
Lemma to_array_sound : forall l chans x i j k v, to_array l chans = Ok x -> d_val x i j k = Some v ->
  exists g t c, nth_error (d_geos x) i = Some g /\ nth_error (d_times x) j = Some t /\ chan_labels x chans k c /\ In (g, t, c, v) l.
Proof.
  intros l chans x i j k v E V. apply raise_if_inv' in E. destruct E as [_ E]. cbv zeta in E. injection E as <-.
  cbn [d_val] in V. lazymatch type of V with match ?q with _ => _ end = _ => destruct q as [g|] eqn:Eg; [|discriminate] end.
  lazymatch type of V with match ?q with _ => _ end = _ => destruct q as [t|] eqn:Et; [|discriminate] end.
  lazymatch type of V with match ?q with _ => _ end = _ => destruct q as [c|] eqn:Ec; [|discriminate] end.
  exists g, t, c. cbn [d_geos d_times]. split; [exact Eg|]. split; [exact Et|]. split; [|apply find_in; exact V].
  unfold chan_labels. destruct chans; [exact Ec|congruence].
Qed.
Lemma to_array_complete : forall l chans x i j k g t c v, to_array l chans = Ok x ->
  nth_error (d_geos x) i = Some g -> nth_error (d_times x) j = Some t -> chan_labels x chans k c -> In (g, t, c, v) l ->
  d_val x i j k = Some v.
Proof.
  intros l chans x i j k g t c v E Eg Et Ec I. pose proof (to_array_nodup _ _ _ E) as (_ & _ & N).
  apply raise_if_inv' in E. destruct E as [_ E]. cbv zeta in E. injection E as <-. cbn [d_geos d_times d_val] in *.
  rewrite Eg, Et. unfold chan_labels in Ec. destruct chans as [cs|].
  - cbn [d_chans] in Ec. rewrite Ec. apply find_in_unique; assumption.
  - subst c. apply find_in_unique; assumption.
Qed.
Lemma to_array_runs : forall l chans, NoDup (map fst l) -> exists x, to_array l chans = Ok x.
Proof.
  intros l chans N. unfold M_Frame.to_array. assert (U : unique (entry_key_dec geq teq) (map fst l) = true) by (apply unique_iff; exact N).
  rewrite U. cbn [negb raise_if]. eauto.
Qed.

(** *** Entries of a frame *)
Lemma stack_in : forall geo time cols channels (f : frame G T) g t ch v,
  In (g, t, ch, v) (stack geo time cols channels f) <->
  exists r col, In r (f_rows f) /\ In (col, ch) (combine cols channels) /\ r_num r col = Some v /\ g = r_geo r geo /\ t = r_time r time.
Proof.
  intros geo time cols channels f g t ch v. unfold stack. rewrite in_flat_map. split.
  - intros (r & Ir & I). apply in_flat_map in I. destruct I as ([col c] & Ic & I). cbn [fst snd] in I.
    destruct (r_num r col) as [w|] eqn:E; [|contradiction]. destruct I as [I|[]]. injection I as <- <- <- <-.
    exists r, col. auto.
  - intros (r & col & Ir & Ic & E & -> & ->). exists r. split; [exact Ir|]. apply in_flat_map. exists (col, ch). split; [exact Ic|].
    cbn [fst snd]. rewrite E. left. reflexivity.
Qed.

(** *** A sequence of calls *)
Lemma assign_lemma : forall (l : @steps G T) (s s' : state),
  assign geq teq tle parse national l s = (Ok tt, s') <->
  exists hist, l = map (fun cx => (fst cx, Ok (snd cx))) hist /\ Forall (fun r => r = Ok tt) (fst (run hist s)) /\ s' = snd (run hist s).
Proof.
  induction l as [|[c [x|e]] l IH]; intros s s'; cbn [assign].
  - split.
    + intros E. injection E as <-. exists []. cbn. split; [reflexivity|split; [constructor|reflexivity]].
    + intros ([|cx hist] & E & _ & ->); [reflexivity|discriminate].
  - destruct (set_component geq teq string_dec tle parse national c x s) as [r s1] eqn:Es. split.
    + destruct r as [[]|e]; [|discriminate]. intros E. apply IH in E. destruct E as (hist & -> & F & ->).
      exists ((c, x) :: hist). rewrite run_cons, Es. cbn [fst snd map]. split; [reflexivity|]. split; [constructor; auto|reflexivity].
    + intros ([|[c' x'] hist] & E & F & ->); [discriminate|]. cbn in E. injection E as <- <- El. rewrite run_cons, Es in F |- *. cbn [fst snd] in F |- *.
      inversion F as [|? ? F1 F2]; subst. apply IH. exists hist. auto.
  - split; [discriminate|]. intros ([|[c' x'] hist] & E & _ & _); discriminate.
Qed.
Lemma run_app : forall h h' (s : state), run (h ++ h') s = (fst (run h s) ++ fst (run h' (snd (run h s))), snd (run h' (snd (run h s)))).
Proof.
  induction h as [|[c x] h IH]; intros h' s; [cbn; destruct (run h' s); reflexivity|].
  cbn [app]. rewrite !run_cons. cbn [fst snd]. rewrite IH. reflexivity.
Qed.
Lemma map_app_inv : forall A B (f : A -> B) l m n, map f l = m ++ n -> exists l1 l2, l = l1 ++ l2 /\ map f l1 = m /\ map f l2 = n.
Proof.
  intros A B f l m. revert l. induction m as [|b m IH]; intros l n E.
  - exists [], l. auto.
  - destruct l as [|a l]; [discriminate|]. cbn in E. injection E as E1 E2. destruct (IH _ _ E2) as (l1 & l2 & -> & <- & <-).
    exists (a :: l1), l2. cbn. rewrite E1. auto.
Qed.
Lemma perform_all_lemma : forall (calls : list (result (@steps G T))) (s s' : state),
  perform_all geq teq tle parse national calls s = (Ok tt, s') <->
  exists stepss hist, calls = map Ok stepss /\ concat stepss = map (fun cx => (fst cx, Ok (snd cx))) hist /\
    Forall (fun r => r = Ok tt) (fst (run hist s)) /\ s' = snd (run hist s).
Proof.
  induction calls as [|call calls IH]; intros s s'; cbn [perform_all].
  - split.
    + intros E. injection E as <-. exists [], []. cbn. repeat split; constructor.
    + intros ([|a l] & hist & E & C & _ & ->); [|discriminate]. destruct hist; [reflexivity|discriminate].
  - split.
    + intros E. destruct (perform geq teq tle parse national call s) as [[[]|e] s1] eqn:P; [|discriminate].
      destruct call as [l|e]; [|discriminate]. cbn [perform] in P. apply assign_lemma in P. destruct P as (h1 & -> & F1 & ->).
      apply IH in E. destruct E as (ss & h2 & -> & C & F2 & ->).
      exists (map (fun cx => (fst cx, Ok (snd cx))) h1 :: ss), (h1 ++ h2).
      rewrite run_app. cbn [fst snd map concat]. rewrite C, map_app. repeat split. apply Forall_app. auto.
    + intros ([|l ss] & hist & E & C & F & ->); [discriminate|]. cbn in E. injection E as -> ->. cbn [concat] in C. symmetry in C.
      apply map_app_inv in C. destruct C as (h1 & h2 & -> & C1 & C2). rewrite run_app in F |- *. cbn [fst snd] in F |- *.
      apply Forall_app in F. destruct F as [F1 F2].
      assert (P : perform geq teq tle parse national (Ok l) s = (Ok tt, snd (run h1 s))).
      { cbn [perform]. apply assign_lemma. exists h1. auto. }
      rewrite P. apply IH. exists ss, h2. auto.
Qed.

(** *** The arrays the loader reads *)
Definition plain (c : component) : bool := match c with Kpi | RevenuePerKpi => true | _ => false end.
Definition frame_of (lo : loader) (c : component) : frame G T :=
  match c with
  | RevenuePerKpi => match co_rpk (lo_coord lo) with
                     | Some col => if lo_revenue lo then overwrite col 1%R (lo_frame lo) else lo_frame lo
                     | None => lo_frame lo
                     end
  | _ => lo_frame lo
  end.
Definition entries_of (lo : loader) (c : component) : list entry :=
  stack (co_geo (lo_coord lo)) (co_time (lo_coord lo)) (map fst (columns_of lo c)) (map snd (columns_of lo c))
    (with_geo (co_geo (lo_coord lo)) (frame_of lo c)).
Definition names_of (lo : loader) (c : component) : option (list string) :=
  if plain c then None else Some (map snd (columns_of lo c)).
Definition array_of (lo : loader) (c : component) : result da :=
  match c with
  | Population =>
      let geo := co_geo (lo_coord lo) in
      let f' := with_geo geo (lo_frame lo) in
      let gs := geo_groups geq gord geo f' in
      Ok (mkDa gs [] [] (fun i _ _ =>
         match nth_error gs i with
         | Some g => mean (some_values (map (fun r => r_num r (co_population (lo_coord lo))) (rows_of geq geo f' g)))
         | None => None
         end))
  | _ => to_array (entries_of lo c) (names_of lo c)
  end.

Lemma combine_split_pairs : forall A B (l : list (A * B)), combine (map fst l) (map snd l) = l.
Proof. intros A B l. induction l as [|[a b] l IH]; [reflexivity|]. cbn. rewrite IH. reflexivity. Qed.

Lemma entries_in : forall lo c g t ch v, In (g, t, ch, v) (entries_of lo c) <->
  exists r col, In r (rows lo) /\ In (col, ch) (columns_of lo c) /\ cell lo c r col = Some v /\
    g = geo_of_row national lo r /\ t = time_of_row lo r.
Proof.
  intros lo c g t ch v. unfold entries_of. eapply iff_trans; [apply stack_in|]. rewrite combine_split_pairs.
  set (geo := co_geo (lo_coord lo)).
  assert (Num : forall (r : row) col, In (col, ch) (columns_of lo c) ->
     In r (rows lo) -> exists r', In r' (f_rows (frame_of lo c)) /\ r_num r' col = cell lo c r col /\ r_geo r' = r_geo r /\ r_time r' = r_time r).
  { intros r col Ic Ir. unfold frame_of, cell, rows in *. destruct c; try solve [exists r; auto].
    cbn [columns_of] in Ic. destruct (co_rpk (lo_coord lo)) as [rpk|]; [|contradiction]. destruct Ic as [Ic|[]]. injection Ic as -> _.
    destruct (lo_revenue lo); [|exists r; auto]. unfold overwrite. cbn [f_rows].
    eexists. split; [apply in_map; exact Ir|]. cbn. rewrite String.eqb_refl. auto. }
  assert (Num' : forall (r' : row) col, In (col, ch) (columns_of lo c) ->
     In r' (f_rows (frame_of lo c)) -> exists r, In r (rows lo) /\ r_num r' col = cell lo c r col /\ r_geo r' = r_geo r /\ r_time r' = r_time r).
  { intros r col Ic Ir. unfold frame_of, cell, rows in *. destruct c; try solve [exists r; auto].
    cbn [columns_of] in Ic. destruct (co_rpk (lo_coord lo)) as [rpk|]; [|contradiction]. destruct Ic as [Ic|[]]. injection Ic as -> _.
    destruct (lo_revenue lo); [|exists r; auto]. unfold overwrite in Ir. cbn [f_rows] in Ir. apply in_map_iff in Ir. destruct Ir as (r0 & <- & I0).
    exists r0. cbn. rewrite String.eqb_refl. auto. }
  assert (Cols : f_columns (frame_of lo c) = f_columns (lo_frame lo)).
  { unfold frame_of. destruct c; try reflexivity. destruct (co_rpk (lo_coord lo)); [|reflexivity]. destruct (lo_revenue lo); reflexivity. }
  assert (Geo : forall r' : row, In r' (f_rows (with_geo geo (frame_of lo c))) <->
     exists r, In r (f_rows (frame_of lo c)) /\ r' = if mem string_dec geo (f_columns (lo_frame lo)) then r
        else mkRow (fun c => if String.eqb c geo then national else r_geo r c) (r_time r) (r_num r)).
  { intros r'. unfold M_Frame.with_geo. rewrite Cols. destruct (mem string_dec geo (f_columns (lo_frame lo))).
    - split; [intros I; exists r'; auto|]. intros (r & I & ->). exact I.
    - cbn [f_rows]. rewrite in_map_iff. split; intros (r & A & B); exists r; auto. }
  split.
  - intros (r' & col & Ir' & Ic & E & -> & ->). apply Geo in Ir'. destruct Ir' as (r1 & I1 & ->).
    destruct (Num' r1 col Ic I1) as (r & Ir & En & Eg & Et). exists r, col. split; [exact Ir|]. split; [exact Ic|].
    unfold geo_of_row, time_of_row, mem in *. fold geo.
    destruct (in_dec string_dec geo (f_columns (lo_frame lo))); cbn [r_num r_geo r_time] in *.
    + rewrite <- En, <- Eg, <- Et. auto.
    + rewrite String.eqb_refl, <- En, <- Et. auto.
  - intros (r & col & Ir & Ic & E & -> & ->). destruct (Num r col Ic Ir) as (r1 & I1 & En & Eg & Et).
    exists (if mem string_dec geo (f_columns (lo_frame lo)) then r1
        else mkRow (fun c => if String.eqb c geo then national else r_geo r1 c) (r_time r1) (r_num r1)), col.
    split; [apply Geo; exists r1; auto|]. split; [exact Ic|]. unfold geo_of_row, time_of_row, mem. fold geo.
    destruct (in_dec string_dec geo (f_columns (lo_frame lo))); cbn [r_num r_geo r_time].
    + rewrite En, Eg, Et. auto.
    + rewrite String.eqb_refl, En, Et. auto.
Qed.
End P.
