(** Proofs about the tables of [MediaSummary]: one table, from its summary. *)
From Coq Require Import Reals ZArith Lia Lra String List Bool Arith Permutation Sorted.
From Verif Require Import Lib_Sum Lib_Sort M_Base M_AdstockHill M_Equations M_Transformers M_Aggregate
  S_Aggregate S_Adstock S_Media S_Analyzer M_Analyzer S_Predictor S_Paid M_Stats S_Stats M_Summary S_Roi
  S_Summary M_MediaSummary S_MediaSummary.
Import ListNotations.
Local Open Scope R_scope.
Local Open Scope string_scope.
Local Open Scope list_scope.

(** ** Labels *)
Lemma existsb_eqb : forall a l, existsb (String.eqb a) l = true <-> In a l.
Proof.
  intros a l. rewrite existsb_exists. split.
  - intros (b & Hb & E). apply String.eqb_eq in E. subst. exact Hb.
  - intros H. exists a. split; [exact H|apply String.eqb_refl].
Qed.
Lemma distinct_ok : forall l, NoDup l -> distinct l = true.
Proof.
  induction l as [|a l IH]; intros H; [reflexivity|]. inversion H as [|? ? Ha Hl]; subst. cbn [distinct].
  rewrite (IH Hl), andb_true_r. destruct (existsb (String.eqb a) l) eqn:E; [|reflexivity].
  apply existsb_eqb in E. contradiction.
Qed.
Lemma index_of_nth : forall l k a, NoDup l -> nth_error l k = Some a -> index_of a l = Some k.
Proof.
  induction l as [|b l IH]; intros k a H E; [destruct k; discriminate|]. inversion H as [|? ? Hb Hl]; subst.
  cbn [index_of]. destruct k as [|k].
  - cbn in E. inversion E. rewrite String.eqb_refl. reflexivity.
  - cbn in E. destruct (String.eqb a b) eqn:Q.
    + apply String.eqb_eq in Q. subst b. exfalso. apply Hb. exact (nth_error_In _ _ E).
    + rewrite (IH k a Hl E). reflexivity.
Qed.
Lemma index_of_none : forall l a, ~ In a l -> index_of a l = None.
Proof.
  induction l as [|b l IH]; intros a H; [reflexivity|]. cbn [index_of].
  destruct (String.eqb a b) eqn:Q; [apply String.eqb_eq in Q; subst; exfalso; apply H; left; reflexivity|].
  rewrite IH; [reflexivity|]. intros Hi. apply H. right. exact Hi.
Qed.
Lemma loc_ok : forall l a, NoDup l -> In a l ->
  exists k, loc l a = Ok k /\ (k < length l)%nat /\ nth k l "" = a.
Proof.
  intros l a Hn Ha. destruct (In_nth_error l a Ha) as (k & E). exists k. unfold loc.
  rewrite (index_of_nth l k a Hn E). split; [reflexivity|]. split.
  - apply nth_error_Some. congruence.
  - apply nth_error_nth. exact E.
Qed.
Lemma locs_ok : forall l labels, NoDup l -> Forall (fun a => In a l) labels ->
  exists ks, locs l labels = Ok ks /\ Forall (fun k => (k < length l)%nat) ks /\
    map (fun k => nth k l "") ks = labels.
Proof.
  intros l labels Hn H. unfold locs. rewrite (distinct_ok l Hn). cbn [negb raise_if].
  induction H as [|a labels Ha H IH]; [exists []; auto|].
  destruct (loc_ok l a Hn Ha) as (k & E & Hk & Nk). destruct IH as (ks & Es & Hs & Ns).
  exists (k :: ks). cbn [mapM]. rewrite E. cbn [rbind]. rewrite Es. cbn [rbind map].
  split; [reflexivity|]. split; [constructor; assumption|]. rewrite Nk, Ns. reflexivity.
Qed.
Lemma locs_unknown : forall l labels, NoDup l -> ~ Forall (fun a => In a l) labels ->
  locs l labels = Err KeyError.
Proof.
  intros l labels Hn H. unfold locs. rewrite (distinct_ok l Hn). cbn [negb raise_if].
  induction labels as [|a labels IH]; [exfalso; apply H; constructor|]. cbn [mapM].
  destruct (in_dec string_dec a l) as [Ha|Ha].
  - destruct (loc_ok l a Hn Ha) as (k & E & _). rewrite E. cbn [rbind].
    rewrite IH; [reflexivity|]. intros F. apply H. constructor; assumption.
  - unfold loc. rewrite (index_of_none l a Ha). reflexivity.
Qed.

(** ** Order of the rows *)
Lemma ascii_compare_trans : forall a b c, Ascii.compare a b = Lt -> Ascii.compare b c = Lt -> Ascii.compare a c = Lt.
Proof.
  intros a b c. unfold Ascii.compare. rewrite !N.compare_lt_iff. apply N.lt_trans.
Qed.
Lemma ascii_compare_eq : forall a b, Ascii.compare a b = Eq -> a = b.
Proof. intros a b. apply Ascii.compare_eq_iff. Qed.
Lemma ascii_compare_refl : forall a, Ascii.compare a a = Eq.
Proof. intros a. unfold Ascii.compare. apply N.compare_refl. Qed.
Lemma compare_refl : forall a, String.compare a a = Eq.
Proof. induction a as [|c a IH]; [reflexivity|]. cbn. rewrite ascii_compare_refl. exact IH. Qed.
Lemma compare_trans : forall a b c, String.compare a b = Lt -> String.compare b c = Lt -> String.compare a c = Lt.
Proof.
  induction a as [|p a IH]; intros [|q b] [|r c]; cbn; try congruence.
  destruct (Ascii.compare p q) eqn:E1; destruct (Ascii.compare q r) eqn:E2; try congruence; intros H1 H2.
  - apply ascii_compare_eq in E1. apply ascii_compare_eq in E2. subst. rewrite ascii_compare_refl. exact (IH _ _ H1 H2).
  - apply ascii_compare_eq in E1. subst. rewrite E2. reflexivity.
  - apply ascii_compare_eq in E2. subst. rewrite E1. reflexivity.
  - rewrite (ascii_compare_trans _ _ _ E1 E2). reflexivity.
Qed.
Lemma larger_total : forall a b, larger_first a b = true \/ larger_first b a = true.
Proof.
  intros a b. unfold larger_first. destruct (c_outcome a), (c_outcome b); auto.
  destruct (Rle_dec r0 r); [left; reflexivity|]. destruct (Rle_dec r r0); [right; reflexivity|lra].
Qed.
Lemma larger_trans : forall a b c, larger_first a b = true -> larger_first b c = true -> larger_first a c = true.
Proof.
  intros a b c. unfold larger_first. destruct (c_outcome a), (c_outcome b), (c_outcome c); try congruence.
  destruct (Rle_dec r0 r), (Rle_dec r1 r0), (Rle_dec r1 r); try congruence; lra.
Qed.
Lemma by_time_total : forall a b, by_time a b = true \/ by_time b a = true.
Proof.
  intros a b. unfold by_time. rewrite (String.compare_antisym (time_of a) (time_of b)).
  destruct (String.compare (time_of b) (time_of a)); cbn; auto. apply larger_total.
Qed.
Lemma by_time_trans : forall a b c, by_time a b = true -> by_time b c = true -> by_time a c = true.
Proof.
  intros a b c. unfold by_time.
  destruct (String.compare (time_of a) (time_of b)) eqn:E1; destruct (String.compare (time_of b) (time_of c)) eqn:E2;
    try congruence.
  - apply String.compare_eq_iff in E1. apply String.compare_eq_iff in E2. rewrite E1, E2, compare_refl.
    apply larger_trans.
  - apply String.compare_eq_iff in E1. rewrite E1, E2. reflexivity.
  - apply String.compare_eq_iff in E2. rewrite <- E2, E1. reflexivity.
  - rewrite (compare_trans _ _ _ E1 E2). reflexivity.
Qed.
Lemma larger_before : forall a b, larger_first a b = true -> outcome_before a b.
Proof.
  intros a b. unfold larger_first, outcome_before. destruct (c_outcome a), (c_outcome b); auto; try congruence.
  destruct (Rle_dec r0 r); congruence.
Qed.
Lemma StronglySorted_in : forall A (P Q : A -> A -> Prop) l,
  (forall a b, In a l -> In b l -> P a b -> Q a b) -> StronglySorted P l -> StronglySorted Q l.
Proof.
  intros A P Q l H S. induction S as [|a l S IH F]; [constructor|]. constructor.
  - apply IH. intros; apply H; try (right; assumption); assumption.
  - apply Forall_forall. intros b Hb. rewrite Forall_forall in F. apply H; [left; reflexivity|right; exact Hb|auto].
Qed.
Lemma sort_rows_ok : forall at' l, Forall (fun r => c_time r = None <-> at' = true) l ->
  StronglySorted precedes (sort_rows at' l) /\ Permutation l (sort_rows at' l).
Proof.
  intros at' l H. split; [|apply isort_perm]. unfold sort_rows. rewrite Forall_forall in H. destruct at'.
  - apply (StronglySorted_in _ (fun a b => larger_first a b = true)).
    + intros a b Ha Hb L. apply isort_in in Ha. apply isort_in in Hb. unfold precedes.
      rewrite (proj2 (H a Ha) eq_refl). apply larger_before. exact L.
    + apply isort_sorted; [apply larger_total|apply larger_trans].
  - apply (StronglySorted_in _ (fun a b => by_time a b = true)).
    + intros a b Ha Hb L. apply isort_in in Ha. apply isort_in in Hb. unfold precedes.
      specialize (H a Ha) as Ta. specialize (H b Hb) as Tb. unfold by_time, time_of in L.
      destruct (c_time a) as [t|]; [|exfalso; discriminate (proj1 Ta eq_refl)].
      destruct (c_time b) as [u|]; [|exfalso; discriminate (proj1 Tb eq_refl)].
      destruct (String.compare t u) eqn:E; [|left; reflexivity|discriminate].
      right. split; [apply String.compare_eq_iff; exact E|apply larger_before; exact L].
    + apply isort_sorted; [apply by_time_total|apply by_time_trans].
Qed.

(** ** One table, from its summary *)
Lemma map_nth_seq' : forall (l : list string), map (fun k => nth k l "") (seq 0 (length l)) = l.
Proof.
  induction l as [|a l IH]; [reflexivity|]. cbn [length seq map]. rewrite <- seq_shift, map_map. cbn [nth].
  rewrite IH. reflexivity.
Qed.
Lemma perm_rows : forall A B (b : A -> B) (c : A -> list B) l,
  Permutation (map b l ++ flat_map c l) (flat_map (fun j => b j :: c j) l).
Proof.
  intros A B b c l. induction l as [|a l IH]; [constructor|]. cbn [map flat_map app]. constructor.
  rewrite app_assoc. transitivity (c a ++ (map b l ++ flat_map c l)).
  - rewrite app_assoc. apply Permutation_app_tail. apply Permutation_app_comm.
  - apply Permutation_app_head. exact IH.
Qed.
Lemma nodup_nth_inj : forall (l : list string) i j, NoDup l -> (i < length l)%nat -> (j < length l)%nat ->
  nth i l "" = nth j l "" -> i = j.
Proof. intros l i j H Hi Hj E. exact (proj1 (NoDup_nth l "") H i j Hi Hj E). Qed.

Lemma combine_seq : forall (l : list string) k,
  combine (map Some l) (map (fun i => [i]) (seq k (length l)))
  = map (fun j => (Some (nth (j - k) l ""), [j])) (seq k (length l)).
Proof.
  induction l as [|a l IH]; intros k; [reflexivity|]. cbn [length seq map combine]. rewrite IH.
  rewrite Nat.sub_diag. cbn [nth]. f_equal. apply map_ext_in. intros j Hj. apply in_seq in Hj.
  replace (j - k)%nat with (S (j - S k)) by lia. reflexivity.
Qed.

Lemma flat_map_map' : forall A B C (h : A -> B) (k : B -> list C) l, flat_map k (map h l) = flat_map (fun a => k (h a)) l.
Proof. intros A B C h k l. induction l as [|a l IH]; [reflexivity|]. cbn [map flat_map]. rewrite IH. reflexivity. Qed.

Section One.
Variables (s : summary) (names L : list string) (at' : bool) (n : nat) (pct : bool -> variable)
  (o : nat -> nat -> R) (E : nat -> R).
Let N := length names.
Let all := names ++ [ALL_CHANNELS].
Hypotheses (Hch : sm_channel s = all) (Hnd : NoDup all)
  (Htime : sm_time s = if at' then None else Some L) (HL : NoDup L)
  (Hn : n = if at' then 1%nat else length L)
  (Hpc : sm_contribution s = Some pct)
  (Hinc : forall j c, (j < n)%nat -> (c <= N)%nat ->
     mean_at (sm_incremental s true) (position at' j ++ [c]) = Some (o j c))
  (Hpct : forall j c, (j < n)%nat -> (c <= N)%nat -> E j <> 0 ->
     mean_at (pct true) (position at' j ++ [c]) = Some (100 * o j c / E j)).

Definition lab (j : nat) : option string := if at' then None else Some (nth j L "").
Definition chan_row (j k : nat) : crow :=
  mkCrow (lab j) (nth k all "") (mean_at (sm_incremental s true) (position at' j ++ [k]))
    (option_map (fun v => v / 100) (mean_at (pct true) (position at' j ++ [k]))).
Definition base_row (j : nat) : crow := baseline_cell s pct N (lab j) (position at' j).

Lemma all_length : length all = S N.
Proof. unfold all, N. rewrite app_length. cbn. lia. Qed.
Lemma all_last : nth N all "" = ALL_CHANNELS.
Proof. unfold all, N. rewrite app_nth2 by lia. rewrite Nat.sub_diag. reflexivity. Qed.
Lemma all_found : loc (sm_channel s) ALL_CHANNELS = Ok N.
Proof.
  rewrite Hch. unfold loc. rewrite (index_of_nth all N ALL_CHANNELS Hnd); [reflexivity|].
  unfold all, N. rewrite nth_error_app2 by lia. rewrite Nat.sub_diag. reflexivity.
Qed.

Definition shown_names (selected : option (list string)) : list string :=
  match selected with Some (a :: l) => a :: l | _ => names end.
Lemma shown_ok : forall selected, Forall (fun a => In a all) (shown_names selected) ->
  exists ks, shown s selected = Ok ks /\ Forall (fun k => (k <= N)%nat) ks /\
    map (fun k => nth k all "") ks = shown_names selected.
Proof.
  intros selected H.
  assert (Dropped : exists ks,
    rbind (locs (sm_channel s) [ALL_CHANNELS]) (fun _ =>
         Ok (filter (fun k => negb (String.eqb (nth k (sm_channel s) "") ALL_CHANNELS))
               (seq 0 (length (sm_channel s))))) = Ok ks /\ Forall (fun k => (k <= N)%nat) ks /\
    map (fun k => nth k all "") ks = names).
  { rewrite Hch. destruct (locs_ok all [ALL_CHANNELS] Hnd) as (ks & Ek & _).
    { constructor; [|constructor]. unfold all. apply in_or_app. right. left. reflexivity. }
    rewrite Ek. cbn [rbind]. eexists. split; [reflexivity|]. rewrite all_length.
    assert (F : filter (fun k => negb (String.eqb (nth k all "") ALL_CHANNELS)) (seq 0 (S N)) = seq 0 N).
    { rewrite seq_S, filter_app. cbn [filter plus]. rewrite all_last, String.eqb_refl. cbn [negb]. rewrite app_nil_r.
      assert (G : forall l, (forall k, In k l -> (k < N)%nat) ->
        filter (fun k => negb (String.eqb (nth k all "") ALL_CHANNELS)) l = l).
      { induction l as [|k l IH]; intros Hl; [reflexivity|]. cbn [filter].
        destruct (String.eqb (nth k all "") ALL_CHANNELS) eqn:Q.
        - exfalso. apply String.eqb_eq in Q. rewrite <- all_last in Q.
          assert (Hk : (k < N)%nat) by (apply Hl; left; reflexivity).
          assert (k = N) by (apply (nodup_nth_inj all k N Hnd); rewrite ?all_length; auto with arith). lia.
        - cbn [negb]. rewrite IH; [reflexivity|]. intros; apply Hl; right; assumption. }
      apply G. intros k Hk. apply in_seq in Hk. lia. }
    rewrite F. split.
    - apply Forall_forall. intros k Hk. apply in_seq in Hk. lia.
    - transitivity (map (fun k => nth k names "") (seq 0 (length names))); [|apply map_nth_seq'].
      apply map_ext_in. intros k Hk. apply in_seq in Hk.
      unfold all. apply app_nth1. unfold N in Hk. lia. }
  unfold shown, shown_names in *. destruct selected as [[|a l]|]; try exact Dropped.
  rewrite Hch. destruct (locs_ok all (a :: l) Hnd H) as (ks & Ek & Hk & Nk). exists ks. split; [exact Ek|].
  split; [|exact Nk]. apply Forall_forall. intros k Ik. rewrite Forall_forall in Hk. specialize (Hk k Ik).
  rewrite all_length in Hk. lia.
Qed.

Lemma periods_ok : periods s = map (fun j => (lab j, position at' j)) (seq 0 n).
Proof.
  unfold periods. rewrite Htime, Hn. unfold lab, position. destruct at'; [reflexivity|].
  rewrite combine_seq. apply map_ext. intros j. rewrite Nat.sub_0_r. reflexivity.
Qed.
Lemma channel_rows_ok : forall selected, Forall (fun a => In a all) (shown_names selected) ->
  exists ks, Forall (fun k => (k <= N)%nat) ks /\ map (fun k => nth k all "") ks = shown_names selected /\
    channel_rows s selected = Ok (flat_map (fun j => map (chan_row j) ks) (seq 0 n)).
Proof.
  intros selected H. destruct (shown_ok selected H) as (ks & Ek & Hk & Nk). exists ks. split; [exact Hk|].
  split; [exact Nk|]. unfold channel_rows. rewrite Hpc. cbn [rbind]. rewrite Ek. cbn [rbind]. f_equal.
  rewrite periods_ok, Hch, flat_map_map'. reflexivity.
Qed.

Lemma baseline_aggregated : at' = true -> baseline_rows s None None = Ok (map base_row (seq 0 n)).
Proof.
  intros A. unfold baseline_rows. rewrite Hpc. cbn [rbind]. rewrite all_found. cbn [rbind]. rewrite Hn, A.
  cbn [seq map]. unfold base_row, lab, position. rewrite A. reflexivity.
Qed.
Lemma baseline_periods : forall l, at' = false -> Permutation l L ->
  exists is_, Permutation is_ (seq 0 n) /\ baseline_rows s (Some l) (Some l) = Ok (map base_row is_).
Proof.
  intros l A P. unfold baseline_rows. rewrite Hpc. cbn [rbind]. rewrite all_found. cbn [rbind].
  rewrite Htime, A. destruct (locs_ok L l HL) as (is_ & Ei & Hi & Ni).
  { apply Forall_forall. intros a Ha. exact (Permutation_in _ P Ha). }
  rewrite Ei. cbn [rbind].
  assert (Ll : length is_ = length l) by (rewrite <- Ni, map_length; reflexivity).
  exists is_. split.
  - rewrite Hn, A. apply NoDup_Permutation_bis.
    + assert (Nl : NoDup l) by exact (Permutation_NoDup (Permutation_sym P) HL).
      rewrite <- Ni in Nl. exact (NoDup_map_inv _ _ Nl).
    + rewrite seq_length, Ll, (Permutation_length P). lia.
    + intros i Hii. apply in_seq. rewrite Forall_forall in Hi. specialize (Hi i Hii). lia.
  - rewrite Ll, Nat.eqb_refl. cbn [negb raise_if]. f_equal. rewrite <- Ni. clear Ei Hi Ni Ll.
    induction is_ as [|i is_ IH]; [reflexivity|]. cbn [map combine fst snd]. rewrite IH.
    f_equal. unfold base_row, lab, position. rewrite A. reflexivity.
Qed.

Lemma base_row_ok : forall j, (j < n)%nat ->
  c_time (base_row j) = lab j /\ c_channel (base_row j) = "baseline" /\
  (E j <> 0 -> c_pct (base_row j) = Some (1 - o j N / E j)) /\
  (E j <> 0 -> o j N <> 0 -> c_outcome (base_row j) = Some (E j - o j N)) /\
  (E j <> 0 -> o j N = 0 -> c_outcome (base_row j) = None).
Proof.
  intros j Hj. unfold base_row, baseline_cell. cbn [c_time c_channel c_pct c_outcome].
  split; [reflexivity|]. split; [reflexivity|]. rewrite (Hinc j N Hj (le_n N)).
  assert (P : E j <> 0 -> option_map (fun v => v / 100) (mean_at (pct true) (position at' j ++ [N]))
              = Some (o j N / E j)).
  { intros He. rewrite (Hpct j N Hj (le_n N) He). cbn [option_map]. f_equal. field. exact He. }
  split; [|split].
  - intros He. rewrite (P He). reflexivity.
  - intros He Ho. rewrite (P He). cbn [option_map divide]. unfold fdiv.
    assert (Q : o j N / E j <> 0).
    { intros Q. apply Ho. replace (o j N) with (o j N / E j * E j) by (field; exact He). rewrite Q. ring. }
    destruct (Req_EM_T (o j N / E j) 0) as [Q'|_]; [contradiction|]. cbn [multiply]. f_equal. field. auto.
  - intros He Ho. rewrite (P He), Ho. cbn [option_map divide]. unfold fdiv.
    destruct (Req_EM_T (0 / E j) 0) as [_|Q]; [reflexivity|]. exfalso. apply Q. field. exact He.
Qed.
Lemma chan_row_ok : forall j k, (j < n)%nat -> (k <= N)%nat ->
  c_time (chan_row j k) = lab j /\ c_channel (chan_row j k) = nth k all "" /\
  c_outcome (chan_row j k) = Some (o j k) /\ (E j <> 0 -> c_pct (chan_row j k) = Some (o j k / E j)).
Proof.
  intros j k Hj Hk. unfold chan_row. cbn [c_time c_channel c_pct c_outcome].
  split; [reflexivity|]. split; [reflexivity|]. split; [exact (Hinc j k Hj Hk)|].
  intros He. rewrite (Hpct j k Hj Hk He). cbn [option_map]. f_equal. field. exact He.
Qed.

(** The position of a name. *)
Definition where_ (a : string) : nat := match index_of a all with Some k => k | None => O end.
Lemma where_nth : forall k, (k <= N)%nat -> where_ (nth k all "") = k.
Proof.
  intros k Hk. unfold where_. rewrite (index_of_nth all k (nth k all "") Hnd); [reflexivity|].
  apply nth_error_nth'. rewrite all_length. lia.
Qed.

(** The rows of the table. *)
Lemma table_rows : forall selected base rows,
  Forall (fun a => In a all) (shown_names selected) ->
  (exists is_, Permutation is_ (seq 0 n) /\ base = map base_row is_) ->
  channel_rows s selected = Ok rows ->
  StronglySorted precedes (sort_rows at' (base ++ rows)) /\
  Permutation (sort_rows at' (base ++ rows))
    (flat_map (fun j => base_row j :: map (fun a => chan_row j (where_ a)) (shown_names selected)) (seq 0 n)).
Proof.
  intros selected base rows H (is_ & Pi & ->) Hr.
  destruct (channel_rows_ok selected H) as (ks & Hk & Nk & Er). assert (rows = flat_map (fun j => map (chan_row j) ks) (seq 0 n)) by congruence.
  subst rows. clear Hr.
  assert (Same : forall j, map (chan_row j) ks = map (fun a => chan_row j (where_ a)) (shown_names selected)).
  { intros j. rewrite <- Nk, map_map. apply map_ext_in. intros k Ik. rewrite Forall_forall in Hk. rewrite (where_nth k (Hk k Ik)). reflexivity. }
  destruct (sort_rows_ok at' (map base_row is_ ++ flat_map (fun j => map (chan_row j) ks) (seq 0 n))) as [S P].
  { apply Forall_forall. intros r Ir. assert (T : exists j, c_time r = lab j).
    { apply in_app_or in Ir. destruct Ir as [Ir|Ir].
      - apply in_map_iff in Ir. destruct Ir as (j & <- & _). exists j. reflexivity.
      - apply in_flat_map in Ir. destruct Ir as (j & _ & Ir). apply in_map_iff in Ir. destruct Ir as (k & <- & _).
        exists j. reflexivity. }
    destruct T as (j & ->). unfold lab. destruct at'; split; congruence. }
  split; [exact S|]. transitivity (map base_row is_ ++ flat_map (fun j => map (chan_row j) ks) (seq 0 n)); [apply Permutation_sym; exact P|].
  transitivity (map base_row (seq 0 n) ++ flat_map (fun j => map (chan_row j) ks) (seq 0 n)).
  - apply Permutation_app_tail. apply Permutation_map. exact Pi.
  - etransitivity; [apply perm_rows|]. rewrite (flat_map_ext _ (fun j => base_row j :: map (fun a => chan_row j (where_ a)) (shown_names selected))); [apply Permutation_refl|].
    intros j. rewrite Same. reflexivity.
Qed.
End One.
