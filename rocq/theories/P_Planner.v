(** Proofs of property C98. *)
From Coq Require Import Reals ZArith String List Bool Lia Lra Sorted Permutation.
From Verif Require Import Lib_Sum Lib_Sort M_Base M_Time S_Time P_Time P_Period M_Hyper M_InputData S_InputData P_InputData P_DistSerde
  M_Marketing S_Marketing P_Marketing P_Marketing2 P_Marketing3 P_Marketing4 M_Planner S_Planner.
From Verif Require P_MediaSummary.
Import ListNotations.
Local Open Scope string_scope.
Local Open Scope nat_scope.
Local Open Scope list_scope.

(** *** Dicts *)
Lemma get_put_same : forall d c x, get (put d c x) c = Some x.
Proof.
  induction d as [|[n y] d IH]; intros c x; cbn [put get]; [rewrite String.eqb_refl; reflexivity|].
  destruct (String.eqb n c) eqn:E; cbn [get]; rewrite E; auto.
Qed.
Lemma get_put_other : forall d c x b, c <> b -> get (put d c x) b = get d b.
Proof.
  induction d as [|[n y] d IH]; intros c x b H; cbn [put get].
  - apply String.eqb_neq in H. rewrite H. reflexivity.
  - destruct (String.eqb n c) eqn:E; cbn [get].
    + apply String.eqb_eq in E. subst n. apply String.eqb_neq in H. rewrite H. reflexivity.
    + destruct (String.eqb n b); auto.
Qed.
Lemma put_keys : forall d c x, In c (map fst d) -> map fst (put d c x) = map fst d.
Proof.
  induction d as [|[n y] d IH]; intros c x H; [destruct H|]. cbn [put]. destruct (String.eqb n c) eqn:E; [reflexivity|].
  cbn [map fst]. f_equal. apply IH. destruct H as [H|H]; [|exact H]. cbn in H. subst. rewrite String.eqb_refl in E. discriminate.
Qed.
Lemma get_in : forall d c, In c (map fst d) <-> exists x, get d c = Some x.
Proof.
  induction d as [|[n y] d IH]; intros c; cbn [map fst get]; [split; [intros []|intros [x H]; discriminate]|].
  destruct (String.eqb n c) eqn:E.
  - apply String.eqb_eq in E. subst. split; [eauto|left; reflexivity].
  - apply String.eqb_neq in E. rewrite <- IH. split; [intros [H|H]; [contradiction|exact H]|right; assumption].
Qed.
Lemma get_init : forall (l : list string) c, get (map (fun c => (c, Some 0%R)) l) c = if existsb (String.eqb c) l then Some (Some 0%R) else None.
Proof.
  induction l as [|n l IH]; intros c; [reflexivity|]. cbn [map get existsb]. rewrite (String.eqb_sym c n). destruct (String.eqb n c); [reflexivity|]. cbn [orb]. apply IH.
Qed.

(** *** Additions *)
Definition values (c : string) (l : list (string * option R)) : list (option R) := map snd (filter (fun v => String.eqb (fst v) c) l).
Lemma values_app : forall c a b, values c (a ++ b) = values c a ++ values c b.
Proof. intros c a b. unfold values. rewrite filter_app, map_app. reflexivity. Qed.
Lemma values_flat : forall A c (f : A -> list (string * option R)) l, values c (flat_map f l) = flat_map (fun x => values c (f x)) l.
Proof. intros A c f l. induction l as [|x l IH]; [reflexivity|]. cbn [flat_map]. rewrite values_app, IH. reflexivity. Qed.

Lemma additions : forall l d, (forall v, In v l -> In (fst v) (map fst d)) ->
  exists d', fold_left add_spend l (Ok d) = Ok d' /\ map fst d' = map fst d /\
  forall c, get d' c = option_map (fun x => fold_left plus (values c l) x) (get d c).
Proof.
  induction l as [|v l IH]; intros d H.
  - exists d. split; [reflexivity|]. split; [reflexivity|]. intros c. cbn. destruct (get d c); reflexivity.
  - cbn [fold_left]. unfold add_spend at 2. cbn [rbind].
    destruct (proj1 (get_in d (fst v)) (H v (or_introl eq_refl))) as [x E]. rewrite E.
    assert (K : map fst (put d (fst v) (plus x (snd v))) = map fst d) by (apply put_keys, H; left; reflexivity).
    destruct (IH (put d (fst v) (plus x (snd v)))) as (d' & F & K' & G); [intros w Hw; rewrite K; apply H; right; exact Hw|].
    exists d'. split; [exact F|]. split; [congruence|]. intros c. rewrite G. unfold values. cbn [filter].
    destruct (String.eqb (fst v) c) eqn:Q.
    + apply String.eqb_eq in Q. subst c. rewrite get_put_same, E. reflexivity.
    + apply String.eqb_neq in Q. rewrite get_put_other by exact Q. reflexivity.
Qed.
Definition entries (variables : point -> list (string * option R)) (i : interval) (points : list point) : list (string * option R) :=
  flat_map (fun p => if contains i (dp_start p) then variables p else []) points.
Lemma spends_fold : forall variables i points d,
  fold_left (fun d p => if contains i (dp_start p) then fold_left add_spend (variables p) d else d) points d = fold_left add_spend (entries variables i points) d.
Proof.
  intros variables i points. induction points as [|p points IH]; intros d; [reflexivity|].
  cbn [fold_left]. unfold entries. cbn [flat_map]. rewrite fold_left_app, IH. unfold entries. destruct (contains i (dp_start p)); reflexivity.
Qed.
Lemma seen_in : forall l x, In x (first_seen String.eqb l) <-> In x l.
Proof.
  intros l x. unfold first_seen.
  assert (G : forall l acc, In x (fold_left (add_new String.eqb) l acc) <-> In x acc \/ In x l).
  { clear l. induction l as [|y l IH]; intros acc; cbn [fold_left]; [cbn; tauto|]. rewrite IH. unfold add_new.
    destruct (existsb (String.eqb y) acc) eqn:E; [apply existsb_str in E|rewrite in_app_iff]; cbn [List.In]; intuition (subst; auto). }
  rewrite G. cbn. tauto.
Qed.
Lemma seen_nodup : forall l, NoDup (first_seen String.eqb l).
Proof.
  intros l. unfold first_seen.
  assert (G : forall l acc, NoDup acc -> NoDup (fold_left (add_new String.eqb) l acc)).
  { clear l. induction l as [|y l IH]; intros acc H; cbn [fold_left]; [exact H|]. apply IH. unfold add_new.
    destruct (existsb (String.eqb y) acc) eqn:E; [exact H|]. apply (Permutation_NoDup (Permutation_cons_append acc y)). constructor; [|exact H].
    intros Hy. apply existsb_str in Hy. congruence. }
  apply G. constructor.
Qed.
Lemma sorted_in : forall l x, In x (sorted_names l) <-> In x l.
Proof. intros l x. unfold sorted_names. rewrite isort_in. apply seen_in. Qed.
Lemma sorted_nodup : forall l, NoDup (sorted_names l).
Proof. intros l. apply isort_nodup, seen_nodup. Qed.
Lemma name_leb_total : forall a b, name_leb a b = true \/ name_leb b a = true.
Proof. intros a b. unfold name_leb. rewrite (String.compare_antisym a b). destruct (String.compare b a); cbn; auto. Qed.
Lemma name_leb_trans : forall a b c, name_leb a b = true -> name_leb b c = true -> name_leb a c = true.
Proof.
  intros a b c. unfold name_leb. destruct (String.compare a b) eqn:E1; destruct (String.compare b c) eqn:E2; try congruence; intros _ _.
  - apply String.compare_eq_iff in E1. subst. rewrite E2. reflexivity.
  - apply String.compare_eq_iff in E1. subst. rewrite E2. reflexivity.
  - apply String.compare_eq_iff in E2. subst. rewrite E1. reflexivity.
  - rewrite (P_MediaSummary.compare_trans _ _ _ E1 E2). reflexivity.
Qed.
Lemma sorted_sorted : forall l, StronglySorted (fun a b => String.compare a b = Lt) (sorted_names l).
Proof.
  intros l. pose proof (sorted_nodup l) as N. pose proof (isort_sorted name_leb name_leb_total name_leb_trans (first_seen String.eqb l)) as S.
  fold (sorted_names l) in S. unfold le_sorted in S. induction S as [|a m S IH F]; [constructor|]. inversion N; subst. constructor; [apply IH; assumption|].
  rewrite Forall_forall in *. intros b Hb. pose proof (F b Hb) as L. unfold name_leb in L.
  destruct (String.compare a b) eqn:E; try congruence. apply String.compare_eq_iff in E. subst. contradiction.
Qed.

Lemma spends_ok : forall variables i points channels, NoDup channels ->
  (forall p v, In p points -> In v (variables p) -> In (fst v) channels) ->
  exists D, spends_by channels variables i points = Ok D /\ map fst D = channels /\
  forall c, In c channels -> get D c = Some (fold_left plus (values c (entries variables i points)) (Some 0%R)).
Proof.
  intros variables i points channels N H. unfold spends_by. rewrite spends_fold.
  assert (K : map fst (map (fun c => (c, Some 0%R)) channels) = channels) by (rewrite map_map; cbn; apply map_id).
  destruct (additions (entries variables i points) (map (fun c => (c, Some 0%R)) channels)) as (D & F & K' & G).
  { intros v Hv. rewrite K. unfold entries in Hv. apply in_flat_map in Hv. destruct Hv as (p & Hp & Hv).
    destruct (contains i (dp_start p)); [exact (H p v Hp Hv)|destruct Hv]. }
  exists D. split; [exact F|]. split; [congruence|]. intros c Hc. rewrite G, get_init, (proj2 (existsb_str c channels) Hc). reflexivity.
Qed.
Lemma media_spends_ok : forall m i, exists D, media_channel_spends m i = Ok D /\ map fst D = media_channels m /\
  forall c, In c (media_channels m) -> get D c = Some (fold_left plus (values c (entries media_entries i (mk_points m))) (Some 0%R)).
Proof.
  intros m i. apply spends_ok; [apply sorted_nodup|]. intros p v Hp Hv. apply sorted_in, in_flat_map. exists p. split; [exact Hp|].
  apply in_map_iff in Hv. destruct Hv as (w & <- & Hw). exact (in_map mv_name _ _ Hw).
Qed.
Lemma rf_spends_ok : forall m i, exists D, rf_channel_spends m i = Ok D /\ map fst D = rf_channels m /\
  forall c, In c (rf_channels m) -> get D c = Some (fold_left plus (values c (entries rf_entries i (mk_points m))) (Some 0%R)).
Proof.
  intros m i. apply spends_ok; [apply sorted_nodup|]. intros p v Hp Hv. apply sorted_in, in_flat_map. exists p. split; [exact Hp|].
  apply in_map_iff in Hv. destruct Hv as (w & <- & Hw). exact (in_map rv_name _ _ Hw).
Qed.

Lemma updates : forall l d c, get (fold_left (fun d e => put d (fst e) (snd e)) l d) c =
  match get (rev l) c with Some x => Some x | None => get d c end.
Proof.
  intros l. induction l as [|v l IH]; intros d c; [reflexivity|]. cbn [fold_left rev]. rewrite IH.
  assert (A : forall a b : dict, get (a ++ b) c = match get a c with Some x => Some x | None => get b c end).
  { induction a as [|[n y] a IHa]; intros b; [reflexivity|]. cbn [app get]. destruct (String.eqb n c); auto. }
  rewrite A. destruct (get (rev l) c); [reflexivity|]. destruct v as [n x]. cbn [get fst snd].
  destruct (String.eqb n c) eqn:E; [apply String.eqb_eq in E; subst; apply get_put_same|apply String.eqb_neq in E; apply get_put_other; exact E].
Qed.
Lemma get_app : forall c (a b : dict), get (a ++ b) c = match get a c with Some x => Some x | None => get b c end.
Proof. intros c. induction a as [|[n y] a IH]; intros b; [reflexivity|]. cbn [app get]. destruct (String.eqb n c); auto. Qed.
Lemma get_rev : forall (d : dict) c, NoDup (map fst d) -> get (rev d) c = get d c.
Proof.
  induction d as [|[n x] d IH]; intros c N; [reflexivity|]. cbn [map fst] in N. inversion N as [|? ? N1 N2]; subst. cbn [rev]. rewrite get_app, (IH c N2). cbn [get].
  destruct (String.eqb n c) eqn:E.
  - apply String.eqb_eq in E. subst. destruct (get d c) eqn:Q; [|reflexivity]. exfalso. apply N1, get_in. eauto.
  - destruct (get d c); reflexivity.
Qed.
(** The combined dict. *)
Lemma all_spends_ok : forall m i, exists D M R, all_channel_spends m i = Ok D /\ media_channel_spends m i = Ok M /\ rf_channel_spends m i = Ok R /\
  forall c, get D c = match get M c with Some x => Some x | None => get R c end.
Proof.
  intros m i. destruct (media_spends_ok m i) as (M & EM & KM & GM). destruct (rf_spends_ok m i) as (R & ER & KR & GR).
  unfold all_channel_spends. rewrite ER, EM. cbn [rbind]. eexists. exists M, R. split; [reflexivity|]. split; [reflexivity|]. split; [reflexivity|].
  intros c. rewrite updates, get_rev by (rewrite KM; apply sorted_nodup). reflexivity.
Qed.

(** *** Sums *)
Lemma plus_sum : forall l a, (forall x, In x l -> x <> None) -> fold_left plus l (Some a) = Some (a + lsum (map number l))%R.
Proof.
  induction l as [|x l IH]; intros a H; [cbn; f_equal; lra|]. cbn [fold_left map lsum]. destruct x as [x|]; [|exfalso; apply (H None); [left|]; reflexivity].
  cbn [plus number]. rewrite IH by (intros y Hy; apply H; right; exact Hy). f_equal. lra.
Qed.
Lemma lsum_flat : forall A (f : A -> list (option R)) l, lsum (map number (flat_map f l)) = lsum (map (fun x => lsum (map number (f x))) l).
Proof. intros A f l. induction l as [|x l IH]; [reflexivity|]. cbn [flat_map map lsum]. rewrite map_app, lsum_app, IH. reflexivity. Qed.
Lemma lsum_same : forall A (f g : A -> R) l, (forall x, In x l -> f x = g x) -> lsum (map f l) = lsum (map g l).
Proof. intros A f g l H. f_equal. apply map_ext_in. exact H. Qed.
Lemma lsum_zero : forall A (f : A -> R) l, (forall x, In x l -> f x = 0%R) -> lsum (map f l) = 0%R.
Proof.
  intros A f l. induction l as [|x l IH]; intros H; [reflexivity|]. cbn [map lsum]. rewrite (H x) by (left; reflexivity).
  rewrite IH by (intros y Hy; apply H; right; exact Hy). lra.
Qed.
Lemma lsum_filter : forall A (t : A -> bool) (f : A -> R) l, lsum (map (fun x => if t x then f x else 0%R) l) = lsum (map f (filter t l)).
Proof. intros A t f l. induction l as [|x l IH]; [reflexivity|]. cbn [map filter lsum]. destruct (t x); cbn [map lsum]; rewrite IH; lra. Qed.
Lemma map_positions : forall A B (f : nat -> B) (g : A -> B) l, (forall i x, nth_error l i = Some x -> f i = g x) -> map f (seq 0 (length l)) = map g l.
Proof.
  intros A B f g l H.
  assert (G : forall l s, (forall i x, nth_error l i = Some x -> f (s + i) = g x) -> map f (seq s (length l)) = map g l).
  { clear l H. induction l as [|x l IH]; intros s H; [reflexivity|]. cbn [length seq map]. f_equal.
    - rewrite <- (H 0 x eq_refl). f_equal. lia.
    - apply IH. intros i y Hy. rewrite <- (H (S i) y Hy). f_equal. lia. }
  apply G. exact H.
Qed.

(** *** Both kinds of channels: what the data points of saved data say *)
Definition named (f : string -> option R) (l : list string) : list (string * option R) := map (fun n => (n, f n)) l.
Lemma values_named_out : forall f l c, ~ In c l -> values c (named f l) = [].
Proof.
  intros f l c. induction l as [|n l IH]; intros H; [reflexivity|]. unfold values, named. cbn [map filter fst].
  destruct (String.eqb n c) eqn:E; [apply String.eqb_eq in E; subst; exfalso; apply H; left; reflexivity|]. apply IH. intros Q. apply H. right. exact Q.
Qed.
Lemma values_named_in : forall f l c, NoDup l -> In c l -> values c (named f l) = [f c].
Proof.
  intros f l c. induction l as [|n l IH]; intros N H; [destruct H|]. inversion N; subst. unfold values, named. cbn [map filter fst].
  destruct (String.eqb n c) eqn:E.
  - apply String.eqb_eq in E. subst. cbn [map snd]. f_equal. apply values_named_out. assumption.
  - apply IH; [assumption|]. destruct H as [->|H]; [rewrite String.eqb_refl in E; discriminate|exact H].
Qed.
Definition labelled (n : list string) (a : nat -> option R) : list (string * option R) := map (fun kc => (snd kc, a (fst kc))) (combine (seq 0 (length n)) n).
Lemma labelled_named : forall n a, NoDup n -> labelled n a = named (fun c => match position String.eqb c n with Some k => a k | None => None end) n.
Proof.
  intros n a N. unfold labelled, named. apply combine_nth. intros k c Hk. cbn [fst snd]. rewrite (position_nth String.eqb str_spec n k c N Hk). reflexivity.
Qed.

Section Kind.
Variables (G : list string) (mt T : list date) (first : date) (inside : date -> bool) (paid organic : list string) (sp : option spend).
Hypothesis distinct : NoDup (paid ++ organic).
Hypothesis names : forall s, sp = Some s -> spend_names s = paid.
Hypothesis labels : forall p, sp = Some (SpendPanel p) -> p_geos p = G /\ p_times p = T.
Hypothesis G_distinct : NoDup G.
Hypothesis T_distinct : NoDup T.
Hypothesis mt_distinct : NoDup mt.
Hypothesis T_order : not_decreasing T.
Hypothesis mt_order : not_decreasing mt.
Hypothesis T_mt : incl T mt.
Hypothesis full : forall s x, sp = Some s -> in_spend s x -> x <> None.

Definition kind_entries : list (string * option R) :=
  flat_map (fun g => flat_map (fun t => if inside t then named (fun n => or_zero (sval (granular sp) g t n)) paid ++ named (fun _ => Some 0%R) organic else []) mt) G ++
  match sp with Some (SpendTotal n a) => if inside first then labelled n a else [] | _ => [] end.

Lemma organic_zero : forall c, In c organic -> fold_left plus (values c kind_entries) (Some 0%R) = Some 0%R.
Proof using distinct names.
  clear - distinct names.
  intros c Hc. apply nodup_app in distinct. destruct distinct as (Np & No & D).
  assert (Hp : ~ In c paid) by (intros Q; exact (D c Q Hc)).
  assert (V : forall x, In x (values c kind_entries) -> x = Some 0%R).
  { intros x Hx. unfold kind_entries in Hx. rewrite values_app in Hx. apply in_app_or in Hx. destruct Hx as [Hx|Hx].
    - rewrite values_flat in Hx. apply in_flat_map in Hx. destruct Hx as (g & _ & Hx). rewrite values_flat in Hx. apply in_flat_map in Hx.
      destruct Hx as (t & _ & Hx). destruct (inside t); [|destruct Hx]. rewrite values_app in Hx. rewrite (values_named_out _ paid c Hp) in Hx.
      rewrite (values_named_in _ organic c No Hc) in Hx. destruct Hx as [Hx|[]]. congruence.
    - destruct sp as [[p|n a]|] eqn:E; try destruct Hx. destruct (inside first); [|destruct Hx]. pose proof (names _ eq_refl) as En. cbn in En. subst n.
      rewrite (labelled_named _ _ Np), (values_named_out _ _ c Hp) in Hx. destruct Hx. }
  rewrite plus_sum by (intros x Hx; rewrite (V x Hx); discriminate). f_equal. rewrite lsum_zero; [lra|]. intros x Hx. rewrite (V x Hx). reflexivity.
Qed.

Lemma position_some : forall k c, nth_error paid k = Some c -> position String.eqb c paid = Some k.
Proof. intros k c H. apply nodup_app in distinct. apply (position_nth String.eqb str_spec); tauto. Qed.

Lemma panel_value : forall p i j k g t c, sp = Some (SpendPanel p) -> nth_error G i = Some g -> nth_error T j = Some t -> nth_error paid k = Some c ->
  pval p g t c = p_at p i j k.
Proof.
  intros p i j k g t c E Hg Ht Hk. destruct (labels p E) as [Eg Et]. pose proof (names _ E) as En. cbn in En. apply nodup_app in distinct.
  apply pval_at; rewrite ?Eg, ?Et, ?En; tauto.
Qed.
Lemma panel_full : forall p g t c, sp = Some (SpendPanel p) -> In g G -> In t T -> In c paid -> pval p g t c <> None.
Proof.
  intros p g t c E Hg Ht Hc. destruct (In_nth_error _ _ Hg) as [i Hi]. destruct (In_nth_error _ _ Ht) as [j Hj]. destruct (In_nth_error _ _ Hc) as [k Hk].
  rewrite (panel_value p i j k g t c E Hi Hj Hk). apply (full _ _ E). destruct (labels p E) as [Eg Et]. pose proof (names _ E) as En. cbn in En.
  exists i, j, k. rewrite Eg, Et, En. repeat split; try (apply nth_error_Some; congruence).
Qed.

Lemma paid_spent : forall k c, nth_error paid k = Some c ->
  fold_left plus (values c kind_entries) (Some 0%R) = Some (match sp with Some s => spent s first inside k | None => 0%R end).
Proof.
  intros k c Hk. assert (Hc : In c paid) by (eapply nth_error_In; exact Hk).
  pose proof (nodup_app _ _ _ distinct) as (Np & No & D). assert (Ho : ~ In c organic) by (apply D; exact Hc).
  assert (V : values c kind_entries =
    flat_map (fun g => flat_map (fun t => if inside t then [or_zero (sval (granular sp) g t c)] else []) mt) G ++
    match sp with Some (SpendTotal n a) => if inside first then [a k] else [] | _ => [] end).
  { unfold kind_entries. rewrite values_app. f_equal.
    - rewrite values_flat. apply flat_map_ext. intros g. rewrite values_flat. apply flat_map_ext. intros t. destruct (inside t); [|reflexivity].
      rewrite values_app, (values_named_in _ _ _ Np Hc), (values_named_out _ _ _ Ho). reflexivity.
    - destruct sp as [[p|n a]|] eqn:E; try reflexivity. destruct (inside first); [|reflexivity]. pose proof (names _ eq_refl) as En. cbn in En. subst n.
      rewrite (labelled_named _ _ Np), (values_named_in _ _ _ Np Hc), (position_some k c Hk). reflexivity. }
  pose proof panel_value as PV. pose proof panel_full as PF. rewrite V. clear V. rewrite plus_sum.
  - f_equal. rewrite Rplus_0_l, map_app, lsum_app, lsum_flat.
    rewrite (lsum_same _ _ (fun g => lsum (map (fun t => if inside t then number (or_zero (sval (granular sp) g t c)) else 0%R) mt))).
    2: { intros g _. rewrite lsum_flat. apply lsum_same. intros t _. destruct (inside t); cbn; lra. }
    destruct sp as [[p|n a]|] eqn:E; cbn [granular sval].
    + cbn [map lsum]. rewrite Rplus_0_r. destruct (labels p eq_refl) as [Eg Et]. unfold spent. rewrite Eg, Et. f_equal. symmetry. apply map_positions.
      intros i g Hi.
      rewrite (lsum_same _ _ (fun t => if date_in t T then (if inside t then number (pval p g t c) else 0%R) else 0%R)).
      2: { intros t _. destruct (date_in t T), (inside t); cbn [or_zero number]; reflexivity. }
      rewrite (lsum_filter _ (fun t => date_in t T) (fun t => if inside t then number (pval p g t c) else 0%R) mt), (filter_dates mt T mt_order mt_distinct T_order T_distinct T_mt). f_equal. apply combine_nth. intros j t Hj. cbn [fst snd].
      rewrite (PV p i j k g t c eq_refl Hi Hj Hk). reflexivity.
    + unfold spent. rewrite (lsum_zero _ _ G).
      * destruct (inside first); cbn [map lsum]; lra.
      * intros g _. apply lsum_zero. intros t _. destruct (inside t); reflexivity.
    + cbn [map lsum]. rewrite (lsum_zero _ _ G); [lra|]. intros g _. apply lsum_zero. intros t _. destruct (inside t); reflexivity.
  - intros x Hx. apply in_app_or in Hx. destruct Hx as [Hx|Hx].
    + apply in_flat_map in Hx. destruct Hx as (g & Hg & Hx). apply in_flat_map in Hx. destruct Hx as (t & Ht & Hx).
      destruct (inside t); [|destruct Hx]. destruct Hx as [<-|[]]. destruct sp as [[p|n a]|] eqn:E; cbn [granular sval or_zero]; try discriminate.
      destruct (date_in t (p_times p)) eqn:Q; [|discriminate]. apply date_in_iff in Q. destruct (labels p eq_refl) as [_ Et]. rewrite Et in Q. cbn [or_zero].
      apply PF; auto.
    + destruct sp as [[p|n a]|] eqn:E; try destruct Hx. destruct (inside first); [|destruct Hx]. destruct Hx as [<-|[]]. apply (full _ (a k) eq_refl).
      pose proof (names _ eq_refl) as En. cbn in En. subst n. exists k. split; [apply nth_error_Some; congruence|reflexivity].
Qed.
End Kind.
