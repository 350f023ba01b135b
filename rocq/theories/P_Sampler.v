(** Proofs about the posterior sampler. *)
From Coq Require Import Reals ZArith String List Bool Arith Lia Lra.
From Verif Require Import Lib_Sum Lib_Dict M_Base M_Transformers M_Sampler S_Sampler.
Import ListNotations.

(** Geo effects. *)
Lemma tau_length : forall l i, length (compute_tau_g l i) = S (length l).
Proof.
  intros l i. unfold compute_tau_g. rewrite !app_length. simpl.
  rewrite <- (firstn_skipn i l) at 3. rewrite app_length. lia.
Qed.

Lemma tau_at_baseline : forall l i, (i <= length l)%nat -> nth_error (compute_tau_g l i) i = Some 0%R.
Proof.
  intros l i H. unfold compute_tau_g. rewrite nth_error_app2; rewrite firstn_length_le by auto; auto.
  rewrite Nat.sub_diag. reflexivity.
Qed.

Lemma nth_error_firstn_lt : forall A (l : list A) n i, (i < n)%nat -> nth_error (firstn n l) i = nth_error l i.
Proof.
  intros A l n. revert l. induction n; intros l i H; [lia|].
  destruct l; [destruct i; auto|]. destruct i; simpl; auto. apply IHn. lia.
Qed.

Lemma nth_error_skipn : forall A (l : list A) n i, nth_error (skipn n l) i = nth_error l (n + i).
Proof.
  intros A l n. revert l. induction n; intros l i; simpl; auto.
  destruct l; simpl; auto. destruct i; auto.
Qed.

Lemma tau_before : forall l i j, (i <= length l)%nat -> (j < i)%nat ->
  nth_error (compute_tau_g l i) j = nth_error l j.
Proof.
  intros l i j H Hj. unfold compute_tau_g. rewrite nth_error_app1 by (rewrite firstn_length_le by auto; auto).
  apply nth_error_firstn_lt. auto.
Qed.

Lemma tau_after : forall l i j, (i <= j)%nat -> (j < length l)%nat ->
  nth_error (compute_tau_g l i) (S j) = nth_error l j.
Proof.
  intros l i j H Hj. unfold compute_tau_g.
  rewrite nth_error_app2; rewrite firstn_length_le by lia; [|lia].
  replace (S j - i)%nat with (S (j - i)) by lia. simpl. rewrite nth_error_skipn. f_equal. lia.
Qed.

Lemma first_index_Some : forall name geo i, first_index name geo = Some i ->
  nth_error geo i = Some name /\ forall j, (j < i)%nat -> nth_error geo j <> Some name.
Proof.
  induction geo as [|g r IH]; simpl; intros i H; [discriminate|].
  destruct (String.eqb g name) eqn:E.
  - inversion H; subst. apply String.eqb_eq in E. subst. split; auto. intros j Hj. lia.
  - destruct (first_index name r) as [k|]; [|discriminate]. inversion H; subst.
    destruct (IH k eq_refl) as [A B]. split; auto.
    intros [|j] Hj; simpl. { apply String.eqb_neq in E. congruence. } apply B. lia.
Qed.

Lemma first_index_None : forall name geo, first_index name geo = None <-> ~ In name geo.
Proof.
  induction geo as [|g r IH]; simpl; [tauto|].
  destruct (String.eqb g name) eqn:E.
  - apply String.eqb_eq in E. split; [discriminate|]. intros H. exfalso. auto.
  - apply String.eqb_neq in E. destruct (first_index name r); simpl.
    + split; [discriminate|]. intros H. exfalso. apply H. right.
      destruct (in_dec string_dec name r); auto. exfalso. apply IH in n0. discriminate.
    + split; auto. intros _ [?|?]; [congruence|]. apply (proj1 IH); auto.
Qed.

Lemma argmax_from_spec : forall l best bi i pre,
  length pre = i -> nth_error pre bi = Some best ->
  (forall j x, nth_error pre j = Some x -> (x <= best)%R /\ (x = best -> (bi <= j)%nat)) ->
  exists v, nth_error (pre ++ l) (argmax_from best bi i l) = Some v /\
    (forall j x, nth_error (pre ++ l) j = Some x -> (x <= v)%R /\ (x = v -> (argmax_from best bi i l <= j)%nat)).
Proof.
  induction l as [|a l IH]; intros best bi i pre Hl Hb Hall; simpl.
  - rewrite app_nil_r. exists best. auto.
  - assert (Hbi : (bi < length pre)%nat) by (apply nth_error_Some; congruence).
    replace (pre ++ a :: l) with ((pre ++ [a]) ++ l) by (rewrite <- app_assoc; reflexivity).
    destruct (Rlt_dec best a) as [Hlt|Hge].
    + apply IH.
      * rewrite app_length; simpl; lia.
      * rewrite nth_error_app2 by lia. rewrite Hl, Nat.sub_diag. reflexivity.
      * intros j x Hj. destruct (Nat.lt_ge_cases j (length pre)) as [Hj'|Hj'].
        -- rewrite nth_error_app1 in Hj by auto. destruct (Hall j x Hj) as [A _]. split; [lra|]. intros ->. lra.
        -- rewrite nth_error_app2 in Hj by auto. destruct (j - length pre)%nat as [|[|]] eqn:E; simpl in Hj; try discriminate.
           inversion Hj; subst. split; [lra|]. intros _. lia.
    + apply IH.
      * rewrite app_length; simpl; lia.
      * rewrite nth_error_app1 by auto. auto.
      * intros j x Hj. destruct (Nat.lt_ge_cases j (length pre)) as [Hj'|Hj'].
        -- rewrite nth_error_app1 in Hj by auto. auto.
        -- rewrite nth_error_app2 in Hj by auto. destruct (j - length pre)%nat as [|[|]] eqn:E; simpl in Hj; try discriminate.
           inversion Hj; subst. split; [lra|]. intros _. lia.
Qed.

Lemma argmax_spec : forall l, l <> [] ->
  exists v, nth_error l (argmax l) = Some v /\
    (forall j x, nth_error l j = Some x -> (x <= v)%R /\ (x = v -> (argmax l <= j)%nat)).
Proof.
  intros [|a l] H; [congruence|]. unfold argmax.
  apply (argmax_from_spec l a 0 1 [a]); auto.
  intros [|[|j]] x Hx; simpl in Hx; try discriminate. inversion Hx; subst. split; [lra|auto].
Qed.

(** Likelihood. *)
Lemma logpdf_equiv : forall x m s, (0 < s)%R -> normal_logpdf x m s = normal_log_density x m s.
Proof.
  intros x m s Hs. unfold normal_logpdf, normal_log_density.
  assert (H2 : (0 < 2 * PI)%R) by (pose proof PI_RGT_0; lra).
  assert (Hq : (0 < sqrt (2 * PI))%R) by (apply sqrt_lt_R0; auto).
  rewrite (ln_mult s (sqrt (2 * PI))) by auto.
  assert (E : (ln (2 * PI) = 2 * ln (sqrt (2 * PI)))%R).
  { rewrite <- (sqrt_sqrt (2 * PI)) at 1 by lra. rewrite ln_mult by auto. ring. }
  rewrite E. field. lra.
Qed.

Lemma heldout_logpdf : normal_logpdf 0 0 (1 / sqrt (2 * PI)) = 0%R.
Proof.
  assert (H2 : (0 < 2 * PI)%R) by (pose proof PI_RGT_0; lra).
  assert (Hq : (0 < sqrt (2 * PI))%R) by (apply sqrt_lt_R0; auto).
  rewrite logpdf_equiv by (apply Rdiv_lt_0_compat; lra).
  unfold normal_log_density. replace (1 / sqrt (2 * PI) * sqrt (2 * PI))%R with 1%R by (field; lra).
  rewrite ln_1. replace (0 - 0)%R with 0%R by ring. unfold Rdiv. rewrite pow_ne_zero by lia. ring.
Qed.

Lemma lsum_filter : forall A (p : A -> bool) (f : A -> R) l,
  lsum (map f (filter p l)) = lsum (map (fun a => if p a then f a else 0%R) l).
Proof.
  induction l as [|a l IH]; simpl; auto. destruct (p a); simpl; rewrite IH; ring.
Qed.

Lemma lsum_prod : forall G T (f : nat * nat -> R),
  lsum (map f (list_prod (seq 0 G) (seq 0 T))) = rsum G (fun g => rsum T (fun t => f (g, t))).
Proof.
  intros G T f.
  assert (H : forall l, lsum (map f (list_prod l (seq 0 T))) =
                        lsum (map (fun g => rsum T (fun t => f (g, t))) l)).
  { induction l as [|g l IH]; simpl; auto. rewrite map_app, lsum_app, IH. f_equal.
    rewrite map_map. rewrite lsum_seq. apply rsum_ext. intros. reflexivity. }
  rewrite H, lsum_seq. apply rsum_ext. reflexivity.
Qed.

Lemma geo_sigma_at : forall sigma g s, geo_sigma sigma g s -> sigma_gt sigma g = s.
Proof.
  intros sigma g s [[H1 H2]|[H1 H2]]; unfold sigma_gt.
  - rewrite H1. simpl. apply nth_error_nth. auto.
  - apply Nat.eqb_neq in H1. rewrite H1. apply nth_error_nth. auto.
Qed.

Lemma holdout_likelihood_lemma : forall G T h y_pred y sigma sd,
  (forall g, (g < G)%nat -> geo_sigma sigma g (sd g) /\ (0 < sd g)%R) ->
  likelihood_logprob G T (Some h) y_pred y sigma =
  lsum (map (fun c => normal_log_density (y (fst c) (snd c)) (y_pred (fst c) (snd c)) (sd (fst c)))
            (observed_cells G T h)).
Proof.
  intros G T h y_pred y sigma sd Hs. unfold observed_cells. rewrite lsum_filter, lsum_prod.
  unfold likelihood_logprob. apply rsum_ext. intros g Hg. apply rsum_ext. intros t Ht. simpl.
  destruct (Hs g Hg) as [A B].
  destruct (h g t); simpl.
  - apply heldout_logpdf.
  - rewrite (geo_sigma_at _ _ _ A). apply logpdf_equiv; auto.
Qed.

Lemma full_likelihood_lemma : forall G T y_pred y sigma sd,
  (forall g, (g < G)%nat -> geo_sigma sigma g (sd g) /\ (0 < sd g)%R) ->
  likelihood_logprob G T None y_pred y sigma =
  lsum (map (fun c => normal_log_density (y (fst c) (snd c)) (y_pred (fst c) (snd c)) (sd (fst c)))
            (list_prod (seq 0 G) (seq 0 T))).
Proof.
  intros G T y_pred y sigma sd Hs. rewrite lsum_prod.
  unfold likelihood_logprob. apply rsum_ext. intros g Hg. apply rsum_ext. intros t Ht. simpl.
  destruct (Hs g Hg) as [A B]. rewrite (geo_sigma_at _ _ _ A). apply logpdf_equiv; auto.
Qed.

(** Batched reconstruction. *)
Section Rec.
Context {V : Type}.
Implicit Types (flat : list (string * list V)).

Lemma flatten_all_ok : forall nc nd (latents : list (string * list (list V))),
  (forall k t, In (k, t) latents -> regular nc nd t) ->
  flatten_all (nc * nd) latents = Ok (map (fun e => (fst e, concat (snd e))) latents).
Proof.
  intros nc nd. induction latents as [|[k t] r IH]; intros H; auto.
  assert (Hr : regular nc nd t) by (apply (H k); left; auto).
  assert (Hlen : length (concat t) = (nc * nd)%nat).
  { destruct Hr as [<- Hrow]. clear -Hrow. induction t as [|c t IHt]; auto. simpl.
    rewrite app_length, (Hrow c) by (left; auto). rewrite IHt; auto. intros; apply Hrow; right; auto. }
  simpl. unfold reshape_check. rewrite Hlen, Nat.eqb_refl. simpl.
  rewrite IH by (intros; eapply H; right; eauto). reflexivity.
Qed.

Lemma concat_cell : forall nc nd (t : list (list V)) c d, regular nc nd t -> (d < nd)%nat ->
  nth_error (concat t) (c * nd + d) = cell t c d.
Proof.
  intros nc nd t c d [_ Hrow] Hd. revert c. induction t as [|r t IH]; intros c.
  - unfold cell. simpl. destruct (c * nd + d)%nat; destruct c; auto.
  - assert (Hr : length r = nd) by (apply Hrow; left; auto).
    destruct c as [|c].
    + simpl. rewrite nth_error_app1 by lia. reflexivity.
    + simpl. rewrite nth_error_app2 by lia.
      replace (nd + c * nd + d - length r)%nat with (c * nd + d)%nat by lia.
      rewrite IH by (intros; apply Hrow; right; auto). reflexivity.
Qed.

Lemma row_env_slice : forall start stop i flat, (i < stop - start)%nat ->
  row_env i (map (fun e => (fst e, slice start stop (snd e))) flat) = row_env (start + i) flat.
Proof.
  intros start stop i flat Hi. unfold row_env. rewrite map_map. apply map_ext. intros [k r]. simpl.
  f_equal. unfold slice. rewrite nth_error_firstn_lt by auto. apply nth_error_skipn.
Qed.

(** The full list of values of a deterministic node. *)
Definition full_rows (det : string -> list (string * option V) -> V) flat (total : nat) (node : string) : list V :=
  map (fun i => det node (row_env i flat)) (seq 0 total).

Definition buf_at det flat total (p : nat) node : list (option V) :=
  map Some (firstn p (full_rows det flat total node)) ++ repeat None (total - p).

Definition buf_of (total : nat) (o : option (list (option V))) : list (option V) :=
  match o with Some b => b | None => repeat None total end.

Definition is_det flat (node : string) : bool := negb (dmem node flat) && negb (String.eqb node "y").

Lemma repeat_app_skip : forall A (x : A) n k, skipn k (repeat x n) = repeat x (n - k).
Proof. intros A x n k. revert n. induction k; intros n; simpl; [rewrite Nat.sub_0_r; auto|]. destruct n; simpl; auto. Qed.

Lemma firstn_add : forall A (l : list A) a b, firstn (a + b) l = firstn a l ++ firstn b (skipn a l).
Proof.
  intros A l a. revert l. induction a; intros l b; simpl; auto. destruct l; simpl; [rewrite firstn_nil; auto|].
  rewrite IHa. reflexivity.
Qed.

Lemma full_rows_length : forall det flat total node, length (full_rows det flat total node) = total.
Proof. intros. unfold full_rows. rewrite map_length, seq_length. auto. Qed.

Lemma skipn_seq : forall k n s, skipn k (seq s n) = seq (s + k) (n - k).
Proof.
  induction k; intros n s; simpl; [rewrite Nat.add_0_r, Nat.sub_0_r; auto|].
  destruct n; simpl; auto. rewrite IHk. f_equal. lia.
Qed.

Lemma firstn_seq : forall k n s, (k <= n)%nat -> firstn k (seq s n) = seq s k.
Proof.
  induction k; intros n s H; simpl; auto. destruct n; [lia|]. simpl. rewrite IHk by lia. auto.
Qed.

Lemma batch_tensor : forall det flat total start stop node,
  (start <= stop)%nat -> (stop <= total)%nat ->
  map (fun i => det node (row_env i (map (fun e => (fst e, slice start stop (snd e))) flat))) (seq 0 (stop - start))
  = firstn (stop - start) (skipn start (full_rows det flat total node)).
Proof.
  intros det flat total start stop node H1 H2. unfold full_rows.
  rewrite skipn_map, firstn_map, skipn_seq, firstn_seq by lia.
  replace (seq (0 + start) (stop - start)) with (map (fun i => (start + i)%nat) (seq 0 (stop - start))).
  - rewrite map_map. apply map_ext_in. intros i Hi. apply in_seq in Hi. rewrite row_env_slice by lia. reflexivity.
  - simpl. clear. generalize (stop - start)%nat as n. intros n.
    assert (H : forall n a, map (fun i => (start + i)%nat) (seq a n) = seq (start + a) n).
    { induction n0; intros a; simpl; auto. rewrite IHn0. f_equal. f_equal. lia. }
    rewrite H, Nat.add_0_r. auto.
Qed.

Lemma new_buf : forall det flat total start stop node,
  (start <= stop)%nat -> (stop <= total)%nat ->
  let tensor := firstn (stop - start) (skipn start (full_rows det flat total node)) in
  let buf := buf_at det flat total start node in
  length tensor = (stop - start)%nat /\
  firstn start buf ++ map Some tensor ++ skipn (start + length tensor) buf = buf_at det flat total stop node.
Proof.
  intros det flat total start stop node H1 H2 tensor buf.
  assert (Hl : length tensor = (stop - start)%nat).
  { unfold tensor. rewrite firstn_length_le; auto. rewrite skipn_length, full_rows_length. lia. }
  split; auto. rewrite Hl. replace (start + (stop - start))%nat with stop by lia.
  unfold buf, buf_at.
  assert (Hf : length (map (@Some V) (firstn start (full_rows det flat total node))) = start).
  { rewrite map_length, firstn_length_le; auto. rewrite full_rows_length. lia. }
  rewrite firstn_app, Hf, Nat.sub_diag. simpl. rewrite app_nil_r.
  rewrite firstn_all2 by lia.
  rewrite skipn_app, Hf. rewrite (skipn_all2 (n := stop)) by lia. simpl.
  rewrite repeat_app_skip. replace (total - start - (stop - start))%nat with (total - stop)%nat by lia.
  rewrite app_assoc. f_equal.
  unfold tensor. rewrite <- map_app. f_equal.
  replace stop with (start + (stop - start))%nat at 2 by lia. symmetry. apply firstn_add.
Qed.

Lemma dget_slice : forall node start stop flat,
  dget node (map (fun e => (fst e, slice start stop (snd e))) flat) = option_map (slice start stop) (dget node flat).
Proof. intros. apply (dget_map _ _ (slice start stop)). Qed.

Lemma write_all_spec : forall det y flat total start stop nodes bufs,
  NoDup nodes -> (start <= stop)%nat -> (stop <= total)%nat ->
  (forall node, In node nodes -> is_det flat node = true ->
     buf_of total (dget node bufs) = buf_at det flat total start node) ->
  exists bufs',
    write_all total flat
      (sample_batch nodes det y (map (fun e => (fst e, slice start stop (snd e))) flat) (stop - start)) start bufs
      = Ok bufs' /\
    (forall node, In node nodes -> is_det flat node = true -> dget node bufs' = Some (buf_at det flat total stop node)) /\
    (forall node, ~ (In node nodes /\ is_det flat node = true) -> dget node bufs' = dget node bufs).
Proof.
  intros det y flat total start stop nodes. induction nodes as [|n r IH]; intros bufs HN H1 H2 Hb.
  - exists bufs. simpl. split; [auto|]. split; [intros ? []|auto].
  - inversion HN as [|? ? Hnr HNr]; subst. simpl.
    destruct (dmem n flat || String.eqb n "y") eqn:E.
    + destruct (IH bufs HNr H1 H2) as [bufs' [A [B C]]].
      { intros node Hin Hd. apply Hb; auto. right; auto. }
      exists bufs'. split; [exact A|].
      assert (Hnd : is_det flat n = false).
      { unfold is_det. apply orb_true_iff in E. destruct E as [->| ->]; simpl; auto. apply andb_false_r. }
      split.
      * intros node [<-|Hin] Hd; [congruence|auto].
      * intros node Hno. apply C. intros [Hin Hd]. apply Hno. split; simpl; auto.
    + apply orb_false_iff in E. destruct E as [Em Ey].
      assert (Hd : is_det flat n = true) by (unfold is_det; rewrite Em, Ey; auto).
      rewrite dget_slice. unfold dmem in Em. destruct (dget n flat); [discriminate|]. simpl. rewrite Ey.
      rewrite (batch_tensor det flat total start stop n H1 H2).
      unfold acc_write. destruct (new_buf det flat total start stop n H1 H2) as [Hl Hnew].
      rewrite Hl. replace (start + (stop - start))%nat with stop by lia.
      assert (Hle : Nat.leb stop total = true) by (apply Nat.leb_le; auto). rewrite Hle. simpl.
      change (match dget n bufs with Some b => b | None => repeat None total end) with (buf_of total (dget n bufs)).
      rewrite (Hb n (or_introl eq_refl) Hd).
      rewrite Hl in Hnew. replace (start + (stop - start))%nat with stop in Hnew by lia. rewrite Hnew.
      destruct (IH (dset n (buf_at det flat total stop n) bufs) HNr H1 H2) as [bufs' [A [B C]]].
      { intros node Hin Hdn. rewrite dget_dset_other by (intros ->; contradiction). apply Hb; auto. right; auto. }
      exists bufs'. split; [exact A|]. split.
      * intros node [<-|Hin] Hdn; [|auto].
        rewrite C by (intros [? _]; contradiction). apply dget_dset_same.
      * intros node Hno. rewrite C.
        -- apply dget_dset_other. intros ->. apply Hno. split; simpl; auto.
        -- intros [Hin Hdn]. apply Hno. split; simpl; auto.
Qed.

Lemma batch_loop_spec : forall det y flat total b nodes, NoDup nodes -> (1 <= b)%nat ->
  forall m k bufs, ((k + m - 1) * b < total \/ m = 0)%nat ->
  (forall node, In node nodes -> is_det flat node = true ->
     buf_of total (dget node bufs) = buf_at det flat total (Nat.min (k * b) total) node) ->
  exists bufs',
    batch_loop nodes det y flat total b (map (fun i => (i * b)%nat) (seq k m)) bufs = Ok bufs' /\
    (forall node, In node nodes -> is_det flat node = true ->
       buf_of total (dget node bufs') = buf_at det flat total (Nat.min ((k + m) * b) total) node /\
       (m <> 0%nat -> dget node bufs' <> None)) /\
    (forall node, ~ (In node nodes /\ is_det flat node = true) -> dget node bufs' = dget node bufs).
Proof.
  intros det y flat total b nodes HN Hb. induction m as [|m IH]; intros k bufs Hk Hinv.
  - exists bufs. simpl. split; auto. split; auto. intros node Hin Hd. split; [|congruence].
    rewrite Nat.add_0_r. auto.
  - destruct Hk as [Hk|Hk]; [|discriminate].
    assert (Hkb : (k * b < total)%nat) by nia.
    simpl. set (start := (k * b)%nat). set (stop := Nat.min (start + b) total).
    assert (H1 : (start <= stop)%nat) by (unfold stop, start; lia).
    assert (H2 : (stop <= total)%nat) by (unfold stop; lia).
    destruct (write_all_spec det y flat total start stop nodes bufs HN H1 H2) as [b1 [A [B C]]].
    { intros node Hin Hd. rewrite Hinv by auto. f_equal. unfold start. lia. }
    rewrite A. cbn [rbind].
    destruct (IH (S k) b1) as [bufs' [A' [B' C']]].
    { destruct m; [right; auto|left]. replace (S k + S m - 1)%nat with (k + S (S m) - 1)%nat by lia. auto. }
    { intros node Hin Hd. rewrite (B node Hin Hd). cbn [buf_of]. f_equal. unfold stop, start. lia. }
    exists bufs'. split; [exact A'|]. split.
    + intros node Hin Hd. destruct (B' node Hin Hd) as [P Q]. split.
      * rewrite P. f_equal. f_equal. nia.
      * intros _. destruct m; [|apply Q; lia].
        simpl in A'. inversion A'; subst bufs'. rewrite (B node Hin Hd). discriminate.
    + intros node Hno. rewrite C' by auto. apply C. auto.
Qed.

Lemma range_step_bounds : forall n b, (1 <= b)%nat ->
  let m := ((n + b - 1) / b)%nat in
  ((0 + m - 1) * b < n \/ m = 0)%nat /\ (n <= m * b)%nat /\ (m = 0%nat <-> n = 0%nat).
Proof.
  intros n b Hb m.
  pose proof (Nat.div_mod (n + b - 1) b ltac:(lia)) as Hd.
  pose proof (Nat.mod_upper_bound (n + b - 1) b ltac:(lia)) as Hm.
  fold m in Hd. set (r := ((n + b - 1) mod b)%nat) in *.
  assert (Hle : (n <= m * b)%nat) by nia.
  assert (Hz : m = 0%nat <-> n = 0%nat).
  { split; intros H.
    - rewrite H in Hle. lia.
    - destruct m as [|m']; auto. exfalso. nia. }
  split; [|split; auto].
  destruct m as [|m']; [right; auto|left]. simpl. rewrite Nat.sub_0_r. nia.
Qed.

Lemma unflatten_rows : forall det (latents : list (string * list (list V))) nc nd node,
  (forall k t, In (k, t) latents -> regular nc nd t) ->
  unflatten nc nd (map Some (full_rows det (map (fun e => (fst e, concat (snd e))) latents) (nc * nd) node)) =
  map (fun c => map (fun d => Some (det node (draw_env latents c d))) (seq 0 nd)) (seq 0 nc).
Proof.
  intros det latents nc nd node Hreg. unfold unflatten. apply map_ext_in. intros c Hc. apply in_seq in Hc.
  unfold slice. rewrite skipn_map, firstn_map. unfold full_rows. rewrite skipn_map, firstn_map, skipn_seq.
  replace (c * nd + nd - c * nd)%nat with nd by lia.
  rewrite firstn_seq by nia.
  rewrite map_map.
  replace (seq (0 + c * nd) nd) with (map (fun d => (c * nd + d)%nat) (seq 0 nd)).
  - rewrite map_map. apply map_ext_in. intros d Hd. apply in_seq in Hd. f_equal. f_equal.
    unfold row_env, draw_env. rewrite map_map. apply map_ext_in. intros [k t] Hin. simpl. f_equal.
    apply (concat_cell nc nd). { apply (Hreg k); auto. } lia.
  - assert (H : forall n a, map (fun i => (c * nd + i)%nat) (seq a n) = seq (c * nd + a) n).
    { induction n; intros a; simpl; auto. rewrite IHn. f_equal. f_equal. lia. }
    rewrite H. f_equal. lia.
Qed.

Lemma dmem_concat : forall node (latents : list (string * list (list V))),
  dmem node (map (fun e => (fst e, concat (snd e))) latents) = dmem node latents.
Proof. intros. unfold dmem. rewrite (dget_map _ _ (@concat V)). destruct (dget node latents); auto. Qed.

Lemma flatten_unfold : forall k (t : list (list V)) r,
  flatten_chain_and_draw_dims ((k, t) :: r) =
  rbind (flatten_all (length t * width t) ((k, t) :: r)) (fun f => Ok (f, length t, width t)).
Proof. reflexivity. Qed.

Lemma reconstruct_lemma : forall nodes det y (latents : list (string * list (list V))) nc nd batch,
  NoDup nodes -> latents <> [] -> (forall k t, In (k, t) latents -> regular nc nd t) -> (1 <= batch)%Z ->
  exists res, reconstruct_posteriors nodes det y latents batch = Ok res /\
    (forall node, In node nodes -> dmem node latents = false -> node <> "y"%string -> (0 < nc * nd)%nat ->
       dget node res = Some (map (fun c => map (fun d => Some (det node (draw_env latents c d))) (seq 0 nd)) (seq 0 nc))) /\
    (forall node, dmem node latents = true \/ node = "y"%string \/ ~ In node nodes -> dget node res = None).
Proof.
  intros nodes det y latents nc nd batch HN Hne Hreg Hb.
  unfold reconstruct_posteriors. assert (Z.ltb batch 1 = false) by (apply Z.ltb_ge; auto). rewrite H. cbn [raise_if].
  destruct latents as [|[k0 t0] rest]; [congruence|].
  assert (Hr0 : regular nc nd t0) by (apply (Hreg k0); left; auto).
  pose proof (flatten_unfold k0 t0 rest) as Hfu.
  set (latents := (k0, t0) :: rest) in *.
  assert (Hflat : exists nd', flatten_chain_and_draw_dims latents =
            Ok (map (fun e => (fst e, concat (snd e))) latents, nc, nd') /\ (nc * nd' = nc * nd)%nat /\ (nc <> 0 -> nd' = nd)%nat).
  { destruct Hr0 as [Hlen Hrow]. rewrite Hfu, Hlen. clear Hfu. unfold latents in *. clear latents.
    unfold width. destruct t0 as [|c0 t0'].
    - simpl in Hlen. subst nc. exists 0%nat. rewrite (flatten_all_ok 0 0).
      + split; auto. split; auto. lia.
      + intros k t Hin. specialize (Hreg k t Hin). destruct Hreg as [A B]. split; auto.
        intros row Hrw. destruct t; [contradiction|discriminate].
    - exists nd. assert (E : length c0 = nd) by (apply Hrow; left; auto). rewrite E.
      rewrite (flatten_all_ok nc nd) by auto. auto. }
  destruct Hflat as [nd' [Hflat [Hnd Hnd']]]. rewrite Hflat. cbn [rbind]. cbv zeta.
  set (flat := map (fun e => (fst e, concat (snd e))) latents) in *.
  set (b := Z.to_nat batch). assert (Hb1 : (1 <= b)%nat) by (unfold b; lia).
  destruct (range_step_bounds (nc * nd') b Hb1) as [R1 [R2 R3]].
  destruct (batch_loop_spec det y flat (nc * nd') b nodes HN Hb1 _ 0 [] R1) as [bufs [A [B C]]].
  { intros node Hin Hd. simpl. unfold buf_at. simpl. rewrite Nat.sub_0_r. reflexivity. }
  unfold range_step. fold b. rewrite A. cbn [rbind]. eexists. split; [reflexivity|]. split.
  - intros node Hin Hm Hy Hpos. rewrite (dget_map _ _ (unflatten nc nd')).
    assert (Hd : is_det flat node = true).
    { unfold is_det, flat. rewrite dmem_concat, Hm. simpl. apply negb_true_iff. apply String.eqb_neq. auto. }
    destruct (B node Hin Hd) as [P Q].
    assert (Hq : dget node bufs <> None) by (apply Q; rewrite R3; lia).
    destruct (dget node bufs) as [bf|]; [|congruence]. simpl in P. simpl. f_equal.
    rewrite P. rewrite Nat.min_r by (simpl; exact R2). unfold buf_at.
    rewrite Nat.sub_diag. simpl. rewrite app_nil_r.
    rewrite firstn_all2 by (rewrite full_rows_length; auto).
    assert (nd' = nd) by (apply Hnd'; nia). subst nd'.
    apply unflatten_rows. auto.
  - intros node Hno. rewrite (dget_map _ _ (unflatten nc nd')). rewrite C; [reflexivity|].
    intros [Hin Hd]. unfold is_det, flat in Hd. rewrite dmem_concat in Hd. apply andb_true_iff in Hd.
    destruct Hd as [D1 D2]. destruct Hno as [Hm|[Hy|Hni]]; [rewrite Hm in D1; discriminate| |contradiction].
    subst node. discriminate.
Qed.

Lemma reconstruct_rejects : forall nodes det y (latents : list (string * list (list V))) batch,
  (batch < 1)%Z -> reconstruct_posteriors nodes det y latents batch = Err ValueError.
Proof. intros. unfold reconstruct_posteriors. apply Z.ltb_lt in H. rewrite H. reflexivity. Qed.

(** Combination of the chain batches. *)
Lemma nth_error_flat_map : forall A B (f : A -> list B) (l : list (A * nat)) b a m c,
  (forall x n, In (x, n) l -> length (f x) = n) ->
  nth_error l b = Some (a, m) -> (c < m)%nat ->
  nth_error (flat_map f (map fst l)) (chains_before l b + c) = nth_error (f a) c.
Proof.
  intros A B f. induction l as [|[x n] l IH]; intros b a m c Hlen Hb Hc.
  - destruct b; discriminate.
  - assert (Hx : length (f x) = n) by (apply Hlen; left; auto).
    destruct b as [|b]; simpl in Hb.
    + inversion Hb; subst. simpl. rewrite nth_error_app1; auto.
    + simpl. change (fold_right Nat.add 0%nat (map snd (firstn b l))) with (chains_before l b).
      unfold chains_before. simpl. rewrite nth_error_app2 by lia.
      replace (n + fold_right Nat.add 0 (map snd (firstn b l)) + c - length (f x))%nat
        with (chains_before l b + c)%nat by (unfold chains_before; lia).
      apply (IH b a m c); auto. intros; apply Hlen; right; auto.
Qed.

Definition total_chains {A} (l : list (A * nat)) : nat := fold_right Nat.add 0%nat (map snd l).

Lemma flat_map_length : forall A B (f : A -> list B) (l : list (A * nat)),
  (forall x n, In (x, n) l -> length (f x) = n) -> length (flat_map f (map fst l)) = total_chains l.
Proof.
  intros A B f. induction l as [|[x n] l IH]; intros H; auto. simpl. rewrite app_length.
  rewrite (H x n) by (left; auto). rewrite IH by (intros; apply H; right; auto). reflexivity.
Qed.

Lemma chains_before_lt : forall A (l : list (A * nat)) b a m c,
  nth_error l b = Some (a, m) -> (c < m)%nat -> (chains_before l b + c < total_chains l)%nat.
Proof.
  intros A. induction l as [|[x n] l IH]; intros b a m c Hb Hc; [destruct b; discriminate|].
  destruct b as [|b]; simpl in Hb.
  - inversion Hb; subst. unfold chains_before, total_chains. simpl. lia.
  - specialize (IH b a m c Hb Hc). unfold chains_before, total_chains in *. simpl. lia.
Qed.

Lemma cell_transpose : forall m (l : list (list V)) i j,
  (i < m)%nat -> (j < length l)%nat -> cell (transpose m l) i j = Some (cell l j i).
Proof.
  intros m l i j Hi Hj. unfold cell at 1, transpose.
  rewrite nth_error_map. rewrite (nth_error_nth' _ 0%nat) by (rewrite seq_length; auto).
  rewrite seq_nth by auto. simpl. rewrite nth_error_map. unfold cell.
  destruct (nth_error l j) eqn:E; auto. apply nth_error_None in E. lia.
Qed.

Lemma concat_axis1_row : forall (parts : list (list (list V) * nat)) n i,
  parts <> [] -> (forall p m, In (p, m) parts -> regular n m p) -> (i < n)%nat ->
  nth_error (concat_axis1 (map fst parts)) i = Some (flat_map (fun q => nth i q []) (map fst parts)).
Proof.
  intros parts n i Hne Hreg Hi. destruct parts as [|[p m] r] eqn:E; [congruence|].
  assert (Hp : length p = n) by (apply (Hreg p m); left; auto).
  change (map fst ((p, m) :: r)) with (p :: map fst r).
  unfold concat_axis1. rewrite Hp. rewrite nth_error_map.
  rewrite (nth_error_nth' _ 0%nat) by (rewrite seq_length; auto). rewrite seq_nth by auto. reflexivity.
Qed.

Lemma concat_axis1_length : forall (parts : list (list (list V) * nat)) n,
  parts <> [] -> (forall p m, In (p, m) parts -> regular n m p) ->
  length (concat_axis1 (map fst parts)) = n.
Proof.
  intros parts n Hne Hreg. destruct parts as [|[p m] r] eqn:E; [congruence|].
  unfold concat_axis1. simpl. rewrite map_length, seq_length. apply (Hreg p m). left; auto.
Qed.

Lemma regular_row : forall n m (p : list (list V)) i, regular n m p -> (i < n)%nat ->
  nth_error p i = Some (nth i p []) /\ length (nth i p []) = m.
Proof.
  intros n m p i [Hl Hr] Hi. rewrite (nth_error_nth' p [] (n := i)) by lia.
  split; auto. apply Hr. apply nth_In. lia.
Qed.

Lemma combine_latents_lemma : forall (parts : list (list (list V) * nat)) n_burnin n_keep b p m c d,
  (forall q k, In (q, k) parts -> regular (n_burnin + n_keep) k q) ->
  nth_error parts b = Some (p, m) -> (c < m)%nat -> (d < n_keep)%nat ->
  cell (combine_latents (map fst parts) n_burnin) (chains_before parts b + c) d =
    Some (cell p (n_burnin + d) c) /\ cell p (n_burnin + d) c <> None.
Proof.
  intros parts n_burnin n_keep b p m c d Hreg Hb Hc Hd.
  assert (Hne : parts <> []) by (intros ->; destruct b; discriminate).
  assert (Hlen := concat_axis1_length parts _ Hne Hreg).
  unfold combine_latents.
  set (kept := skipn n_burnin (concat_axis1 (map fst parts))).
  assert (Hk : length kept = n_keep) by (unfold kept; rewrite skipn_length; lia).
  assert (Hrow : forall i, (i < n_keep)%nat -> nth_error kept i =
            Some (flat_map (fun q => nth (n_burnin + i) q []) (map fst parts))).
  { intros i Hi. unfold kept. rewrite nth_error_skipn. apply (concat_axis1_row parts (n_burnin + n_keep)); auto. lia. }
  assert (Hfl : forall i x n, (i < n_keep)%nat -> In (x, n) parts -> length (nth (n_burnin + i) x []) = n).
  { intros i x n Hi Hin. eapply (regular_row (n_burnin + n_keep) n x (n_burnin + i)); [apply Hreg; auto|lia]. }
  assert (Hw : width kept = total_chains parts).
  { unfold width. specialize (Hrow 0%nat). destruct kept as [|r kp]; [simpl in Hk; lia|].
    simpl in Hrow. specialize (Hrow ltac:(lia)). inversion Hrow. apply flat_map_length.
    intros x n Hin. apply (Hfl 0%nat); auto. lia. }
  rewrite Hw. rewrite cell_transpose by (try rewrite Hk; auto; eapply chains_before_lt; eauto).
  assert (Hpin : In (p, m) parts) by (eapply nth_error_In; eauto).
  destruct (regular_row _ _ _ (n_burnin + d) (Hreg p m Hpin) ltac:(lia)) as [Ep Lp].
  assert (Ecell : cell kept d (chains_before parts b + c) = cell p (n_burnin + d) c).
  { unfold cell. rewrite Hrow by auto.
    rewrite (nth_error_flat_map _ _ (fun q => nth (n_burnin + d) q []) parts b p m c);
      [rewrite Ep; reflexivity|intros x n Hin; apply (Hfl d); auto|auto|auto]. }
  rewrite Ecell. split; auto. unfold cell. rewrite Ep. apply nth_error_Some. lia.
Qed.

Lemma combine_latents_shape : forall (parts : list (list (list V) * nat)) n_burnin n_keep,
  parts <> [] -> (forall q k, In (q, k) parts -> regular (n_burnin + n_keep) k q) -> (1 <= n_keep)%nat ->
  regular (total_chains parts) n_keep (combine_latents (map fst parts) n_burnin).
Proof.
  intros parts n_burnin n_keep Hne Hreg Hk1.
  assert (Hlen := concat_axis1_length parts _ Hne Hreg).
  unfold combine_latents. set (kept := skipn n_burnin (concat_axis1 (map fst parts))).
  assert (Hk : length kept = n_keep) by (unfold kept; rewrite skipn_length; lia).
  assert (Hw : width kept = total_chains parts).
  { assert (Hr0 := concat_axis1_row parts (n_burnin + n_keep) n_burnin Hne Hreg ltac:(lia)).
    unfold width. assert (E : nth_error kept 0 = Some (flat_map (fun q => nth n_burnin q []) (map fst parts))).
    { unfold kept. rewrite nth_error_skipn, Nat.add_0_r. auto. }
    destruct kept as [|r kp]; [simpl in Hk; lia|]. simpl in E. inversion E. apply flat_map_length.
    intros x n Hin. eapply (regular_row (n_burnin + n_keep) n x n_burnin); [apply Hreg; auto|lia]. }
  rewrite Hw. unfold transpose. split; [rewrite map_length, seq_length; auto|].
  intros row Hin. apply in_map_iff in Hin. destruct Hin as [j [<- _]]. rewrite map_length. auto.
Qed.

Lemma nth_error_flat_map_pair : forall A B (f : A * nat -> list B) (l : list (A * nat)) b a m c,
  (forall x n, In (x, n) l -> length (f (x, n)) = n) ->
  nth_error l b = Some (a, m) -> (c < m)%nat ->
  nth_error (flat_map f l) (chains_before l b + c) = nth_error (f (a, m)) c.
Proof.
  intros A B f. induction l as [|[x n] l IH]; intros b a m c Hlen Hb Hc.
  - destruct b; discriminate.
  - assert (Hx : length (f (x, n)) = n) by (apply Hlen; left; auto).
    destruct b as [|b]; simpl in Hb.
    + inversion Hb; subst. simpl. rewrite nth_error_app1; auto. lia.
    + simpl. unfold chains_before. simpl. rewrite nth_error_app2 by lia.
      replace (n + fold_right Nat.add 0 (map snd (firstn b l)) + c - length (f (x, n)))%nat
        with (chains_before l b + c)%nat by (unfold chains_before; lia).
      apply (IH b a m c); auto. intros; apply Hlen; right; auto.
Qed.

Lemma trace_lemma : forall (ts : list (trace (V := V) * nat)) n_burnin n_keep b t m c d,
  (forall l k, In (TraceDrawChain l, k) ts -> regular (n_burnin + n_keep) k l) ->
  (forall l k, In (TraceDraw l, k) ts -> length l = (n_burnin + n_keep)%nat) ->
  nth_error ts b = Some (t, m) -> (c < m)%nat -> (d < n_keep)%nat ->
  cell (combine_trace ts n_burnin) (chains_before ts b + c) d =
    Some (match t with
          | TraceDraw l => nth_error l (n_burnin + d)
          | TraceDrawChain l => cell l (n_burnin + d) c
          end).
Proof.
  intros ts n_burnin n_keep b t m c d H1 H2 Hb Hc Hd. unfold cell at 1, combine_trace.
  rewrite (nth_error_flat_map_pair _ _ (fun e => trace_block (fst e) n_burnin (snd e)) ts b t m c); auto.
  - assert (Hin : In (t, m) ts) by (eapply nth_error_In; eauto). simpl.
    destruct t as [l|l]; simpl.
    + rewrite (nth_error_nth' _ []) by (rewrite repeat_length; auto).
      replace (nth c (repeat (map Some (skipn n_burnin l)) m) []) with (map (@Some V) (skipn n_burnin l)).
      * rewrite nth_error_map, nth_error_skipn.
        specialize (H2 l m Hin). destruct (nth_error l (n_burnin + d)) eqn:E; auto.
        apply nth_error_None in E. lia.
      * clear -Hc. revert c Hc. induction m; intros c Hc; [lia|]. destruct c; simpl; auto. apply IHm. lia.
    + specialize (H1 l m Hin).
      pose proof (cell_transpose m (skipn n_burnin l) c d Hc) as Hct.
      destruct H1 as [Hl _]. rewrite skipn_length in Hct. specialize (Hct ltac:(lia)).
      unfold cell in Hct at 1. rewrite Hct. f_equal. unfold cell. rewrite nth_error_skipn. reflexivity.
  - intros x n Hin. simpl. destruct x as [l|l]; simpl.
    + apply repeat_length.
    + unfold transpose. rewrite map_length, seq_length. auto.
Qed.
End Rec.

(** Saved posterior variables. *)
Lemma fold_latents : forall A (l : list (string * A)) d0 k,
  NoDup (dkeys l) -> (forall k', In k' (dkeys l) -> dget k' d0 = None) ->
  dget k (fold_left (fun d e => if is_unsaved (fst e) then d else dset (fst e) (snd e) d) l d0) =
  match dget k l with
  | Some v => if is_unsaved k then dget k d0 else Some v
  | None => dget k d0
  end.
Proof.
  intros A. induction l as [|[k1 v1] l IH]; intros d0 k HN Hd; simpl; auto.
  inversion HN; subst.
  assert (Hd' : forall k', In k' (dkeys l) -> dget k' (if is_unsaved k1 then d0 else dset k1 v1 d0) = None).
  { intros k' Hin. destruct (is_unsaved k1); [apply Hd; right; auto|].
    rewrite dget_dset_other; [apply Hd; right; auto|]. intros ->. contradiction. }
  rewrite IH by auto. destruct (String.eqb k k1) eqn:E.
  - apply String.eqb_eq in E. subst k1.
    assert (dget k l = None) by (apply dget_None; auto). rewrite H.
    destruct (is_unsaved k); auto. apply dget_dset_same.
  - apply String.eqb_neq in E. destruct (is_unsaved k1); auto.
    rewrite dget_dset_other by auto. auto.
Qed.

Lemma fold_recon : forall A (l : list (string * A)) d0 k,
  NoDup (dkeys l) ->
  dget k (fold_left (fun d e => if is_unsaved (fst e) || String.eqb (fst e) "y" || dmem (fst e) d then d
                                else dset (fst e) (snd e) d) l d0) =
  match dget k d0 with
  | Some v => Some v
  | None => if is_unsaved k then None else dget k l
  end.
Proof.
  intros A. induction l as [|[k1 v1] l IH]; intros d0 k HN; simpl.
  - destruct (dget k d0); auto. destruct (is_unsaved k); auto.
  - inversion HN; subst. rewrite IH by auto. cbn [fst snd].
    destruct (is_unsaved k1 || String.eqb k1 "y" || dmem k1 d0) eqn:Ec.
    + destruct (dget k d0) eqn:Ek; auto. destruct (is_unsaved k) eqn:Eu; auto.
      destruct (String.eqb k k1) eqn:E; auto. apply String.eqb_eq in E. subst k1. exfalso.
      rewrite Eu in Ec. unfold dmem in Ec. rewrite Ek in Ec. rewrite orb_false_r in Ec. simpl in Ec.
      apply String.eqb_eq in Ec. subst k. discriminate Eu.
    + apply orb_false_iff in Ec. destruct Ec as [Ec Em]. apply orb_false_iff in Ec. destruct Ec as [Eu Ey].
      destruct (String.eqb k k1) eqn:E.
      * apply String.eqb_eq in E. subst k1. rewrite dget_dset_same.
        unfold dmem in Em. destruct (dget k d0); [discriminate|]. rewrite Eu. auto.
      * apply String.eqb_neq in E. rewrite dget_dset_other by auto. auto.
Qed.

Lemma mcmc_states_lemma : forall A (latents reconstructed : list (string * A)) k,
  NoDup (dkeys latents) -> NoDup (dkeys reconstructed) ->
  dget k (prepare_mcmc_states latents reconstructed) =
  if is_unsaved k then None
  else match dget k latents with Some v => Some v | None => dget k reconstructed end.
Proof.
  intros A latents reconstructed k H1 H2. unfold prepare_mcmc_states. rewrite fold_recon by auto.
  rewrite fold_latents by auto. simpl.
  destruct (dget k latents), (is_unsaved k); auto.
Qed.
