(** Proofs for C83. *)
From Coq Require Import Reals List Bool Arith Lia Lra.
From Verif Require Import Lib_Sum M_Base M_Independent S_Independent.
Import ListNotations.
Local Open Scope R_scope.
Local Open Scope nat_scope.
Local Open Scope list_scope.

Section Independent.
Variable seed : Type.
Notation comp := (comp seed).
Notation independent := (independent seed).
Implicit Types (l : list comp) (d : independent).

(** * Construction *)

Lemma batch_sizes_iff : forall l r,
  batch_sizes l = Ok r <-> (forall c, In c l -> length (c_shape c) <= 1) /\ r = map width l.
Proof.
  induction l as [|c l IH]; intros r; cbn [batch_sizes map].
  - split; [intros H; split; [intros ? []|congruence] | intros (_ & ->); reflexivity].
  - unfold width at 1. destruct (c_shape c) as [|n [|n' s]] eqn:E.
    + destruct (batch_sizes l) as [r0|e] eqn:B; cbn [rbind].
      * destruct (proj1 (IH r0) eq_refl) as (A & ->). split.
        -- intros H. split; [intros c' [<-|I]; [rewrite E; cbn; lia | exact (A c' I)] | congruence].
        -- intros (_ & ->). reflexivity.
      * split; [discriminate|]. intros (A & _). exfalso.
        assert (X : Err e = Ok (map width l)) by (apply IH; split; [intros c' I; exact (A c' (or_intror I)) | reflexivity]). discriminate.
    + destruct (batch_sizes l) as [r0|e] eqn:B; cbn [rbind].
      * destruct (proj1 (IH r0) eq_refl) as (A & ->). split.
        -- intros H. split; [intros c' [<-|I]; [rewrite E; cbn; lia | exact (A c' I)] | congruence].
        -- intros (_ & ->). reflexivity.
      * split; [discriminate|]. intros (A & _). exfalso.
        assert (X : Err e = Ok (map width l)) by (apply IH; split; [intros c' I; exact (A c' (or_intror I)) | reflexivity]). discriminate.
    + split; [discriminate|]. intros (A & _). exfalso. specialize (A c (or_introl eq_refl)). rewrite E in A. cbn in A. lia.
Qed.

Lemma batch_sizes_err : forall l e, batch_sizes l = Err e -> e = ValueError.
Proof.
  induction l as [|c l IH]; intros e; cbn [batch_sizes]; [discriminate|].
  destruct (c_shape c) as [|n [|n' s]]; [| |congruence];
  (destruct (batch_sizes l) as [r0|e'] eqn:B; cbn [rbind]; intros H; [discriminate|];
   assert (e = e') by congruence; subst; exact (IH e' eq_refl)).
Qed.

Lemma dtypes_iff : forall l t,
  verify_dtypes l = Ok t <-> l <> [] /\ forall c, In c l -> c_dtype c = t.
Proof.
  intros [|c l] t; cbn [verify_dtypes].
  - split; [discriminate | intros (A & _); exfalso; apply A; reflexivity].
  - destruct (forallb (fun c' => c_dtype c' =? c_dtype c) l) eqn:F; cbn [negb raise_if].
    + rewrite forallb_forall in F. split.
      * intros H. assert (t = c_dtype c) by congruence. subst. split; [discriminate|].
        intros c' [<-|I]; [reflexivity | apply Nat.eqb_eq; exact (F c' I)].
      * intros (_ & A). rewrite (A c (or_introl eq_refl)). reflexivity.
    + split; [discriminate|]. intros (_ & A). exfalso.
      assert (X : forallb (fun c' => c_dtype c' =? c_dtype c) l = true).
      { apply forallb_forall. intros c' I. apply Nat.eqb_eq. rewrite (A c (or_introl eq_refl)). exact (A c' (or_intror I)). }
      congruence.
Qed.

Lemma new_inv : forall l d, new l = Ok d ->
  d_comps d = l /\ d_sizes d = map width l /\ l <> [] /\
  (forall c, In c l -> c_deterministic c = false /\ length (c_shape c) <= 1 /\ c_dtype c = d_dtype d).
Proof.
  intros l d H. unfold new in H.
  destruct (existsb c_deterministic l) eqn:E; cbn [raise_if] in H; [discriminate|].
  destruct (batch_sizes l) as [s|] eqn:B; cbn [rbind] in H; [|discriminate].
  destruct (verify_dtypes l) as [t|] eqn:V; cbn [rbind] in H; [|discriminate].
  assert (d = mkInd l s t) by congruence. subst. cbn [d_comps d_sizes d_dtype].
  apply batch_sizes_iff in B. apply dtypes_iff in V. destruct B as (B & ->). destruct V as (N & V).
  split; [reflexivity|]. split; [reflexivity|]. split; [exact N|]. intros c I. split; [|split; [exact (B c I) | exact (V c I)]].
  destruct (c_deterministic c) eqn:D; [|reflexivity].
  assert (existsb c_deterministic l = true) by (apply existsb_exists; exists c; auto). congruence.
Qed.

Lemma new_iff : forall l, (exists d, new l = Ok d) <-> admissible l.
Proof.
  intros l. split.
  - intros (d & H). destruct (new_inv l d H) as (_ & _ & N & A). split; [exact N|]. split.
    + intros c I. destruct (A c I) as (D & S & _). auto.
    + intros c c' I I'. destruct (A c I) as (_ & _ & ->). destruct (A c' I') as (_ & _ & ->). reflexivity.
  - intros (N & A & T). unfold new.
    assert (E : existsb c_deterministic l = false).
    { destruct (existsb c_deterministic l) eqn:E; [|reflexivity]. apply existsb_exists in E. destruct E as (c & I & D).
      rewrite (proj1 (A c I)) in D. discriminate. }
    rewrite E. cbn [raise_if].
    rewrite (proj2 (batch_sizes_iff l (map width l)) (conj (fun c I => proj2 (A c I)) eq_refl)). cbn [rbind].
    destruct l as [|c l]; [exfalso; apply N; reflexivity|].
    rewrite (proj2 (dtypes_iff (c :: l) (c_dtype c))).
    + cbn [rbind]. eexists. reflexivity.
    + split; [discriminate|]. intros c' I. apply T; [exact I | left; reflexivity].
Qed.

Lemma new_err : forall l e, new l = Err e -> e = ValueError.
Proof.
  intros l e H. unfold new in H. destruct (existsb c_deterministic l); cbn [raise_if] in H; [congruence|].
  destruct (batch_sizes l) as [s|e'] eqn:B; cbn [rbind] in H.
  - destruct (verify_dtypes l) as [t|e'] eqn:V; cbn [rbind] in H; [discriminate|].
    assert (e = e') by congruence. subst. unfold verify_dtypes in V. destruct l as [|c l]; [congruence|].
    destruct (negb _); cbn [raise_if] in V; congruence.
  - assert (e = e') by congruence. subst. exact (batch_sizes_err l e' B).
Qed.

Lemma total_widths : forall l d, new l = Ok d -> total d = widths l.
Proof.
  intros l d H. destruct (new_inv l d H) as (_ & S & _). unfold total, widths. rewrite S.
  clear. induction l as [|c l IH]; [reflexivity|]. cbn [map fold_right]. rewrite IH. reflexivity.
Qed.

(** * Elements in order *)

Lemma elementwise_length : forall f v i, length (elementwise f i v) = length v.
Proof. intros f. induction v as [|x v IH]; intros i; [reflexivity|]. cbn [elementwise length]. rewrite IH. reflexivity. Qed.

Lemma elementwise_nth : forall f v i j x, nth_error v j = Some x -> nth_error (elementwise f i v) j = Some (f (i + j) x).
Proof.
  intros f. induction v as [|y v IH]; intros i j x H; [destruct j; discriminate|].
  destruct j as [|j]; cbn [elementwise nth_error] in *.
  - assert (x = y) by congruence. subst. rewrite Nat.add_0_r. reflexivity.
  - rewrite (IH (S i) j x H). f_equal. f_equal. lia.
Qed.

Lemma in_order_nil : forall g, in_order (@nil comp) g [].
Proof. intros g. split; [reflexivity|]. intros before c0 after i E. destruct before; discriminate. Qed.

Lemma in_order_cons : forall c l (g : comp -> nat -> nat -> R) b r,
  length b = width c -> (forall i, i < width c -> nth_error b i = Some (g c i i)) ->
  in_order l (fun c' i j => g c' i (width c + j)) r -> in_order (c :: l) g (b ++ r).
Proof.
  intros c l g b r L B (LR & R). split.
  - rewrite app_length, L, LR. reflexivity.
  - intros before c' after i E Hi. destruct before as [|c0 before].
    + cbn [app] in E. injection E as <- <-. cbn [widths fold_right plus].
      rewrite nth_error_app1 by lia. exact (B i Hi).
    + cbn [app] in E. injection E as <- ->. cbn [widths fold_right].
      change (fold_right (fun c n => width c + n) 0 before) with (widths before).
      rewrite nth_error_app2 by lia.
      replace (width c + widths before + i - length b) with (widths before + i) by lia.
      rewrite (R before c' after i eq_refl Hi). f_equal. f_equal. lia.
Qed.

Lemma in_order_eq : forall l g r r', in_order l g r -> in_order l g r' -> r = r'.
Proof.
  induction l as [|c l IH]; intros g r r' (L & H) (L' & H').
  - cbn in L, L'. destruct r, r'; try discriminate. reflexivity.
  - cbn [widths fold_right] in L, L'. change (fold_right (fun c n => width c + n) 0 l) with (widths l) in L, L'.
    rewrite <- (firstn_skipn (width c) r), <- (firstn_skipn (width c) r'). f_equal.
    + assert (X : forall q, (forall i, i < width c -> nth_error q i = Some (g c i i)) -> width c <= length q ->
        firstn (width c) q = map (fun i => g c i i) (seq 0 (width c))).
      { intros q Q LQ. apply nth_ext with (d := 0%R) (d' := 0%R).
        - rewrite firstn_length, map_length, seq_length. lia.
        - intros i Hi. rewrite firstn_length in Hi. assert (Hi' : i < width c) by lia.
          assert (N : nth i (firstn (width c) q) 0%R = nth i q 0%R).
          { rewrite <- (firstn_skipn (width c) q) at 2. rewrite app_nth1; [reflexivity|]. rewrite firstn_length. lia. }
          rewrite N. rewrite (nth_error_nth q i 0%R (Q i Hi')).
          rewrite nth_indep with (d' := g c 0 0) by (rewrite map_length, seq_length; lia).
          rewrite (map_nth (fun i => g c i i)). rewrite seq_nth by lia. reflexivity. }
      rewrite (X r), (X r'); try lia; try reflexivity.
      * intros i Hi. exact (H' [] c l i eq_refl Hi).
      * intros i Hi. exact (H [] c l i eq_refl Hi).
    + assert (X : forall q, length q = width c + widths l ->
        (forall before c' after i, c :: l = before ++ c' :: after -> i < width c' -> nth_error q (widths before + i) = Some (g c' i (widths before + i))) ->
        in_order l (fun c' i j => g c' i (width c + j)) (skipn (width c) q)).
      { intros q LQ Q. split; [rewrite skipn_length; lia|]. intros before c' after i E Hi.
        specialize (Q (c :: before) c' after i). cbn [app widths fold_right] in Q.
        change (fold_right (fun c n => width c + n) 0 before) with (widths before) in Q.
        rewrite <- E in Q. specialize (Q eq_refl Hi).
        rewrite <- (firstn_skipn (width c) q) in Q. rewrite nth_error_app2 in Q by (rewrite firstn_length; lia).
        rewrite firstn_length in Q. replace (width c + widths before + i - Nat.min (width c) (length q)) with (widths before + i) in Q by lia.
        rewrite Q. f_equal. f_equal. lia. }
      exact (IH _ _ _ (X r L H) (X r' L' H')).
Qed.

(** * The methods *)

Fixpoint blocks (f : comp -> nat -> R -> R) l (v : list R) : list R :=
  match l with
  | [] => []
  | c :: l' => elementwise (f c) 0 (firstn (width c) v) ++ blocks f l' (skipn (width c) v)
  end.

Lemma split_ok : forall f l v, length v = widths l -> exists parts,
  split (map width l) v = Ok parts /\
  concat (map (fun cp => elementwise (f (fst cp)) 0 (snd cp)) (combine l parts)) = blocks f l v.
Proof.
  intros f. induction l as [|c l IH]; intros v L; cbn [map split].
  - destruct v; [|discriminate]. exists []. split; reflexivity.
  - cbn [widths fold_right] in L. change (fold_right (fun c n => width c + n) 0 l) with (widths l) in L.
    assert (E : (length v <? width c) = false) by (apply Nat.ltb_ge; lia). rewrite E. cbn [raise_if].
    destruct (IH (skipn (width c) v)) as (parts & S & C); [rewrite skipn_length; lia|].
    rewrite S. cbn [rbind]. exists (firstn (width c) v :: parts). split; [reflexivity|].
    cbn [combine map concat fst snd blocks]. rewrite C. reflexivity.
Qed.

Lemma split_bad : forall l v, length v <> widths l -> split (map width l) v = Err ValueError.
Proof.
  induction l as [|c l IH]; intros v L; cbn [map split].
  - destruct v; [exfalso; apply L; reflexivity | reflexivity].
  - cbn [widths fold_right] in L. change (fold_right (fun c n => width c + n) 0 l) with (widths l) in L.
    destruct (length v <? width c) eqn:E; cbn [raise_if]; [reflexivity|]. apply Nat.ltb_ge in E.
    rewrite IH; [reflexivity|]. rewrite skipn_length. lia.
Qed.

Lemma blockwise_vector : forall f l d v, new l = Ok d -> length v = widths l ->
  blockwise f d (Vector v) = Ok (blocks f l v).
Proof.
  intros f l d v N L. unfold blockwise, broadcast_value. rewrite (total_widths l d N), L, Nat.eqb_refl. cbn [rbind].
  destruct (new_inv l d N) as (C & S & _). rewrite C, S.
  destruct (split_ok f l v L) as (parts & E & B). rewrite E. cbn [rbind]. rewrite B. reflexivity.
Qed.

Lemma blockwise_scalar : forall f l d x, new l = Ok d ->
  blockwise f d (Scalar x) = Ok (blocks f l (repeat x (widths l))).
Proof.
  intros f l d x N. unfold blockwise, broadcast_value. rewrite (total_widths l d N). cbn [rbind].
  destruct (new_inv l d N) as (C & S & _). rewrite C, S.
  destruct (split_ok f l (repeat x (widths l)) (repeat_length _ _)) as (parts & E & B). rewrite E. cbn [rbind]. rewrite B. reflexivity.
Qed.

Lemma blockwise_one : forall f l d x, new l = Ok d ->
  blockwise f d (Vector [x]) = blockwise f d (Scalar x).
Proof.
  intros f l d x N. unfold blockwise, broadcast_value. rewrite (total_widths l d N).
  destruct (length [x] =? widths l) eqn:E; [|reflexivity]. apply Nat.eqb_eq in E. rewrite <- E. reflexivity.
Qed.

Lemma blockwise_bad : forall f l d v, new l = Ok d -> length v <> widths l -> length v <> 1 ->
  blockwise f d (Vector v) = Err ValueError.
Proof.
  intros f l d v N L L1. unfold blockwise, broadcast_value. rewrite (total_widths l d N).
  rewrite (proj2 (Nat.eqb_neq _ _) L).
  destruct (new_inv l d N) as (C & S & _). rewrite C, S.
  destruct v as [|x [|y v]]; [| exfalso; apply L1; reflexivity |].
  - destruct (widths l =? 1); cbn [rbind]; [|reflexivity]. rewrite split_bad by exact L. reflexivity.
  - destruct (widths l =? 1); cbn [rbind]; [|reflexivity]. rewrite split_bad by exact L. reflexivity.
Qed.

Lemma firstn_nth : forall (v : list R) n i, i < n -> nth_error (firstn n v) i = nth_error v i.
Proof.
  induction v as [|x v IH]; intros n i H; [rewrite firstn_nil; reflexivity|].
  destruct n as [|n]; [lia|]. destruct i as [|i]; [reflexivity|]. cbn [firstn nth_error]. apply IH. lia.
Qed.

Lemma skipn_nth : forall (v : list R) n i, nth i (skipn n v) 0%R = nth (n + i) v 0%R.
Proof.
  induction v as [|x v IH]; intros n i; [rewrite skipn_nil; destruct i, n; reflexivity|].
  destruct n as [|n]; [reflexivity|]. cbn [skipn plus nth]. apply IH.
Qed.

Lemma in_order_ext : forall l g g' r, (forall c i j, g c i j = g' c i j) -> in_order l g r -> in_order l g' r.
Proof.
  intros l g g' r E (L & H). split; [exact L|]. intros before c after i EL Hi. rewrite (H before c after i EL Hi), E. reflexivity.
Qed.

Lemma blocks_order : forall f l v, length v = widths l ->
  in_order l (fun c i j => f c i (nth j v 0%R)) (blocks f l v).
Proof.
  intros f. induction l as [|c l IH]; intros v L; cbn [blocks]; [apply in_order_nil|].
  cbn [widths fold_right] in L. change (fold_right (fun c n => width c + n) 0 l) with (widths l) in L.
  apply in_order_cons.
  - rewrite elementwise_length, firstn_length. lia.
  - intros i Hi. rewrite (elementwise_nth (f c) _ 0 i (nth i v 0%R)); [reflexivity|].
    rewrite firstn_nth by exact Hi. apply nth_error_nth'. lia.
  - apply (in_order_ext l (fun c' i j => f c' i (nth j (skipn (width c) v) 0%R))).
    + intros c' i j. rewrite skipn_nth. reflexivity.
    + apply IH. rewrite skipn_length. lia.
Qed.

Definition spread (g : comp -> nat -> R) l : list R :=
  concat (map (fun cn => map (g (fst cn)) (seq 0 (snd cn))) (combine l (map width l))).

Lemma spread_order : forall g l, in_order l (fun c i _ => g c i) (spread g l).
Proof.
  intros g. induction l as [|c l IH]; [apply in_order_nil|].
  unfold spread. cbn [map combine concat fst snd]. apply in_order_cons.
  - rewrite map_length, seq_length. reflexivity.
  - intros i Hi. rewrite nth_error_nth' with (d := g c 0) by (rewrite map_length, seq_length; exact Hi).
    rewrite (map_nth (g c)), seq_nth by exact Hi. reflexivity.
  - exact IH.
Qed.

Lemma sample_spread : forall l d s, new l = Ok d -> sample d s = spread (fun c i => c_sample c s i) l.
Proof. intros l d s N. destruct (new_inv l d N) as (C & S & _). unfold sample, spread. rewrite C, S. reflexivity. Qed.

Lemma mean_spread : forall l d, new l = Ok d -> mean d = spread c_mean l.
Proof. intros l d N. destruct (new_inv l d N) as (C & S & _). unfold mean, spread. rewrite C, S. reflexivity. Qed.

Lemma variance_spread : forall l d, new l = Ok d -> variance d = spread c_variance l.
Proof. intros l d N. destruct (new_inv l d N) as (C & S & _). unfold variance, spread. rewrite C, S. reflexivity. Qed.

(** * Putting together *)

Lemma widths_app : forall l l', widths (l ++ l') = widths l + widths l'.
Proof.
  induction l as [|c l IH]; intros l'; [reflexivity|]. cbn [app widths fold_right].
  change (fold_right (fun c n => width c + n) 0 (l ++ l')) with (widths (l ++ l')). rewrite IH.
  change (fold_right (fun c n => width c + n) 0 l) with (widths l). lia.
Qed.

Lemma blocks_app : forall f l l' v v', length v = widths l ->
  blocks f (l ++ l') (v ++ v') = blocks f l v ++ blocks f l' v'.
Proof.
  intros f. induction l as [|c l IH]; intros l' v v' L.
  - destruct v; [reflexivity | discriminate].
  - cbn [app blocks]. cbn [widths fold_right] in L. change (fold_right (fun c n => width c + n) 0 l) with (widths l) in L.
    rewrite firstn_app, skipn_app.
    replace (width c - length v) with 0 by lia. cbn [firstn skipn]. rewrite app_nil_r.
    rewrite IH by (rewrite skipn_length; lia). rewrite app_assoc. reflexivity.
Qed.

Lemma spread_app : forall g l l', spread g (l ++ l') = spread g l ++ spread g l'.
Proof.
  intros g. induction l as [|c l IH]; intros l'; [reflexivity|].
  unfold spread in *. cbn [app map combine concat fst snd]. rewrite IH, app_assoc. reflexivity.
Qed.

Lemma density_app : forall l l' d d' d2 v v' r r', new l = Ok d -> new l' = Ok d' -> new (l ++ l') = Ok d2 ->
  length v = widths l -> length v' = widths l' ->
  log_prob d (Vector v) = Ok r -> log_prob d' (Vector v') = Ok r' ->
  exists r2, log_prob d2 (Vector (v ++ v')) = Ok r2 /\ lsum r2 = (lsum r + lsum r')%R.
Proof.
  intros l l' d d' d2 v v' r r' N N' N2 L L' E E'.
  unfold log_prob in *. rewrite (blockwise_vector c_log_prob l d v N L) in E.
  rewrite (blockwise_vector c_log_prob l' d' v' N' L') in E'.
  exists (blocks c_log_prob (l ++ l') (v ++ v')). split.
  - apply blockwise_vector; [exact N2|]. rewrite app_length, widths_app, L, L'. reflexivity.
  - rewrite blocks_app by exact L. rewrite lsum_app. congruence.
Qed.

(** * Nesting *)

Lemma blocks_length : forall f l v, length v = widths l -> length (blocks f l v) = widths l.
Proof. intros f l v L. exact (proj1 (blocks_order f l v L)). Qed.

(** The function of each element, seen from outside. *)
Definition outer (f : comp -> nat -> R -> R) l (i : nat) (x : R) : R := nth i (blocks f l (repeat x (widths l))) 0%R.

Lemma outer_cons : forall f c l i x, outer f (c :: l) i x = if i <? width c then f c i x else outer f l (i - width c) x.
Proof.
  intros f c l i x. unfold outer. cbn [widths fold_right]. change (fold_right (fun c n => width c + n) 0 l) with (widths l).
  rewrite repeat_app. cbn [blocks].
  rewrite firstn_app, skipn_app, repeat_length, Nat.sub_diag. cbn [firstn skipn]. rewrite app_nil_r.
  rewrite firstn_all2 by (rewrite repeat_length; lia). rewrite skipn_all2 by (rewrite repeat_length; lia). cbn [app].
  destruct (i <? width c) eqn:E.
  - apply Nat.ltb_lt in E. rewrite app_nth1 by (rewrite elementwise_length, repeat_length; exact E).
    apply nth_error_nth. rewrite (elementwise_nth (f c) (repeat x (width c)) 0 i x); [reflexivity|].
    rewrite (nth_error_nth' (repeat x (width c)) x) by (rewrite repeat_length; exact E). f_equal.
    apply (repeat_spec (width c) x). apply nth_In. rewrite repeat_length. exact E.
  - apply Nat.ltb_ge in E. rewrite app_nth2 by (rewrite elementwise_length, repeat_length; exact E).
    rewrite elementwise_length, repeat_length. reflexivity.
Qed.

Lemma elementwise_ext : forall f g v i, (forall j x, i <= j -> j < i + length v -> f j x = g j x) -> elementwise f i v = elementwise g i v.
Proof.
  intros f g. induction v as [|x v IH]; intros i H; [reflexivity|]. cbn [elementwise]. rewrite (H i x) by (cbn [length]; lia). f_equal.
  apply IH. intros j y A B. apply H; cbn [length]; lia.
Qed.

Lemma elementwise_app : forall f v v' i, elementwise f i (v ++ v') = elementwise f i v ++ elementwise f (i + length v) v'.
Proof.
  intros f. induction v as [|x v IH]; intros v' i.
  - cbn [app length elementwise]. rewrite Nat.add_0_r. reflexivity.
  - cbn [app length elementwise]. rewrite IH. replace (S i + length v) with (i + S (length v)) by lia. reflexivity.
Qed.

Lemma elementwise_shift : forall f k v i, elementwise (fun j => f (j - k)) (k + i) v = elementwise f i v.
Proof.
  intros f k. induction v as [|x v IH]; intros i; [reflexivity|]. cbn [elementwise].
  replace (k + i - k) with i by lia. f_equal. replace (S (k + i)) with (k + S i) by lia. apply IH.
Qed.

Lemma outer_blocks : forall f l v, length v = widths l -> elementwise (outer f l) 0 v = blocks f l v.
Proof.
  intros f. induction l as [|c l IH]; intros v L.
  - destruct v; [reflexivity | discriminate].
  - cbn [widths fold_right] in L. change (fold_right (fun c n => width c + n) 0 l) with (widths l) in L.
    cbn [blocks]. rewrite <- (firstn_skipn (width c) v) at 1. rewrite elementwise_app. f_equal.
    + apply elementwise_ext. intros j x _ Hj. rewrite firstn_length in Hj. rewrite outer_cons.
      assert (E : (j <? width c) = true) by (apply Nat.ltb_lt; lia). rewrite E. reflexivity.
    + rewrite <- IH by (rewrite skipn_length; lia).
      rewrite firstn_length. replace (0 + Nat.min (width c) (length v)) with (width c + 0) by lia.
      rewrite <- (elementwise_shift (outer f l) (width c) (skipn (width c) v) 0).
      apply elementwise_ext. intros j x Hj _. rewrite outer_cons.
      assert (E : (j <? width c) = false) by (apply Nat.ltb_ge; lia). rewrite E. reflexivity.
Qed.

Lemma map_seq_nth : forall (v : list R), map (fun i => nth i v 0%R) (seq 0 (length v)) = v.
Proof.
  induction v as [|x v IH]; [reflexivity|]. cbn [length seq map nth]. f_equal. rewrite <- seq_shift, map_map. exact IH.
Qed.

(** A method [m] of the class and what it uses of the components. *)
Definition method (m : independent -> arg -> result (list R)) (f : comp -> nat -> R -> R) : Prop :=
  m = blockwise f /\
  forall l d, new l = Ok d -> forall i x, f (as_component d) i x = outer f l i x.

Lemma methods : method quantile c_quantile /\ method log_prob c_log_prob /\
  method log_cdf c_log_cdf /\ method forward c_forward.
Proof.
  split; [|split; [|split]]; (split; [reflexivity|]); intros l d N i x; unfold outer.
  - pose proof (blockwise_scalar c_quantile l d x N) as E. cbn [as_component c_quantile]. unfold quantile. rewrite E. reflexivity.
  - pose proof (blockwise_scalar c_log_prob l d x N) as E. cbn [as_component c_log_prob]. unfold log_prob. rewrite E. reflexivity.
  - pose proof (blockwise_scalar c_log_cdf l d x N) as E. cbn [as_component c_log_cdf]. unfold log_cdf. rewrite E. reflexivity.
  - pose proof (blockwise_scalar c_forward l d x N) as E. cbn [as_component c_forward]. unfold forward. rewrite E. reflexivity.
Qed.

Lemma widths_nested : forall l l' d d', new l = Ok d -> new l' = Ok d' ->
  widths [as_component d; as_component d'] = widths (l ++ l').
Proof.
  intros l l' d d' N N'. rewrite widths_app. cbn [widths fold_right]. unfold width at 1 2. cbn [as_component c_shape].
  rewrite (total_widths l d N), (total_widths l' d' N'). lia.
Qed.

Lemma method_nested : forall m f l l' d d' dn d2 a, method m f -> new l = Ok d -> new l' = Ok d' ->
  new [as_component d; as_component d'] = Ok dn -> new (l ++ l') = Ok d2 -> m dn a = m d2 a.
Proof.
  intros m f l l' d d' dn d2 a (-> & M) N N' NN N2.
  pose proof (widths_nested l l' d d' N N') as W.
  assert (B : forall v, length v = widths (l ++ l') -> blocks f [as_component d; as_component d'] v = blocks f (l ++ l') v).
  { intros v L. rewrite widths_app in L. cbn [blocks]. unfold width. cbn [as_component c_shape].
    rewrite (total_widths l d N), (total_widths l' d' N'). rewrite app_nil_r.
    rewrite <- (firstn_skipn (widths l) v) at 3.
    rewrite blocks_app by (rewrite firstn_length; lia). f_equal.
    - rewrite <- outer_blocks by (rewrite firstn_length; lia). apply elementwise_ext. intros j x _ _. apply (M l d N).
    - rewrite firstn_all2 by (rewrite skipn_length; lia).
      rewrite <- outer_blocks by (rewrite skipn_length; lia). apply elementwise_ext. intros j x _ _. apply (M l' d' N'). }
  destruct a as [x|v].
  - rewrite (blockwise_scalar f _ dn x NN), (blockwise_scalar f _ d2 x N2), W.
    rewrite B by apply repeat_length. reflexivity.
  - destruct (Nat.eq_dec (length v) (widths (l ++ l'))) as [L|L].
    + rewrite (blockwise_vector f _ dn v NN) by (rewrite W; exact L). rewrite (blockwise_vector f _ d2 v N2 L). rewrite (B v L). reflexivity.
    + destruct (Nat.eq_dec (length v) 1) as [L1|L1].
      * destruct v as [|x [|y v]]; try discriminate. rewrite (blockwise_one f _ dn x NN), (blockwise_one f _ d2 x N2).
        rewrite (blockwise_scalar f _ dn x NN), (blockwise_scalar f _ d2 x N2), W. rewrite B by apply repeat_length. reflexivity.
      * rewrite (blockwise_bad f _ dn v NN) by (rewrite ?W; assumption). rewrite (blockwise_bad f _ d2 v N2 L L1). reflexivity.
Qed.

Lemma spread_nested : forall g l l' d d', new l = Ok d -> new l' = Ok d' ->
  (forall i, g (as_component d) i = nth i (spread g l) 0%R) -> (forall i, g (as_component d') i = nth i (spread g l') 0%R) ->
  spread g [as_component d; as_component d'] = spread g (l ++ l').
Proof.
  intros g l l' d d' N N' E E'. rewrite spread_app. unfold spread at 1. cbn [map combine concat fst snd].
  unfold width. cbn [as_component c_shape]. rewrite (total_widths l d N), (total_widths l' d' N'), app_nil_r.
  rewrite (map_ext _ _ E), (map_ext _ _ E').
  rewrite <- (proj1 (spread_order g l)), <- (proj1 (spread_order g l')). rewrite !map_seq_nth. reflexivity.
Qed.

Lemma nested : forall l l' d d' d2, new l = Ok d -> new l' = Ok d' -> new (l ++ l') = Ok d2 ->
  exists dn, new [as_component d; as_component d'] = Ok dn /\
    (forall a, quantile dn a = quantile d2 a) /\ (forall a, log_prob dn a = log_prob d2 a) /\
    (forall a, log_cdf dn a = log_cdf d2 a) /\ (forall a, forward dn a = forward d2 a) /\
    (forall s, sample dn s = sample d2 s) /\ mean dn = mean d2 /\ variance dn = variance d2.
Proof.
  intros l l' d d' d2 N N' N2.
  assert (NN : exists dn, new [as_component d; as_component d'] = Ok dn).
  { apply new_iff. split; [discriminate|].
    destruct (new_inv _ _ N) as (_ & _ & NE & A). destruct (new_inv _ _ N') as (_ & _ & NE' & A').
    destruct (new_inv _ _ N2) as (_ & _ & _ & A2).
    assert (T : d_dtype d = d_dtype d').
    { destruct l as [|c l]; [exfalso; apply NE; reflexivity|]. destruct l' as [|c' l']; [exfalso; apply NE'; reflexivity|].
      destruct (A c (or_introl eq_refl)) as (_ & _ & <-). destruct (A' c' (or_introl eq_refl)) as (_ & _ & <-).
      destruct (A2 c) as (_ & _ & ->); [left; reflexivity|]. destruct (A2 c') as (_ & _ & ->); [|reflexivity].
      apply in_or_app. right. left. reflexivity. }
    split.
    - intros c [<-|[<-|[]]]; split; try reflexivity; cbn; lia.
    - intros c c' [<-|[<-|[]]] [<-|[<-|[]]]; cbn [as_component c_dtype]; congruence. }
  destruct NN as (dn & NN). exists dn. split; [exact NN|].
  destruct methods as (M1 & M2 & M3 & M4).
  split; [intros a; exact (method_nested _ _ _ _ _ _ _ _ a M1 N N' NN N2)|].
  split; [intros a; exact (method_nested _ _ _ _ _ _ _ _ a M2 N N' NN N2)|].
  split; [intros a; exact (method_nested _ _ _ _ _ _ _ _ a M3 N N' NN N2)|].
  split; [intros a; exact (method_nested _ _ _ _ _ _ _ _ a M4 N N' NN N2)|].
  split; [|split].
  - intros s. rewrite (sample_spread _ dn s NN), (sample_spread _ d2 s N2).
    apply spread_nested; [exact N | exact N' | |]; intros i; cbn [as_component c_sample].
    + rewrite (sample_spread _ d s N). reflexivity.
    + rewrite (sample_spread _ d' s N'). reflexivity.
  - rewrite (mean_spread _ dn NN), (mean_spread _ d2 N2).
    apply spread_nested; [exact N | exact N' | |]; intros i; cbn [as_component c_mean].
    + rewrite (mean_spread _ d N). reflexivity.
    + rewrite (mean_spread _ d' N'). reflexivity.
  - rewrite (variance_spread _ dn NN), (variance_spread _ d2 N2).
    apply spread_nested; [exact N | exact N' | |]; intros i; cbn [as_component c_variance].
    + rewrite (variance_spread _ d N). reflexivity.
    + rewrite (variance_spread _ d' N'). reflexivity.
Qed.

End Independent.
