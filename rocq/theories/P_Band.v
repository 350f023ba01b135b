(** Proofs about band systems. *)
From Coq Require Import Reals ZArith String List Bool Arith Lia Lra.
From Verif Require Import Lib_Sum M_Base M_PriorDist M_Band S_Band P_Spec.
Import ListNotations.
Open Scope R_scope.

(** Loops. *)
Lemma for_range_nil : forall S lo hi (f : nat -> S -> S) s, (hi <= lo)%nat -> for_range lo hi f s = s.
Proof. intros. unfold for_range. replace (hi - lo)%nat with 0%nat by lia. reflexivity. Qed.

Lemma for_range_S : forall S lo hi (f : nat -> S -> S) s, (lo <= hi)%nat ->
  for_range lo (Datatypes.S hi) f s = f hi (for_range lo hi f s).
Proof.
  intros. unfold for_range. replace (Datatypes.S hi - lo)%nat with (Datatypes.S (hi - lo)) by lia.
  rewrite seq_S, fold_left_app. simpl. replace (lo + (hi - lo))%nat with hi by lia. reflexivity.
Qed.

Lemma for_range_inv : forall S (P : nat -> S -> Prop) lo hi (f : nat -> S -> S) s, (lo <= hi)%nat ->
  P lo s -> (forall k s, (lo <= k < hi)%nat -> P k s -> P (Datatypes.S k) (f k s)) -> P hi (for_range lo hi f s).
Proof.
  intros S P lo hi f s Hle H0 Hstep.
  assert (H : forall d, (lo + d <= hi)%nat -> P (lo + d)%nat (for_range lo (lo + d) f s)).
  { induction d as [|d IH]; intros Hd.
    - rewrite Nat.add_0_r. rewrite for_range_nil by lia. auto.
    - replace (lo + Datatypes.S d)%nat with (Datatypes.S (lo + d)) by lia. rewrite for_range_S by lia.
      apply Hstep; [lia|]. apply IH. lia. }
  specialize (H (hi - lo)%nat). replace (lo + (hi - lo))%nat with hi in H by lia. apply H. lia.
Qed.

Lemma upd_same : forall a r c v, upd a r c v r c = v.
Proof. intros. unfold upd. rewrite !Nat.eqb_refl. reflexivity. Qed.

Lemma upd_other : forall a r c v r' c', (r' <> r \/ c' <> c) -> upd a r c v r' c' = a r' c'.
Proof.
  intros. unfold upd. destruct (Nat.eqb r' r) eqn:E1; destruct (Nat.eqb c' c) eqn:E2; auto.
  apply Nat.eqb_eq in E1, E2. lia.
Qed.

Lemma vupd_same : forall x i v, vupd x i v i = v.
Proof. intros. unfold vupd. rewrite Nat.eqb_refl. reflexivity. Qed.

Lemma vupd_other : forall x i v j, j <> i -> vupd x i v j = x j.
Proof. intros. unfold vupd. apply Nat.eqb_neq in H. rewrite H. reflexivity. Qed.

(** Indices start at 0 from here on: the cell (row I, column J) of the lower triangle is [a J (I - J)]. *)
Definition lcell (a : mat) (I J : nat) : R := a J (I - J)%nat.

Definition lsum_row (m : nat) (a : mat) (I J : nat) : R :=
  rsum J (fun K => if Nat.leb (I - m) K then lcell a I K * lcell a J K * a K 0%nat else 0).

Definition cell_eq (m : nat) (rot a : mat) (I J : nat) : Prop :=
  lcell a I J = if Nat.ltb J I then (lcell rot I J - lsum_row m a I J) / a J 0%nat
                else lcell rot I J - lsum_row m a I J.

(** The invariant: cells before (I0, J0) in row-major order are final, the others untouched. *)
Definition ldl_inv (m : nat) (rot a : mat) (I0 J0 : nat) : Prop :=
  forall I J, (J <= I)%nat -> (I - J <= m)%nat ->
    ((I < I0)%nat \/ (I = I0 /\ (J < J0)%nat) -> cell_eq m rot a I J) /\
    ((I0 < I)%nat \/ (I = I0 /\ (J0 <= J)%nat) -> lcell a I J = lcell rot I J).

Lemma lsum_row_ext : forall m a a' I J,
  (forall K, (K < J)%nat -> (I - m <= K)%nat -> lcell a I K = lcell a' I K /\ lcell a J K = lcell a' J K /\ a K 0%nat = a' K 0%nat) ->
  lsum_row m a I J = lsum_row m a' I J.
Proof.
  intros m a a' I J H. apply rsum_ext. intros K HK. destruct (Nat.leb (I - m) K) eqn:E; auto.
  apply Nat.leb_le in E. destruct (H K HK E) as [-> [-> ->]]. reflexivity.
Qed.

(** The accumulation over k. *)
Lemma inner_loop : forall m a I J, (J <= I)%nat -> (I - J <= m)%nat ->
  let j0 := Nat.max 1 (S I - m) in
  let r := for_range j0 (S J) (fun k a =>
             upd a (S J - 1) (S I - S J) (a (S J - 1)%nat (S I - S J)%nat - a (k - 1)%nat (S I - k)%nat * a (k - 1)%nat (S J - k)%nat * a (k - 1)%nat 0%nat)) a in
  (forall r' c', r' <> J \/ c' <> (I - J)%nat -> r r' c' = a r' c') /\
  lcell r I J = lcell a I J - lsum_row m a I J.
Proof.
  intros m a I J HJ Hb j0 r.
  set (P := fun (k : nat) (b : mat) =>
    (forall r' c', r' <> J \/ c' <> (I - J)%nat -> b r' c' = a r' c') /\
    lcell b I J = lcell a I J -
      rsum (k - 1) (fun K => if Nat.leb (I - m) K then lcell a I K * lcell a J K * a K 0%nat else 0)).
  assert (HP : P (S J) r).
  { unfold r. apply for_range_inv with (P := P).
    - unfold j0. lia.
    - split; auto. unfold j0. rewrite rsum_zero; [lra|].
      intros K HK. destruct (Nat.leb (I - m) K) eqn:E; auto. apply Nat.leb_le in E. lia.
    - intros k b Hk [H1 H2]. replace (S J - 1)%nat with J by lia. replace (S I - S J)%nat with (I - J)%nat by lia.
      split.
      + intros r' c' Hne. rewrite upd_other by auto. auto.
      + unfold lcell at 1. rewrite upd_same.
        assert (Hk1 : (1 <= k)%nat) by (unfold j0 in Hk; lia).
        destruct k as [|K]; [lia|]. replace (S K - 1)%nat with K in * by lia.
        replace (S (S K) - 1)%nat with (S K) by lia. cbn [rsum].
        assert (Nat.leb (I - m) K = true) as -> by (apply Nat.leb_le; unfold j0 in Hk; lia).
        unfold lcell in H2 at 1. rewrite H2.
        rewrite !H1 by lia. unfold lcell.
        replace (S I - S K)%nat with (I - K)%nat by lia. replace (S J - S K)%nat with (J - K)%nat by lia. lra. }
  destruct HP as [A B]. split; auto.
  rewrite B. unfold lsum_row. replace (S J - 1)%nat with J by lia. reflexivity.
Qed.

Lemma ldl_cell_step : forall m rot a I J, (J <= I)%nat -> (I - J <= m)%nat -> ldl_inv m rot a I J ->
  ldl_inv m rot (ldl_cell (Nat.max 1 (S I - m)) (S I) (S J) a) I (S J).
Proof.
  intros m rot a I J HJ Hb Hinv. unfold ldl_cell.
  destruct (inner_loop m a I J HJ Hb) as [Hother Hcell].
  set (r := for_range _ _ _ a) in *.
  set (a' := if Nat.ltb (S J) (S I) then _ else r).
  assert (Ho : forall r' c', r' <> J \/ c' <> (I - J)%nat -> a' r' c' = a r' c').
  { intros r' c' Hne. unfold a'. destruct (Nat.ltb (S J) (S I)); auto.
    rewrite upd_other by (replace (S J - 1)%nat with J by lia; replace (S I - S J)%nat with (I - J)%nat by lia; auto). auto. }
  assert (Hlc : forall I' J', (J' <= I')%nat -> (I' <> I \/ J' <> J) -> lcell a' I' J' = lcell a I' J').
  { intros I' J' H1 H2. unfold lcell. apply Ho. lia. }
  assert (Hdiag : forall K, (K < I)%nat \/ (K <> J)%nat -> a' K 0%nat = a K 0%nat).
  { intros K HK. apply Ho. lia. }
  assert (Hnew : cell_eq m rot a' I J).
  { unfold cell_eq.
    assert (Hs : lsum_row m a' I J = lsum_row m a I J).
    { apply lsum_row_ext. intros K HK _. split; [apply Hlc; lia|]. split; [apply Hlc; lia|]. apply Ho. lia. }
    rewrite Hs. destruct (Hinv I J HJ Hb) as [_ Hold]. specialize (Hold (or_intror (conj eq_refl (le_n J)))).
    unfold a' at 1. change (Nat.ltb (S J) (S I)) with (Nat.ltb J I). destruct (Nat.ltb J I) eqn:E.
    - apply Nat.ltb_lt in E. unfold lcell at 1. replace (S J - 1)%nat with J by lia. replace (S I - S J)%nat with (I - J)%nat by lia.
      rewrite upd_same. rewrite (Hdiag J) by lia. unfold lcell in Hcell at 1. rewrite Hcell, Hold.
      rewrite (Hother J 0%nat) by lia. reflexivity.
    - rewrite Hcell, Hold. reflexivity. }
  intros I' J' H1 H2. split.
  - intros Hdone. destruct (Nat.eq_dec I' I) as [->|HI]; [destruct (Nat.eq_dec J' J) as [->|HJ']; [exact Hnew|]|].
    + destruct (Hinv I J' H1 H2) as [Hd _]. specialize (Hd ltac:(lia)). unfold cell_eq in *.
      rewrite Hlc by lia. rewrite (lsum_row_ext m a' a).
      * destruct (Nat.ltb J' I) eqn:E; auto. apply Nat.ltb_lt in E. rewrite Hdiag by lia. auto.
      * intros K HK _. split; [apply Hlc; lia|]. split; [apply Hlc; lia|]. apply Ho. lia.
    + destruct (Hinv I' J' H1 H2) as [Hd _]. specialize (Hd ltac:(lia)). unfold cell_eq in *.
      rewrite Hlc by lia. rewrite (lsum_row_ext m a' a).
      * destruct (Nat.ltb J' I') eqn:E; auto. apply Nat.ltb_lt in E. rewrite Hdiag by lia. auto.
      * intros K HK _. split; [apply Hlc; lia|]. split; [apply Hlc; lia|]. apply Hdiag. lia.
  - intros Hun. rewrite Hlc by lia. apply (Hinv I' J' H1 H2). lia.
Qed.

Lemma ldl_row : forall m rot a I, ldl_inv m rot a I 0 ->
  ldl_inv m rot (for_range (Nat.max 1 (S I - m)) (S I + 1) (fun j a => ldl_cell (Nat.max 1 (S I - m)) (S I) j a) a) (S I) 0.
Proof.
  intros m rot a I Hinv.
  set (P := fun (j : nat) (b : mat) => ldl_inv m rot b I (j - 1)).
  set (r := for_range _ _ _ a).
  assert (H : P (S I + 1)%nat r).
  { unfold r. apply for_range_inv with (P := P).
    - lia.
    - intros I' J' H1 H2. destruct (Hinv I' J' H1 H2) as [A B]. split.
      + intros Hd. apply A. lia.
      + intros Hd. apply B. lia.
    - intros j b Hj Hb. unfold P in *. destruct j as [|j]; [lia|]. replace (S (S j) - 1)%nat with (S j) by lia.
      replace (S j - 1)%nat with j in Hb by lia. apply ldl_cell_step; auto; lia. }
  unfold P in H. replace (S I + 1 - 1)%nat with (S I) in H by lia.
  intros I' J' H1 H2. destruct (H I' J' H1 H2) as [A B]. split; intros Hd; [apply A|apply B]; lia.
Qed.

Lemma ldl_final : forall n m rot I J, (I < n)%nat -> (J <= I)%nat -> (I - J <= m)%nat -> cell_eq m rot (ldl n m rot) I J.
Proof.
  intros n m rot I J HI HJ Hb.
  assert (H : ldl_inv m rot (ldl n m rot) n 0).
  { set (P := fun (i : nat) (b : mat) => ldl_inv m rot b (i - 1) 0).
    assert (HP : P (n + 1)%nat (ldl n m rot)).
    { unfold ldl. apply for_range_inv with (P := P).
      - lia.
      - intros I' J' H1 H2. split; intros; [lia|reflexivity].
      - intros i b Hi Hinv. unfold P in *. destruct i as [|i]; [lia|]. replace (S (S i) - 1)%nat with (S i) by lia.
        apply ldl_row. replace (S i - 1)%nat with i in Hinv by lia. exact Hinv. }
    unfold P in HP. replace (n + 1 - 1)%nat with n in HP by lia. exact HP. }
  apply (H I J HJ Hb). lia.
Qed.

(** The factors as full matrices. *)
Definition lmat (m : nat) (l : mat) (i k : nat) : R :=
  if Nat.eqb k i then 1 else if Nat.ltb k i && Nat.leb (i - k) m then l k (i - k)%nat else 0.

Lemma lmat_diag : forall m l i, lmat m l i i = 1.
Proof. intros. unfold lmat. rewrite Nat.eqb_refl. reflexivity. Qed.

Lemma lmat_upper : forall m l i k, (i < k)%nat -> lmat m l i k = 0.
Proof.
  intros. unfold lmat. assert (Nat.eqb k i = false) as -> by (apply Nat.eqb_neq; lia).
  assert (Nat.ltb k i = false) as -> by (apply Nat.ltb_ge; lia). reflexivity.
Qed.

Lemma lmat_lower : forall m l i k, (k < i)%nat -> lmat m l i k = if Nat.leb (i - k) m then l k (i - k)%nat else 0.
Proof.
  intros. unfold lmat. assert (Nat.eqb k i = false) as -> by (apply Nat.eqb_neq; lia).
  assert (Nat.ltb k i = true) as -> by (apply Nat.ltb_lt; lia). reflexivity.
Qed.

Lemma rsum_prefix : forall n j f, (j < n)%nat -> (forall k, (j < k < n)%nat -> f k = 0) -> rsum n f = rsum j f + f j.
Proof.
  intros n j f Hj Hz. replace n with (S j + (n - S j))%nat by lia. rewrite rsum_app.
  rewrite (rsum_zero (n - S j)); [simpl; lra|]. intros i Hi. apply Hz. lia.
Qed.

Lemma unrotate_sym : forall m rot i j, unrotate m rot i j = unrotate m rot j i.
Proof.
  intros. unfold unrotate. destruct (Nat.leb i j) eqn:E1; destruct (Nat.leb j i) eqn:E2; auto.
  - apply Nat.leb_le in E1, E2. assert (i = j) by lia. subst. reflexivity.
  - apply Nat.leb_gt in E1, E2. lia.
Qed.

Lemma factor_lower : forall n m rot p I J, (I < n)%nat -> (J <= I)%nat -> (I < p)%nat ->
  ((J < I)%nat -> ldl n m rot J 0%nat <> 0) ->
  unrotate m rot I J = rsum p (fun k => lmat m (ldl n m rot) I k * ldl n m rot k 0%nat * lmat m (ldl n m rot) J k).
Proof.
  intros n m rot p I J HI HJ Hp Hd. set (l := ldl n m rot) in *.
  rewrite (rsum_prefix p J) by (lia || (intros; rewrite (lmat_upper m l J) by lia; ring)).
  rewrite lmat_diag.
  assert (Hu : unrotate m rot I J = if Nat.leb (I - J) m then lcell rot I J else 0).
  { rewrite unrotate_sym. unfold unrotate. assert (Nat.leb J I = true) as -> by (apply Nat.leb_le; lia). reflexivity. }
  rewrite Hu. destruct (Nat.leb (I - J) m) eqn:E.
  - apply Nat.leb_le in E. pose proof (ldl_final n m rot I J HI HJ E) as Hc. fold l in Hc. unfold cell_eq in Hc.
    assert (Hs : rsum J (fun k => lmat m l I k * l k 0%nat * lmat m l J k) = lsum_row m l I J).
    { apply rsum_ext. intros K HK. rewrite (lmat_lower m l I K), (lmat_lower m l J K) by lia.
      destruct (Nat.leb (I - m) K) eqn:EK.
      - apply Nat.leb_le in EK. assert (Nat.leb (I - K) m = true) as -> by (apply Nat.leb_le; lia).
        assert (Nat.leb (J - K) m = true) as -> by (apply Nat.leb_le; lia). unfold lcell. ring.
      - apply Nat.leb_gt in EK. assert (Nat.leb (I - K) m = false) as -> by (apply Nat.leb_gt; lia). ring. }
    rewrite Hs. destruct (Nat.eq_dec J I) as [->|Hne].
    + rewrite Nat.ltb_irrefl in Hc. rewrite lmat_diag. unfold lcell in *. rewrite Nat.sub_diag in *. lra.
    + assert (Hlt : (J < I)%nat) by lia. assert (Nat.ltb J I = true) as El by (apply Nat.ltb_lt; lia). rewrite El in Hc.
      rewrite lmat_lower by lia. assert (Nat.leb (I - J) m = true) as -> by (apply Nat.leb_le; lia).
      unfold lcell at 1 in Hc. rewrite Hc. field. apply Hd. exact Hlt.
  - apply Nat.leb_gt in E. rewrite rsum_zero.
    + rewrite lmat_lower by lia. assert (Nat.leb (I - J) m = false) as -> by (apply Nat.leb_gt; lia). ring.
    + intros k Hk. rewrite lmat_lower by lia. assert (Nat.leb (I - k) m = false) as -> by (apply Nat.leb_gt; lia). ring.
Qed.

Lemma factor : forall n m rot p I J, (I < n)%nat -> (J < n)%nat -> (I < p)%nat -> (J < p)%nat ->
  (forall k, (k < Nat.max I J)%nat -> ldl n m rot k 0%nat <> 0) ->
  unrotate m rot I J = rsum p (fun k => lmat m (ldl n m rot) I k * ldl n m rot k 0%nat * lmat m (ldl n m rot) J k).
Proof.
  intros n m rot p I J HI HJ Hp Hq Hd. destruct (Nat.le_gt_cases J I).
  - apply factor_lower; auto. intros. apply Hd. lia.
  - rewrite unrotate_sym. rewrite (factor_lower n m rot p J I) by (auto; try lia; intros; apply Hd; lia).
    apply rsum_ext. intros. ring.
Qed.

(** A vector that isolates pivot i. *)
Lemma isolate : forall n (l : nat -> nat -> R) i, (i < n)%nat -> (forall k, l k k = 1) ->
  (forall a b, (a < b)%nat -> l a b = 0) ->
  exists v, v i = 1 /\ (forall p, (i < p)%nat -> v p = 0) /\ forall k, (k < i)%nat -> rsum n (fun p => l p k * v p) = 0.
Proof.
  intros n l i Hi Hdiag Hup.
  assert (H : forall s, (s <= i)%nat -> exists v, v i = 1 /\ (forall p, (i < p)%nat -> v p = 0) /\
            forall k, (i - s <= k < i)%nat -> rsum n (fun p => l p k * v p) = 0).
  { induction s as [|s IH]; intros Hs.
    - exists (fun p => if Nat.eqb p i then 1 else 0). split; [rewrite Nat.eqb_refl; auto|]. split.
      + intros p Hp. assert (Nat.eqb p i = false) as -> by (apply Nat.eqb_neq; lia). reflexivity.
      + intros k Hk. lia.
    - destruct (IH ltac:(lia)) as [v [H1 [H2 H3]]]. set (q := (i - S s)%nat).
      set (c := rsum n (fun p => l p q * v p)).
      exists (fun p => v p - (if Nat.eqb p q then c else 0)). split.
      { assert (Nat.eqb i q = false) as -> by (apply Nat.eqb_neq; unfold q; lia). lra. }
      split.
      { intros p Hp. assert (Nat.eqb p q = false) as -> by (apply Nat.eqb_neq; unfold q; lia). rewrite H2; auto; lra. }
      intros k Hk. rewrite (rsum_ext n _ (fun p => l p k * v p - l p k * (if Nat.eqb p q then c else 0))) by (intros; ring).
      rewrite rsum_minus. rewrite (rsum_single n q (fun p => l p k * (if Nat.eqb p q then c else 0))).
      + rewrite Nat.eqb_refl. destruct (Nat.eq_dec k q) as [->|Hne].
        * rewrite Hdiag. unfold c. lra.
        * rewrite (Hup q k) by (unfold q in *; lia). rewrite H3 by (unfold q in *; lia). lra.
      + unfold q. lia.
      + intros p Hp Hne. apply Nat.eqb_neq in Hne. rewrite Hne. ring. }
  destruct (H i (le_n i)) as [v [H1 [H2 H3]]]. exists v. split; auto. split; auto. intros k Hk. apply H3. lia.
Qed.

Lemma quad_factor : forall n (a l : nat -> nat -> R) (d v : nat -> R) p, (p <= n)%nat ->
  (forall i, (p <= i)%nat -> v i = 0) ->
  (forall i j, (i < p)%nat -> (j < p)%nat -> a i j = rsum p (fun k => l i k * d k * l j k)) ->
  quad n a v = rsum p (fun k => d k * (rsum p (fun i => l i k * v i) * rsum p (fun i => l i k * v i))).
Proof.
  intros n a l d v p Hp Hv Ha. unfold quad, mul_mv.
  assert (Hcut : forall f, (forall i, (p <= i)%nat -> f i = 0) -> rsum n f = rsum p f).
  { intros f Hf. replace n with (p + (n - p))%nat by lia. rewrite rsum_app. rewrite (rsum_zero (n - p)); [lra|].
    intros. apply Hf. lia. }
  rewrite Hcut by (intros; rewrite Hv by auto; ring).
  rewrite (rsum_ext p _ (fun i => rsum p (fun k => v i * (l i k * d k * rsum p (fun j => l j k * v j))))).
  - rewrite rsum_swap. apply rsum_ext. intros k Hk.
    rewrite (rsum_ext p _ (fun i => (l i k * v i) * (d k * rsum p (fun j => l j k * v j)))) by (intros; ring).
    rewrite rsum_scal_r. ring.
  - intros i Hi. rewrite Hcut by (intros; rewrite Hv by auto; ring).
    rewrite rsum_scal. f_equal.
    rewrite (rsum_ext p _ (fun j => rsum p (fun k => l i k * d k * l j k * v j))).
    + rewrite rsum_swap. apply rsum_ext. intros k Hk.
      rewrite (rsum_ext p _ (fun j => (l i k * d k) * (l j k * v j))) by (intros; ring). rewrite rsum_scal. reflexivity.
    + intros j Hj. rewrite Ha by auto. rewrite <- rsum_scal_r. apply rsum_ext. intros. ring.
Qed.

Lemma pivots_positive : forall n m rot, positive_definite n (unrotate m rot) ->
  forall i, (i < n)%nat -> 0 < ldl n m rot i 0%nat.
Proof.
  intros n m rot Hpd i. induction i as [i IH] using lt_wf_ind. intros Hi.
  set (l := ldl n m rot) in *.
  destruct (isolate (S i) (lmat m l) i ltac:(lia) (lmat_diag m l) (lmat_upper m l)) as [v [V1 [V2 V3]]].
  assert (Hq : quad n (unrotate m rot) v = l i 0%nat).
  { rewrite (quad_factor n _ (lmat m l) (fun k => l k 0%nat) v (S i)).
    - cbn [rsum]. rewrite rsum_zero.
      + assert (Hlast : rsum i (fun i0 => lmat m l i0 i * v i0) + lmat m l i i * v i = 1).
        { rewrite rsum_zero by (intros; rewrite lmat_upper by lia; ring). rewrite lmat_diag, V1. ring. }
        rewrite Hlast. ring.
      + intros k Hk. specialize (V3 k Hk). cbn [rsum] in V3. rewrite V3. ring.
    - lia.
    - intros p Hp. apply V2. lia.
    - intros a b Ha Hb. unfold l. apply factor; try lia.
      intros k Hk. apply Rgt_not_eq. apply IH; lia. }
  rewrite <- Hq. apply Hpd. exists i. split; auto. rewrite V1. lra.
Qed.

(** Substitutions. *)
Lemma forward_inner : forall k l x I, 
  let r := for_range 1 (Nat.min (S I - 1) k + 1) (fun j x => vupd x (S I - 1) (x (S I - 1)%nat - l (S I - j - 1)%nat j * x (S I - j - 1)%nat)) x in
  (forall q, q <> I -> r q = x q) /\
  r I = x I - rsum (Nat.min I k) (fun q => l (I - S q)%nat (S q) * x (I - S q)%nat).
Proof.
  intros k l x I r.
  set (P := fun (j : nat) (y : vec) => (forall q, q <> I -> y q = x q) /\
    y I = x I - rsum (j - 1) (fun q => l (I - S q)%nat (S q) * x (I - S q)%nat)).
  assert (HP : P (Nat.min I k + 1)%nat r).
  { unfold r. replace (S I - 1)%nat with I by lia. apply for_range_inv with (P := P).
    - lia.
    - split; auto. simpl. lra.
    - intros j y Hj [H1 H2]. split.
      + intros q Hq. rewrite vupd_other by auto. auto.
      + rewrite vupd_same. destruct j as [|j]; [lia|]. replace (S (S j) - 1)%nat with (S j) by lia. cbn [rsum].
        replace (S j - 1)%nat with j in H2 by lia. rewrite H2.
        replace (S I - S j - 1)%nat with (I - S j)%nat by lia. rewrite H1 by lia. lra. }
  destruct HP as [A B]. split; auto. rewrite B. replace (Nat.min I k + 1 - 1)%nat with (Nat.min I k) by lia. reflexivity.
Qed.

Lemma band_sum_below : forall I m f, 
  rsum (Nat.min I m) (fun q => f (I - S q)%nat) = rsum I (fun K => if Nat.leb (I - K) m then f K else 0).
Proof.
  intros I m f. rewrite <- (rsum_rev I). replace I with (Nat.min I m + (I - Nat.min I m))%nat at 2 by lia.
  rewrite rsum_app. rewrite (rsum_zero (I - Nat.min I m)).
  - rewrite Rplus_0_r. apply rsum_ext. intros q Hq. assert (Nat.leb (I - (I - 1 - q)) m = true) as -> by (apply Nat.leb_le; lia).
    f_equal. lia.
  - intros q Hq. assert (Nat.leb (I - (I - 1 - (Nat.min I m + q))) m = false) as -> by (apply Nat.leb_gt; lia). reflexivity.
Qed.

Lemma forward_spec : forall n m l b I, (I < n)%nat ->
  b I = rsum n (fun K => lmat m l I K * forward n m l b K).
Proof.
  intros n m l b.
  set (Eq := fun (y : vec) (I : nat) => y I = b I - rsum (Nat.min I m) (fun q => l (I - S q)%nat (S q) * y (I - S q)%nat)).
  assert (H : forall I, (I < n)%nat -> Eq (forward n m l b) I).
  { intros I HI. 
    assert (Hall : forall I, ((S I < n + 1)%nat -> Eq (forward n m l b) I) /\ ((n + 1 <= S I)%nat -> forward n m l b I = b I)).
    { unfold forward. destruct (Nat.le_gt_cases 2 (n + 1)) as [Hn|Hn].
      - apply for_range_inv with (P := fun i y => forall I, ((S I < i)%nat -> Eq y I) /\ ((i <= S I)%nat -> y I = b I)).
        + auto.
        + intros J. split; auto. intros HJ. assert (J = 0%nat) by lia. subst J. unfold Eq. simpl. lra.
        + intros i y Hi Hinv J. destruct i as [|i]; [lia|].
          destruct (forward_inner m l y i) as [F1 F2]. set (r := for_range 1 (Nat.min (S i - 1) m + 1) _ y) in *.
          split.
          * intros HJ. destruct (Nat.eq_dec J i) as [->|HJi].
            -- unfold Eq. rewrite F2. rewrite (proj2 (Hinv i)) by lia. f_equal. apply rsum_ext. intros q Hq. rewrite F1 by lia. reflexivity.
            -- unfold Eq. rewrite F1 by auto. rewrite (proj1 (Hinv J)) by lia. f_equal. apply rsum_ext. intros q Hq. rewrite F1 by lia. reflexivity.
          * intros HJ. rewrite F1 by lia. apply Hinv. lia.
      - intros J. assert (n = 0%nat) by lia. subst n. lia. }
    apply Hall. lia. }
  intros I HI. specialize (H I HI). unfold Eq in H. set (y := forward n m l b) in *.
  rewrite (rsum_prefix n I) by (lia || (intros; rewrite lmat_upper by lia; ring)).
  rewrite lmat_diag. rewrite (rsum_ext I _ (fun K => if Nat.leb (I - K) m then l K (I - K)%nat * y K else 0)).
  - rewrite <- (band_sum_below I m (fun K => l K (I - K)%nat * y K)).
    rewrite H. rewrite (rsum_ext (Nat.min I m) (fun q => l (I - S q)%nat (I - (I - S q))%nat * y (I - S q)%nat) (fun q => l (I - S q)%nat (S q) * y (I - S q)%nat)).
    + lra.
    + intros q Hq. replace (I - (I - S q))%nat with (S q) by lia. reflexivity.
  - intros K HK. rewrite lmat_lower by auto. destruct (Nat.leb (I - K) m); ring.
Qed.

Lemma diagonal_spec : forall n l x i, (i < n)%nat -> diagonal n l x i = x i / l i 0%nat.
Proof.
  intros n l x.
  assert (H : forall i, ((i < n)%nat -> diagonal n l x i = x i / l i 0%nat) /\ ((n <= i)%nat -> diagonal n l x i = x i)).
  { unfold diagonal. apply for_range_inv with (P := fun k y => forall i, ((i < k)%nat -> y i = x i / l i 0%nat) /\ ((k <= i)%nat -> y i = x i)).
    - lia.
    - intros i. split; auto. lia.
    - intros k y Hk Hinv i. split.
      + intros Hi. destruct (Nat.eq_dec i k) as [->|Hne].
        * rewrite vupd_same. rewrite (proj2 (Hinv k)) by lia. reflexivity.
        * rewrite vupd_other by auto. apply Hinv. lia.
      + intros Hi. rewrite vupd_other by lia. apply Hinv. lia. }
  intros i Hi. apply H. auto.
Qed.

Lemma backward_inner : forall n k l x I, (S I < n)%nat ->
  let r := for_range 1 (Nat.min (n - S I) k + 1) (fun j x => vupd x (S I - 1) (x (S I - 1)%nat - l (S I - 1)%nat j * x (S I + j - 1)%nat)) x in
  (forall q, q <> I -> r q = x q) /\
  r I = x I - rsum (Nat.min (n - S I) k) (fun q => l I (S q) * x (I + S q)%nat).
Proof.
  intros n k l x I HI r.
  set (P := fun (j : nat) (y : vec) => (forall q, q <> I -> y q = x q) /\
    y I = x I - rsum (j - 1) (fun q => l I (S q) * x (I + S q)%nat)).
  assert (HP : P (Nat.min (n - S I) k + 1)%nat r).
  { unfold r. replace (S I - 1)%nat with I by lia. apply for_range_inv with (P := P).
    - lia.
    - split; auto. simpl. lra.
    - intros j y Hj [H1 H2]. split.
      + intros q Hq. rewrite vupd_other by auto. auto.
      + rewrite vupd_same. destruct j as [|j]; [lia|]. replace (S (S j) - 1)%nat with (S j) by lia. cbn [rsum].
        replace (S j - 1)%nat with j in H2 by lia. rewrite H2.
        replace (S I + S j - 1)%nat with (I + S j)%nat by lia. rewrite H1 by lia. lra. }
  destruct HP as [A B]. split; auto. rewrite B. replace (Nat.min (n - S I) k + 1 - 1)%nat with (Nat.min (n - S I) k) by lia. reflexivity.
Qed.

Lemma band_sum_above : forall n I m f, (I < n)%nat ->
  rsum (Nat.min (n - S I) m) (fun q => f (I + S q)%nat) =
  rsum n (fun K => if Nat.ltb I K && Nat.leb (K - I) m then f K else 0).
Proof.
  intros n I m f HI. replace n with (S I + (Nat.min (n - S I) m + (n - S I - Nat.min (n - S I) m)))%nat at 2 by lia.
  rewrite !rsum_app. rewrite (rsum_zero (S I)), (rsum_zero (n - S I - Nat.min (n - S I) m)).
  - rewrite Rplus_0_r, Rplus_0_l. apply rsum_ext. intros q Hq. assert (Nat.ltb I (S I + q) = true) as -> by (apply Nat.ltb_lt; lia).
    assert (Nat.leb (S I + q - I) m = true) as -> by (apply Nat.leb_le; lia). simpl. f_equal. lia.
  - intros q Hq. assert (Nat.leb (S I + (Nat.min (n - S I) m + q) - I) m = false) as -> by (apply Nat.leb_gt; lia).
    rewrite andb_false_r. reflexivity.
  - intros q Hq. assert (Nat.ltb I q = false) as -> by (apply Nat.ltb_ge; lia). reflexivity.
Qed.

Lemma backward_spec : forall n m l z I, (I < n)%nat ->
  z I = rsum n (fun P => lmat m l P I * backward n m l z P).
Proof.
  intros n m l z.
  set (Eq := fun (y : vec) (I : nat) => y I = z I - rsum (Nat.min (n - S I) m) (fun q => l I (S q) * y (I + S q)%nat)).
  assert (H : forall I, (I < n)%nat -> Eq (backward n m l z) I).
  { assert (Hgen : forall c y, (c < n)%nat -> (forall J, ((c <= J < n)%nat -> Eq y J) /\ ((J < c)%nat -> y J = z J)) ->
      forall J, (J < n)%nat -> Eq (fold_left (fun x i => for_range 1 (Nat.min (n - i) m + 1) (fun j x =>
        vupd x (i - 1) (x (i - 1)%nat - l (i - 1)%nat j * x (i + j - 1)%nat)) x) (rev (seq 1 c)) y) J).
    { induction c as [|c IH]; intros y Hc Hy J HJ.
      - simpl. apply Hy. lia.
      - rewrite seq_S, rev_app_distr. cbn [rev app fold_left]. replace (1 + c)%nat with (S c) by lia.
        apply IH; auto; [lia|]. intros K.
        destruct (backward_inner n m l y c ltac:(lia)) as [B1 B2]. set (r := for_range 1 (Nat.min (n - S c) m + 1) _ y) in *.
        split.
        + intros HK. destruct (Nat.eq_dec K c) as [->|HKc].
          * unfold Eq. rewrite B2. rewrite (proj2 (Hy c)) by lia. f_equal. apply rsum_ext. intros q Hq. rewrite B1 by lia. reflexivity.
          * unfold Eq. rewrite B1 by auto. rewrite (proj1 (Hy K)) by lia. f_equal. apply rsum_ext. intros q Hq. rewrite B1 by lia. reflexivity.
        + intros HK. rewrite B1 by lia. apply Hy. lia. }
    intros I HI. unfold backward. apply Hgen; auto; [lia|]. intros J. split; auto.
    intros HJ. unfold Eq. replace (n - S J)%nat with 0%nat by lia. simpl. lra. }
  intros I HI. specialize (H I HI). unfold Eq in H. set (y := backward n m l z) in *.
  rewrite (rsum_ext n _ (fun P => (if Nat.eqb P I then y P else 0) + (if Nat.ltb I P && Nat.leb (P - I) m then l I (P - I)%nat * y P else 0))).
  - rewrite rsum_plus. rewrite (rsum_single n I (fun P => if Nat.eqb P I then y P else 0)); auto.
    + rewrite Nat.eqb_refl. rewrite <- (band_sum_above n I m (fun P => l I (P - I)%nat * y P)) by auto.
      rewrite (rsum_ext (Nat.min (n - S I) m) _ (fun q => l I (S q) * y (I + S q)%nat)); [lra|].
      intros q Hq. replace (I + S q - I)%nat with (S q) by lia. reflexivity.
    + intros P _ Hne. apply Nat.eqb_neq in Hne. rewrite Hne. reflexivity.
  - intros P HP. unfold lmat. rewrite (Nat.eqb_sym I P). destruct (Nat.eqb P I) eqn:E.
    + apply Nat.eqb_eq in E. subst P. rewrite Nat.ltb_irrefl. simpl. ring.
    + destruct (Nat.ltb I P && Nat.leb (P - I) m); ring.
Qed.

Lemma kernel_solves : forall n m rot b, (forall i, (i < n)%nat -> ldl n m rot i 0%nat <> 0) ->
  solves n (unrotate m rot) (bandsolve_kernel n m rot b) b.
Proof.
  intros n m rot b Hd I HI. unfold bandsolve_kernel. set (l := ldl n m rot) in *.
  set (y := forward n m l b). set (z := diagonal n l y). set (x := backward n m l z).
  unfold mul_mv.
  rewrite (rsum_ext n _ (fun P => rsum n (fun k => (lmat m l I k * l k 0%nat) * (lmat m l P k * x P)))).
  - rewrite rsum_swap. rewrite (forward_spec n m l b I HI). fold y. apply rsum_ext. intros k Hk.
    rewrite rsum_scal. unfold x. rewrite <- (backward_spec n m l z k Hk). unfold z. rewrite diagonal_spec by auto.
    field. apply Hd. auto.
  - intros P HP. rewrite (factor n m rot n I P) by (auto; intros; apply Hd; lia). fold l.
    rewrite <- rsum_scal_r. apply rsum_ext. intros. ring.
Qed.

(** Uniqueness of solutions of positive definite systems. *)
Lemma pd_unique : forall n a b x y, positive_definite n a -> solves n a x b -> solves n a y b ->
  forall i, (i < n)%nat -> x i = y i.
Proof.
  intros n a b x y Hpd Hx Hy i Hi. destruct (Req_dec (x i) (y i)) as [|Hne]; auto. exfalso.
  assert (Hq : 0 < quad n a (fun i => x i - y i)) by (apply Hpd; exists i; split; auto; lra).
  assert (Hz : quad n a (fun i => x i - y i) = 0); [|lra].
  unfold quad. apply rsum_zero. intros j Hj.
  assert (Hm : mul_mv n a (fun i => x i - y i) j = 0).
  { unfold mul_mv. rewrite (rsum_ext n _ (fun k => a j k * x k - a j k * y k)) by (intros; ring). rewrite rsum_minus.
    specialize (Hx j Hj). specialize (Hy j Hj). unfold mul_mv in Hx, Hy. rewrite Hx, Hy. ring. }
  rewrite Hm. ring.
Qed.

Lemma Reqb_true : forall x y, Reqb x y = true <-> x = y.
Proof. intros. unfold Reqb. destruct (Req_EM_T x y); split; intros; auto; congruence. Qed.

Lemma Reqb_false : forall x y, Reqb x y = false <-> x <> y.
Proof. intros. unfold Reqb. destruct (Req_EM_T x y); split; intros; auto; congruence. Qed.

Lemma bandsolve_ok : forall n cols rot b x, bandsolve n cols rot n b = Ok x -> x = bandsolve_kernel n (cols - 1) rot b.
Proof.
  intros n cols rot b x H. unfold bandsolve in H. rewrite !raise_if_ok in H. destruct H as [_ [_ [_ H]]]. congruence.
Qed.

(** Binomial coefficients and differences. *)
Lemma comb_0 : forall n, comb n 0 = 1%nat.
Proof. destruct n; reflexivity. Qed.

Lemma comb_gt : forall n k, (n < k)%nat -> comb n k = 0%nat.
Proof. induction n; intros [|k] H; simpl; try lia; auto. rewrite !IHn by lia. reflexivity. Qed.

Lemma binom_0 : forall d, binom d 0 = 1.
Proof. intros. unfold binom. rewrite comb_0. simpl. ring. Qed.

Lemma binom_S : forall d i, binom (S d) (S i) = binom d (S i) - binom d i.
Proof. intros. unfold binom. cbn [comb]. rewrite plus_INR. simpl. ring. Qed.

Lemma binom_gt : forall d i, (d < i)%nat -> binom d i = 0.
Proof. intros. unfold binom. rewrite comb_gt by auto. simpl. ring. Qed.

Lemma difference_binom : forall d v k, difference d v k = (-1) ^ d * rsum (S d) (fun i => binom d i * v (k + i)%nat).
Proof.
  induction d as [|d IH]; intros v k.
  - simpl. rewrite binom_0. rewrite Nat.add_0_r. ring.
  - cbn [difference]. rewrite !IH.
    assert (H : rsum (S (S d)) (fun i => binom (S d) i * v (k + i)%nat) =
      rsum (S d) (fun i => binom d i * v (k + i)%nat) - rsum (S d) (fun i => binom d i * v (S k + i)%nat)).
    { rewrite rsum_first. rewrite binom_0.
      rewrite (rsum_ext (S d) (fun i => binom (S d) (S i) * v (k + S i)%nat)
                 (fun i => binom d (S i) * v (k + S i)%nat - binom d i * v (S k + i)%nat)).
      - rewrite rsum_minus.
        assert (E : rsum (S d) (fun i => binom d i * v (k + i)%nat) =
                    1 * v (k + 0)%nat + rsum (S d) (fun i => binom d (S i) * v (k + S i)%nat)).
        { rewrite (rsum_first d). rewrite binom_0. f_equal. cbn [rsum]. rewrite (binom_gt d (S d)) by lia. ring. }
        rewrite E. ring.
      - intros i Hi. rewrite binom_S. replace (k + S i)%nat with (S k + i)%nat by lia. ring. }
    rewrite H. simpl. ring.
Qed.

(** The difference matrix up to sign. *)
Definition dmat (d k c : nat) : R := if Nat.leb k c then binom d (c - k) else 0.

Lemma dmat_diff : forall p d v k, (k + d < p)%nat -> difference d v k = (-1) ^ d * rsum p (fun c => dmat d k c * v c).
Proof.
  intros p d v k H. rewrite difference_binom. f_equal.
  replace p with (k + (S d + (p - S d - k)))%nat by lia. rewrite !rsum_app.
  rewrite (rsum_zero k), (rsum_zero (p - S d - k)).
  - rewrite Rplus_0_l, Rplus_0_r. apply rsum_ext. intros i Hi. unfold dmat.
    assert (Nat.leb k (k + i) = true) as -> by (apply Nat.leb_le; lia). replace (k + i - k)%nat with i by lia. reflexivity.
  - intros i Hi. unfold dmat. assert (Nat.leb k (k + (S d + i)) = true) as -> by (apply Nat.leb_le; lia).
    rewrite binom_gt by lia. ring.
  - intros i Hi. unfold dmat. assert (Nat.leb k i = false) as -> by (apply Nat.leb_gt; lia). ring.
Qed.

Lemma for_range_sum : forall lo hi f, for_range lo hi (fun k t => t + f k) 0 = rsum (hi - lo) (fun q => f (lo + q)%nat).
Proof.
  intros lo hi f. destruct (Nat.le_gt_cases lo hi) as [H|H].
  - assert (HP : (fun h t => t = rsum (h - lo) (fun q => f (lo + q)%nat)) hi (for_range lo hi (fun k t => t + f k) 0)).
    { apply for_range_inv with (P := fun h t => t = rsum (h - lo) (fun q => f (lo + q)%nat)); auto.
      - rewrite Nat.sub_diag. reflexivity.
      - intros k t Hk ->. replace (S k - lo)%nat with (S (k - lo)) by lia. cbn [rsum].
        replace (lo + (k - lo))%nat with k by lia. reflexivity. }
    exact HP.
  - rewrite for_range_nil by lia. replace (hi - lo)%nat with 0%nat by lia. reflexivity.
Qed.

Lemma band_weight_upper : forall ws w d i j, (i <= j)%nat -> (j < ws + d)%nat ->
  (if Nat.leb (j - i) d then band_weight ws w d i (j - i)%nat else 0) = rsum ws (fun k => w k * (dmat d k i * dmat d k j)).
Proof.
  intros ws w d i j Hij Hj. destruct (Nat.leb (j - i) d) eqn:E.
  - apply Nat.leb_le in E. unfold band_weight.
    assert (Nat.ltb (j - i) (d + 1) && Nat.ltb i (ws + d - (j - i)) = true) as ->.
    { apply andb_true_iff. split; apply Nat.ltb_lt; lia. }
    cbv zeta. replace (i + (j - i))%nat with j by lia.
    set (stop := if Nat.ltb i (ws - 1) then (i + 1)%nat else ws).
    assert (Hstop : stop = Nat.min (i + 1) ws).
    { unfold stop. destruct (Nat.ltb i (ws - 1)) eqn:E2; [apply Nat.ltb_lt in E2|apply Nat.ltb_ge in E2]; lia. }
    rewrite (for_range_sum (j - d) stop (fun k => binom d (i - k) * binom d (j - k) * w k)). rewrite Hstop. clear stop Hstop.
    destruct (Nat.le_gt_cases (j - d) (Nat.min (i + 1) ws)) as [Hlo|Hlo].
    + replace ws with ((j - d) + ((Nat.min (i + 1) ws - (j - d)) + (ws - Nat.min (i + 1) ws)))%nat at 2 by lia.
      rewrite !rsum_app. rewrite (rsum_zero (j - d)), (rsum_zero (ws - Nat.min (i + 1) ws)).
      * rewrite Rplus_0_l, Rplus_0_r. apply rsum_ext. intros q Hq. unfold dmat.
        assert (Nat.leb (j - d + q) i = true) as -> by (apply Nat.leb_le; lia).
        assert (Nat.leb (j - d + q) j = true) as -> by (apply Nat.leb_le; lia). ring.
      * intros q Hq. unfold dmat.
        assert (Nat.leb (j - d + (Nat.min (i + 1) ws - (j - d) + q)) i = false) as -> by (apply Nat.leb_gt; lia). ring.
      * intros q Hq. unfold dmat. assert (Nat.leb q j = true) as -> by (apply Nat.leb_le; lia). rewrite (binom_gt d (j - q)) by lia. ring.
    + replace (Nat.min (i + 1) ws - (j - d))%nat with 0%nat by lia. simpl. symmetry. apply rsum_zero. intros q Hq. unfold dmat.
      destruct (Nat.leb q j) eqn:E1; [|ring]. destruct (Nat.leb q i) eqn:E2; [|ring].
      apply Nat.leb_le in E1, E2. rewrite (binom_gt d (j - q)) by lia. ring.
  - apply Nat.leb_gt in E. symmetry. apply rsum_zero. intros q Hq. unfold dmat.
    destruct (Nat.leb q j) eqn:E1; [|ring]. destruct (Nat.leb q i) eqn:E2; [|ring].
    apply Nat.leb_le in E1, E2. rewrite (binom_gt d (j - q)) by lia. ring.
Qed.

Lemma band_weight_spec : forall ws w d i j, (i < ws + d)%nat -> (j < ws + d)%nat ->
  unrotate d (band_weight ws w d) i j = rsum ws (fun k => w k * (dmat d k i * dmat d k j)).
Proof.
  intros ws w d i j Hi Hj. unfold unrotate. destruct (Nat.leb i j) eqn:E.
  - apply Nat.leb_le in E. apply band_weight_upper; auto.
  - apply Nat.leb_gt in E. rewrite band_weight_upper by lia. apply rsum_ext. intros. ring.
Qed.

Lemma band_weight_quad : forall p w d v, (d <= p)%nat ->
  quad p (unrotate d (band_weight (p - d) w d)) v =
  rsum (p - d) (fun k => w k * (difference d v k * difference d v k)).
Proof.
  intros p w d v Hd. unfold quad, mul_mv.
  rewrite (rsum_ext p _ (fun i => rsum (p - d) (fun k => v i * (w k * (dmat d k i * rsum p (fun j => dmat d k j * v j)))))).
  - rewrite rsum_swap. apply rsum_ext. intros k Hk.
    rewrite (rsum_ext p _ (fun i => (dmat d k i * v i) * (w k * rsum p (fun j => dmat d k j * v j)))) by (intros; ring).
    rewrite rsum_scal_r. rewrite !(dmat_diff p d v k) by lia.
    assert (Hs : (-1) ^ d * (-1) ^ d = 1).
    { rewrite <- Rpow_mult_distr. replace (-1 * -1) with 1 by ring. apply pow1. }
    set (q := rsum p _). transitivity (w k * (q * q) * ((-1) ^ d * (-1) ^ d)); [rewrite Hs|]; ring.
  - intros i Hi. rewrite rsum_scal. f_equal.
    rewrite (rsum_ext p _ (fun j => rsum (p - d) (fun k => w k * (dmat d k i * dmat d k j) * v j))).
    + rewrite rsum_swap. apply rsum_ext. intros k Hk. rewrite <- !rsum_scal. apply rsum_ext. intros. ring.
    + intros j Hj. rewrite band_weight_spec by lia. rewrite <- rsum_scal_r. reflexivity.
Qed.
