(** Sums of integers and rationals over index ranges, rounding to nearest even. *)
From Coq Require Import ZArith QArith Qround List Lia Lqa Bool.
Import ListNotations.

Fixpoint zsum (n : nat) (f : nat -> Z) : Z :=
  match n with O => 0%Z | S m => (zsum m f + f m)%Z end.

Fixpoint qsum (n : nat) (f : nat -> Q) : Q :=
  match n with O => 0%Q | S m => (qsum m f + f m)%Q end.

Lemma zsum_ext : forall n f g, (forall i, (i < n)%nat -> f i = g i) -> zsum n f = zsum n g.
Proof. induction n; intros; simpl; auto. rewrite (IHn f g), (H n) by (auto; lia). auto. Qed.
Lemma qsum_ext : forall n f g, (forall i, (i < n)%nat -> f i == g i)%Q -> (qsum n f == qsum n g)%Q.
Proof. induction n; intros; simpl; [lra|]. rewrite (IHn f g), (H n) by (auto; lia). lra. Qed.
Lemma zsum_plus : forall n f g, zsum n (fun i => f i + g i)%Z = (zsum n f + zsum n g)%Z.
Proof. induction n; intros; simpl; auto. rewrite IHn. lia. Qed.
Lemma qsum_plus : forall n f g, (qsum n (fun i => f i + g i) == qsum n f + qsum n g)%Q.
Proof. induction n; intros; simpl; [lra|]. rewrite IHn. lra. Qed.
Lemma zsum_scal : forall n c f, zsum n (fun i => c * f i)%Z = (c * zsum n f)%Z.
Proof. induction n; intros; simpl; [lia|]. rewrite IHn. lia. Qed.
Lemma qsum_scal : forall n c f, (qsum n (fun i => c * f i) == c * qsum n f)%Q.
Proof. induction n; intros; simpl; [lra|]. rewrite IHn. lra. Qed.
Lemma zsum_le : forall n f g, (forall i, (i < n)%nat -> f i <= g i)%Z -> (zsum n f <= zsum n g)%Z.
Proof. induction n; intros; simpl; [lia|]. pose proof (IHn f g ltac:(intros; apply H; lia)). pose proof (H n ltac:(lia)). lia. Qed.
Lemma qsum_le : forall n f g, (forall i, (i < n)%nat -> f i <= g i)%Q -> (qsum n f <= qsum n g)%Q.
Proof. induction n; intros; simpl; [lra|]. pose proof (IHn f g ltac:(intros; apply H; lia)). pose proof (H n ltac:(lia)). lra. Qed.
Lemma zsum_nonneg : forall n f, (forall i, (i < n)%nat -> 0 <= f i)%Z -> (0 <= zsum n f)%Z.
Proof. induction n; intros; simpl; [lia|]. pose proof (IHn f ltac:(intros; apply H; lia)). pose proof (H n ltac:(lia)). lia. Qed.
Lemma zsum_zero : forall n f, (forall i, (i < n)%nat -> f i = 0)%Z -> zsum n f = 0%Z.
Proof. induction n; intros; simpl; auto. rewrite IHn, H by (auto; intros; apply H; lia). auto. Qed.
Lemma qsum_inject : forall n f, (qsum n (fun i => inject_Z (f i)) == inject_Z (zsum n f))%Q.
Proof. induction n; intros; simpl; [reflexivity|]. rewrite IHn, inject_Z_plus. reflexivity. Qed.

(** Changing one entry. *)
Definition zset (f : nat -> Z) (c : nat) (v : Z) : nat -> Z := fun i => if Nat.eqb i c then v else f i.
Lemma zsum_set : forall n f c v, (c < n)%nat -> zsum n (zset f c v) = (zsum n f - f c + v)%Z.
Proof.
  induction n; intros; [lia|]. simpl. unfold zset at 2. destruct (Nat.eqb_spec n c).
  - subst. rewrite (zsum_ext c (zset f c v) f); [lia|]. intros. unfold zset. destruct (Nat.eqb_spec i c); [lia|auto].
  - rewrite IHn by lia. lia.
Qed.
Lemma qsum_set : forall n f c v, (c < n)%nat -> (qsum n (fun i => if Nat.eqb i c then v else f i) == qsum n f - f c + v)%Q.
Proof.
  induction n; intros; [lia|]. simpl. destruct (Nat.eqb_spec n c).
  - subst. rewrite (qsum_ext c _ f); [lra|]. intros. destruct (Nat.eqb_spec i c); [lia|lra].
  - rewrite IHn by lia. lra.
Qed.

(** Rounding to the nearest integer, ties to even ([np.rint]). *)
Definition rint (x : Q) : Z :=
  let f := Qfloor x in
  match Qcompare (x - inject_Z f) (1 # 2) with
  | Lt => f
  | Gt => (f + 1)%Z
  | Eq => if Z.even f then f else (f + 1)%Z
  end.

Lemma floor_bounds : forall x, (inject_Z (Qfloor x) <= x /\ x < inject_Z (Qfloor x) + 1)%Q.
Proof.
  intros. split; [apply Qfloor_le|]. pose proof (Qlt_floor x). rewrite inject_Z_plus in H. exact H.
Qed.

Lemma rint_error : forall x, (inject_Z (rint x) - x <= 1 # 2 /\ x - inject_Z (rint x) <= 1 # 2)%Q.
Proof.
  intros x. unfold rint. destruct (floor_bounds x) as [H1 H2].
  destruct (Qcompare_spec (x - inject_Z (Qfloor x)) (1 # 2)) as [H|H|H].
  - destruct (Z.even _); rewrite ?inject_Z_plus; change (inject_Z 1) with 1%Q; split; lra.
  - split; lra.
  - rewrite inject_Z_plus; change (inject_Z 1) with 1%Q; split; lra.
Qed.

Lemma inject_le : forall a b, (inject_Z a <= inject_Z b)%Q <-> (a <= b)%Z.
Proof. intros. rewrite Zle_Qle. reflexivity. Qed.
Lemma inject_lt : forall a b, (inject_Z a < inject_Z b)%Q <-> (a < b)%Z.
Proof. intros. rewrite Zlt_Qlt. reflexivity. Qed.

Lemma floor_unique : forall x n, (inject_Z n <= x)%Q -> (x < inject_Z n + 1)%Q -> Qfloor x = n.
Proof.
  intros x n H1 H2. destruct (floor_bounds x) as [H3 H4].
  assert (n < Qfloor x + 1)%Z. { apply inject_lt. rewrite inject_Z_plus. change (inject_Z 1) with 1%Q. lra. }
  assert (Qfloor x < n + 1)%Z. { apply inject_lt. rewrite inject_Z_plus. change (inject_Z 1) with 1%Q. lra. }
  lia.
Qed.

Lemma rint_comp : forall x y, (x == y)%Q -> rint x = rint y.
Proof.
  intros x y H. unfold rint. assert (Qfloor x = Qfloor y) as -> by (apply Qfloor_comp; auto).
  assert ((x - inject_Z (Qfloor y) ?= 1 # 2) = (y - inject_Z (Qfloor y) ?= 1 # 2))%Q as -> by (apply Qcompare_comp; [rewrite H|]; reflexivity).
  reflexivity.
Qed.

Lemma rint_floor : forall x, (Qfloor x <= rint x <= Qfloor x + 1)%Z.
Proof. intros. unfold rint. destruct (_ ?= _)%Q; try destruct (Z.even _); lia. Qed.

Lemma rint_mono : forall x y, (x <= y)%Q -> (rint x <= rint y)%Z.
Proof.
  intros x y H. destruct (Z.le_gt_cases (rint x) (rint y)) as [|Hlt]; auto. exfalso.
  assert (Hf : (Qfloor x <= Qfloor y)%Z) by (apply Qfloor_resp_le; auto).
  destruct (floor_bounds x) as [A1 A2], (floor_bounds y) as [B1 B2].
  destruct (Z.eq_dec (Qfloor x) (Qfloor y)) as [E|E].
  - unfold rint in Hlt. rewrite E in *. destruct (Qcompare_spec (x - inject_Z (Qfloor y)) (1 # 2)), (Qcompare_spec (y - inject_Z (Qfloor y)) (1 # 2));
      try destruct (Z.even (Qfloor y)); try lia; lra.
  - pose proof (rint_floor x). pose proof (rint_floor y). lia.
Qed.

Lemma rint_int : forall n, rint (inject_Z n) = n.
Proof.
  intros. unfold rint. rewrite Qfloor_Z. assert ((inject_Z n - inject_Z n ?= 1 # 2)%Q = Lt) as ->; auto.
  rewrite <- Qlt_alt. lra.
Qed.

(** [np.round(x, -k)] for k >= 0: the nearest multiple of 10^k, ties to even. *)
Definition pow10 (k : nat) : Z := (10 ^ Z.of_nat k)%Z.
Definition round_to (k : nat) (x : Q) : Z := (rint (x / inject_Z (pow10 k)) * pow10 k)%Z.

Lemma pow10_pos : forall k, (0 < pow10 k)%Z.
Proof. intros. unfold pow10. apply Z.pow_pos_nonneg; lia. Qed.

Lemma round_to_multiple : forall k x, (pow10 k | round_to k x)%Z.
Proof. intros. unfold round_to. exists (rint (x / inject_Z (pow10 k))). reflexivity. Qed.

Lemma round_to_mono : forall k x y, (x <= y)%Q -> (round_to k x <= round_to k y)%Z.
Proof.
  intros. unfold round_to. pose proof (pow10_pos k). apply Z.mul_le_mono_nonneg_r; [lia|]. apply rint_mono.
  unfold Qdiv. apply Qmult_le_compat_r; auto. apply Qinv_le_0_compat. change 0%Q with (inject_Z 0). apply inject_le. lia.
Qed.

Lemma round_to_fixed : forall k z, (pow10 k | z)%Z -> round_to k (inject_Z z) = z.
Proof.
  intros k z [c ->]. unfold round_to. pose proof (pow10_pos k).
  assert (rint (inject_Z (c * pow10 k) / inject_Z (pow10 k)) = c) as ->; auto.
  rewrite <- (rint_int c) at 2. apply rint_comp. rewrite inject_Z_mult. field. intros H0.
  change 0%Q with (inject_Z 0) in H0. apply Qeq_alt in H0. unfold Qcompare in H0. simpl in H0. rewrite !Z.mul_1_r in H0.
  apply Z.compare_eq in H0. lia.
Qed.

Lemma round_to_error : forall k x, (inject_Z (round_to k x) - x <= inject_Z (pow10 k) * (1 # 2) /\ x - inject_Z (round_to k x) <= inject_Z (pow10 k) * (1 # 2))%Q.
Proof.
  intros k x. unfold round_to. pose proof (pow10_pos k) as Hp. rewrite inject_Z_mult.
  assert (Hq : (0 < inject_Z (pow10 k))%Q) by (change 0%Q with (inject_Z 0); apply inject_lt; auto).
  destruct (rint_error (x / inject_Z (pow10 k))) as [H1 H2]. set (r := inject_Z (rint (x / inject_Z (pow10 k)))) in *.
  set (p := inject_Z (pow10 k)) in *.
  assert (E : (x == x / p * p)%Q) by (field; lra). set (q := (x / p)%Q) in *. rewrite E. split; nra.
Qed.
