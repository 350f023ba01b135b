(** Proofs about numbers written in a report. *)
From Coq Require Import ZArith NArith QArith Qround Qabs String Ascii List Bool Arith Lia Lqa DecimalString DecimalPos DecimalN DecimalFacts Decimal Permutation.
From Verif Require Import Lib_QSum Lib_Sort M_Base M_Opt P_Opt P_OptGrid M_Format S_Format.
Import ListNotations.
Local Open Scope string_scope.
Local Open Scope list_scope.
Local Infix "+++" := String.append (at level 60, right associativity).

(** * Digits *)
Lemma append_assoc : forall a b c, ((a +++ b) +++ c) = (a +++ (b +++ c)).
Proof. induction a as [|x a IH]; intros b c; [reflexivity|]. cbn [String.append]. rewrite IH. reflexivity. Qed.
Lemma append_length : forall a b, String.length (a +++ b) = (String.length a + String.length b)%nat.
Proof. induction a as [|x a IH]; intros b; [reflexivity|]. cbn [String.append String.length]. rewrite IH. reflexivity. Qed.
Lemma append_empty : forall a, (a +++ "") = a.
Proof. induction a as [|x a IH]; [reflexivity|]. cbn [String.append]. rewrite IH. reflexivity. Qed.

Definition dig (r : N) (d : uint) : uint :=
  if N.eqb r 0 then D0 d else if N.eqb r 1 then D1 d else if N.eqb r 2 then D2 d else if N.eqb r 3 then D3 d
  else if N.eqb r 4 then D4 d else if N.eqb r 5 then D5 d else if N.eqb r 6 then D6 d else if N.eqb r 7 then D7 d
  else if N.eqb r 8 then D8 d else D9 d.
Lemma dig_spec : forall r d, (r < 10)%N -> DecimalPos.Unsigned.of_lu (dig r d) = (r + 10 * DecimalPos.Unsigned.of_lu d)%N /\ nb_digits (dig r d) = S (nb_digits d).
Proof.
  intros r d H. unfold dig.
  repeat match goal with |- context [N.eqb r ?k] => destruct (N.eqb_spec r k); [subst r; split; reflexivity|] end.
  assert (r = 9)%N by lia. subst r. split; reflexivity.
Qed.
Lemma little : forall w f, (f < 10 ^ N.of_nat w)%N -> exists d, DecimalPos.Unsigned.of_lu d = f /\ nb_digits d = w.
Proof.
  induction w as [|w IH]; intros f H.
  - exists Nil. split; [cbn; cbn in H; lia|reflexivity].
  - rewrite Nat2N.inj_succ, N.pow_succ_r' in H. destruct (IH (f / 10)%N) as [d [A B]]; [apply N.div_lt_upper_bound; lia|].
    exists (dig (f mod 10) d). destruct (dig_spec (f mod 10) d (N.mod_lt f 10 ltac:(lia))) as [P Q']. split; [|rewrite Q', B; reflexivity].
    rewrite P, A. pose proof (N.div_mod f 10 ltac:(lia)). lia.
Qed.
Lemma string_nb : forall d, String.length (NilEmpty.string_of_uint d) = nb_digits d.
Proof. induction d; cbn [NilEmpty.string_of_uint String.length nb_digits]; congruence. Qed.
Lemma to_uint_nonnil : forall n, N.to_uint n <> Nil.
Proof. intros n. rewrite <- (DecimalN.Unsigned.of_to n), DecimalN.Unsigned.to_of. apply unorm_nonnil. Qed.
Lemma digits_empty : forall n, digits n = NilEmpty.string_of_uint (N.to_uint n).
Proof. intros n. unfold digits, NilZero.string_of_uint. pose proof (to_uint_nonnil n) as H. destruct (N.to_uint n); [congruence|reflexivity..]. Qed.
Lemma digits_length : forall w f, (0 < w)%nat -> (f < 10 ^ N.of_nat w)%N -> (String.length (digits f) <= w)%nat.
Proof.
  intros w f Hw H. destruct (little w f H) as [d [A B]]. rewrite digits_empty, string_nb.
  assert (E : N.to_uint f = unorm (rev d)).
  { rewrite <- DecimalN.Unsigned.to_of. f_equal. rewrite <- A. symmetry. exact (DecimalPos.Unsigned.of_lu_rev d). }
  rewrite E. transitivity (nb_digits (rev d)); [apply nb_digits_unorm|rewrite nb_digits_rev; lia].
  intros C. apply rev_nil_inv in C. subst d. cbn in B. lia.
Qed.
Lemma digits_nonempty : forall n, (1 <= String.length (digits n))%nat.
Proof. intros n. rewrite digits_empty. pose proof (to_uint_nonnil n). destruct (N.to_uint n); [congruence|cbn; lia..]. Qed.
Lemma means_nonempty : forall s i, means s i -> s <> "".
Proof. intros s i [d [A _]] ->. cbn in A. discriminate. Qed.
Lemma means_digits : forall n, means (digits n) n.
Proof.
  intros n. exists (N.to_uint n). split; [|apply DecimalN.Unsigned.of_to]. rewrite digits_empty.
  pose proof (NilEmpty.usu (N.to_uint n)) as U. pose proof (to_uint_nonnil n). destruct (N.to_uint n); [congruence|exact U..].
Qed.
Lemma means_zero : forall s i, means s i -> means ("0" +++ s) i.
Proof.
  intros s i [d [A B]]. exists (D0 d). split.
  - destruct s as [|c s]; [discriminate|]. cbn [NilZero.uint_of_string] in A. cbn [String.append NilZero.uint_of_string].
    change (DecimalString.uint_of_char "0" (NilEmpty.uint_of_string (String c s)) = Some (D0 d)). rewrite A. reflexivity.
  - rewrite <- B. reflexivity.
Qed.
Lemma means_zeros : forall k s i, means s i -> means (zeros k +++ s) i.
Proof. induction k as [|k IH]; intros s i H; [exact H|]. cbn [zeros]. rewrite append_assoc. apply means_zero. apply IH. exact H. Qed.
Lemma zeros_length : forall k, String.length (zeros k) = k.
Proof. induction k as [|k IH]; [reflexivity|]. cbn [zeros]. rewrite append_length, IH. reflexivity. Qed.
Lemma zeros_zeroes : forall k, zeros k = zeroes k.
Proof. induction k as [|k IH]; [reflexivity|]. cbn [zeros zeroes]. rewrite IH. reflexivity. Qed.
Lemma pad_length : forall w s, String.length (pad w s) = Nat.max w (String.length s).
Proof. intros w s. unfold pad. rewrite append_length, zeros_length. lia. Qed.
Lemma pad_means : forall w n, means (pad w (digits n)) n.
Proof. intros w n. unfold pad. apply means_zeros. apply means_digits. Qed.

(** * Powers *)
Lemma ten_pow10 : forall p, inject_Z (pow10 p) = ten p.
Proof. reflexivity. Qed.
Lemma ten_pos : forall p, (0 < ten p)%Q.
Proof. intros p. unfold ten. change 0%Q with (inject_Z 0). rewrite <- Zlt_Qlt. apply Z.pow_pos_nonneg; lia. Qed.
Lemma thousand_pos : forall k, (0 < thousand k)%Q.
Proof. intros k. unfold thousand. change 0%Q with (inject_Z 0). rewrite <- Zlt_Qlt. apply Z.pow_pos_nonneg; lia. Qed.
Lemma thousand_ten : forall k, thousand k = ten (3 * k).
Proof. intros k. unfold thousand, ten. f_equal. change 1000%Z with (10 ^ 3)%Z. rewrite <- Z.pow_mul_r by lia. f_equal. lia. Qed.
Lemma ten_add : forall a b, (ten (a + b) == ten a * ten b)%Q.
Proof. intros a b. unfold ten. rewrite Nat2Z.inj_add, Z.pow_add_r, inject_Z_mult by lia. reflexivity. Qed.
Lemma ten_le : forall a b, (a <= b)%nat -> (ten a <= ten b)%Q.
Proof. intros a b H. unfold ten. rewrite <- Zle_Qle. apply Z.pow_le_mono_r; lia. Qed.
Lemma ten_lt_inv : forall a b, (ten a < ten b)%Q -> (a < b)%nat.
Proof. intros a b H. destruct (Nat.lt_ge_cases a b) as [L|L]; [exact L|]. apply ten_le in L. lra. Qed.

(** * Fixed number of decimals *)
Lemma rint_nonneg : forall x, (0 <= x)%Q -> (0 <= rint x)%Z.
Proof. intros x H. rewrite <- (rint_int 0) at 1. apply rint_mono. exact H. Qed.

Lemma fixed_abs_reads : forall p x, (0 <= x)%Q -> decimal p (fixed_abs p x) (inject_Z (rint (x * ten p)) / ten p)%Q.
Proof.
  intros p x Hx. pose proof (ten_pos p) as Tp.
  assert (Hz : (0 <= rint (x * ten p))%Z) by (apply rint_nonneg; nra).
  unfold fixed_abs. rewrite ten_pow10. set (z := rint (x * ten p)) in *.
  destruct p as [|p].
  - exists (Z.to_N z). split; [reflexivity|]. rewrite Z2N.id by lia. change (ten 0) with 1%Q. field.
  - cbn [decimal]. set (d := Z.to_N (pow10 (S p))).
    assert (Hd : (0 < d)%N) by (unfold d; pose proof (pow10_pos (S p)); lia).
    exists (Z.to_N z / d)%N, (pad (S p) (digits (Z.to_N z mod d))), (Z.to_N z mod d)%N. split; [reflexivity|].
    assert (Hm : (Z.to_N z mod d < d)%N) by (apply N.mod_lt; lia).
    assert (Dd : d = (10 ^ N.of_nat (S p))%N).
    { unfold d, pow10. apply N2Z.inj. rewrite Z2N.id by (apply Z.pow_nonneg; lia). rewrite N2Z.inj_pow, nat_N_Z. reflexivity. }
    split; [|split; [apply pad_means|]].
    + rewrite pad_length. apply Nat.max_l. apply digits_length; [lia|]. rewrite <- Dd. exact Hm.
    + assert (E : inject_Z z == inject_Z (Z.of_N (Z.to_N z / d)) * ten (S p) + inject_Z (Z.of_N (Z.to_N z mod d))).
      { unfold ten. rewrite <- inject_Z_mult, <- inject_Z_plus. apply inject_Z_injective.
        assert (F : (10 ^ Z.of_nat (S p))%Z = Z.of_N d) by (rewrite Dd, N2Z.inj_pow, nat_N_Z; reflexivity).
        rewrite F, <- N2Z.inj_mul, <- N2Z.inj_add, N.mul_comm, <- N.div_mod by lia. rewrite Z2N.id by lia. reflexivity. }
      rewrite E. field. lra.
Qed.

(** The number read from ['{:.pf}'], with its sign. *)
Definition rounded (p : nat) (x : Q) : Q :=
  if Qlt_bool x 0 then - (inject_Z (rint (- x * ten p)) / ten p) else inject_Z (rint (x * ten p)) / ten p.
Lemma rounded_error_nonneg : forall p x, (Qabs (inject_Z (rint (x * ten p)) / ten p - x) <= (1 # 2) / ten p)%Q.
Proof.
  intros p x. pose proof (ten_pos p) as T. destruct (rint_error (x * ten p)) as [A B].
  assert (I : (0 < / ten p)%Q) by (apply Qinv_lt_0_compat; exact T).
  assert (E : (inject_Z (rint (x * ten p)) / ten p - x == (inject_Z (rint (x * ten p)) - x * ten p) * / ten p)%Q) by (field; lra).
  rewrite E, Qabs_Qmult, (Qabs_pos (/ ten p)) by lra. unfold Qdiv. apply Qmult_le_compat_r; [|lra]. apply Qabs_case; intros _; lra.
Qed.
Lemma rounded_error : forall p x, (Qabs (rounded p x - x) <= (1 # 2) / ten p)%Q.
Proof.
  intros p x. unfold rounded. destruct (Qlt_bool x 0).
  - rewrite <- Qabs_opp. setoid_replace (- (- (inject_Z (rint (- x * ten p)) / ten p) - x))%Q with (inject_Z (rint (- x * ten p)) / ten p - - x)%Q by ring. apply rounded_error_nonneg.
  - apply rounded_error_nonneg.
Qed.
Lemma rounded_mono_nonneg : forall p x y, (x <= y)%Q -> (inject_Z (rint (x * ten p)) / ten p <= inject_Z (rint (y * ten p)) / ten p)%Q.
Proof.
  intros p x y H. pose proof (ten_pos p) as T. assert (I : (0 < / ten p)%Q) by (apply Qinv_lt_0_compat; exact T).
  assert (R : (inject_Z (rint (x * ten p)) <= inject_Z (rint (y * ten p)))%Q) by (rewrite <- Zle_Qle; apply rint_mono; nra).
  unfold Qdiv. nra.
Qed.
Lemma rounded_nonneg : forall p x, (0 <= x)%Q -> (0 <= inject_Z (rint (x * ten p)) / ten p)%Q.
Proof.
  intros p x H. pose proof (ten_pos p) as T. assert (I : (0 < / ten p)%Q) by (apply Qinv_lt_0_compat; exact T).
  assert (R : (inject_Z 0 <= inject_Z (rint (x * ten p)))%Q) by (rewrite <- Zle_Qle; apply rint_nonneg; nra).
  change (inject_Z 0) with 0%Q in R. unfold Qdiv. nra.
Qed.
Lemma rounded_mono : forall p x y, (x <= y)%Q -> (rounded p x <= rounded p y)%Q.
Proof.
  intros p x y H. unfold rounded. destruct (Qlt_bool x 0) eqn:E; [apply Qlt_bool_iff in E|apply Qlt_bool_false in E];
    (destruct (Qlt_bool y 0) eqn:F; [apply Qlt_bool_iff in F|apply Qlt_bool_false in F]).
  - pose proof (rounded_mono_nonneg p (- y) (- x) ltac:(lra)). lra.
  - pose proof (rounded_nonneg p (- x) ltac:(lra)). pose proof (rounded_nonneg p y F). lra.
  - lra.
  - apply rounded_mono_nonneg. exact H.
Qed.
Lemma rounded_int : forall p z, (rounded p (inject_Z z) == inject_Z z)%Q.
Proof.
  intros p z. pose proof (ten_pos p) as T. unfold rounded.
  assert (R : forall w, (inject_Z (rint (inject_Z w * ten p)) / ten p == inject_Z w)%Q).
  { intros w. unfold ten at 1. rewrite <- inject_Z_mult, rint_int, inject_Z_mult. fold (ten p). field. lra. }
  destruct (Qlt_bool (inject_Z z) 0); [|apply R]. rewrite <- inject_Z_opp, R, inject_Z_opp. ring.
Qed.
Lemma rounded_comp : forall p x y, (x == y)%Q -> (rounded p x == rounded p y)%Q.
Proof. intros p x y H. apply Qle_antisym; apply rounded_mono; lra. Qed.

Lemma fixed_plain : forall p x, plain_of p x (fixed p x).
Proof.
  intros p x. unfold fixed. pose proof (rounded_error p x) as Er. unfold rounded in Er.
  destruct (Qlt_bool x 0) eqn:E; [apply Qlt_bool_iff in E|apply Qlt_bool_false in E].
  - exists true, (fixed_abs p (- x)), (inject_Z (rint (- x * ten p)) / ten p)%Q. repeat split; [|trivial|exact Er]. apply fixed_abs_reads. lra.
  - exists false, (fixed_abs p x), (inject_Z (rint (x * ten p)) / ten p)%Q. repeat split; [|discriminate|lra|exact Er]. apply fixed_abs_reads. exact E.
Qed.

(** * Logarithms *)
Lemma ilog10_log2 : forall fuel z, (1 <= z)%Z -> (Z.log2 z < Z.of_nat fuel)%Z -> (pow10 (ilog10 fuel z) <= z < pow10 (S (ilog10 fuel z)))%Z.
Proof.
  assert (Hp : forall k, pow10 (S k) = (10 * pow10 k)%Z) by (intros k; unfold pow10; rewrite Nat2Z.inj_succ, Z.pow_succ_r by lia; reflexivity).
  induction fuel as [|fuel IH]; intros z H1 H2; [pose proof (Z.log2_nonneg z); lia|]. cbn [ilog10]. destruct (Z.ltb_spec z 10).
  - cbn. lia.
  - pose proof (Z.div_mod z 10 ltac:(lia)) as D. pose proof (Z.mod_pos_bound z 10 ltac:(lia)) as M.
    assert (L : (Z.log2 (z / 10) < Z.log2 z)%Z).
    { assert (K : (z / 10 <= z / 2)%Z) by (apply Z.div_le_compat_l; lia). apply Z.log2_le_mono in K.
      assert (S2 : Z.log2 (z / 2) = (Z.log2 z - 1)%Z). { rewrite <- Z.div2_div. rewrite Z.div2_spec. rewrite Z.log2_shiftr by lia. pose proof (Z.log2_le_mono 2 z ltac:(lia)). change (Z.log2 2) with 1%Z in *. lia. }
      lia. }
    destruct (IH (z / 10)%Z ltac:(lia) ltac:(lia)) as [A B]. rewrite (Hp (S _)), (Hp (ilog10 fuel (z / 10))) in *. lia.
Qed.
Lemma ilog_spec : forall x, (1 <= x)%Q -> (ten (ilog x) <= x /\ x < ten (S (ilog x)))%Q.
Proof.
  intros x Hx. unfold ilog. assert (H1 : (1 <= Qfloor x)%Z) by (change 1%Z with (Qfloor 1); apply Qfloor_resp_le; exact Hx).
  destruct (ilog10_log2 (S (Z.to_nat (Z.log2 (Qfloor x)))) (Qfloor x) H1) as [A B].
  { rewrite Nat2Z.inj_succ, Z2Nat.id by apply Z.log2_nonneg. lia. }
  destruct (floor_bounds x) as [C D]. split.
  - eapply Qle_trans; [|exact C]. unfold ten. rewrite <- Zle_Qle. exact A.
  - eapply Qlt_le_trans; [exact D|]. change 1%Q with (inject_Z 1). unfold ten. rewrite <- inject_Z_plus, <- Zle_Qle. unfold pow10 in B. lia.
Qed.
Lemma ilog_unique : forall x k, (ten k <= x)%Q -> (x < ten (S k))%Q -> ilog x = k.
Proof.
  intros x k A B. assert (H : (1 <= x)%Q) by (eapply Qle_trans; [|exact A]; apply (ten_le 0); lia).
  destruct (ilog_spec x H) as [C D]. pose proof (ten_lt_inv k (S (ilog x)) ltac:(lra)). pose proof (ten_lt_inv (ilog x) (S k) ltac:(lra)). lia.
Qed.
