(** Proofs about the compact form, amounts of money, percentages and headings. *)
From Coq Require Import ZArith NArith QArith Qround Qabs Qpower String Ascii List Bool Arith Lia Lqa DecimalString Permutation.
From Verif Require Import Lib_QSum Lib_Sort M_Base M_Opt P_Opt P_OptGrid M_Format S_Format P_Format.
Import ListNotations.
Local Open Scope string_scope.
Local Open Scope list_scope.
Local Infix "+++" := String.append (at level 60, right associativity).

(** * Units *)
Lemma abs_ge : forall x, Qle_bool 1 x = true <-> (1 <= x)%Q.
Proof. intros x. apply Qle_bool_iff. Qed.
Lemma millidx_big : forall n, (1 <= Qabs n)%Q -> millidx n = Nat.min 4 (ilog (Qabs n) / 3).
Proof.
  intros n H. unfold millidx. destruct (Qeq_bool n 0) eqn:E.
  - apply Qeq_bool_iff in E. rewrite E in H. cbn in H. lra.
  - unfold flog10. rewrite (proj2 (abs_ge _) H). change (Z.of_nat (List.length millnames) - 1)%Z with 4%Z.
    replace 3%Z with (Z.of_nat 3) by reflexivity. rewrite <- Nat2Z.inj_div.
    rewrite Z.max_r by lia. replace 4%Z with (Z.of_nat 4) by reflexivity. rewrite <- Nat2Z.inj_min, Nat2Z.id. reflexivity.
Qed.
Lemma millidx_small : forall n, (Qabs n < 1)%Q -> millidx n = 0%nat.
Proof.
  intros n H. unfold millidx. destruct (Qeq_bool n 0); [reflexivity|].
  assert (F : (flog10 (Qabs n) <= 0)%Z).
  { unfold flog10. destruct (Qle_bool 1 (Qabs n)) eqn:E; [apply abs_ge in E; lra|]. destruct (Qeq_bool _ _); lia. }
  assert (D : (flog10 (Qabs n) / 3 <= 0)%Z) by (change 0%Z with (0 / 3)%Z; apply Z.div_le_mono; lia). lia.
Qed.
Lemma unit_spec : forall n, unit_of n (millidx n).
Proof.
  intros n. destruct (Qlt_le_dec (Qabs n) 1) as [H|H].
  - rewrite (millidx_small n H). split; [lia|split; [lia|]]. intros _. change (thousand 1) with 1000%Q. lra.
  - rewrite (millidx_big n H). destruct (ilog_spec (Qabs n) H) as [A B]. set (L := ilog (Qabs n)) in *.
    pose proof (Nat.div_mod L 3 ltac:(lia)) as D. pose proof (Nat.mod_upper_bound L 3 ltac:(lia)) as M.
    split; [lia|split]; intros K; rewrite thousand_ten.
    + eapply Qle_trans; [|exact A]. apply ten_le. lia.
    + eapply Qlt_le_trans; [exact B|]. apply ten_le. lia.
Qed.
Lemma thousand_le : forall a b, (a <= b)%nat -> (thousand a <= thousand b)%Q.
Proof. intros a b H. rewrite !thousand_ten. apply ten_le. lia. Qed.
Lemma thousand_S : forall k, (thousand (S k) == 1000 * thousand k)%Q.
Proof. intros k. unfold thousand. rewrite Nat2Z.inj_succ, Z.pow_succ_r, inject_Z_mult by lia. reflexivity. Qed.
Lemma unit_mono : forall n m k l, unit_of n k -> unit_of m l -> (Qabs n <= Qabs m)%Q -> (k <= l)%nat.
Proof.
  intros n m k l [A [B C]] [D [E F]] H. destruct (Nat.le_gt_cases k l) as [G|G]; [exact G|exfalso].
  specialize (B ltac:(lia)). specialize (F ltac:(lia)). pose proof (thousand_le (S l) k G). lra.
Qed.
Lemma unit_unique : forall n m k l, unit_of n k -> unit_of m l -> (Qabs n == Qabs m)%Q -> k = l.
Proof. intros n m k l A B H. apply Nat.le_antisymm; [apply (unit_mono n m)|apply (unit_mono m n)]; auto; lra. Qed.
Lemma unit_index_nonneg : forall n m, (0 <= n)%Q -> (n <= m)%Q -> (millidx n <= millidx m)%nat.
Proof. intros n m A B. apply (unit_mono n m); [apply unit_spec|apply unit_spec|]. rewrite !Qabs_pos by lra. exact B. Qed.
Lemma letter_nth : forall k, (k <= 4)%nat -> letter k (nth k millnames "").
Proof. intros k H. unfold letter. do 5 (destruct k as [|k]; [cbn; repeat (first [left; split; reflexivity|right]); split; reflexivity|]). lia. Qed.

(** * The compact form *)
Definition shown (p : nat) (n : Q) : Q := (rounded p (n / thousand (millidx n)) * thousand (millidx n))%Q.

Lemma div_neg : forall n t, (0 < t)%Q -> Qlt_bool (n / t) 0 = Qlt_bool n 0.
Proof.
  intros n t H. assert (I : (0 < / t)%Q) by (apply Qinv_lt_0_compat; exact H). assert (E : (/ t * t == 1)%Q) by (field; lra).
  destruct (Qlt_bool n 0) eqn:A; [apply Qlt_bool_iff in A; apply Qlt_bool_iff|apply Qlt_bool_false in A; apply Qlt_bool_false]; unfold Qdiv; nra.
Qed.
Lemma compact_reads : forall n p cur, reads cur p (Qlt_bool n 0) (millidx n) (compact_number n p cur) (shown p n).
Proof.
  intros n p cur. unfold compact_number, shown. set (k := millidx n). rewrite ten_pow10, <- thousand_ten.
  pose proof (thousand_pos k) as T. set (x := (n / thousand k)%Q).
  assert (Ex : Qlt_bool x 0 = Qlt_bool n 0) by (apply div_neg; exact T).
  assert (K : letter k (nth k millnames "")) by (apply letter_nth; apply (unit_spec n)).
  unfold fixed, rounded. rewrite Ex. destruct (Qlt_bool n 0) eqn:E.
  - exists (fixed_abs p (- x)), (nth k millnames ""), (inject_Z (rint (- x * ten p)) / ten p)%Q. split; [|split; [exact K|split; [|ring]]].
    + cbn [String.append]. reflexivity.
    + apply fixed_abs_reads. apply Qlt_bool_iff in Ex. lra.
  - exists (fixed_abs p x), (nth k millnames ""), (inject_Z (rint (x * ten p)) / ten p)%Q. split; [|split; [exact K|split; [|ring]]].
    + cbn [String.append]. reflexivity.
    + apply fixed_abs_reads. apply Qlt_bool_false in Ex. exact Ex.
Qed.
Lemma shown_error : forall p n, (Qabs (shown p n - n) <= (1 # 2) * thousand (millidx n) / ten p)%Q.
Proof.
  intros p n. unfold shown. set (k := millidx n). pose proof (thousand_pos k) as T. pose proof (ten_pos p) as U.
  assert (E : (rounded p (n / thousand k) * thousand k - n == (rounded p (n / thousand k) - n / thousand k) * thousand k)%Q) by (field; lra).
  rewrite E, Qabs_Qmult, (Qabs_pos (thousand k)) by lra.
  setoid_replace ((1 # 2) * thousand k / ten p)%Q with ((1 # 2) / ten p * thousand k)%Q by (field; lra).
  apply Qmult_le_compat_r; [apply rounded_error|lra].
Qed.
Lemma compact_lemma : forall cur p n, compact_of cur p n (compact_number n p cur).
Proof.
  intros cur p n. exists (Qlt_bool n 0), (millidx n), (shown p n). split; [apply compact_reads|]. split; [apply Qlt_bool_iff|].
  split; [apply unit_spec|apply shown_error].
Qed.

(** * Order *)
Lemma rounded_opp : forall p x, (rounded p (- x) == - rounded p x)%Q.
Proof.
  intros p x. unfold rounded. destruct (Qlt_bool x 0) eqn:E; [apply Qlt_bool_iff in E|apply Qlt_bool_false in E].
  - assert (F : Qlt_bool (- x) 0 = false) by (apply Qlt_bool_false; lra). rewrite F. ring.
  - destruct (Qlt_bool (- x) 0) eqn:F.
    + rewrite (rint_comp (- - x * ten p) (x * ten p)) by ring. reflexivity.
    + apply Qlt_bool_false in F. rewrite (rint_comp (- x * ten p) (inject_Z 0)), (rint_comp (x * ten p) (inject_Z 0)) by (setoid_replace x with 0%Q by lra; ring). rewrite rint_int. unfold Qdiv. ring.
Qed.
Lemma shown_opp : forall p n, (shown p (- n) == - shown p n)%Q.
Proof.
  intros p n. unfold shown. rewrite (unit_unique (- n) n (millidx (- n)) (millidx n)); [|apply unit_spec|apply unit_spec|apply Qabs_opp].
  pose proof (thousand_pos (millidx n)). rewrite (rounded_comp p (- n / thousand (millidx n)) (- (n / thousand (millidx n)))) by (field; lra).
  rewrite rounded_opp. ring.
Qed.
Lemma quot_le : forall a b t, (0 < t)%Q -> (a <= b)%Q -> (a / t <= b / t)%Q.
Proof. intros a b t T H. assert (I : (0 < / t)%Q) by (apply Qinv_lt_0_compat; exact T). unfold Qdiv. nra. Qed.
Lemma shown_mono_nonneg : forall p n m, (0 <= n)%Q -> (n <= m)%Q -> (shown p n <= shown p m)%Q.
Proof.
  intros p n m A B. pose proof (unit_index_nonneg n m A B) as K. unfold shown.
  destruct (Nat.eq_dec (millidx n) (millidx m)) as [E|E].
  - rewrite <- E. pose proof (thousand_pos (millidx n)). apply Qmult_le_compat_r; [|lra]. apply rounded_mono. apply quot_le; assumption.
  - destruct (unit_spec n) as [N1 [_ N2]]. destruct (unit_spec m) as [M1 [M2 _]]. specialize (N2 ltac:(lia)). specialize (M2 ltac:(lia)).
    rewrite Qabs_pos in N2 by lra. rewrite Qabs_pos in M2 by lra. pose proof (thousand_pos (millidx n)) as Tn. pose proof (thousand_pos (millidx m)) as Tm.
    assert (L : (rounded p (n / thousand (millidx n)) <= 1000)%Q).
    { rewrite <- (rounded_int p 1000). apply rounded_mono. rewrite thousand_S in N2.
      setoid_replace (inject_Z 1000) with (1000 * thousand (millidx n) / thousand (millidx n))%Q by (field; lra). apply quot_le; [exact Tn|lra]. }
    assert (R : (1 <= rounded p (m / thousand (millidx m)))%Q).
    { change 1%Q with (inject_Z 1). rewrite <- (rounded_int p 1). apply rounded_mono.
      setoid_replace (inject_Z 1) with (thousand (millidx m) / thousand (millidx m))%Q by (field; lra). apply quot_le; [exact Tm|exact M2]. }
    pose proof (thousand_le (S (millidx n)) (millidx m) ltac:(lia)) as Q1. rewrite thousand_S in Q1. nra.
Qed.
Lemma shown_nonneg : forall p n, (0 <= n)%Q -> (0 <= shown p n)%Q.
Proof.
  intros p n H. unfold shown. pose proof (thousand_pos (millidx n)) as T. rewrite <- (Qmult_0_l (thousand (millidx n))).
  apply Qmult_le_compat_r; [|lra]. change 0%Q with (inject_Z 0). rewrite <- (rounded_int p 0). apply rounded_mono.
  setoid_replace (inject_Z 0) with (0 / thousand (millidx n))%Q by (field; lra). apply quot_le; assumption.
Qed.
Lemma shown_mono : forall p n m, (n <= m)%Q -> (shown p n <= shown p m)%Q.
Proof.
  intros p n m H. destruct (Qlt_le_dec n 0) as [A|A]; [|apply shown_mono_nonneg; assumption].
  destruct (Qlt_le_dec m 0) as [B|B].
  - pose proof (shown_mono_nonneg p (- m) (- n) ltac:(lra) ltac:(lra)) as M. rewrite !shown_opp in M. lra.
  - pose proof (shown_nonneg p (- n) ltac:(lra)) as P1. rewrite shown_opp in P1. pose proof (shown_nonneg p m B). lra.
Qed.
Lemma order_lemma : forall p, exists f : Q -> Q,
  (forall n cur, exists neg k, reads cur p neg k (compact_number n p cur) (f n)) /\
  (forall n m, (n <= m)%Q -> (f n <= f m)%Q) /\ (forall n, (f (- n) == - f n)%Q).
Proof.
  intros p. exists (shown p). split; [|split].
  - intros n cur. exists (Qlt_bool n 0), (millidx n). apply compact_reads.
  - apply shown_mono.
  - apply shown_opp.
Qed.

(** * Money *)
Lemma money_lemma : forall cur n, money_of cur n (format_monetary_num n cur).
Proof.
  intros cur n. unfold format_monetary_num. set (p := if negb (Qeq_bool n 0) && _ then 1%nat else 0%nat).
  exists p, (Qlt_bool n 0), (millidx n), (shown p n). split; [unfold p; destruct (_ && _); lia|].
  split; [apply compact_reads|]. split; [apply Qlt_bool_iff|]. split; [apply unit_spec|]. split; [apply shown_error|]. intros H.
  eapply Qle_trans; [apply shown_error|]. destruct (ilog_spec (Qabs n) H) as [A B]. pose proof (millidx_big n H) as Mi.
  assert (Hp : p = if Nat.eqb (ilog (Qabs n) mod 3) 0 then 1%nat else 0%nat).
  { unfold p. assert (Z0 : Qeq_bool n 0 = false). { destruct (Qeq_bool n 0) eqn:E; [|reflexivity]. apply Qeq_bool_iff in E. rewrite E in H. cbn in H. lra. }
    rewrite Z0. unfold tlog10. rewrite (proj2 (abs_ge _) H). cbn [negb andb].
    assert (E : (Z.of_nat (ilog (Qabs n)) mod 3)%Z = Z.of_nat (ilog (Qabs n) mod 3)) by (rewrite Nat2Z.inj_mod; reflexivity).
    rewrite E. destruct (Nat.eqb_spec (ilog (Qabs n) mod 3) 0) as [F|F]; [rewrite F; reflexivity|]. destruct (Z.eqb_spec (Z.of_nat (ilog (Qabs n) mod 3)) 0); [lia|reflexivity]. }
  rewrite Hp. clear Hp p. set (L := ilog (Qabs n)) in *. pose proof (Nat.div_mod L 3 ltac:(lia)) as D. pose proof (Nat.mod_upper_bound L 3 ltac:(lia)) as M.
  rewrite Mi, thousand_ten. set (k := Nat.min 4 (L / 3)) in *. destruct (Nat.eqb_spec (L mod 3) 0) as [F|F].
  - change (ten 1) with 10%Q. assert (T : (ten (3 * k) <= ten L)%Q) by (apply ten_le; unfold k; lia).
    setoid_replace ((1 # 2) * ten (3 * k) / 10)%Q with (ten (3 * k) / 20)%Q by field. apply quot_le; [reflexivity|lra].
  - change (ten 0) with 1%Q. assert (T : (ten (3 * k + 1) <= ten L)%Q) by (apply ten_le; unfold k; lia).
    rewrite ten_add in T. change (ten 1) with 10%Q in T. setoid_replace ((1 # 2) * ten (3 * k) / 1)%Q with (ten (3 * k) * 10 / 20)%Q by field. apply quot_le; [reflexivity|lra].
Qed.

(** * Percentages *)
Lemma big_percent : forall x, ((1 # 100) <= x)%Q -> exists i, format_percent x = numeral i +++ "%" /\ (Qabs (inject_Z (Z.of_N i) - 100 * x) <= 1 # 2)%Q.
Proof.
  intros x H. unfold format_percent. rewrite (proj2 (Qle_bool_iff _ _) H). unfold fixed.
  assert (E : Qlt_bool (x * 100) 0 = false) by (apply Qlt_bool_false; lra). rewrite E.
  destruct (fixed_abs_reads 0 (x * 100) ltac:(lra)) as [i [A B]]. exists i. rewrite A. split; [reflexivity|]. rewrite <- B.
  setoid_replace (100 * x)%Q with (x * 100)%Q by ring. eapply Qle_trans; [apply rounded_error_nonneg|]. change (ten 0) with 1%Q. apply Qle_bool_iff. reflexivity.
Qed.
Lemma flog_small : forall a, (0 < a)%Q -> (a < 1)%Q -> exists k, (1 <= k)%nat /\ flog10 a = (- Z.of_nat k)%Z /\ (1 <= a * ten k)%Q /\ (a * ten k < 10)%Q.
Proof.
  intros a A B. unfold flog10. destruct (Qle_bool 1 a) eqn:E; [apply abs_ge in E; lra|].
  assert (I : (a * / a == 1)%Q) by (field; lra). assert (Ip : (0 < / a)%Q) by (apply Qinv_lt_0_compat; exact A).
  assert (W : (1 <= / a)%Q) by nra. destruct (ilog_spec (/ a) W) as [C D]. set (k := ilog (/ a)) in *. rewrite ten_pow10.
  destruct (Qeq_bool (/ a) (ten k)) eqn:F.
  - apply Qeq_bool_iff in F. exists k. split; [|split; [reflexivity|rewrite <- F; lra]]. destruct k as [|k]; [|lia]. change (ten 0) with 1%Q in F. nra.
  - exists (S k). split; [lia|split; [lia|]]. assert (G : ~ (/ a == ten k)%Q) by (intros G; apply Qeq_bool_iff in G; congruence).
    assert (C' : (ten k < / a)%Q). { apply Qle_lteq in C. destruct C as [C|C]; [exact C|]. exfalso. apply G. symmetry. exact C. }
    assert (S10 : (ten (S k) == 10 * ten k)%Q) by (replace (S k) with (1 + k)%nat by lia; rewrite ten_add; reflexivity).
    split; [nra|]. rewrite S10. nra.
Qed.
Lemma power_neg : forall k, (10 ^ (- Z.of_nat k) == / ten k)%Q.
Proof. intros k. unfold ten. rewrite Zpower_Qpower by lia. destruct k as [|k]; reflexivity. Qed.
Lemma one_digit_small : forall a, (0 < a)%Q -> (a < 1)%Q -> exists d k, one_digit a = (d, (- Z.of_nat k)%Z) /\ (1 <= d <= 9)%Z /\
  (Qabs (inject_Z d / ten k - a) <= a / 3)%Q.
Proof.
  intros a A B. destruct (flog_small a A B) as [k [K1 [K2 [K3 K4]]]]. unfold one_digit. rewrite K2. pose proof (ten_pos k) as T.
  rewrite (rint_comp (a / 10 ^ (- Z.of_nat k)) (a * ten k)) by (rewrite power_neg; field; lra).
  set (m := (a * ten k)%Q) in *. destruct (rint_error m) as [E1 E2].
  assert (L : (1 <= rint m)%Z) by (rewrite <- (rint_int 1); apply rint_mono; exact K3).
  assert (U : (rint m <= 10)%Z) by (rewrite <- (rint_int 10); apply rint_mono; apply Qlt_le_weak; exact K4).
  assert (I : (0 < / ten k)%Q) by (apply Qinv_lt_0_compat; exact T).
  assert (Err : (Qabs (inject_Z (rint m) / ten k - a) <= a / 3)%Q).
  { assert (Ea : (a == m * / ten k)%Q) by (unfold m; field; lra).
    setoid_replace (inject_Z (rint m) / ten k - a)%Q with ((inject_Z (rint m) - m) * / ten k)%Q by (rewrite Ea at 1; field; lra).
    rewrite Qabs_Qmult, (Qabs_pos (/ ten k)) by lra. setoid_replace (a / 3)%Q with (m / 3 * / ten k)%Q by (rewrite Ea at 1; field; lra).
    apply Qmult_le_compat_r; [|lra]. assert (H : (Qabs (inject_Z (rint m) - m) <= m * (1 # 3))%Q); [|setoid_replace (m / 3)%Q with (m * (1 # 3))%Q by field; exact H].
    destruct (Qlt_le_dec m (3 # 2)) as [S1|S1].
    - assert (R1 : rint m = 1%Z). { assert (inject_Z (rint m) < inject_Z 2)%Q as R by (change (inject_Z 2) with 2%Q; lra). rewrite <- Zlt_Qlt in R. lia. }
      rewrite R1. change (inject_Z 1) with 1%Q. apply Qabs_case; intros _; lra.
    - apply Qabs_case; intros _; lra. }
  destruct (Z.eqb_spec (rint m) 10) as [E|E].
  - exists 1%Z, (k - 1)%nat. split; [f_equal; lia|]. split; [lia|]. rewrite E in Err.
    assert (S10 : (ten k == 10 * ten (k - 1))%Q) by (replace k with (1 + (k - 1))%nat at 1 by lia; rewrite ten_add; reflexivity).
    pose proof (ten_pos (k - 1)). setoid_replace (inject_Z 1 / ten (k - 1))%Q with (inject_Z 10 / ten k)%Q; [exact Err|]. rewrite S10. change (inject_Z 10) with 10%Q. change (inject_Z 1) with 1%Q. field. lra.
  - exists (rint m), k. split; [reflexivity|]. split; [lia|exact Err].
Qed.
Lemma small_percent : forall x, (0 < x)%Q -> (x < 1 # 100)%Q -> exists s v, format_percent x = s +++ "%" /\ significant s v /\ (Qabs (v - 100 * x) <= 100 * x / 3)%Q.
Proof.
  intros x A B. unfold format_percent. destruct (Qle_bool (1 # 100) x) eqn:E; [apply Qle_bool_iff in E; lra|].
  unfold general. destruct (Qeq_bool (x * 100) 0) eqn:E0; [apply Qeq_bool_iff in E0; lra|].
  assert (E1 : Qlt_bool (x * 100) 0 = false) by (apply Qlt_bool_false; lra). rewrite E1.
  destruct (one_digit_small (x * 100) ltac:(lra) ltac:(lra)) as [d [k [O1 [O2 O3]]]].
  exists (general_abs (x * 100)), (inject_Z d / ten k)%Q. split; [reflexivity|]. split; [|setoid_replace (100 * x)%Q with (x * 100)%Q by ring; exact O3].
  unfold general_abs. rewrite O1. exists (Z.to_N d). split; [lia|]. rewrite Z2N.id by lia.
  destruct (Z.leb_spec (-4) (- Z.of_nat k)) as [L|L]; cbn [andb].
  - replace (Z.ltb (- Z.of_nat k) 1) with true by (symmetry; apply Z.ltb_lt; lia).
    replace (Z.to_nat (- - Z.of_nat k)) with k by lia. destruct k as [|k].
    + left. split; [reflexivity|]. change (ten 0) with 1%Q. field.
    + right. left. exists k. split; [lia|]. split; [rewrite zeros_zeroes; reflexivity|reflexivity].
  - replace (Z.ltb (- Z.of_nat k) 0) with true by (symmetry; apply Z.ltb_lt; lia). right. right.
    exists k, (pad 2 (digits (Z.to_N (Z.abs (- Z.of_nat k))))). split; [lia|]. split; [reflexivity|].
    replace (Z.to_N (Z.abs (- Z.of_nat k))) with (N.of_nat k) by lia. split; [apply pad_means|]. split; [rewrite pad_length; lia|reflexivity].
Qed.

(** * Headings *)
Lemma lower_small : forall c, is_lower c = true <-> small c.
Proof.
  intros c. unfold is_lower, between, small. change (N_of_ascii "a") with 97%N. change (N_of_ascii "z") with 122%N.
  rewrite andb_true_iff, !N.leb_le. reflexivity.
Qed.
Lemma word_alpha : forall c, c <> "_"%char -> (is_word c = true <-> alphanumeric c).
Proof.
  intros c H. unfold is_word, alphanumeric. rewrite !orb_true_iff, lower_small. unfold between.
  change (N_of_ascii "A") with 65%N. change (N_of_ascii "Z") with 90%N. change (N_of_ascii "0") with 48%N. change (N_of_ascii "9") with 57%N.
  rewrite !andb_true_iff, !N.leb_le. destruct (Ascii.eqb_spec c "_"); [contradiction|]. split.
  - intros [[[G|G]|G]|G]; [left; exact G|right; left; exact G|right; right; exact G|discriminate].
  - intros [G|[G|G]]; [left; left; left; exact G|left; left; right; exact G|left; right; exact G].
Qed.
Definition unscore (c : ascii) : ascii := if Ascii.eqb c "_" then " "%char else c.
Lemma unscore_word : forall c, is_word (unscore c) = true <-> alphanumeric c.
Proof.
  intros c. unfold unscore. destruct (Ascii.eqb_spec c "_") as [->|H]; [|apply word_alpha; exact H].
  split; [discriminate|]. unfold alphanumeric, small. change (N_of_ascii "_") with 95%N. lia.
Qed.
Lemma upper_code : forall c, small c -> N_of_ascii (upper c) = (N_of_ascii c - 32)%N.
Proof.
  intros c H. unfold upper. rewrite (proj2 (lower_small c) H). unfold small in H. apply N_ascii_embedding. lia.
Qed.
Lemma heading_from : forall name b prev, (b = true <-> exists x, prev = Some x /\ alphanumeric x) ->
  String.length (capitalize b (replace_underscores name)) = String.length name /\
  forall i c, String.get i name = Some c -> exists o, String.get i (capitalize b (replace_underscores name)) = Some o /\
    heading_char (match i with O => prev | S j => String.get j name end) c o.
Proof.
  induction name as [|c0 name IH]; intros b prev Hb.
  - split; [reflexivity|]. intros i c H. destruct i; discriminate.
  - cbn [replace_underscores capitalize]. fold (unscore c0).
    destruct (IH (is_word (unscore c0)) (Some c0)) as [I1 I2].
    { rewrite unscore_word. split; [intros G; exists c0; split; [reflexivity|exact G]|intros [x [G1 G2]]; injection G1 as <-; exact G2]. }
    split; [cbn [String.length]; rewrite I1; reflexivity|]. intros i c H. destruct i as [|i].
    + cbn [String.get] in *. injection H as <-. eexists. split; [reflexivity|]. unfold heading_char.
      assert (Hs : b = false <-> match prev with None => True | Some x => ~ alphanumeric x end).
      { destruct prev as [x|].
        - split; [intros -> G; discriminate (proj2 Hb (ex_intro _ x (conj eq_refl G)))|intros G; destruct b; [|reflexivity]; destruct (proj1 Hb eq_refl) as [y [Y1 Y2]]; injection Y1 as <-; contradiction].
        - split; [trivial|intros _; destruct b; [|reflexivity]; destruct (proj1 Hb eq_refl) as [y [Y1 _]]; discriminate]. }
      split; [|split].
      * intros ->. change (unscore "_") with " "%char. destruct (negb b && is_lower " ") eqn:F; [|reflexivity]. rewrite andb_true_iff in F. destruct F as [_ F]. discriminate F.
      * intros S1 S2. apply Hs in S2. rewrite S2. assert (U : unscore c0 = c0). { unfold unscore. destruct (Ascii.eqb_spec c0 "_") as [->|]; [|reflexivity]. unfold small in S1. change (N_of_ascii "_") with 95%N in S1. lia. }
        rewrite U, (proj2 (lower_small c0) S1). cbn [negb andb]. apply upper_code. exact S1.
      * intros N1 N2. assert (U : unscore c0 = c0) by (unfold unscore; destruct (Ascii.eqb_spec c0 "_"); [contradiction|reflexivity]). rewrite U.
        destruct (negb b && is_lower c0) eqn:F; [|reflexivity]. rewrite andb_true_iff in F. destruct F as [F1 F2]. exfalso. apply N2. split; [apply lower_small; exact F2|]. apply Hs. destruct b; [discriminate|reflexivity].
    + cbn [String.get] in *. destruct (I2 i c H) as [o [O1 O2]]. exists o. split; [exact O1|]. destruct i as [|i]; exact O2.
Qed.
Lemma heading_lemma : forall names, Forall2 heading names (format_col_names names).
Proof.
  intros names. unfold format_col_names. induction names as [|n names IH]; [constructor|]. cbn [map]. constructor; [|exact IH].
  destruct (heading_from n false None) as [A B]; [split; [discriminate|intros [x [X _]]; discriminate]|]. split; [exact A|]. exact B.
Qed.
