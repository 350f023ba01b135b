(** Lemmas for property C41: the multipliers made by [create]. *)
From Coq Require Import ZArith QArith Qround List Bool Arith Lia Lqa Sorted Permutation.
From Verif Require Import Lib_QSum Lib_Sort M_Base M_Opt M_Weekly S_Weekly P_Weekly.
Import ListNotations.
Local Open Scope nat_scope.
Local Open Scope list_scope.

Definition zset_of (l : list Z) : list Z := fold_right z_insert [] l.
Lemma z_total : forall a b, Z.leb a b = true \/ Z.leb b a = true.
Proof. intros. rewrite !Z.leb_le. lia. Qed.
Lemma z_trans : forall a b c, Z.leb a b = true -> Z.leb b c = true -> Z.leb a c = true.
Proof. intros a b c. rewrite !Z.leb_le. lia. Qed.
Lemma z_insert_in : forall x l y, In y (z_insert x l) <-> y = x \/ In y l.
Proof.
  intros x l y. unfold z_insert. destruct (existsb (Z.eqb x) l) eqn:E.
  - apply existsb_exists in E. destruct E as [z [E1 E2]]. apply Z.eqb_eq in E2. subst z. intuition congruence.
  - split; intros H.
    + apply (Permutation_in y (Permutation_sym (insert_perm Z.leb x l))) in H. destruct H; auto.
    + apply (Permutation_in y (insert_perm Z.leb x l)). destruct H; [left; auto|right; auto].
Qed.
Lemma zset_in : forall l y, In y (zset_of l) <-> In y l.
Proof. induction l as [|x l IH]; intros y; cbn [zset_of fold_right]; [tauto|]. rewrite z_insert_in. change (fold_right z_insert [] l) with (zset_of l). rewrite IH. cbn. intuition congruence. Qed.
Lemma zset_sorted : forall l, le_sorted Z.leb (zset_of l) /\ NoDup (zset_of l).
Proof.
  induction l as [|x l [IH1 IH2]]; [split; constructor|]. change (zset_of (x :: l)) with (z_insert x (zset_of l)). unfold z_insert. destruct (existsb (Z.eqb x) (zset_of l)) eqn:E; auto.
  split; [apply insert_sorted; auto; [exact z_total|exact z_trans]|].
  apply (Permutation_NoDup (insert_perm Z.leb x (zset_of l))). constructor; auto. intros K. apply not_true_iff_false in E. apply E. apply existsb_exists. exists x. split; auto. apply Z.eqb_refl.
Qed.
Lemma increasing_of_sorted : forall l, le_sorted Z.leb l -> NoDup l -> increasing_q (map (fun z => inject_Z z / 1000000)%Q l).
Proof.
  induction l as [|x l IH]; intros S N; [exact Logic.I|]. destruct l as [|y l]; [exact Logic.I|]. inversion S as [|a b S1 F]; subst. inversion N as [|a b N1 N2]; subst.
  split; [|apply IH; auto]. inversion F as [|a b F1 F2]; subst. apply Z.leb_le in F1. assert (x < y)%Z. { assert (x <> y) by (intros ->; apply N1; left; auto). lia. }
  apply inject_lt in H. unfold Qdiv. apply Qmult_lt_compat_r; [reflexivity|exact H].
Qed.
Lemma millionths_error : forall x, (inject_Z (millionths x) / 1000000 - x <= 1 # 2000000 /\ x - inject_Z (millionths x) / 1000000 <= 1 # 2000000)%Q.
Proof.
  intros x. unfold millionths. destruct (rint_error (x * 1000000)) as [A B]. set (r := inject_Z (rint (x * 1000000))) in *.
  assert (E : (r / 1000000 == r * (1 # 1000000))%Q) by reflexivity. rewrite E. split; lra.
Qed.
Lemma ceil_bounds : forall x, (x <= inject_Z (Qceiling x) /\ inject_Z (Qceiling x) < x + 1)%Q.
Proof. intros x. split; [apply Qle_ceiling|]. pose proof (Qceiling_lt x) as H. unfold Z.sub in H. rewrite inject_Z_plus in H. change (inject_Z (- (1))) with (-1 # 1)%Q in H. lra. Qed.

Lemma multipliers_lemma : forall dec inc var step, (0 <= dec < 1)%Q -> (0 <= inc)%Q -> (0 <= var)%Q -> (0 < step)%Q ->
  let lower := ((1 - dec) * (1 - var))%Q in let upper := ((1 + inc) * (1 + var))%Q in
  exists ms, create_multipliers dec inc var (Some step) = Ok (ms, step) /\ increasing_q ms /\
    (forall x, (lower <= x)%Q -> (x <= upper)%Q -> exists m, In m ms /\ (x - m <= step / 2 + (1 # 2000000))%Q /\ (m - x <= step / 2 + (1 # 2000000))%Q) /\
    (forall m, In m ms -> (lower - (1 # 2000000) <= m)%Q /\ (m <= upper + step / 2 + (1 # 2000000))%Q).
Proof.
  intros dec inc var step [D1 D2] Hi Hv Hs lower upper. unfold create_multipliers.
  apply Qle_bool_iff in D1. apply Qlt_bool_iff in D2. rewrite D1, D2. cbn [andb negb raise_if].
  apply Qlt_bool_false in Hi. rewrite Hi. cbn [raise_if]. apply Qlt_bool_false in Hv. rewrite Hv. cbn [raise_if]. cbv zeta.
  destruct (Qeq_bool step 0) eqn:E; [apply Qeq_bool_iff in E; exfalso; lra|]. cbn [raise_if]. fold lower upper.
  set (len := Z.to_nat (Qceiling ((upper + step / 2 - lower) / step))).
  set (raw := map (fun i => millionths (lower + inject_Z (Z.of_nat i) * step)) (seq 0 len)).
  exists (map (fun z => (inject_Z z / 1000000)%Q) (zset_of raw)). split; [reflexivity|]. destruct (zset_sorted raw) as [S N]. split; [apply increasing_of_sorted; auto|].
  assert (Half : (step / 2 == step * (1 # 2))%Q) by reflexivity.
  set (D := ((upper + step / 2 - lower) / step)%Q) in *. assert (ED : (D * step == upper + step / 2 - lower)%Q) by (unfold D; field; lra).
  split.
  - intros x X1 X2. set (y := ((x - lower) / step)%Q). assert (Ey : (y * step == x - lower)%Q) by (unfold y; field; lra).
    assert (Y0 : (0 <= y)%Q) by (unfold y; apply Qle_shift_div_l; [auto|lra]).
    assert (YD : (y + (1 # 2) <= D)%Q). { apply Qmult_lt_0_le_reg_r with step; auto. rewrite ED, Qmult_plus_distr_l, Ey, Half. lra. }
    destruct (ceil_bounds (y - (1 # 2))) as [C1 C2]. set (i := Qceiling (y - (1 # 2))) in *.
    assert (I0 : (0 <= i)%Z). { assert (-1 < i)%Z; [|lia]. apply inject_lt. change (inject_Z (-1)) with (-1 # 1)%Q. lra. }
    destruct (ceil_bounds D) as [F1 _].
    assert (Ilen : Z.to_nat i < len). { unfold len. apply Z2Nat.inj_lt; auto. apply Z.lt_le_incl, Z.le_lt_trans with i; auto. apply inject_lt. lra. apply inject_lt. lra. }
    exists (inject_Z (millionths (lower + inject_Z i * step)) / 1000000)%Q. split.
    + apply in_map_iff. eexists. split; [reflexivity|]. apply zset_in. unfold raw. apply in_map_iff. exists (Z.to_nat i). rewrite Z2Nat.id by auto. split; auto. apply in_seq. lia.
    + destruct (millionths_error (lower + inject_Z i * step)) as [M1 M2]. set (m := (inject_Z (millionths (lower + inject_Z i * step)) / 1000000)%Q) in *.
      assert (G1 : ((y - (1 # 2)) * step <= inject_Z i * step)%Q) by (apply Qmult_le_compat_r; lra).
      assert (G2 : (inject_Z i * step <= (y + (1 # 2)) * step)%Q) by (apply Qmult_le_compat_r; lra).
      assert (G3 : ((y - (1 # 2)) * step == x - lower - step * (1 # 2))%Q) by (rewrite <- Ey; ring).
      assert (G4 : ((y + (1 # 2)) * step == x - lower + step * (1 # 2))%Q) by (rewrite <- Ey; ring). rewrite Half. split; lra.
  - intros m Hm. apply in_map_iff in Hm. destruct Hm as [z [<- Hz]]. apply (proj1 (zset_in raw z)) in Hz. unfold raw in Hz. apply in_map_iff in Hz. destruct Hz as [i [<- Hi2]]. apply in_seq in Hi2.
    destruct (millionths_error (lower + inject_Z (Z.of_nat i) * step)) as [M1 M2]. set (m := (inject_Z (millionths (lower + inject_Z (Z.of_nat i) * step)) / 1000000)%Q) in *.
    assert (I0 : (0 <= inject_Z (Z.of_nat i))%Q) by (change 0%Q with (inject_Z 0); apply inject_le; lia).
    assert (G0 : (0 <= inject_Z (Z.of_nat i) * step)%Q) by (apply Qmult_le_0_compat; lra). split; [lra|].
    destruct (ceil_bounds D) as [_ F2].
    assert (I1 : (inject_Z (Z.of_nat i) + 1 <= inject_Z (Qceiling D))%Q). { change 1%Q with (inject_Z 1). rewrite <- inject_Z_plus. apply inject_le. unfold len in Hi2. lia. }
    assert (G1 : (inject_Z (Z.of_nat i) * step <= D * step)%Q) by (apply Qmult_le_compat_r; lra). lra.
Qed.
