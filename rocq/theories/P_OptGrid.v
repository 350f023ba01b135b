(** Lemmas about bounds, grids, trimming and rounding. *)
From Coq Require Import ZArith QArith Qround List Bool Arith Lia Lqa Sorted.
From Verif Require Import Lib_QSum M_Base M_Opt S_Opt P_Spec P_Opt P_OptSearch P_OptConcave.
Import ListNotations.

(** Constraints. *)
Lemma const_array_length : forall n c, bad_length n (const_array c) = false <-> constraint_length_ok n c.
Proof.
  intros n [x|l]; unfold bad_length; simpl.
  - tauto.
  - rewrite negb_false_iff, orb_true_iff, !Nat.eqb_eq. tauto.
Qed.
Lemma existsb_false : forall (A : Type) (P : A -> bool) l, existsb P l = false <-> Forall (fun x => P x = false) l.
Proof.
  induction l; simpl; split; intros H; auto. apply orb_false_iff in H. constructor; tauto.
  inversion H; subst. apply orb_false_iff. tauto.
Qed.
Lemma constraint_all_array : forall P c, constraint_all P c <-> Forall P (const_array c).
Proof. intros P [x|l]; simpl; split; intros H; auto. inversion H; auto. Qed.
Lemma Forall_iff : forall (A : Type) (P R : A -> Prop) l, (forall x, P x <-> R x) -> Forall P l <-> Forall R l.
Proof. intros. rewrite !Forall_forall. firstorder. Qed.

Lemma validate_ok : forall n lo hi p, validate_spend_constraints n lo hi = Ok p <-> constraints_valid n lo hi /\ p = (const_array lo, const_array hi).
Proof.
  intros n lo hi p. unfold validate_spend_constraints, constraints_valid. rewrite !raise_if_ok, orb_false_iff, !const_array_length, !existsb_false.
  rewrite (Forall_iff Q (fun x => negb (Qle_bool 0 x && Qle_bool x 1) = false) (fun x => 0 <= x /\ x <= 1)%Q), (Forall_iff Q (fun x => Qlt_bool x 0 = false) (fun x => 0 <= x)%Q).
  - rewrite !constraint_all_array. split; [intros [H1 [H2 [H3 H4]]]|intros [[H1 [H2 [H3 H4]]] ->]]; repeat split; try tauto. injection H4 as <-; auto.
  - intros x. apply Qlt_bool_false.
  - intros x. rewrite negb_false_iff, andb_true_iff, !Qle_bool_iff. tauto.
Qed.
Lemma validate_err : forall n lo hi, validate_spend_constraints n lo hi = Err ValueError \/ exists p, validate_spend_constraints n lo hi = Ok p.
Proof.
  intros. unfold validate_spend_constraints. destruct (_ || _); cbn [raise_if]; auto. destruct (existsb _ _); cbn [raise_if]; auto.
  destruct (existsb _ _); cbn [raise_if]; eauto.
Qed.

Lemma broadcast_at : forall n c i F, constraint_length_ok n c -> (i < n)%nat -> broadcast (map F (const_array c)) i = F (constraint_at c i).
Proof.
  intros n [x|l] i F Hl Hi; simpl in *; auto. destruct l as [|a [|b l]]; simpl; auto.
  - exfalso. simpl in Hl. lia.
  - assert (Hn : (i < length (a :: b :: l))%nat) by (simpl in *; lia).
    destruct i as [|[|i]]; auto. simpl. rewrite (nth_indep _ 0%Q (F 0%Q)) by (rewrite map_length; simpl in Hn; lia). apply map_nth.
Qed.
Lemma constraint_at_all : forall P n c i, constraint_all P c -> constraint_length_ok n c -> (i < n)%nat -> P (constraint_at c i).
Proof.
  intros P n [x|l] i H Hl Hi; simpl in *; auto. destruct l as [|a [|b l]].
  - exfalso. simpl in Hl. lia.
  - inversion H; auto.
  - rewrite Forall_forall in H. apply H. apply nth_In. simpl in *. lia.
Qed.

Lemma bounds_err : forall n spend k lo hi, ~ constraints_valid n lo hi -> get_optimization_bounds n spend k lo hi = Err ValueError.
Proof.
  intros n spend k lo hi H. unfold get_optimization_bounds, get_spend_bounds.
  destruct (validate_err n lo hi) as [->|[p Hp]]; auto. apply validate_ok in Hp. tauto.
Qed.


Lemma bounds_ok : forall n spend k lo hi, constraints_valid n lo hi ->
  exists L U, get_optimization_bounds n spend k lo hi = Ok (L, U) /\
    forall i, (i < n)%nat ->
      L i = round_to k ((1 - constraint_at lo i) * inject_Z (round_to k (spend i))) /\
      U i = round_to k ((1 + constraint_at hi i) * inject_Z (round_to k (spend i))).
Proof.
  intros n spend k lo hi H. unfold get_optimization_bounds, get_spend_bounds.
  assert (Hv : validate_spend_constraints n lo hi = Ok (const_array lo, const_array hi)) by (apply validate_ok; auto).
  rewrite Hv. cbn [rbind fst snd]. do 2 eexists. split; [reflexivity|]. intros i Hi. destruct H as [H1 [H2 [H3 H4]]].
  cbv beta. rewrite (broadcast_at n lo i (fun x => if Qle_bool 0 (1 - x) then 1 - x else 0)%Q), (broadcast_at n hi i (fun x => 1 + x)%Q) by auto.
  pose proof (constraint_at_all _ n lo i H3 H1 Hi) as Hr. cbv beta in Hr.
  destruct (Qle_bool 0 (1 - constraint_at lo i)) eqn:E; [auto|]. exfalso.
  assert (Qle_bool 0 (1 - constraint_at lo i) = true) by (apply Qle_bool_iff; lra). congruence.
Qed.

Lemma round_to_comp : forall k x y, (x == y)%Q -> round_to k x = round_to k y.
Proof. intros. unfold round_to. rewrite (rint_comp (x / inject_Z (pow10 k)) (y / inject_Z (pow10 k))); auto. rewrite H. reflexivity. Qed.
Lemma round_to_zero : forall k, round_to k 0 = 0%Z.
Proof. intros. apply (round_to_fixed k 0). exists 0%Z. reflexivity. Qed.
Lemma round_to_nonneg : forall k x, (0 <= x)%Q -> (0 <= round_to k x)%Z.
Proof. intros. rewrite <- (round_to_zero k). apply round_to_mono; auto. Qed.

Lemma C21_lemma : forall n spend k lo hi, constraints_valid n lo hi -> (forall i, (i < n)%nat -> 0 <= spend i)%Q ->
  exists L U R, get_optimization_bounds n spend k lo hi = Ok (L, U) /\
    forall i, (i < n)%nat ->
      ((pow10 k | L i) /\ (pow10 k | U i) /\ (pow10 k | R i))%Z /\
      near k (R i) (spend i) /\
      near k (L i) ((1 - constraint_at lo i) * inject_Z (R i)) /\
      near k (U i) ((1 + constraint_at hi i) * inject_Z (R i)) /\
      (0 <= L i <= R i)%Z /\ (R i <= U i)%Z.
Proof.
  intros n spend k lo hi Hv Hs. destruct (bounds_ok n spend k lo hi Hv) as [L [U [E H]]].
  exists L, U, (fun i => round_to k (spend i)). split; auto. intros i Hi. destruct (H i Hi) as [-> ->].
  destruct Hv as [H1 [H2 [H3 H4]]]. pose proof (constraint_at_all _ n lo i H3 H1 Hi) as Hlo. pose proof (constraint_at_all _ n hi i H4 H2 Hi) as Hhi. cbv beta in *.
  pose proof (round_to_nonneg k (spend i) (Hs i Hi)) as Hnn. set (R := round_to k (spend i)) in *.
  assert (HR : (0 <= inject_Z R)%Q) by (change 0%Q with (inject_Z 0); apply inject_le; auto).
  assert (Hfix : round_to k (inject_Z R) = R) by (apply round_to_fixed; apply round_to_multiple).
  split; [repeat split; apply round_to_multiple|]. split; [apply round_to_error|]. split; [apply round_to_error|]. split; [apply round_to_error|].
  assert (HL : (0 <= (1 - constraint_at lo i) * inject_Z R)%Q) by (apply Qmult_le_0_compat; lra).
  split; [split|].
  - apply round_to_nonneg; auto.
  - rewrite <- Hfix at 2. apply round_to_mono. assert (0 <= constraint_at lo i * inject_Z R)%Q by (apply Qmult_le_0_compat; lra). lra.
  - rewrite <- Hfix at 1. apply round_to_mono. assert (0 <= constraint_at hi i * inject_Z R)%Q by (apply Qmult_le_0_compat; lra). lra.
Qed.

(** Round factor. *)
Lemma ilog10_spec : forall fuel z, (1 <= z)%Z -> (z <= Z.of_nat fuel)%Z -> (pow10 (ilog10 fuel z) <= z < pow10 (S (ilog10 fuel z)))%Z.
Proof.
  assert (Hp : forall k, pow10 (S k) = (10 * pow10 k)%Z).
  { intros. unfold pow10. rewrite Nat2Z.inj_succ, Z.pow_succ_r by lia. reflexivity. }
  induction fuel as [|fuel IH]; intros z H1 H2; [lia|]. cbn [ilog10]. destruct (Z.ltb_spec z 10).
  - rewrite Hp. change (pow10 0) with 1%Z. lia.
  - pose proof (Z.div_mod z 10 ltac:(lia)). pose proof (Z.mod_pos_bound z 10 ltac:(lia)).
    destruct (IH (z / 10)%Z ltac:(lia) ltac:(lia)) as [A B]. rewrite (Hp (S _)), (Hp (ilog10 fuel (z / 10))) in *. lia.
Qed.
Lemma int_log10_spec : forall t, (1 <= t)%Q -> (inject_Z (pow10 (int_log10 t)) <= t /\ t < inject_Z (pow10 (S (int_log10 t))))%Q.
Proof.
  intros t Ht. unfold int_log10. assert (H1 : (1 <= Qfloor t)%Z) by (change 1%Z with (Qfloor 1); apply Qfloor_resp_le; auto).
  destruct (ilog10_spec (Z.to_nat (Qfloor t)) (Qfloor t) H1 ltac:(lia)) as [A B]. destruct (floor_bounds t) as [C D]. split.
  - apply Qle_trans with (inject_Z (Qfloor t)); auto. apply inject_le. auto.
  - apply Qlt_le_trans with (inject_Z (Qfloor t) + 1)%Q; auto. change 1%Q with (inject_Z 1). rewrite <- inject_Z_plus. apply inject_le. lia.
Qed.

Lemma round_factor_ok : forall budget gtol, (gtol < 1)%Q -> (0 < budget)%Q ->
  exists k, get_round_factor budget gtol = Ok (- Z.of_nat k)%Z /\
    ((budget * gtol < 1)%Q /\ k = 0%nat \/
     (1 <= budget * gtol)%Q /\ (inject_Z (pow10 k) <= 10 * (budget * gtol) /\ budget * gtol < inject_Z (pow10 k))%Q).
Proof.
  intros b g Hg Hb. unfold get_round_factor.
  destruct (Qle_bool 1 g) eqn:E1; [apply Qle_bool_iff in E1; lra|]. destruct (Qle_bool b 0) eqn:E2; [apply Qle_bool_iff in E2; lra|].
  destruct (Qlt_bool (b * g) 1) eqn:E3.
  - apply Qlt_bool_iff in E3. exists 0%nat. split; auto.
  - apply Qlt_bool_false in E3. exists (S (int_log10 (b * g))). split; [f_equal; lia|]. right. split; auto.
    destruct (int_log10_spec _ E3) as [A B]. split; auto.
    replace (pow10 (S (int_log10 (b * g)))) with (10 * pow10 (int_log10 (b * g)))%Z by (unfold pow10; rewrite Nat2Z.inj_succ, Z.pow_succ_r by lia; reflexivity).
    rewrite inject_Z_mult. change (inject_Z 10) with 10%Q. lra.
Qed.
Lemma round_factor_err : forall budget gtol, (1 <= gtol)%Q \/ (budget <= 0)%Q -> get_round_factor budget gtol = Err ValueError.
Proof.
  intros b g H. unfold get_round_factor. destruct (Qle_bool 1 g) eqn:E1; auto. destruct (Qle_bool b 0) eqn:E2; auto.
  exfalso. destruct H as [H|H]; apply Qle_bool_iff in H; congruence.
Qed.

(** Grid creation. *)
Lemma zmax_spec : forall n F, (0 < n)%nat -> (forall i, (i < n)%nat -> (F i <= zmax n F)%Z) /\ exists i, (i < n)%nat /\ zmax n F = F i.
Proof.
  induction n as [|n IH]; intros F Hn; [lia|]. destruct n as [|n].
  - split; [intros i Hi; replace i with 0%nat by lia; simpl; lia|]. exists 0%nat. split; [lia|auto].
  - destruct (IH F ltac:(lia)) as [A [j [Hj Ej]]]. change (zmax (S (S n)) F) with (Z.max (zmax (S n) F) (F (S n))). split.
    + intros i Hi. destruct (Nat.eq_dec i (S n)) as [->|]; [lia|]. specialize (A i ltac:(lia)). lia.
    + destruct (Z.le_gt_cases (zmax (S n) F) (F (S n))); [exists (S n)|exists j]; split; try lia.
Qed.

Lemma arange_exact : forall l step m, (0 < step)%Z -> arange l (l + Z.of_nat m * step) step = map (fun i => l + Z.of_nat i * step)%Z (seq 0 (S m)).
Proof.
  intros. unfold arange. replace (Z.to_nat ((l + Z.of_nat m * step + step - l + (step - 1)) / step)) with (S m); auto.
  replace (l + Z.of_nat m * step + step - l + (step - 1))%Z with ((step - 1) + (Z.of_nat m + 1) * step)%Z by lia.
  rewrite Z.div_add by lia. rewrite Z.div_small by lia. lia.
Qed.

Lemma C22_lemma : forall n lower upper step m outcome, (0 < n)%nat -> (0 < step)%Z ->
  (forall c, (c < n)%nat -> upper c = (lower c + Z.of_nat (m c) * step)%Z) ->
  exists rows, (forall c, (c < n)%nat -> (m c < rows)%nat) /\ (exists c, (c < n)%nat /\ rows = S (m c)) /\
    create_grids n lower upper step outcome = Ok (uniform_grid n rows lower step m (fun c i => outcome c (lower c + Z.of_nat i * step)%Z)).
Proof.
  intros n lower upper step m outcome Hn Hs Hu. destruct (zmax_spec n (fun i => upper i - lower i)%Z Hn) as [A [j [Hj Ej]]].
  assert (HM : forall c, (c < n)%nat -> (m c <= m j)%nat). { intros c Hc. specialize (A c Hc). cbv beta in *. rewrite Ej, (Hu c Hc), (Hu j Hj) in A. nia. }
  assert (Hrows : Z.to_nat (zmax n (fun i => upper i - lower i)%Z / step + 1) = S (m j)).
  { rewrite Ej. cbv beta. rewrite (Hu j Hj). replace (lower j + Z.of_nat (m j) * step - lower j)%Z with (Z.of_nat (m j) * step)%Z by lia. rewrite Z.div_mul by lia. lia. }
  exists (S (m j)). split; [intros c Hc; specialize (HM c Hc); lia|]. split; [eauto|].
  unfold create_grids. rewrite Hrows. destruct (Nat.eqb_spec n 0); [lia|]. cbn [raise_if].
  assert (Hex : existsb (fun i => Nat.ltb (S (m j)) (length (arange (lower i) (upper i) step))) (seq 0 n) = false).
  { apply existsb_false. apply Forall_forall. intros i Hi. apply in_seq in Hi. rewrite (Hu i) by lia. rewrite arange_exact by auto.
    rewrite map_length, seq_length. apply Nat.ltb_ge. specialize (HM i ltac:(lia)). lia. }
  rewrite Hex. cbn [raise_if]. f_equal. unfold uniform_grid. apply map_ext_in. intros c Hc. apply in_seq in Hc.
  rewrite (Hu c) by lia. rewrite arange_exact by auto. unfold grid_column, uniform_column. rewrite map_map, map_length, seq_length. reflexivity.
Qed.

(** Trimming. *)
Definition idx (P : cells -> bool) (k : nat) (l : list cells) : list nat := filter (fun r => P (nth (r - k) l None)) (seq k (length l)).
Lemma idx_cons : forall P k x l, idx P k (x :: l) = (if P x then [k] else []) ++ idx P (S k) l.
Proof.
  intros. unfold idx. cbn [length seq filter]. replace (k - k)%nat with 0%nat by lia. cbn [nth].
  rewrite (filter_ext_in (fun r => P (nth (r - k) (x :: l) None)) (fun r => P (nth (r - S k) l None))).
  - destruct (P x); reflexivity.
  - intros r Hr. apply in_seq in Hr. replace (r - k)%nat with (S (r - S k)) by lia. reflexivity.
Qed.
Lemma idx_app : forall P l1 l2 k, idx P k (l1 ++ l2) = idx P k l1 ++ idx P (k + length l1) l2.
Proof.
  induction l1 as [|x l1 IH]; intros; simpl app.
  - simpl. rewrite Nat.add_0_r. reflexivity.
  - rewrite !idx_cons, IH, <- app_assoc. simpl length. rewrite Nat.add_succ_r. reflexivity.
Qed.
Lemma idx_false : forall P l k, Forall (fun x => P x = false) l -> idx P k l = [].
Proof. induction l; intros k H; auto. inversion H; subst. rewrite idx_cons, H2. simpl. auto. Qed.
Lemma idx_true : forall P l k, Forall (fun x => P x = true) l -> idx P k l = seq k (length l).
Proof. induction l; intros k H; auto. inversion H; subst. rewrite idx_cons, H2. simpl. f_equal. auto. Qed.

Lemma valid_indices_idx : forall lo hi col, valid_indices lo hi col = idx (in_bounds lo hi) 0 col.
Proof. intros. unfold valid_indices, idx. apply filter_ext. intros. rewrite Nat.sub_0_r. reflexivity. Qed.

Lemma increasing_tail : forall p pts, increasing (p :: pts) -> increasing pts /\ Forall (fun q => (fst p < fst q)%Z) pts.
Proof.
  intros p pts. revert p. induction pts as [|q pts IH]; intros p H; [split; [exact I|constructor]|].
  destruct H as [H1 H2]. split; auto. destruct (IH q H2) as [_ Hf]. constructor; auto. eapply Forall_impl; [|exact Hf]. cbv beta. intros. lia.
Qed.

Lemma split_bounds : forall lo hi pts, increasing pts -> exists A C, pts = A ++ kept lo hi pts ++ C /\
  Forall (fun p => (fst p < lo)%Z) A /\ Forall (fun p => (hi < fst p)%Z) C.
Proof.
  intros lo hi. induction pts as [|p pts IH]; intros H; [exists [], []; auto|].
  apply increasing_tail in H. destruct H as [H1 H2]. destruct (IH H1) as [A [C [E [HA HC]]]]. unfold kept in *. cbn [filter].
  destruct (Z.leb_spec lo (fst p)); destruct (Z.leb_spec (fst p) hi); cbn [andb].
  - (* in bounds: A must be empty *)
    assert (A = []). { destruct A as [|a A]; auto. exfalso. inversion HA; subst. rewrite Forall_forall in H2. specialize (H2 a). rewrite E in H2. specialize (H2 (or_introl eq_refl)). lia. }
    subst A. exists [], C. split; [|auto]. simpl in *. f_equal. exact E.
  - (* above: nothing is kept *)
    exists [], (p :: pts). assert (Hk : filter (fun p0 => Z.leb lo (fst p0) && Z.leb (fst p0) hi) pts = []).
    { clear - H2 H0. induction pts as [|q pts IH]; auto. inversion H2; subst. cbn [filter]. destruct (Z.leb_spec (fst q) hi); [lia|]. rewrite andb_false_r. auto. }
    rewrite Hk. split; [reflexivity|]. split; auto. constructor; auto. eapply Forall_impl; [|exact H2]. cbv beta. intros. lia.
  - exists (p :: A), C. split; [|split; auto]. simpl. f_equal. exact E.
  - exists (p :: A), C. split; [|split; auto]. simpl. f_equal. exact E.
Qed.

Lemma in_bounds_kept : forall lo hi pts, Forall (fun x => in_bounds lo hi x = true) (map Some (kept lo hi pts)).
Proof. intros. apply Forall_forall. intros x Hx. apply in_map_iff in Hx. destruct Hx as [[s o] [<- Hp]]. apply filter_In in Hp. exact (proj2 Hp). Qed.

Lemma last_seq : forall k a d, last (seq a (S k)) d = (a + k)%nat.
Proof.
  induction k; intros; [simpl; lia|]. replace (last (seq a (S (S k))) d) with (last (seq (S a) (S k)) d) by reflexivity. rewrite IHk. lia.
Qed.

Lemma firstn_app_left : forall (A : Type) (l1 l2 : list A) n, n = length l1 -> firstn n (l1 ++ l2) = l1.
Proof. intros. subst. rewrite firstn_app, Nat.sub_diag, firstn_all. simpl. apply app_nil_r. Qed.

Lemma skipn_app_left : forall (A : Type) (l1 l2 : list A) n, n = length l1 -> skipn n (l1 ++ l2) = l2.
Proof. intros. subst. rewrite skipn_app, Nat.sub_diag, skipn_all. reflexivity. Qed.

Lemma trim_column_spec : forall rows lo hi pts, increasing pts -> (length pts <= rows)%nat ->
  trim_column lo hi (column_of rows pts) = match kept lo hi pts with [] => Err IndexError | _ => Ok (column_of rows (kept lo hi pts)) end.
Proof.
  intros rows lo hi pts Hinc Hlen. destruct (split_bounds lo hi pts Hinc) as [A [C [E [HA HC]]]].
  remember (kept lo hi pts) as B eqn:HB. unfold trim_column. rewrite valid_indices_idx.
  assert (Hlc : length (column_of rows pts) = rows) by (unfold column_of; rewrite app_length, map_length, repeat_length; lia).
  assert (Hcol : column_of rows pts = map Some A ++ map Some B ++ (map Some C ++ repeat None (rows - length pts))).
  { unfold column_of. rewrite E at 1. rewrite !map_app, <- !app_assoc. reflexivity. }
  assert (Hidx : idx (in_bounds lo hi) 0 (column_of rows pts) = seq (length A) (length B)).
  { rewrite Hcol, !idx_app. rewrite (idx_false _ (map Some A)), (idx_true _ (map Some B)), (idx_false _ (map Some C)), (idx_false _ (repeat None _)).
    - rewrite !map_length, !app_nil_r. reflexivity.
    - apply Forall_forall. intros x Hx. apply repeat_spec in Hx. subst. reflexivity.
    - apply Forall_forall. intros x Hx. apply in_map_iff in Hx. destruct Hx as [[s o] [<- Hp]]. rewrite Forall_forall in HC. specialize (HC _ Hp). simpl in *. destruct (Z.leb_spec s hi); [lia|]. apply andb_false_r.
    - subst B. apply in_bounds_kept.
    - apply Forall_forall. intros x Hx. apply in_map_iff in Hx. destruct Hx as [[s o] [<- Hp]]. rewrite Forall_forall in HA. specialize (HA _ Hp). simpl in *. destruct (Z.leb_spec lo s); [lia|]. reflexivity. }
  rewrite Hidx, Hlc. clear Hidx. destruct B as [|p B]; [reflexivity|].
  cbn [length seq]. replace (length A :: seq (S (length A)) (length B)) with (seq (length A) (S (length B))) by reflexivity.
  rewrite last_seq. replace (length A + length B - length A + 1)%nat with (length (map (@Some (Z * Q)) (p :: B))) by (rewrite map_length; simpl; lia).
  f_equal. unfold column_of at 2. f_equal.
  - unfold roll. rewrite Hcol. rewrite skipn_app_left by (rewrite map_length; auto). rewrite <- app_assoc.
    apply firstn_app_left. reflexivity.
  - rewrite map_length. reflexivity.
Qed.

Lemma trim_columns_spec : forall (lower upper : nat -> Z) rows ps n a, (forall c, (a <= c < a + n)%nat -> increasing (ps c) /\ (length (ps c) <= rows)%nat) ->
  trim_columns a lower upper (map (fun c => column_of rows (ps c)) (seq a n)) =
  if existsb (fun c => match kept (lower c) (upper c) (ps c) with [] => true | _ => false end) (seq a n) then Err IndexError
  else Ok (map (fun c => column_of rows (kept (lower c) (upper c) (ps c))) (seq a n)).
Proof.
  intros lower upper rows ps. induction n as [|n IH]; intros a H; [reflexivity|]. cbn [seq map trim_columns existsb].
  destruct (H a ltac:(lia)) as [H1 H2]. rewrite trim_column_spec by auto. destruct (kept (lower a) (upper a) (ps a)) as [|p B] eqn:E; [reflexivity|].
  cbn [rbind orb]. rewrite IH by (intros; apply H; lia). destruct (existsb _ _); [reflexivity|]. cbn [rbind]. reflexivity.
Qed.

Lemma longest_ge : forall n ps c, (c < n)%nat -> (length (ps c) <= longest n ps)%nat.
Proof. induction n; intros; [lia|]. simpl. destruct (Nat.eq_dec c n) as [->|]; [lia|]. specialize (IHn ps c ltac:(lia)). lia. Qed.
Lemma longest_le : forall n ps k, (forall c, (c < n)%nat -> (length (ps c) <= k)%nat) -> (longest n ps <= k)%nat.
Proof. induction n; intros; simpl; [lia|]. pose proof (IHn ps k ltac:(intros; apply H; lia)). pose proof (H n ltac:(lia)). lia. Qed.
Lemma longest_witness : forall n ps r, (r < longest n ps)%nat -> exists c, (c < n)%nat /\ (r < length (ps c))%nat.
Proof.
  induction n; intros; simpl in H; [lia|]. destruct (Nat.lt_ge_cases r (length (ps n))); [exists n; split; [lia|auto]|].
  destruct (IHn ps r ltac:(lia)) as [c [Hc Hr]]. exists c. split; [lia|auto].
Qed.
Lemma column_of_nth : forall rows pts r, nth r (column_of rows pts) None = nth_error pts r.
Proof.
  intros rows pts. induction pts as [|p pts IH] in rows |- *; intros r.
  - unfold column_of. simpl. rewrite nth_repeat_none. destruct r; reflexivity.
  - destruct r as [|r]; [reflexivity|]. simpl. rewrite <- (IH (rows - 1)%nat). unfold column_of.
    replace (rows - 1 - length pts)%nat with (rows - S (length pts))%nat by lia. reflexivity.
Qed.
Lemma filter_seq_lt : forall M k a, filter (fun r => Nat.ltb r M) (seq a k) = seq a (Nat.min k (M - a)).
Proof.
  intros M. induction k as [|k IH]; intros a; [reflexivity|]. cbn [seq filter]. destruct (Nat.ltb_spec a M).
  - rewrite IH. replace (Nat.min (S k) (M - a)) with (S (Nat.min k (M - S a))) by lia. reflexivity.
  - rewrite IH. replace (Nat.min k (M - S a)) with 0%nat by lia. replace (Nat.min (S k) (M - a)) with 0%nat by lia. reflexivity.
Qed.
Lemma column_take : forall pts M, (length pts <= M)%nat -> map (fun r => nth_error pts r) (seq 0 M) = column_of M pts.
Proof.
  induction pts as [|p pts IH]; intros M H.
  - unfold column_of. simpl. rewrite Nat.sub_0_r. clear. generalize 0%nat. induction M; intros a; simpl; auto. rewrite IHM. destruct a; reflexivity.
  - destruct M as [|M]; [simpl in H; lia|]. cbn [seq map]. rewrite <- seq_shift, map_map. cbn [nth_error]. rewrite IH by (simpl in H; lia).
    unfold column_of. simpl. reflexivity.
Qed.

Lemma dropna_spec : forall n rows ps, (0 < n)%nat -> (forall c, (c < n)%nat -> (length (ps c) <= rows)%nat) ->
  dropna (grid_of n rows ps) = grid_of n (longest n ps) ps.
Proof.
  intros n rows ps Hn Hlen. assert (Hrows : n_rows (grid_of n rows ps) = rows).
  { unfold grid_of. destruct n as [|k]; [lia|]. cbn [seq map n_rows]. unfold column_of. rewrite app_length, map_length, repeat_length. specialize (Hlen 0%nat ltac:(lia)). lia. }
  assert (Hkept : kept_rows (grid_of n rows ps) = seq 0 (longest n ps)).
  { unfold kept_rows. rewrite Hrows. rewrite (filter_ext _ (fun r => Nat.ltb r (longest n ps))).
    - rewrite filter_seq_lt. rewrite Nat.sub_0_r, Nat.min_r; auto. apply longest_le; auto.
    - intros r. destruct (Nat.ltb_spec r (longest n ps)) as [Hr|Hr].
      + apply existsb_exists. destruct (longest_witness n ps r Hr) as [c [Hc Hl]]. exists (column_of rows (ps c)).
        split; [unfold grid_of; apply in_map_iff; exists c; split; auto; apply in_seq; lia|]. rewrite column_of_nth.
        destruct (nth_error (ps c) r) eqn:E; auto. apply nth_error_None in E. lia.
      + apply existsb_false. apply Forall_forall. intros col Hcol. unfold grid_of in Hcol. apply in_map_iff in Hcol. destruct Hcol as [c [<- Hc]]. apply in_seq in Hc.
        rewrite column_of_nth. assert (E : nth_error (ps c) r = None); [|rewrite E; auto]. apply nth_error_None. pose proof (longest_ge n ps c ltac:(lia)). lia. }
  unfold dropna. rewrite Hkept. unfold grid_of. rewrite map_map. apply map_ext_in. intros c Hc. apply in_seq in Hc.
  rewrite <- (column_take (ps c) (longest n ps)) by (apply longest_ge; lia). apply map_ext. intros. apply column_of_nth.
Qed.

Lemma spends_column : forall rows pts, spends (column_of rows pts) = map fst pts.
Proof.
  intros rows pts. unfold column_of. generalize (rows - length pts)%nat. intros k.
  induction pts as [|[s o] pts IH]; [|unfold spends in *; simpl; f_equal; exact IH].
  simpl. induction k; auto.
Qed.

Lemma outside_check : forall rows lo hi pts, below_grid lo (column_of rows pts) || above_grid hi (column_of rows pts) = true <-> outside lo hi pts.
Proof.
  intros. unfold below_grid, above_grid, outside. rewrite !spends_column. destruct pts as [|p pts].
  - simpl. split; [discriminate|]. intros [H _]. contradiction.
  - remember (p :: pts) as l. destruct (map fst l) eqn:E; [subst; discriminate|]. rewrite <- E.
    rewrite orb_true_iff, !forallb_forall, !Forall_forall. split.
    + intros H. split; [subst; discriminate|]. destruct H as [H|H]; [left|right]; intros q Hq; specialize (H (fst q) (in_map fst _ _ Hq)); apply Z.ltb_lt in H; auto.
    + intros [_ H]. destruct H as [H|H]; [left|right]; intros x Hx; apply in_map_iff in Hx; destruct Hx as [q [<- Hq]]; apply Z.ltb_lt; auto.
Qed.

Lemma grid_of_length : forall n rows ps, length (grid_of n rows ps) = n.
Proof. intros. unfold grid_of. rewrite map_length, seq_length. auto. Qed.
Lemma grid_of_cell : forall n rows ps c r, (c < n)%nat -> cell (grid_of n rows ps) c r = nth_error (ps c) r.
Proof. intros. unfold cell, grid_of. rewrite (nth_map_seq _ (fun c => column_of rows (ps c))) by auto. apply column_of_nth. Qed.

Lemma check_spec : forall n rows ps lower upper,
  (forall c, (c < n)%nat -> ~ outside (lower c) (upper c) (ps c)) /\ check_optimization_bounds (grid_of n rows ps) lower upper = Ok tt \/
  (exists c, (c < n)%nat /\ outside (lower c) (upper c) (ps c)) /\ check_optimization_bounds (grid_of n rows ps) lower upper = Err ValueError.
Proof.
  intros. unfold check_optimization_bounds. rewrite grid_of_length. destruct (existsb _ _) eqn:E.
  - right. split; [|reflexivity]. apply existsb_exists in E. destruct E as [c [Hc Ho]]. apply in_seq in Hc. exists c. split; [lia|].
    unfold grid_of in Ho. rewrite (nth_map_seq _ (fun c => column_of rows (ps c))) in Ho by lia. apply outside_check in Ho. auto.
  - left. split; [|reflexivity]. intros c Hc Ho. apply (outside_check rows) in Ho. apply existsb_false in E. rewrite Forall_forall in E. specialize (E c). cbv beta in E.
    unfold grid_of in E. rewrite (nth_map_seq _ (fun c => column_of rows (ps c))) in E by auto. rewrite E in Ho; [discriminate|]. apply in_seq. lia.
Qed.

Lemma C27_lemma : forall n rows ps lower upper, (0 < n)%nat -> (forall c, (c < n)%nat -> increasing (ps c) /\ (length (ps c) <= rows)%nat) ->
  let ks := fun c => kept (lower c) (upper c) (ps c) in
  ((exists c, (c < n)%nat /\ outside (lower c) (upper c) (ps c)) -> trim_grids (grid_of n rows ps) lower upper = Err ValueError) /\
  ((forall c, (c < n)%nat -> ~ outside (lower c) (upper c) (ps c)) -> (exists c, (c < n)%nat /\ ks c = []) -> trim_grids (grid_of n rows ps) lower upper = Err IndexError) /\
  ((forall c, (c < n)%nat -> ~ outside (lower c) (upper c) (ps c)) -> (forall c, (c < n)%nat -> ks c <> []) ->
    trim_grids (grid_of n rows ps) lower upper = Ok (grid_of n (longest n ks) ks)).
Proof.
  intros n rows ps lower upper Hn H ks. unfold trim_grids.
  assert (Htr : trim_columns 0 lower upper (grid_of n rows ps) =
    if existsb (fun c => match ks c with [] => true | _ => false end) (seq 0 n) then Err IndexError else Ok (grid_of n rows ks)).
  { apply trim_columns_spec. intros c Hc. apply H. lia. }
  destruct (check_spec n rows ps lower upper) as [[Hno E]|[[c [Hc Ho]] E]]; rewrite E; cbn [rbind]; (split; [|split]).
  - intros [c [Hc Ho]]. destruct (Hno c Hc Ho).
  - intros _ [c [Hc Hk]]. rewrite Htr. assert (Hx : existsb (fun c => match ks c with [] => true | _ => false end) (seq 0 n) = true); [|rewrite Hx; reflexivity].
    apply existsb_exists. exists c. split; [apply in_seq; lia|]. rewrite Hk. auto.
  - intros _ Hk. rewrite Htr. assert (Hx : existsb (fun c => match ks c with [] => true | _ => false end) (seq 0 n) = false).
    { apply existsb_false. apply Forall_forall. intros c Hc. apply in_seq in Hc. specialize (Hk c ltac:(lia)). destruct (ks c); [contradiction|auto]. }
    rewrite Hx. cbn [rbind]. f_equal. apply dropna_spec; auto. intros c Hc. destruct (H c Hc) as [_ Hl]. unfold ks, kept.
    apply Nat.le_trans with (length (ps c)); auto. clear. induction (ps c) as [|p l IH]; simpl; [lia|]. destruct (_ && _); simpl; lia.
  - intros _. reflexivity.
  - intros Hno. destruct (Hno c Hc Ho).
  - intros Hno. destruct (Hno c Hc Ho).
Qed.

(** End to end. *)
Lemma increasing_nth : forall pts r r' p q, increasing pts -> (r < r')%nat -> nth_error pts r = Some p -> nth_error pts r' = Some q -> (fst p < fst q)%Z.
Proof.
  induction pts as [|a pts IH]; intros r r' p q H Hr E1 E2; [destruct r; discriminate|]. apply increasing_tail in H. destruct H as [H1 H2].
  destruct r' as [|r']; [lia|]. destruct r as [|r].
  - injection E1 as <-. cbn [nth_error] in E2. apply nth_error_In in E2. rewrite Forall_forall in H2. apply (H2 q E2).
  - eapply IH; [exact H1| |exact E1|exact E2]. lia.
Qed.
Lemma kept_increasing : forall lo hi pts, increasing pts -> increasing (kept lo hi pts).
Proof.
  intros lo hi. induction pts as [|p pts IH]; intros H; [exact I|]. apply increasing_tail in H. destruct H as [H1 H2]. unfold kept in *. cbn [filter].
  destruct (_ && _); [|auto]. specialize (IH H1). destruct (filter _ pts) as [|q l] eqn:E; [exact I|]. split; auto.
  assert (In q pts). { assert (In q (filter (fun p => Z.leb lo (fst p) && Z.leb (fst p) hi) pts)) by (rewrite E; left; auto). apply filter_In in H. tauto. }
  rewrite Forall_forall in H2. auto.
Qed.
Lemma grid_of_well_formed : forall n ps, (0 < n)%nat -> (forall c, (c < n)%nat -> increasing (ps c) /\ ps c <> []) -> well_formed (grid_of n (longest n ps) ps).
Proof.
  intros n ps Hn H. assert (Hl : forall c, (c < n)%nat -> length (column_of (longest n ps) (ps c)) = longest n ps).
  { intros c Hc. unfold column_of. rewrite app_length, map_length, repeat_length. pose proof (longest_ge n ps c Hc). lia. }
  assert (Hrows : n_rows (grid_of n (longest n ps) ps) = longest n ps).
  { unfold grid_of. destruct n as [|k]; [lia|]. cbn [seq map n_rows]. apply Hl. lia. }
  split; [|split].
  - intros col Hcol. rewrite Hrows. unfold grid_of in Hcol. apply in_map_iff in Hcol. destruct Hcol as [c [<- Hc]]. apply in_seq in Hc. apply Hl. lia.
  - intros c Hc. rewrite grid_of_length in Hc. rewrite grid_of_cell by auto. destruct (H c Hc) as [_ Hne]. destruct (ps c); [contradiction|discriminate].
  - intros c r r' s o s' o' Hr E1 E2. destruct (Nat.lt_ge_cases c n) as [Hc|Hc].
    + rewrite grid_of_cell in E1, E2 by auto. apply (increasing_nth (ps c) r r' (s, o) (s', o')); auto. apply H. auto.
    + unfold cell in E1. rewrite (nth_overflow (grid_of _ _ _)) in E1 by (rewrite grid_of_length; auto). destruct r; discriminate.
Qed.

Lemma kept_hd : forall lo hi pts p, increasing pts -> In p pts -> fst p = lo -> (lo <= hi)%Z -> nth_error (kept lo hi pts) 0 = Some p.
Proof.
  intros lo hi pts p Hinc Hin Hp Hle. induction pts as [|q pts IH]; [destruct Hin|]. apply increasing_tail in Hinc. destruct Hinc as [H1 H2]. unfold kept in *. cbn [filter].
  destruct Hin as [->|Hin].
  - rewrite Hp. destruct (Z.leb_spec lo lo); [|lia]. destruct (Z.leb_spec lo hi); [|lia]. reflexivity.
  - rewrite Forall_forall in H2. specialize (H2 p Hin). destruct (Z.leb_spec lo (fst q)); [lia|]. cbn [andb]. apply IH; auto.
Qed.

Lemma rbind_ok : forall (A B : Type) (r : result A) (k : A -> result B) b, rbind r k = Ok b -> exists a, r = Ok a /\ k a = Ok b.
Proof. intros A B [a|e] k b H; [eauto|discriminate]. Qed.

Lemma optimize_inv : forall n rows ps k gtol hist s pct lo hi opt rounded, (0 < n)%nat ->
  (forall c, (c < n)%nat -> increasing (ps c) /\ (length (ps c) <= rows)%nat) ->
  optimize (grid_of n rows ps) k gtol hist s pct lo hi = Ok (opt, rounded) ->
  exists share L U, validate_pct_of_spend n hist pct = Ok share /\
    get_optimization_bounds n (fun i => budget_of n hist s * share i)%Q k (or_default s lo) (or_default s hi) = Ok (L, U) /\
    rounded = (fun i => round_to k (budget_of n hist s * share i)) /\
    (forall c, (c < n)%nat -> kept (L c) (U c) (ps c) <> []) /\
    (forall c, (c < n)%nat -> ~ outside (L c) (U c) (ps c)) /\
    grid_search (grid_of n (longest n (fun c => kept (L c) (U c) (ps c))) (fun c => kept (L c) (U c) (ps c))) (search_scenario s (zsum n rounded)) = Ok opt.
Proof.
  intros n rows ps k gtol hist s pct lo hi opt rounded Hn Hps H. unfold optimize in H. rewrite grid_of_length in H.
  change (match s with Fixed (Some b) => if Qeq_bool b 0 then qsum n hist else b | _ => qsum n hist end) with (budget_of n hist s) in H.
  change (match lo with Some c => c | None => match s with Fixed _ => Scalar (3 # 10) | _ => Scalar 1 end end) with (or_default s lo) in H.
  change (match hi with Some c => c | None => match s with Fixed _ => Scalar (3 # 10) | _ => Scalar 1 end end) with (or_default s hi) in H.
  apply rbind_ok in H. destruct H as [share [E1 H]]. cbv beta zeta in H. apply rbind_ok in H. destruct H as [[L U] [E2 H]]. cbn [fst snd] in H.
  apply rbind_ok in H. destruct H as [rf [_ H]]. apply rbind_ok in H. destruct H as [g' [E3 H]]. apply rbind_ok in H. destruct H as [o [E4 H]].
  assert (Hop : opt = o /\ rounded = (fun i => round_to k (budget_of n hist s * share i))) by (split; congruence). destruct Hop as [-> ->].
  exists share, L, U. split; auto. split; auto. split; auto.
  destruct (C27_lemma n rows ps L U Hn Hps) as [A [B C]]. 
  assert (Hno : forall c, (c < n)%nat -> ~ outside (L c) (U c) (ps c)).
  { intros c Hc Ho. rewrite A in E3 by eauto. discriminate. }
  assert (Hk : forall c, (c < n)%nat -> kept (L c) (U c) (ps c) <> []).
  { intros c Hc Ho. rewrite B in E3 by eauto. discriminate. }
  split; auto. split; auto. rewrite C in E3 by auto. injection E3 as <-. exact E4.
Qed.

Lemma kept_in : forall lo hi pts p, In p (kept lo hi pts) -> In p pts /\ (lo <= fst p <= hi)%Z.
Proof. intros. unfold kept in H. apply filter_In in H. destruct H as [H1 H2]. apply andb_true_iff in H2. rewrite !Z.leb_le in H2. auto. Qed.

Lemma C52_bounds_lemma : forall n rows ps k gtol hist s pct lo hi opt rounded, (0 < n)%nat ->
  (forall c, (c < n)%nat -> increasing (ps c) /\ (length (ps c) <= rows)%nat) ->
  optimize (grid_of n rows ps) k gtol hist s pct lo hi = Ok (opt, rounded) ->
  exists share L U, validate_pct_of_spend n hist pct = Ok share /\
    get_optimization_bounds n (fun i => budget_of n hist s * share i)%Q k (or_default s lo) (or_default s hi) = Ok (L, U) /\
    (forall c, (c < n)%nat -> In (opt c) (map fst (ps c)) /\ (L c <= opt c <= U c)%Z) /\
    (match s with Fixed _ => True | _ => False end ->
      (forall c, (c < n)%nat -> In (L c) (map fst (ps c)) /\ (L c <= U c)%Z) -> (forall c, (c < n)%nat -> (L c <= rounded c)%Z) -> (zsum n opt <= zsum n rounded)%Z).
Proof.
  intros n rows ps k gtol hist s pct lo hi opt rounded Hn Hps H.
  destruct (optimize_inv _ _ _ _ _ _ _ _ _ _ _ _ Hn Hps H) as [share [L [U [E1 [E2 [E3 [Hk [_ Hg]]]]]]]].
  exists share, L, U. split; auto. split; auto.
  set (ks := fun c => kept (L c) (U c) (ps c)) in *. set (g := grid_of n (longest n ks) ks) in *.
  assert (Hw : well_formed g). { apply grid_of_well_formed; auto. intros c Hc. split; [apply kept_increasing; apply Hps; auto|apply Hk; auto]. }
  assert (Hat : forall y c, (c < n)%nat -> feasible g y -> exists p, nth_error (ks c) (y c) = Some p /\ spend_at g y c = fst p).
  { intros y c Hc Hf. specialize (Hf c). unfold g in Hf. rewrite grid_of_length in Hf. specialize (Hf Hc). rewrite grid_of_cell in Hf by auto.
    destruct (nth_error (ks c) (y c)) as [[a b]|] eqn:E; [|contradiction]. exists (a, b). split; auto. unfold spend_at, g. rewrite grid_of_cell, E by auto. reflexivity. }
  destruct (grid_search_inv g _ opt Hw Hg) as [y [Hy [Hf [Hr _]]]]. unfold g in Hy at 1. rewrite grid_of_length in Hy.
  split.
  - intros c Hc. rewrite Hy by auto. destruct (Hat y c Hc Hf) as [p [Ep ->]]. apply nth_error_In in Ep. apply kept_in in Ep. destruct Ep as [Ep1 Ep2].
    split; auto. apply in_map; auto.
  - intros Hfix HL HR. rewrite (zsum_ext n opt (spend_at g y)) by (intros; apply Hy; auto).
    assert (Hlg : length g = n) by apply grid_of_length.
    destruct s as [ob| |]; try contradiction. cbn [search_scenario] in *.
    destruct (fixed_budget_total g _ y Hr) as [H0|Hb].
    + apply zsum_le. intros c Hc. destruct (HL c Hc) as [HL1 HL2]. apply in_map_iff in HL1. destruct HL1 as [p [Ep1 Ep2]].
      destruct (Hat y c Hc Hf) as [q [Eq1 ->]]. rewrite H0 in Eq1. unfold ks in Eq1. rewrite (kept_hd (L c) (U c) (ps c) p) in Eq1; auto; [|apply Hps; auto].
      injection Eq1 as <-. rewrite Ep1. apply HR; auto.
    + unfold total_spend in Hb. rewrite Hlg in Hb. exact Hb.
Qed.

Lemma uniform_grid_of : forall n rows lower step m f,
  uniform_grid n rows lower step m f = grid_of n rows (fun c => map (fun i => (lower c + Z.of_nat i * step, f c i)%Z) (seq 0 (S (m c)))).
Proof.
  intros. unfold uniform_grid, grid_of. apply map_ext. intros c. unfold uniform_column, column_of. rewrite map_map, map_length, seq_length. reflexivity.
Qed.
Lemma uniform_increasing : forall lower step (f : nat -> Q) k a, (0 < step)%Z -> increasing (map (fun i => (lower + Z.of_nat i * step, f i)%Z) (seq a k)).
Proof.
  intros lower step f k a Hs. revert a. induction k as [|k IH]; intros a; [exact I|]. cbn [seq map]. destruct k as [|k]; [exact I|]. cbn [seq map] in *.
  split; [cbn [fst]; nia|]. apply (IH (S a)).
Qed.

Lemma share_spec : forall n hist pct share, (forall c, (c < n)%nat -> 0 <= hist c)%Q ->
  (match pct with Some l => Forall (fun x => 0 <= x)%Q l | None => True end) ->
  validate_pct_of_spend n hist pct = Ok share -> is_share n hist pct share /\ forall c, (c < n)%nat -> (0 <= share c)%Q.
Proof.
  intros n hist [l|] share Hh Hl H; simpl in H; unfold is_share.
  - apply raise_if_ok in H. destruct H as [H1 H]. apply raise_if_ok in H. destruct H as [_ H]. apply negb_false_iff, Nat.eqb_eq in H1.
    assert (Hs : share = (fun i => nth i l 0%Q)) by congruence. subst share. split; [split; auto|]. intros c Hc. rewrite Forall_forall in Hl. apply Hl. apply nth_In. lia.
  - destruct (Qeq_bool (qsum n hist) 0) eqn:E; [discriminate|]. apply Qeq_bool_neq in E.
    assert (Hs : share = (fun i => hist i / qsum n hist)%Q) by congruence. subst share. split.
    + intros c. field. auto.
    + intros c Hc. unfold Qdiv. apply Qmult_le_0_compat; auto. apply Qinv_le_0_compat.
      assert (qsum n (fun _ => 0) <= qsum n hist)%Q by (apply qsum_le; auto). assert (qsum n (fun _ => 0) == 0)%Q; [|lra].
      clear. induction n; simpl; [lra|]. rewrite IHn. lra.
Qed.

Lemma qsum_nonneg : forall n F, (forall i, (i < n)%nat -> 0 <= F i)%Q -> (0 <= qsum n F)%Q.
Proof. induction n; intros; simpl; [lra|]. pose proof (IHn F ltac:(intros; apply H; lia)). pose proof (H n ltac:(lia)). lra. Qed.

Lemma C52_lemma : forall n rows lower k m f gtol hist s pct lo hi opt rounded, (0 < n)%nat ->
  (forall c, (c < n)%nat -> (m c < rows)%nat /\ (pow10 k | lower c)%Z) ->
  (forall c, (c < n)%nat -> 0 <= hist c)%Q ->
  (match pct with Some l => Forall (fun x => 0 <= x)%Q l | None => True end) ->
  make_scenario s = Ok s ->
  optimize (uniform_grid n rows lower (pow10 k) m f) k gtol hist s pct lo hi = Ok (opt, rounded) ->
  exists share, is_share n hist pct share /\
    (forall c, (c < n)%nat ->
      (lower c <= opt c <= lower c + Z.of_nat (m c) * pow10 k)%Z /\ (pow10 k | opt c)%Z /\ (pow10 k | rounded c)%Z /\ near k (rounded c) (budget_of n hist s * share c) /\
      ((1 - constraint_at (or_default s lo) c) * inject_Z (rounded c) - inject_Z (pow10 k) * (1 # 2) <= inject_Z (opt c))%Q /\
      (inject_Z (opt c) <= (1 + constraint_at (or_default s hi) c) * inject_Z (rounded c) + inject_Z (pow10 k) * (1 # 2))%Q) /\
    (match s with Fixed _ => (zsum n opt <= zsum n rounded)%Z | _ => True end).
Proof.
  intros n rows lower k m f gtol hist s pct lo hi opt rounded Hn Hm Hh Hp Hs H. pose proof (pow10_pos k) as Hpos.
  rewrite uniform_grid_of in H. set (ps := fun c => map (fun i => (lower c + Z.of_nat i * pow10 k, f c i)%Z) (seq 0 (S (m c)))) in *.
  assert (Hps : forall c, (c < n)%nat -> increasing (ps c) /\ (length (ps c) <= rows)%nat).
  { intros c Hc. split; [apply uniform_increasing; auto|]. unfold ps. rewrite map_length, seq_length. apply Hm; auto. }
  destruct (optimize_inv _ _ _ _ _ _ _ _ _ _ _ _ Hn Hps H) as [share0 [L0 [U0 [F1 [F2 [F3 [_ [Hno _]]]]]]]].
  destruct (C52_bounds_lemma _ _ _ _ _ _ _ _ _ _ _ _ Hn Hps H) as [share [L [U [E1 [E2 [Hin Htot]]]]]].
  assert (share0 = share) by congruence. subst share0. assert (HLU : L0 = L /\ U0 = U) by (split; congruence). destruct HLU as [-> ->].
  destruct (share_spec n hist pct share Hh Hp E1) as [Hshare Hnn]. exists share. split; auto.
  assert (Hb : (0 <= budget_of n hist s)%Q).
  { assert (0 <= qsum n hist)%Q by (apply qsum_nonneg; auto). unfold budget_of. destruct s as [[b|]| |]; auto. simpl in Hs. apply raise_if_ok in Hs. destruct Hs as [Hs _]. apply Qlt_bool_false in Hs. destruct (Qeq_bool b 0); auto. }
  assert (Hv : constraints_valid n (or_default s lo) (or_default s hi)).
  { unfold get_optimization_bounds, get_spend_bounds in E2. apply rbind_ok in E2. destruct E2 as [b0 [E2 _]]. apply rbind_ok in E2. destruct E2 as [p0 [E2 _]]. apply validate_ok in E2. tauto. }
  destruct (bounds_ok n (fun i => budget_of n hist s * share i)%Q k _ _ Hv) as [L' [U' [E2' HLU']]]. rewrite E2' in E2. 
  assert (HLU : L' = L /\ U' = U) by (split; congruence). destruct HLU as [-> ->]. clear E2' E2.
  destruct (C21_lemma n (fun i => budget_of n hist s * share i)%Q k _ _ Hv) as [L1 [U1 [R1 [E3 H21]]]]; [intros; apply Qmult_le_0_compat; auto|].
  assert (Hfacts : forall c, (c < n)%nat -> (pow10 k | L c)%Z /\ (pow10 k | rounded c)%Z /\ (L c <= rounded c <= U c)%Z /\
     near k (rounded c) (budget_of n hist s * share c) /\
     near k (L c) ((1 - constraint_at (or_default s lo) c) * inject_Z (rounded c)) /\ near k (U c) ((1 + constraint_at (or_default s hi) c) * inject_Z (rounded c))).
  { intros c Hc. rewrite F3. destruct (HLU' c Hc) as [-> ->]. split; [apply round_to_multiple|]. split; [apply round_to_multiple|].
    split; [|split; [|split]; apply round_to_error].
    assert (HnnR : (0 <= budget_of n hist s * share c)%Q) by (apply Qmult_le_0_compat; auto).
    pose proof (round_to_nonneg k _ HnnR) as HR0. set (R := round_to k (budget_of n hist s * share c)) in *.
    assert (HR : (0 <= inject_Z R)%Q) by (change 0%Q with (inject_Z 0); apply inject_le; auto).
    assert (Hfix : round_to k (inject_Z R) = R) by (apply round_to_fixed; apply round_to_multiple).
    destruct Hv as [V1 [V2 [V3 V4]]]. pose proof (constraint_at_all _ n _ c V3 V1 Hc) as Hlo. pose proof (constraint_at_all _ n _ c V4 V2 Hc) as Hhi. cbv beta in *.
    split.
    - rewrite <- Hfix at 2. apply round_to_mono. assert (0 <= constraint_at (or_default s lo) c * inject_Z R)%Q by (apply Qmult_le_0_compat; lra). lra.
    - rewrite <- Hfix at 1. apply round_to_mono. assert (0 <= constraint_at (or_default s hi) c * inject_Z R)%Q by (apply Qmult_le_0_compat; lra). lra. }
  split.
  - intros c Hc. destruct (Hin c Hc) as [HinG [Hl Hu]]. destruct (Hfacts c Hc) as [A1 [A2 [A3 [A4 [A5 A6]]]]].
    apply in_map_iff in HinG. destruct HinG as [p [Ep Hp']]. unfold ps in Hp'. apply in_map_iff in Hp'. destruct Hp' as [i [<- Hi]]. apply in_seq in Hi. simpl in Ep.
    split; [nia|]. split; [rewrite <- Ep; apply Z.divide_add_r; [apply Hm; auto|]; exists (Z.of_nat i); reflexivity|]. split; auto. split; auto.
    apply inject_le in Hl, Hu. unfold near in *. split; lra.
  - destruct s as [ob| |]; auto. apply Htot; auto.
    + intros c Hc. destruct (Hfacts c Hc) as [[q A1] [A2 [A3 _]]]. split; [|lia].
      specialize (Hno c Hc). destruct (Hm c Hc) as [_ [q0 Hq0]].
      assert (Hr : (lower c <= L c <= lower c + Z.of_nat (m c) * pow10 k)%Z).
      { split; apply Z.nlt_ge; intros Hlt; apply Hno; (split; [unfold ps; simpl; discriminate|]).
        - left. apply Forall_forall. intros p Hp'. unfold ps in Hp'. apply in_map_iff in Hp'. destruct Hp' as [i [<- Hi]]. simpl. nia.
        - right. apply Forall_forall. intros p Hp'. unfold ps in Hp'. apply in_map_iff in Hp'. destruct Hp' as [i [<- Hi]]. apply in_seq in Hi. simpl. nia. }
      apply in_map_iff. exists (lower c + Z.of_nat (Z.to_nat (q - q0)) * pow10 k, f c (Z.to_nat (q - q0)))%Z. split.
      * simpl. rewrite Z2Nat.id by nia. rewrite A1, Hq0. lia.
      * unfold ps. apply in_map_iff. exists (Z.to_nat (q - q0)). split; auto. apply in_seq. split; [lia|]. assert (q - q0 <= Z.of_nat (m c))%Z by nia. lia.
    + intros c Hc. apply (Hfacts c Hc).
Qed.

(** The requested budget is met up to half a step per channel. *)
Lemma C52_overrun_lemma : forall n rows lower k m f gtol hist s lo hi opt rounded, (0 < n)%nat ->
  (forall c, (c < n)%nat -> (m c < rows)%nat /\ (pow10 k | lower c)%Z) -> (forall c, (c < n)%nat -> 0 <= hist c)%Q -> make_scenario s = Ok s ->
  match s with Fixed _ => True | _ => False end ->
  optimize (uniform_grid n rows lower (pow10 k) m f) k gtol hist s None lo hi = Ok (opt, rounded) ->
  (inject_Z (zsum n opt) <= budget_of n hist s + inject_Z (Z.of_nat n) * (inject_Z (pow10 k) * (1 # 2)))%Q.
Proof.
  intros n rows lower k m f gtol hist s lo hi opt rounded Hn Hm Hh Hs Hfix H.
  destruct (C52_lemma n rows lower k m f gtol hist s None lo hi opt rounded Hn Hm Hh I Hs H) as [share [Hsh [Hc Ht]]].
  destruct s as [ob| |]; try contradiction. apply inject_le in Ht. apply Qle_trans with (1 := Ht). rewrite <- qsum_inject.
  assert (Hsum : (qsum n share == 1)%Q).
  { assert (Hne : ~ (qsum n hist == 0)%Q). { unfold optimize in H. rewrite uniform_grid_of, grid_of_length in H. apply rbind_ok in H. destruct H as [a [Ha _]]. unfold validate_pct_of_spend in Ha. destruct (Qeq_bool (qsum n hist) 0) eqn:E; [discriminate|]. apply Qeq_bool_neq in E. auto. }
    assert (Hq : (qsum n hist * qsum n share == qsum n hist)%Q) by (rewrite <- qsum_scal; apply qsum_ext; intros; rewrite Qmult_comm; apply Hsh).
    apply (Qmult_inj_l _ _ (qsum n hist)); auto. rewrite Hq. ring. }
  set (B := budget_of n hist (Fixed ob)) in *. set (h := (inject_Z (pow10 k) * (1 # 2))%Q) in *.
  apply Qle_trans with (qsum n (fun i => B * share i + h))%Q.
  - apply qsum_le. intros i Hi. destruct (Hc i Hi) as [_ [_ [_ [[Hn1 _] _]]]]. fold h in Hn1. lra.
  - rewrite qsum_plus, qsum_scal, Hsum. assert (qsum n (fun _ => h) == inject_Z (Z.of_nat n) * h)%Q; [|lra].
    clear. induction n; [simpl; change (inject_Z 0) with 0%Q; lra|]. cbn [qsum]. rewrite IHn, Nat2Z.inj_succ. unfold Z.succ. rewrite inject_Z_plus. change (inject_Z 1) with 1%Q. lra.
Qed.
