(** Proofs about summaries of draws. *)
From Coq Require Import Reals ZArith Lia Lra List Bool Arith Permutation Sorted.
From Verif Require Import Lib_Sum M_Base M_Transformers P_Transformers M_Stats S_Stats P_Analyzer.
Import ListNotations.
Local Open Scope R_scope.

Lemma int_part_bounds : forall h, 0 <= h ->
  (0 <= Int_part h)%Z /\ IZR (Int_part h) <= h < IZR (Int_part h) + 1.
Proof.
  intros h H. destruct (base_Int_part h) as [A B]. split; [|lra].
  assert (-1 < IZR (Int_part h)) by lra. apply lt_IZR in H0. lia.
Qed.
Lemma int_part_nat : forall h, 0 <= h -> INR (Z.to_nat (Int_part h)) = IZR (Int_part h).
Proof.
  intros h H. destruct (int_part_bounds h H) as [A _]. rewrite INR_IZR_INZ. f_equal. apply Z2Nat.id. exact A.
Qed.

Lemma sorted_nth : forall s i j, StronglySorted Rle s -> (i <= j)%nat -> (j < length s)%nat ->
  nth i s 0 <= nth j s 0.
Proof.
  intros s. induction s as [|a s IH]; intros i j H Hij Hj; [cbn in Hj; lia|].
  apply StronglySorted_inv in H. destruct H as [H F]. rewrite Forall_forall in F.
  destruct i as [|i], j as [|j]; cbn [nth]; [lra| |lia|].
  - apply F. apply nth_In. cbn in Hj. lia.
  - apply IH; auto; cbn in Hj; lia.
Qed.

(** Where a position falls. *)
Lemma position_index : forall n h, 0 <= h <= INR (n - 1) -> (0 < n)%nat ->
  (Z.to_nat (Int_part h) < n)%nat.
Proof.
  intros n h H Hn. pose proof (int_part_nat h ltac:(lra)) as E. destruct (int_part_bounds h ltac:(lra)) as [_ [B _]].
  assert (INR (Z.to_nat (Int_part h)) <= INR (n - 1)) by lra. apply INR_le in H0. lia.
Qed.

Lemma interpolate_bounds : forall s h, StronglySorted Rle s -> s <> [] -> 0 <= h <= INR (length s - 1) ->
  let i := Z.to_nat (Int_part h) in
  nth i s 0 <= interpolate s h <= nth (Nat.min (S i) (length s - 1)) s 0.
Proof.
  intros s h Hs Hne Hh. cbv zeta. unfold interpolate. cbv zeta.
  assert (Hl : (0 < length s)%nat) by (destruct s; [congruence|cbn; lia]).
  pose proof (position_index (length s) h Hh Hl) as Hi.
  destruct (int_part_bounds h ltac:(lra)) as [_ B].
  set (i := Z.to_nat (Int_part h)) in *.
  pose proof (sorted_nth s i (Nat.min (S i) (length s - 1)) Hs ltac:(lia) ltac:(lia)) as Hle.
  set (a := nth i s 0) in *. set (b := nth (Nat.min (S i) (length s - 1)) s 0) in *.
  set (g := h - IZR (Int_part h)) in *. assert (0 <= g < 1) by (unfold g; lra).
  assert (0 <= (b - a) * g) by (apply Rmult_le_pos; lra).
  assert ((b - a) * g <= (b - a) * 1) by (apply Rmult_le_compat_l; lra). lra.
Qed.

Lemma interpolate_mono : forall s h h', StronglySorted Rle s -> s <> [] ->
  0 <= h -> h <= h' -> h' <= INR (length s - 1) -> interpolate s h <= interpolate s h'.
Proof.
  intros s h h' Hs Hne H0 Hh H1.
  assert (Hl : (0 < length s)%nat) by (destruct s; [congruence|cbn; lia]).
  destruct (int_part_bounds h ltac:(lra)) as [P B]. destruct (int_part_bounds h' ltac:(lra)) as [P' B'].
  destruct (Z.eq_dec (Int_part h) (Int_part h')) as [E|E].
  - unfold interpolate. cbv zeta. rewrite <- E.
    pose proof (position_index (length s) h ltac:(lra) Hl) as Hi.
    pose proof (sorted_nth s (Z.to_nat (Int_part h)) (Nat.min (S (Z.to_nat (Int_part h))) (length s - 1)) Hs ltac:(lia) ltac:(lia)).
    apply Rplus_le_compat_l. apply Rmult_le_compat_l; lra.
  - assert (Lt : (Int_part h < Int_part h')%Z).
    { assert (IZR (Int_part h) < IZR (Int_part h') + 1) by lra. rewrite <- plus_IZR in H. apply lt_IZR in H. lia. }
    pose proof (interpolate_bounds s h Hs Hne ltac:(lra)) as [_ U].
    pose proof (interpolate_bounds s h' Hs Hne ltac:(lra)) as [L _]. cbv zeta in U, L.
    pose proof (position_index (length s) h' ltac:(lra) Hl) as Hi'.
    eapply Rle_trans; [exact U|]. eapply Rle_trans; [|exact L].
    apply sorted_nth; auto. lia.
Qed.

Lemma sort_nonempty : forall l, l <> [] -> sort_values l <> [].
Proof.
  intros l H E. apply (f_equal (@length R)) in E. rewrite sort_values_length in E.
  destruct l; [congruence|discriminate].
Qed.

Lemma quantile_inv : forall l q v, quantile l q = Ok v ->
  0 <= q <= 1 /\ l <> [] /\ v = interpolate (sort_values l) (INR (length l - 1) * q).
Proof.
  intros l q v H. unfold quantile in H. cbv zeta in H.
  destruct (Rlt_dec q 0); [discriminate|]. destruct (Rlt_dec 1 q); [discriminate|]. cbn [orb raise_if] in H.
  destruct l as [|a l]; [discriminate|]. cbn [raise_if] in H.
  assert (v = interpolate (sort_values (a :: l)) (INR (length (a :: l) - 1) * q)) by congruence.
  split; [lra|]. split; [discriminate|assumption].
Qed.
Lemma quantile_runs : forall l q, l <> [] -> 0 <= q <= 1 ->
  quantile l q = Ok (interpolate (sort_values l) (INR (length l - 1) * q)).
Proof.
  intros l q Hl Hq. unfold quantile. cbv zeta.
  destruct (Rlt_dec q 0); [lra|]. destruct (Rlt_dec 1 q); [lra|]. destruct l; [congruence|]. reflexivity.
Qed.
Lemma pos_range : forall n q, 0 <= q <= 1 -> 0 <= INR n * q <= INR n.
Proof. intros n q H. pose proof (pos_INR n). split; [apply Rmult_le_pos; lra|]. rewrite <- (Rmult_1_r (INR n)) at 2. apply Rmult_le_compat_l; lra. Qed.

Lemma quantile_spec : forall l q v, quantile l q = Ok v -> is_quantile l q v.
Proof.
  intros l q v H. apply quantile_inv in H. destruct H as (Hq & Hl & ->).
  pose proof (pos_range (length l - 1) q Hq) as Hp.
  assert (Len : length (sort_values l) = length l) by apply sort_values_length.
  assert (Hn : (0 < length l)%nat) by (destruct l; [congruence|cbn; lia]).
  pose proof (position_index (length l) _ Hp Hn) as Hi.
  destruct (int_part_bounds _ (proj1 Hp)) as [_ B].
  pose proof (int_part_nat _ (proj1 Hp)) as En.
  exists (sort_values l), (Z.to_nat (Int_part (INR (length l - 1) * q))), (INR (length l - 1) * q - IZR (Int_part (INR (length l - 1) * q))).
  split; [apply sort_values_perm|]. split; [apply sort_values_sorted|].
  split; [lia|]. split; [lra|]. split; [lra|].
  unfold interpolate. cbv zeta. set (i := Z.to_nat _) in *. rewrite Len.
  destruct (Nat.eqb_spec i (length l - 1)) as [E|E].
  - rewrite E. replace (Nat.min (S (length l - 1)) (length l - 1)) with (length l - 1)%nat by lia. ring.
  - replace (Nat.min (S i) (length l - 1)) with (S i) by lia. ring.
Qed.

(** The median is the 1/2-quantile. *)
Lemma int_part_INR : forall n g, 0 <= g < 1 -> Int_part (INR n + g) = Z.of_nat n.
Proof.
  intros n g H. destruct (base_Int_part (INR n + g)) as [A B].
  assert (IZR (Z.of_nat n) < IZR (Int_part (INR n + g)) + 1) by (rewrite <- INR_IZR_INZ; lra).
  assert (IZR (Int_part (INR n + g)) < IZR (Z.of_nat n) + 1) by (rewrite <- INR_IZR_INZ; lra).
  rewrite <- plus_IZR in H0, H1. apply lt_IZR in H0. apply lt_IZR in H1. lia.
Qed.

Lemma median_half : forall l, l <> [] ->
  median l = interpolate (sort_values l) (INR (length l - 1) * (1/2)).
Proof.
  intros l Hl. unfold median, nanmedian. destruct l as [|a l0]; [congruence|].
  set (l := a :: l0) in *. assert (Hn : (0 < length l)%nat) by (cbn; lia).
  assert (Len : length (sort_values l) = length l) by apply sort_values_length.
  set (n := length l) in *. unfold interpolate. cbv zeta. rewrite Len.
  destruct (Nat.Even_or_Odd (n - 1)) as [[m Em]|[m Em]].
  - assert (E : INR (n - 1) * (1/2) = INR m + 0) by (rewrite Em, mult_INR; cbn; lra).
    rewrite E, int_part_INR by lra. rewrite Nat2Z.id, <- INR_IZR_INZ.
    replace (INR m + 0 - INR m) with 0 by ring.
    replace ((n - 1) / 2)%nat with m by (rewrite Em, Nat.mul_comm, Nat.div_mul; lia).
    replace (n / 2)%nat with m. 2:{ replace n with (m * 2 + 1)%nat by lia. rewrite Nat.div_add_l by lia. cbn. lia. }
    lra.
  - assert (E : INR (n - 1) * (1/2) = INR m + 1/2) by (rewrite Em, plus_INR, mult_INR; cbn; lra).
    rewrite E, int_part_INR by lra. rewrite Nat2Z.id, <- INR_IZR_INZ.
    replace (INR m + 1/2 - INR m) with (1/2) by ring.
    replace ((n - 1) / 2)%nat with m. 2:{ rewrite Em. rewrite Nat.mul_comm, Nat.div_add_l by lia. cbn. lia. }
    replace (n / 2)%nat with (S m). 2:{ replace n with (S m * 2)%nat by lia. rewrite Nat.div_mul; lia. }
    replace (Nat.min (S m) (n - 1)) with (S m) by lia. lra.
Qed.

Lemma central_inv : forall c l s, central_tendency_and_ci c l = Ok s ->
  -1 <= c <= 1 /\ l <> [] /\ st_mean s = mean l /\
  st_median s = interpolate (sort_values l) (INR (length l - 1) * (1/2)) /\
  st_lo s = interpolate (sort_values l) (INR (length l - 1) * ((1 - c) / 2)) /\
  st_hi s = interpolate (sort_values l) (INR (length l - 1) * ((1 + c) / 2)).
Proof.
  intros c l s H. unfold central_tendency_and_ci in H. inv_rbind H lo Hlo. inv_rbind H hi Hhi.
  apply quantile_inv in Hlo. destruct Hlo as (Q & Hl & ->).
  apply quantile_inv in Hhi. destruct Hhi as (Q' & _ & ->).
  injection H as <-. cbn. split; [lra|]. split; [exact Hl|]. split; [reflexivity|].
  split; [apply median_half; exact Hl|]. auto.
Qed.
Lemma central_runs : forall c l, l <> [] -> -1 <= c <= 1 -> exists s, central_tendency_and_ci c l = Ok s.
Proof.
  intros c l Hl Hc. unfold central_tendency_and_ci. rewrite !quantile_runs by (auto; lra). cbn [rbind]. eauto.
Qed.

Lemma interpolate_le : forall l q q', l <> [] -> 0 <= q -> q <= q' -> q' <= 1 ->
  interpolate (sort_values l) (INR (length l - 1) * q) <= interpolate (sort_values l) (INR (length l - 1) * q').
Proof.
  intros l q q' Hl H0 H1 H2. pose proof (pos_range (length l - 1) q ltac:(lra)).
  pose proof (pos_range (length l - 1) q' ltac:(lra)). pose proof (pos_INR (length l - 1)).
  apply interpolate_mono; [apply sort_values_sorted|apply sort_nonempty; exact Hl|lra| |rewrite sort_values_length; lra].
  apply Rmult_le_compat_l; lra.
Qed.

Lemma interpolate_in : forall l lo hi q, l <> [] -> 0 <= q <= 1 -> (forall v, In v l -> lo <= v <= hi) ->
  lo <= interpolate (sort_values l) (INR (length l - 1) * q) <= hi.
Proof.
  intros l lo hi q Hl Hq Hv. pose proof (pos_range (length l - 1) q Hq) as Hp.
  pose proof (interpolate_bounds (sort_values l) (INR (length l - 1) * q) (sort_values_sorted l) (sort_nonempty l Hl)) as B.
  rewrite sort_values_length in B. specialize (B Hp). cbv zeta in B.
  assert (Hn : (0 < length l)%nat) by (destruct l; [congruence|cbn; lia]).
  pose proof (position_index (length l) _ Hp Hn) as Hi.
  assert (V : forall j, (j < length l)%nat -> lo <= nth j (sort_values l) 0 <= hi).
  { intros j Hj. apply Hv. apply (Permutation_in _ (Permutation_sym (sort_values_perm l))).
    apply nth_In. rewrite sort_values_length. exact Hj. }
  pose proof (V _ Hi). pose proof (V (Nat.min (S (Z.to_nat (Int_part (INR (length l - 1) * q)))) (length l - 1)) ltac:(lia)).
  lra.
Qed.

Lemma mean_in : forall l lo hi, l <> [] -> (forall v, In v l -> lo <= v <= hi) -> lo <= mean l <= hi.
Proof.
  intros l lo hi Hl Hv. unfold mean.
  assert (Hn : 0 < INR (length l)) by (apply lt_0_INR; destruct l; [congruence|cbn; lia]).
  assert (S : INR (length l) * lo <= lsum l <= INR (length l) * hi).
  { clear Hl Hn. induction l as [|a l IH]; [cbn; lra|].
    assert (lo <= a <= hi) by (apply Hv; left; reflexivity).
    assert (INR (length l) * lo <= lsum l <= INR (length l) * hi) by (apply IH; intros; apply Hv; right; assumption).
    cbn [length lsum]. rewrite S_INR. lra. }
  split; apply (Rmult_le_reg_l (INR (length l))); try lra; unfold Rdiv; rewrite (Rmult_comm _ (lsum l * _)), Rmult_assoc, Rinv_l by lra; lra.
Qed.

(** Dominance. *)
Lemma insert_head : forall y r, (match r with [] => True | z :: _ => y <= z end) -> insert_sorted y r = y :: r.
Proof. intros y [|z r] H; cbn; [reflexivity|]. destruct (Rle_dec y z); [reflexivity|contradiction]. Qed.
Lemma sorted_head : forall y r, StronglySorted Rle (y :: r) -> match r with [] => True | z :: _ => y <= z end.
Proof. intros y [|z r] H; [exact Logic.I|]. apply StronglySorted_inv in H. destruct H as [_ F]. inversion F; assumption. Qed.
Lemma insert_dominated : forall s s' x x', StronglySorted Rle s -> StronglySorted Rle s' -> x <= x' ->
  Forall2 Rle s s' -> Forall2 Rle (insert_sorted x s) (insert_sorted x' s').
Proof.
  intros s s' x x' Hs Hs' Hx F. revert x x' Hx Hs Hs'.
  induction F as [|y y' r r' Hy F IH]; intros x x' Hx Hs Hs'; [cbn; constructor; auto|].
  pose proof (sorted_head _ _ Hs) as Hh. pose proof (sorted_head _ _ Hs') as Hh'.
  apply StronglySorted_inv in Hs. apply StronglySorted_inv in Hs'. destruct Hs as [Hs _]. destruct Hs' as [Hs' _].
  cbn [insert_sorted]. destruct (Rle_dec x y), (Rle_dec x' y').
  - constructor; [lra|]. constructor; assumption.
  - constructor; [lra|]. rewrite <- (insert_head y r Hh). apply IH; auto. lra.
  - constructor; [lra|]. rewrite <- (insert_head y' r' Hh'). apply IH; auto. lra.
  - constructor; [lra|]. apply IH; auto.
Qed.
Lemma sort_dominated : forall a b, Forall2 Rle a b -> Forall2 Rle (sort_values a) (sort_values b).
Proof.
  intros a b H. induction H as [|x y a b Hx H IH]; [constructor|]. cbn [sort_values fold_right].
  apply insert_dominated; auto; apply sort_values_sorted.
Qed.
Lemma Forall2_nth : forall a b, Forall2 Rle a b -> forall i, nth i a 0 <= nth i b 0.
Proof.
  intros a b H. induction H as [|x y a b Hx H IH]; intros [|i]; cbn [nth]; try lra. apply IH.
Qed.
Lemma Forall2_len : forall (a b : list R), Forall2 Rle a b -> length a = length b.
Proof. intros a b H. induction H; cbn; congruence. Qed.
Lemma interpolate_dominated : forall a b h, Forall2 Rle a b -> 0 <= h -> interpolate a h <= interpolate b h.
Proof.
  intros a b h H Hh. unfold interpolate. cbv zeta.
  assert (E : length a = length b) by (apply Forall2_len; assumption). rewrite E.
  destruct (int_part_bounds h Hh) as [_ B].
  set (g := h - IZR (Int_part h)). assert (0 <= g < 1) by (unfold g; lra).
  set (i := Z.to_nat (Int_part h)). set (j := Nat.min (S i) (length b - 1)).
  pose proof (Forall2_nth a b H i). pose proof (Forall2_nth a b H j).
  set (ai := nth i a 0) in *. set (bi := nth i b 0) in *. set (aj := nth j a 0) in *. set (bj := nth j b 0) in *.
  replace (ai + (aj - ai) * g) with ((1 - g) * ai + g * aj) by ring.
  replace (bi + (bj - bi) * g) with ((1 - g) * bi + g * bj) by ring.
  apply Rplus_le_compat; apply Rmult_le_compat_l; lra.
Qed.
Lemma lsum_dominated : forall a b, Forall2 Rle a b -> lsum a <= lsum b.
Proof. intros a b H. induction H; cbn [lsum]; lra. Qed.

Lemma dominated_lemma : forall c a b s s', dominated a b -> central_tendency_and_ci c a = Ok s ->
  central_tendency_and_ci c b = Ok s' -> below s s'.
Proof.
  intros c a b s s' H Hs Hs'. apply central_inv in Hs. apply central_inv in Hs'.
  destruct Hs as (Hc & Ha & E1 & E2 & E3 & E4). destruct Hs' as (_ & Hb & F1 & F2 & F3 & F4).
  assert (L : length a = length b) by (apply Forall2_len; assumption).
  pose proof (sort_dominated a b H) as SD. pose proof (pos_INR (length a - 1)).
  unfold below. rewrite E1, E2, E3, E4, F1, F2, F3, F4, <- L.
  refine (conj _ (conj _ (conj _ _))).
  - unfold mean. rewrite <- L. pose proof (lsum_dominated a b H).
    assert (0 < INR (length a)) by (apply lt_0_INR; destruct a; [congruence|cbn; lia]).
    apply Rmult_le_compat_r; [left; apply Rinv_0_lt_compat; assumption|assumption].
  - apply interpolate_dominated; auto. apply Rmult_le_pos; lra.
  - apply interpolate_dominated; auto. apply Rmult_le_pos; lra.
  - apply interpolate_dominated; auto. apply Rmult_le_pos; lra.
Qed.

(** Order of the draws. *)
Lemma sorted_unique : forall s s', StronglySorted Rle s -> StronglySorted Rle s' -> Permutation s s' -> s = s'.
Proof.
  intros s. induction s as [|a s IH]; intros s' H H' P.
  - apply Permutation_nil in P. congruence.
  - destruct s' as [|b s']; [apply Permutation_sym, Permutation_nil in P; discriminate|].
    apply StronglySorted_inv in H. apply StronglySorted_inv in H'.
    destruct H as [H F]. destruct H' as [H' F']. rewrite Forall_forall in F, F'.
    assert (a = b).
    { assert (In a (b :: s')) by (eapply Permutation_in; [exact P|left; reflexivity]).
      assert (In b (a :: s)) by (eapply Permutation_in; [apply Permutation_sym; exact P|left; reflexivity]).
      destruct H0 as [->|H0]; [reflexivity|]. destruct H1 as [->|H1]; [reflexivity|].
      pose proof (F b H1). pose proof (F' a H0). lra. }
    subst b. f_equal. apply IH; auto. eapply Permutation_cons_inv. exact P.
Qed.
Lemma sort_perm_eq : forall a b, Permutation a b -> sort_values a = sort_values b.
Proof.
  intros a b P. apply sorted_unique; try apply sort_values_sorted.
  eapply Permutation_trans; [apply Permutation_sym, sort_values_perm|].
  eapply Permutation_trans; [exact P|apply sort_values_perm].
Qed.
Lemma lsum_perm : forall a b, Permutation a b -> lsum a = lsum b.
Proof. intros a b P. induction P; cbn [lsum]; lra. Qed.

Lemma permutation_lemma : forall c a b, Permutation a b ->
  central_tendency_and_ci c a = central_tendency_and_ci c b.
Proof.
  intros c a b P. unfold central_tendency_and_ci, quantile. cbv zeta.
  pose proof (Permutation_length P) as L. rewrite (sort_perm_eq a b P), L.
  assert (E : mean a = mean b) by (unfold mean; rewrite L, (lsum_perm a b P); reflexivity).
  assert (M : median a = median b).
  { unfold median, nanmedian. rewrite (sort_perm_eq a b P), L.
    destruct a as [|x a]; destruct b as [|y b]; try reflexivity;
    [apply Permutation_nil in P; discriminate|apply Permutation_sym, Permutation_nil in P; discriminate]. }
  rewrite E, M.
  destruct a as [|x a]; destruct b as [|y b]; try reflexivity;
    [apply Permutation_nil in P; discriminate|apply Permutation_sym, Permutation_nil in P; discriminate].
Qed.

(** Change of units. *)
Lemma insert_affine : forall u v x s, 0 < u ->
  insert_sorted (u * x + v) (map (fun r => u * r + v) s) = map (fun r => u * r + v) (insert_sorted x s).
Proof.
  intros u v x s Hu. induction s as [|y s IH]; [reflexivity|]. cbn [insert_sorted map].
  destruct (Rle_dec (u * x + v) (u * y + v)) as [A|A], (Rle_dec x y) as [B|B]; cbn [map]; try reflexivity.
  - exfalso. apply B. apply (Rmult_le_reg_l u); lra.
  - exfalso. apply A. assert (u * x <= u * y) by (apply Rmult_le_compat_l; lra). lra.
  - rewrite IH. reflexivity.
Qed.
Lemma sort_affine : forall u v l, 0 < u ->
  sort_values (map (fun r => u * r + v) l) = map (fun r => u * r + v) (sort_values l).
Proof.
  intros u v l Hu. induction l as [|a l IH]; [reflexivity|]. cbn [map sort_values fold_right].
  change (fold_right insert_sorted [] (map (fun r => u * r + v) l)) with (sort_values (map (fun r => u * r + v) l)).
  rewrite IH. apply insert_affine. exact Hu.
Qed.
Lemma nth_affine : forall u v s i, (i < length s)%nat -> nth i (map (fun r => u * r + v) s) 0 = u * nth i s 0 + v.
Proof.
  intros u v s i H. rewrite (nth_indep _ 0 (u * 0 + v)) by (rewrite map_length; exact H). apply map_nth with (f := fun r => u * r + v).
Qed.
Lemma interpolate_affine : forall u v s h, s <> [] -> 0 <= h <= INR (length s - 1) ->
  interpolate (map (fun r => u * r + v) s) h = u * interpolate s h + v.
Proof.
  intros u v s h Hs Hh. unfold interpolate. cbv zeta. rewrite map_length.
  assert (Hl : (0 < length s)%nat) by (destruct s; [congruence|cbn; lia]).
  pose proof (position_index (length s) h Hh Hl). rewrite !nth_affine by lia. ring.
Qed.
Lemma lsum_affine : forall u v l, lsum (map (fun r => u * r + v) l) = u * lsum l + INR (length l) * v.
Proof. intros u v l. induction l as [|a l IH]; [cbn; ring|]. cbn [map lsum length]. rewrite IH, S_INR. ring. Qed.
Lemma mean_affine : forall u v l, l <> [] -> mean (map (fun r => u * r + v) l) = u * mean l + v.
Proof.
  intros u v l Hl. unfold mean. rewrite map_length, lsum_affine. field.
  apply not_0_INR. destruct l; [congruence|discriminate].
Qed.

Lemma units_lemma : forall c u v l s, 0 < u -> central_tendency_and_ci c l = Ok s ->
  central_tendency_and_ci c (map (fun r => u * r + v) l)
  = Ok (mkStats (u * st_mean s + v) (u * st_median s + v) (u * st_lo s + v) (u * st_hi s + v)).
Proof.
  intros c u v l s Hu H. pose proof (central_inv c l s H) as (Hc & Hl & E1 & E2 & E3 & E4).
  assert (Hl' : map (fun r => u * r + v) l <> []) by (destruct l; [congruence|discriminate]).
  destruct (central_runs c _ Hl' Hc) as (s' & Hs'). rewrite Hs'.
  apply central_inv in Hs'. destruct Hs' as (_ & _ & F1 & F2 & F3 & F4).
  rewrite map_length, sort_affine in F2, F3, F4 by exact Hu.
  assert (R' : forall q, 0 <= q <= 1 -> 0 <= INR (length l - 1) * q <= INR (length (sort_values l) - 1)).
  { intros q Hq. rewrite sort_values_length. apply pos_range. exact Hq. }
  rewrite interpolate_affine in F2, F3, F4 by (try (apply R'; lra); apply sort_nonempty; exact Hl).
  rewrite mean_affine in F1 by exact Hl.
  destruct s' as [m1 m2 m3 m4]. cbn in F1, F2, F3, F4. rewrite F1, F2, F3, F4, <- E1, <- E2, <- E3, <- E4. reflexivity.
Qed.

(** The claims. *)
Lemma interval_lemma : forall c l s, 0 <= c -> central_tendency_and_ci c l = Ok s ->
  st_lo s <= st_median s <= st_hi s.
Proof.
  intros c l s Hc H. apply central_inv in H. destruct H as (Hc1 & Hl & _ & -> & -> & ->).
  split; apply interpolate_le; auto; lra.
Qed.
Lemma within_lemma : forall c l s lo hi, central_tendency_and_ci c l = Ok s ->
  (forall v, In v l -> lo <= v <= hi) ->
  lo <= st_mean s <= hi /\ lo <= st_median s <= hi /\ lo <= st_lo s <= hi /\ lo <= st_hi s <= hi.
Proof.
  intros c l s lo hi H Hv. apply central_inv in H. destruct H as (Hc1 & Hl & -> & -> & -> & ->).
  refine (conj _ (conj _ (conj _ _))); [apply mean_in; auto| | |]; apply interpolate_in; auto; lra.
Qed.
Lemma widening_lemma : forall c c' l s s', c <= c' -> central_tendency_and_ci c l = Ok s ->
  central_tendency_and_ci c' l = Ok s' ->
  st_lo s' <= st_lo s /\ st_hi s <= st_hi s' /\ st_mean s' = st_mean s /\ st_median s' = st_median s.
Proof.
  intros c c' l s s' Hc H H'. apply central_inv in H. apply central_inv in H'.
  destruct H as (Hc1 & Hl & -> & -> & -> & ->). destruct H' as (Hc1' & _ & -> & -> & -> & ->).
  refine (conj _ (conj _ (conj eq_refl eq_refl))); apply interpolate_le; auto; lra.
Qed.
Lemma level_one_lemma : forall l s, central_tendency_and_ci 1 l = Ok s ->
  In (st_lo s) l /\ In (st_hi s) l /\ forall v, In v l -> st_lo s <= v <= st_hi s.
Proof.
  intros l s H. apply central_inv in H. destruct H as (_ & Hl & _ & _ & -> & ->).
  assert (Len : length (sort_values l) = length l) by apply sort_values_length.
  assert (Hn : (0 < length l)%nat) by (destruct l; [congruence|cbn; lia]).
  replace (INR (length l - 1) * ((1 - 1) / 2)) with (INR 0 + 0) by (cbn; lra).
  replace (INR (length l - 1) * ((1 + 1) / 2)) with (INR (length l - 1) + 0) by lra.
  assert (E : forall i, (i < length l)%nat -> interpolate (sort_values l) (INR i + 0) = nth i (sort_values l) 0).
  { intros i Hi. unfold interpolate. cbv zeta. rewrite int_part_INR by lra. rewrite Nat2Z.id, <- INR_IZR_INZ. ring. }
  rewrite !E by lia.
  assert (I' : forall i, (i < length l)%nat -> In (nth i (sort_values l) 0) l).
  { intros i Hi. apply (Permutation_in _ (Permutation_sym (sort_values_perm l))). apply nth_In. lia. }
  split; [apply I'; lia|]. split; [apply I'; lia|].
  intros v Hv. apply (Permutation_in _ (sort_values_perm l)) in Hv. destruct (In_nth _ _ 0 Hv) as (i & Hi & <-).
  split; apply sorted_nth; try apply sort_values_sorted; lia.
Qed.
Lemma level_refused : forall c l s, central_tendency_and_ci c l = Ok s -> -1 <= c <= 1 /\ l <> [].
Proof. intros c l s H. apply central_inv in H. intuition. Qed.

Lemma mean_nonneg : forall l, 0 <= lsum l -> 0 <= mean l.
Proof.
  intros l H. unfold mean. destruct (Req_dec (INR (length l)) 0) as [E|E].
  - rewrite E. unfold Rdiv. rewrite Rinv_0. lra.
  - pose proof (pos_INR (length l)). apply Rmult_le_pos; [exact H|]. left. apply Rinv_0_lt_compat. lra.
Qed.
