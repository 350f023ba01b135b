(** Proofs about thinning. *)
From Coq Require Import Reals ZArith String Lia Lra List Bool Arith Sorted.
From Verif Require Import M_Base M_Thinning S_Thinning.
Import ListNotations.
Local Open Scope R_scope.

Lemma floor_bounds : forall r, IZR (floorR r) <= r < IZR (floorR r) + 1.
Proof. intros r. unfold floorR. destruct (base_Int_part r). lra. Qed.
Lemma ceil_bounds : forall r, IZR (ceilR r) - 1 < r <= IZR (ceilR r).
Proof. intros r. unfold ceilR. destruct (base_Int_part (- r)). rewrite opp_IZR. lra. Qed.

Section Indices.
Variables (N n : nat) (u : R).
Hypothesis Hn : (1 <= n < N)%nat.
Hypothesis Hu : 0 <= u <= 1.
Let step := INR N / INR n.
Definition pos_of (k : nat) : R := u * (INR N / INR n) + INR N / INR n * INR k.
Definition idx_of (k : nat) : Z := Z.min (floorR (pos_of k)) (Z.of_nat N - 1).

Lemma n_pos : 0 < INR n. Proof. apply lt_0_INR. lia. Qed.
Lemma step_gt : 1 < step.
Proof.
  pose proof n_pos as P. unfold step. apply (Rmult_lt_reg_r (INR n)); [exact P|].
  unfold Rdiv. rewrite Rmult_assoc, Rinv_l by lra. rewrite Rmult_1_l, Rmult_1_r. apply lt_INR. lia.
Qed.
Lemma step_n : step * INR n = INR N.
Proof. unfold step. field. pose proof n_pos. lra. Qed.
Lemma pos_step : forall k, pos_of k = step * (INR k + u).
Proof. intros k. unfold pos_of, step. ring. Qed.
Lemma pos_nonneg : forall k, 0 <= pos_of k.
Proof. intros k. rewrite pos_step. pose proof step_gt. pose proof (pos_INR k). apply Rmult_le_pos; lra. Qed.
Lemma floor_nonneg : forall r, 0 <= r -> (0 <= floorR r)%Z.
Proof. intros r H. destruct (floor_bounds r) as [_ B]. assert (-1 < IZR (floorR r)) by lra. apply lt_IZR in H0. lia. Qed.
Lemma idx_range : forall k, (0 <= idx_of k < Z.of_nat N)%Z.
Proof. intros k. unfold idx_of. pose proof (floor_nonneg _ (pos_nonneg k)). lia. Qed.

Lemma idx_lt : forall i j, (i < j < n)%nat -> (idx_of i < idx_of j)%Z.
Proof.
  intros i j Hij. pose proof step_gt as S.
  assert (I : INR i + 1 <= INR j) by (rewrite <- S_INR; apply le_INR; lia).
  assert (J : INR j + 1 <= INR n) by (rewrite <- S_INR; apply le_INR; lia).
  assert (A : pos_of i + 1 < pos_of j).
  { rewrite !pos_step. apply Rlt_le_trans with (step * (INR i + u) + step); [lra|].
    replace (step * (INR i + u) + step) with (step * (INR i + 1 + u)) by ring. apply Rmult_le_compat_l; lra. }
  assert (B : pos_of i < INR N - 1).
  { rewrite pos_step, <- step_n. apply Rle_lt_trans with (step * (INR n - 1)).
    - apply Rmult_le_compat_l; lra.
    - replace (step * (INR n - 1)) with (step * INR n - step) by ring. lra. }
  destruct (floor_bounds (pos_of i)) as [F1 _]. destruct (floor_bounds (pos_of j)) as [_ F2].
  assert (C : (floorR (pos_of i) < floorR (pos_of j))%Z) by (apply lt_IZR; lra).
  assert (D : (floorR (pos_of i) < Z.of_nat N - 1)%Z).
  { apply lt_IZR. rewrite minus_IZR, <- INR_IZR_INZ. lra. }
  unfold idx_of. lia.
Qed.

Lemma sorted_map_seq : forall f m s, (forall i j, (s <= i)%nat -> (i < j < s + m)%nat -> (f i < f j)%nat) ->
  StronglySorted lt (map f (seq s m)).
Proof.
  intros f m. induction m as [|m IH]; intros s H; [constructor|]. cbn [seq map]. constructor.
  - apply IH. intros i j Hi Hij. apply H; lia.
  - apply Forall_forall. intros v Hv. apply in_map_iff in Hv. destruct Hv as (k & <- & Hk). apply in_seq in Hk. apply H; lia.
Qed.

Lemma indices_eq : systematic_draw_indices N n u = map (fun k => Z.to_nat (idx_of k)) (seq 0 n).
Proof. reflexivity. Qed.

Lemma indices_sorted : StronglySorted lt (systematic_draw_indices N n u) /\
  Forall (fun i => (i < N)%nat) (systematic_draw_indices N n u) /\ length (systematic_draw_indices N n u) = n.
Proof.
  rewrite indices_eq. split; [|split].
  - apply sorted_map_seq. intros i j _ Hij. pose proof (idx_range i). pose proof (idx_range j).
    pose proof (idx_lt i j Hij). lia.
  - apply Forall_forall. intros v Hv. apply in_map_iff in Hv. destruct Hv as (k & <- & _). pose proof (idx_range k). lia.
  - rewrite map_length, seq_length. reflexivity.
Qed.

Lemma nth_indices : forall k, (k < n)%nat -> nth k (systematic_draw_indices N n u) 0%nat = Z.to_nat (idx_of k).
Proof.
  intros k Hk. rewrite indices_eq. rewrite (nth_indep _ 0%nat ((fun k => Z.to_nat (idx_of k)) 0%nat))
    by (rewrite map_length, seq_length; exact Hk).
  rewrite (map_nth (fun k => Z.to_nat (idx_of k))), seq_nth by exact Hk. reflexivity.
Qed.

Lemma idx_place : forall k, u < 1 -> (k < n)%nat ->
  INR (nth k (systematic_draw_indices N n u) 0%nat) <= (INR k + u) * (INR N / INR n)
    < INR (nth k (systematic_draw_indices N n u) 0%nat) + 1.
Proof.
  intros k Hu1 Hk. rewrite nth_indices by exact Hk. pose proof (idx_range k) as Rg. pose proof step_gt as S.
  assert (J : INR k + 1 <= INR n) by (rewrite <- S_INR; apply le_INR; lia).
  assert (B : pos_of k < INR N).
  { rewrite pos_step, <- step_n. apply Rmult_lt_compat_l; lra. }
  destruct (floor_bounds (pos_of k)) as [F1 F2].
  assert (D : (floorR (pos_of k) <= Z.of_nat N - 1)%Z).
  { assert (floorR (pos_of k) < Z.of_nat N)%Z by (apply lt_IZR; rewrite <- INR_IZR_INZ; lra). lia. }
  assert (E : idx_of k = floorR (pos_of k)) by (unfold idx_of; lia).
  rewrite INR_IZR_INZ, Z2Nat.id by lia. rewrite E.
  replace ((INR k + u) * (INR N / INR n)) with (pos_of k) by (rewrite pos_step; unfold step; ring). lra.
Qed.
End Indices.

Lemma spread_lemma : forall N n u, (1 <= n < N)%nat -> 0 <= u < 1 ->
  evenly_spread N n u (systematic_draw_indices N n u).
Proof.
  intros N n u Hn Hu. destruct (indices_sorted N n u Hn ltac:(lra)) as (S & F & L).
  split; [exact L|]. split; [exact S|]. split; [exact F|]. intros k Hk. apply idx_place; auto; lra.
Qed.

Lemma number_lemma : forall N t n, (t_rate t = None) <> (t_n_draws t = None) ->
  (match t_rate t, t_n_draws t with Some _, Some _ | None, None => False | _, _ => True end) ->
  (0 < N)%nat ->
  n_selected_draws N (t_rate t) (t_n_draws t) = Some n <-> number_asked N t n.
Proof.
  intros N t n _ Hx HN. unfold n_selected_draws, number_asked, b_of.
  destruct (t_rate t) as [r|], (t_n_draws t) as [k|]; try contradiction.
  - assert (PN : 0 < INR N) by (apply lt_0_INR; exact HN).
    destruct (Rle_dec r 0) as [H|H].
    { cbn [orb]. split; [discriminate|]. intros [? _]. lra. }
    destruct (Rlt_dec 1 r) as [H1|H1]; cbn [orb].
    { split; [discriminate|]. intros [? _]. lra. }
    pose proof (ceil_bounds (INR N * r)) as C.
    assert (P : 0 < INR N * r) by (apply Rmult_lt_0_compat; lra).
    assert (Cp : (0 < ceilR (INR N * r))%Z) by (apply lt_IZR; lra).
    replace (Z.max 1 (ceilR (INR N * r))) with (ceilR (INR N * r)) by lia.
    split.
    + intros E. injection E as <-. split; [lra|]. rewrite (INR_IZR_INZ (Z.to_nat _)), Z2Nat.id by lia. lra.
    + intros [_ B]. f_equal. rewrite (INR_IZR_INZ n) in B.
      assert (Z.of_nat n = ceilR (INR N * r)); [|lia].
      apply Z.le_antisymm; [apply Z.lt_succ_r, lt_IZR; rewrite succ_IZR; lra|].
      apply Z.lt_succ_r, lt_IZR. rewrite succ_IZR. lra.
  - split.
    + destruct ((k <? 1)%Z || (Z.of_nat N <? k)%Z) eqn:E; [discriminate|]. apply orb_false_iff in E. destruct E as [E1 E2].
      apply Z.ltb_ge in E1, E2. intros H. injection H as <-. split; lia.
    + intros [B E]. replace ((k <? 1)%Z || (Z.of_nat N <? k)%Z) with false.
      * f_equal. lia.
      * symmetry. apply orb_false_iff. split; apply Z.ltb_ge; lia.
Qed.

Lemma number_range : forall N t n, (0 < N)%nat -> number_asked N t n -> (1 <= n <= N)%nat.
Proof.
  intros N t n HN H. unfold number_asked in H. destruct (t_rate t) as [r|], (t_n_draws t) as [k|]; try contradiction.
  - destruct H as [Hr [B1 B2]]. assert (PN : 0 < INR N) by (apply lt_0_INR; exact HN).
    assert (P : 0 < INR N * r) by (apply Rmult_lt_0_compat; lra).
    assert (Q : INR N * r <= INR N) by (rewrite <- (Rmult_1_r (INR N)) at 2; apply Rmult_le_compat_l; lra).
    split.
    + assert (L : 0 < INR n) by lra. change 0 with (INR 0) in L. apply INR_lt in L. lia.
    + assert (L : INR n < INR (S N)) by (rewrite S_INR; lra). apply INR_lt in L. lia.
  - lia.
Qed.

(** What a successful call does. *)
Lemma thin_inv : forall s t u q s', posterior_thinning s t u = Done (q, s') ->
  exists p N C n, s_posterior s = Some p /\ ds_draws p = Some N /\ ds_chains p = Some C /\ a_is_thinned (ds_attrs p) = false /\
    t_method t = Systematic /\
    (match t_rate t, t_n_draws t with Some _, Some _ | None, None => False | _, _ => True end) /\
    n_selected_draws N (t_rate t) (t_n_draws t) = Some n /\
    ((n = N /\ q = p /\ s' = s) \/
     (n <> N /\ q = thinned_values p (fun c => systematic_draw_indices N n (u c)) n
                (mkAttrs true (Some (match t_rate t with Some r => r | None => INR n / INR N end))
                   (Some C) (Some N) (Some n) (match t_seed t with Some z => Some z | None => a_seed (ds_attrs p) end)
                   (a_other (ds_attrs p))) /\
      s' = mkState (Some q) (match s_full s with None => if t_preserve t then Some p else None | f => f end) (s_health s))).
Proof.
  intros s t u q s' H. unfold posterior_thinning in H. destruct (s_posterior s) as [p|]; [|discriminate].
  destruct (Bool.eqb _ _) eqn:Ex in H; [discriminate|]. destruct (t_method t) eqn:Em; [|discriminate].
  destruct (a_is_thinned (ds_attrs p)) eqn:Et; [discriminate|].
  destruct (ds_chains p) as [C|] eqn:EC; [|discriminate]. destruct (ds_draws p) as [N|] eqn:EN; [|discriminate].
  destruct (n_selected_draws N (t_rate t) (t_n_draws t)) as [n|] eqn:En; [|discriminate].
  exists p, N, C, n. split; [reflexivity|]. split; [exact EN|]. split; [exact EC|]. split; [exact Et|]. split; [reflexivity|].
  split; [destruct (t_rate t), (t_n_draws t); cbn in Ex; try discriminate; exact Logic.I|]. split; [exact En|].
  destruct (Nat.eqb n N) eqn:Enn.
  - apply Nat.eqb_eq in Enn. injection H as <- <-. left. auto.
  - apply Nat.eqb_neq in Enn. cbv zeta in H. injection H as <- <-. right. auto.
Qed.

Lemma xor_lemma : forall (a : option R) (b : option Z),
  match a, b with Some _, Some _ | None, None => False | _, _ => True end ->
  (a = None) <> (b = None).
Proof.
  intros [a|] [b|] H E; try contradiction.
  - assert (F : (None : option Z) = None) by reflexivity. rewrite <- E in F. discriminate.
  - assert (F : (None : option R) = None) by reflexivity. rewrite E in F. discriminate.
Qed.

Lemma thinned_lemma : forall s t u q s' p N, in_unit u -> s_posterior s = Some p -> ds_draws p = Some N -> (0 < N)%nat ->
  posterior_thinning s t u = Done (q, s') ->
  exists n, number_asked N t n /\ s_posterior s' = Some q /\
    ((n = N /\ q = p /\ s' = s) \/
     ((1 <= n < N)%nat /\
      (exists index, keeps p q n index /\ forall c, evenly_spread N n (u c) (index c)) /\
      a_is_thinned (ds_attrs q) = true /\ a_draw_count (ds_attrs q) = Some N /\ a_selected_count (ds_attrs q) = Some n /\
      a_chain_count (ds_attrs q) = ds_chains p /\ a_other (ds_attrs q) = a_other (ds_attrs p) /\
      (s_full s = None -> s_full s' = if t_preserve t then Some p else None))).
Proof.
  intros s t u q s' p N Hu Hp HN PN H.
  destruct (thin_inv s t u q s' H) as (p0 & N0 & C & n & E1 & E2 & E3 & E4 & E5 & Ex & En & D).
  assert (p0 = p) by congruence. subst p0. assert (N0 = N) by congruence. subst N0.
  apply (number_lemma N t n (xor_lemma _ _ Ex) Ex PN) in En. exists n. split; [exact En|].
  pose proof (number_range N t n PN En) as Rg.
  destruct D as [(-> & -> & ->)|(Hn & -> & ->)].
  - split; [exact Hp|]. left. auto.
  - split; [reflexivity|]. right. assert (Hr : (1 <= n < N)%nat) by lia. split; [exact Hr|].
    split.
    + exists (fun c => systematic_draw_indices N n (u c)). split.
      * split; [reflexivity|]. split; [reflexivity|]. split; [reflexivity|]. split; [|reflexivity].
        intros c. exact (proj1 (spread_lemma N n (u c) Hr (Hu c))).
      * intros c. exact (spread_lemma N n (u c) Hr (Hu c)).
    + cbn. rewrite E3. do 5 (split; [reflexivity|]). intros ->. reflexivity.
Qed.

Lemma accepted_lemma : forall s t u p N C, s_posterior s = Some p -> ds_draws p = Some N -> ds_chains p = Some C -> (0 < N)%nat ->
  (exists r, posterior_thinning s t u = Done r) <->
  a_is_thinned (ds_attrs p) = false /\ t_method t = Systematic /\ exists n, number_asked N t n.
Proof.
  intros s t u p N C Hp HN HC PN. split.
  - intros [[q s'] H]. destruct (thin_inv s t u q s' H) as (p0 & N0 & C0 & n & E1 & E2 & E3 & E4 & E5 & Ex & En & D).
    assert (p0 = p) by congruence. subst p0. assert (N0 = N) by congruence. subst N0.
    split; [exact E4|]. split; [exact E5|]. exists n. apply (number_lemma N t n (xor_lemma _ _ Ex) Ex PN). exact En.
  - intros (Et & Em & n & Hn).
    assert (Ex : match t_rate t, t_n_draws t with Some _, Some _ | None, None => False | _, _ => True end).
    { unfold number_asked in Hn. destruct (t_rate t), (t_n_draws t); auto. }
    pose proof (proj2 (number_lemma N t n (xor_lemma _ _ Ex) Ex PN) Hn) as En.
    unfold posterior_thinning. rewrite Hp.
    replace (Bool.eqb _ _) with false by (destruct (t_rate t), (t_n_draws t); cbn; try contradiction; reflexivity).
    rewrite Em, Et, HC, HN, En. destruct (Nat.eqb n N); eauto.
Qed.

(** Histories without a new posterior. *)
Definition inv (p : dataset) (s : state) : Prop :=
  (s_posterior s = Some p \/ exists q, s_posterior s = Some q /\ thinned_from p q) /\
  (s_full s = None \/ s_full s = Some p).
Lemma run_inv : forall p N s c, ds_draws p = Some N -> (0 < N)%nat -> a_is_thinned (ds_attrs p) = false ->
  inv p s -> no_sampling c -> inv p (run s c).
Proof.
  intros p N s c HN PN Ht [I1 I2] Hc. destruct c as [t u| |q|]; cbn [run no_sampling] in *.
  - destruct (posterior_thinning s t u) as [[q s']| |] eqn:E; try (split; assumption).
    destruct (thin_inv s t u q s' E) as (p0 & N0 & C & n & E1 & E2 & E3 & E4 & E5 & Ex & En & D).
    assert (p0 = p).
    { destruct I1 as [I1|(q0 & I1 & T)]; [congruence|]. destruct T as (_ & _ & _ & _ & _ & _ & _ & T). congruence. }
    subst p0. assert (N0 = N) by congruence. subst N0.
    destruct (thinned_lemma s t u q s' p N Hc E1 HN PN E) as (n' & Hn' & Hq & D').
    destruct D' as [(_ & _ & ->)|(Hr & (index & K & Sp) & Tq & _)].
    + split; assumption.
    + destruct D as [(Hnn & -> & _)|(_ & _ & ->)]; [congruence|]. split.
      * right. exists q. split; [reflexivity|]. exists N, n', index. split; [exact HN|]. split; [exact Hr|]. split; [exact K|].
        split; [|exact Tq]. intros c. destruct (Sp c) as (_ & S & F & _). auto.
      * cbn [s_full]. destruct I2 as [-> | ->]; [destruct (t_preserve t); auto|auto].
  - unfold restore_full_posterior. destruct (s_full s) as [f|] eqn:E.
    + destruct I2 as [I2|I2]; [discriminate|]. injection I2 as ->. split; [left; reflexivity|left; reflexivity].
    + split; [assumption|left; assumption].
  - contradiction.
  - unfold review. destruct (s_posterior s) as [f|] eqn:E; [|split; rewrite ?E; assumption]. split; cbn [s_posterior s_full]; auto.
Qed.
Lemma history_lemma : forall p N l s, ds_draws p = Some N -> (0 < N)%nat -> a_is_thinned (ds_attrs p) = false ->
  inv p s -> Forall no_sampling l -> inv p (fold_left run l s).
Proof.
  intros p N l. induction l as [|c l IH]; intros s HN PN Ht I F; [exact I|]. inversion F; subst. cbn [fold_left].
  apply IH; auto. apply (run_inv p N); auto.
Qed.
