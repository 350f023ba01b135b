(** Optimality of the grid search for concave curves. *)
From Coq Require Import ZArith QArith Qround List Bool Arith Lia Lqa Sorted.
From Verif Require Import Lib_QSum M_Base M_Opt S_Opt P_Spec P_Opt P_OptSearch.
Import ListNotations.

Lemma nth_map_seq : forall (A : Type) (F : nat -> A) d n i, (i < n)%nat -> nth i (map F (seq 0 n)) d = F i.
Proof.
  intros. rewrite (nth_indep _ d (F 0%nat)) by (rewrite map_length, seq_length; auto).
  rewrite (map_nth F). rewrite seq_nth by auto. reflexivity.
Qed.
Lemma nth_repeat_none : forall k i, nth i (repeat (@None (Z * Q)) k) None = None.
Proof. induction k; destruct i; simpl; auto. Qed.

Lemma uniform_column_nth : forall rows lower step m f i,
  nth i (uniform_column rows lower step m f) None = if Nat.leb i m then Some (lower + Z.of_nat i * step, f i)%Z else None.
Proof.
  intros. unfold uniform_column. destruct (Nat.leb_spec i m).
  - rewrite app_nth1 by (rewrite map_length, seq_length; lia). rewrite nth_map_seq by lia. reflexivity.
  - rewrite app_nth2 by (rewrite map_length, seq_length; lia). apply nth_repeat_none.
Qed.
Lemma uniform_column_length : forall rows lower step m f, (m < rows)%nat -> length (uniform_column rows lower step m f) = rows.
Proof. intros. unfold uniform_column. rewrite app_length, map_length, seq_length, repeat_length. lia. Qed.

Section Uniform.
Context (n rows : nat) (lower : nat -> Z) (step : Z) (m : nat -> nat) (f : nat -> nat -> Q).
Hypothesis Hn : (0 < n)%nat.
Hypothesis Hstep : (0 < step)%Z.
Hypothesis Hm : forall c, (c < n)%nat -> (m c < rows)%nat.
Let g := uniform_grid n rows lower step m f.

Lemma u_length : length g = n.
Proof. unfold g, uniform_grid. rewrite map_length, seq_length. auto. Qed.
Lemma u_rows : n_rows g = rows.
Proof.
  unfold g, uniform_grid. destruct n as [|k]; [lia|]. cbn [seq map n_rows]. apply uniform_column_length. apply Hm. lia.
Qed.
Lemma u_cell : forall c r, (c < n)%nat -> cell g c r = if Nat.leb r (m c) then Some (lower c + Z.of_nat r * step, f c r)%Z else None.
Proof.
  intros. unfold cell, g, uniform_grid. rewrite nth_map_seq by auto. apply uniform_column_nth.
Qed.
Lemma u_well_formed : well_formed g.
Proof.
  split; [|split].
  - intros col Hcol. rewrite u_rows. unfold g, uniform_grid in Hcol. apply in_map_iff in Hcol. destruct Hcol as [c [<- Hc]].
    apply in_seq in Hc. apply uniform_column_length. apply Hm. lia.
  - intros c Hc. rewrite u_length in Hc. rewrite u_cell by auto. discriminate.
  - intros c r r' s o s' o' Hr E1 E2. destruct (Nat.lt_ge_cases c n) as [Hc|Hc].
    + rewrite u_cell in E1, E2 by auto. destruct (Nat.leb r (m c)); [|discriminate]. destruct (Nat.leb r' (m c)); [|discriminate].
      injection E1 as <- <-. injection E2 as <- <-. nia.
    + unfold cell in E1. rewrite (nth_overflow g) in E1 by (rewrite u_length; auto). destruct r; discriminate.
Qed.
Lemma u_feasible : forall x, feasible g x <-> forall c, (c < n)%nat -> (x c <= m c)%nat.
Proof.
  intros x. unfold feasible. rewrite u_length. split; intros H c Hc; specialize (H c Hc).
  - rewrite u_cell in H by auto. destruct (Nat.leb_spec (x c) (m c)); [auto|contradiction].
  - rewrite u_cell by auto. destruct (Nat.leb_spec (x c) (m c)); [discriminate|lia].
Qed.
Lemma u_can_move : forall x c r, can_move g x c r <-> (c < n)%nat /\ (x c < r)%nat /\ (r <= m c)%nat.
Proof.
  intros. unfold can_move. rewrite u_length, u_rows. split.
  - intros [H1 [H2 [H3 H4]]]. rewrite u_cell in H4 by auto. destruct (Nat.leb_spec r (m c)); [auto|contradiction].
  - intros [H1 [H2 H3]]. specialize (Hm c H1). repeat split; auto; [lia|]. rewrite u_cell by auto.
    destruct (Nat.leb_spec r (m c)); [discriminate|lia].
Qed.
Lemma u_spend : forall x c, (c < n)%nat -> (x c <= m c)%nat -> spend_at g x c = (lower c + Z.of_nat (x c) * step)%Z.
Proof. intros. unfold spend_at. rewrite u_cell by auto. destruct (Nat.leb_spec (x c) (m c)); [auto|lia]. Qed.
Lemma u_outcome : forall x c, (c < n)%nat -> (x c <= m c)%nat -> outcome_at g x c = f c (x c).
Proof. intros. unfold outcome_at. rewrite u_cell by auto. destruct (Nat.leb_spec (x c) (m c)); [auto|lia]. Qed.

Definition marg (c i : nat) : Q := (f c (S i) - f c i)%Q.

Lemma moved_same : forall x c r, moved x c r c = r.
Proof. intros. unfold moved. rewrite Nat.eqb_refl. auto. Qed.
Lemma moved_other : forall x c r c', c' <> c -> moved x c r c' = x c'.
Proof. intros. unfold moved. destruct (Nat.eqb_spec c' c); [contradiction|auto]. Qed.

Lemma u_move_roi : forall x c r, (c < n)%nat -> (x c < r)%nat -> (r <= m c)%nat ->
  move_roi g x c r = ((f c r - f c (x c)) / inject_Z (Z.of_nat (r - x c) * step))%Q.
Proof.
  intros. unfold move_roi. rewrite !u_spend, !u_outcome; rewrite ?moved_same; auto; try lia.
  replace (lower c + Z.of_nat r * step - (lower c + Z.of_nat (x c) * step))%Z with (Z.of_nat (r - x c) * step)%Z by lia. reflexivity.
Qed.

Hypothesis Hconc : forall c, (c < n)%nat -> concave (m c) (f c).

Lemma marg_decreasing : forall c i j, (c < n)%nat -> (i <= j)%nat -> (S j <= m c)%nat -> (marg c j <= marg c i)%Q.
Proof.
  intros c i j Hc Hij. induction Hij as [|j Hij IH]; intros Hj; [lra|].
  pose proof (IH ltac:(lia)). pose proof (Hconc c Hc j Hj). unfold marg in *. lra.
Qed.

Lemma rise_le : forall c i k, (c < n)%nat -> (i + S k <= m c)%nat -> (f c (i + S k) - f c i <= inject_Z (Z.of_nat (S k)) * marg c i)%Q.
Proof.
  intros c i. induction k as [|k IH]; intros Hc Hk.
  - replace (i + 1)%nat with (S i) by lia. change (inject_Z (Z.of_nat 1)) with 1%Q. unfold marg. lra.
  - pose proof (IH Hc ltac:(lia)). pose proof (marg_decreasing c i (i + S k) Hc ltac:(lia) ltac:(lia)) as Hd.
    replace (Z.of_nat (S (S k))) with (Z.of_nat (S k) + 1)%Z by lia. rewrite inject_Z_plus. change (inject_Z 1) with 1%Q.
    unfold marg at 1 in Hd. replace (i + S (S k))%nat with (S (i + S k))%nat by lia. lra.
Qed.
Lemma fall_ge : forall c i k, (c < n)%nat -> (i + S k <= m c)%nat -> (inject_Z (Z.of_nat (S k)) * marg c (i + k) <= f c (i + S k) - f c i)%Q.
Proof.
  intros c i k. revert i. induction k as [|k IH]; intros i Hc Hk.
  - replace (i + 1)%nat with (S i) by lia. replace (i + 0)%nat with i by lia. change (inject_Z (Z.of_nat 1)) with 1%Q. unfold marg. lra.
  - pose proof (IH (S i) Hc ltac:(lia)) as H1. pose proof (marg_decreasing c i (i + S k) Hc ltac:(lia) ltac:(lia)) as Hd.
    replace (Z.of_nat (S (S k))) with (Z.of_nat (S k) + 1)%Z by lia. rewrite inject_Z_plus. change (inject_Z 1) with 1%Q.
    replace (S i + S k)%nat with (i + S (S k))%nat in H1 by lia. replace (S i + k)%nat with (i + S k)%nat in H1 by lia.
    unfold marg at 2 in Hd. set (M := marg c (i + S k)) in *. lra.
Qed.

Definition key (c i : nat) : Q := round8 (marg c i / inject_Z step).

Lemma step_pos : (0 < inject_Z step)%Q.
Proof. change 0%Q with (inject_Z 0). apply inject_lt. auto. Qed.

Lemma roi_next : forall x c, (c < n)%nat -> (S (x c) <= m c)%nat -> round8 (move_roi g x c (S (x c))) = key c (x c).
Proof.
  intros. rewrite u_move_roi by (auto; lia). unfold key. replace (S (x c) - x c)%nat with 1%nat by lia.
  replace (Z.of_nat 1 * step)%Z with step by lia. reflexivity.
Qed.
Lemma roi_far : forall x c r, (c < n)%nat -> (x c < r)%nat -> (r <= m c)%nat -> (round8 (move_roi g x c r) <= key c (x c))%Q.
Proof.
  intros x c r Hc Hr Hr2. rewrite u_move_roi by auto. unfold key. apply round8_mono.
  replace (r - x c)%nat with (S (r - x c - 1)) by lia. set (k := (r - x c - 1)%nat).
  replace r with (x c + S k)%nat by (unfold k; lia). pose proof (rise_le c (x c) k Hc ltac:(unfold k; lia)) as H.
  rewrite inject_Z_mult. pose proof step_pos as Hs. assert (Hk : (0 < inject_Z (Z.of_nat (S k)))%Q) by (change 0%Q with (inject_Z 0); apply inject_lt; lia).
  apply Qle_shift_div_r; [apply Qmult_lt_0_compat; auto|].
  setoid_replace (marg c (x c) / inject_Z step * (inject_Z (Z.of_nat (S k)) * inject_Z step))%Q with (inject_Z (Z.of_nat (S k)) * marg c (x c))%Q by (field; lra). exact H.
Qed.

Lemma selected_next : forall x c r v, feasible g x -> can_move g x c r -> selected g x c r v ->
  r = S (x c) /\ v = key c (x c) /\ forall c', (c' < n)%nat -> (S (x c') <= m c')%nat -> (key c' (x c') <= key c (x c))%Q.
Proof.
  intros x c r v Hf Hcm [Hv Hmax]. pose proof (proj1 (u_can_move x c r) Hcm) as [Hc [Hr Hr2]].
  assert (Hrr : r = S (x c)).
  { destruct (Nat.eq_dec r (S (x c))) as [|Hne]; auto. exfalso.
    assert (Hcm' : can_move g x c (S (x c))) by (apply u_can_move; repeat split; auto; lia).
    destruct (Hmax c (S (x c)) Hcm') as [w [Hw1 [Hw2 Hw3]]].
    assert (w < v)%Q by (apply Hw3; left; simpl; lia).
    rewrite (rounded_is_round8 g x c _ u_well_formed Hf Hcm') in Hw1. rewrite (rounded_is_round8 g x c _ u_well_formed Hf Hcm) in Hv.
    injection Hw1 as Hw1. injection Hv as Hv. rewrite roi_next in Hw1 by (auto; lia). pose proof (roi_far x c r Hc Hr Hr2). rewrite Hv in H0. rewrite <- Hw1 in H. lra. }
  split; auto. subst r. rewrite (rounded_is_round8 g x c _ u_well_formed Hf Hcm), roi_next in Hv by auto. injection Hv as <-.
  split; auto. intros c' Hc' Hs'. assert (Hcm' : can_move g x c' (S (x c'))) by (apply u_can_move; repeat split; auto; lia).
  destruct (Hmax c' (S (x c')) Hcm') as [w [Hw1 [Hw2 _]]]. rewrite (rounded_is_round8 g x c' _ u_well_formed Hf Hcm'), roi_next in Hw1 by auto.
  injection Hw1 as <-. auto.
Qed.

Lemma key_decreasing : forall c i j, (c < n)%nat -> (i <= j)%nat -> (S j <= m c)%nat -> (key c j <= key c i)%Q.
Proof.
  intros. unfold key. apply round8_mono. unfold Qdiv. apply Qmult_le_compat_r; [apply marg_decreasing; auto|].
  apply Qlt_le_weak, Qinv_lt_0_compat, step_pos.
Qed.

Definition Greedy (x : alloc) : Prop := forall a c, (a < n)%nat -> (c < n)%nat -> (0 < x a)%nat -> (S (x c) <= m c)%nat ->
  (key c (x c) <= key a (x a - 1))%Q.

Lemma greedy_reached : forall sc x y, feasible g x -> Greedy x -> reached g (accepted g sc) x y -> Greedy y.
Proof.
  intros sc x y Hf HG R. induction R as [x|x y c r Hcm Hok R IH]; auto.
  apply IH; [apply feasible_moved; auto|]. clear IH R. destruct Hok as [v [Hsel _]].
  destruct (selected_next x c r v Hf Hcm Hsel) as [-> [_ Hmax]]. apply u_can_move in Hcm. destruct Hcm as [Hc [Hr1 Hr2]].
  assert (Hcc : forall i, (S (moved x c (S (x c)) i) <= m i)%nat -> (i < n)%nat -> (key i (moved x c (S (x c)) i) <= key i (x i))%Q /\ (S (x i) <= m i)%nat).
  { intros i Hi Hi2. unfold moved in *. destruct (Nat.eqb_spec i c); [|split; [lra|lia]]. subst i. split; [|lia]. apply key_decreasing; auto. }
  intros a c' Ha Hc' Hpos Hnext. destruct (Hcc c' Hnext Hc') as [Hle Hs].
  apply Qle_trans with (key c' (x c')); auto.
  destruct (Nat.eq_dec a c) as [->|Hac].
  - rewrite moved_same. replace (S (x c) - 1)%nat with (x c) by lia. apply Hmax; auto.
  - rewrite moved_other in * by auto. apply HG; auto.
Qed.

Lemma finite_min : forall k (P : nat -> bool) (F : nat -> Q), (exists c, (c < k)%nat /\ P c = true) ->
  exists c, (c < k)%nat /\ P c = true /\ forall c', (c' < k)%nat -> P c' = true -> (F c <= F c')%Q.
Proof.
  induction k as [|k IH]; intros P F [c [Hc Hp]]; [lia|].
  destruct (existsb P (seq 0 k)) eqn:E.
  - apply existsb_exists in E. destruct E as [c0 [Hc0 Hp0]]. apply in_seq in Hc0.
    destruct (IH P F (ex_intro _ c0 (conj (proj2 Hc0) Hp0))) as [c1 [H1 [H2 H3]]].
    destruct (P k) eqn:Ek.
    + destruct (Qlt_le_dec (F k) (F c1)) as [Hlt|Hle].
      * exists k. repeat split; auto. intros c' Hc' Hp'. destruct (Nat.eq_dec c' k) as [->|]; [lra|]. specialize (H3 c' ltac:(lia) Hp'). lra.
      * exists c1. repeat split; auto. intros c' Hc' Hp'. destruct (Nat.eq_dec c' k) as [->|]; [auto|]. apply H3; auto. lia.
    + exists c1. repeat split; auto. intros c' Hc' Hp'. destruct (Nat.eq_dec c' k) as [->|]; [congruence|]. apply H3; auto. lia.
  - assert (Hk : forall c', (c' < k)%nat -> P c' = false).
    { intros c' Hc'. destruct (P c') eqn:Ep; auto. exfalso. assert (existsb P (seq 0 k) = true); [|congruence]. apply existsb_exists. exists c'. split; auto. apply in_seq. lia. }
    assert (c = k). { destruct (Nat.eq_dec c k); auto. rewrite Hk in Hp by lia. discriminate. } subst c.
    exists k. repeat split; auto. intros c' Hc' Hp'. destruct (Nat.eq_dec c' k) as [->|]; [lra|]. rewrite Hk in Hp' by lia. discriminate.
Qed.

Lemma nsum_zero : forall k F, nsum k F = 0%nat -> forall i, (i < k)%nat -> F i = 0%nat.
Proof. induction k; intros F H i Hi; [lia|]. simpl in H. destruct (Nat.eq_dec i k) as [->|]; [lia|]. apply IHk; [lia|lia]. Qed.

Lemma qsum_nsum : forall k F, (qsum k (fun i => inject_Z (Z.of_nat (F i))) == inject_Z (Z.of_nat (nsum k F)))%Q.
Proof. induction k; intros; simpl; [reflexivity|]. rewrite IHk, <- inject_Z_plus, Nat2Z.inj_add. reflexivity. Qed.

(** The exchange argument. *)
Lemma exchange : forall eps y z, (0 <= eps)%Q ->
  (forall c, (c < n)%nat -> (y c <= m c)%nat) -> (forall c, (c < n)%nat -> (z c <= m c)%nat) ->
  (forall a c, (a < n)%nat -> (c < n)%nat -> (0 < y a)%nat -> (S (y c) <= m c)%nat -> (marg c (y c) <= marg a (y a - 1) + eps)%Q) ->
  (nsum n z = nsum n y \/ (nsum n z <= nsum n y)%nat /\ (forall c, (c < n)%nat -> nondecreasing (m c) (f c))) ->
  (qsum n (fun c => f c (z c)) <= qsum n (fun c => f c (y c)) + eps * inject_Z (Z.of_nat (nsum n (fun c => z c - y c)%nat)))%Q.
Proof.
  intros eps y z Heps Hy Hz HI Htot.
  assert (Hlam : (forall c, (c < n)%nat -> y c = 0%nat) \/ exists lam, 
     (forall c, (c < n)%nat -> (0 < y c)%nat -> (lam <= marg c (y c - 1))%Q) /\
     (forall c, (c < n)%nat -> (S (y c) <= m c)%nat -> (marg c (y c) <= lam + eps)%Q) /\
     ((forall c, (c < n)%nat -> nondecreasing (m c) (f c)) -> (0 <= lam)%Q)).
  { destruct (existsb (fun c => Nat.ltb 0 (y c)) (seq 0 n)) eqn:E.
    - right. apply existsb_exists in E. destruct E as [c0 [Hc0 Hp0]]. apply in_seq in Hc0.
      destruct (finite_min n (fun c => Nat.ltb 0 (y c)) (fun c => marg c (y c - 1)) (ex_intro _ c0 (conj (proj2 Hc0) Hp0))) as [a [Ha [Hpa Hmin]]].
      apply Nat.ltb_lt in Hpa. exists (marg a (y a - 1)). split; [|split].
      + intros c Hc Hp. apply Hmin; auto. apply Nat.ltb_lt. auto.
      + intros c Hc Hs. apply HI; auto.
      + intros Hnd. specialize (Hnd a Ha (y a - 1)%nat ltac:(specialize (Hy a Ha); lia)). unfold marg. lra.
    - left. intros c Hc. destruct (Nat.eq_dec (y c) 0); auto. exfalso.
      assert (existsb (fun c => Nat.ltb 0 (y c)) (seq 0 n) = true); [|congruence]. apply existsb_exists. exists c. split; [apply in_seq; lia|]. apply Nat.ltb_lt. lia. }
  destruct Hlam as [H0|[lam [H1 [H2 H3]]]].
  - assert (Hy0 : nsum n y = 0%nat). { clear - H0. induction n; simpl; auto. rewrite IHn0, H0 by (auto; intros; apply H0; lia). auto. }
    assert (Hz0 : nsum n z = 0%nat) by (destruct Htot as [Ht|[Ht _]]; lia).
    rewrite (qsum_ext n (fun c => f c (z c)) (fun c => f c (y c))).
    + assert (0 <= inject_Z (Z.of_nat (nsum n (fun c => z c - y c)%nat)))%Q by (change 0%Q with (inject_Z 0); apply inject_le; lia).
      pose proof (Qmult_le_0_compat _ _ Heps H). lra.
    + intros c Hc. rewrite (nsum_zero n z Hz0 c Hc), (H0 c Hc). reflexivity.
  - set (Z' := qsum n (fun c => inject_Z (Z.of_nat (z c)))). set (Y' := qsum n (fun c => inject_Z (Z.of_nat (y c)))).
    set (D' := qsum n (fun c => inject_Z (Z.of_nat (z c - y c)))).
    assert (Hsum : (qsum n (fun c => f c (z c)) <= qsum n (fun c => f c (y c)) + (lam * Z' - lam * Y' + eps * D'))%Q).
    { unfold Z', Y', D'. setoid_replace (lam * qsum n (fun c => inject_Z (Z.of_nat (z c))) - lam * qsum n (fun c => inject_Z (Z.of_nat (y c))))%Q with
        (qsum n (fun c => lam * inject_Z (Z.of_nat (z c))) + qsum n (fun c => (- lam) * inject_Z (Z.of_nat (y c))))%Q by (rewrite !qsum_scal; ring).
      rewrite <- (qsum_scal n eps). rewrite <- !qsum_plus. apply qsum_le. intros c Hc.
      destruct (Nat.lt_trichotomy (z c) (y c)) as [Hlt|[Heq|Hgt]].
      - replace (z c - y c)%nat with 0%nat by lia. change (inject_Z (Z.of_nat 0)) with 0%Q.
        specialize (H1 c Hc ltac:(lia)). set (k := (y c - z c - 1)%nat).
        pose proof (fall_ge c (z c) k Hc ltac:(specialize (Hy c Hc); unfold k; lia)) as Hfall.
        replace (z c + S k)%nat with (y c) in Hfall by (unfold k; lia). replace (z c + k)%nat with (y c - 1)%nat in Hfall by (unfold k; lia).
        assert (Hk : (inject_Z (Z.of_nat (y c)) == inject_Z (Z.of_nat (z c)) + inject_Z (Z.of_nat (S k)))%Q) by (rewrite <- inject_Z_plus; replace (Z.of_nat (y c)) with (Z.of_nat (z c) + Z.of_nat (S k))%Z by (unfold k; lia); reflexivity).
        rewrite Hk. assert (Hk0 : (0 <= inject_Z (Z.of_nat (S k)))%Q) by (change 0%Q with (inject_Z 0); apply inject_le; lia).
        assert (inject_Z (Z.of_nat (S k)) * lam <= inject_Z (Z.of_nat (S k)) * marg c (y c - 1))%Q by (rewrite !(Qmult_comm (inject_Z _)); apply Qmult_le_compat_r; auto). lra.
      - rewrite Heq. replace (y c - y c)%nat with 0%nat by lia. change (inject_Z (Z.of_nat 0)) with 0%Q. lra.
      - specialize (H2 c Hc ltac:(specialize (Hz c Hc); lia)). set (k := (z c - y c - 1)%nat).
        pose proof (rise_le c (y c) k Hc ltac:(specialize (Hz c Hc); unfold k; lia)) as Hrise.
        replace (y c + S k)%nat with (z c) in Hrise by (unfold k; lia). replace (z c - y c)%nat with (S k) by (unfold k; lia).
        assert (Hk : (inject_Z (Z.of_nat (z c)) == inject_Z (Z.of_nat (y c)) + inject_Z (Z.of_nat (S k)))%Q) by (rewrite <- inject_Z_plus; replace (Z.of_nat (z c)) with (Z.of_nat (y c) + Z.of_nat (S k))%Z by (unfold k; lia); reflexivity).
        rewrite Hk. assert (Hk0 : (0 <= inject_Z (Z.of_nat (S k)))%Q) by (change 0%Q with (inject_Z 0); apply inject_le; lia).
        assert (inject_Z (Z.of_nat (S k)) * marg c (y c) <= inject_Z (Z.of_nat (S k)) * (lam + eps))%Q by (rewrite !(Qmult_comm (inject_Z _)); apply Qmult_le_compat_r; auto). lra. }
    assert (HD : (D' == inject_Z (Z.of_nat (nsum n (fun c => z c - y c)%nat)))%Q) by (unfold D'; apply (qsum_nsum n (fun c => z c - y c)%nat)).
    assert (HZ : (Z' == inject_Z (Z.of_nat (nsum n z)))%Q) by apply qsum_nsum.
    assert (HY : (Y' == inject_Z (Z.of_nat (nsum n y)))%Q) by apply qsum_nsum.
    rewrite HD, HZ, HY in Hsum. destruct Htot as [He|[Hle Hnd]].
    + rewrite He in Hsum. lra.
    + specialize (H3 Hnd). assert (Hq : (inject_Z (Z.of_nat (nsum n z)) <= inject_Z (Z.of_nat (nsum n y)))%Q) by (apply inject_le; lia).
      assert (lam * inject_Z (Z.of_nat (nsum n z)) <= lam * inject_Z (Z.of_nat (nsum n y)))%Q by (rewrite !(Qmult_comm lam); apply Qmult_le_compat_r; auto). lra.
Qed.

Lemma key_marg : forall a i c j, (key c j <= key a i)%Q -> (marg c j <= marg a i + (half8 + half8) * inject_Z step)%Q.
Proof.
  intros a i c j H. unfold key in H. pose proof step_pos as Hs.
  destruct (round8_error (marg c j / inject_Z step)) as [_ H1]. destruct (round8_error (marg a i / inject_Z step)) as [H2 _].
  assert (Hd : (marg c j / inject_Z step <= marg a i / inject_Z step + (half8 + half8))%Q) by lra.
  apply (Qmult_le_compat_r _ _ (inject_Z step)) in Hd; [|lra].
  setoid_replace (marg c j / inject_Z step * inject_Z step)%Q with (marg c j) in Hd by (field; lra).
  setoid_replace ((marg a i / inject_Z step + (half8 + half8)) * inject_Z step)%Q with (marg a i + (half8 + half8) * inject_Z step)%Q in Hd by (field; lra). exact Hd.
Qed.
Lemma key_marg_exact : forall a i c j, exact8 (marg c j / inject_Z step) -> exact8 (marg a i / inject_Z step) -> (key c j <= key a i)%Q -> (marg c j <= marg a i + 0)%Q.
Proof.
  intros a i c j [z1 H1] [z2 H2] H. unfold key in H. pose proof step_pos as Hs. apply round8_exact in H1, H2. rewrite H1, H2 in H.
  apply (Qmult_le_compat_r _ _ (inject_Z step)) in H; [|lra].
  setoid_replace (marg c j / inject_Z step * inject_Z step)%Q with (marg c j) in H by (field; lra).
  setoid_replace (marg a i / inject_Z step * inject_Z step)%Q with (marg a i) in H by (field; lra). lra.
Qed.

Lemma spend_nsum : forall x, zsum n (fun c => lower c + Z.of_nat (x c) * step)%Z = (zsum n lower + Z.of_nat (nsum n x) * step)%Z.
Proof. intros x. clear. induction n; simpl; [lia|]. rewrite IHn0. lia. Qed.

Lemma nsum_moved : forall x c, (c < n)%nat -> nsum n (moved x c (S (x c))) = S (nsum n x).
Proof.
  intros x c. clear. induction n as [|k IH]; intros Hc; [lia|]. simpl. destruct (Nat.eq_dec c k) as [->|Hne].
  - rewrite moved_same. assert (E : nsum k (moved x k (S (x k))) = nsum k x); [|lia].
    assert (forall j, (j <= k)%nat -> nsum j (moved x k (S (x k))) = nsum j x); [|auto].
    induction j; intros; simpl; auto. rewrite IHj, moved_other by lia. auto.
  - rewrite IH by lia. rewrite moved_other by auto. lia.
Qed.
Lemma nsum_le : forall k F G, (forall i, (i < k)%nat -> (F i <= G i)%nat) -> (nsum k F <= nsum k G)%nat.
Proof. induction k; intros; simpl; auto. pose proof (IHk F G ltac:(intros; apply H; lia)). pose proof (H k ltac:(lia)). lia. Qed.

Lemma search_greedy : forall b s, grid_search g (FixedBudget b) = Ok s ->
  exists y, (forall c, (c < n)%nat -> (y c <= m c)%nat /\ s c = (lower c + Z.of_nat (y c) * step)%Z) /\ Greedy y /\
    (forall z, (forall c, (c < n)%nat -> (z c <= m c)%nat) -> (zsum n (fun c => lower c + Z.of_nat (z c) * step)%Z <= b)%Z -> (nsum n z <= nsum n y)%nat).
Proof.
  intros b s H. destruct (grid_search_inv g _ s u_well_formed H) as [y [E [Hf [Hr Hs]]]]. exists y.
  pose proof (proj1 (u_feasible y) Hf) as Hy. rewrite u_length in E.
  split; [intros c Hc; split; auto; rewrite E, u_spend; auto|].
  assert (Hf0 : feasible g (fun _ => 0%nat)) by (apply u_feasible; intros; lia).
  split; [apply (greedy_reached (FixedBudget b) (fun _ => 0%nat)); auto; intros a c Ha Hc Hp; lia|].
  intros z Hz Hb. destruct Hs as [Hs|[c [r [v [Hcm [Hsel He]]]]]].
  - apply nsum_le. intros c Hc. destruct (Nat.le_gt_cases (z c) (y c)); auto. exfalso. apply (Hs c (z c)). apply u_can_move. auto.
  - destruct (selected_next y c r v Hf Hcm Hsel) as [-> _]. cbn [exceeds] in He. apply Z.ltb_lt in He.
    pose proof (feasible_moved g y c _ Hf Hcm) as Hfm. apply u_can_move in Hcm. destruct Hcm as [Hc [_ Hc2]].
    rewrite u_length in He. rewrite (zsum_ext n _ (fun i => lower i + Z.of_nat (moved y c (S (y c)) i) * step)%Z) in He.
    + rewrite spend_nsum in *. rewrite nsum_moved in He by auto. nia.
    + intros i Hi. apply u_spend; auto. apply u_feasible; auto.
Qed.
End Uniform.

Lemma C24_lemma : forall n rows lower step m f b s, (0 < n)%nat -> (0 < step)%Z -> (forall c, (c < n)%nat -> (m c < rows)%nat) ->
  (forall c, (c < n)%nat -> concave (m c) (f c)) ->
  grid_search (uniform_grid n rows lower step m f) (FixedBudget b) = Ok s ->
  exists y, (forall c, (c < n)%nat -> (y c <= m c)%nat /\ s c = (lower c + Z.of_nat (y c) * step)%Z) /\
    forall z, (forall c, (c < n)%nat -> (z c <= m c)%nat) ->
      (nsum n z = nsum n y \/
       (zsum n (fun c => lower c + Z.of_nat (z c) * step)%Z <= b)%Z /\ (forall c, (c < n)%nat -> nondecreasing (m c) (f c))) ->
      (qsum n (fun c => f c (z c)) <= qsum n (fun c => f c (y c)) +
         ((half8 + half8) * inject_Z step) * inject_Z (Z.of_nat (nsum n (fun c => z c - y c)%nat)))%Q /\
      ((forall c i, (c < n)%nat -> (S i <= m c)%nat -> exact8 ((f c (S i) - f c i) / inject_Z step)) ->
       (qsum n (fun c => f c (z c)) <= qsum n (fun c => f c (y c)))%Q).
Proof.
  intros n rows lower step m f b s Hn Hstep Hm Hconc H.
  destruct (search_greedy n rows lower step m f Hn Hstep Hm Hconc b s H) as [y [Hy [HG Htot]]]. exists y. split; auto.
  intros z Hz Hcase.
  assert (Hy' : forall c, (c < n)%nat -> (y c <= m c)%nat) by (intros c Hc; apply (Hy c Hc)).
  assert (Hcase' : nsum n z = nsum n y \/ (nsum n z <= nsum n y)%nat /\ (forall c, (c < n)%nat -> nondecreasing (m c) (f c))).
  { destruct Hcase as [|[Hb Hnd]]; [auto|]. right. split; auto. }
  split.
  - apply (exchange n m f Hn Hconc); auto.
    + pose proof (step_pos step Hstep). unfold half8. lra.
    + intros a c Ha Hc Hp Hs. apply key_marg; auto. 
  - intros Hex. apply Qle_trans with (qsum n (fun c => f c (y c)) + 0 * inject_Z (Z.of_nat (nsum n (fun c => z c - y c)%nat)))%Q; [|lra].
    apply (exchange n m f Hn Hconc); auto; [lra|].
    intros a c Ha Hc Hp Hs. apply key_marg_exact with step; auto.
    + apply Hex; auto.
    + unfold marg. specialize (Hy' a Ha). replace (S (y a - 1)) with (S (y a - 1)) by lia. apply Hex; auto. lia.
Qed.
