(** Proofs about the weighted ridge regression of automatic knot selection. *)
From Coq Require Import Reals ZArith String List Bool Arith Lia Lra.
From Verif Require Import Lib_Sum M_Base M_PriorDist M_Band S_Band P_Spec P_PriorDist P_Band.
Import ListNotations.
Open Scope R_scope.

(** [_mat2rot] keeps the whole upper triangle. *)
Lemma last_nonzero_spec : forall p row j, last_nonzero p row = Some j ->
  (j < p)%nat /\ row j <> 0 /\ forall q, (j < q < p)%nat -> row q = 0.
Proof.
  intros p row j H. unfold last_nonzero in H.
  set (l := filter (fun j => negb (Reqb (row j) 0)) (seq 0 p)) in *.
  destruct (rev l) as [|x r] eqn:E; [discriminate|]. inversion H; subst x. clear H.
  assert (El : l = rev r ++ [j]) by (rewrite <- (rev_involutive l), E; reflexivity).
  assert (Hin : In j l) by (rewrite El; apply in_app_iff; right; left; auto).
  apply filter_In in Hin. destruct Hin as [Hs Hn]. apply in_seq in Hs. apply negb_true_iff, Reqb_false in Hn.
  split; [lia|]. split; auto. intros q Hq.
  destruct (Req_dec (row q) 0) as [|Hne]; auto. exfalso.
  assert (Hql : In q l).
  { apply filter_In. split; [apply in_seq; lia|]. apply negb_true_iff, Reqb_false. auto. }
  assert (Hsort : forall (f : nat -> bool) s c a b, nth_error (filter f (seq s c)) a <> None -> forall x y,
            nth_error (filter f (seq s c)) a = Some x -> nth_error (filter f (seq s c)) b = Some y -> (a < b)%nat -> (x < y)%nat).
  { clear. intros f s c. revert s. induction c as [|c IH]; intros s a b _ x y Ha Hb Hab; simpl in *.
    - destruct a; discriminate.
    - destruct (f s).
      + destruct b as [|b]; [lia|]. simpl in Hb. destruct a as [|a]; simpl in Ha.
        * inversion Ha; subst x. apply nth_error_In, filter_In in Hb. destruct Hb as [Hb _]. apply in_seq in Hb. lia.
        * apply (IH (S s) a b); auto; [congruence|lia].
      + apply (IH (S s) a b); auto. congruence. }
  apply In_nth_error in Hql. destruct Hql as [iq Hiq].
  assert (Hlast : nth_error l (length (rev r)) = Some j).
  { rewrite El. rewrite nth_error_app2 by lia. rewrite Nat.sub_diag. reflexivity. }
  assert (Hlen : (iq < length l)%nat) by (apply nth_error_Some; congruence).
  rewrite El, app_length in Hlen. simpl in Hlen.
  destruct (Nat.eq_dec iq (length (rev r))) as [->|Hne']; [rewrite Hiq in Hlast; inversion Hlast; lia|].
  assert (q < j)%nat; [|lia].
  apply (Hsort (fun j => negb (Reqb (row j) 0)) 0%nat p iq (length (rev r))); auto; try lia.
  fold l. congruence.
Qed.

Lemma band_width_spec : forall p a rows l0 l, band_width p a rows l0 = Ok l ->
  (l0 <= l)%Z /\ forall i, In i rows -> forall j, (j < p)%nat -> (l < Z.of_nat j - Z.of_nat i)%Z -> a i j = 0.
Proof.
  intros p a. induction rows as [|i rows IH]; intros l0 l H; simpl in H.
  - inversion H; subst. split; [lia|]. intros i [].
  - destruct (last_nonzero p (a i)) as [q|] eqn:E; [|discriminate].
    destruct (IH _ _ H) as [A B]. split; [lia|]. intros i' [<-|Hi]; [|apply B; auto].
    intros j Hj Hlt. destruct (last_nonzero_spec _ _ _ E) as [_ [_ C]]. apply C. lia.
Qed.

Lemma mat2rot_spec : forall p a l rot, (forall i j, (i < p)%nat -> (j < p)%nat -> a i j = a j i) ->
  mat2rot p a = Ok (l, rot) ->
  forall m i j, (l <= m)%nat -> (i < p)%nat -> (j < p)%nat -> unrotate m rot i j = a i j.
Proof.
  intros p a l rot Hsym H m i j Hm Hi Hj. unfold mat2rot in H.
  destruct (band_width p a (seq 0 p) 0) as [z|] eqn:E; simpl in H; [|discriminate].
  inversion H; subst l rot. clear H. destruct (band_width_spec _ _ _ _ _ E) as [Hz Hb].
  assert (Hup : forall i j, (i <= j)%nat -> (j < p)%nat ->
    (if Nat.leb (j - i) m then
      (if Nat.ltb i p && Nat.leb (j - i) (Z.to_nat z) && Nat.ltb (i + (j - i)) p then a i (i + (j - i))%nat else 0) else 0) = a i j).
  { clear i j Hi Hj. intros i j Hij Hj.
    assert (Nat.ltb i p = true) as -> by (apply Nat.ltb_lt; lia). replace (i + (j - i))%nat with j by lia.
    assert (Nat.ltb j p = true) as -> by (apply Nat.ltb_lt; lia). cbn [andb]. rewrite andb_true_r.
    destruct (Nat.leb (j - i) (Z.to_nat z)) eqn:E2.
    - apply Nat.leb_le in E2. assert (Nat.leb (j - i) m = true) as -> by (apply Nat.leb_le; lia). reflexivity.
    - apply Nat.leb_gt in E2. rewrite (Hb i) by (try apply in_seq; lia). destruct (Nat.leb (j - i) m); reflexivity. }
  unfold unrotate. destruct (Nat.leb i j) eqn:E1.
  - apply Nat.leb_le in E1. apply Hup; auto.
  - apply Nat.leb_gt in E1. rewrite (Hsym i j Hi Hj). apply Hup; lia.
Qed.

Lemma mat2rot_last : forall p a l rot d, mat2rot p a = Ok (l, rot) -> (1 <= d)%nat -> rot (p - 1)%nat d = 0.
Proof.
  intros p a l rot d H Hd. unfold mat2rot in H.
  destruct (band_width p a (seq 0 p) 0) as [z|]; simpl in H; [|discriminate]. inversion H; subst l rot.
  assert (Nat.ltb (p - 1 + d) p = false) as -> by (apply Nat.ltb_ge; lia). rewrite andb_false_r. reflexivity.
Qed.

Lemma band_weight_last : forall p w d j, (d <= p)%nat -> (1 <= j)%nat -> band_weight (p - d) w d (p - 1)%nat j = 0.
Proof.
  intros p w d j Hd Hj. unfold band_weight. assert (Nat.ltb (p - 1) (p - d + d - j) = false) as ->.
  { apply Nat.ltb_ge. lia. }
  rewrite andb_false_r. reflexivity.
Qed.

(** Quadratic forms. *)
Lemma quad_ext : forall n a b v, (forall i j, (i < n)%nat -> (j < n)%nat -> a i j = b i j) -> quad n a v = quad n b v.
Proof.
  intros n a b v H. unfold quad, mul_mv. apply rsum_ext. intros i Hi. f_equal. apply rsum_ext. intros j Hj. rewrite H; auto.
Qed.

Lemma quad_plus : forall n a b v, quad n (fun i j => a i j + b i j) v = quad n a v + quad n b v.
Proof.
  intros. unfold quad, mul_mv. rewrite <- rsum_plus. apply rsum_ext. intros i Hi. rewrite <- Rmult_plus_distr_l. f_equal.
  rewrite <- rsum_plus. apply rsum_ext. intros. ring.
Qed.

Lemma quad_scal : forall n c a v, quad n (fun i j => c * a i j) v = c * quad n a v.
Proof.
  intros. unfold quad, mul_mv. rewrite <- rsum_scal. apply rsum_ext. intros i Hi.
  rewrite (rsum_ext n _ (fun j => c * (a i j * v j))) by (intros; ring). rewrite rsum_scal. ring.
Qed.

Lemma gram_quad : forall n p x v, quad p (gram n x) v =
  rsum n (fun r => rsum p (fun i => x r i * v i) * rsum p (fun i => x r i * v i)).
Proof.
  intros n p x v. unfold quad, mul_mv, gram.
  rewrite (rsum_ext p _ (fun i => rsum n (fun r => (x r i * v i) * rsum p (fun j => x r j * v j)))).
  - rewrite rsum_swap. apply rsum_ext. intros r Hr. rewrite rsum_scal_r. reflexivity.
  - intros i Hi. rewrite (rsum_ext p _ (fun j => rsum n (fun r => x r i * x r j * v j))).
    + rewrite rsum_swap. rewrite <- rsum_scal. apply rsum_ext. intros r Hr.
      rewrite <- !rsum_scal. apply rsum_ext. intros. ring.
    + intros j Hj. rewrite <- rsum_scal_r. reflexivity.
Qed.

Lemma diag_quad : forall p c v, quad p (fun i j => if Nat.eqb i j then c else 0) v = c * rsum p (fun i => v i * v i).
Proof.
  intros p c v. unfold quad, mul_mv. rewrite <- rsum_scal. apply rsum_ext. intros i Hi.
  rewrite (rsum_single p i) by (auto; intros j _ Hne; assert (Nat.eqb i j = false) as -> by (apply Nat.eqb_neq; auto); ring).
  rewrite Nat.eqb_refl. ring.
Qed.

(** The matrix of the penalised normal equations. *)
Definition normal_matrix (n p d : nat) (penalty : R) (w : vec) (x : mat) : mat :=
  fun i j => gram_ridge n x i j + penalty * unrotate d (band_weight (p - d) w d) i j.

Lemma gram_sym : forall n x i j, gram_ridge n x i j = gram_ridge n x j i.
Proof.
  intros. unfold gram_ridge, gram. rewrite Nat.eqb_sym. f_equal. apply rsum_ext. intros. ring.
Qed.

Lemma normal_sym : forall n p d penalty w x i j, normal_matrix n p d penalty w x i j = normal_matrix n p d penalty w x j i.
Proof. intros. unfold normal_matrix. rewrite gram_sym, unrotate_sym. reflexivity. Qed.

Lemma normal_quad : forall n p d penalty w x v, (d <= p)%nat ->
  quad p (normal_matrix n p d penalty w x) v =
  rsum n (fun r => rsum p (fun i => x r i * v i) * rsum p (fun i => x r i * v i)) +
  ridge0 * rsum p (fun i => v i * v i) +
  penalty * rsum (p - d) (fun k => w k * (difference d v k * difference d v k)).
Proof.
  intros n p d penalty w x v Hd. unfold normal_matrix.
  rewrite (quad_plus p (gram_ridge n x)). rewrite quad_scal. rewrite band_weight_quad by auto.
  unfold gram_ridge. rewrite (quad_plus p (gram n x)). rewrite gram_quad, diag_quad. reflexivity.
Qed.

Lemma ridge0_pos : 0 < ridge0.
Proof. unfold ridge0. apply Rinv_0_lt_compat. lra. Qed.

Lemma normal_pd : forall n p d penalty w x, (d <= p)%nat -> 0 <= penalty -> (forall k, (k < p - d)%nat -> 0 <= w k) ->
  positive_definite p (normal_matrix n p d penalty w x).
Proof.
  intros n p d penalty w x Hd Hp Hw v [i [Hi Hv]]. rewrite normal_quad by auto.
  assert (H1 : 0 <= rsum n (fun r => rsum p (fun i => x r i * v i) * rsum p (fun i => x r i * v i))).
  { apply rsum_nonneg. intros. apply Rle_0_sqr. }
  assert (H2 : 0 < rsum p (fun i => v i * v i)).
  { apply rsum_pos with (k := i); auto. intros. apply Rle_0_sqr. apply Rsqr_pos_lt. auto. }
  assert (H3 : 0 <= rsum (p - d) (fun k => w k * (difference d v k * difference d v k))).
  { apply rsum_nonneg. intros k Hk. apply Rmult_le_pos; [auto|apply Rle_0_sqr]. }
  pose proof ridge0_pos. nra.
Qed.

Lemma pd_ext : forall n a b, (forall i j, (i < n)%nat -> (j < n)%nat -> a i j = b i j) ->
  positive_definite n a -> positive_definite n b.
Proof. intros n a b H Hpd v Hv. rewrite <- (quad_ext n a b v H). auto. Qed.

Lemma solves_ext : forall n a b x y, (forall i j, (i < n)%nat -> (j < n)%nat -> a i j = b i j) ->
  solves n a x y -> solves n b x y.
Proof.
  intros n a b x y H Hs i Hi. rewrite <- (Hs i Hi). unfold mul_mv. apply rsum_ext. intros j Hj. rewrite H; auto.
Qed.

(** The linear solve inside one Newton step. *)
Lemma hessian_solution : forall n p l rot x y d penalty w, (d <= p)%nat -> (1 <= d)%nat -> l = (d - 1)%nat ->
  mat2rot p (gram_ridge n x) = Ok (l, rot) -> 0 <= penalty -> (forall k, (k < p - d)%nat -> 0 <= w k) ->
  exists sol, bandsolve p (l + 2) (fun r c => rot r c + penalty * band_weight (p - d) w d r c) p (moment n x y) = Ok sol /\
    solves p (normal_matrix n p d penalty w x) sol (moment n x y).
Proof.
  intros n p l rot x y d penalty w Hd Hd1 Hl Hrot Hpen Hw.
  set (h := fun r c => rot r c + penalty * band_weight (p - d) w d r c).
  assert (Hlast : forall j, (1 <= j)%nat -> h (p - 1)%nat j = 0).
  { intros j Hj. unfold h. rewrite (mat2rot_last _ _ _ _ _ Hrot Hj), band_weight_last by auto. ring. }
  exists (bandsolve_kernel p (l + 2 - 1) h (moment n x y)). split.
  - unfold bandsolve. rewrite !raise_if_ok. split; [|split; [|split; auto]].
    + apply andb_false_iff. right. apply negb_false_iff, Reqb_true. apply Hlast. lia.
    + apply negb_false_iff, Reqb_true. apply Hlast. lia.
    + apply negb_false_iff, Nat.eqb_refl.
  - assert (Hu : forall i j, (i < p)%nat -> (j < p)%nat -> unrotate (l + 2 - 1) h i j = normal_matrix n p d penalty w x i j).
    { intros i j Hi Hj. unfold normal_matrix.
      rewrite <- (mat2rot_spec p (gram_ridge n x) l rot (fun i j _ _ => gram_sym n x i j) Hrot (l + 2 - 1)%nat i j) by (auto; lia).
      replace (l + 2 - 1)%nat with d by lia.
      unfold unrotate, h. destruct (Nat.leb i j); [destruct (Nat.leb (j - i) d)|destruct (Nat.leb (i - j) d)]; ring. }
    apply (solves_ext p (unrotate (l + 2 - 1) h)); auto. apply kernel_solves.
    intros i Hi. apply Rgt_not_eq. apply pivots_positive; auto.
    apply (pd_ext p (normal_matrix n p d penalty w x)).
    + intros. symmetry. auto.
    + apply normal_pd; auto.
Qed.

(** Minimality of the solution of the normal equations. *)
Lemma moment_dot : forall n p x y v, rsum p (fun i => v i * moment n x y i) = rsum n (fun r => y r * rsum p (fun i => x r i * v i)).
Proof.
  intros. unfold moment. rewrite (rsum_ext p _ (fun i => rsum n (fun r => y r * (x r i * v i)))).
  - rewrite rsum_swap. apply rsum_ext. intros. rewrite rsum_scal. reflexivity.
  - intros i Hi. rewrite <- rsum_scal. apply rsum_ext. intros. ring.
Qed.

Lemma objective_quad : forall n p d penalty w x y v, (d <= p)%nat ->
  ridge_objective n p d ridge0 penalty w x y v =
  rsum n (fun r => y r * y r) - 2 * rsum p (fun i => v i * moment n x y i) + quad p (normal_matrix n p d penalty w x) v.
Proof.
  intros n p d penalty w x y v Hd. rewrite normal_quad by auto. rewrite moment_dot. unfold ridge_objective.
  set (q := fun r => rsum p (fun i => x r i * v i)).
  rewrite (rsum_ext n (fun r => (y r - rsum p (fun i => x r i * v i)) * (y r - rsum p (fun i => x r i * v i)))
             (fun r => (y r * y r - 2 * (y r * q r)) + q r * q r)) by (intros; unfold q; ring).
  rewrite rsum_plus, rsum_minus, rsum_scal. unfold q. ring.
Qed.

Lemma quad_cross : forall p a x v, (forall i j, a i j = a j i) ->
  quad p a (fun i => v i - x i) = quad p a v - 2 * rsum p (fun i => v i * mul_mv p a x i) + quad p a x.
Proof.
  intros p a x v Hsym. unfold quad.
  assert (Hm : forall i, mul_mv p a (fun i => v i - x i) i = mul_mv p a v i - mul_mv p a x i).
  { intros i. unfold mul_mv. rewrite <- rsum_minus. apply rsum_ext. intros. ring. }
  assert (Hs : rsum p (fun i => x i * mul_mv p a v i) = rsum p (fun i => v i * mul_mv p a x i)).
  { unfold mul_mv. rewrite (rsum_ext p _ (fun i => rsum p (fun j => x i * (a i j * v j)))) by (intros; rewrite <- rsum_scal; reflexivity).
    rewrite rsum_swap. apply rsum_ext. intros j Hj. rewrite <- rsum_scal. apply rsum_ext. intros i Hi. rewrite (Hsym i j). ring. }
  rewrite (rsum_ext p _ (fun i => ((v i * mul_mv p a v i - v i * mul_mv p a x i) - x i * mul_mv p a v i) + x i * mul_mv p a x i))
    by (intros; rewrite Hm; ring).
  rewrite rsum_plus, !rsum_minus, Hs. ring.
Qed.

Lemma vec_eq_or_ne : forall p (v u : vec), (forall i, (i < p)%nat -> v i = u i) \/ (exists i, (i < p)%nat /\ v i <> u i).
Proof.
  induction p as [|p IH]; intros v u; [left; intros; lia|].
  destruct (IH v u) as [H|[i [Hi H]]].
  - destruct (Req_dec (v p) (u p)) as [E|E].
    + left. intros i Hi. destruct (Nat.eq_dec i p) as [->|]; auto. apply H. lia.
    + right. exists p. split; auto.
  - right. exists i. split; auto.
Qed.

Lemma solution_minimises : forall n p d penalty w x y sol v, (d <= p)%nat -> 0 <= penalty ->
  (forall k, (k < p - d)%nat -> 0 <= w k) ->
  solves p (normal_matrix n p d penalty w x) sol (moment n x y) ->
  ridge_objective n p d ridge0 penalty w x y sol <= ridge_objective n p d ridge0 penalty w x y v /\
  ((exists i, (i < p)%nat /\ v i <> sol i) ->
   ridge_objective n p d ridge0 penalty w x y sol < ridge_objective n p d ridge0 penalty w x y v).
Proof.
  intros n p d penalty w x y sol v Hd Hp Hw Hs. set (h := normal_matrix n p d penalty w x) in *.
  assert (E : ridge_objective n p d ridge0 penalty w x y v =
              ridge_objective n p d ridge0 penalty w x y sol + quad p h (fun i => v i - sol i)).
  { rewrite !objective_quad by auto. fold h. rewrite quad_cross by (intros; apply normal_sym).
    assert (E1 : rsum p (fun i => v i * mul_mv p h sol i) = rsum p (fun i => v i * moment n x y i)).
    { apply rsum_ext. intros i Hi. rewrite (Hs i Hi). reflexivity. }
    assert (E2 : quad p h sol = rsum p (fun i => sol i * moment n x y i)).
    { unfold quad. apply rsum_ext. intros i Hi. rewrite (Hs i Hi). reflexivity. }
    rewrite E1, E2. ring. }
  assert (Hpos : (exists i, (i < p)%nat /\ v i <> sol i) -> 0 < quad p h (fun i => v i - sol i)).
  { intros [i [Hi Hne]]. apply normal_pd; auto. exists i. split; auto. lra. }
  split.
  - destruct (vec_eq_or_ne p v sol) as [Heq|Hne].
    + assert (quad p h (fun i => v i - sol i) = 0); [|lra].
      unfold quad. apply rsum_zero. intros i Hi. rewrite Heq by auto. ring.
    + specialize (Hpos Hne). lra.
  - intros Hne. specialize (Hpos Hne). lra.
Qed.

(** The Newton loop. *)
Lemma rel_error_some : forall p par old, (exists i, (i < p)%nat /\ old i <> 0) -> exists e, rel_error p par old = Some e.
Proof.
  intros p par old [i [Hi Ho]]. unfold rel_error.
  destruct (filter (fun i => negb (Reqb (old i) 0)) (seq 0 p)) eqn:E; [|eauto].
  exfalso. assert (Hin : In i []); [|contradiction]. rewrite <- E. apply filter_In. split; [apply in_seq; lia|].
  apply negb_true_iff, Reqb_false. auto.
Qed.

Lemma rel_error_none : forall p par old, (forall i, (i < p)%nat -> old i = 0) -> rel_error p par old = None.
Proof.
  intros p par old H. unfold rel_error.
  destruct (filter (fun i => negb (Reqb (old i) 0)) (seq 0 p)) as [|j r] eqn:E; auto.
  exfalso. assert (Hin : In j (j :: r)) by (left; auto). rewrite <- E in Hin. apply filter_In in Hin. destruct Hin as [H1 H2].
  apply in_seq in H1. apply negb_true_iff, Reqb_false in H2. apply H2, H. lia.
Qed.

Lemma rel_error_const : forall p par old c e, (forall i, (i < p)%nat -> old i <> 0 -> Rabs (par i - old i) / Rabs (old i) = c) ->
  rel_error p par old = Some e -> e = c.
Proof.
  intros p par old c e H He. unfold rel_error in He.
  destruct (filter (fun i => negb (Reqb (old i) 0)) (seq 0 p)) as [|j r] eqn:E; [discriminate|].
  assert (Hall : forall i, In i (j :: r) -> Rabs (par i - old i) / Rabs (old i) = c).
  { intros i Hi. rewrite <- E in Hi. apply filter_In in Hi. destruct Hi as [H1 H2]. apply in_seq in H1.
    apply negb_true_iff, Reqb_false in H2. apply H; auto; lia. }
  clear E. injection He as <-. rewrite (Hall j) by (left; auto).
  induction r as [|q r IH]; simpl; auto. rewrite IH.
  - rewrite (Hall q) by (right; left; auto). apply Rmax_left. lra.
  - intros i [Hi|Hi]; apply Hall; [left; auto|right; right; auto].
Qed.

Lemma hessian_step_ok : forall p cols rot xy penalty w d old sol, cols = (d + 1)%nat ->
  bandsolve p cols (fun r c => rot r c + penalty * band_weight (p - d) w d r c) p xy = Ok sol ->
  hessian_step p cols rot xy penalty w d old = Ok (fun i => sol i - old i).
Proof.
  intros p cols rot xy penalty w d old sol Hc H. unfold hessian_step. rewrite Hc in *. rewrite Nat.eqb_refl. cbn [negb raise_if].
  rewrite H. reflexivity.
Qed.

Lemma Rltb_spec : forall x y, Rltb x y = true <-> x < y.
Proof. intros. unfold Rltb. destruct (Rlt_dec x y); split; intros; auto; congruence. Qed.

Lemma newton_done : forall p cols rot xy penalty w d sol tol fuel old last, cols = (d + 1)%nat ->
  bandsolve p cols (fun r c => rot r c + penalty * band_weight (p - d) w d r c) p xy = Ok sol ->
  0 < tol -> (exists i, (i < p)%nat /\ sol i <> 0) -> (exists i, (i < p)%nat /\ old i <> 0) -> (1 <= fuel)%nat ->
  exists par, newton fuel p cols rot xy penalty w d tol old last = Ok (Some par) /\ forall i, par i = sol i.
Proof.
  intros p cols rot xy penalty w d sol tol fuel old last Hc Hb Htol Hsol Hold Hf.
  destruct fuel as [|fuel]; [lia|]. cbn [newton]. rewrite (hessian_step_ok _ _ _ _ _ _ _ _ _ Hc Hb). cbn [rbind].
  set (par := fun i => old i + (sol i - old i)).
  assert (Hpar : forall i, par i = sol i) by (intros; unfold par; ring).
  destruct (rel_error_some p par old Hold) as [e He]. rewrite He.
  destruct (Rltb e tol); [exists par; auto|].
  destruct fuel as [|fuel]; [exists par; auto|]. cbn [newton].
  rewrite (hessian_step_ok _ _ _ _ _ _ _ _ _ Hc Hb). cbn [rbind].
  set (par2 := fun i => par i + (sol i - par i)).
  assert (Hpar2 : forall i, par2 i = sol i) by (intros; unfold par2; ring).
  assert (Hp0 : exists i, (i < p)%nat /\ par i <> 0).
  { destruct Hsol as [i [Hi H]]. exists i. split; auto. rewrite Hpar. auto. }
  destruct (rel_error_some p par2 par Hp0) as [e2 He2]. rewrite He2.
  assert (e2 = 0).
  { apply (rel_error_const p par2 par 0 e2); auto. intros i Hi _. rewrite Hpar, Hpar2. rewrite Rminus_diag_eq by auto.
    rewrite Rabs_R0. unfold Rdiv. ring. }
  subst e2. assert (Rltb 0 tol = true) as -> by (apply Rltb_spec; auto). exists par2. auto.
Qed.

Lemma newton_zero : forall p cols rot xy penalty w d sol tol fuel old last, cols = (d + 1)%nat ->
  bandsolve p cols (fun r c => rot r c + penalty * band_weight (p - d) w d r c) p xy = Ok sol ->
  tol <= 1 -> (forall i, (i < p)%nat -> sol i = 0) -> (2 <= fuel)%nat ->
  newton fuel p cols rot xy penalty w d tol old last = Err ValueError.
Proof.
  intros p cols rot xy penalty w d sol tol fuel old last Hc Hb Htol Hsol Hf.
  destruct fuel as [|[|fuel]]; [lia|lia|]. cbn [newton]. rewrite (hessian_step_ok _ _ _ _ _ _ _ _ _ Hc Hb). cbn [rbind].
  set (par := fun i => old i + (sol i - old i)).
  assert (Hpar : forall i, par i = sol i) by (intros; unfold par; ring).
  destruct (rel_error p par old) as [e|] eqn:He; auto.
  assert (e = 1).
  { apply (rel_error_const p par old 1 e); auto. intros i Hi Hne. rewrite Hpar, Hsol by auto.
    replace (0 - old i) with (- old i) by ring. rewrite Rabs_Ropp. field. apply Rabs_no_R0. auto. }
  subst e. assert (Rltb 1 tol = false) as ->.
  { destruct (Rltb 1 tol) eqn:E; auto. apply Rltb_spec in E. lra. }
  rewrite (hessian_step_ok _ _ _ _ _ _ _ _ _ Hc Hb). cbn [rbind].
  rewrite rel_error_none; auto. intros i Hi. rewrite Hpar. auto.
Qed.

Lemma mul_mv_zero : forall p a v i, (forall j, (j < p)%nat -> v j = 0) -> mul_mv p a v i = 0.
Proof. intros. unfold mul_mv. apply rsum_zero. intros j Hj. rewrite H by auto. ring. Qed.

Lemma mat2rot_total : forall n p x, exists l rot, mat2rot p (gram_ridge n x) = Ok (l, rot).
Proof.
  intros n p x. unfold mat2rot.
  assert (H : forall rows l0, (forall i, In i rows -> (i < p)%nat) -> exists l, band_width p (gram_ridge n x) rows l0 = Ok l).
  { induction rows as [|i rows IH]; intros l0 Hr; simpl; eauto.
    destruct (last_nonzero p (gram_ridge n x i)) as [j|] eqn:E.
    - apply IH. intros q Hq. apply Hr. right; auto.
    - exfalso. unfold last_nonzero in E.
      destruct (rev (filter (fun j => negb (Reqb (gram_ridge n x i j) 0)) (seq 0 p))) as [|q r] eqn:E2; [|discriminate].
      assert (Hin : In i (filter (fun j => negb (Reqb (gram_ridge n x i j) 0)) (seq 0 p))).
      { apply filter_In. split; [apply in_seq; specialize (Hr i (or_introl eq_refl)); lia|].
        apply negb_true_iff, Reqb_false. apply Rgt_not_eq. unfold gram_ridge, gram. rewrite Nat.eqb_refl.
        pose proof ridge0_pos. assert (0 <= rsum n (fun r => x r i * x r i)) by (apply rsum_nonneg; intros; apply Rle_0_sqr). lra. }
      apply in_rev in Hin. rewrite E2 in Hin. contradiction. }
  destruct (H (seq 0 p) 0%Z) as [l ->]; [intros i Hi; apply in_seq in Hi; lia|]. simpl. eauto.
Qed.
