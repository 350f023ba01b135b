(** Property C50: the regression routines behind automatic knot selection. *)
From Coq Require Import Reals ZArith String List Bool Arith Lia Lra.
From Verif Require Import Lib_Sum M_Base M_PriorDist M_Band S_Band P_Spec P_PriorDist P_Band P_Ridge.
Import ListNotations.
Open Scope R_scope.

(** C50. The band solver returns the one and only solution of every symmetric positive definite band
    system, of any size and band width. *)
Theorem C50_band_solver : forall n cols rot b x, positive_definite n (unrotate (cols - 1) rot) ->
  bandsolve n cols rot n b = Ok x ->
  solves n (unrotate (cols - 1) rot) x b /\
  forall y, solves n (unrotate (cols - 1) rot) y b -> forall i, (i < n)%nat -> y i = x i.
Proof.
  intros n cols rot b x Hpd H. rewrite (bandsolve_ok _ _ _ _ _ H).
  assert (Hs : solves n (unrotate (cols - 1) rot) (bandsolve_kernel n (cols - 1) rot b) b).
  { apply kernel_solves. intros i Hi. apply Rgt_not_eq. apply pivots_positive; auto. }
  split; auto. intros y Hy i Hi. eapply pd_unique; eauto.
Qed.
Print Assumptions C50_band_solver.

(** C50. The same holds for any symmetric band matrix whose elimination meets no zero pivot. *)
Theorem C50_band_solver_nonzero_pivots : forall n m rot b, (forall i, (i < n)%nat -> ldl n m rot i 0%nat <> 0) ->
  solves n (unrotate m rot) (bandsolve_kernel n m rot b) b.
Proof. exact kernel_solves. Qed.
Print Assumptions C50_band_solver_nonzero_pivots.

(** C50. The penalty matrix measures the weighted squared differences of the coefficients. *)
Theorem C50_penalty_is_differences : forall p w d v, (d <= p)%nat ->
  quad p (unrotate d (band_weight (p - d) w d)) v =
  rsum (p - d) (fun k => w k * (difference d v k * difference d v k)).
Proof. exact band_weight_quad. Qed.
Print Assumptions C50_penalty_is_differences.

(** C50. For every design matrix, response, non-negative penalty and weights, the regression returns
    the unique minimiser of the penalised least squares objective, whatever the starting point, as
    soon as X'y is not zero and X'X has band width [degree]. *)
Theorem C50_weighted_ridge_minimises : forall n p degree x y penalty w old iters tol rot,
  (degree + 1 <= p)%nat -> 0 <= penalty -> (forall k, (k < p - (degree + 1))%nat -> 0 <= w k) ->
  0 < tol -> (1 <= iters)%nat ->
  mat2rot p (gram_ridge n x) = Ok (degree, rot) ->
  (exists i, (i < p)%nat /\ old i <> 0) -> (exists i, (i < p)%nat /\ moment n x y i <> 0) ->
  exists par, weighted_ridge_solver p (degree + 2) rot (moment n x y) degree penalty w old iters tol = Ok (Some par) /\
    forall v, ridge_objective n p (degree + 1) ridge0 penalty w x y par <= ridge_objective n p (degree + 1) ridge0 penalty w x y v /\
      ((exists i, (i < p)%nat /\ v i <> par i) ->
       ridge_objective n p (degree + 1) ridge0 penalty w x y par < ridge_objective n p (degree + 1) ridge0 penalty w x y v).
Proof.
  intros n p degree x y penalty w old iters tol rot Hp Hpen Hw Htol Hit Hrot Hold Hxy.
  destruct (hessian_solution n p degree rot x y (degree + 1) penalty w Hp ltac:(lia) ltac:(lia) Hrot Hpen Hw) as [sol [Hb Hs]].
  assert (Hnz : exists i, (i < p)%nat /\ sol i <> 0).
  { destruct (vec_eq_or_ne p sol (fun _ => 0)) as [Hz|Hz]; auto. exfalso.
    destruct Hxy as [i [Hi Hne]]. apply Hne. rewrite <- (Hs i Hi). apply mul_mv_zero. auto. }
  destruct (newton_done p (degree + 2) rot (moment n x y) penalty w (degree + 1) sol tol iters old None ltac:(lia) Hb Htol Hnz Hold Hit)
    as [par [Hn Heq]].
  exists par. split; [exact Hn|].
  assert (Hs' : solves p (normal_matrix n p (degree + 1) penalty w x) par (moment n x y)).
  { intros i Hi. rewrite <- (Hs i Hi). unfold mul_mv. apply rsum_ext. intros j Hj. rewrite Heq. reflexivity. }
  intros v. apply solution_minimises; auto.
Qed.
Print Assumptions C50_weighted_ridge_minimises.

(** C50. The rotated form of the normal matrix always exists. *)
Theorem C50_rotation_total : forall n p x, exists l rot, mat2rot p (gram_ridge n x) = Ok (l, rot).
Proof. exact mat2rot_total. Qed.
Print Assumptions C50_rotation_total.

(** C50. It is false that the regression succeeds on every data set: when X'y = 0, for instance for a
    KPI that is constant over time in every geo, it stops with a ValueError instead of returning the
    zero coefficients. *)
Theorem C50_constant_kpi_fails : forall n p degree x y penalty w old iters tol rot,
  (degree + 1 <= p)%nat -> 0 <= penalty -> (forall k, (k < p - (degree + 1))%nat -> 0 <= w k) ->
  tol <= 1 -> (2 <= iters)%nat ->
  mat2rot p (gram_ridge n x) = Ok (degree, rot) ->
  (forall r, (r < n)%nat -> y r = 0) ->
  weighted_ridge_solver p (degree + 2) rot (moment n x y) degree penalty w old iters tol = Err ValueError.
Proof.
  intros n p degree x y penalty w old iters tol rot Hp Hpen Hw Htol Hit Hrot Hy.
  destruct (hessian_solution n p degree rot x y (degree + 1) penalty w Hp ltac:(lia) ltac:(lia) Hrot Hpen Hw) as [sol [Hb Hs]].
  apply (newton_zero p (degree + 2) rot (moment n x y) penalty w (degree + 1) sol); auto; [lia|].
  apply (pd_unique p (normal_matrix n p (degree + 1) penalty w x) (moment n x y) sol (fun _ => 0)); auto.
  - apply normal_pd; auto.
  - intros i Hi. rewrite mul_mv_zero by auto. unfold moment. symmetry. apply rsum_zero. intros r Hr. rewrite Hy by auto. ring.
Qed.
Print Assumptions C50_constant_kpi_fails.

Definition hat_design (r i : nat) : R :=
  match r, i with O, O => 1 | S O, O => 1 / 2 | S O, S O => 1 / 2 | S (S O), S O => 1 | _, _ => 0 end.

Lemma hat_rotation : exists rot, mat2rot 2 (gram_ridge 3 hat_design) = Ok (1%nat, rot).
Proof.
  assert (H01 : Reqb (gram_ridge 3 hat_design 0%nat 1%nat) 0 = false).
    { apply Reqb_false. unfold gram_ridge, gram. simpl. lra. }
    assert (H11 : Reqb (gram_ridge 3 hat_design 1%nat 1%nat) 0 = false).
    { apply Reqb_false. unfold gram_ridge, gram, ridge0. simpl. lra. }
    unfold mat2rot. cbn [seq band_width]. unfold last_nonzero. cbn [seq filter].
    rewrite H01, H11. cbn [negb].
    destruct (negb (Reqb (gram_ridge 3 hat_design 0%nat 0%nat) 0)); destruct (negb (Reqb (gram_ridge 3 hat_design 1%nat 0%nat) 0));
      cbn; eexists; reflexivity.
Qed.

Theorem C50_regression_total_refuted :
  ~ (forall n p degree x y penalty w old iters tol rot,
       (degree + 1 <= p)%nat -> 0 <= penalty -> (forall k, (k < p - (degree + 1))%nat -> 0 <= w k) ->
       0 < tol <= 1 -> (2 <= iters)%nat -> mat2rot p (gram_ridge n x) = Ok (degree, rot) ->
       (exists i, (i < p)%nat /\ old i <> 0) ->
       exists par, weighted_ridge_solver p (degree + 2) rot (moment n x y) degree penalty w old iters tol = Ok par).
Proof.
  intros H. destruct hat_rotation as [rot Hm].
  destruct (H 3%nat 2%nat 1%nat hat_design (fun _ => 0) 1 (fun _ => 1) (fun _ => 1) 1000%nat 1 rot) as [par Hp]; auto; try lia; try lra.
  - exists 0%nat. split; [lia|lra].
  - rewrite (C50_constant_kpi_fails 3 2 1 hat_design (fun _ => 0) 1 (fun _ => 1) (fun _ => 1) 1000 1 rot) in Hp; auto;
      try lia; try lra; try discriminate.
Qed.
Print Assumptions C50_regression_total_refuted.

(** A concrete band system: [[2; 1]; [1; 2]] x = [3; 3] has solution [1; 1]. *)
Example C50_concrete :
  let rot := fun r d : nat => match r, d with O, O => 2 | S O, O => 2 | O, S O => 1 | _, _ => 0 end in
  positive_definite 2 (unrotate 1 rot) /\
  exists x, bandsolve 2 2 rot 2 (fun _ => 3) = Ok x /\ x 0%nat = 1 /\ x 1%nat = 1.
Proof.
  intros rot. split.
  - intros v [i [Hi Hv]]. unfold quad, mul_mv, unrotate, rot. simpl.
    assert (v 0%nat <> 0 \/ v 1%nat <> 0) as [H|H].
    { destruct i as [|[|i]]; auto; lia. }
    + pose proof (Rsqr_pos_lt _ H) as H1. pose proof (Rle_0_sqr (v 1%nat)) as H2.
      pose proof (Rle_0_sqr (v 0%nat + v 1%nat)) as H3. unfold Rsqr in *. cbn. lra.
    + pose proof (Rsqr_pos_lt _ H) as H1. pose proof (Rle_0_sqr (v 0%nat)) as H2.
      pose proof (Rle_0_sqr (v 0%nat + v 1%nat)) as H3. unfold Rsqr in *. cbn. lra.
  - unfold bandsolve. assert (Reqb (rot 1%nat 1%nat) 0 = true) as E by (apply Reqb_true; reflexivity).
    cbn [Nat.sub Nat.eqb andb negb raise_if]. rewrite E. cbn [negb raise_if]. eexists. split; [reflexivity|].
    unfold bandsolve_kernel, backward, diagonal, forward, ldl, ldl_cell, for_range. cbn.
    unfold vupd, upd. cbn. split; field.
Qed.

(** The hypotheses of the minimisation theorem hold for a two-coefficient linear spline basis. *)
Example C50_ridge_concrete : exists rot, mat2rot 2 (gram_ridge 3 hat_design) = Ok (1%nat, rot) /\
  exists par, weighted_ridge_solver 2 3 rot (moment 3 hat_design (fun _ => 1)) 1 1 (fun _ => 1) (fun _ => 1) 1000 (1 / 100) = Ok (Some par).
Proof.
  destruct hat_rotation as [rot Hm]. exists rot. split; auto.
  destruct (C50_weighted_ridge_minimises 3 2 1 hat_design (fun _ => 1) 1 (fun _ => 1) (fun _ => 1) 1000 (1 / 100) rot) as [par [H _]]; auto; try lia; try lra.
  - exists 0%nat. split; [lia|lra].
  - exists 0%nat. split; [lia|]. unfold moment. simpl. lra.
  - exists par. exact H.
Qed.
