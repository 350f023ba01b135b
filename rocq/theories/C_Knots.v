(** Properties C18 and C19: knot weights and knot configuration. *)
From Coq Require Import Reals ZArith String List Bool Arith Lia Lra.
From Verif Require Import Lib_Sum M_Base M_Spec M_Knots S_Knots P_Spec P_Knots.
Import ListNotations.

(** C18. The weights of each time period are one per knot, non-negative, sum to 1, non-zero for at
    most two neighbouring knots, and combine any knot values into the piecewise linear curve through
    the knots, constant before the first and after the last knot. *)
Theorem C18_partition_of_unity : forall n knots w t, l1_distance_weights n knots = Ok w -> (t < n)%nat ->
  exists col, nth_error w t = Some col /\ length col = length knots /\
    (forall x, In x col -> (0 <= x)%R) /\ lsum col = 1%R /\
    (exists i, forall j x, nth_error col j = Some x -> x <> 0%R -> j = i \/ j = S i) /\
    forall v, length v = length knots -> on_curve knots v (Z.of_nat t) (mu_t v w t).
Proof. exact l1_weights_lemma. Qed.
Print Assumptions C18_partition_of_unity.

(** C18. Weights are computed exactly for strictly increasing lists of at least two in-range knots;
    anything else is a ValueError. *)
Theorem C18_accepts : forall n knots,
  (strictly_increasing knots /\ (2 <= length knots)%nat /\ knots_in_range n knots <->
     exists w, l1_distance_weights n knots = Ok w /\ length w = n) /\
  (~ (strictly_increasing knots /\ (2 <= length knots)%nat /\ knots_in_range n knots) ->
     l1_distance_weights n knots = Err ValueError).
Proof.
  intros n knots. split; [split|].
  - intros [H1 [H2 H3]]. eexists. split.
    + apply l1_ok_iff. split; [apply ssorted_iff; auto|]. split; auto.
    + rewrite map_length, seq_length. auto.
  - intros [w [H _]]. apply l1_ok_iff in H. destruct H as [H1 [H2 [H3 _]]].
    split; [apply ssorted_iff; auto|]. auto.
  - intros H. destruct (l1_distance_weights n knots) as [w|e] eqn:E.
    + exfalso. apply H. apply l1_ok_iff in E. destruct E as [H1 [H2 [H3 _]]].
      split; [apply ssorted_iff; auto|]. auto.
    + apply l1_error in E. congruence.
Qed.
Print Assumptions C18_accepts.

Example C18_concrete : exists w, l1_distance_weights 5 [1; 3]%Z = Ok w /\
  mu_t [10; 20]%R w 0 = 10%R /\ mu_t [10; 20]%R w 2 = 15%R /\ mu_t [10; 20]%R w 4 = 20%R.
Proof.
  eexists. split; [reflexivity|]. unfold mu_t; simpl. repeat split; lra.
Qed.

(** C19. A valid knots option (an integer between 1 and the number of periods, below it for a
    national model; a list of distinct in-range knots; or none) yields a coherent configuration:
    an integer places that many knots at the equally spaced periods, a list places them at its
    elements, and the default is one knot for a national model and one per period otherwise. *)
Theorem C19_knot_configuration : forall n knots national, (1 <= n)%nat -> knots_valid n knots national ->
  (forall l, knots = KnList l -> NoDup l) ->
  exists info, get_knot_info n knots national = Ok info /\ info_good n info /\
    match knots with
    | KnInt k => n_knots info = Z.to_nat k /\ knot_locations info = equally_spaced n (Z.to_nat k)
    | KnList ((_ :: _) as l) => same_set (knot_locations info) l
    | _ => n_knots info = (if national then 1%nat else n) /\
           knot_locations info = equally_spaced n (if national then 1%nat else n)
    end.
Proof. exact get_knot_info_good. Qed.
Print Assumptions C19_knot_configuration.

(** C19. Equally spaced knots: k of them, distinct and increasing, the first at period 0, the last
    (when k >= 2) at the last period, the i-th at the floor of i (n - 1) / (k - 1). *)
Theorem C19_equally_spaced : forall n k, (1 <= k <= n)%nat ->
  strictly_increasing (equally_spaced n k) /\ length (equally_spaced n k) = k /\
  knots_in_range n (equally_spaced n k) /\
  nth_error (equally_spaced n k) 0 = Some 0%Z /\
  ((2 <= k)%nat -> nth_error (equally_spaced n k) (k - 1) = Some (Z.of_nat n - 1)%Z) /\
  (forall i, (2 <= k)%nat -> (i < k)%nat ->
     nth_error (equally_spaced n k) i = Some (Z.of_nat i * (Z.of_nat n - 1) / (Z.of_nat k - 1))%Z).
Proof.
  intros n k H. destruct (equally_spaced_spec n k H) as [A B]. split; [apply ssorted_iff; auto|exact B].
Qed.
Print Assumptions C19_equally_spaced.

(** C19. An invalid knots option is rejected with a ValueError. *)
Theorem C19_rejects : forall n knots national, ~ knots_valid n knots national ->
  get_knot_info n knots national = Err ValueError.
Proof. exact get_knot_info_rejects. Qed.
Print Assumptions C19_rejects.

(** C19. The default time effect of a geo model has one independent value per period. *)
Theorem C19_default_is_one_value_per_period : forall n t v, (t < n)%nat -> length v = n ->
  exists info, get_knot_info n KnNone false = Ok info /\ n_knots info = n /\
    nth_error v t = Some (mu_t v (knot_weights info) t).
Proof.
  intros n t v Ht Hv. destruct (get_knot_info_good n KnNone false) as [info [H1 [H2 [H3 H4]]]]; auto; try lia.
  - exact I.
  - discriminate.
  - exists info. split; auto. split; auto. destruct H2 as [_ [_ [_ [_ H2]]]].
    destruct (H2 t Ht) as [col [_ [_ [_ [_ H5]]]]]. rewrite H3 in H5. specialize (H5 v Hv).
    destruct (nth_error v t) as [x|] eqn:E; [|apply nth_error_None in E; lia].
    f_equal. symmetry. destruct H5 as [H5 _]. apply (H5 t (Z.of_nat t) x); auto. rewrite H4.
    destruct (equally_spaced_spec n n ltac:(lia)) as [_ [_ [_ [A [_ B]]]]].
    destruct (Nat.eq_dec n 1) as [->|Hn].
    + assert (t = 0%nat) by lia. subst t. rewrite A. auto.
    + rewrite B by lia. f_equal. apply Z.div_mul. lia.
Qed.
Print Assumptions C19_default_is_one_value_per_period.

(** C19. A single knot means a constant time effect. *)
Theorem C19_single_knot_is_constant : forall n national, (1 < n)%nat ->
  exists info, get_knot_info n (KnInt 1) national = Ok info /\
    forall a t, (t < n)%nat -> mu_t [a] (knot_weights info) t = a.
Proof.
  intros n national Hn. eexists. split.
  - unfold get_knot_info. assert (Z.ltb (Z.of_nat n) 1 = false) as -> by (apply Z.ltb_ge; lia).
    assert (national && Z.eqb 1 (Z.of_nat n) = false) as ->.
    { apply andb_false_iff. right. apply Z.eqb_neq. lia. }
    reflexivity.
  - intros a t Ht. cbn [knot_weights]. unfold mu_t.
    rewrite (nth_error_nth _ _ _ (nth_error_repeat _ [1%R] n t Ht)). simpl. ring.
Qed.
Print Assumptions C19_single_knot_is_constant.

(** C19. For lists with repeated knots the reported number of knots is wrong: it counts the
    repetitions while the locations and weights do not, whenever the list is accepted. *)
Theorem C19_duplicate_knots_miscounted : forall n l info national, ~ NoDup l ->
  get_knot_info n (KnList l) national = Ok info ->
  n_knots info = length l /\ (length (knot_locations info) < n_knots info)%nat.
Proof. exact duplicate_knots. Qed.
Print Assumptions C19_duplicate_knots_miscounted.

(** C19. Hence it is false that every valid list yields a coherent configuration: [0; 3; 3] is
    accepted with three knots and two weights per period. *)
Theorem C19_duplicate_knots_refuted :
  ~ (forall n knots national info, (1 <= n)%nat -> knots_valid n knots national ->
       get_knot_info n knots national = Ok info -> n_knots info = length (knot_locations info)).
Proof.
  intros H. specialize (H 5%nat (KnList [0; 3; 3]%Z) false).
  assert (Hv : knots_valid 5 (KnList [0; 3; 3]%Z) false) by (simpl; intros k Hk; intuition lia).
  specialize (H _ ltac:(lia) Hv eq_refl). discriminate H.
Qed.
Print Assumptions C19_duplicate_knots_refuted.

(** C19. And that every in-range list is accepted: [3; 3] is rejected. *)
Theorem C19_valid_list_accepted_refuted :
  ~ (forall n knots national, (1 <= n)%nat -> knots_valid n knots national ->
       exists info, get_knot_info n knots national = Ok info).
Proof.
  intros H. destruct (H 5%nat (KnList [3; 3]%Z) false) as [info Hi]; [lia| |discriminate Hi].
  simpl; intros k Hk; intuition lia.
Qed.
Print Assumptions C19_valid_list_accepted_refuted.

Example C19_concrete : knots_valid 10 (KnInt 4) true /\ knots_valid 10 (KnList [7; 0; 9]%Z) false /\
  equally_spaced 10 4 = [0; 3; 6; 9]%Z /\ get_knot_info 10 (KnInt 10) true = Err ValueError /\
  get_knot_info 10 (KnList [7; 10]%Z) false = Err ValueError.
Proof. split; [simpl; split; intros; lia|]. split; [simpl; intros k Hk; intuition lia|]. repeat split. Qed.
