(** Property C59: the summaries of posterior draws. *)
From Coq Require Import Reals ZArith Lia Lra List Bool Arith Permutation Sorted.
From Verif Require Import Lib_Sum M_Base M_Transformers M_Stats S_Stats P_Stats.
Import ListNotations.
Local Open Scope R_scope.

(** ** C59: the interval of level [c] has the [(1-c)/2]- and [(1+c)/2]-quantiles of the draws as
    its ends; the median is the 1/2-quantile, the mean the average. *)
Theorem C59_summaries : forall c l s, central_tendency_and_ci c l = Ok s ->
  is_quantile l ((1 - c) / 2) (st_lo s) /\ is_quantile l ((1 + c) / 2) (st_hi s) /\
  is_quantile l (1 / 2) (st_median s) /\ INR (length l) * st_mean s = lsum l.
Proof.
  intros c l s H. pose proof (central_inv c l s H) as (Hc & Hl & E1 & E2 & E3 & E4).
  assert (N : INR (length l) <> 0) by (apply not_0_INR; destruct l; [congruence|discriminate]).
  refine (conj _ (conj _ (conj _ _))).
  - apply quantile_spec. rewrite quantile_runs by (auto; lra). rewrite E3. reflexivity.
  - apply quantile_spec. rewrite quantile_runs by (auto; lra). rewrite E4. reflexivity.
  - apply quantile_spec. rewrite quantile_runs by (auto; lra). rewrite E2. reflexivity.
  - rewrite E1. unfold mean. field. exact N.
Qed.
Print Assumptions C59_summaries.

Theorem C59_accepted : forall c l, (exists s, central_tendency_and_ci c l = Ok s) <-> -1 <= c <= 1 /\ l <> [].
Proof.
  intros c l. split; [intros [s H]; exact (level_refused c l s H)|]. intros [Hc Hl]. exact (central_runs c l Hl Hc).
Qed.
Print Assumptions C59_accepted.

(** The median lies in the interval, and everything lies between the extreme draws. *)
Theorem C59_median_inside : forall c l s, 0 <= c -> central_tendency_and_ci c l = Ok s ->
  st_lo s <= st_median s <= st_hi s.
Proof. exact interval_lemma. Qed.
Print Assumptions C59_median_inside.

Theorem C59_within_draws : forall c l s lo hi, central_tendency_and_ci c l = Ok s ->
  (forall v, In v l -> lo <= v <= hi) ->
  lo <= st_mean s <= hi /\ lo <= st_median s <= hi /\ lo <= st_lo s <= hi /\ lo <= st_hi s <= hi.
Proof. exact within_lemma. Qed.
Print Assumptions C59_within_draws.

(** A higher level gives a wider interval; level 1 gives the range of the draws. *)
Theorem C59_wider_with_level : forall c c' l s s', c <= c' -> central_tendency_and_ci c l = Ok s ->
  central_tendency_and_ci c' l = Ok s' ->
  st_lo s' <= st_lo s /\ st_hi s <= st_hi s' /\ st_mean s' = st_mean s /\ st_median s' = st_median s.
Proof. exact widening_lemma. Qed.
Print Assumptions C59_wider_with_level.

Theorem C59_level_one : forall l s, central_tendency_and_ci 1 l = Ok s ->
  In (st_lo s) l /\ In (st_hi s) l /\ forall v, In v l -> st_lo s <= v <= st_hi s.
Proof. exact level_one_lemma. Qed.
Print Assumptions C59_level_one.

(** The order of chains and draws does not matter. *)
Theorem C59_order_of_draws : forall c a b, Permutation a b ->
  central_tendency_and_ci c a = central_tendency_and_ci c b.
Proof. exact permutation_lemma. Qed.
Print Assumptions C59_order_of_draws.

(** A quantity that is larger in every draw has larger summaries. *)
Theorem C59_monotone : forall c a b s s', dominated a b -> central_tendency_and_ci c a = Ok s ->
  central_tendency_and_ci c b = Ok s' -> below s s'.
Proof. exact dominated_lemma. Qed.
Print Assumptions C59_monotone.

(** Changing units commutes with summarising. *)
Theorem C59_change_of_units : forall c u v l s, 0 < u -> central_tendency_and_ci c l = Ok s ->
  central_tendency_and_ci c (map (fun r => u * r + v) l)
  = Ok (mkStats (u * st_mean s + v) (u * st_median s + v) (u * st_lo s + v) (u * st_hi s + v)).
Proof. exact units_lemma. Qed.
Print Assumptions C59_change_of_units.

(** Refuted: the mean need not lie in the interval. *)
Lemma ex_sorted : sort_values [0; 0; 0; 0; 9] = [0; 0; 0; 0; 9].
Proof.
  cbn [sort_values fold_right insert_sorted].
  repeat (match goal with |- context [Rle_dec ?a ?b] => destruct (Rle_dec a b); [|lra] end; cbn [insert_sorted]).
  reflexivity.
Qed.
Theorem C59_mean_inside_refuted : exists l s, central_tendency_and_ci (1/2) l = Ok s /\ st_hi s < st_mean s.
Proof.
  exists [0; 0; 0; 0; 9]. destruct (central_runs (1/2) [0; 0; 0; 0; 9]) as (s & Hs); [discriminate|lra|].
  exists s. split; [exact Hs|]. apply central_inv in Hs. destruct Hs as (_ & _ & -> & _ & _ & ->).
  rewrite ex_sorted. unfold mean. cbn [length lsum Nat.sub].
  replace (INR 4 * ((1 + 1 / 2) / 2)) with (INR 3 + 0) by (cbn; lra).
  unfold interpolate. cbv zeta. rewrite int_part_INR by lra. rewrite Nat2Z.id, <- INR_IZR_INZ. cbn. lra.
Qed.
Print Assumptions C59_mean_inside_refuted.

(** Refuted: a level outside [0, 1] is not always refused: a negative one is accepted and
    gives an interval whose lower end is above its upper end. *)
Theorem C59_level_checked_refuted : exists c l s, c < 0 /\ central_tendency_and_ci c l = Ok s /\ st_hi s < st_lo s.
Proof.
  exists (-1), [0; 1], (mkStats (mean [0; 1]) (median [0; 1]) (interpolate (sort_values [0; 1]) (INR 1 * ((1 - -1) / 2)))
    (interpolate (sort_values [0; 1]) (INR 1 * ((1 + -1) / 2)))).
  split; [lra|]. split.
  - unfold central_tendency_and_ci. rewrite !quantile_runs by (try discriminate; lra). reflexivity.
  - cbn [st_lo st_hi].
    replace (INR 1 * ((1 - -1) / 2)) with (INR 1 + 0) by (cbn; lra).
    replace (INR 1 * ((1 + -1) / 2)) with (INR 0 + 0) by (cbn; lra).
    assert (E : sort_values [0; 1] = [0; 1]).
    { cbn [sort_values fold_right insert_sorted]. destruct (Rle_dec 0 1); [reflexivity|lra]. }
    rewrite E. unfold interpolate. cbv zeta. rewrite !int_part_INR by lra. rewrite !Nat2Z.id, <- !INR_IZR_INZ. cbn. lra.
Qed.
Print Assumptions C59_level_checked_refuted.

Example C59_example : exists s, central_tendency_and_ci (9/10) [3; 1; 2] = Ok s /\ st_median s = 2 /\ st_mean s = 2.
Proof.
  destruct (central_runs (9/10) [3; 1; 2]) as (s & Hs); [discriminate|lra|]. exists s. split; [exact Hs|].
  apply central_inv in Hs. destruct Hs as (_ & _ & -> & -> & _ & _).
  assert (E : sort_values [3; 1; 2] = [1; 2; 3]).
  { cbn [sort_values fold_right insert_sorted].
    repeat (match goal with |- context [Rle_dec ?a ?b] => destruct (Rle_dec a b); [|lra] || (destruct (Rle_dec a b); [lra|]) end; cbn [insert_sorted]).
    reflexivity. }
  rewrite E. cbn [length Nat.sub]. replace (INR 2 * (1 / 2)) with (INR 1 + 0) by (cbn; lra).
  split.
  - unfold interpolate. cbv zeta. rewrite int_part_INR by lra. rewrite Nat2Z.id, <- INR_IZR_INZ. cbn. lra.
  - unfold mean. cbn. lra.
Qed.
