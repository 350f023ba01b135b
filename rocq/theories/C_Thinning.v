(** C92: thinning the posterior, and restoring it. *)
From Coq Require Import Reals ZArith String Lia Lra List Bool Arith Sorted.
From Verif Require Import M_Base M_Thinning S_Thinning P_Thinning.
Import ListNotations.
Local Open Scope R_scope.

(** Exactly the admissible calls on a posterior which was not thinned are accepted. *)
Theorem C92_accepted : forall s t u p N C,
  s_posterior s = Some p -> ds_draws p = Some N -> ds_chains p = Some C -> (0 < N)%nat ->
  (exists r, posterior_thinning s t u = Done r) <->
  a_is_thinned (ds_attrs p) = false /\ t_method t = Systematic /\ exists n, number_asked N t n.
Proof. exact accepted_lemma. Qed.
Print Assumptions C92_accepted.

(** The thinned posterior has the chains of the full one, in each chain the number of draws asked
    for, evenly spread, and at each kept draw the values of all variables. *)
Theorem C92_thinned : forall s t u q s' p N,
  in_unit u -> s_posterior s = Some p -> ds_draws p = Some N -> (0 < N)%nat ->
  posterior_thinning s t u = Done (q, s') ->
  exists n, number_asked N t n /\ s_posterior s' = Some q /\
    ((n = N /\ q = p /\ s' = s) \/
     ((1 <= n < N)%nat /\
      (exists index, keeps p q n index /\ forall c, evenly_spread N n (u c) (index c)) /\
      a_is_thinned (ds_attrs q) = true /\ a_draw_count (ds_attrs q) = Some N /\ a_selected_count (ds_attrs q) = Some n /\
      a_chain_count (ds_attrs q) = ds_chains p /\ a_other (ds_attrs q) = a_other (ds_attrs p) /\
      (s_full s = None -> s_full s' = if t_preserve t then Some p else None))).
Proof. exact thinned_lemma. Qed.
Print Assumptions C92_thinned.

(** Neighbouring kept draws are the same distance apart, up to rounding. *)
Theorem C92_gaps : forall N n u k, (1 <= n < N)%nat -> 0 <= u < 1 -> (S k < n)%nat ->
  let l := systematic_draw_indices N n u in
  Rabs (INR (nth (S k) l 0%nat) - INR (nth k l 0%nat) - INR N / INR n) < 1.
Proof.
  intros N n u k Hn Hu Hk l. destruct (spread_lemma N n u Hn Hu) as (_ & _ & _ & P).
  pose proof (P k ltac:(lia)) as A. pose proof (P (S k) Hk) as B. fold l in A, B. rewrite S_INR in B.
  set (st := INR N / INR n) in *. set (a := INR (nth k l 0%nat)) in *. set (b := INR (nth (S k) l 0%nat)) in *.
  replace ((INR k + 1 + u) * st) with ((INR k + u) * st + st) in B by ring. apply Rabs_def1; lra.
Qed.
Print Assumptions C92_gaps.

(** Every draw has the same chance: of the numbers [k + u] in [0, n) an interval of length [n/N]
    selects it. *)
Theorem C92_equal_chance : forall N n j, (1 <= n < N)%nat -> (j < N)%nat ->
  exists lo hi, hi - lo = INR n / INR N /\ 0 <= lo /\ hi <= INR n /\
    forall k u, (k < n)%nat -> 0 <= u < 1 ->
      (nth k (systematic_draw_indices N n u) 0%nat = j <-> lo <= INR k + u < hi).
Proof.
  intros N n j Hn Hj. assert (Pn : 0 < INR n) by (apply lt_0_INR; lia). assert (PN : 0 < INR N) by (apply lt_0_INR; lia).
  assert (Pq : 0 < INR n / INR N) by (apply Rdiv_lt_0_compat; assumption).
  assert (J : INR j + 1 <= INR N) by (rewrite <- S_INR; apply le_INR; lia).
  exists (INR j * (INR n / INR N)), ((INR j + 1) * (INR n / INR N)).
  split; [ring|]. split; [apply Rmult_le_pos; [apply pos_INR|lra]|]. split.
  { replace (INR n) with (INR N * (INR n / INR N)) at 2 by (field; lra). apply Rmult_le_compat_r; lra. }
  intros k u Hk Hu. destruct (spread_lemma N n u Hn Hu) as (_ & _ & _ & P). specialize (P k Hk).
  set (i := nth k (systematic_draw_indices N n u) 0%nat) in *. clearbody i.
  set (x := INR k + u) in *. clearbody x.
  assert (Q : x = x * (INR N / INR n) * (INR n / INR N)) by (field; lra).
  set (y := x * (INR N / INR n)) in *. clearbody y.
  split.
  - intros ->. rewrite Q. split; [apply Rmult_le_compat_r; lra|apply Rmult_lt_compat_r; lra].
  - intros [A B]. rewrite Q in A, B. apply Rmult_le_reg_r in A; [|exact Pq]. apply Rmult_lt_reg_r in B; [|exact Pq].
    assert (L1 : INR i < INR (S j)) by (rewrite S_INR; lra). assert (L2 : INR j < INR (S i)) by (rewrite S_INR; lra).
    apply INR_lt in L1, L2. lia.
Qed.
Print Assumptions C92_equal_chance.

(** Even when the generator rounds up to the whole step, no draw is kept twice and none is out
    of range. *)
Theorem C92_rounding : forall N n u, (1 <= n < N)%nat -> 0 <= u <= 1 ->
  StronglySorted lt (systematic_draw_indices N n u) /\
  Forall (fun i => (i < N)%nat) (systematic_draw_indices N n u) /\
  length (systematic_draw_indices N n u) = n.
Proof. exact indices_sorted. Qed.
Print Assumptions C92_rounding.

(** In every history of thinning, restoring and reviewing a fit, the posterior is the fit or a
    thinned version of it (never thinned twice), and what can be restored is the fit. *)
Theorem C92_history : forall p N health l,
  ds_draws p = Some N -> (0 < N)%nat -> a_is_thinned (ds_attrs p) = false -> Forall no_sampling l ->
  let s := fold_left run l (mkState (Some p) None health) in
  (s_posterior s = Some p \/ exists q, s_posterior s = Some q /\ thinned_from p q) /\
  (forall r s', restore_full_posterior s = Done (r, s') -> r = p /\ s_posterior s' = Some p).
Proof.
  intros p N health l HN PN Ht F s.
  assert (I : inv p s) by (apply (history_lemma p N); auto; split; left; reflexivity).
  destruct I as [I1 I2]. split; [exact I1|]. intros r s' E. unfold restore_full_posterior in E.
  destruct I2 as [I2|I2]; rewrite I2 in E; [discriminate|]. injection E as <- <-. split; reflexivity.
Qed.
Print Assumptions C92_history.

(** Thinning with the original preserved, then restoring, gives the original back. *)
Theorem C92_restored : forall p N health t u q s',
  ds_draws p = Some N -> (0 < N)%nat -> in_unit u -> t_preserve t = true ->
  posterior_thinning (mkState (Some p) None health) t u = Done (q, s') -> q <> p ->
  restore_full_posterior s' = Done (p, mkState (Some p) None health).
Proof.
  intros p N health t u q s' HN PN Hu Hp E Hq.
  destruct (thin_inv _ t u q s' E) as (p0 & N0 & C & n & E1 & _ & _ & _ & _ & _ & _ & D).
  cbn [s_posterior s_full s_health] in *. injection E1 as <-. destruct D as [(_ & D & _)|(_ & _ & ->)]; [congruence|].
  rewrite Hp. reflexivity.
Qed.
Print Assumptions C92_restored.

(** After a new fit the old one is still what is restored: also when the new posterior was
    thinned with the original preserved. *)
Theorem C92_stale_refuted : forall p N p2 N2 C C2 health t t2 u u2 q s,
  ds_draws p = Some N -> (0 < N)%nat -> ds_chains p = Some C ->
  ds_draws p2 = Some N2 -> (0 < N2)%nat -> ds_chains p2 = Some C2 -> a_is_thinned (ds_attrs p2) = false ->
  t_preserve t = true -> t_preserve t2 = true -> t_method t2 = Systematic -> (exists n, number_asked N2 t2 n) ->
  posterior_thinning (mkState (Some p) None health) t u = Done (q, s) -> q <> p ->
  exists q2 s2 s3, posterior_thinning (sample_posterior s p2) t2 u2 = Done (q2, s2) /\
    restore_full_posterior s2 = Done (p, s3) /\ s_posterior s3 = Some p.
Proof.
  intros p N p2 N2 C C2 health t t2 u u2 q s HN PN HC HN2 PN2 HC2 Ht2 Hp Hp2 Hm2 Hn2 E Hq.
  destruct (thin_inv _ t u q s E) as (p0 & N0 & C0 & n & E1 & _ & _ & _ & _ & _ & _ & D).
  cbn [s_posterior s_full s_health] in *. injection E1 as <-. destruct D as [(_ & D & _)|(_ & _ & ->)]; [congruence|].
  rewrite Hp in *. cbn [sample_posterior s_full s_health].
  destruct (proj2 (C92_accepted (sample_posterior (mkState (Some q) (Some p) health) p2) t2 u2 p2 N2 C2 eq_refl HN2 HC2 PN2)
              (conj Ht2 (conj Hm2 Hn2))) as [[q2 s2] E2].
  unfold sample_posterior in E2. cbn [s_full s_health] in E2.
  destruct (thin_inv _ t2 u2 q2 s2 E2) as (p1 & N1 & C1 & n2 & _ & _ & _ & _ & _ & _ & _ & D2).
  exists q2, s2, (mkState (Some p) None health). split; [exact E2|].
  destruct D2 as [(_ & _ & ->)|(_ & _ & ->)]; (split; [reflexivity|reflexivity]).
Qed.
Print Assumptions C92_stale_refuted.

(** A rate of 1 with the original preserved: accepted, but there is nothing to restore. *)
Theorem C92_all_kept_refuted : forall p N C health t u,
  ds_draws p = Some N -> (0 < N)%nat -> ds_chains p = Some C -> a_is_thinned (ds_attrs p) = false ->
  t_rate t = Some 1 -> t_n_draws t = None -> t_method t = Systematic -> t_preserve t = true ->
  posterior_thinning (mkState (Some p) None health) t u = Done (p, mkState (Some p) None health) /\
  restore_full_posterior (mkState (Some p) None health) = Refused.
Proof.
  intros p N C health t u HN PN HC Ht Hr Hd Hm Hp. split; [|reflexivity].
  assert (A : number_asked N t N) by (unfold number_asked; rewrite Hr, Hd; lra).
  pose proof (proj2 (number_lemma N t N ltac:(apply xor_lemma; rewrite Hr, Hd; exact Logic.I)
     ltac:(rewrite Hr, Hd; exact Logic.I) PN) A) as En.
  unfold posterior_thinning. cbn [s_posterior]. rewrite Hr, Hd in *. cbn [Bool.eqb]. rewrite Hm, Ht, HC, HN, En, Nat.eqb_refl. reflexivity.
Qed.
Print Assumptions C92_all_kept_refuted.

(** The health summary is not about the posterior at hand after a new fit: it stays that of the
    fit reviewed. *)
Theorem C92_health_refuted : forall s p p2 s', s_posterior s = Some p -> review s = Done s' ->
  s_health s' = Some p /\ s_health (sample_posterior s' p2) = Some p /\ s_posterior (sample_posterior s' p2) = Some p2.
Proof.
  intros s p p2 s' Hp H. unfold review in H. rewrite Hp in H. injection H as <-. auto.
Qed.
Print Assumptions C92_health_refuted.

(** Two chains of ten draws, thinned to three, and a refit. *)
Definition ex_fit (v : R) : dataset :=
  mkDs (Some 2%nat) (Some 10%nat) (seq 0 10) (fun _ c k _ => v + INR (10 * c + k))
    (mkAttrs false None None None None None [("created_at", "today")]%string).
Definition ex_thin : thin_args := mkThin (Some (3 / 10)) None Systematic (Some (SInt 1)) true.
Example C92_example : exists q s,
  posterior_thinning (mkState (Some (ex_fit 0)) None None) ex_thin (fun _ => 1 / 2) = Done (q, s) /\ q <> ex_fit 0 /\
  ds_draws q = Some 3%nat /\ in_unit (fun _ => 1 / 2) /\ number_asked 10 ex_thin 3 /\
  (forall c rest, ds_val q "roi_m"%string c 1%nat rest = INR (10 * c + 5)) /\
  Forall no_sampling [CThin ex_thin (fun _ => 1 / 2); CReview; CRestore; CThin ex_thin (fun _ => 0)].
Proof.
  assert (A : number_asked 10 ex_thin 3) by (unfold number_asked; cbn; lra).
  assert (U : in_unit (fun _ => 1 / 2)) by (intros c; lra).
  destruct (proj2 (C92_accepted (mkState (Some (ex_fit 0)) None None) ex_thin (fun _ => 1 / 2) (ex_fit 0) 10 2 eq_refl eq_refl eq_refl ltac:(lia))
              (conj eq_refl (conj eq_refl (ex_intro _ 3%nat A)))) as [[q s] E].
  exists q, s. split; [exact E|].
  destruct (C92_thinned (mkState (Some (ex_fit 0)) None None) ex_thin (fun _ => 1 / 2) q s (ex_fit 0) 10 U eq_refl eq_refl ltac:(lia) E) as (n & Hn & _ & D).
  assert (n = 3%nat).
  { unfold number_asked in Hn, A. cbn [t_rate t_n_draws ex_thin] in Hn, A. destruct Hn as [_ Hn].
    assert (L1 : INR n < INR 4) by (cbn in *; lra). assert (L2 : INR 2 < INR n) by (cbn in *; lra). apply INR_lt in L1, L2. lia. }
  subst n. destruct D as [(D & _)|(_ & (index & (K1 & K2 & K3 & K4 & K5) & Sp) & Tq & _)]; [discriminate|].
  split; [intros ->; discriminate|]. split; [exact K2|]. split; [exact U|]. split; [exact A|]. split.
  - intros c rest. rewrite K5. cbn [ds_val ex_fit]. destruct (Sp c) as (_ & _ & _ & P). specialize (P 1%nat ltac:(lia)).
    set (i := nth 1 (index c) 0%nat) in *.
    assert (i = 5%nat) as ->.
    { assert (L1 : INR i < INR 6) by (cbn in *; lra). assert (L2 : INR 4 < INR i) by (cbn in *; lra). apply INR_lt in L1, L2. lia. }
    ring.
  - repeat constructor; cbn; intros; lra.
Qed.
