(** C76: the grid behind an optimization.  A request without a grid, or with a grid that was made for something else,
    is answered on a grid made for the request; a grid made for another budget or other constraints gives the same
    answer. *)
From Coq Require Import ZArith QArith String List Bool Arith Lia Lqa Permutation.
From Verif Require Import Lib_QSum M_Base M_Opt M_Optimizer S_Opt S_Optimizer P_Spec P_Opt P_OptSearch P_OptGrid P_Optimizer.
Import ListNotations.
Local Open Scope string_scope.
Local Open Scope list_scope.

Lemma pow10_step : forall k j, (k < j)%nat -> (10 * pow10 k <= pow10 j)%Z.
Proof.
  intros k j H. unfold pow10. replace (10 * 10 ^ Z.of_nat k)%Z with (10 ^ Z.of_nat (S k))%Z by (rewrite Nat2Z.inj_succ, Z.pow_succ_r by lia; reflexivity).
  apply Z.pow_le_mono_r; lia.
Qed.
Lemma step_unique : forall bud gtol k j, step_for bud gtol k -> step_for bud gtol j -> k = j.
Proof.
  intros bud gtol k j [[A ->]|[A [B C]]] [[D ->]|[D [E F]]]; auto; try (exfalso; lra).
  destruct (Nat.lt_trichotomy k j) as [H|[H|H]]; auto; exfalso; apply pow10_step in H; apply inject_le in H; rewrite inject_Z_mult in H; change (inject_Z 10) with 10%Q in H; lra.
Qed.

Section C.
Variables Data Frequency : Type.
Variable channels : list string.
Variable has_rf : bool.
Variables first_date last_date : Data -> Z.
Variable spend_of : Data -> option (list string) -> option Z -> option Z -> result (nat -> Q).
Variable frequency_of : Data -> bool -> option (list string) -> option Z -> option Z -> bool -> option Q -> result Frequency.
Variable outcome_of : Data -> bool -> bool -> option (list string) -> option Z -> option Z -> option Frequency -> nat -> Z -> Q.
Variable fitted : bool -> bool.
Notation n := (length channels).
Notation create := (M_Optimizer.create Data Frequency channels has_rf spend_of frequency_of outcome_of fitted).
Notation optimize := (M_Optimizer.optimize Data Frequency channels has_rf first_date last_date spend_of frequency_of outcome_of fitted).
Notation fits := (S_Optimizer.fits channels first_date last_date).
Notation spend a := (spend_of (a_data a) (a_geos a) (a_start a) (a_end a)).
Notation outcome a f := (outcome_of (a_data a) (a_posterior a) (a_kpi a) (a_geos a) (a_start a) (a_end a) f).
Implicit Types (a b : request Data) (g : ogrid Frequency).

(** Arguments that do not belong together are refused, with or without a grid. *)
Theorem C76_arguments : forall a o, ~ budget_arguments a -> optimize a o = Err ValueError.
Proof. exact (arguments_refused Data Frequency channels has_rf first_date last_date spend_of frequency_of outcome_of fitted). Qed.

(** Without a grid: the grid covers, in steps made for the requested budget, the constraints applied to the requested
    split of the requested budget; its outcomes are those of the requested data, distribution, period and geos; the
    optimized spend stays within the constraints and, for a fixed budget, within the budget after rounding. *)
Theorem C76_fresh : forall a o hist, channels <> [] -> optimize a None = Ok o ->
  spend a = Ok hist -> (forall c, (c < n)%nat -> 0 <= hist c)%Q ->
  (match a_pct a with Some l => Forall (fun x => 0 <= x)%Q l | None => True end) ->
  exists share k, is_share n hist (a_pct a) share /\ step_for (budget_for a (qsum n hist)) (a_gtol a) k /\
    (forall c, (c < n)%nat ->
      let bud := (budget_for a (qsum n hist) * share c)%Q in
      let low := ((1 - constraint_at (lower_of a) c) * inject_Z (o_non_optimized _ o c))%Q in
      let high := ((1 + constraint_at (upper_of a) c) * inject_Z (o_non_optimized _ o c))%Q in
      let half := (inject_Z (pow10 k) * (1 # 2))%Q in
      (pow10 k | o_optimized _ o c)%Z /\ (pow10 k | o_non_optimized _ o c)%Z /\ near k (o_non_optimized _ o c) bud /\
      (low - half <= inject_Z (o_optimized _ o c))%Q /\ (inject_Z (o_optimized _ o c) <= high + half)%Q /\
      (forall v, (pow10 k | v)%Z -> (low + half <= inject_Z v)%Q -> (inject_Z v <= high - half)%Q ->
        exists r, cell (g_cells (o_grid _ o)) c r = Some (v, outcome a (g_frequency (o_grid _ o)) c v)) /\
      (forall r v y, cell (g_cells (o_grid _ o)) c r = Some (v, y) -> (low - half <= inject_Z v)%Q /\ (inject_Z v <= high + half)%Q /\
        y = outcome a (g_frequency (o_grid _ o)) c v)) /\
    (a_fixed a = true -> (zsum n (o_optimized _ o) <= zsum n (o_non_optimized _ o))%Z) /\
    (match g_frequency (o_grid _ o) with
     | Some f => has_rf = true /\ a_optimal_frequency a = true /\ frequency_of (a_data a) (a_posterior a) (a_geos a) (a_start a) (a_end a) (a_kpi a) (a_max_frequency a) = Ok f
     | None => has_rf = false \/ a_optimal_frequency a = false end) /\
    budget_arguments a /\ fits a (o_grid _ o) /\ g_gtol (o_grid _ o) = a_gtol a.
Proof.
  intros a o hist Hn. apply fresh_lemma. destruct channels; [congruence|cbn; lia].
Qed.

(** A request that is in order is answered. *)
Theorem C76_answered : forall a hist, channels <> [] -> fitted (a_posterior a) = true -> a_geos a <> Some [] ->
  spend a = Ok hist -> (forall c, (c < n)%nat -> 0 <= hist c)%Q -> (0 < qsum n hist)%Q ->
  budget_arguments a -> usable_target a -> split_ok n a -> (a_gtol a < 1)%Q -> constraints_valid n (lower_of a) (upper_of a) ->
  (has_rf = true -> a_optimal_frequency a = true -> exists f, frequency_of (a_data a) (a_posterior a) (a_geos a) (a_start a) (a_end a) (a_kpi a) (a_max_frequency a) = Ok f) ->
  exists o, optimize a None = Ok o.
Proof. intros a hist Hn. apply succeeds_lemma. destruct channels; [congruence|cbn; lia]. Qed.

(** A grid made for another distribution, outcome, frequency choice, period, set of channels or geos is not used. *)
Theorem C76_mismatch : forall a g, ~ fits a g -> optimize a (Some g) = optimize a None.
Proof. exact (mismatch_rebuilt Data Frequency channels has_rf first_date last_date spend_of frequency_of outcome_of fitted). Qed.
Theorem C76_used : forall a g o, optimize a (Some g) = Ok o -> o_grid _ o = g /\ fits a g \/ optimize a None = Ok o.
Proof. exact (reused_or_rebuilt Data Frequency channels has_rf first_date last_date spend_of frequency_of outcome_of fitted). Qed.

(** All geos: a grid made for another budget, split or constraints, with the same step, gives the spend of a fresh grid. *)
Theorem C76_reuse : forall a b lo hi g hist o, channels <> [] -> alike a b -> a_geos a = None ->
  create b lo hi = Ok g ->
  spend a = Ok hist -> (forall c, (c < n)%nat -> 0 <= hist c)%Q ->
  (match a_pct a with Some l => Forall (fun x => 0 <= x)%Q l | None => True end) ->
  (match a_pct b with Some l => Forall (fun x => 0 <= x)%Q l | None => True end) ->
  (match a_budget b with Some x => 0 <= x | None => True end)%Q ->
  step_for (budget_for a (qsum n hist)) (a_gtol a) (g_round g) ->
  optimize a None = Ok o ->
  exists o', optimize a (Some g) = Ok o' /\ o_optimized _ o' = o_optimized _ o /\ o_non_optimized _ o' = o_non_optimized _ o.
Proof.
  intros a b lo hi g hist o Hn Hal Hgeo Hcb Hsp Hh Hp Hpb Hbb Hst H. assert (Hn' : (0 < n)%nat) by (destruct channels; [congruence|cbn; lia]).
  destruct (C76_fresh a o hist Hn H Hsp Hh Hp) as [_ [_ [_ [_ [_ [_ [_ [Hb _]]]]]]]].
  eapply reuse_lemma; try eassumption.
  - rewrite <- Hgeo. exact Hsp.
  - assert (H' := H). rewrite (optimize_unfold Data Frequency channels has_rf first_date last_date spend_of frequency_of outcome_of fitted a None Hb) in H'. apply rbind_ok in H'. destruct H' as [ga [Hc _]].
    destruct (create_inv Data Frequency channels has_rf spend_of frequency_of outcome_of fitted a _ _ ga hist Hn' Hc Hsp Hh Hp (budget_nonneg Data a Hb)) as [sh [k [L [U [rows [m [_ [E _]]]]]]]].
    rewrite (budget_for_or Data a _ Hb) in E by (apply qsum_nonneg; auto). assert (Hs : step_for (budget_for a (qsum n hist)) (a_gtol a) k) by (eapply step_of; eassumption). rewrite (step_unique _ _ _ _ Hst Hs). exact E.
Qed.
End C.
Print Assumptions C76_arguments.
Print Assumptions C76_fresh.
Print Assumptions C76_answered.
Print Assumptions C76_mismatch.
Print Assumptions C76_used.
Print Assumptions C76_reuse.

(** *** A concrete model: two channels, data sets 0 and 1, geos "a" and "b". *)
Definition ex_channels : list string := ["tv"; "radio"].
Definition ex_spend (d : nat) (geos : option (list string)) (s e : option Z) : result (nat -> Q) :=
  Ok (fun c => match geos with None => if Nat.eqb c 0 then 1000 else 2000 | Some _ => if Nat.eqb c 0 then 500 else 1000 end)%Q.
Definition ex_frequency (d : nat) (posterior : bool) (geos : option (list string)) (s e : option Z) (kpi : bool) (m : option Q) : result unit := Ok tt.
(** Data set 0 favours tv, data set 1 radio. *)
Definition ex_outcome (d : nat) (posterior kpi : bool) (geos : option (list string)) (s e : option Z) (f : option unit) (c : nat) (v : Z) : Q :=
  (inject_Z v * (if Nat.eqb c d then 2 else 1))%Q.
Definition ex_create := M_Optimizer.create nat unit ex_channels true ex_spend ex_frequency ex_outcome (fun _ => true).
Definition ex_optimize := M_Optimizer.optimize nat unit ex_channels true (fun _ => 0%Z) (fun _ => 99%Z) ex_spend ex_frequency ex_outcome (fun _ => true).
Definition ex_request (d : nat) (geos : option (list string)) (budget : option Q) (gtol : Q) : request nat :=
  mkRequest d true geos None None true budget None None None None None gtol true None false.
Definition ex_result (r : result (outcome unit)) : result (list Z * list Z) :=
  rbind r (fun o => Ok (map (o_optimized _ o) [0%nat; 1%nat], map (o_non_optimized _ o) [0%nat; 1%nat])).

(** A grid with wide constraints answers a narrow request as a fresh grid does. *)
Example C76_example :
  exists g, ex_create (ex_request 0 None None (1 # 100)) (Scalar (1 # 2)) (Scalar (1 # 2)) = Ok g /\
    step_for 2700 (1 # 100) (g_round g) /\
    budget_arguments (ex_request 0 None (Some 2700%Q) (1 # 100)) /\ alike (ex_request 0 None (Some 2700%Q) (1 # 100)) (ex_request 0 None None (1 # 100)) /\
    ex_result (ex_optimize (ex_request 0 None (Some 2700%Q) (1 # 100)) None) = Ok ([1200; 1500]%Z, [900; 1800]%Z) /\
    ex_result (ex_optimize (ex_request 0 None (Some 2700%Q) (1 # 100)) (Some g)) = Ok ([1200; 1500]%Z, [900; 1800]%Z) /\
    rbind (ex_optimize (ex_request 0 None (Some 2700%Q) (1 # 100)) (Some g)) (fun o => Ok (length (nth 0 (g_cells (o_grid _ o)) []))) = Ok (length (nth 0 (g_cells g) [])) /\
    length (nth 0 (g_cells g) []) = 21%nat.
Proof.
  eexists. split; [vm_compute; reflexivity|]. cbn [g_round g_cells]. split; [right; repeat split; vm_compute; congruence|].
  split; [repeat split; intros x [= <-]; reflexivity|]. split; [repeat split|]. repeat split; vm_compute; reflexivity.
Qed.

(** A grid made from other data is used without complaint, and the answer differs. *)
Theorem C76_other_data_refuted : exists g a, ex_create (ex_request 0 None None (1 # 100)) (Scalar (3 # 10)) (Scalar (3 # 10)) = Ok g /\
  a = ex_request 1 None None (1 # 100) /\
  ex_result (ex_optimize a None) = Ok ([700; 2300]%Z, [1000; 2000]%Z) /\ ex_result (ex_optimize a (Some g)) = Ok ([1300; 1700]%Z, [1000; 2000]%Z).
Proof. do 2 eexists. split; [vm_compute; reflexivity|]. split; [reflexivity|]. split; vm_compute; reflexivity. Qed.
Print Assumptions C76_other_data_refuted.

(** A coarser grid is used, and the answer differs. *)
Theorem C76_other_tolerance_refuted : exists g a, ex_create (ex_request 0 None None (2 # 10)) (Scalar (3 # 10)) (Scalar (3 # 10)) = Ok g /\
  a = ex_request 0 None None (1 # 100) /\
  ex_result (ex_optimize a None) = Ok ([1300; 1700]%Z, [1000; 2000]%Z) /\ ex_result (ex_optimize a (Some g)) = Ok ([1000; 2000]%Z, [1000; 2000]%Z).
Proof. do 2 eexists. split; [vm_compute; reflexivity|]. split; [reflexivity|]. split; vm_compute; reflexivity. Qed.
Print Assumptions C76_other_tolerance_refuted.

(** With selected geos the grid is checked against the spend of all geos: a request that is answered without a grid
    fails with a grid made for the same geos. *)
Theorem C76_geos_refuted : exists g a, ex_create (ex_request 0 (Some ["a"]) (Some 3000%Q) (1 # 100)) (Scalar (3 # 10)) (Scalar (3 # 10)) = Ok g /\
  a = ex_request 0 (Some ["a"]) None (1 # 100) /\
  ex_result (ex_optimize a None) = Ok ([600; 900]%Z, [500; 1000]%Z) /\ ex_optimize a (Some g) = Err ValueError.
Proof. do 2 eexists. split; [vm_compute; reflexivity|]. split; [reflexivity|]. split; vm_compute; reflexivity. Qed.
Print Assumptions C76_geos_refuted.

(** An empty selection of geos is refused without a grid and taken for all geos with one. *)
Theorem C76_no_geos_refuted : exists g a, ex_create (ex_request 0 None None (1 # 100)) (Scalar (3 # 10)) (Scalar (3 # 10)) = Ok g /\
  a = ex_request 0 (Some []) None (1 # 100) /\
  ex_optimize a None = Err ValueError /\ ex_result (ex_optimize a (Some g)) = Ok ([1300; 1700]%Z, [1000; 2000]%Z).
Proof. do 2 eexists. split; [vm_compute; reflexivity|]. split; [reflexivity|]. split; vm_compute; reflexivity. Qed.
Print Assumptions C76_no_geos_refuted.

(** A target ROI of zero passes the check of the arguments and then fails with TypeError. *)
Theorem C76_zero_target_refuted : exists a : request nat, budget_arguments a /\ a_target_roi a = Some 0%Q /\ ex_optimize a None = Err TypeError.
Proof.
  exists (mkRequest 0%nat true None None None false None None None None (Some 0%Q) None (1 # 100) true None false).
  split; [cbn; split; auto; left; split; eauto|]. split; [reflexivity|]. vm_compute. reflexivity.
Qed.
Print Assumptions C76_zero_target_refuted.
