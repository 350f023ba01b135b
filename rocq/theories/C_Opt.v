(** Budget optimizer: C21-C28 and C52. *)
From Coq Require Import ZArith QArith Qround List Bool Arith Lia Lqa.
From Verif Require Import Lib_QSum M_Base M_Opt S_Opt P_Spec P_Opt P_OptSearch P_OptConcave P_OptGrid.
Import ListNotations.

(** ** C21: spend bounds *)

(** Valid constraints: bounds are multiples of the step 10^k, within half a step of (1 - lower) and
    (1 + upper) times the channel's spend rounded to the step, and enclose it. *)
Theorem C21_spend_bounds : forall n spend k lo hi, constraints_valid n lo hi -> (forall i, (i < n)%nat -> 0 <= spend i)%Q ->
  exists L U R, get_optimization_bounds n spend k lo hi = Ok (L, U) /\
    forall i, (i < n)%nat ->
      ((pow10 k | L i) /\ (pow10 k | U i) /\ (pow10 k | R i))%Z /\
      near k (R i) (spend i) /\
      near k (L i) ((1 - constraint_at lo i) * inject_Z (R i)) /\
      near k (U i) ((1 + constraint_at hi i) * inject_Z (R i)) /\
      (0 <= L i <= R i)%Z /\ (R i <= U i)%Z.
Proof. exact C21_lemma. Qed.
Print Assumptions C21_spend_bounds.

Theorem C21_bad_constraints_rejected : forall n spend k lo hi, ~ constraints_valid n lo hi ->
  get_optimization_bounds n spend k lo hi = Err ValueError.
Proof. exact bounds_err. Qed.
Print Assumptions C21_bad_constraints_rejected.

Example C21_nonvacuous : constraints_valid 2 (Scalar (3 # 10)) (PerChannel [1 # 2; 2]) /\
  match get_optimization_bounds 2 (fun i => if Nat.eqb i 0 then 1234 else 2500)%Q 1 (Scalar (3 # 10)) (PerChannel [1 # 2; 2]) with
  | Ok (L, U) => map L [0; 1]%nat = [860; 1750]%Z /\ map U [0; 1]%nat = [1840; 7500]%Z
  | Err _ => False
  end.
Proof. split; [|vm_compute; auto]. repeat split; simpl; auto; try lra. repeat constructor; lra. Qed.

(** The bound need not be within half a step of (1 + upper) times the exact spend: rounding is applied
    twice.  Spend 149, step 100, upper constraint 1: bound 200, exact bound 298. *)
Theorem C21_half_step_of_exact_bound_refuted : exists L U,
  get_optimization_bounds 1 (fun _ => 149%Q) 2 (Scalar 1) (Scalar 1) = Ok (L, U) /\ ~ near 2 (U 0%nat) ((1 + 1) * 149).
Proof.
  destruct (bounds_ok 1 (fun _ => 149%Q) 2 (Scalar 1) (Scalar 1)) as [L [U [E H]]].
  - repeat split; simpl; auto; lra.
  - exists L, U. split; auto. destruct (H 0%nat ltac:(lia)) as [_ ->]. intros [_ H2]. vm_compute in H2. apply H2. reflexivity.
Qed.
Print Assumptions C21_half_step_of_exact_bound_refuted.

(** ** C22: grid creation *)

(** Bounds a whole number [m c] of steps apart: the grid of channel [c] is exactly lower, lower + step,
    ..., upper, with the outcome evaluated at each of those spends, then NaN; no row is superfluous. *)
Theorem C22_grid_covers_bounds : forall n lower upper step m outcome, (0 < n)%nat -> (0 < step)%Z ->
  (forall c, (c < n)%nat -> upper c = (lower c + Z.of_nat (m c) * step)%Z) ->
  exists rows, (forall c, (c < n)%nat -> (m c < rows)%nat) /\ (exists c, (c < n)%nat /\ rows = S (m c)) /\
    create_grids n lower upper step outcome = Ok (uniform_grid n rows lower step m (fun c i => outcome c (lower c + Z.of_nat i * step)%Z)).
Proof. exact C22_lemma. Qed.
Print Assumptions C22_grid_covers_bounds.

(** The bounds computed from valid constraints always are such bounds. *)
Theorem C22_grid_for_constraints : forall n spend k lo hi outcome, (0 < n)%nat -> constraints_valid n lo hi -> (forall i, (i < n)%nat -> 0 <= spend i)%Q ->
  exists L U rows m, get_optimization_bounds n spend k lo hi = Ok (L, U) /\
    (forall c, (c < n)%nat -> U c = (L c + Z.of_nat (m c) * pow10 k)%Z /\ (m c < rows)%nat) /\
    create_grids n L U (pow10 k) outcome = Ok (uniform_grid n rows L (pow10 k) m (fun c i => outcome c (L c + Z.of_nat i * pow10 k)%Z)).
Proof.
  intros n spend k lo hi outcome Hn Hv Hs. destruct (C21_lemma n spend k lo hi Hv Hs) as [L [U [R [E H]]]].
  pose proof (pow10_pos k) as Hp.
  assert (Hm : forall c, (c < n)%nat -> U c = (L c + Z.of_nat (Z.to_nat ((U c - L c) / pow10 k)) * pow10 k)%Z).
  { intros c Hc. destruct (H c Hc) as [[[a Ha] [[b Hb] _]] [_ [_ [_ [H1 H2]]]]]. rewrite Ha, Hb in *.
    replace (b * pow10 k - a * pow10 k)%Z with ((b - a) * pow10 k)%Z by lia. rewrite Z.div_mul by lia. rewrite Z2Nat.id by nia. lia. }
  destruct (C22_lemma n L U (pow10 k) (fun c => Z.to_nat ((U c - L c) / pow10 k)) outcome Hn Hp Hm) as [rows [A [_ B]]].
  exists L, U, rows, (fun c => Z.to_nat ((U c - L c) / pow10 k)). split; auto.
Qed.
Print Assumptions C22_grid_for_constraints.

Example C22_nonvacuous : exists rows m, 
  create_grids 2 (fun c => if Nat.eqb c 0 then 10 else 40)%Z (fun c => if Nat.eqb c 0 then 30 else 50)%Z 10 (fun c v => inject_Z v)
  = Ok (uniform_grid 2 rows (fun c => if Nat.eqb c 0 then 10 else 40)%Z 10 m (fun c i => inject_Z ((if Nat.eqb c 0 then 10 else 40) + Z.of_nat i * 10))).
Proof. exists 3%nat, (fun c => if Nat.eqb c 0 then 2%nat else 1%nat). reflexivity. Qed.

(** ** C23: fixed budget *)

(** Whatever the outcomes, the result is one grid row per channel; its total does not exceed the budget
    unless it consists of the lower bounds; and the search only stops when nothing can be raised or
    when a raise would exceed the budget. *)
Theorem C23_within_bounds_and_budget : forall g b s, well_formed g -> grid_search g (FixedBudget b) = Ok s ->
  exists y, feasible g y /\ (forall c, (c < length g)%nat -> s c = spend_at g y c) /\
    ((forall c, y c = 0%nat) \/ (total_spend g y <= b)%Z) /\
    ((forall c r, ~ can_move g y c r) \/ exists c r, can_move g y c r /\ (b < total_spend g (moved y c r))%Z).
Proof. exact C23_lemma. Qed.
Print Assumptions C23_within_bounds_and_budget.

Definition ex_grid : grid :=
  [[Some (10%Z, 5%Q); Some (20%Z, 9%Q); Some (30%Z, 11%Q)]; [Some (40%Z, 8%Q); Some (50%Z, 14%Q); None]].
Lemma ex_grid_uniform : ex_grid = uniform_grid 2 3 (fun c => if Nat.eqb c 0 then 10 else 40)%Z 10
  (fun c => if Nat.eqb c 0 then 2 else 1)%nat (fun c i => if Nat.eqb c 0 then nth i [5; 9; 11] 0 else nth i [8; 14] 0)%Q.
Proof. reflexivity. Qed.
Lemma ex_grid_wf : well_formed ex_grid.
Proof. rewrite ex_grid_uniform. apply u_well_formed; try lia. intros [|[|c]] Hc; simpl; lia. Qed.
Example C23_nonvacuous : well_formed ex_grid /\
  match grid_search ex_grid (FixedBudget 70) with Ok s => map s [0; 1]%nat = [20; 50]%Z | Err _ => False end.
Proof. split; [exact ex_grid_wf|vm_compute; auto]. Qed.

(** ** C24: optimality *)

(** Equal steps and concave curves: no allocation on the grid with the same total, and for
    nondecreasing curves none within the budget, has an outcome larger by more than 1e-8 per unit of
    spend moved; when step returns are multiples of 1e-8 none is larger at all. *)
Theorem C24_concave_optimal : forall n rows lower step m f b s, (0 < n)%nat -> (0 < step)%Z -> (forall c, (c < n)%nat -> (m c < rows)%nat) ->
  (forall c, (c < n)%nat -> concave (m c) (f c)) ->
  grid_search (uniform_grid n rows lower step m f) (FixedBudget b) = Ok s ->
  exists y, (forall c, (c < n)%nat -> (y c <= m c)%nat /\ s c = (lower c + Z.of_nat (y c) * step)%Z) /\
    forall z, (forall c, (c < n)%nat -> (z c <= m c)%nat) ->
      (nsum n z = nsum n y \/
       (zsum n (fun c => lower c + Z.of_nat (z c) * step)%Z <= b)%Z /\ (forall c, (c < n)%nat -> nondecreasing (m c) (f c))) ->
      (qsum n (fun c => f c (z c)) <= qsum n (fun c => f c (y c)) +
         ((half8 + half8) * inject_Z step) * inject_Z (Z.of_nat (nsum n (fun c => z c - y c)%nat)))%Q /\
      ((forall c i, (c < n)%nat -> (S i <= m c)%nat -> exact8 ((f c (S i) - f c i) / inject_Z step)) ->
       (qsum n (fun c => f c (z c)) <= qsum n (fun c => f c (y c)))%Q).
Proof. exact C24_lemma. Qed.
Print Assumptions C24_concave_optimal.

Example C24_nonvacuous : ex_grid = uniform_grid 2 3 (fun c => if Nat.eqb c 0 then 10 else 40)%Z 10
    (fun c => if Nat.eqb c 0 then 2 else 1)%nat (fun c i => if Nat.eqb c 0 then nth i [5; 9; 11] 0 else nth i [8; 14] 0)%Q /\
  concave 2 (fun i => nth i [5; 9; 11] 0)%Q /\ nondecreasing 2 (fun i => nth i [5; 9; 11] 0)%Q /\
  exact8 ((9 - 5) / inject_Z 10).
Proof.
  split; [reflexivity|]. split; [|split].
  - intros [|i] H; [simpl; lra|lia].
  - intros [|[|i]] H; simpl; try lra; lia.
  - exists 40000000%Z. reflexivity.
Qed.

(** Exact optimality fails because returns are rounded to eight decimals before they are compared:
    with step returns 1e-9 and 2e-9 the search raises the first channel. *)
Theorem C24_rounding_refuted : exists n rows lower step m f b s z,
  (forall c, (c < n)%nat -> concave (m c) (f c) /\ nondecreasing (m c) (f c) /\ (z c <= m c)%nat) /\
  grid_search (uniform_grid n rows lower step m f) (FixedBudget b) = Ok s /\
  (zsum n (fun c => lower c + Z.of_nat (z c) * step) = zsum n s)%Z /\
  forall y, (forall c, (c < n)%nat -> (y c <= m c)%nat /\ s c = (lower c + Z.of_nat (y c) * step)%Z) ->
    (qsum n (fun c => f c (y c)) < qsum n (fun c => f c (z c)))%Q.
Proof.
  exists 2%nat, 2%nat, (fun _ => 0%Z), 1%Z, (fun _ => 1%nat),
    (fun c i => match i with O => 0 | _ => if Nat.eqb c 0 then 1 # 1000000000 else 2 # 1000000000 end)%Q, 1%Z.
  eexists. exists (fun c => c). split; [|split; [vm_compute; reflexivity|split; [reflexivity|]]].
  - intros c Hc. cbv beta. split; [intros i Hi; lia|]. split; [|lia]. intros [|i] Hi; [|lia]. destruct c as [|[|c]]; [simpl; lra|simpl; lra|lia].
  - intros y Hy. destruct (Hy 0%nat ltac:(lia)) as [B0 H0]. destruct (Hy 1%nat ltac:(lia)) as [B1 H1]. cbv beta in B0, B1.
    assert (E0 : y 0%nat = 1%nat) by (destruct (y 0%nat) as [|[|]]; [discriminate H0|auto|lia]).
    assert (E1 : y 1%nat = 0%nat) by (destruct (y 1%nat) as [|[|]]; [auto|discriminate H1|lia]).
    cbn [qsum]. rewrite E0, E1. reflexivity.
Qed.
Print Assumptions C24_rounding_refuted.

(** Without nondecreasing curves the search can return more spend and less outcome: a step that loses
    money is taken as long as the budget allows it. *)
Theorem C24_smaller_total_refuted : exists n rows lower step m f b s z,
  (forall c, (c < n)%nat -> concave (m c) (f c) /\ (z c <= m c)%nat) /\
  grid_search (uniform_grid n rows lower step m f) (FixedBudget b) = Ok s /\
  (zsum n (fun c => lower c + Z.of_nat (z c) * step) < zsum n s)%Z /\
  forall y, (forall c, (c < n)%nat -> (y c <= m c)%nat /\ s c = (lower c + Z.of_nat (y c) * step)%Z) ->
    (qsum n (fun c => f c (y c)) < qsum n (fun c => f c (z c)))%Q.
Proof.
  exists 1%nat, 2%nat, (fun _ => 10%Z), 10%Z, (fun _ => 1%nat), (fun c i => match i with O => 3 | _ => 2 end)%Q, 25%Z.
  eexists. exists (fun _ => 0%nat). split; [|split; [vm_compute; reflexivity|split; [reflexivity|]]].
  - intros c Hc. cbv beta. split; [intros i Hi; lia|lia].
  - intros y Hy. destruct (Hy 0%nat ltac:(lia)) as [B0 H0]. cbv beta in B0.
    assert (E0 : y 0%nat = 1%nat) by (destruct (y 0%nat) as [|[|]]; [discriminate H0|auto|lia]).
    cbn [qsum]. rewrite E0. reflexivity.
Qed.
Print Assumptions C24_smaller_total_refuted.

(** ** C25: flexible budget *)

(** Target mROI: every accepted raise returned at least the target up to half a unit in the eighth
    decimal, and at the end no further raise returns half such a unit more than the target. *)
Theorem C25_target_mroi : forall g t s, well_formed g -> grid_search g (TargetMROI t) = Ok s ->
  exists y, feasible g y /\ (forall c, (c < length g)%nat -> s c = spend_at g y c) /\
    reached g (fun x c r => t - half8 <= move_roi g x c r)%Q (fun _ => 0%nat) y /\
    (forall c r, can_move g y c r -> move_roi g y c r < t + half8)%Q.
Proof. exact C25_mroi_lemma. Qed.
Print Assumptions C25_target_mroi.

(** Target ROI: an accepted raise leaves the total ROI at the target or above, or returned at least the
    new total ROI (up to rounding); the search stops only where no raise is left or the best one would
    put the total ROI below the target while returning less than it. *)
Theorem C25_target_roi : forall g t s, well_formed g -> grid_search g (TargetROI t) = Ok s ->
  exists y, feasible g y /\ (forall c, (c < length g)%nat -> s c = spend_at g y c) /\
    reached g (fun x c r => total_spend g (moved x c r) = 0%Z \/ t <= roi_of g (moved x c r) \/
                 roi_of g (moved x c r) <= move_roi g x c r + half8)%Q (fun _ => 0%nat) y /\
    ((forall c r, ~ can_move g y c r) \/
     (exists c r, can_move g y c r /\ roi_of g (moved y c r) < t /\ move_roi g y c r < roi_of g (moved y c r) + half8 /\
        (forall c' r', can_move g y c' r' -> move_roi g y c' r' <= move_roi g y c r + half8 + half8)))%Q.
Proof. exact C25_roi_lemma. Qed.
Print Assumptions C25_target_roi.

(** Starting at or above the target, the result stays there (step returns multiples of 1e-8). *)
Theorem C25_target_roi_kept : forall g t s, well_formed g -> grid_search g (TargetROI t) = Ok s ->
  (forall x c r, feasible g x -> can_move g x c r -> exact8 (move_roi g x c r)) ->
  (0 < total_spend g (fun _ => 0%nat))%Z -> (t <= roi_of g (fun _ => 0%nat))%Q ->
  exists y, feasible g y /\ (forall c, (c < length g)%nat -> s c = spend_at g y c) /\ (t <= roi_of g y)%Q.
Proof. exact C25_roi_kept_lemma. Qed.
Print Assumptions C25_target_roi_kept.

Example C25_nonvacuous : well_formed ex_grid /\
  match grid_search ex_grid (TargetMROI (35 # 100)) with Ok s => map s [0; 1]%nat = [20; 50]%Z | Err _ => False end /\
  match grid_search ex_grid (TargetROI (32 # 100)) with Ok s => map s [0; 1]%nat = [20; 50]%Z | Err _ => False end.
Proof. split; [exact ex_grid_wf|]. split; vm_compute; auto. Qed.

Definition one_step (a b : Q) : grid := uniform_grid 1 2 (fun _ => 1%Z) 1 (fun _ => 1%nat) (fun _ i => match i with O => a | _ => b end).
Lemma one_step_wf : forall a b, well_formed (one_step a b).
Proof. intros. apply u_well_formed; try lia. Qed.
Example C25_kept_nonvacuous : (forall x c r, feasible (one_step 3 5) x -> can_move (one_step 3 5) x c r -> exact8 (move_roi (one_step 3 5) x c r)) /\
  (0 < total_spend (one_step 3 5) (fun _ => 0%nat))%Z /\ (2 <= roi_of (one_step 3 5) (fun _ => 0%nat))%Q /\
  match grid_search (one_step 3 5) (TargetROI 2) with Ok s => s 0%nat = 2%Z | Err _ => False end.
Proof.
  split; [|split; [reflexivity|split; [vm_compute; discriminate|reflexivity]]].
  intros x c r Hf Hm. apply u_can_move in Hm; try lia. destruct Hm as [Hc [Hx Hr]]. assert (c = 0%nat) by lia. assert (r = 1%nat) by lia. subst.
  assert (E : x 0%nat = 0%nat) by lia. unfold one_step. rewrite u_move_roi by (rewrite ?E; intros; lia). rewrite E. exists 200000000%Z. reflexivity.
Qed.

(** The exact target is missed through rounding: a step returning 1 - 4e-9 is taken for target 1. *)
Theorem C25_exact_target_mroi_refuted : exists g t s, well_formed g /\ grid_search g (TargetMROI t) = Ok s /\
  forall y, feasible g y -> (forall c, (c < length g)%nat -> s c = spend_at g y c) ->
    ~ reached g (fun x c r => t <= move_roi g x c r)%Q (fun _ => 0%nat) y.
Proof.
  exists (one_step 0 (999999996 # 1000000000)), 1%Q. eexists. split; [apply one_step_wf|]. split; [vm_compute; reflexivity|].
  intros y Hf Hy R. inversion R as [x E1 E2|x y' c r Hm Hok R' E1 E2]; subst.
  - specialize (Hy 0%nat ltac:(simpl; lia)). vm_compute in Hy. discriminate.
  - apply u_can_move in Hm; try lia. destruct Hm as [Hc [Hx Hr]]. assert (c = 0%nat) by lia. assert (r = 1%nat) by lia. subst.
    vm_compute in Hok. apply Hok. reflexivity.
Qed.
Print Assumptions C25_exact_target_mroi_refuted.

(** The total ROI after an accepted step can be below the target. *)
Theorem C25_total_roi_refuted : exists g t s, well_formed g /\ grid_search g (TargetROI t) = Ok s /\
  forall y, feasible g y -> (forall c, (c < length g)%nat -> s c = spend_at g y c) -> y 0%nat <> 0%nat /\ (roi_of g y < t)%Q.
Proof.
  exists (one_step (1 # 10) 1), 1%Q. eexists. split; [apply one_step_wf|]. split; [vm_compute; reflexivity|].
  intros y Hf Hy. specialize (Hy 0%nat ltac:(simpl; lia)). pose proof Hf as Hf'. unfold one_step in Hf'. rewrite u_feasible in Hf' by (intros; lia). specialize (Hf' 0%nat ltac:(lia)).
  assert (E : y 0%nat = 1%nat). { destruct (y 0%nat) as [|[|]] eqn:E; [|auto|lia]. unfold spend_at in Hy. rewrite E in Hy. vm_compute in Hy. discriminate. }
  split; [lia|]. unfold roi_of, total_outcome, total_spend, spend_at, outcome_at. simpl. rewrite E. reflexivity.
Qed.
Print Assumptions C25_total_roi_refuted.

(** ** C26: termination *)

(** Any grid (NaN cells included), any state, any scenario: more iterations allowed than there are grid
    cells is enough for the loop to end, and the result does not depend on how many are allowed. *)
Theorem C26_search_terminates : forall g sc spend outc roi, exists s,
  forall fuel, (n_rows g * length g < fuel)%nat -> search_loop fuel g sc spend outc roi = Some s.
Proof.
  intros g sc spend outc roi. pose proof (search_terminates g sc (S (n_rows g * length g)) spend outc roi ltac:(lia)) as H.
  destruct (search_loop (S (n_rows g * length g)) g sc spend outc roi) as [s|] eqn:E; [|contradiction]. exists s. intros fuel Hf.
  apply (search_fuel_irrelevant _ _ _ _ _ _ _ _ E). lia.
Qed.
Print Assumptions C26_search_terminates.
Theorem C26_search_total : forall g sc, (0 < n_rows g)%nat -> exists s, grid_search g sc = Ok s.
Proof. exact grid_search_total. Qed.
Print Assumptions C26_search_total.
Example C26_nonvacuous : (n_rows ex_grid * length ex_grid = 6)%nat.
Proof. reflexivity. Qed.

(** ** C27: trimming *)

(** For every channel the trimmed grid holds exactly the points within the new bounds, in order, with
    their outcomes; it is refused with ValueError when a bound is outside the grid of some channel, and
    with IndexError when a channel has no point within its bounds. *)
Theorem C27_trim_keeps_points_in_bounds : forall n rows ps lower upper, (0 < n)%nat -> (forall c, (c < n)%nat -> increasing (ps c) /\ (length (ps c) <= rows)%nat) ->
  let ks := fun c => kept (lower c) (upper c) (ps c) in
  ((exists c, (c < n)%nat /\ outside (lower c) (upper c) (ps c)) -> trim_grids (grid_of n rows ps) lower upper = Err ValueError) /\
  ((forall c, (c < n)%nat -> ~ outside (lower c) (upper c) (ps c)) -> (exists c, (c < n)%nat /\ ks c = []) -> trim_grids (grid_of n rows ps) lower upper = Err IndexError) /\
  ((forall c, (c < n)%nat -> ~ outside (lower c) (upper c) (ps c)) -> (forall c, (c < n)%nat -> ks c <> []) ->
    trim_grids (grid_of n rows ps) lower upper = Ok (grid_of n (longest n ks) ks)).
Proof. exact C27_lemma. Qed.
Print Assumptions C27_trim_keeps_points_in_bounds.
Example C27_nonvacuous :
  trim_grids ex_grid (fun c => if Nat.eqb c 0 then 15 else 40)%Z (fun c => if Nat.eqb c 0 then 30 else 45)%Z
  = Ok [[Some (20%Z, 9%Q); Some (30%Z, 11%Q)]; [Some (40%Z, 8%Q); None]] /\
  trim_grids ex_grid (fun c => if Nat.eqb c 0 then 21 else 40)%Z (fun c => if Nat.eqb c 0 then 29 else 45)%Z = Err IndexError /\
  trim_grids ex_grid (fun _ => 5%Z) (fun _ => 45%Z) = Err ValueError.
Proof. repeat split. Qed.

(** ** C28: rounding step *)

(** The rounding error is at most half a unit when gtol*budget < 1, and at most five times gtol*budget
    otherwise; the step is the smallest power of ten above gtol*budget. *)
Theorem C28_rounding_error : forall budget gtol, (gtol < 1)%Q -> (0 < budget)%Q ->
  exists k, get_round_factor budget gtol = Ok (- Z.of_nat k)%Z /\
    ((budget * gtol < 1)%Q -> k = 0%nat /\ (inject_Z (round_to k budget) - budget <= 1 # 2 /\ budget - inject_Z (round_to k budget) <= 1 # 2)%Q) /\
    ((1 <= budget * gtol)%Q -> (inject_Z (pow10 k) <= 10 * (budget * gtol) /\ budget * gtol < inject_Z (pow10 k))%Q /\
       (inject_Z (round_to k budget) - budget <= 5 * (budget * gtol) /\ budget - inject_Z (round_to k budget) <= 5 * (budget * gtol))%Q).
Proof.
  intros b g Hg Hb. destruct (round_factor_ok b g Hg Hb) as [k [E H]]. exists k. split; auto. destruct (round_to_error k b) as [A B]. split; intros Ht.
  - destruct H as [[_ ->]|[H _]]; [|lra]. split; [reflexivity|]. change (inject_Z (pow10 0)) with 1%Q in A, B. split; lra.
  - destruct H as [[H _]|[_ H]]; [lra|]. split; auto. split; lra.
Qed.
Print Assumptions C28_rounding_error.
Theorem C28_bad_arguments_rejected : forall budget gtol, (1 <= gtol)%Q \/ (budget <= 0)%Q -> get_round_factor budget gtol = Err ValueError.
Proof. exact round_factor_err. Qed.
Print Assumptions C28_bad_arguments_rejected.
(** The documented tolerance is not met: budget 149, gtol 0.1 rounds to 100, off by 49 > 14.9; and
    budget 10.4, gtol 0.01 rounds to 10, off by 0.4 > 0.104. *)
Theorem C28_tolerance_refuted : (exists k, get_round_factor 149 (1 # 10) = Ok (- Z.of_nat k)%Z /\ (149 * (1 # 10) < 149 - inject_Z (round_to k 149))%Q) /\
  (exists k, get_round_factor (104 # 10) (1 # 100) = Ok (- Z.of_nat k)%Z /\ ((104 # 10) * (1 # 100) < (104 # 10) - inject_Z (round_to k (104 # 10)))%Q).
Proof. split; [exists 2%nat|exists 0%nat]; split; reflexivity. Qed.
Print Assumptions C28_tolerance_refuted.

(** ** C52: optimization over a grid, end to end *)

(** On a grid with step 10^k, the optimized spend of every channel is a grid point within the
    constraints applied to its rounded share of the budget (up to half a step); with a fixed budget the
    optimized total does not exceed the total of the rounded shares. *)
Theorem C52_optimized_spend : forall n rows lower k m f gtol hist s pct lo hi opt rounded, (0 < n)%nat ->
  (forall c, (c < n)%nat -> (m c < rows)%nat /\ (pow10 k | lower c)%Z) ->
  (forall c, (c < n)%nat -> 0 <= hist c)%Q ->
  (match pct with Some l => Forall (fun x => 0 <= x)%Q l | None => True end) ->
  make_scenario s = Ok s ->
  optimize (uniform_grid n rows lower (pow10 k) m f) k gtol hist s pct lo hi = Ok (opt, rounded) ->
  exists share, is_share n hist pct share /\
    (forall c, (c < n)%nat ->
      (lower c <= opt c <= lower c + Z.of_nat (m c) * pow10 k)%Z /\ (pow10 k | opt c)%Z /\ (pow10 k | rounded c)%Z /\ near k (rounded c) (budget_of n hist s * share c) /\
      ((1 - constraint_at (or_default s lo) c) * inject_Z (rounded c) - inject_Z (pow10 k) * (1 # 2) <= inject_Z (opt c))%Q /\
      (inject_Z (opt c) <= (1 + constraint_at (or_default s hi) c) * inject_Z (rounded c) + inject_Z (pow10 k) * (1 # 2))%Q) /\
    (match s with Fixed _ => (zsum n opt <= zsum n rounded)%Z | _ => True end).
Proof. exact C52_lemma. Qed.
Print Assumptions C52_optimized_spend.

(** With historical shares, the total exceeds the requested budget by at most half a step per channel. *)
Theorem C52_budget_overrun_bounded : forall n rows lower k m f gtol hist s lo hi opt rounded, (0 < n)%nat ->
  (forall c, (c < n)%nat -> (m c < rows)%nat /\ (pow10 k | lower c)%Z) -> (forall c, (c < n)%nat -> 0 <= hist c)%Q -> make_scenario s = Ok s ->
  match s with Fixed _ => True | _ => False end ->
  optimize (uniform_grid n rows lower (pow10 k) m f) k gtol hist s None lo hi = Ok (opt, rounded) ->
  (inject_Z (zsum n opt) <= budget_of n hist s + inject_Z (Z.of_nat n) * (inject_Z (pow10 k) * (1 # 2)))%Q.
Proof. exact C52_overrun_lemma. Qed.
Print Assumptions C52_budget_overrun_bounded.

Definition ex_big : grid := uniform_grid 2 7 (fun c => if Nat.eqb c 0 then 700 else 1400)%Z 100 (fun c => if Nat.eqb c 0 then 6 else 6)%nat
  (fun c i => inject_Z (Z.of_nat i) * (if Nat.eqb c 0 then 2 else 1))%Q.
Example C52_nonvacuous :
  match optimize ex_big 2 (5 # 1000) (fun c => if Nat.eqb c 0 then 1000 else 2000)%Q (Fixed None) None (Some (Scalar (3 # 10))) (Some (PerChannel [3 # 10; 0])) with
  | Ok (opt, rounded) => map opt [0; 1]%nat = [1300; 1700]%Z /\ map rounded [0; 1]%nat = [1000; 2000]%Z
  | Err _ => False
  end.
Proof. vm_compute. auto. Qed.

(** The optimized total can exceed the requested budget: three channels at 600, budget 1800, gtol 0.1;
    every share is rounded to 1000 and the optimized total is 3000. *)
Theorem C52_within_requested_budget_refuted : exists n rows lower k m f gtol hist b opt rounded,
  get_round_factor b gtol = Ok (- Z.of_nat k)%Z /\ (b == qsum n hist)%Q /\
  optimize (uniform_grid n rows lower (pow10 k) m f) k gtol hist (Fixed (Some b)) None None None = Ok (opt, rounded) /\
  (b < inject_Z (zsum n opt))%Q.
Proof.
  exists 3%nat, 1%nat, (fun _ => 1000%Z), 3%nat, (fun _ => 0%nat), (fun _ _ => 1%Q), (1 # 10), (fun _ => 600%Q), 1800%Q.
  do 2 eexists. split; [reflexivity|]. split; [reflexivity|]. split; [vm_compute; reflexivity|]. reflexivity.
Qed.
Print Assumptions C52_within_requested_budget_refuted.

(** A requested total budget of zero is accepted and replaced by the historical total. *)
Theorem C52_zero_budget_refuted : exists n rows lower k m f gtol hist opt rounded,
  make_scenario (Fixed (Some 0%Q)) = Ok (Fixed (Some 0%Q)) /\
  optimize (uniform_grid n rows lower (pow10 k) m f) k gtol hist (Fixed (Some 0%Q)) None None None = Ok (opt, rounded) /\
  (0 < inject_Z (zsum n opt))%Q.
Proof.
  exists 1%nat, 7%nat, (fun _ => 70%Z), 1%nat, (fun _ => 6%nat), (fun _ i => inject_Z (Z.of_nat i)), (1 # 100), (fun _ => 100%Q).
  do 2 eexists. split; [reflexivity|]. split; [vm_compute; reflexivity|]. reflexivity.
Qed.
Print Assumptions C52_zero_budget_refuted.
