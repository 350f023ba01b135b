(** Property C41: weekly optimization grids. *)
From Coq Require Import ZArith QArith Qround List Bool Arith Lia Lqa Sorted Permutation.
From Verif Require Import Lib_QSum Lib_Sort M_Base M_Opt M_Time M_Weekly S_Opt S_Builder S_Weekly P_OptGrid P_Weekly P_WeeklyGrid P_WeeklyMult.
Import ListNotations.
Local Open Scope nat_scope.
Local Open Scope list_scope.

(** Two or more grids are accepted exactly if they have the same attributes and their weeks, put in
    some order, are consecutive weeks. *)
Theorem C41_accepted : forall T teq (tle : T -> T -> bool) parse gs,
  strict_order tle -> chronological tle parse -> 2 <= length gs ->
  ((exists g, combine_grids teq tle parse gs = Ok g) <->
   (forall a b, In a gs -> In b gs -> agree a b) /\
   exists ws z, Permutation ws (concat (map g_weeks gs)) /\ weeks_from parse z (map w_time ws)).
Proof. intros. apply accepted_lemma; assumption. Qed.
Print Assumptions C41_accepted.
(** Otherwise the call raises ValueError. *)
Theorem C41_rejected : forall T teq (tle : T -> T -> bool) parse gs e, combine_grids teq tle parse gs = Err e -> e = ValueError.
Proof. intros T teq tle parse gs e. exact (combine_err teq tle parse gs e). Qed.
Print Assumptions C41_rejected.
(** The result has every week of every grid once, in order, and the attributes of all of them. *)
Theorem C41_combined : forall T teq (tle : T -> T -> bool) parse gs g,
  strict_order tle -> 2 <= length gs -> combine_grids teq tle parse gs = Ok g ->
  Permutation (g_weeks g) (concat (map g_weeks gs)) /\ Forall (fun h => agree h g) gs /\
  NoDup (times_of g) /\ le_sorted tle (times_of g) /\ exists z, weeks_from parse z (times_of g).
Proof. intros T teq tle parse gs g So. exact (combined_lemma teq tle parse So gs g). Qed.
Print Assumptions C41_combined.
(** The order of the grids does not matter, nor whether they are combined in one go or in parts. *)
Theorem C41_order_independent : forall T teq (tle : T -> T -> bool) parse gs hs,
  strict_order tle -> Permutation gs hs ->
  same_outcome (combine_grids teq tle parse gs) (combine_grids teq tle parse hs).
Proof. intros. apply order_lemma; assumption. Qed.
Print Assumptions C41_order_independent.
Theorem C41_nested : forall T teq (tle : T -> T -> bool) parse gs hs g h,
  strict_order tle -> combine_grids teq tle parse gs = Ok g -> combine_grids teq tle parse hs = Ok h ->
  same_outcome (combine_grids teq tle parse [g; h]) (combine_grids teq tle parse (gs ++ hs)).
Proof. intros. apply nested_lemma; assumption. Qed.
Print Assumptions C41_nested.

Lemma samples_points : forall T (g : @wgrid T) w c, points (g_mults g) (w_outcome w c) = samples g w c.
Proof.
  intros. unfold points, samples. generalize (seq 0 (length (g_mults g))). generalize (g_mults g). induction l as [|m l IH]; intros [|i k]; cbn; auto. f_equal. apply IH.
Qed.
Lemma samples_fst : forall T (g : @wgrid T) w c, map fst (samples g w c) = g_mults g.
Proof. intros. rewrite <- samples_points. apply points_fst. Qed.

(** The grid given to the optimizer: from the weeks between the two dates and from nothing else. *)
Theorem C41_grid : forall T teq (tle : T -> T -> bool) stab (g : @wgrid T) start_date end_date budget lo hi og,
  strict_order tle -> NoDup (times_of g) -> le_sorted tle (times_of g) -> increasing_q (g_mults g) ->
  (forall w c, In w (g_weeks g) -> 0 <= w_spend w c)%Q ->
  to_optimization_grid teq tle stab g start_date end_date budget lo hi = Ok (Some og) ->
  let n := length (g_channels g) in let ws := between tle (o_start og) (o_end og) g in let step := pow10 (o_k og) in
  (* the period *)
  In (o_start og) (times_of g) /\ In (o_end og) (times_of g) /\
  (forall t, start_date = Some t -> o_start og = t) /\ (start_date = None -> nth_error (times_of g) 0 = Some (o_start og)) /\
  (forall t, end_date = Some t -> o_end og = t) /\ (end_date = None -> exists l, times_of g = l ++ [o_end og]) /\
  o_times og = map w_time ws /\
  (* the historical spend *)
  (forall c, o_hist og c = lsum (fun w => w_spend w c) ws) /\
  constraints_valid n (dflt g lo) (dflt g hi) /\
  get_round_factor (total_of g og budget) (1 # 10000) = Ok (- Z.of_nat (o_k og))%Z /\
  length (o_grid og) = n /\
  exists rows (L : nat -> Z) (m : nat -> nat) (out : nat -> Z -> Q),
    forall c, c < n -> exists R U : Z,
      (* the bounds: the constraints applied to the channel's share of the budget *)
      R = round_to (o_k og) (total_of g og budget * (o_hist og c / qsum n (o_hist og))) /\
      L c = round_to (o_k og) ((1 - constraint_at (dflt g lo) c) * inject_Z R) /\
      U = round_to (o_k og) ((1 + constraint_at (dflt g hi) c) * inject_Z R) /\
      U = (L c + Z.of_nat (m c) * step)%Z /\ m c < rows /\
      (* the outcome of a spend is the sum of the weekly outcomes, linear between the multipliers *)
      (forall v, (o_hist og c == 0)%Q -> out c v = 0%Q) /\
      (~ (o_hist og c == 0)%Q -> exists line : week -> Q -> Q,
         (forall w, through (samples g w c) (line w)) /\
         forall v, (out c v == lsum (fun w => line w (inject_Z v / o_hist og c)) ws)%Q) /\
      (* the rows of the channel; those of reach and frequency channels are stabilised *)
      (let col := uniform_column rows (L c) step (m c) (fun i => out c (L c + Z.of_nat i * step)%Z) in
       nth c (o_grid og) [] = if c <? n - n_rf (g_settings g) then col else stabilized stab col) /\
      (* the range of the multipliers is exceeded by no more than the rounding *)
      (round_to (o_k og) (o_hist og c) <> 0%Z -> exists m0 M r, g_mults g = m0 :: r /\ M = last (g_mults g) 0%Q /\
        ((0 <= m0)%Q -> (m0 * o_hist og c - (m0 + 1) * (inject_Z step * (1 # 2)) <= inject_Z (L c))%Q /\
                        (inject_Z U <= M * o_hist og c + (M + 1) * (inject_Z step * (1 # 2)))%Q)).
Proof.
  intros T teq tle stab g sd ed budget lo hi og So N S Inc Pos H n ws step.
  destruct (grid_lemma teq tle stab So g sd ed budget lo hi og N S Pos H) as (H1 & H2 & H3 & H4 & H5 & H6 & H7 & H8 & H9 & H10 & H11 & rows & L & U & R & m & out & H12).
  fold n ws step in H7, H8, H9, H10, H11, H12.
  refine (conj H1 (conj H2 (conj H3 (conj H4 (conj H5 (conj H6 (conj H7 (conj H8 (conj H9 (conj H10 (conj H11 _))))))))))).
  exists rows, L, m, out. intros c Hc. destruct (H12 c Hc) as (K1 & K2 & K3 & K4 & K5 & K6 & K7 & K8 & K9). exists (R c), (U c).
  refine (conj K1 (conj K2 (conj K3 (conj K4 (conj K5 (conj K6 (conj _ (conj K8 _)))))))).
  - intros Hz. exists (fun w x => interp x (samples g w c)). split.
    + intros w. apply interp_through. rewrite samples_fst. exact Inc.
    + intros v. specialize (K7 v Hz). rewrite K7. clear. induction ws as [|w l IH]; cbn; [reflexivity|]. apply Qplus_comp; [rewrite samples_points; reflexivity|exact IH].
  - intros Hr. destruct (K9 Hr) as [m0 [r [E [A B]]]]. exists m0, (last (g_mults g) 0%Q), r. refine (conj E (conj eq_refl _)). intros P0.
    apply covered_lemma; auto. rewrite E in Inc. rewrite E. clear - P0 Inc. revert m0 P0 Inc. induction r as [|x r IH]; intros m0 P0 Inc; [exact P0|].
    destruct Inc as [I1 I2]. apply (IH x); [lra|exact I2].
Qed.
Print Assumptions C41_grid.
(** A date outside the grid gives no grid. *)
Theorem C41_date_outside : forall T teq (tle : T -> T -> bool) stab (g : @wgrid T) start_date end_date budget lo hi t,
  start_date = Some t \/ end_date = Some t -> ~ In t (times_of g) ->
  to_optimization_grid teq tle stab g start_date end_date budget lo hi = Ok None.
Proof.
  intros T teq tle stab g sd ed budget lo hi t H Ht. unfold to_optimization_grid.
  assert (E : covers_date teq g (Some t) = false).
  { unfold covers_date. apply not_true_is_false. intros K. apply existsb_exists in K. destruct K as [x [K1 K2]]. destruct (teq t x); [subst; auto|discriminate]. }
  destruct H as [->| ->]; rewrite E; rewrite ?andb_false_r; reflexivity.
Qed.
Print Assumptions C41_date_outside.

(** The multipliers: increasing, and everything between the least and the greatest one that the
    arguments allow is within half a step of one of them (and half a millionth, from the rounding). *)
Theorem C41_multipliers : forall decrease increase variation step,
  (0 <= decrease < 1)%Q -> (0 <= increase)%Q -> (0 <= variation)%Q -> (0 < step)%Q ->
  let lower := ((1 - decrease) * (1 - variation))%Q in let upper := ((1 + increase) * (1 + variation))%Q in
  exists ms, create_multipliers decrease increase variation (Some step) = Ok (ms, step) /\ increasing_q ms /\
    (forall x, (lower <= x)%Q -> (x <= upper)%Q ->
       exists m, In m ms /\ (x - m <= step / 2 + (1 # 2000000))%Q /\ (m - x <= step / 2 + (1 # 2000000))%Q) /\
    (forall m, In m ms -> (lower - (1 # 2000000) <= m)%Q /\ (m <= upper + step / 2 + (1 # 2000000))%Q).
Proof. exact multipliers_lemma. Qed.
Print Assumptions C41_multipliers.

(** *** Concrete grids: label [t] is the day [t] of January 2021 *)
Definition ex_day (t : nat) : option date := Some (mkDate 2021 1 (Z.of_nat t)).
Definition ex_settings (var : Q) : settings := mkSettings false true (1 # 10) (68 # 100) 1 var 0 true None None.
Definition ex_week (t : nat) (a b : Q) : @week nat := mkWeek t (fun c j => inject_Z (Z.of_nat (t + 10 * c + j * j))) (fun c => match c with 0 => a | _ => b end).
Definition ex_grid (var : Q) (ms : list Q) (ws : list (@week nat)) : @wgrid nat := mkGrid (ex_settings var) [0; 1] ms ws.
Definition ex_ms : list Q := [7 # 10; 1; 13 # 10]%Q.
Definition ex_combine := combine_grids Nat.eq_dec Nat.leb ex_day.
Definition ex_to (g : @wgrid nat) s e b := to_optimization_grid Nat.eq_dec Nat.leb (fun _ o => o) g s e b None None.
Lemma ex_strict : strict_order Nat.leb.
Proof. split; [split|]; intros; rewrite ?Nat.leb_le in *; lia. Qed.
Lemma ex_chronological : chronological Nat.leb ex_day.
Proof. intros a b d e Ha Hb. unfold ex_day in *. assert (d = mkDate 2021 1 (Z.of_nat a)) by congruence. assert (e = mkDate 2021 1 (Z.of_nat b)) by congruence. subst. rewrite Nat.leb_le. unfold ordinal. cbn [year month day]. lia. Qed.
(** Three grids in the wrong order. *)
Definition ex_gs : list (@wgrid nat) :=
  [ex_grid (3 # 10) ex_ms [ex_week 22 10 20]; ex_grid (3 # 10) ex_ms [ex_week 8 10 20; ex_week 1 5 5]; ex_grid (3 # 10) ex_ms [ex_week 15 10 20]].
Example C41_example : exists g, ex_combine ex_gs = Ok g /\ times_of g = [1; 8; 15; 22].
Proof. eexists. split; reflexivity. Qed.
Definition ex_combined : @wgrid nat := match ex_combine ex_gs with Ok g => g | Err _ => ex_grid 0 [] [] end.
Example C41_grid_example :
  ex_combine ex_gs = Ok ex_combined /\ NoDup (times_of ex_combined) /\ le_sorted Nat.leb (times_of ex_combined) /\ increasing_q (g_mults ex_combined) /\
  match ex_to ex_combined (Some 8) None None with
  | Ok (Some og) => o_times og = [8; 15; 22] /\ (o_hist og 0 == 30)%Q /\ cell (o_grid og) 0 0 = Some (21%Z, 45%Q) /\ cell (o_grid og) 1 36 = Some (78%Z, 87%Q)
  | _ => False
  end.
Proof.
  assert (T : times_of ex_combined = [1; 8; 15; 22]) by (vm_compute; reflexivity).
  assert (M : g_mults ex_combined = ex_ms) by (vm_compute; reflexivity).
  split; [vm_compute; reflexivity|]. rewrite T, M.
  split; [repeat constructor; cbn; intuition discriminate|].
  split; [repeat constructor|].
  split; [vm_compute; repeat split|].
  vm_compute. auto.
Qed.
Example C41_multipliers_example : create_multipliers (9 # 10) 1 (3 # 10) (Some (1 # 2)) = Ok ([(70000 # 1000000); (570000 # 1000000); (1070000 # 1000000); (1570000 # 1000000); (2070000 # 1000000); (2570000 # 1000000)]%Q, (1 # 2)%Q).
Proof. reflexivity. Qed.

(** *** What does not hold *)
(** A single grid is returned without any check: its weeks may have gaps and be out of order. *)
Theorem C41_single_unchecked_refuted : exists g, ex_combine [g] = Ok g /\ times_of g = [1; 22; 8] /\ forall z, ~ weeks_from ex_day z (times_of g).
Proof.
  exists (ex_grid (3 # 10) ex_ms [ex_week 1 10 20; ex_week 22 10 20; ex_week 8 10 20]). split; [reflexivity|]. split; [reflexivity|].
  intros z (( d & D1 & D2) & (e & E1 & E2) & _). unfold ex_day in *. cbn in D1, E1. assert (d = mkDate 2021 1 1) by congruence. assert (e = mkDate 2021 1 22) by congruence. subst.
  vm_compute in E2. discriminate.
Qed.
Print Assumptions C41_single_unchecked_refuted.
(** The check of the bounds works on rounded spend: the grid has spends outside the multipliers, for
    which the outcome at the nearest multiplier is used without a warning. *)
Theorem C41_within_multipliers_refuted : exists g og v o,
  increasing_q (g_mults g) /\ ex_to g None None None = Ok (Some og) /\ cell (o_grid og) 0 0 = Some (v, o) /\
  (inject_Z v / o_hist og 0 < 7 # 10)%Q /\ Forall (fun m => (7 # 10) <= m)%Q (g_mults g) /\
  (o == lsum (fun w => w_outcome w 0 0) (g_weeks g))%Q.
Proof.
  set (g := ex_grid (3 # 10) ex_ms [ex_week 1 (104 # 10) 10]).
  set (og := match ex_to g None None None with Ok (Some og) => og | _ => mkOptGrid [] (fun _ => 0%Q) [] 0 0 0 end).
  exists g, og, 7%Z, 1%Q. refine (conj _ (conj _ (conj _ (conj _ (conj _ _))))).
  - cbn. repeat split.
  - reflexivity.
  - vm_compute. reflexivity.
  - vm_compute. reflexivity.
  - cbn. repeat constructor; discriminate.
  - reflexivity.
Qed.
Print Assumptions C41_within_multipliers_refuted.
(** The range of budgets announced to [create] is not covered: with a decrease of the budget by the
    declared maximum and the default constraints, the rounding can make the call return None. *)
Theorem C41_budget_range_refuted : exists g ms step budget,
  create_multipliers (68 # 100) 1 (1 # 10) (Some step) = Ok (ms, step) /\ g_mults g = ms /\
  percent_decrease (g_settings g) = (68 # 100)%Q /\ constraint_variation (g_settings g) = (1 # 10)%Q /\
  (budget == (1 - (68 # 100)) * (lsum (fun w => w_spend w 0 + w_spend w 1) (g_weeks g)))%Q /\ g_channels g = [0; 1] /\
  ex_to g None None (Some budget) = Ok None.
Proof.
  exists (ex_grid (1 # 10) (match create_multipliers (68 # 100) 1 (1 # 10) (Some (1 # 2)) with Ok (m, _) => m | _ => [] end) [ex_week 1 15 40000; ex_week 8 0 0]).
  eexists _, (1 # 2)%Q, ((32 # 100) * 40015)%Q.
  refine (conj _ (conj eq_refl (conj eq_refl (conj eq_refl (conj _ (conj eq_refl _)))))); vm_compute; reflexivity.
Qed.
Print Assumptions C41_budget_range_refuted.
(** [create] accepts a constraint variation above 1; the grid it makes then has negative multipliers
    and raises when it is used with its own default constraints. *)
Theorem C41_default_constraint_refuted : exists variation ms step,
  create_multipliers (9 # 10) 1 variation (Some step) = Ok (ms, step) /\ Exists (fun m => m < 0)%Q ms /\
  ex_to (ex_grid variation ms [ex_week 1 10 20; ex_week 8 10 20]) None None None = Err ValueError.
Proof.
  exists (3 # 2)%Q. eexists _, (1 # 2)%Q. refine (conj _ (conj _ _)); [vm_compute; reflexivity| |vm_compute; reflexivity].
  constructor. reflexivity.
Qed.
Print Assumptions C41_default_constraint_refuted.
