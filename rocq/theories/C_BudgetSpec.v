(** C99: budget optimization specs, the results of the processor and the scenario planner's tables of them. *)
From Coq Require Import ZArith QArith String List Bool Arith Lia Lqa Permutation Sorted.
From Verif Require Import Lib_QSum Lib_Sort M_Base M_Opt M_Optimizer M_BudgetSpec S_Opt S_Optimizer S_BudgetSpec P_BudgetSpec P_BudgetSpec2 P_BudgetSpec3.
Import ListNotations.
Local Open Scope string_scope.
Local Open Scope list_scope.

Section C.
Variables Data New Frequency V : Type.
Variable channels : list string.
Variable has_rf : bool.
Variables first_date last_date interval : Data -> Z.
Variable spend_of : Data -> option (list string) -> option Z -> option Z -> result (nat -> Q).
Variable frequency_of : Data -> bool -> option (list string) -> option Z -> option Z -> bool -> option Q -> result Frequency.
Variable outcome_of : Data -> bool -> bool -> option (list string) -> option Z -> option Z -> option Frequency -> nat -> Z -> Q.
Variable fitted : bool -> bool.
Variable model_data : Data.
Variable filled : New -> Data.
Variable dated : New -> bool.
Variable revenue_model : bool.
Variable metrics_of : request Data -> Q -> ogrid Frequency -> option Frequency -> (nat -> Z) -> nat -> metrics V.
Variable curve_of : request Data -> outcome Frequency -> nat -> list (Q * V).
Variable historical : Z -> Z -> list (string * Q).
Variable media_channels : list string.
Notation n := (length channels).
Notation data_of := (data_of Data New Frequency model_data filled).
Notation request_of := (request_of Data New Frequency interval model_data filled).
Notation optimize := (M_Optimizer.optimize Data Frequency channels has_rf first_date last_date spend_of frequency_of outcome_of fitted).
Notation run := (run_spec Data New Frequency V channels has_rf first_date last_date interval spend_of frequency_of outcome_of fitted model_data filled dated revenue_model metrics_of curve_of).
Notation execute := (execute Data New Frequency V channels has_rf first_date last_date interval spend_of frequency_of outcome_of fitted model_data filled dated revenue_model metrics_of curve_of).
(** The last period that a spec covers, and the spend of its periods. *)
Notation last_period s := (option_map (fun e => Z.sub e (interval (data_of s))) (s_end s)).
Notation spend_behind s := (spend_of (data_of s) None (s_start s) (last_period s)).

(** Whatever the result, channel by channel in the order of the model: the optimized spend lies in the reported
    interval, whose ends lie within half a step of (1 - down) and (1 + up) times the non-optimized spend.  A grid that
    comes with the spec has increasing spend. *)
Theorem C99_bounds : forall s r, (0 < n)%nat -> run s = Ok r ->
  (forall g, s_grid s = Some g -> exists rows ps, g_cells g = grid_of n rows ps /\ forall c, (c < n)%nat -> increasing (ps c) /\ (length (ps c) <= rows)%nat) ->
  (forall hist, spend_behind s = Ok hist -> forall c, (c < n)%nat -> (0 <= hist c)%Q) ->
  length (pb_constraints (r_spec r)) = n /\ length (an_media (r_optimized r)) = n /\ length (an_media (r_non_optimized r)) = n /\
  exists k, gp_step (r_grid r) = pow10 k /\
  forall i, (i < n)%nat -> exists L U O N mo mn,
    nth_error (pb_constraints (r_spec r)) i = Some (mkConstraintPb (nth i channels "") (inject_Z L) (inject_Z U)) /\
    nth_error (an_media (r_optimized r)) i = Some mo /\ ma_channel mo = nth i channels "" /\ ma_spend mo = inject_Z O /\
    nth_error (an_media (r_non_optimized r)) i = Some mn /\ ma_channel mn = nth i channels "" /\ ma_spend mn = inject_Z N /\
    (L <= O <= U)%Z /\ (pow10 k | L)%Z /\ (pow10 k | U)%Z /\ (pow10 k | N)%Z /\
    near k L ((1 - down (s_constraints s) (nth i channels "")) * inject_Z N) /\ near k U ((1 + up (s_constraints s) (nth i channels "")) * inject_Z N).
Proof. exact (bounds_lemma Data New Frequency V channels has_rf first_date last_date interval spend_of frequency_of outcome_of fitted model_data filled dated revenue_model metrics_of curve_of). Qed.

(** Without a grid of its own: the non-optimized spend is the channel's historical share of the budget, a fixed budget
    is not exceeded, and the reported grid of a channel runs over exactly the reported interval, step by step, with
    the outcomes of the periods of the spec. *)
Theorem C99_own_grid : forall s r hist, (0 < n)%nat -> run s = Ok r -> s_grid s = None ->
  spend_behind s = Ok hist -> (forall c, (c < n)%nat -> (0 <= hist c)%Q) ->
  let total := qsum n hist in
  let budget := match s_scenario s with FixedScenario (Some b) => b | _ => total end in
  exists k f, gp_step (r_grid r) = pow10 k /\ step_for budget (1 # 10000) k /\
    gp_name (r_grid r) = s_grid_name s /\ length (gp_cells (r_grid r)) = n /\
    (match f with Some x => has_rf = true /\ s_optimal_frequency s = true /\
                            frequency_of (data_of s) true None (s_start s) (last_period s) (negb (s_revenue s)) (s_max_frequency s) = Ok x
     | None => has_rf = false \/ s_optimal_frequency s = false end) /\
    (is_fixed (s_scenario s) = true -> (qtotal (map ma_spend (an_media (r_optimized r))) <= qtotal (map ma_spend (an_media (r_non_optimized r))))%Q) /\
    forall i, (i < n)%nat -> exists L m N mn share,
      nth_error (an_media (r_non_optimized r)) i = Some mn /\ ma_spend mn = inject_Z N /\
      (share * total == hist i)%Q /\ near k N (budget * share) /\
      nth_error (pb_constraints (r_spec r)) i = Some (mkConstraintPb (nth i channels "") (inject_Z L) (inject_Z (L + Z.of_nat m * pow10 k))) /\
      nth_error (gp_cells (r_grid r)) i =
        Some (nth i channels "", map (fun v => (v, outcome_of (data_of s) true (negb (s_revenue s)) None (s_start s) (last_period s) f i v)) (ladder L (pow10 k) m)).
Proof. exact (fresh_result Data New Frequency V channels has_rf first_date last_date interval spend_of frequency_of outcome_of fitted model_data filled dated revenue_model metrics_of curve_of). Qed.

(** A result repeats its spec; the reported period is the optimized one, with the end made exclusive; each channel
    has one outcome, about revenue unless both model and spec are about another KPI; a fixed budget that was left open
    is the total optimized spend. *)
Theorem C99_echo : forall s r, run s = Ok r ->
  r_name r = s_name s /\ r_group r = match s_group s with Some g => g | None => "" end /\
  pb_start (r_spec r) = resolved (s_start s) (first_date (data_of s)) /\
  pb_end (r_spec r) = (resolved (last_period s) (last_date (data_of s)) + interval (data_of s))%Z /\
  pb_tag (r_spec r) = s_tag s /\ pb_revenue (r_spec r) = s_revenue s /\ pb_batch (r_spec r) = s_batch s /\
  pb_optimal_frequency (r_spec r) = s_optimal_frequency s /\ pb_max_frequency (r_spec r) = s_max_frequency s /\
  (forall x, x = r_optimized r \/ x = r_non_optimized r -> an_start x = pb_start (r_spec r) /\ an_end x = pb_end (r_spec r) /\ an_tag x = s_tag s /\
     map ma_channel (an_media x) = channels /\
     forall m, In m (an_media x) -> exists w, ma_outcomes m = [w] /\ o_revenue w = revenue_model || s_revenue s) /\
  match s_scenario s with
  | FixedScenario (Some b) => pb_scenario (r_spec r) = PbFixed b
  | FixedScenario None => exists b, pb_scenario (r_spec r) = PbFixed b /\ (b == qtotal (map ma_spend (an_media (r_optimized r))))%Q
  | FlexibleScenario m t => m = "roi" /\ pb_scenario (r_spec r) = PbFlexible [(PbRoi, t)] \/ m = "mroi" /\ pb_scenario (r_spec r) = PbFlexible [(PbMarginalRoi, t)]
  end.
Proof. exact (echo_lemma Data New Frequency V channels has_rf first_date last_date interval spend_of frequency_of outcome_of fitted model_data filled dated revenue_model metrics_of curve_of). Qed.

(** The optimizer gets the constraints in the order of the model's channels, and every statistic of its answer lands
    in the field of its name, with the spec's confidence level; response curves come in order of spend. *)
Theorem C99_statistics : forall s r, run s = Ok r ->
  exists k o, build_scenario (s_scenario s) = Ok k /\
    let a := request_of s k (map (down (s_constraints s)) channels) (map (up (s_constraints s)) channels) in
    optimize a (s_grid s) = Ok o /\ r_grid r = to_grid (o_grid _ o) (s_grid_name s) /\
    forall x f spend, x = r_optimized r /\ f = g_frequency (o_grid _ o) /\ spend = o_optimized _ o \/ x = r_non_optimized r /\ f = None /\ spend = o_non_optimized _ o ->
    forall i, (i < n)%nat -> exists m w, nth_error (an_media x) i = Some m /\ ma_spend m = inject_Z (spend i) /\
      ((0 < qtotal (map ma_spend (an_media x)))%Q -> (ma_share m * qtotal (map ma_spend (an_media x)) == ma_spend m)%Q) /\
      ma_outcomes m = [w] /\ tells w (metrics_of a (s_confidence s) (o_grid _ o) f spend i) (s_confidence s) /\
      (s_curves s = true -> Permutation (curve_of a o i) (ma_curve m) /\ Sorted (fun x y => fst x <= fst y)%Q (ma_curve m)) /\ (s_curves s = false -> ma_curve m = []).
Proof. exact (statistics_lemma Data New Frequency V channels has_rf first_date last_date interval spend_of frequency_of outcome_of fitted model_data filled dated revenue_model metrics_of curve_of). Qed.

(** A well-formed spec is answered. *)
Theorem C99_answered : forall s hist, (0 < n)%nat -> fitted true = true -> s_grid s = None -> usable (s_constraints s) channels -> Forall in_range (s_constraints s) ->
  validate New Frequency dated s = Ok tt ->
  (resolved (s_start s) (first_date (data_of s)) <= resolved (s_end s) (last_date (data_of s) + interval (data_of s)))%Z -> askable (s_scenario s) ->
  spend_behind s = Ok hist -> (forall c, (c < n)%nat -> (0 <= hist c)%Q) -> (0 < qsum n hist)%Q ->
  (has_rf = true -> s_optimal_frequency s = true -> exists f, frequency_of (data_of s) true None (s_start s) (last_period s) (negb (s_revenue s)) (s_max_frequency s) = Ok f) ->
  exists r, run s = Ok r.
Proof. exact (answered_lemma Data New Frequency V channels has_rf first_date last_date interval spend_of frequency_of outcome_of fitted model_data filled dated revenue_model metrics_of curve_of). Qed.

(** Constraints for unknown channels or in absolute terms are refused, and so is a budget of zero. *)
Theorem C99_refused : forall s,
  (forall k, build_scenario (s_scenario s) = Ok k -> ~ usable (s_constraints s) channels -> run s = Err ValueError) /\
  (forall b, s_scenario s = FixedScenario (Some b) -> (b == 0)%Q -> run s = Err ValueError).
Proof.
  intros s. split.
  - exact (unusable_lemma Data New Frequency V channels has_rf first_date last_date interval spend_of frequency_of outcome_of fitted model_data filled dated revenue_model metrics_of curve_of s).
  - exact (zero_budget_lemma Data New Frequency V channels has_rf first_date last_date interval spend_of frequency_of outcome_of fitted model_data filled dated revenue_model metrics_of curve_of s).
Qed.

(** Several specs: one result each, in order, provided no group id is used twice. *)
Theorem C99_batch : forall specs,
  (forall rs, execute specs = Ok rs <-> ids_distinct (map group_of specs) /\ Forall2 (fun s r => run s = Ok r) specs rs) /\
  (~ ids_distinct (map group_of specs) -> execute specs = Err ValueError).
Proof. exact (execute_lemma Data New Frequency V channels has_rf first_date last_date interval spend_of frequency_of outcome_of fitted model_data filled dated revenue_model metrics_of curve_of). Qed.

(** The planner takes whatever the processor returns and makes one row of every reported constraint, optimized
    channel, curve point and grid cell, in order. *)
Theorem C99_tables : forall specs rs, channels <> [] -> NoDup channels -> ~ In "All Channels" channels -> execute specs = Ok rs -> specs <> [] ->
  exists t, make_tables V historical media_channels rs = Ok (Some t) /\
    Forall2 (fun p w => wanted_spec_row historical (fst p) (snd p) w) (items (fun r => pb_constraints (r_spec r)) rs) (t_specs t) /\
    Forall2 (fun p w => wanted_result_row (fst p) (snd p) w) (items (fun r => an_media (r_optimized r)) rs) (t_results t) /\
    Forall2 (fun p w => cw_group w = r_group (fst p) /\ cw_channel w = fst (snd p) /\ cw_spend w = fst (snd (snd p)) /\ cw_outcome w = snd (snd (snd p))) (items curve_items rs) (t_curves t) /\
    Forall2 (fun r tab => fst tab = grid_sheet r /\
      Forall2 (fun e w => gw_group w = r_group r /\ gw_channel w = fst e /\ gw_spend w = fst (snd e) /\ gw_outcome w = snd (snd e)) (grid_items r) (snd tab)) rs (t_grids t).
Proof. exact (tables_lemma Data New Frequency V channels has_rf first_date last_date interval spend_of frequency_of outcome_of fitted model_data filled dated revenue_model metrics_of curve_of historical media_channels). Qed.
End C.
Print Assumptions C99_bounds.
Print Assumptions C99_own_grid.
Print Assumptions C99_echo.
Print Assumptions C99_statistics.
Print Assumptions C99_answered.
Print Assumptions C99_refused.
Print Assumptions C99_batch.
Print Assumptions C99_tables.

(** The constructors of constraints and scenarios, and the checks of a spec. *)
Theorem C99_constructors :
  (forall name lo hi, (new_rel name lo hi = Ok (Rel name lo hi) <-> in_range (Rel name lo hi)) /\ (~ in_range (Rel name lo hi) -> new_rel name lo hi = Err ValueError)) /\
  (forall b, (0 <= b)%Q -> new_fixed (Some b) = Ok (FixedScenario (Some b))) /\ (forall b, (b < 0)%Q -> new_fixed (Some b) = Err ValueError) /\
  (forall m t, (new_flexible m t = Ok (FlexibleScenario m t) <-> (m = "roi" \/ m = "mroi") /\ (0 <= t)%Q)).
Proof.
  assert (T : forall x y, Qlt_bool x y = true <-> (x < y)%Q) by apply P_Opt.Qlt_bool_iff. assert (F : forall x y, Qlt_bool x y = false <-> (y <= x)%Q) by apply P_Opt.Qlt_bool_false.
  split.
  - intros name lo hi. unfold new_rel, in_range, raise_if. destruct (Qlt_bool lo 0) eqn:A; [apply T in A; split; [split; [discriminate|lra]|auto]|].
    destruct (Qlt_bool 1 lo) eqn:B; [apply T in B; split; [split; [discriminate|lra]|auto]|]. destruct (Qlt_bool hi 0) eqn:C; [apply T in C; split; [split; [discriminate|lra]|auto]|].
    apply F in A, B, C. split; [tauto|]. intros X. exfalso. apply X. auto.
  - split; [|split].
    + intros b Hb. unfold new_fixed. apply F in Hb. rewrite Hb. reflexivity.
    + intros b Hb. unfold new_fixed. apply T in Hb. rewrite Hb. reflexivity.
    + intros m t. unfold new_flexible, raise_if. destruct (String.eqb_spec m "roi") as [->|E1]; [|destruct (String.eqb_spec m "mroi") as [->|E2]]; cbn [orb negb].
      * destruct (Qlt_bool t 0) eqn:A; [apply T in A; split; [discriminate|lra]|]. apply F in A. tauto.
      * destruct (Qlt_bool t 0) eqn:A; [apply T in A; split; [discriminate|lra]|]. apply F in A. tauto.
      * split; [discriminate|]. tauto.
Qed.
Print Assumptions C99_constructors.

Theorem C99_spec_checks : forall (New Frequency : Type) (dated : New -> bool) (s : spec New Frequency),
  (validate New Frequency dated s = Ok tt <->
    (forall a b, s_start s = Some a -> s_end s = Some b -> (a <= b)%Z) /\ named (s_name s) /\ named (s_grid_name s) /\
    (0 <= s_confidence s)%Q /\ (s_confidence s <= 1)%Q /\ (0 < s_batch s)%Z /\ (forall d, s_new s = Some d -> dated d = true) /\
    (s_optimal_frequency s = true -> forall f, s_max_frequency s = Some f -> (1 <= f)%Q)) /\
  (validate New Frequency dated s = Ok tt \/ validate New Frequency dated s = Err ValueError).
Proof. exact validate_lemma. Qed.
Print Assumptions C99_spec_checks.

(** *** A concrete model: tv with a spend of 3 and radio with 9, both increased by [x]; tv brings in 2 per unit, radio 1. *)
Definition ex_channels : list string := ["tv"; "radio"].
Definition ex_spend (x : Q) (d : nat) (geos : option (list string)) (s e : option Z) : result (nat -> Q) := Ok (fun c => (if Nat.eqb c 0 then 3 else 9) + x)%Q.
Definition ex_frequency (d : nat) (posterior : bool) (geos : option (list string)) (s e : option Z) (kpi : bool) (m : option Q) : result unit := Ok tt.
Definition ex_outcome (d : nat) (posterior kpi : bool) (geos : option (list string)) (s e : option Z) (f : option unit) (c : nat) (v : Z) : Q :=
  (inject_Z v * (if Nat.eqb c 0 then 2 else 1))%Q.
Definition ex_metrics (a : request nat) (confidence : Q) (g : ogrid unit) (f : option unit) (spend : nat -> Z) (c : nat) : metrics nat :=
  let x := fun k : nat => mkSummary (k + c)%nat (k + c + 10)%nat (k + c + 20)%nat (k + c + 30)%nat in mkMetrics (x 100%nat) (x 200%nat) (x 300%nat) (x 400%nat) (x 500%nat).
Definition ex_curve (a : request nat) (o : outcome unit) (c : nat) : list (Q * nat) := [(6%Q, 60%nat); (3%Q, 30%nat)].
Definition ex_execute (x : Q) (revenue : bool) :=
  execute nat unit unit nat ex_channels true (fun _ => 100%Z) (fun _ => 107%Z) (fun _ => 7%Z) (ex_spend x) ex_frequency ex_outcome (fun _ => true) 0%nat (fun _ => 0%nat) (fun _ => true)
    revenue ex_metrics ex_curve.
Definition ex_spec (name grid : string) (group : option string) (sc : budget_scenario) (cs : list chan_constraint) (revenue : bool) : spec unit unit :=
  mkSpec name grid group (9 # 10) None (Some 114%Z) "all" sc cs revenue None true None true None 100.
Definition ex_history (a b : Z) : list (string * Q) := [("tv", 3); ("radio", 9)]%Q.

Example C99_example : exists r1 r2 t,
  ex_execute 0 false [ex_spec "first" "my grid" (Some "g1") (FixedScenario None) [Rel "tv" 0 0; Rel "tv" (1 # 2) (1 # 2)] true; ex_spec "second" "two" None (FlexibleScenario "roi" 1) [] false] = Ok [r1; r2] /\
  map (fun c => (cp_channel c, cp_min c, cp_max c)) (pb_constraints (r_spec r1)) = [("tv", inject_Z 2, inject_Z 4); ("radio", inject_Z 0, inject_Z 27)] /\
  map ma_spend (an_media (r_optimized r1)) = [inject_Z 4; inject_Z 8] /\ (pb_start (r_spec r1), pb_end (r_spec r1)) = (100, 114)%Z /\
  make_tables nat ex_history ["tv"] [r1; r2] = Ok (Some t) /\ length (t_specs t) = 4%nat /\ length (t_results t) = 4%nat /\ length (t_curves t) = 8%nat /\
  map fst (t_grids t) = ["budget_opt_grid_my_grid"; "budget_opt_grid_two"] /\
  map (fun w => (rr_group w, rr_channel w, rr_spend w, rr_roi w)) (firstn 2 (t_results t)) = [("g1", "tv", inject_Z 4, 300); ("g1", "radio", inject_Z 8, 301)]%nat /\
  ids_distinct ["g1"; ""] /\ usable [Rel "tv" 0 0; Rel "tv" (1 # 2) (1 # 2)] ex_channels.
Proof.
  do 3 eexists. split; [vm_compute; reflexivity|]. split; [vm_compute; reflexivity|]. split; [vm_compute; reflexivity|]. split; [vm_compute; reflexivity|]. split; [vm_compute; reflexivity|].
  split; [vm_compute; reflexivity|]. split; [vm_compute; reflexivity|]. split; [vm_compute; reflexivity|]. split; [vm_compute; reflexivity|]. split; [vm_compute; reflexivity|].
  split; [repeat constructor; cbn; tauto|]. split.
  - intros k [<-|[<-|[]]]; cbn; auto.
  - intros c m lo hi [<-|[<-|[]]]; vm_compute; discriminate.
Qed.

(** The documentation of [build_constraints_kwargs] (653-654) and the planner (189-196) say that a channel without a
    constraint may take the whole budget; it may take three times its share of it. *)
Theorem C99_unconstrained_refuted : exists r c b,
  ex_execute 0 false [ex_spec "first" "g" None (FixedScenario None) [] true] = Ok [r] /\ hd_error (pb_constraints (r_spec r)) = Some c /\
  pb_scenario (r_spec r) = PbFixed b /\ (b == 12)%Q /\ (cp_max c == 9)%Q.
Proof. do 3 eexists. split; [vm_compute; reflexivity|]. repeat split; vm_compute; reflexivity. Qed.

(** "If unspecified, it represents historical total spend" (optimizer.py:61-62): the reported total of an open budget
    is made of rounded spend. *)
Theorem C99_open_total_refuted : exists r b hist,
  ex_execute (2 # 5) false [ex_spec "first" "g" None (FixedScenario None) [] true] = Ok [r] /\
  pb_scenario (r_spec r) = PbFixed b /\ (b == 12)%Q /\ ex_spend (2 # 5) 0 None None (Some 107%Z) = Ok hist /\ (qsum 2 hist == 128 # 10)%Q.
Proof. do 3 eexists. split; [vm_compute; reflexivity|]. repeat split; vm_compute; reflexivity. Qed.

(** A scenario with a target ROI of zero can be constructed but not run, and so can a budget of zero. *)
Theorem C99_zero_refuted : new_flexible "roi" 0 = Ok (FlexibleScenario "roi" 0) /\
  ex_execute 0 false [ex_spec "first" "g" None (FlexibleScenario "roi" 0) [] true] = Err TypeError /\
  (exists r, ex_execute 0 false [ex_spec "first" "g" None (FlexibleScenario "mroi" 0) [] true] = Ok [r]) /\
  new_fixed (Some 0%Q) = Ok (FixedScenario (Some 0%Q)) /\
  ex_execute 0 false [ex_spec "first" "g" None (FixedScenario (Some 0%Q)) [] true] = Err ValueError.
Proof. split; [reflexivity|]. split; [vm_compute; reflexivity|]. split; [eexists; vm_compute; reflexivity|]. split; [reflexivity|vm_compute; reflexivity]. Qed.

(** The KPI type of the spec and that of its outcomes may differ: a revenue model asked for another KPI. *)
Theorem C99_kpi_refuted : exists r m w,
  ex_execute 0 true [ex_spec "first" "g" None (FixedScenario None) [] false] = Ok [r] /\ pb_revenue (r_spec r) = false /\
  hd_error (an_media (r_optimized r)) = Some m /\ ma_outcomes m = [w] /\ o_revenue w = true.
Proof. do 3 eexists. split; [vm_compute; reflexivity|]. repeat split; vm_compute; reflexivity. Qed.

(** Different grids may get the same table name. *)
Theorem C99_sheet_names_refuted : exists r1 r2 t,
  ex_execute 0 false [ex_spec "first" "my grid" (Some "a") (FixedScenario None) [] true; ex_spec "second" "my  grid" (Some "b") (FixedScenario (Some 4%Q)) [] true] = Ok [r1; r2] /\
  make_tables nat ex_history ["tv"] [r1; r2] = Ok (Some t) /\ map fst (t_grids t) = ["budget_opt_grid_my_grid"; "budget_opt_grid_my_grid"] /\
  map snd (t_grids t) <> [snd (hd ("", []) (t_grids t)); snd (hd ("", []) (t_grids t))].
Proof. do 3 eexists. split; [vm_compute; reflexivity|]. split; [vm_compute; reflexivity|]. split; [vm_compute; reflexivity|vm_compute; discriminate]. Qed.
Print Assumptions C99_unconstrained_refuted.
Print Assumptions C99_open_total_refuted.
Print Assumptions C99_zero_refuted.
Print Assumptions C99_kpi_refuted.
Print Assumptions C99_sheet_names_refuted.
