(** C102: reach and frequency optimization specs, the results of the processor and the planner's tables of them. *)
From Coq Require Import ZArith QArith Qabs String List Bool Arith Sorted Lia Lqa.
From Verif Require Import Lib_QSum M_Base M_Opt M_BudgetSpec S_BudgetSpec P_BudgetSpec M_MarketingSpec S_MarketingSpec P_MarketingSpec M_RfSpec S_RfSpec P_RfSpec P_RfSpec2 P_RfSpec3.
Import ListNotations.
Local Open Scope string_scope.
Local Open Scope list_scope.

(** A spec can be built if and only if it is valid. *)
Theorem C102_spec : forall s, (validate_rf s = Ok tt <-> valid_rf s) /\ (~ valid_rf s -> validate_rf s = Err ValueError).
Proof.
  intros s. destruct (validate_rf_lemma s) as [A [B|B]]; split; try exact A; intros N; [ exfalso; apply N; apply A; exact B | exact B ].
Qed.
Print Assumptions C102_spec.

Section C.
Variable channels : list string.
Variable model_coords : coords.
Variables kpi_only revenue_type : bool.
Variables geos_n times_n : nat.
Variables frequency reach : nat -> nat -> nat -> Q.
Variable roi_at : option (list Z) -> bool -> Q -> Q -> string -> summary oq.
Variable metrics_at : option (list Z) -> bool -> Q -> list Q -> string -> metrics oq.
Variable curve_at : option (list Z) -> bool -> list Q -> string -> list (Q * Q).
Variable spend_of : option (list Z) -> list (string * Q).
Hypothesis Cal : calendar model_coords.
Hypothesis Some_channels : channels <> [].
Notation execute := (execute_rf channels model_coords kpi_only revenue_type geos_n times_n frequency reach roi_at metrics_at curve_at spend_of).
Notation Told := (rf_told channels model_coords kpi_only revenue_type geos_n times_n frequency reach roi_at metrics_at curve_at spend_of).
Notation Chosen := (chosen channels model_coords kpi_only revenue_type geos_n times_n frequency roi_at spend_of).

(** One result per spec, in order, each with the best frequencies of the grid of tenths between the limits. *)
Theorem C102_results : forall specs rs, Forall valid_rf specs -> execute specs = Ok rs -> Forall2 Told specs rs.
Proof. exact (execute_told channels model_coords kpi_only revenue_type geos_n times_n frequency reach roi_at metrics_at curve_at spend_of Cal Some_channels). Qed.
(** Valid specs are answered if and only if their ids are distinct and there is something to choose for each. *)
Theorem C102_accepted : forall specs, Forall valid_rf specs ->
  ((exists rs, execute specs = Ok rs) <->
   ids_distinct (map (fun s => match q_group s with Some i => i | None => "" end) specs) /\
   Forall (fun s => exists times kpi lo hi grid best curve, Chosen s times kpi lo hi grid best curve) specs).
Proof. exact (execute_iff channels model_coords kpi_only revenue_type geos_n times_n frequency reach roi_at metrics_at curve_at spend_of Cal Some_channels). Qed.
(** A run needs a minimum frequency above 1/20, which no check of the spec says. *)
Theorem C102_minimum : forall s rs, valid_rf s -> execute [s] = Ok rs -> (1 # 20 < q_min s)%Q.
Proof.
  intros s rs V H. apply raise_inv in H. destruct H as [_ H]. cbn [mapR] in H. apply rbind_inv in H. destruct H as [r [R _]].
  exact (minimum_lemma channels model_coords kpi_only revenue_type geos_n times_n frequency reach roi_at metrics_at curve_at spend_of Cal Some_channels s r V R).
Qed.
(** Data without a frequency above 1 cannot be optimized, whatever the limits. *)
Theorem C102_low_frequencies : forall s, valid_rf s ->
  (forall g t c, (g < geos_n)%nat -> (t < times_n)%nat -> (c < length channels)%nat -> (frequency g t c <= 1)%Q) -> forall rs, execute [s] <> Ok rs.
Proof.
  intros s V L rs H. apply raise_inv in H. destruct H as [_ H]. cbn [mapR] in H.
  destruct (low_lemma channels model_coords kpi_only revenue_type geos_n times_n frequency reach roi_at metrics_at curve_at spend_of Cal Some_channels s V L) as [e E].
  rewrite E in H. discriminate.
Qed.
(** The planner takes whatever the processor returns and makes one row of every constraint, channel and grid cell. *)
Theorem C102_tables : forall historical specs rs, NoDup channels -> ~ In "All Channels" channels -> (forall a b c, In c channels -> In c (map fst (historical a b))) ->
  Forall valid_rf specs -> execute specs = Ok rs -> specs <> [] ->
  exists t, make_rf_tables historical rs = Ok (Some t) /\
    Forall2 (fun e => wanted_rf_spec historical (fst e) (snd e)) (items (fun r => p_constraints (z_spec r)) rs) (rt_specs t) /\
    Forall2 (fun e => wanted_rf_result historical (fst e) (snd e)) (items (fun r => w_media (z_analysis r)) rs) (rt_results t) /\
    Forall2 (fun r sheet => fst sheet = rf_grid_sheet r /\ Forall2 (wanted_rf_grid r) (cells_of r) (snd sheet)) rs (rt_grids t).
Proof. exact (planner_lemma channels model_coords kpi_only revenue_type geos_n times_n frequency reach roi_at metrics_at curve_at spend_of Cal Some_channels). Qed.
End C.
Print Assumptions C102_results.
Print Assumptions C102_accepted.
Print Assumptions C102_minimum.
Print Assumptions C102_low_frequencies.
Print Assumptions C102_tables.

(** *** An example: two channels, four weeks *)
Definition ex_coords : coords := mkCoords [100; 107; 114; 121]%Z 7.
Definition ex_frequency (g t c : nat) : Q := match c, t with 0%nat, _ => 2 | _, 0%nat => 3 | _, _ => 1 end.
Definition ex_reach (g t c : nat) : Q := 10.
Definition ex_mean (f : Q) (c : string) : Q := if String.eqb c "tv" then (4 - (f - 2) * (f - 2))%Q else (f * (3 - f))%Q.
Definition ex_summary (level x : Q) : summary oq := mkSummary (Some x) (Some x) (Some (x - level)%Q) (Some (x + level)%Q).
Definition ex_roi (times : option (list Z)) (kpi : bool) (level f : Q) (c : string) : summary oq := ex_summary level (ex_mean f c).
Definition ex_metrics (times : option (list Z)) (kpi : bool) (level : Q) (fs : list Q) (c : string) : metrics oq :=
  let x := ex_summary level (match fs with [a; b] => if String.eqb c "tv" then ex_mean a c else ex_mean b c | _ => 0 end) in mkMetrics x x x x x.
Definition ex_curve (times : option (list Z)) (kpi : bool) (fs : list Q) (c : string) : list (Q * Q) :=
  map (fun k => (k, match fs with [a; b] => if String.eqb c "tv" then k * a else k * b | _ => 0 end)%Q) [0; 1; 2]%Q.
Definition ex_spend (times : option (list Z)) : list (string * Q) := [("radio", 60); ("tv", 30); ("yt", 10)]%Q.
Definition ex_execute (kpi_only : bool) := execute_rf ["tv"; "yt"] ex_coords kpi_only false 1 4 ex_frequency ex_reach ex_roi ex_metrics ex_curve ex_spend.
Definition ex_spec (lo : Q) (hi : option Q) (s e : option Z) : rf_spec := mkRfSpec "first" "grid" (Some "g") (4 # 5) s e "spring" lo hi true.

Lemma ex_calendar : calendar ex_coords.
Proof. split; [ discriminate | ]. split; [ repeat constructor | reflexivity ]. Qed.
Lemma ex_valid : forall lo hi s e, (0 <= lo)%Q -> (forall m, hi = Some m -> lo <= m)%Q -> (forall a b, s = Some a -> e = Some b -> a <= b)%Z -> valid_rf (ex_spec lo hi s e).
Proof.
  intros lo hi s e A B C. split; [ apply blank_spec; reflexivity | ]. split; [ apply blank_spec; reflexivity | ]. split; [ cbn; lra | ]. split; [ exact A | ]. split; [ exact B | exact C ].
Qed.

(** Limits between tenths, all weeks: 1.24 and the largest frequency 3 give the grid 1.2, ..., 3.0; best are 2 and 1.5. *)
Example C102_example : valid_rf (ex_spec (31 # 25) None None None) /\ exists r t,
  ex_execute false [ex_spec (31 # 25) None None None] = Ok [r] /\
  z_frequencies r = [("tv", 20 # 10); ("yt", 15 # 10)] /\ p_constraints (z_spec r) = [("tv", (12 # 10, 30 # 10)); ("yt", (12 # 10, 30 # 10))] /\
  (p_start (z_spec r), p_end (z_spec r)) = (100, 128)%Z /\
  map (fun e => (fst e, length (snd e))) (y_cells (z_grid r)) = [("tv", 19%nat); ("yt", 19%nat)] /\
  make_rf_tables (fun _ _ => [("tv", 5); ("yt", 6)]%Q) [r] = Ok (Some t) /\
  map (fun w => (tw_channel w, tw_spend w, tw_frequency w)) (rt_results t) = [("tv", 5, 20 # 10); ("yt", 6, 15 # 10)]%Q /\
  map fst (rt_grids t) = ["rf_opt_grid_grid"] /\ map (fun e => length (snd e)) (rt_grids t) = [38%nat].
Proof.
  split; [ apply ex_valid; [ lra | intros m H; discriminate | intros a b H; discriminate ] | ].
  do 2 eexists. split; [ vm_compute; reflexivity | ]. repeat split; vm_compute; reflexivity.
Qed.
(** The hypotheses of the general theorems, met. *)
Example C102_example_chosen : exists times kpi lo hi grid best curve,
  chosen ["tv"; "yt"] ex_coords false false 1 4 ex_frequency ex_roi ex_spend (ex_spec (31 # 25) None None None) times kpi lo hi grid best curve.
Proof.
  assert (V : Forall valid_rf [ex_spec (31 # 25) None None None]) by (constructor; [ exact (proj1 C102_example) | constructor ]).
  destruct C102_example as [_ [r [t [E _]]]].
  pose proof (proj1 (C102_accepted ["tv"; "yt"] ex_coords false false 1 4 ex_frequency ex_reach ex_roi ex_metrics ex_curve ex_spend ex_calendar ltac:(discriminate) _ V) (ex_intro _ [r] E)) as [_ A]. exact (Forall_inv A).
Qed.
Example C102_example_minimum : forall rs, ex_execute false [ex_spec (1 # 25) None None None] <> Ok rs.
Proof.
  intros rs H. assert (L : (1 # 20 < 1 # 25)%Q); [ | lra ].
  exact (C102_minimum ["tv"; "yt"] ex_coords false false 1 4 ex_frequency ex_reach ex_roi ex_metrics ex_curve ex_spend ex_calendar ltac:(discriminate) (ex_spec (1 # 25) None None None) rs ltac:(apply ex_valid; [ lra | intros m K; discriminate | intros a b K; discriminate ]) H).
Qed.

(** *** Refuted *)
(** "The expected outcomes at this optimal frequency, and response curves" (module documentation, 27-29): the curve of
    a channel is at another frequency than the one reported, which the limits do not even allow. *)
Theorem C102_curve_refuted : exists r m, ex_execute false [ex_spec 2 (Some (5 # 2)) None None] = Ok [r] /\
  z_frequencies r = [("tv", 20 # 10); ("yt", 20 # 10)] /\ In m (w_media (z_analysis r)) /\ v_channel m = "yt" /\
  v_curve m = ex_curve None false [20 # 10; 15 # 10] "yt" /\ v_curve m <> ex_curve None false [20 # 10; 20 # 10] "yt".
Proof.
  do 2 eexists. split; [ vm_compute; reflexivity | ]. split; [ reflexivity | ]. split; [ right; left; reflexivity | ].
  split; [ reflexivity | ]. split; [ vm_compute; reflexivity | vm_compute; discriminate ].
Qed.
(** The intervals of the optimized figures are labelled with the level asked for, and are those of level 0.9. *)
Theorem C102_level_refuted : exists r m o, ex_execute false [ex_spec 2 (Some (5 # 2)) None None] = Ok [r] /\
  In m (w_media (z_analysis r)) /\ v_outcomes m = [o] /\ M_BudgetSpec.e_probability (M_BudgetSpec.o_roi o) = (4 # 5) /\
  M_BudgetSpec.e_lower (M_BudgetSpec.o_roi o) = m_lo (k_roi (ex_metrics None false (9 # 10) [20 # 10; 20 # 10] (v_channel m))) /\
  M_BudgetSpec.e_lower (M_BudgetSpec.o_roi o) <> m_lo (k_roi (ex_metrics None false (4 # 5) [20 # 10; 20 # 10] (v_channel m))).
Proof.
  do 3 eexists. split; [ vm_compute; reflexivity | ]. split; [ left; reflexivity | ]. split; [ reflexivity | ]. split; [ reflexivity | ].
  split; [ vm_compute; reflexivity | vm_compute; discriminate ].
Qed.
(** The reach of the grid is not that of the periods selected: one week of the first channel has 20 impressions. *)
Theorem C102_reach_refuted : exists r e x, ex_execute false [ex_spec 2 (Some (5 # 2)) (Some 107%Z) (Some 114%Z)] = Ok [r] /\
  (ex_frequency 0 1 0 * ex_reach 0 1 0 == 20)%Q /\ hd_error (y_cells (z_grid r)) = Some e /\ hd_error (snd e) = Some x /\
  (x_frequency x == 2)%Q /\ x_reach x = 40%Z.
Proof. do 3 eexists. split; [ vm_compute; reflexivity | ]. repeat split; vm_compute; reflexivity. Qed.
(** "Spend share = spend / total spend" (media_analysis.proto:29): it is a hundred times that. *)
Theorem C102_share_refuted : exists r m x, ex_execute false [ex_spec 2 (Some (5 # 2)) None None] = Ok [r] /\ hd_error (w_media (z_analysis r)) = Some m /\
  v_spend m = 30%Q /\ (all_spend ex_spend None == 100)%Q /\ v_share m = Some x /\ (x == 30)%Q.
Proof. do 3 eexists. split; [ vm_compute; reflexivity | ]. repeat split; vm_compute; reflexivity. Qed.
(** The analysis does not carry the tag of the spec. *)
Theorem C102_tag_refuted : exists r, ex_execute false [ex_spec 2 (Some (5 # 2)) None None] = Ok [r] /\ p_tag (z_spec r) = "spring" /\ w_tag (z_analysis r) = "".
Proof. eexists. split; [ vm_compute; reflexivity | ]. split; reflexivity. Qed.
(** "The output spec reflects the actual numbers": it says revenue, the outcomes are of the KPI. *)
Theorem C102_kind_refuted : exists r m o, ex_execute true [ex_spec 2 (Some (5 # 2)) None None] = Ok [r] /\ p_revenue (z_spec r) = true /\
  In m (w_media (z_analysis r)) /\ v_outcomes m = [o] /\ M_BudgetSpec.o_revenue o = false.
Proof. do 3 eexists. split; [ vm_compute; reflexivity | ]. split; [ reflexivity | ]. split; [ left; reflexivity | ]. split; reflexivity. Qed.
(** "Must be greater than or equal to 1.0": an average frequency below one is accepted and can be chosen. *)
Theorem C102_below_one_refuted : exists r, ex_execute false [ex_spec (1 # 2) (Some (4 # 5)) None None] = Ok [r] /\
  z_frequencies r = [("tv", 8 # 10); ("yt", 8 # 10)].
Proof. eexists. split; [ vm_compute; reflexivity | reflexivity ]. Qed.
(** A valid spec need not be answered: minimum 0, or no data above frequency 1. *)
Theorem C102_valid_refuted : (valid_rf (ex_spec 0 None None None) /\ ex_execute false [ex_spec 0 None None None] = Err ValueError) /\
  (valid_rf (ex_spec 1 None None None) /\ execute_rf ["tv"; "yt"] ex_coords false false 1 4 (fun _ _ _ => 1%Q) ex_reach ex_roi ex_metrics ex_curve ex_spend [ex_spec 1 None None None] = Err ValueError).
Proof.
  split; (split; [ apply ex_valid; [ lra | intros m H; discriminate | intros a b H; discriminate ] | vm_compute; reflexivity ]).
Qed.
Print Assumptions C102_curve_refuted.
Print Assumptions C102_level_refuted.
Print Assumptions C102_reach_refuted.
Print Assumptions C102_share_refuted.
Print Assumptions C102_tag_refuted.
Print Assumptions C102_kind_refuted.
Print Assumptions C102_below_one_refuted.
Print Assumptions C102_valid_refuted.
