(** Proofs for C99: the statements about results and tables. *)
From Coq Require Import ZArith QArith Lqa String List Bool Arith Lia Permutation Sorted.
From Verif Require Import Lib_QSum Lib_Sort M_Base M_Opt M_Optimizer M_BudgetSpec S_Opt S_Optimizer S_BudgetSpec P_Opt P_OptGrid P_Optimizer P_BudgetSpec P_BudgetSpec2.
Import ListNotations.
Local Open Scope string_scope.
Local Open Scope list_scope.

Lemma kept_points_column : forall rows (pts : list (Z * Q)), kept_cells (column_of rows pts) = pts.
Proof.
  intros rows pts. unfold kept_cells, column_of, cells. rewrite flat_map_app.
  assert (A : forall k, flat_map (fun x : option (Z * Q) => match x with Some p => [p] | None => [] end) (repeat None k) = []).
  { induction k as [|k IH]; cbn [repeat flat_map]; auto. }
  rewrite A, app_nil_r. clear A. induction pts as [|p r IH]; cbn [map flat_map]; auto. rewrite IH by auto. reflexivity.
Qed.

Lemma combine_keys_nodup : forall (A : Type) (l : list string) (m : list A), NoDup l -> NoDup (map fst (combine l m)).
Proof.
  intros A l. induction l as [|x r IH]; intros m H; cbn [combine map]; [constructor|]. destruct m as [|y m]; cbn [combine map fst]; [constructor|].
  inversion H; subst. constructor; auto. intros I. apply in_map_iff in I. destruct I as [[a b] [E I]]. cbn [fst] in E. subst a. apply in_combine_l in I. auto.
Qed.

Lemma nth_error_combine : forall (A B : Type) (l : list A) (m : list B) i, nth_error (combine l m) i = match nth_error l i, nth_error m i with Some x, Some y => Some (x, y) | _, _ => None end.
Proof.
  intros A B l. induction l as [|x r IH]; intros m i; cbn [combine]; [destruct i; reflexivity|]. destruct m as [|y m]; cbn [combine].
  - destruct i; cbn [nth_error]; [reflexivity|]. destruct (nth_error r i); reflexivity.
  - destruct i; cbn [nth_error]; auto.
Qed.

Section P.
Variables Data New Frequency V : Type.
Variable channels : list string.
Variable has_rf : bool.
Variables first_date last_date interval : Data -> Z.
Variable spend_of : Data -> option (list string) -> option Z -> option Z -> result (nat -> Q).
Variable frequency_of : Data -> bool -> option (list string) -> option Z -> option Z -> bool -> option Q -> result Frequency.
Variable outcome_of : Data -> bool -> bool -> option (list string) -> option Z -> option Z -> option Frequency -> nat -> Z -> Q.
Variable fitted : bool -> bool.
Variable model_data : Data.
Variable filled : New -> Data.
Variable dated : New -> bool.
Variable revenue_model : bool.
Variable metrics_of : request Data -> Q -> ogrid Frequency -> option Frequency -> (nat -> Z) -> nat -> metrics V.
Variable curve_of : request Data -> outcome Frequency -> nat -> list (Q * V).
Notation n := (length channels).
Notation spec := (spec New Frequency).
Notation data_of := (data_of Data New Frequency model_data filled).
Notation request_of := (request_of Data New Frequency interval model_data filled).
Notation open_start := (open_start Data New Frequency first_date model_data filled).
Notation open_end := (open_end Data New Frequency last_date interval model_data filled).
Notation optimize := (M_Optimizer.optimize Data Frequency channels has_rf first_date last_date spend_of frequency_of outcome_of fitted).
Notation run := (run_spec Data New Frequency V channels has_rf first_date last_date interval spend_of frequency_of outcome_of fitted model_data filled dated revenue_model metrics_of curve_of).
Notation execute := (execute Data New Frequency V channels has_rf first_date last_date interval spend_of frequency_of outcome_of fitted model_data filled dated revenue_model metrics_of curve_of).
Notation analysis := (to_analysis New Frequency V channels).
Notation inv := (run_inv Data New Frequency V channels has_rf first_date last_date interval spend_of frequency_of outcome_of fitted model_data filled dated revenue_model metrics_of curve_of).

(** The spend behind a spec and its dates: all geos, up to the last period before the end. *)
Notation spend_behind s := (spend_of (data_of s) None (s_start s) (option_map (fun e => Z.sub e (interval (data_of s))) (s_end s))).

Lemma media_nth : forall s a b spend m rev curves i, (i < n)%nat ->
  nth_error (an_media (analysis s a b spend m rev curves)) i =
  Some (mkMediaPb (nth i channels "") (inject_Z (spend i)) (share_of channels spend i) [to_outcome rev (s_confidence s) (m i)] (match curves with Some f => isort point_le (f i) | None => [] end)).
Proof. intros. unfold to_analysis. cbn [an_media]. rewrite numbered_nth by auto. reflexivity. Qed.
Lemma media_length : forall s a b spend m rev curves, length (an_media (analysis s a b spend m rev curves)) = n.
Proof. intros. unfold to_analysis. cbn [an_media]. apply numbered_length. Qed.
Lemma media_total : forall s a b spend m rev curves, (qtotal (map ma_spend (an_media (analysis s a b spend m rev curves))) == inject_Z (zsum n spend))%Q.
Proof. intros. unfold to_analysis. cbn [an_media]. rewrite map_map. cbn [ma_spend]. apply qtotal_qsum. Qed.

Definition increasing_grid (s : spec) : Prop :=
  forall g, s_grid s = Some g -> exists rows ps, g_cells g = grid_of n rows ps /\ forall c, (c < n)%nat -> increasing (ps c) /\ (length (ps c) <= rows)%nat.

Lemma bounds_lemma : forall s r, (0 < n)%nat -> run s = Ok r -> increasing_grid s ->
  (forall hist, spend_behind s = Ok hist -> forall c, (c < n)%nat -> (0 <= hist c)%Q) ->
  length (pb_constraints (r_spec r)) = n /\ length (an_media (r_optimized r)) = n /\ length (an_media (r_non_optimized r)) = n /\
  exists k, gp_step (r_grid r) = pow10 k /\
  forall i, (i < n)%nat -> exists L U O N mo mn,
    nth_error (pb_constraints (r_spec r)) i = Some (mkConstraintPb (nth i channels "") (inject_Z L) (inject_Z U)) /\
    nth_error (an_media (r_optimized r)) i = Some mo /\ ma_channel mo = nth i channels "" /\ ma_spend mo = inject_Z O /\
    nth_error (an_media (r_non_optimized r)) i = Some mn /\ ma_channel mn = nth i channels "" /\ ma_spend mn = inject_Z N /\
    (L <= O <= U)%Z /\ (pow10 k | L)%Z /\ (pow10 k | U)%Z /\ (pow10 k | N)%Z /\
    near k L ((1 - down (s_constraints s) (nth i channels "")) * inject_Z N) /\ near k U ((1 + up (s_constraints s) (nth i channels "")) * inject_Z N).
Proof.
  intros s r Hn H Hgrid Hh. destruct (inv s r H) as [k [o [L' [U' [Ek [Hu [Eo [Eb Er]]]]]]]]. cbv zeta in Er.
  destruct (request_fields Data New Frequency interval model_data filled s k (map (down (s_constraints s)) channels) (map (up (s_constraints s)) channels)) as [F1 [F2 [F3 [F4 [F5 [_ [_ [_ [_ [F6 [F7 _]]]]]]]]]]].
  set (a := request_of s k _ _) in *.
  destruct (searched Data Frequency channels has_rf first_date last_date spend_of frequency_of outcome_of fitted a (s_grid s) o Hn F2 F5 Eo) as [share [L [U [sc [Hw [E1 [E2 [E3 E4]]]]]]]].
  { intros hist Hs. rewrite F1, F3, F4 in Hs. apply Hh. exact Hs. }
  { exact Hgrid. }
  rewrite F6, F7 in E2.
  assert (HLU : forall i, L' i = L i /\ U' i = U i).
  { apply (bounds_again channels (g_round (o_grid _ o)) _ (fun i => inject_Z (o_non_optimized _ o i)) _ _ L U L' U' E2); auto. intros i. rewrite E3. reflexivity. }
  pose proof (valid_of_bounds channels _ _ _ _ _ Eb) as Hv. destruct (bounds_ok n (fun i => inject_Z (o_non_optimized _ o i)) (g_round (o_grid _ o)) _ _ Hv) as [L1 [U1 [E5 E6]]].
  rewrite Eb in E5. injection E5 as <- <-.
  rewrite Er. cbn [r_spec r_optimized r_non_optimized pb_constraints r_grid to_grid gp_step]. rewrite numbered_length, !media_length.
  split; auto. split; auto. split; auto. exists (g_round (o_grid _ o)). split; auto. intros i Hi.
  rewrite numbered_nth, !media_nth by auto. cbn [fst snd].
  assert (Hfix : round_to (g_round (o_grid _ o)) (inject_Z (o_non_optimized _ o i)) = o_non_optimized _ o i) by (apply round_to_fixed; rewrite E3; apply round_to_multiple).
  destruct (E6 i Hi) as [HL HU]. rewrite Hfix, at_map in HL, HU by auto.
  do 6 eexists. split; [reflexivity|]. split; [reflexivity|]. split; [reflexivity|]. split; [reflexivity|]. split; [reflexivity|]. split; [reflexivity|]. split; [reflexivity|].
  destruct (HLU i) as [A B]. split; [rewrite A, B; apply E4; auto|]. split; [rewrite HL; apply round_to_multiple|]. split; [rewrite HU; apply round_to_multiple|].
  split; [rewrite E3; apply round_to_multiple|]. split; [rewrite HL|rewrite HU]; apply round_to_error.
Qed.

Lemma fresh_result : forall s r hist, (0 < n)%nat -> run s = Ok r -> s_grid s = None ->
  spend_behind s = Ok hist -> (forall c, (c < n)%nat -> (0 <= hist c)%Q) ->
  let total := qsum n hist in
  let budget := match s_scenario s with FixedScenario (Some b) => b | _ => total end in
  exists k f, gp_step (r_grid r) = pow10 k /\ step_for budget (1 # 10000) k /\
    gp_name (r_grid r) = s_grid_name s /\ length (gp_cells (r_grid r)) = n /\
    (match f with Some x => has_rf = true /\ s_optimal_frequency s = true /\
                            frequency_of (data_of s) true None (s_start s) (option_map (fun e => e - interval (data_of s))%Z (s_end s)) (negb (s_revenue s)) (s_max_frequency s) = Ok x
     | None => has_rf = false \/ s_optimal_frequency s = false end) /\
    (is_fixed (s_scenario s) = true -> (qtotal (map ma_spend (an_media (r_optimized r))) <= qtotal (map ma_spend (an_media (r_non_optimized r))))%Q) /\
    forall i, (i < n)%nat -> exists L m N mn share,
      nth_error (an_media (r_non_optimized r)) i = Some mn /\ ma_spend mn = inject_Z N /\
      (share * total == hist i)%Q /\ near k N (budget * share) /\
      nth_error (pb_constraints (r_spec r)) i = Some (mkConstraintPb (nth i channels "") (inject_Z L) (inject_Z (L + Z.of_nat m * pow10 k))) /\
      nth_error (gp_cells (r_grid r)) i =
        Some (nth i channels "", map (fun v => (v, outcome_of (data_of s) true (negb (s_revenue s)) None (s_start s) (option_map (fun e => e - interval (data_of s))%Z (s_end s)) f i v)) (ladder L (pow10 k) m)).
Proof.
  intros s r hist Hn H Hg Hsp Hh total budget. destruct (inv s r H) as [k [o [L' [U' [Ek [Hu [Eo [Eb Er]]]]]]]]. cbv zeta in Er.
  destruct (request_fields Data New Frequency interval model_data filled s k (map (down (s_constraints s)) channels) (map (up (s_constraints s)) channels)) as [F1 [F2 [F3 [F4 [F5 [F8 [F9 [F10 [F11 [F6 [F7 [F12 [F13 [F14 [F15 F16]]]]]]]]]]]]]]].
  set (a := request_of s k _ _) in *. rewrite Hg in Eo.
  assert (Hsp' : spend_of (a_data a) (a_geos a) (a_start a) (a_end a) = Ok hist) by (rewrite F1, F2, F3, F4; exact Hsp).
  assert (Hp' : match a_pct a with Some l => Forall (fun x => 0 <= x)%Q l | None => True end) by (rewrite F5; exact Logic.I).
  destruct (fresh_lemma Data Frequency channels has_rf first_date last_date spend_of frequency_of outcome_of fitted a o hist Hn Eo Hsp' Hh Hp') as [sh0 [k0 [_ [_ [_ [Htot [_ [Hb [_ _]]]]]]]]]. clear sh0 k0.
  assert (Hbud : budget_for a total = budget).
  { unfold budget_for, budget. rewrite F12. unfold build_scenario in Ek. destruct (s_scenario s) as [[b|]|m t].
    - injection Ek as <-. reflexivity.
    - injection Ek as <-. reflexivity.
    - destruct (String.eqb m "roi"); [|destruct (String.eqb m "mroi"); [|discriminate]]; injection Ek as <-; reflexivity. }
  pose proof Eo as Eo'. rewrite (optimize_unfold Data Frequency channels has_rf first_date last_date spend_of frequency_of outcome_of fitted a None Hb) in Eo'.
  apply rbind_ok in Eo'. destruct Eo' as [g [Hc Eo']]. apply rbind_ok in Eo'. destruct Eo' as [sc [Es Eo']]. apply rbind_ok in Eo'. destruct Eo' as [[opt rounded] [Eopt Eo']].
  cbn [fst snd] in Eo'. assert (o = mkOutcome _ g opt rounded) by congruence. subst o. clear Eo'. cbn [o_grid o_optimized o_non_optimized] in *.
  destruct (create_inv Data Frequency channels has_rf spend_of frequency_of outcome_of fitted a _ _ g hist Hn Hc Hsp' Hh Hp' (budget_nonneg Data a Hb))
    as [share [kk [L [U [rows [m [E1 [E2 [E3 [E4 [E5 [E6 [G1 [G2 [_ [_ [_ [_ [_ [_ [_ [G10 _]]]]]]]]]]]]]]]]]]]]]].
  assert (Hbo : budget_or (a_budget a) total = budget).
  { rewrite <- Hbud. apply budget_for_or; auto. apply qsum_nonneg. auto. }
  destruct (share_spec n hist (a_pct a) share Hh Hp' E1) as [Hsh _]. rewrite F5 in Hsh. cbn [is_share] in Hsh.
  set (out := outcome_of (a_data a) (a_posterior a) (a_kpi a) (a_geos a) (a_start a) (a_end a) (g_frequency g)) in *.
  assert (Hps : forall c, (c < n)%nat -> increasing (points (out c) (L c) (pow10 kk) (m c)) /\ (length (points (out c) (L c) (pow10 kk) (m c)) <= rows)%nat).
  { intros c Hx. split; [apply points_increasing; apply pow10_pos|]. rewrite points_length. destruct (E6 c Hx). lia. }
  rewrite E5, G10, G2 in Eopt.
  destruct (optimize_inv n rows _ _ _ _ _ _ _ _ opt rounded Hn Hps Eopt) as [sh2 [L2 [U2 [H1 [_ [H3 _]]]]]].
  assert (sh2 = share) by congruence. subst sh2. clear H1 L2 U2.
  destruct (scenario_wanted Data a sc Hb Es) as [Hw _]. rewrite (budget_agrees Data channels a sc hist Hb Hw) in H3.
  change (qsum n hist) with total in H3, E2, E3. rewrite Hbo in H3, E2, E3. rewrite F8 in E2. rewrite F6, F7 in E3.
  assert (HLU : forall i, L' i = L i /\ U' i = U i).
  { rewrite G10 in Eb. apply (bounds_again channels kk _ (fun i => inject_Z (rounded i)) _ _ L U L' U' E3); auto. intros i. rewrite H3. reflexivity. }
  exists kk, (g_frequency g). rewrite Er. cbn [r_spec r_optimized r_non_optimized pb_constraints r_grid to_grid gp_step gp_name gp_cells]. rewrite G10, G1. split; auto.
  split; [apply step_of; auto|]. split; auto. split.
  { rewrite combine_length, map_length, E5, grid_of_length. lia. }
  split. { rewrite F1, F2, F3, F4, F9, F10, F15, F16 in E4. exact E4. }
  split. { intros Hf. rewrite !media_total. rewrite <- Zle_Qle. apply Htot. rewrite F11. exact Hf. }
  intros i Hi. rewrite numbered_nth, !media_nth by auto. cbn [fst snd].
  exists (L i), (m i), (rounded i). do 1 eexists. exists (share i). split; [reflexivity|]. split; [reflexivity|]. split; [apply Hsh|]. split; [rewrite H3; apply round_to_error|].
  destruct (HLU i) as [A B]. destruct (E6 i Hi) as [C1 [C2 C3]]. split; [rewrite A, B, C2; reflexivity|].
  rewrite nth_error_combine, nth_error_map. rewrite (nth_error_nth' channels "" Hi). rewrite E5. unfold grid_of. rewrite nth_error_map.
  rewrite (nth_error_nth' (seq 0 n) 0%nat) by (rewrite seq_length; auto). rewrite seq_nth by auto. cbn [option_map Nat.add]. rewrite kept_points_column.
  unfold points, ladder. rewrite map_map. unfold out. rewrite F1, F2, F3, F4, F9, F10. reflexivity.
Qed.

Lemma echo_lemma : forall s r, run s = Ok r ->
  r_name r = s_name s /\ r_group r = match s_group s with Some g => g | None => "" end /\
  pb_start (r_spec r) = resolved (s_start s) (first_date (data_of s)) /\
  pb_end (r_spec r) = (resolved (option_map (fun e => e - interval (data_of s))%Z (s_end s)) (last_date (data_of s)) + interval (data_of s))%Z /\
  pb_tag (r_spec r) = s_tag s /\ pb_revenue (r_spec r) = s_revenue s /\ pb_batch (r_spec r) = s_batch s /\
  pb_optimal_frequency (r_spec r) = s_optimal_frequency s /\ pb_max_frequency (r_spec r) = s_max_frequency s /\
  (forall x, x = r_optimized r \/ x = r_non_optimized r -> an_start x = pb_start (r_spec r) /\ an_end x = pb_end (r_spec r) /\ an_tag x = s_tag s /\
     map ma_channel (an_media x) = channels /\
     forall m, In m (an_media x) -> exists w, ma_outcomes m = [w] /\ o_revenue w = revenue_model || s_revenue s) /\
  match s_scenario s with
  | FixedScenario (Some b) => pb_scenario (r_spec r) = PbFixed b
  | FixedScenario None => exists b, pb_scenario (r_spec r) = PbFixed b /\ (b == qtotal (map ma_spend (an_media (r_optimized r))))%Q
  | FlexibleScenario m t => m = "roi" /\ pb_scenario (r_spec r) = PbFlexible [(PbRoi, t)] \/ m = "mroi" /\ pb_scenario (r_spec r) = PbFlexible [(PbMarginalRoi, t)]
  end.
Proof.
  intros s r H. destruct (inv s r H) as [k [o [L' [U' [Ek [Hu [Eo [Eb Er]]]]]]]]. cbv zeta in Er. subst r.
  cbn [r_name r_group r_spec r_optimized r_non_optimized pb_start pb_end pb_tag pb_revenue pb_batch pb_optimal_frequency pb_max_frequency pb_scenario].
  split; auto. split; auto. split; [unfold M_BudgetSpec.open_start, resolved; destruct (s_start s); reflexivity|].
  split; [unfold M_BudgetSpec.open_end, resolved; destruct (s_end s); cbn [option_map]; lia|].
  split; auto. split; auto. split; auto. split; auto. split; auto. split.
  - intros x [-> | ->]; cbn [to_analysis an_start an_end an_tag an_media]; (split; [reflexivity|]; split; [reflexivity|]; split; [reflexivity|]; split;
      [rewrite map_map; cbn [ma_channel]; apply numbered_names|]; intros m Hm; apply in_map_iff in Hm; destruct Hm as [ic [<- _]]; eexists; split; [reflexivity|]; reflexivity).
  - unfold reported_scenario. unfold build_scenario in Ek. destruct (s_scenario s) as [[b|]|m t].
    + reflexivity.
    + eexists. split; [reflexivity|]. rewrite media_total. reflexivity.
    + destruct (String.eqb_spec m "roi") as [->|E]; [left; auto|]. destruct (String.eqb_spec m "mroi") as [->|E']; [right; auto|discriminate].
Qed.

Lemma sorted_curve : forall l : list (Q * V), Permutation l (isort point_le l) /\ Sorted (fun x y => fst x <= fst y)%Q (isort point_le l).
Proof.
  intros l. split; [apply isort_perm|].
  assert (H : le_sorted point_le (isort point_le l)).
  { apply isort_sorted.
    - intros a b. unfold point_le. destruct (Qle_bool (fst a) (fst b)) eqn:E; auto. right. apply Qle_bool_iff. assert (~ (fst a <= fst b)%Q) by (intros X; apply Qle_bool_iff in X; congruence). lra.
    - intros a b c. unfold point_le. rewrite !Qle_bool_iff. lra. }
  apply StronglySorted_Sorted in H. induction H as [|x r H IH Hd]; constructor; auto.
  inversion Hd; subst; constructor. apply Qle_bool_iff. auto.
Qed.

Lemma statistics_lemma : forall s r, run s = Ok r ->
  exists k o, build_scenario (s_scenario s) = Ok k /\
    let a := request_of s k (map (down (s_constraints s)) channels) (map (up (s_constraints s)) channels) in
    optimize a (s_grid s) = Ok o /\ r_grid r = to_grid (o_grid _ o) (s_grid_name s) /\
    forall x f spend, x = r_optimized r /\ f = g_frequency (o_grid _ o) /\ spend = o_optimized _ o \/ x = r_non_optimized r /\ f = None /\ spend = o_non_optimized _ o ->
    forall i, (i < n)%nat -> exists m w, nth_error (an_media x) i = Some m /\ ma_spend m = inject_Z (spend i) /\
      ((0 < qtotal (map ma_spend (an_media x)))%Q -> (ma_share m * qtotal (map ma_spend (an_media x)) == ma_spend m)%Q) /\
      ma_outcomes m = [w] /\ tells w (metrics_of a (s_confidence s) (o_grid _ o) f spend i) (s_confidence s) /\
      (s_curves s = true -> Permutation (curve_of a o i) (ma_curve m) /\ Sorted (fun x y => fst x <= fst y)%Q (ma_curve m)) /\ (s_curves s = false -> ma_curve m = []).
Proof.
  intros s r H. destruct (inv s r H) as [k [o [L' [U' [Ek [Hu [Eo [Eb Er]]]]]]]]. cbv zeta in Er. exists k, o. split; auto. cbv zeta. split; auto. subst r. cbn [r_grid r_optimized r_non_optimized]. split; auto.
  intros x f spend Hx i Hi.
  set (a := request_of s k _ _) in *.
  assert (G : forall sp, (0 < inject_Z (zsum n sp))%Q -> (share_of channels sp i * inject_Z (zsum n sp) == inject_Z (sp i))%Q).
  { intros sp Hpos. unfold share_of. assert (X : Z.ltb 0 (zsum n sp) = true) by (apply Z.ltb_lt; rewrite Zlt_Qlt; exact Hpos). rewrite X. field. lra. }
  destruct Hx as [[-> [-> ->]] | [-> [-> ->]]]; rewrite media_nth by auto; do 2 eexists; (split; [reflexivity|]); cbn [ma_spend ma_share ma_outcomes ma_curve]; (split; [reflexivity|]);
    (split; [rewrite media_total; apply G|]); (split; [reflexivity|]); (split; [unfold tells, estimates, to_outcome, to_estimate; cbn; repeat split; reflexivity|]);
    (split; intros Hc; rewrite Hc; [apply sorted_curve|reflexivity]).
Qed.

Lemma grid_channels : forall a g0 o, optimize a g0 = Ok o -> g_channels (o_grid _ o) = channels.
Proof.
  assert (F : forall a o, optimize a None = Ok o -> g_channels (o_grid _ o) = channels).
  { intros a o H. assert (Hb : budget_arguments a). { apply (budget_ok Data). unfold M_Optimizer.optimize in H. apply rbind_ok in H. destruct H as [[] [H _]]. exact H. }
    rewrite (optimize_unfold Data Frequency channels has_rf first_date last_date spend_of frequency_of outcome_of fitted a None Hb) in H.
    apply rbind_ok in H. destruct H as [g [Hc H]]. apply rbind_ok in H. destruct H as [sc [_ H]]. apply rbind_ok in H. destruct H as [p [_ H]]. injection H as <-. cbn [o_grid].
    unfold create in Hc. destruct (negb (fitted (a_posterior a))); [discriminate|]. cbn [raise_if] in Hc. destruct (match a_geos a with Some [] => true | _ => false end); [discriminate|]. cbn [raise_if] in Hc.
    repeat (apply rbind_ok in Hc; destruct Hc as [? [_ Hc]]; cbv zeta in Hc). injection Hc as <-. reflexivity. }
  intros a [g|] o H; [|apply (F a o H)].
  destruct (reused_or_rebuilt Data Frequency channels has_rf first_date last_date spend_of frequency_of outcome_of fitted a g o H) as [[-> Hf]|H']; [|apply (F a o H')].
  unfold fits in Hf. tauto.
Qed.

Lemma result_facts : forall s r, run s = Ok r -> NoDup channels -> NoDup (map fst (gp_cells (r_grid r))) /\ map ma_channel (an_media (r_optimized r)) = channels /\
  map cp_channel (pb_constraints (r_spec r)) = channels.
Proof.
  intros s r H Hd. destruct (inv s r H) as [k [o [L' [U' [Ek [Hu [Eo [Eb Er]]]]]]]]. cbv zeta in Er. subst r. cbn [r_grid to_grid gp_cells r_optimized r_spec pb_constraints].
  rewrite (grid_channels _ _ _ Eo). split; [apply combine_keys_nodup; auto|]. split.
  - cbn [to_analysis an_media]. rewrite map_map. cbn [ma_channel]. apply numbered_names.
  - rewrite map_map. cbn [cp_channel]. apply numbered_names.
Qed.

Lemma execute_lemma : forall specs,
  (forall rs, execute specs = Ok rs <-> ids_distinct (map group_of specs) /\ Forall2 (fun s r => run s = Ok r) specs rs) /\
  (~ ids_distinct (map group_of specs) -> execute specs = Err ValueError).
Proof.
  intros specs. unfold M_BudgetSpec.execute. destruct (unique_ids (map group_of specs)) eqn:E; cbn [negb raise_if].
  - apply unique_spec in E. split; [|contradiction]. intros rs. rewrite mapR_ok. tauto.
  - assert (X : ~ ids_distinct (map group_of specs)) by (intros Y; apply unique_spec in Y; congruence). split; [|auto]. intros rs. split; [discriminate|]. tauto.
Qed.

Lemma range_down : forall cs, Forall in_range cs -> forall c, (0 <= down cs c /\ down cs c <= 1 /\ 0 <= up cs c)%Q.
Proof.
  intros cs H c. unfold down, up. destruct (given_for cs c) as [k|] eqn:E; [|lra]. unfold given_for in E. apply find_some in E. destruct E as [I _]. apply in_rev in I.
  rewrite Forall_forall in H. specialize (H k I). destruct k as [m lo hi|m lo hi]; cbn in H; [exact H|lra].
Qed.

Lemma answered_lemma : forall s hist, (0 < n)%nat -> fitted true = true -> s_grid s = None -> usable (s_constraints s) channels -> Forall in_range (s_constraints s) ->
  validate New Frequency dated s = Ok tt -> (open_start s <= open_end s)%Z -> askable (s_scenario s) ->
  spend_behind s = Ok hist -> (forall c, (c < n)%nat -> (0 <= hist c)%Q) -> (0 < qsum n hist)%Q ->
  (has_rf = true -> s_optimal_frequency s = true -> exists f, frequency_of (data_of s) true None (s_start s) (option_map (fun e => Z.sub e (interval (data_of s))) (s_end s)) (negb (s_revenue s)) (s_max_frequency s) = Ok f) ->
  exists r, run s = Ok r.
Proof.
  intros s hist Hn Hfit Hg Hu Hr Hval Hdates Hask Hsp Hh Hpos Hfreq.
  assert (Hk : exists k, build_scenario (s_scenario s) = Ok k /\ match s_scenario s with FixedScenario b => k = (b, None, None) | FlexibleScenario m t => k = (None, Some t, None) /\ (0 < t)%Q \/ k = (None, None, Some t) /\ (0 <= t)%Q end).
  { unfold build_scenario. destruct (s_scenario s) as [b|m t]; [eauto|]. cbn in Hask. destruct Hask as [[-> Ht]|[-> Ht]]; cbn; eauto. }
  destruct Hk as [k [Ek Hk]].
  destruct (constraints_lemma (s_constraints s) channels) as [[_ Eb]|[X _]]; [|contradiction].
  destruct (request_fields Data New Frequency interval model_data filled s k (map (down (s_constraints s)) channels) (map (up (s_constraints s)) channels)) as [F1 [F2 [F3 [F4 [F5 [F8 [F9 [F10 [F11 [F6 [F7 [F12 [F13 [F14 [F15 F16]]]]]]]]]]]]]]].
  set (a := request_of s k _ _) in *.
  assert (Hv : constraints_valid n (PerChannel (map (down (s_constraints s)) channels)) (PerChannel (map (up (s_constraints s)) channels))).
  { unfold constraints_valid. cbn [constraint_length_ok constraint_all]. rewrite !map_length. split; auto. split; auto.
    split; apply Forall_forall; intros x Hx; apply in_map_iff in Hx; destruct Hx as [c [<- _]]; destruct (range_down _ Hr c) as [A [B C]]; auto. }
  assert (Hba : budget_arguments a /\ usable_target a).
  { unfold budget_arguments, usable_target. rewrite F11, F12, F13, F14. destruct (s_scenario s) as [b|m t]; cbn [is_fixed].
    - subst k. cbn [fst snd]. split; [split; [reflexivity|split; [reflexivity|]]|split; discriminate]. intros b' E. subst b. exact Hask.
    - destruct Hk as [[-> Ht]|[-> Ht]]; cbn [fst snd]; (split; [split; [reflexivity|]|split; congruence]); [left|right]; eauto. }
  destruct Hba as [Hb Ht].
  assert (Hsp' : spend_of (a_data a) (a_geos a) (a_start a) (a_end a) = Ok hist) by (rewrite F1, F2, F3, F4; exact Hsp).
  destruct (succeeds_lemma Data Frequency channels has_rf first_date last_date spend_of frequency_of outcome_of fitted a hist Hn) as [o Eo]; auto.
  { rewrite F9. exact Hfit. } { rewrite F2. discriminate. } { unfold split_ok. rewrite F5. exact Logic.I. } { rewrite F8. reflexivity. } { rewrite F6, F7. exact Hv. }
  { intros X1 X2. rewrite F1, F2, F3, F4, F9, F10, F16. apply Hfreq; auto. rewrite <- F15. exact X2. }
  assert (Hp' : forall hist, spend_of (a_data a) None (a_start a) (a_end a) = Ok hist -> forall c, (c < n)%nat -> (0 <= hist c)%Q).
  { intros h Hh' c Hc. rewrite F1, F3, F4, Hsp in Hh'. injection Hh' as <-. auto. }
  destruct (searched Data Frequency channels has_rf first_date last_date spend_of frequency_of outcome_of fitted a None o Hn F2 F5 Eo Hp') as [share [L [U [sc [Hw [E1 [E2 [E3 E4]]]]]]]]; [discriminate|].
  rewrite F6, F7 in E2.
  destruct (bounds_ok n (fun i => inject_Z (o_non_optimized _ o i)) (g_round (o_grid _ o)) _ _ Hv) as [L' [U' [Eb' _]]].
  assert (HO : (0 <= zsum n (o_optimized _ o))%Z).
  { destruct (fresh_lemma Data Frequency channels has_rf first_date last_date spend_of frequency_of outcome_of fitted a o hist Hn Eo Hsp' Hh) as [sh [kk [Hsh [Hst _]]]]; [rewrite F5; exact Logic.I|].
    assert (HN : forall i, (i < n)%nat -> (0 <= L i)%Z).
    { intros i Hi. destruct (bounds_ok n (fun i => budget_of n (g_hist (o_grid _ o)) sc * share i)%Q (g_round (o_grid _ o)) _ _ Hv) as [L1 [U1 [E5 E6]]]. rewrite E2 in E5. injection E5 as <- <-.
      destruct (E6 i Hi) as [-> _]. rewrite at_map by auto. destruct (range_down _ Hr (nth i channels "")) as [A [B _]]. apply round_to_nonneg. rewrite <- E3.
      apply Qmult_le_0_compat; [lra|]. change 0%Q with (inject_Z 0). rewrite <- Zle_Qle.
      rewrite E3. apply round_to_nonneg.
      assert (Hgh : g_hist (o_grid _ o) = hist).
      { pose proof Eo as Eo'. rewrite (optimize_unfold Data Frequency channels has_rf first_date last_date spend_of frequency_of outcome_of fitted a None Hb) in Eo'.
        apply rbind_ok in Eo'. destruct Eo' as [g [Hc Eo']]. apply rbind_ok in Eo'. destruct Eo' as [sc' [Es Eo']]. apply rbind_ok in Eo'. destruct Eo' as [pp [Eopt Eo']]. injection Eo' as <-. cbn [o_grid].
        destruct (create_inv Data Frequency channels has_rf spend_of frequency_of outcome_of fitted a _ _ g hist Hn Hc Hsp' Hh) as [share' [k' [L2 [U2 [rows [m [_ [_ [_ [_ [_ [_ [_ [G2 _]]]]]]]]]]]]]]; auto; [rewrite F5; exact Logic.I|exact (budget_nonneg Data a Hb)]. }
      rewrite Hgh in *. destruct (share_spec n hist None share Hh Logic.I E1) as [_ Hnn].
      rewrite (budget_agrees Data channels a sc hist Hb Hw). apply Qmult_le_0_compat; [|apply Hnn; auto].
      rewrite (budget_for_or Data a (qsum n hist) Hb) by (apply qsum_nonneg; auto). unfold budget_for. rewrite F12. destruct (s_scenario s) as [b|m t].
      - subst k. cbn [fst]. destruct b as [b|]; [cbn in Hask; lra|apply qsum_nonneg; auto].
      - destruct Hk as [[-> _]|[-> _]]; cbn [fst]; apply qsum_nonneg; auto. }
    assert (G : forall m f, (forall i, (i < m)%nat -> (0 <= f i)%Z) -> (0 <= zsum m f)%Z). { clear. induction m as [|m IH]; intros f H; cbn [zsum]; [lia|]. assert (0 <= f m)%Z by (apply H; lia). assert (0 <= zsum m f)%Z by (apply IH; intros; apply H; lia). lia. }
    apply G. intros i Hi. specialize (HN i Hi). destruct (E4 i Hi). lia. }
  unfold M_BudgetSpec.run_spec. rewrite Ek. cbn [rbind]. rewrite Eb. cbn [rbind fst snd]. cbv zeta. fold a. rewrite Hg, Eo. cbn [rbind].
  unfold to_result, constraints_abs. rewrite Eb'. cbn [rbind fst snd]. cbv zeta.
  assert (Hval' : forall cs, validate New Frequency dated (with_resolved s (open_start s) (open_end s) cs) = Ok tt).
  { intros cs. unfold validate in Hval |- *. cbn [with_resolved s_start s_end s_name s_grid_name s_confidence s_batch s_new s_optimal_frequency s_max_frequency].
    assert (X : Z.ltb (open_end s) (open_start s) = false) by (apply Z.ltb_ge; exact Hdates). rewrite X. cbn [raise_if].
    destruct (match s_start s, s_end s with Some a, Some b => Z.ltb b a | _, _ => false end); [discriminate|]. exact Hval. }
  rewrite Hval'. cbn [rbind with_resolved s_scenario].
  assert (Hpb : forall sp : M_BudgetSpec.spec New Frequency, (exists x, s_start sp = Some x) -> (exists x, s_end sp = Some x) ->
     s_constraints sp = map (fun ic : nat * string => Abs (snd ic) (inject_Z (L' (fst ic))) (inject_Z (U' (fst ic)))) (combine (seq 0 n) channels) ->
     (match s_scenario sp with FixedScenario None => False | FixedScenario (Some _) => True | FlexibleScenario m _ => m = "roi" \/ m = "mroi" end) -> exists p, to_proto sp = Ok p).
  { intros sp [x Hx] [y Hy] Hc Hsc. unfold to_proto. rewrite Hx, Hy, Hc. rewrite (abs_pbs (fun i => inject_Z (L' i)) (fun i => inject_Z (U' i))).
    destruct (s_scenario sp) as [[b|]|m t]; [|contradiction|]; [cbn [rbind]; eauto|]. destruct Hsc as [-> | ->]; cbn; eauto. }
  destruct (s_scenario s) as [[b|]|m t] eqn:Es.
  - cbn [rbind]. edestruct Hpb as [p Ep]; [| | | |rewrite Ep; cbn [rbind]; eauto]; cbn [with_resolved s_start s_end s_constraints s_scenario]; eauto. rewrite Es. exact Logic.I.
  - unfold new_fixed. assert (X : Qlt_bool (inject_Z (zsum n (o_optimized Frequency o))) 0 = false).
    { apply Qlt_bool_false. change 0%Q with (inject_Z 0). rewrite <- Zle_Qle. exact HO. }
    rewrite X. cbn [raise_if rbind]. edestruct Hpb as [p Ep]; [| | | |rewrite Ep; cbn [rbind]; eauto]; cbn [with_scenario with_resolved s_start s_end s_constraints s_scenario]; eauto.
  - cbn [rbind]. edestruct Hpb as [p Ep]; [| | | |rewrite Ep; cbn [rbind]; eauto]; cbn [with_resolved s_start s_end s_constraints s_scenario]; eauto. rewrite Es. cbn in Hask. tauto.
Qed.

Lemma zero_budget_lemma : forall s b, s_scenario s = FixedScenario (Some b) -> (b == 0)%Q -> run s = Err ValueError.
Proof.
  intros s b Es Hb. unfold M_BudgetSpec.run_spec. rewrite Es. cbn [build_scenario rbind].
  destruct (constraints_lemma (s_constraints s) channels) as [[_ E]|[_ E]]; rewrite E; [|reflexivity]. cbn [rbind fst snd]. cbv zeta.
  rewrite (arguments_refused Data Frequency channels has_rf first_date last_date spend_of frequency_of outcome_of fitted); [reflexivity|].
  unfold budget_arguments. cbn [M_BudgetSpec.request_of a_fixed]. rewrite Es. cbn [is_fixed a_budget]. intros [_ [_ X]]. specialize (X b eq_refl). lra.
Qed.

Lemma unusable_lemma : forall s k, build_scenario (s_scenario s) = Ok k -> ~ usable (s_constraints s) channels -> run s = Err ValueError.
Proof.
  intros s k Ek Hu. unfold M_BudgetSpec.run_spec. rewrite Ek. cbn [rbind]. destruct (constraints_lemma (s_constraints s) channels) as [[X _]|[_ E]]; [contradiction|]. rewrite E. reflexivity.
Qed.

(** *** Tables *)
Variable historical : Z -> Z -> list (string * Q).
Variable media_channels : list string.

Lemma result_rows_spec : forall r, NoDup (map ma_channel (an_media (r_optimized r))) -> ~ In "All Channels" (map ma_channel (an_media (r_optimized r))) ->
  (forall m, In m (an_media (r_optimized r)) -> exists w : outcome_pb V, ma_outcomes m = [w]) ->
  Forall2 (wanted_result_row r) (an_media (r_optimized r)) (result_rows r).
Proof.
  intros r Hd Ha Ho. unfold result_rows. rewrite to_dict_nodup by (rewrite map_map; exact Hd).
  clear Hd. induction (an_media (r_optimized r)) as [|m l IH]; cbn [map flat_map]; [constructor|].
  assert (A : String.eqb (ma_channel m) "All Channels" = false). { apply String.eqb_neq. intros X. apply Ha. cbn [map In]. auto. }
  cbn [fst snd]. rewrite A. destruct (Ho m (or_introl eq_refl)) as [w Hw].
  assert (B : map (outcome_row (r_group r) true m) (first_outcome true m) ++ map (outcome_row (r_group r) false m) (first_outcome false m) = [outcome_row (r_group r) (o_revenue w) m w]).
  { unfold first_outcome. rewrite Hw. cbn [find]. destruct (o_revenue w); reflexivity. }
  rewrite B. constructor.
  - exists w. split; [exact Hw|]. repeat split; reflexivity.
  - apply IH; [intros X; apply Ha; cbn [map In]; auto|intros m' Hm'; apply Ho; cbn [In]; auto].
Qed.

Lemma forall2_items : forall (A B C : Type) (R : A -> B -> C -> Prop) (f : A -> list B) (g : A -> list C) l,
  (forall x, In x l -> Forall2 (R x) (f x) (g x)) -> Forall2 (fun p => R (fst p) (snd p)) (items f l) (flat_map g l).
Proof.
  intros A B C R f g l H. induction l as [|x r IH]; cbn [items flat_map]; [constructor|]. apply Forall2_app.
  - pose proof (H x (or_introl eq_refl)) as Hx. induction Hx; cbn [map]; constructor; auto.
  - apply IH. intros y Hy. apply H. right. exact Hy.
Qed.

Lemma tables_lemma : forall specs rs, channels <> [] -> NoDup channels -> ~ In "All Channels" channels -> execute specs = Ok rs -> specs <> [] ->
  exists t, make_tables V historical media_channels rs = Ok (Some t) /\
    Forall2 (fun p w => wanted_spec_row historical (fst p) (snd p) w) (items (fun r => pb_constraints (r_spec r)) rs) (t_specs t) /\
    Forall2 (fun p w => wanted_result_row (fst p) (snd p) w) (items (fun r => an_media (r_optimized r)) rs) (t_results t) /\
    Forall2 (fun p w => cw_group w = r_group (fst p) /\ cw_channel w = fst (snd p) /\ cw_spend w = fst (snd (snd p)) /\ cw_outcome w = snd (snd (snd p))) (items curve_items rs) (t_curves t) /\
    Forall2 (fun r tab => fst tab = grid_sheet r /\
      Forall2 (fun e w => gw_group w = r_group r /\ gw_channel w = fst e /\ gw_spend w = fst (snd e) /\ gw_outcome w = snd (snd e)) (grid_items r) (snd tab)) rs (t_grids t).
Proof.
  intros specs rs Hne Hd Ha He Hs. apply (proj1 (execute_lemma specs)) in He. destruct He as [Hid HF].
  assert (Hids : map r_group rs = map group_of specs).
  { clear - HF. induction HF as [|s r ss rs H HF IH]; cbn [map]; auto. rewrite IH. f_equal. destruct (echo_lemma s r H) as [_ [G _]]. exact G. }
  assert (Hall : forall r, In r rs -> exists s, run s = Ok r).
  { clear - HF. induction HF as [|s r ss rs H HF IH]; intros x Hx; [destruct Hx|]. destruct Hx as [<-|Hx]; eauto. }
  destruct rs as [|r0 rs0]; [inversion HF; subst; contradiction|]. set (rs := r0 :: rs0) in *.
  assert (Hsp : forall r, In r rs -> exists l, spec_rows V historical media_channels r = Ok l /\ Forall2 (wanted_spec_row historical r) (pb_constraints (r_spec r)) l).
  { intros r Hr. destruct (Hall r Hr) as [s E]. destruct (echo_lemma s r E) as [_ [_ [_ [_ [_ [_ [_ [_ [_ [_ Hsc]]]]]]]]]].
    destruct (result_facts s r E Hd) as [_ [_ Hcp]]. assert (Hnil : pb_constraints (r_spec r) <> []) by (intros X; rewrite X in Hcp; cbn in Hcp; congruence).
    assert (X : (exists b, pb_scenario (r_spec r) = PbFixed b) \/ exists m t, pb_scenario (r_spec r) = PbFlexible [(m, t)]).
    { destruct (s_scenario s) as [[b|]|m t]; [left; eauto|left; destruct Hsc as [b [Y _]]; eauto|right; destruct Hsc as [[_ Y]|[_ Y]]; eauto]. }
    unfold spec_rows. cbv zeta. destruct X as [[b X]|[m [t X]]]; rewrite X; cbn [rbind].
    - eexists. split; [reflexivity|]. destruct (pb_constraints (r_spec r)) as [|c0 l0] eqn:El; [contradiction|]. clear - X. induction (c0 :: l0) as [|c l IH]; cbn [map]; constructor; auto.
      unfold wanted_spec_row. rewrite X. cbn. repeat split; reflexivity.
    - eexists. split; [reflexivity|]. destruct (pb_constraints (r_spec r)) as [|c0 l0] eqn:El; [contradiction|]. clear - X. induction (c0 :: l0) as [|c l IH]; cbn [map]; constructor; auto.
      unfold wanted_spec_row. rewrite X. cbn. repeat split; try reflexivity. exists m, t. split; auto. }
  unfold make_tables. change (r0 :: rs0) with rs. assert (Hu : unique_ids (map r_group rs) = true) by (apply unique_spec; rewrite Hids; exact Hid).
  unfold rs at 1. rewrite Hu. cbn [negb raise_if].
  assert (Hm : exists ls, mapR (spec_rows V historical media_channels) rs = Ok ls /\ Forall2 (fun p w => wanted_spec_row historical (fst p) (snd p) w) (items (fun r => pb_constraints (r_spec r)) rs) (concat ls)).
  { clear - Hsp. induction rs as [|r l IH]; cbn [mapR]; [exists []; split; [reflexivity|constructor]|].
    destruct (Hsp r (or_introl eq_refl)) as [x [Ex Hx]]. destruct IH as [ls [El Hl]]; [intros y Hy; apply Hsp; right; exact Hy|]. rewrite Ex. cbn [rbind]. rewrite El. cbn [rbind].
    exists (x :: ls). split; [reflexivity|]. cbn [concat]. unfold items. cbn [flat_map]. apply Forall2_app; [|exact Hl]. clear - Hx. induction Hx; cbn [map]; constructor; auto. }
  destruct Hm as [ls [El Hl]]. rewrite El. cbn [rbind]. eexists. split; [reflexivity|]. cbn [t_specs t_results t_curves t_grids]. split; [exact Hl|]. split.
  { apply (forall2_items _ _ _ (fun r m w => wanted_result_row r m w)). intros r Hr. destruct (Hall r Hr) as [s E]. destruct (result_facts s r E Hd) as [_ [Hmc _]].
    destruct (echo_lemma s r E) as [_ [_ [_ [_ [_ [_ [_ [_ [_ [Hx _]]]]]]]]]]. destruct (Hx _ (or_introl eq_refl)) as [_ [_ [_ [_ Ho]]]].
    apply result_rows_spec; [rewrite Hmc; auto|rewrite Hmc; auto|]. intros m Hm. destruct (Ho m Hm) as [w [Hw _]]. eauto. }
  split.
  { apply (forall2_items _ _ _ (fun r e w => cw_group w = r_group r /\ cw_channel w = fst e /\ cw_spend w = fst (snd e) /\ cw_outcome w = snd (snd e))). intros r Hr.
    unfold curve_items, curve_rows. induction (an_media (r_optimized r)) as [|m l IH]; cbn [flat_map]; [constructor|]. apply Forall2_app; [|exact IH].
    induction (ma_curve m) as [|p q IHq]; cbn [map]; constructor; cbn; auto. }
  clear El Hu Hids Hid HF Hl Hsp. clearbody rs. induction rs as [|r l IH]; cbn [map]; constructor.
  - cbn [fst snd]. split; [reflexivity|]. destruct (Hall r (or_introl eq_refl)) as [s E]. destruct (result_facts s r E Hd) as [Hg _].
    unfold grid_items, grid_rows. rewrite to_dict_nodup by exact Hg. induction (gp_cells (r_grid r)) as [|e q IHq]; cbn [flat_map]; [constructor|]. apply Forall2_app.
    + clear. induction (snd e) as [|p q IHq]; cbn [map]; constructor; cbn; auto.
    + apply IHq. cbn [map] in Hg. inversion Hg; auto.
  - apply IH. intros; apply Hall; right; auto.
Qed.
End P.
