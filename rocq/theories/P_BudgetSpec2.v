(** Proofs for C99: results of the processor. *)
From Coq Require Import ZArith QArith Lqa String List Bool Arith Lia Permutation.
From Verif Require Import Lib_QSum Lib_Sort M_Base M_Opt M_Optimizer M_BudgetSpec S_Opt S_Optimizer S_BudgetSpec P_Opt P_OptGrid P_Optimizer P_BudgetSpec.
Import ListNotations.
Local Open Scope string_scope.
Local Open Scope list_scope.

Lemma numbered_nth : forall (B : Type) (f : nat * string -> B) l i, (i < length l)%nat ->
  nth_error (map f (combine (seq 0 (length l)) l)) i = Some (f (i, nth i l "")).
Proof.
  intros B f l i Hi. rewrite nth_error_map.
  assert (G : forall (m : list string) a j, (j < length m)%nat -> nth_error (combine (seq a (length m)) m) j = Some ((a + j)%nat, nth j m "")).
  { clear. induction m as [|x m IH]; intros a j Hj; cbn [length] in Hj; [lia|]. cbn [length seq combine]. destruct j as [|j]; cbn [nth_error nth].
    - rewrite Nat.add_0_r. reflexivity.
    - rewrite IH by lia. f_equal. f_equal. lia. }
  rewrite G by auto. reflexivity.
Qed.
Lemma numbered_length : forall (B : Type) (f : nat * string -> B) l, length (map f (combine (seq 0 (length l)) l)) = length l.
Proof. intros. rewrite map_length, combine_length, seq_length. lia. Qed.
Lemma numbered_names : forall (l : list string), map snd (combine (seq 0 (length l)) l) = l.
Proof. intros l. generalize 0%nat. induction l as [|x r IH]; intros a; cbn [length seq combine map snd]; auto. rewrite IH. reflexivity. Qed.
Lemma numbered_map : forall (B : Type) (F : string -> B) (l : list string), map (fun ic => F (snd ic)) (combine (seq 0 (length l)) l) = map F l.
Proof. intros B F l. rewrite <- (map_map snd F). rewrite numbered_names. reflexivity. Qed.

Lemma at_map : forall (F : string -> Q) l i, (i < length l)%nat -> constraint_at (PerChannel (map F l)) i = F (nth i l "").
Proof.
  intros F l i Hi. unfold constraint_at. destruct l as [|x [|y r]]; cbn [map length] in *.
  - lia.
  - assert (i = 0)%nat by lia. subst i. reflexivity.
  - change (F x :: F y :: map F r) with (map F (x :: y :: r)). rewrite (nth_indep _ 0%Q (F "")) by (rewrite map_length; cbn [length]; lia). apply map_nth.
Qed.

Lemma qtotal_qsum : forall (f : nat -> Z) (l : list string),
  qtotal (map (fun ic => inject_Z (f (fst ic))) (combine (seq 0 (length l)) l)) == inject_Z (zsum (length l) f).
Proof.
  intros f l. assert (G : forall (m : list string) a, (qtotal (map (fun ic : nat * string => inject_Z (f (fst ic))) (combine (seq a (length m)) m)) == inject_Z (zsum (length m) (fun i => f (a + i)%nat)))%Q).
  { clear. induction m as [|x m IH]; intros a; cbn [length seq combine map]; [reflexivity|]. unfold qtotal in *. cbn [fold_right fst]. rewrite IH. cbv beta.
    assert (E : forall k g, zsum (S k) g = (g 0%nat + zsum k (fun i => g (S i)))%Z).
    { clear. induction k as [|k IH]; intros g; cbn [zsum] in *; [lia|]. rewrite IH. lia. }
    rewrite E. rewrite <- inject_Z_plus. rewrite Nat.add_0_r.
    assert (F : forall k g h, (forall i, g i = h i) -> zsum k g = zsum k h). { clear. induction k as [|k IH]; intros g h H; cbn [zsum]; auto. rewrite (IH g h H), H. reflexivity. }
    rewrite (F (length m) (fun i => f (S a + i)%nat) (fun i => f (a + S i)%nat)) by (intros i; f_equal; lia). reflexivity. }
  apply (G l 0%nat).
Qed.

Section P.
Variables Data New Frequency V : Type.
Variable channels : list string.
Variable has_rf : bool.
Variables first_date last_date interval : Data -> Z.
Variable spend_of : Data -> option (list string) -> option Z -> option Z -> result (nat -> Q).
Variable frequency_of : Data -> bool -> option (list string) -> option Z -> option Z -> bool -> option Q -> result Frequency.
Variable outcome_of : Data -> bool -> bool -> option (list string) -> option Z -> option Z -> option Frequency -> nat -> Z -> Q.
Variable fitted : bool -> bool.
Variable model_data : Data.
Variable filled : New -> Data.
Variable dated : New -> bool.
Variable revenue_model : bool.
Variable metrics_of : request Data -> Q -> ogrid Frequency -> option Frequency -> (nat -> Z) -> nat -> metrics V.
Variable curve_of : request Data -> outcome Frequency -> nat -> list (Q * V).
Notation n := (length channels).
Notation spec := (spec New Frequency).
Notation data_of := (data_of Data New Frequency model_data filled).
Notation request_of := (request_of Data New Frequency interval model_data filled).
Notation open_start := (open_start Data New Frequency first_date model_data filled).
Notation open_end := (open_end Data New Frequency last_date interval model_data filled).
Notation optimize := (M_Optimizer.optimize Data Frequency channels has_rf first_date last_date spend_of frequency_of outcome_of fitted).
Notation run := (run_spec Data New Frequency V channels has_rf first_date last_date interval spend_of frequency_of outcome_of fitted model_data filled dated revenue_model metrics_of curve_of).
Notation analysis := (to_analysis New Frequency V channels).

Definition reported_scenario (s : spec) (o : outcome Frequency) : scenario_pb :=
  match s_scenario s with
  | FixedScenario (Some b) => PbFixed b
  | FixedScenario None => PbFixed (inject_Z (zsum n (o_optimized _ o)))
  | FlexibleScenario m t => PbFlexible [((if String.eqb m "roi" then PbRoi else PbMarginalRoi), t)]
  end.

Lemma abs_pbs : forall (f g : nat -> Q) (l : list (nat * string)),
  constraint_pbs (map (fun ic => Abs (snd ic) (f (fst ic)) (g (fst ic))) l) = Ok (map (fun ic => mkConstraintPb (snd ic) (f (fst ic)) (g (fst ic))) l).
Proof. intros f g l. induction l as [|x r IH]; cbn [map constraint_pbs]; auto. rewrite IH. reflexivity. Qed.

Lemma run_inv : forall s r, run s = Ok r ->
  exists k o L U, build_scenario (s_scenario s) = Ok k /\ usable (s_constraints s) channels /\
    optimize (request_of s k (map (down (s_constraints s)) channels) (map (up (s_constraints s)) channels)) (s_grid s) = Ok o /\
    get_optimization_bounds n (fun i => inject_Z (o_non_optimized _ o i)) (g_round (o_grid _ o))
      (PerChannel (map (down (s_constraints s)) channels)) (PerChannel (map (up (s_constraints s)) channels)) = Ok (L, U) /\
    let a := request_of s k (map (down (s_constraints s)) channels) (map (up (s_constraints s)) channels) in
    let curves := if s_curves s then Some (curve_of a o) else None in
    r = mkResultPb (s_name s) (group_of s)
          (mkSpecPb (open_start s) (open_end s) (s_tag s) (s_revenue s) (s_batch s) (reported_scenario s o)
             (map (fun ic => mkConstraintPb (snd ic) (inject_Z (L (fst ic))) (inject_Z (U (fst ic)))) (combine (seq 0 n) channels))
             (s_optimal_frequency s) (s_max_frequency s))
          (analysis s (open_start s) (open_end s) (o_optimized _ o) (metrics_of a (s_confidence s) (o_grid _ o) (g_frequency (o_grid _ o)) (o_optimized _ o)) (revenue_model || s_revenue s) curves)
          (analysis s (open_start s) (open_end s) (o_non_optimized _ o) (metrics_of a (s_confidence s) (o_grid _ o) None (o_non_optimized _ o)) (revenue_model || s_revenue s) curves)
          (to_grid (o_grid _ o) (s_grid_name s)).
Proof.
  intros s r H. unfold run_spec in H. apply rbind_ok in H. destruct H as [k [Ek H]]. apply rbind_ok in H. destruct H as [b [Eb H]]. cbv zeta in H.
  destruct (constraints_lemma (s_constraints s) channels) as [[Hu Eb']|[_ Eb']]; [|rewrite Eb' in Eb; discriminate].
  rewrite Eb' in Eb. injection Eb as <-. cbn [fst snd] in H.
  apply rbind_ok in H. destruct H as [o [Eo H]]. unfold to_result in H. apply rbind_ok in H. destruct H as [cs [Ec H]].
  unfold constraints_abs in Ec. apply rbind_ok in Ec. destruct Ec as [[L U] [Ebd Ec]]. cbn [fst snd] in Ec. injection Ec as <-.
  exists k, o, L, U. split; auto. split; auto. split; auto. split; auto. cbv zeta in H |- *.
  apply rbind_ok in H. destruct H as [[] [_ H]]. apply rbind_ok in H. destruct H as [r' [Er' H]]. apply rbind_ok in H. destruct H as [p [Ep H]]. injection H as <-.
  assert (Hp : p = mkSpecPb (open_start s) (open_end s) (s_tag s) (s_revenue s) (s_batch s) (reported_scenario s o)
             (map (fun ic => mkConstraintPb (snd ic) (inject_Z (L (fst ic))) (inject_Z (U (fst ic)))) (combine (seq 0 n) channels))
             (s_optimal_frequency s) (s_max_frequency s)).
  { unfold reported_scenario. cbn [with_resolved s_scenario] in Er'. destruct (s_scenario s) as [[t|]|m t] eqn:Es.
    - injection Er' as <-. unfold to_proto in Ep. cbn [with_resolved s_start s_end s_scenario s_constraints s_tag s_revenue s_batch s_optimal_frequency s_max_frequency] in Ep.
      rewrite Es in Ep. cbn [rbind] in Ep. rewrite (abs_pbs (fun i => inject_Z (L i)) (fun i => inject_Z (U i))) in Ep. cbn [rbind] in Ep. injection Ep as <-. reflexivity.
    - apply rbind_ok in Er'. destruct Er' as [sc [Esc Er']]. injection Er' as <-. unfold new_fixed in Esc.
      destruct (Qlt_bool (inject_Z (zsum n (o_optimized Frequency o))) 0); [discriminate|]. cbn [raise_if] in Esc. injection Esc as <-.
      unfold to_proto in Ep. cbn [with_scenario with_resolved s_start s_end s_scenario s_constraints s_tag s_revenue s_batch s_optimal_frequency s_max_frequency] in Ep.
      cbn [rbind] in Ep. rewrite (abs_pbs (fun i => inject_Z (L i)) (fun i => inject_Z (U i))) in Ep. cbn [rbind] in Ep. injection Ep as <-. reflexivity.
    - injection Er' as <-. unfold to_proto in Ep. cbn [with_resolved s_start s_end s_scenario s_constraints s_tag s_revenue s_batch s_optimal_frequency s_max_frequency] in Ep.
      rewrite Es in Ep. destruct (String.eqb m "roi") eqn:E1; [|destruct (String.eqb m "mroi") eqn:E2; [|discriminate Ep]]; cbn [rbind] in Ep;
        rewrite (abs_pbs (fun i => inject_Z (L i)) (fun i => inject_Z (U i))) in Ep; cbn [rbind] in Ep; injection Ep as <-; reflexivity. }
  assert (Hk : a_kpi (request_of s k (map (down (s_constraints s)) channels) (map (up (s_constraints s)) channels)) = negb (s_revenue s)).
  { unfold M_BudgetSpec.request_of. destruct k as [[? ?] ?]. reflexivity. }
  rewrite Hp, Hk, negb_involutive. reflexivity.
Qed.

(** The bounds recomputed from the rounded spend are those of the search. *)
Lemma bounds_again : forall k (spend spend' : nat -> Q) lo hi L U L' U',
  get_optimization_bounds n spend k lo hi = Ok (L, U) -> (forall i, spend' i = inject_Z (round_to k (spend i))) ->
  get_optimization_bounds n spend' k lo hi = Ok (L', U') ->
  forall i, L' i = L i /\ U' i = U i.
Proof.
  intros k spend spend' lo hi L U L' U' H Hs H' i. unfold get_optimization_bounds in H, H'. apply rbind_ok in H. destruct H as [b [Eb H]]. rewrite Eb in H'. cbn [rbind] in H'.
  injection H as <- <-. injection H' as <- <-. rewrite Hs, (round_to_fixed k (round_to k (spend i))) by apply round_to_multiple. auto.
Qed.

Lemma valid_of_bounds : forall spend k lo hi b, get_optimization_bounds n spend k lo hi = Ok b -> constraints_valid n lo hi.
Proof.
  intros spend k lo hi b H. unfold get_optimization_bounds, get_spend_bounds in H. apply rbind_ok in H. destruct H as [b0 [H _]]. apply rbind_ok in H. destruct H as [p0 [H _]]. apply validate_ok in H. exact (proj1 H).
Qed.

(** The requests of the processor are well-formed for the optimizer except for a budget of zero. *)
Lemma request_fields : forall s k lo hi, a_data (request_of s k lo hi) = data_of s /\ a_geos (request_of s k lo hi) = None /\ a_start (request_of s k lo hi) = s_start s /\
  a_end (request_of s k lo hi) = option_map (fun e => e - interval (data_of s))%Z (s_end s) /\ a_pct (request_of s k lo hi) = None /\ a_gtol (request_of s k lo hi) = (1 # 10000)%Q /\
  a_posterior (request_of s k lo hi) = true /\ a_kpi (request_of s k lo hi) = negb (s_revenue s) /\ a_fixed (request_of s k lo hi) = is_fixed (s_scenario s) /\
  lower_of (request_of s k lo hi) = PerChannel lo /\ upper_of (request_of s k lo hi) = PerChannel hi /\ a_budget (request_of s k lo hi) = fst (fst k) /\
  a_target_roi (request_of s k lo hi) = snd (fst k) /\ a_target_mroi (request_of s k lo hi) = snd k /\ a_optimal_frequency (request_of s k lo hi) = s_optimal_frequency s /\
  a_max_frequency (request_of s k lo hi) = s_max_frequency s.
Proof. intros s [[b r] m] lo hi. cbn. repeat split; reflexivity. Qed.

(** What the search works with, whichever grid it uses. *)
Lemma searched : forall a g0 o, (0 < n)%nat -> a_geos a = None -> a_pct a = None ->
  optimize a g0 = Ok o ->
  (forall hist, spend_of (a_data a) None (a_start a) (a_end a) = Ok hist -> forall c, (c < n)%nat -> (0 <= hist c)%Q) ->
  (forall g, g0 = Some g -> exists rows ps, g_cells g = grid_of n rows ps /\ forall c, (c < n)%nat -> increasing (ps c) /\ (length (ps c) <= rows)%nat) ->
  exists share L U s,
    wanted a s /\ validate_pct_of_spend n (g_hist (o_grid _ o)) None = Ok share /\
    get_optimization_bounds n (fun i => budget_of n (g_hist (o_grid _ o)) s * share i)%Q (g_round (o_grid _ o)) (lower_of a) (upper_of a) = Ok (L, U) /\
    (forall i, o_non_optimized _ o i = round_to (g_round (o_grid _ o)) (budget_of n (g_hist (o_grid _ o)) s * share i)%Q) /\
    (forall c, (c < n)%nat -> (L c <= o_optimized _ o c <= U c)%Z).
Proof.
  intros a g0 o Hn Hg Hp H Hh Hgrid.
  assert (Hb : budget_arguments a). { apply (budget_ok Data). unfold M_Optimizer.optimize in H. apply rbind_ok in H. destruct H as [[] [H _]]. exact H. }
  rewrite (optimize_unfold Data Frequency channels has_rf first_date last_date spend_of frequency_of outcome_of fitted a g0 Hb) in H.
  apply rbind_ok in H. destruct H as [g [Hc H]]. apply rbind_ok in H. destruct H as [s [Es H]]. apply rbind_ok in H. destruct H as [[opt rounded] [Eo H]].
  cbn [fst snd] in H. assert (o = mkOutcome _ g opt rounded) by congruence. subst o. cbn [o_grid o_optimized o_non_optimized]. clear H.
  destruct (scenario_wanted Data a s Hb Es) as [Hw _].
  assert (Hcells : exists rows ps, g_cells g = grid_of n rows ps /\ forall c, (c < n)%nat -> increasing (ps c) /\ (length (ps c) <= rows)%nat).
  { assert (Hcr : create Data Frequency channels has_rf spend_of frequency_of outcome_of fitted a (lower_of a) (upper_of a) = Ok g \/ g0 = Some g).
    { destruct g0 as [g1|]; auto. apply rbind_ok in Hc. destruct Hc as [[] [_ Hc]]; auto. right. congruence. }
    destruct Hcr as [Hcr|Hcr]; [|apply Hgrid; auto].
    assert (Hsp : exists hist, spend_of (a_data a) (a_geos a) (a_start a) (a_end a) = Ok hist).
    { unfold create in Hcr. destruct (negb (fitted (a_posterior a))); [discriminate|]. cbn [raise_if] in Hcr. rewrite Hg in *. cbn [raise_if] in Hcr. apply rbind_ok in Hcr. destruct Hcr as [h [Eh _]]. eauto. }
    destruct Hsp as [hist Hsp].
    destruct (create_inv Data Frequency channels has_rf spend_of frequency_of outcome_of fitted a _ _ g hist Hn Hcr Hsp) as [share [k [L [U [rows [m [_ [_ [_ [_ [E5 [E6 _]]]]]]]]]]]].
    - intros c Hx. rewrite Hg in Hsp. exact (Hh hist Hsp c Hx).
    - rewrite Hp. exact Logic.I.
    - exact (budget_nonneg Data a Hb).
    - exists rows. eexists. split; [exact E5|]. intros c Hx. split; [apply points_increasing; apply pow10_pos|]. rewrite points_length. destruct (E6 c Hx) as [A _]. lia. }
  destruct Hcells as [rows [ps [Ecells Hps]]]. rewrite Ecells, Hp in Eo.
  destruct (C52_bounds_lemma n rows ps _ _ _ _ _ _ _ opt rounded Hn Hps Eo) as [share [L [U [E1 [E2 [E3 _]]]]]].
  destruct (optimize_inv n rows ps _ _ _ _ _ _ _ opt rounded Hn Hps Eo) as [share' [L' [U' [E1' [_ [E3' _]]]]]].
  assert (share' = share) by congruence. subst share'.
  exists share, L, U, s. cbn [or_default] in E2. split; auto. split; auto. split; auto. split; [intros i; rewrite E3'; reflexivity|]. intros c Hx. apply E3. auto.
Qed.
End P.
