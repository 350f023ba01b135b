(** Proofs for C76. *)
From Coq Require Import ZArith QArith String List Bool Arith Lia Lqa Permutation.
From Verif Require Import Lib_QSum M_Base M_Opt M_Optimizer S_Opt S_Optimizer P_Spec P_Opt P_OptSearch P_OptGrid.
Import ListNotations.
Local Open Scope string_scope.
Local Open Scope list_scope.

Lemma rif_cases : forall (A : Type) b e (r : result A), raise_if b e r = Err e /\ b = true \/ raise_if b e r = r /\ b = false.
Proof. intros A [|] e r; cbn; auto. Qed.

Section P.
Variables Data Frequency : Type.
Variable channels : list string.
Variable has_rf : bool.
Variables first_date last_date : Data -> Z.
Variable spend_of : Data -> option (list string) -> option Z -> option Z -> result (nat -> Q).
Variable frequency_of : Data -> bool -> option (list string) -> option Z -> option Z -> bool -> option Q -> result Frequency.
Variable outcome_of : Data -> bool -> bool -> option (list string) -> option Z -> option Z -> option Frequency -> nat -> Z -> Q.
Variable fitted : bool -> bool.
Notation n := (length channels).
Notation create := (M_Optimizer.create Data Frequency channels has_rf spend_of frequency_of outcome_of fitted).
Notation validate_grid := (M_Optimizer.validate_grid Data Frequency channels first_date last_date spend_of).
Notation optimize := (M_Optimizer.optimize Data Frequency channels has_rf first_date last_date spend_of frequency_of outcome_of fitted).
Notation fits := (S_Optimizer.fits channels first_date last_date).
Implicit Types (a b : request Data) (g : ogrid Frequency).

(** ** The budget arguments *)
Lemma budget_ok : forall a, validate_budget (a_fixed a) (a_budget a) (a_target_roi a) (a_target_mroi a) = Ok tt <-> budget_arguments a.
Proof.
  intros a. unfold validate_budget, budget_arguments. destruct (a_fixed a).
  - destruct (a_target_roi a), (a_target_mroi a); cbn [given raise_if]; try (split; [discriminate|intros [X [Y _]]; discriminate]).
    destruct (a_budget a) as [b|]; cbn [raise_if].
    + destruct (Qle_bool b 0) eqn:E; cbn [raise_if].
      * split; [discriminate|]. intros [_ [_ H]]. specialize (H b eq_refl). apply Qle_bool_iff in E. exfalso. lra.
      * split; auto. intros _. repeat split; auto. intros b0 [= <-]. apply Qnot_le_lt. intros H. apply Qle_bool_iff in H. congruence.
    + split; auto. intros _. repeat split; auto. intros b0 H. discriminate.
  - destruct (a_budget a) as [b|]; cbn [given raise_if]; [split; [discriminate|intros [X _]; discriminate]|].
    destruct (a_target_roi a) as [r|], (a_target_mroi a) as [m|]; cbn [given raise_if negb andb]; split; auto; try discriminate.
    + intros [_ [[_ X]|[X _]]]; discriminate.
    + intros _. split; auto. left. eauto.
    + intros _. split; auto. right. eauto.
    + intros [_ [[[t X] _]|[_ [t X]]]]; discriminate.
Qed.
Lemma budget_err : forall a, ~ budget_arguments a -> validate_budget (a_fixed a) (a_budget a) (a_target_roi a) (a_target_mroi a) = Err ValueError.
Proof.
  intros a H. destruct (validate_budget (a_fixed a) (a_budget a) (a_target_roi a) (a_target_mroi a)) as [[]|e] eqn:E; [apply budget_ok in E; contradiction|].
  unfold validate_budget in E. destruct (a_fixed a);
  repeat (match type of E with context [raise_if ?x _ _] => destruct x; cbn [raise_if] in E end; [congruence|]); discriminate.
Qed.
Lemma arguments_refused : forall a o, ~ budget_arguments a -> optimize a o = Err ValueError.
Proof. intros a o H. unfold M_Optimizer.optimize. rewrite budget_err by auto. reflexivity. Qed.

Lemma scenario_wanted : forall a s, budget_arguments a -> scenario_of Data a = Ok s -> wanted a s /\ make_scenario s = Ok s.
Proof.
  intros a s Hb H. unfold scenario_of in H. unfold wanted. unfold budget_arguments in Hb. destruct (a_fixed a).
  - assert (s = Fixed (a_budget a)). { unfold make_scenario in H. destruct (a_budget a); [apply raise_if_ok in H; destruct H as [_ H]|]; congruence. }
    subst s. split; auto.
  - destruct Hb as [_ [[[t Ht] Hm]|[Hr [t Ht]]]].
    + rewrite Ht in *. rewrite Hm in H. cbn [truthy] in H. destruct (negb _); [|discriminate].
      assert (s = Flexible_ROI t). { unfold make_scenario in H. apply raise_if_ok in H. destruct H as [_ H]. congruence. }
      subst s. split; eauto.
    + rewrite Hr, Ht in *. cbn [truthy] in H.
      assert (s = Flexible_MROI t). { unfold make_scenario in H. apply raise_if_ok in H. destruct H as [_ H]. congruence. }
      subst s. split; eauto.
Qed.
Lemma scenario_total : forall a, budget_arguments a -> usable_target a -> exists s, scenario_of Data a = Ok s.
Proof.
  intros a Hb [H1 H2]. unfold scenario_of. unfold budget_arguments in Hb. destruct (a_fixed a).
  - destruct Hb as [_ [_ Hb]]. unfold make_scenario. destruct (a_budget a) as [b|]; [|eauto]. specialize (Hb b eq_refl).
    destruct (Qlt_bool b 0) eqn:E; cbn [raise_if]; [|eauto]. exfalso. assert (Qlt_bool b 0 = false) by (apply Qlt_bool_false; lra). congruence.
  - destruct Hb as [_ [[[t Ht] Hm]|[Hr [t Ht]]]].
    + specialize (H1 t Ht). rewrite Ht. cbn [truthy]. destruct (Qeq_bool t 0) eqn:E; cbn [negb]; [apply Qeq_bool_eq in E; exfalso; lra|].
      unfold make_scenario. assert (E' : Qlt_bool t 0 = false) by (apply Qlt_bool_false; lra). rewrite E'. cbn; eauto.
    + specialize (H2 t Ht). rewrite Hr, Ht. cbn [truthy]. unfold make_scenario. assert (E' : Qlt_bool t 0 = false) by (apply Qlt_bool_false; lra). rewrite E'. cbn; eauto.
Qed.

(** ** The names of geos *)
Lemma occurrences_count : forall s l, occurrences s l = count_occ string_dec l s.
Proof.
  intros s l. induction l as [|x l IH]; [reflexivity|]. unfold occurrences in *. cbn [filter count_occ].
  destruct (String.eqb_spec s x) as [->|E]; destruct (string_dec x _); try congruence; cbn [length]; congruence.
Qed.
Lemma same_names_spec : forall x y, same_names x y = true <-> Permutation (or_empty x) (or_empty y).
Proof.
  intros x y. unfold same_names. rewrite forallb_forall, (Permutation_count_occ string_dec). split.
  - intros H s. destruct (in_dec string_dec s (or_empty x ++ or_empty y)) as [I|I].
    + specialize (H s I). apply Nat.eqb_eq in H. rewrite !occurrences_count in H. exact H.
    + rewrite in_app_iff in I. rewrite !(proj1 (count_occ_not_In string_dec _ s)); tauto.
  - intros H s _. apply Nat.eqb_eq. rewrite !occurrences_count. apply H.
Qed.
Lemma list_eqb_spec : forall x y, list_eqb String.eqb x y = true <-> x = y.
Proof.
  induction x as [|a x IH]; intros [|b y]; cbn [list_eqb]; split; intros H; auto; try discriminate.
  - apply andb_true_iff in H. destruct H as [H1 H2]. apply String.eqb_eq in H1. apply IH in H2. congruence.
  - assert (a = b /\ x = y) by (split; congruence). destruct H0 as [-> ->]. rewrite String.eqb_refl. apply IH. reflexivity.
Qed.
Lemma max_spec : forall x y, option_eqb Qeq_bool x y = true <-> same_bound x y.
Proof.
  intros [x|] [y|]; cbn; split; auto; try discriminate; try contradiction; intros H; apply Qeq_bool_iff; auto.
Qed.

(** ** Which grids are reused *)
Lemma valid_fits : forall a lo hi g, validate_grid a lo hi g = Ok true -> fits a g.
Proof.
  intros a lo hi g H. unfold M_Optimizer.validate_grid in H.
  repeat match type of H with (if negb ?x then _ else _) = _ => let E := fresh "E" in destruct x eqn:E; cbn [negb] in H; [|discriminate] end.
  apply Bool.eqb_prop in E, E0, E1. apply max_spec in E2. apply Z.eqb_eq in E3, E4. apply list_eqb_spec in E5. apply same_names_spec in E6.
  unfold S_Optimizer.fits. repeat split; auto. apply Permutation_sym. exact E6.
Qed.
Lemma misfit : forall a lo hi g, ~ fits a g -> validate_grid a lo hi g = Ok false.
Proof.
  intros a lo hi g H. unfold M_Optimizer.validate_grid.
  repeat match goal with |- (if negb ?x then _ else _) = _ => let E := fresh "E" in destruct x eqn:E; cbn [negb]; [|reflexivity] end.
  exfalso. apply H. apply Bool.eqb_prop in E, E0, E1. apply max_spec in E2. apply Z.eqb_eq in E3, E4. apply list_eqb_spec in E5. apply same_names_spec in E6.
  unfold S_Optimizer.fits. repeat split; auto. apply Permutation_sym. exact E6.
Qed.
Lemma mismatch_rebuilt : forall a g, ~ fits a g -> optimize a (Some g) = optimize a None.
Proof.
  intros a g H. unfold M_Optimizer.optimize. destruct (validate_budget _ _ _ _); [|reflexivity]. cbn [rbind].
  rewrite misfit by auto. reflexivity.
Qed.
Lemma reused_or_rebuilt : forall a g o, optimize a (Some g) = Ok o -> o_grid _ o = g /\ fits a g \/ optimize a None = Ok o.
Proof.
  intros a g o H. unfold M_Optimizer.optimize in *. apply rbind_ok in H. destruct H as [u [E1 H]]. rewrite E1. cbn [rbind]. cbv beta zeta in *.
  apply rbind_ok in H. destruct H as [g' [E2 H]]. apply rbind_ok in E2. destruct E2 as [use [E2 E3]]. destruct use.
  - left. assert (g' = g) by congruence. subst g'. apply rbind_ok in H. destruct H as [s [_ H]]. apply rbind_ok in H. destruct H as [r [_ H]].
    assert (o = mkOutcome _ g (fst r) (snd r)) by congruence. subst o. split; [reflexivity|]. eapply valid_fits. exact E2.
  - right. rewrite E3. exact H.
Qed.

(** ** A fresh grid *)
Definition points (out : Z -> Q) (L step : Z) (m : nat) : list (Z * Q) := map (fun i => (L + Z.of_nat i * step, out (L + Z.of_nat i * step))%Z) (seq 0 (S m)).

Lemma bounds_facts : forall spend k lo hi L U, get_optimization_bounds n spend k lo hi = Ok (L, U) -> (forall i, (i < n)%nat -> 0 <= spend i)%Q ->
  forall i, (i < n)%nat -> (pow10 k | L i)%Z /\ (pow10 k | U i)%Z /\ (L i <= U i)%Z.
Proof.
  intros spend k lo hi L U H Hs. 
  assert (Hv : constraints_valid n lo hi).
  { unfold get_optimization_bounds, get_spend_bounds in H. apply rbind_ok in H. destruct H as [b0 [E2 _]]. apply rbind_ok in E2. destruct E2 as [p0 [E2 _]]. apply validate_ok in E2. tauto. }
  destruct (C21_lemma n spend k lo hi Hv Hs) as [L1 [U1 [R1 [E3 H21]]]]. rewrite E3 in H. assert (HLU : L1 = L /\ U1 = U) by (split; congruence). destruct HLU as [-> ->].
  destruct (bounds_ok n spend k lo hi Hv) as [L2 [U2 [E4 HLU]]]. assert (HLU2 : L2 = L /\ U2 = U) by (split; congruence). destruct HLU2 as [-> ->].
  intros i Hi. destruct (H21 i Hi) as [[A [B C]] _]. split; auto. split; auto. destruct (HLU i Hi) as [-> ->].
  apply round_to_mono. pose proof (round_to_nonneg k _ (Hs i Hi)) as HR0. set (R := round_to k (spend i)) in *.
  assert (HR : (0 <= inject_Z R)%Q) by (change 0%Q with (inject_Z 0); apply inject_le; auto).
  destruct Hv as [V1 [V2 [V3 V4]]]. pose proof (constraint_at_all _ n _ i V3 V1 Hi) as Hlo. pose proof (constraint_at_all _ n _ i V4 V2 Hi) as Hhi. cbv beta in *.
  assert (0 <= constraint_at lo i * inject_Z R)%Q by (apply Qmult_le_0_compat; lra). assert (0 <= constraint_at hi i * inject_Z R)%Q by (apply Qmult_le_0_compat; lra). lra.
Qed.

Lemma multiples : forall step x y, (0 < step)%Z -> (step | x)%Z -> (step | y)%Z -> (x <= y)%Z -> y = (x + Z.of_nat (Z.to_nat ((y - x) / step)) * step)%Z.
Proof.
  intros step x y Hs [p ->] [q ->] H. replace (q * step - p * step)%Z with ((q - p) * step)%Z by lia. rewrite Z.div_mul by lia.
  rewrite Z2Nat.id by nia. lia.
Qed.

Lemma grids_ok : forall L U k out, (0 < n)%nat -> (forall i, (i < n)%nat -> (pow10 k | L i)%Z /\ (pow10 k | U i)%Z /\ (L i <= U i)%Z) ->
  exists rows m, create_grids n L U (pow10 k) out = Ok (grid_of n rows (fun c => points (out c) (L c) (pow10 k) (m c))) /\
    (forall c, (c < n)%nat -> (m c < rows)%nat /\ U c = (L c + Z.of_nat (m c) * pow10 k)%Z).
Proof.
  intros L U k out Hn H. pose proof (pow10_pos k) as Hp.
  destruct (C22_lemma n L U (pow10 k) (fun c => Z.to_nat ((U c - L c) / pow10 k)) out Hn Hp) as [rows [A [_ E]]].
  { intros c Hc. destruct (H c Hc) as [X [Y Z]]. apply multiples; auto. }
  exists rows, (fun c => Z.to_nat ((U c - L c) / pow10 k)). split.
  - rewrite E, uniform_grid_of. reflexivity.
  - intros c Hc. split; [apply A; auto|]. destruct (H c Hc) as [X [Y Z]]. apply multiples; auto.
Qed.

(** What a created grid holds. *)
Lemma create_inv : forall a lo hi g hist, (0 < n)%nat -> create a lo hi = Ok g -> spend_of (a_data a) (a_geos a) (a_start a) (a_end a) = Ok hist ->
  (forall c, (c < n)%nat -> 0 <= hist c)%Q -> (match a_pct a with Some l => Forall (fun x => 0 <= x)%Q l | None => True end) ->
  (match a_budget a with Some b => 0 <= b | None => True end)%Q ->
  exists share k L U rows m,
    validate_pct_of_spend n hist (a_pct a) = Ok share /\
    get_round_factor (budget_or (a_budget a) (qsum n hist)) (a_gtol a) = Ok (- Z.of_nat k)%Z /\
    get_optimization_bounds n (fun i => budget_or (a_budget a) (qsum n hist) * share i)%Q k lo hi = Ok (L, U) /\
    (match g_frequency g with
     | Some f => has_rf = true /\ a_optimal_frequency a = true /\ frequency_of (a_data a) (a_posterior a) (a_geos a) (a_start a) (a_end a) (a_kpi a) (a_max_frequency a) = Ok f
     | None => has_rf = false \/ a_optimal_frequency a = false end) /\
    g_cells g = grid_of n rows (fun c => points (outcome_of (a_data a) (a_posterior a) (a_kpi a) (a_geos a) (a_start a) (a_end a) (g_frequency g) c) (L c) (pow10 k) (m c)) /\
    (forall c, (c < n)%nat -> (m c < rows)%nat /\ U c = (L c + Z.of_nat (m c) * pow10 k)%Z /\ (pow10 k | L c)%Z) /\
    g_channels g = channels /\ g_hist g = hist /\ g_kpi g = a_kpi a /\ g_posterior g = a_posterior a /\ g_optimal_frequency g = a_optimal_frequency a /\
    g_max_frequency g = a_max_frequency a /\ g_start g = a_start a /\ g_end g = a_end a /\ g_gtol g = a_gtol a /\ g_round g = k /\ g_geos g = a_geos a.
Proof.
  intros a lo hi g hist Hn H Hsp Hh Hp Hbud. unfold M_Optimizer.create in H. apply raise_if_ok in H. destruct H as [_ H]. apply raise_if_ok in H. destruct H as [_ H].
  rewrite Hsp in H. cbn [rbind] in H. cbv beta zeta in H. apply rbind_ok in H. destruct H as [share [E1 H]].
  set (bud := budget_or (a_budget a) (qsum n hist)) in *.
  apply rbind_ok in H. destruct H as [rf [E2 H]].
  assert (Hk : exists k, rf = (- Z.of_nat k)%Z).
  { unfold get_round_factor in E2. destruct (Qle_bool 1 (a_gtol a)); [discriminate|]. destruct (Qle_bool bud 0); [discriminate|].
    destruct (Qlt_bool _ _); [exists 0%nat|exists (S (int_log10 (bud * a_gtol a)))]; assert (E : forall x y, @Ok Z x = Ok y -> y = x) by congruence; apply E in E2; rewrite E2; lia. }
  destruct Hk as [k ->]. replace (Z.to_nat (- - Z.of_nat k)) with k in H by lia.
  apply rbind_ok in H. destruct H as [[L U] [E3 H]]. cbn [fst snd] in H. apply rbind_ok in H. destruct H as [freq [E4 H]].
  apply rbind_ok in H. destruct H as [cs [E5 H]].
  destruct (share_spec n hist (a_pct a) share Hh Hp E1) as [_ Hnn].
  assert (Hb : (0 <= bud)%Q).
  { unfold bud, budget_or. assert (0 <= qsum n hist)%Q by (apply qsum_nonneg; auto). destruct (a_budget a); auto. destruct (Qeq_bool _ _); auto. }
  pose proof (bounds_facts _ _ _ _ _ _ E3 ltac:(intros; apply Qmult_le_0_compat; auto)) as HF.
  destruct (grids_ok L U k (outcome_of (a_data a) (a_posterior a) (a_kpi a) (a_geos a) (a_start a) (a_end a) freq) Hn HF) as [rows [m [E6 Hm]]].
  rewrite E6 in E5.
  assert (Hg : g = mkGrid cs channels hist (a_kpi a) (a_posterior a) (a_optimal_frequency a) (a_max_frequency a) (a_start a) (a_end a) (a_gtol a) k freq (a_geos a)) by congruence.
  subst g. cbn [g_cells g_channels g_hist g_kpi g_posterior g_optimal_frequency g_max_frequency g_start g_end g_gtol g_round g_frequency g_geos].
  exists share, k, L, U, rows, m. split; auto. split; auto. split; auto. split.
  { destruct has_rf; cbn [andb] in E4; [|assert (freq = None) by congruence; subst freq; auto]. destruct (a_optimal_frequency a); [|assert (freq = None) by congruence; subst freq; auto].
    apply rbind_ok in E4. destruct E4 as [f [E4 E4']]. assert (freq = Some f) by congruence. subst freq. auto. }
  split; [congruence|]. split; [|repeat split]. intros c Hc. destruct (Hm c Hc). destruct (HF c Hc). auto.
Qed.

Lemma points_increasing : forall out L step m, (0 < step)%Z -> increasing (points out L step m).
Proof. intros. unfold points. apply (uniform_increasing L step (fun i => out (L + Z.of_nat i * step)%Z)). auto. Qed.
Lemma points_length : forall out L step m, length (points out L step m) = S m.
Proof. intros. unfold points. rewrite map_length, seq_length. reflexivity. Qed.
Lemma points_in : forall out L step m p, In p (points out L step m) <-> exists i, (i <= m)%nat /\ p = (L + Z.of_nat i * step, out (L + Z.of_nat i * step))%Z.
Proof.
  intros. unfold points. rewrite in_map_iff. split.
  - intros [i [<- Hi]]. apply in_seq in Hi. exists i. split; [lia|auto].
  - intros [i [Hi ->]]. exists i. split; auto. apply in_seq. lia.
Qed.
(** Increasing lists with the same elements are equal. *)
Lemma increasing_ext : forall (x y : list (Z * Q)), increasing x -> increasing y -> (forall p, In p x <-> In p y) -> x = y.
Proof.
  induction x as [|a x IH]; intros [|b y] Hx Hy H; auto.
  - exfalso. apply (proj2 (H b)). left; auto.
  - exfalso. apply (proj1 (H a)). left; auto.
  - apply increasing_tail in Hx, Hy. destruct Hx as [Hx1 Hx2], Hy as [Hy1 Hy2]. rewrite Forall_forall in *.
    assert (a = b).
    { destruct (proj1 (H a) (or_introl eq_refl)) as [|Ha]; auto. destruct (proj2 (H b) (or_introl eq_refl)) as [|Hb]; auto.
      specialize (Hx2 _ Hb). specialize (Hy2 _ Ha). lia. }
    subst b. f_equal. apply IH; auto. intros p. split; intros Hp.
    + destruct (proj1 (H p) (or_intror Hp)) as [<-|]; auto. specialize (Hx2 _ Hp). lia.
    + destruct (proj2 (H p) (or_intror Hp)) as [<-|]; auto. specialize (Hy2 _ Hp). lia.
Qed.
(** The part of a grid within bounds that lie on it does not depend on the rest of the grid. *)
Lemma kept_points : forall out L L' step m m' , (0 < step)%Z -> (step | L)%Z -> (step | L')%Z ->
  (L' <= L)%Z -> (L + Z.of_nat m * step <= L' + Z.of_nat m' * step)%Z ->
  kept L (L + Z.of_nat m * step) (points out L' step m') = points out L step m.
Proof.
  intros out L L' step m m' Hs [q ->] [q' ->] H1 H2. apply increasing_ext.
  - apply kept_increasing. apply points_increasing. auto.
  - apply points_increasing. auto.
  - intros p. unfold kept. rewrite filter_In, andb_true_iff, !Z.leb_le, !points_in. split.
    + intros [[i [Hi ->]] [A B]]. cbn [fst] in *. exists (Z.to_nat (q' - q + Z.of_nat i)). assert (0 <= q' - q + Z.of_nat i)%Z by nia.
      split; [apply Nat2Z.inj_le; rewrite Z2Nat.id by auto; nia|]. rewrite Z2Nat.id by auto. replace (q * step + (q' - q + Z.of_nat i) * step)%Z with (q' * step + Z.of_nat i * step)%Z by lia. reflexivity.
    + intros [i [Hi ->]]. cbn [fst]. split; [|nia]. exists (Z.to_nat (q - q' + Z.of_nat i)). assert (0 <= q - q' + Z.of_nat i)%Z by nia.
      split; [apply Nat2Z.inj_le; rewrite Z2Nat.id by auto; nia|]. rewrite Z2Nat.id by auto. replace (q' * step + (q - q' + Z.of_nat i) * step)%Z with (q * step + Z.of_nat i * step)%Z by lia. reflexivity.
Qed.
Lemma not_outside : forall out L step m lo hi, (0 < step)%Z -> (step | L)%Z -> ~ outside lo hi (points out L step m) <-> (L <= lo /\ hi <= L + Z.of_nat m * step)%Z.
Proof.
  intros out L step m lo hi Hs _. split.
  - intros H. assert (Hne : points out L step m <> []) by (intros E; apply (f_equal (@length _)) in E; rewrite points_length in E; discriminate).
    split; apply Z.nlt_ge; intros Hlt; apply H; (split; [exact Hne|]); [left|right]; apply Forall_forall; intros p Hp; apply points_in in Hp; destruct Hp as [i [Hi ->]]; cbn [fst]; nia.
  - intros [H1 H2] [_ [H|H]]; rewrite Forall_forall in H.
    + specialize (H (L + Z.of_nat 0 * step, out (L + Z.of_nat 0 * step))%Z). cbn [fst] in H. assert (In (L + Z.of_nat 0 * step, out (L + Z.of_nat 0 * step))%Z (points out L step m)) by (apply points_in; exists 0%nat; split; [lia|auto]). specialize (H H0). lia.
    + specialize (H (L + Z.of_nat m * step, out (L + Z.of_nat m * step))%Z). cbn [fst] in H. assert (In (L + Z.of_nat m * step, out (L + Z.of_nat m * step))%Z (points out L step m)) by (apply points_in; exists m; split; [lia|auto]). specialize (H H0). lia.
Qed.
Lemma grid_of_ext : forall k rows ps ps', (forall c, (c < k)%nat -> ps c = ps' c) -> grid_of k rows ps = grid_of k rows ps'.
Proof. intros. unfold grid_of. apply map_ext_in. intros c Hc. apply in_seq in Hc. rewrite H by lia. reflexivity. Qed.
Lemma longest_ext : forall k ps ps', (forall c, (c < k)%nat -> ps c = ps' c) -> longest k ps = longest k ps'.
Proof. induction k; intros ps ps' H; cbn [longest]; auto. rewrite (IHk ps ps') by (intros; apply H; lia). rewrite H by lia. reflexivity. Qed.

(** The trimmed grid, for bounds on the grid. *)
Lemma trimmed : forall rows out L' m' L m k, (0 < n)%nat ->
  (forall c, (c < n)%nat -> (m' c < rows)%nat /\ (pow10 k | L' c)%Z) ->
  (forall c, (c < n)%nat -> (pow10 k | L c)%Z /\ (L' c <= L c)%Z /\ (L c + Z.of_nat (m c) * pow10 k <= L' c + Z.of_nat (m' c) * pow10 k)%Z) ->
  forall U, (forall c, (c < n)%nat -> U c = (L c + Z.of_nat (m c) * pow10 k)%Z) ->
  trim_grids (grid_of n rows (fun c => points (out c) (L' c) (pow10 k) (m' c))) L U =
  Ok (grid_of n (longest n (fun c => points (out c) (L c) (pow10 k) (m c))) (fun c => points (out c) (L c) (pow10 k) (m c))).
Proof.
  intros rows out L' m' L m k Hn H' H U HU. pose proof (pow10_pos k) as Hp.
  destruct (C27_lemma n rows (fun c => points (out c) (L' c) (pow10 k) (m' c)) L U Hn) as [_ [_ C]].
  { intros c Hc. split; [apply points_increasing; auto|]. rewrite points_length. apply H'; auto. }
  assert (Hk : forall c, (c < n)%nat -> kept (L c) (U c) (points (out c) (L' c) (pow10 k) (m' c)) = points (out c) (L c) (pow10 k) (m c)).
  { intros c Hc. rewrite HU by auto. destruct (H c Hc) as [X [Y Z]]. destruct (H' c Hc) as [X' Y']. apply kept_points; auto. }
  rewrite C.
  - rewrite (longest_ext n _ (fun c => points (out c) (L c) (pow10 k) (m c))) by exact Hk. rewrite (grid_of_ext n _ _ (fun c => points (out c) (L c) (pow10 k) (m c))) by exact Hk. reflexivity.
  - intros c Hc. destruct (H' c Hc) as [_ Y']. destruct (H c Hc) as [_ [Y Z]]. apply not_outside; auto. rewrite HU by auto. auto.
  - cbv beta zeta. intros c Hc. rewrite Hk by auto. intros E. apply (f_equal (@length _)) in E. rewrite points_length in E. discriminate.
Qed.

Definition search_of (k : nat) (bud : Q) (share : nat -> Q) (s : user_scenario) (cs : grid) : result ((nat -> Z) * (nat -> Z)) :=
  let rounded := fun i => round_to k (bud * share i) in
  rbind (grid_search cs (search_scenario s (zsum n rounded))) (fun opt => Ok (opt, rounded)).

(** The optimization on a grid that contains the bounds. *)
Lemma optimize_on : forall rows out L' m' L m k U gtol hist s pct share lo hi rf, (0 < n)%nat ->
  (forall c, (c < n)%nat -> (m' c < rows)%nat /\ (pow10 k | L' c)%Z) ->
  (forall c, (c < n)%nat -> (pow10 k | L c)%Z /\ (L' c <= L c)%Z /\ (L c + Z.of_nat (m c) * pow10 k <= L' c + Z.of_nat (m' c) * pow10 k)%Z) ->
  (forall c, (c < n)%nat -> U c = (L c + Z.of_nat (m c) * pow10 k)%Z) ->
  validate_pct_of_spend n hist pct = Ok share ->
  get_optimization_bounds n (fun i => budget_of n hist s * share i)%Q k lo hi = Ok (L, U) ->
  get_round_factor (budget_of n hist s) gtol = Ok rf ->
  M_Opt.optimize (grid_of n rows (fun c => points (out c) (L' c) (pow10 k) (m' c))) k gtol hist s pct (Some lo) (Some hi) =
  search_of k (budget_of n hist s) share s (grid_of n (longest n (fun c => points (out c) (L c) (pow10 k) (m c))) (fun c => points (out c) (L c) (pow10 k) (m c))).
Proof.
  intros rows out L' m' L m k U gtol hist s pct share lo hi rf Hn H' H HU E1 E2 E3. unfold M_Opt.optimize. rewrite grid_of_length.
  change (match s with Fixed (Some b) => if Qeq_bool b 0 then qsum n hist else b | _ => qsum n hist end) with (budget_of n hist s).
  rewrite E1. cbn [rbind]. cbv beta zeta. rewrite E2. cbn [rbind fst snd]. rewrite E3. cbn [rbind].
  rewrite (trimmed rows out L' m' L m k Hn H' H U HU). cbn [rbind]. unfold search_of. destruct s; reflexivity.
Qed.

Lemma budget_agrees : forall a s hist, budget_arguments a -> wanted a s -> budget_of n hist s = budget_or (a_budget a) (qsum n hist).
Proof.
  intros a s hist Hb Hw. unfold budget_arguments, wanted in *. destruct (a_fixed a).
  - subst s. unfold budget_of, budget_or. destruct (a_budget a); reflexivity.
  - destruct Hb as [-> _]. unfold budget_or. destruct Hw as [[t [_ ->]]|[_ [t [_ ->]]]]; reflexivity.
Qed.
Lemma budget_for_or : forall a total, budget_arguments a -> (0 <= total)%Q -> budget_or (a_budget a) total = budget_for a total.
Proof.
  intros a total Hb Ht. unfold budget_or, budget_for. unfold budget_arguments in Hb. destruct (a_budget a) as [b|]; auto. destruct (a_fixed a).
  - destruct Hb as [_ [_ Hb]]. specialize (Hb b eq_refl). destruct (Qeq_bool b 0) eqn:E; auto. apply Qeq_bool_eq in E. exfalso. lra.
  - destruct Hb as [X _]. discriminate.
Qed.
Lemma budget_nonneg : forall a, budget_arguments a -> (match a_budget a with Some b => 0 <= b | None => True end)%Q.
Proof.
  intros a Hb. unfold budget_arguments in Hb. destruct (a_budget a) as [b|]; auto. destruct (a_fixed a).
  - destruct Hb as [_ [_ Hb]]. specialize (Hb b eq_refl). lra.
  - destruct Hb as [X _]. discriminate.
Qed.

Lemma optimize_unfold : forall a (o : option (ogrid Frequency)), budget_arguments a ->
  optimize a o = rbind (match o with Some g => rbind (validate_grid a (lower_of a) (upper_of a) g) (fun use => if use then Ok g else create a (lower_of a) (upper_of a)) | None => create a (lower_of a) (upper_of a) end) (fun g =>
    rbind (scenario_of Data a) (fun s => rbind (M_Opt.optimize (g_cells g) (g_round g) (g_gtol g) (g_hist g) s (a_pct a) (Some (lower_of a)) (Some (upper_of a))) (fun r => Ok (mkOutcome _ g (fst r) (snd r))))).
Proof. intros a o H. unfold M_Optimizer.optimize. apply budget_ok in H. rewrite H. cbn [rbind]. reflexivity. Qed.

(** A fresh optimization searches the points between its own bounds. *)
Lemma fresh_run : forall a g hist s, (0 < n)%nat -> budget_arguments a -> create a (lower_of a) (upper_of a) = Ok g ->
  spend_of (a_data a) (a_geos a) (a_start a) (a_end a) = Ok hist -> (forall c, (c < n)%nat -> 0 <= hist c)%Q ->
  (match a_pct a with Some l => Forall (fun x => 0 <= x)%Q l | None => True end) -> wanted a s ->
  exists share k L U m,
    validate_pct_of_spend n hist (a_pct a) = Ok share /\
    get_round_factor (budget_of n hist s) (a_gtol a) = Ok (- Z.of_nat k)%Z /\
    get_optimization_bounds n (fun i => budget_of n hist s * share i)%Q k (lower_of a) (upper_of a) = Ok (L, U) /\
    (forall c, (c < n)%nat -> U c = (L c + Z.of_nat (m c) * pow10 k)%Z /\ (pow10 k | L c)%Z) /\
    M_Opt.optimize (g_cells g) (g_round g) (g_gtol g) (g_hist g) s (a_pct a) (Some (lower_of a)) (Some (upper_of a)) =
    search_of k (budget_of n hist s) share s (grid_of n (longest n (fun c => points (outcome_of (a_data a) (a_posterior a) (a_kpi a) (a_geos a) (a_start a) (a_end a) (g_frequency g) c) (L c) (pow10 k) (m c)))
      (fun c => points (outcome_of (a_data a) (a_posterior a) (a_kpi a) (a_geos a) (a_start a) (a_end a) (g_frequency g) c) (L c) (pow10 k) (m c))).
Proof.
  intros a g hist s Hn Hb Hc Hsp Hh Hp Hw.
  destruct (create_inv a _ _ g hist Hn Hc Hsp Hh Hp (budget_nonneg a Hb)) as [share [k [L [U [rows [m [E1 [E2 [E3 [E4 [E5 [E6 E7]]]]]]]]]]]].
  destruct E7 as [_ [F1 [_ [_ [_ [_ [_ [_ [F2 [F3 _]]]]]]]]]]. rewrite <- (budget_agrees a s hist Hb Hw) in *.
  exists share, k, L, U, m. split; auto. split; auto. split; auto. split; [intros c Hx; destruct (E6 c Hx) as [_ X]; exact X|].
  rewrite E5, F1, F2, F3.
  apply (optimize_on rows _ L m L m k U (a_gtol a) hist s (a_pct a) share (lower_of a) (upper_of a) (- Z.of_nat k)%Z); auto.
  - intros c Hx. destruct (E6 c Hx) as [A [B C]]. auto.
  - intros c Hx. destruct (E6 c Hx) as [A [B C]]. split; auto. split; lia.
  - intros c Hx. apply E6. auto.
Qed.

Lemma step_of : forall bud gtol k, get_round_factor bud gtol = Ok (- Z.of_nat k)%Z -> step_for bud gtol k.
Proof.
  intros bud gtol k H. assert (Hg : (gtol < 1)%Q /\ (0 < bud)%Q).
  { split; apply Qnot_le_lt; intros X; rewrite round_factor_err in H by auto; discriminate. }
  destruct Hg as [Hg Hb]. destruct (round_factor_ok bud gtol Hg Hb) as [k' [E S]]. rewrite E in H.
  assert (k' = k). { assert (X : forall x y, @Ok Z x = Ok y -> x = y) by congruence. apply X in H. lia. } subst k'. unfold step_for. tauto.
Qed.

Lemma fresh_lemma : forall a o hist, (0 < n)%nat -> optimize a None = Ok o ->
  spend_of (a_data a) (a_geos a) (a_start a) (a_end a) = Ok hist -> (forall c, (c < n)%nat -> 0 <= hist c)%Q ->
  (match a_pct a with Some l => Forall (fun x => 0 <= x)%Q l | None => True end) ->
  exists share k, is_share n hist (a_pct a) share /\ step_for (budget_for a (qsum n hist)) (a_gtol a) k /\
    (forall c, (c < n)%nat ->
      let bud := (budget_for a (qsum n hist) * share c)%Q in
      let low := ((1 - constraint_at (lower_of a) c) * inject_Z (o_non_optimized _ o c))%Q in
      let high := ((1 + constraint_at (upper_of a) c) * inject_Z (o_non_optimized _ o c))%Q in
      let half := (inject_Z (pow10 k) * (1 # 2))%Q in
      (pow10 k | o_optimized _ o c)%Z /\ (pow10 k | o_non_optimized _ o c)%Z /\ near k (o_non_optimized _ o c) bud /\
      (low - half <= inject_Z (o_optimized _ o c))%Q /\ (inject_Z (o_optimized _ o c) <= high + half)%Q /\
      (forall v, (pow10 k | v)%Z -> (low + half <= inject_Z v)%Q -> (inject_Z v <= high - half)%Q ->
        exists r, cell (g_cells (o_grid _ o)) c r = Some (v, outcome_of (a_data a) (a_posterior a) (a_kpi a) (a_geos a) (a_start a) (a_end a) (g_frequency (o_grid _ o)) c v)) /\
      (forall r v y, cell (g_cells (o_grid _ o)) c r = Some (v, y) -> (low - half <= inject_Z v)%Q /\ (inject_Z v <= high + half)%Q /\
        y = outcome_of (a_data a) (a_posterior a) (a_kpi a) (a_geos a) (a_start a) (a_end a) (g_frequency (o_grid _ o)) c v)) /\
    (a_fixed a = true -> (zsum n (o_optimized _ o) <= zsum n (o_non_optimized _ o))%Z) /\
    (match g_frequency (o_grid _ o) with
     | Some f => has_rf = true /\ a_optimal_frequency a = true /\ frequency_of (a_data a) (a_posterior a) (a_geos a) (a_start a) (a_end a) (a_kpi a) (a_max_frequency a) = Ok f
     | None => has_rf = false \/ a_optimal_frequency a = false end) /\
    budget_arguments a /\ fits a (o_grid _ o) /\ g_gtol (o_grid _ o) = a_gtol a.
Proof.
  intros a o hist Hn H Hsp Hh Hp.
  assert (Hb : budget_arguments a). { apply budget_ok. unfold M_Optimizer.optimize in H. apply rbind_ok in H. destruct H as [[] [H _]]. exact H. }
  rewrite (optimize_unfold a None Hb) in H. apply rbind_ok in H. destruct H as [g [Hc H]]. apply rbind_ok in H. destruct H as [s [Es H]]. apply rbind_ok in H. destruct H as [[opt rounded] [Eo H]].
  cbn [fst snd] in H. assert (o = mkOutcome _ g opt rounded) by congruence. subst o. cbn [o_grid o_optimized o_non_optimized]. clear H.
  destruct (scenario_wanted a s Hb Es) as [Hw Hms].
  destruct (create_inv a _ _ g hist Hn Hc Hsp Hh Hp (budget_nonneg a Hb)) as [share [k [L [U [rows [m [E1 [E2 [E3 [E4 [E5 [E6 E7]]]]]]]]]]]].
  destruct E7 as [G1 [G2 [G3 [G4 [G5 [G6 [G7 [G8 [G9 [G10 G11]]]]]]]]]].
  assert (Hbud : budget_or (a_budget a) (qsum n hist) = budget_for a (qsum n hist)) by (apply budget_for_or; auto; apply qsum_nonneg; auto).
  pose proof (budget_agrees a s hist Hb Hw) as Hbs.
  set (out := outcome_of (a_data a) (a_posterior a) (a_kpi a) (a_geos a) (a_start a) (a_end a) (g_frequency g)) in *.
  rewrite G9, G2 in Eo. rewrite G10, E5 in Eo.
  change (grid_of n rows (fun c => points (out c) (L c) (pow10 k) (m c))) with (grid_of n rows (fun c => map (fun i => (L c + Z.of_nat i * pow10 k, (fun c i => out c (L c + Z.of_nat i * pow10 k)%Z) c i)%Z) (seq 0 (S (m c))))) in Eo.
  rewrite <- uniform_grid_of in Eo.
  assert (Hm : forall c, (c < n)%nat -> (m c < rows)%nat /\ (pow10 k | L c)%Z) by (intros c Hx; destruct (E6 c Hx) as [A [B C]]; auto).
  destruct (C52_lemma _ _ _ _ _ _ _ _ _ _ _ _ _ _ Hn Hm Hh Hp Hms Eo) as [share' [Hsh [Hch Htot]]].
  rewrite uniform_grid_of in Eo.
  assert (Hps : forall c, (c < n)%nat -> increasing (points (out c) (L c) (pow10 k) (m c)) /\ (length (points (out c) (L c) (pow10 k) (m c)) <= rows)%nat).
  { intros c Hx. split; [apply points_increasing; apply pow10_pos|]. rewrite points_length. apply (Hm c Hx). }
  destruct (optimize_inv n rows (fun c => points (out c) (L c) (pow10 k) (m c)) k (a_gtol a) hist s (a_pct a) _ _ opt rounded Hn Hps Eo) as [sh [L2 [U2 [F1 [F2 [F3 _]]]]]].
  assert (sh = share) by congruence. subst sh. cbn [or_default] in F2. rewrite Hbs in F2, F3. clear L2 U2 F2.
  destruct (share_spec n hist (a_pct a) share Hh Hp E1) as [Hsh1 Hnn].
  exists share, k. split; auto. split; [apply step_of; rewrite <- Hbud; auto|]. split.
  { intros c Hx. cbv zeta. destruct (Hch c Hx) as [A1 [A2 [A3 [A4 [A5 A6]]]]]. cbn [or_default] in A5, A6. split; auto. split; auto.
    split; [rewrite F3, Hbud; apply round_to_error|]. split; [exact A5|]. split; [exact A6|].
    assert (Hv : constraints_valid n (lower_of a) (upper_of a)).
    { unfold get_optimization_bounds, get_spend_bounds in E3. apply rbind_ok in E3. destruct E3 as [b0 [E3 _]]. apply rbind_ok in E3. destruct E3 as [p0 [E3 _]]. apply validate_ok in E3. tauto. }
    destruct (bounds_ok n (fun i => budget_or (a_budget a) (qsum n hist) * share i)%Q k _ _ Hv) as [L1 [U1 [E3' HLU]]]. rewrite E3' in E3.
    assert (HLU1 : L1 = L /\ U1 = U) by (split; congruence). destruct HLU1 as [-> ->]. destruct (HLU c Hx) as [HL HU]. rewrite F3 in *.
    destruct (round_to_error k ((1 - constraint_at (lower_of a) c) * inject_Z (round_to k (budget_or (a_budget a) (qsum n hist) * share c)))) as [RL1 RL2].
    destruct (round_to_error k ((1 + constraint_at (upper_of a) c) * inject_Z (round_to k (budget_or (a_budget a) (qsum n hist) * share c)))) as [RU1 RU2].
    rewrite <- HL in RL1, RL2. rewrite <- HU in RU1, RU2. destruct (E6 c Hx) as [B1 [B2 [q B3]]]. pose proof (pow10_pos k) as Hpk. split.
    - intros v [qv Hv1] Hv2 Hv3. assert (Hv4 : (L c <= v)%Z). { rewrite Zle_Qle. lra. }
      assert (Hv5 : (v <= U c)%Z). { rewrite Zle_Qle. lra. }
      exists (Z.to_nat (qv - q)). rewrite E5, grid_of_cell by auto. unfold points. rewrite nth_error_map.
      assert (Hi : (0 <= qv - q)%Z) by nia. assert (Hj : (qv - q <= Z.of_nat (m c))%Z) by nia.
      rewrite (nth_error_nth' (seq 0 (S (m c))) 0%nat) by (rewrite seq_length; lia). rewrite seq_nth by lia. cbn [option_map]. rewrite Nat.add_0_l, Z2Nat.id by auto.
      replace (L c + (qv - q) * pow10 k)%Z with v by lia. reflexivity.
    - intros r v y Hr. rewrite E5, grid_of_cell in Hr by auto. apply nth_error_In in Hr. apply points_in in Hr. destruct Hr as [i [Hi Hr]].
      assert (Hvy : v = (L c + Z.of_nat i * pow10 k)%Z /\ y = out c (L c + Z.of_nat i * pow10 k)%Z) by (split; congruence). destruct Hvy as [-> ->].
      assert (X1 : (L c <= L c + Z.of_nat i * pow10 k)%Z) by nia. assert (X2 : (L c + Z.of_nat i * pow10 k <= U c)%Z) by nia. apply inject_le in X1, X2.
      split; [lra|]. split; [lra|]. reflexivity. }
  split.
  { intros Hf. unfold wanted in Hw. rewrite Hf in Hw. subst s. exact Htot. }
  split; [exact E4|]. split; auto. split; auto. unfold S_Optimizer.fits. rewrite G1, G3, G4, G5, G6, G7, G8, G11. repeat split; auto.
  destruct (a_max_frequency a); cbn; auto. reflexivity.
Qed.

(** A well-formed request never fails because of the grid. *)
Lemma succeeds_lemma : forall a hist, (0 < n)%nat -> fitted (a_posterior a) = true -> a_geos a <> Some [] ->
  spend_of (a_data a) (a_geos a) (a_start a) (a_end a) = Ok hist -> (forall c, (c < n)%nat -> 0 <= hist c)%Q -> (0 < qsum n hist)%Q ->
  budget_arguments a -> usable_target a -> split_ok n a -> (a_gtol a < 1)%Q -> constraints_valid n (lower_of a) (upper_of a) ->
  (has_rf = true -> a_optimal_frequency a = true -> exists f, frequency_of (a_data a) (a_posterior a) (a_geos a) (a_start a) (a_end a) (a_kpi a) (a_max_frequency a) = Ok f) ->
  exists o, optimize a None = Ok o.
Proof.
  intros a hist Hn Hfit Hg Hsp Hh Hpos Hb Ht Hsplit Hgt Hv Hfreq. rewrite (optimize_unfold a None Hb).
  assert (Hsh : exists share, validate_pct_of_spend n hist (a_pct a) = Ok share).
  { unfold split_ok in Hsplit. unfold validate_pct_of_spend. destruct (a_pct a) as [l|].
    - destruct Hsplit as [Hl [_ [H1 H2]]]. rewrite Hl, Nat.eqb_refl. cbn [negb raise_if].
      assert (E : isclose_one (fold_left Qplus l 0%Q) = true).
      { unfold isclose_one. apply Qle_bool_iff. set (S := fold_left Qplus l 0%Q) in *. apply Qle_trans with (1 # 1000).
        - unfold Qabs_. destruct (Qle_bool 0 (S - 1)); lra.
        - unfold Qmax_ at 1. destruct (Qle_bool _ (1 # 1000)) eqn:E; [lra|]. apply Qlt_le_weak. apply Qnot_le_lt. intros X. apply Qle_bool_iff in X. congruence. }
      rewrite E. cbn [negb raise_if]. eauto.
    - destruct (Qeq_bool (qsum n hist) 0) eqn:E; [apply Qeq_bool_eq in E; exfalso; lra|]. eauto. }
  destruct Hsh as [share Hsh].
  assert (Hp : match a_pct a with Some l => Forall (fun x => 0 <= x)%Q l | None => True end). { unfold split_ok in Hsplit. destruct (a_pct a); auto. apply Hsplit. }
  assert (Hbud : (0 < budget_or (a_budget a) (qsum n hist))%Q).
  { unfold budget_or. pose proof (budget_nonneg a Hb) as X. destruct (a_budget a) as [b|]; auto. destruct (Qeq_bool b 0) eqn:E; auto. apply Qeq_bool_neq in E. lra. }
  destruct (round_factor_ok _ (a_gtol a) Hgt Hbud) as [k [Ek _]].
  destruct (bounds_ok n (fun i => budget_or (a_budget a) (qsum n hist) * share i)%Q k _ _ Hv) as [L [U [EB _]]].
  assert (Hc : exists g, create a (lower_of a) (upper_of a) = Ok g).
  { unfold M_Optimizer.create. rewrite Hfit. cbn [negb raise_if].
    replace (match a_geos a with Some [] => true | _ => false end) with false by (destruct (a_geos a) as [[|]|]; auto; congruence). cbn [raise_if].
    rewrite Hsp. cbn [rbind]. cbv zeta. rewrite Hsh. cbn [rbind]. rewrite Ek. cbn [rbind]. replace (Z.to_nat (- - Z.of_nat k)) with k by lia. rewrite EB. cbn [rbind fst snd].
    destruct (share_spec n hist (a_pct a) share Hh Hp Hsh) as [_ Hnn].
    pose proof (bounds_facts _ _ _ _ _ _ EB ltac:(intros; apply Qmult_le_0_compat; [lra|auto])) as HF.
    assert (Hq : exists q, (if has_rf && a_optimal_frequency a then rbind (frequency_of (a_data a) (a_posterior a) (a_geos a) (a_start a) (a_end a) (a_kpi a) (a_max_frequency a)) (fun f => Ok (Some f)) else Ok None) = Ok q).
    { destruct has_rf; cbn [andb]; [|eauto]. destruct (a_optimal_frequency a); [|eauto]. destruct (Hfreq eq_refl eq_refl) as [f ->]. cbn [rbind]. eauto. }
    destruct Hq as [q ->]. cbn [rbind].
    destruct (grids_ok L U k (outcome_of (a_data a) (a_posterior a) (a_kpi a) (a_geos a) (a_start a) (a_end a) q) Hn HF) as [rows [m [E6 _]]]. rewrite E6. cbn [rbind]. eauto. }
  destruct Hc as [g Hc]. rewrite Hc. cbn [rbind]. destruct (scenario_total a Hb Ht) as [s Es]. rewrite Es. cbn [rbind].
  destruct (scenario_wanted a s Hb Es) as [Hw _].
  destruct (fresh_run a g hist s Hn Hb Hc Hsp Hh Hp Hw) as [sh [k' [L' [U' [m [_ [_ [_ [_ R]]]]]]]]]. rewrite R. unfold search_of.
  match goal with |- context [grid_search ?G ?S] => destruct (grid_search_total G S) as [opt Eopt] end.
  { pose proof (longest_ge n (fun c => points (outcome_of (a_data a) (a_posterior a) (a_kpi a) (a_geos a) (a_start a) (a_end a) (g_frequency g) c) (L' c) (pow10 k') (m c)) 0 Hn) as X.
    cbv beta in X. rewrite points_length in X. unfold grid_of. destruct (length channels) as [|x]; [lia|]. cbn [seq map n_rows]. unfold column_of. rewrite app_length, map_length, repeat_length, points_length. lia. }
  rewrite Eopt. cbn [rbind]. eauto.
Qed.

(** A grid made for another budget, split or constraints gives the result of a fresh grid. *)
Lemma reuse_lemma : forall a b lo hi g hist o, (0 < n)%nat -> alike a b -> a_geos a = None ->
  create b lo hi = Ok g ->
  spend_of (a_data a) None (a_start a) (a_end a) = Ok hist -> (forall c, (c < n)%nat -> 0 <= hist c)%Q ->
  (match a_pct a with Some l => Forall (fun x => 0 <= x)%Q l | None => True end) ->
  (match a_pct b with Some l => Forall (fun x => 0 <= x)%Q l | None => True end) ->
  (match a_budget b with Some x => 0 <= x | None => True end)%Q ->
  get_round_factor (budget_for a (qsum n hist)) (a_gtol a) = Ok (- Z.of_nat (g_round g))%Z ->
  optimize a None = Ok o ->
  exists o', optimize a (Some g) = Ok o' /\ o_optimized _ o' = o_optimized _ o /\ o_non_optimized _ o' = o_non_optimized _ o.
Proof.
  intros a b lo hi g hist o Hn Hal Hgeo Hcb Hsp Hh Hp Hpb Hbb Hrf H.
  assert (Hb : budget_arguments a). { apply budget_ok. unfold M_Optimizer.optimize in H. apply rbind_ok in H. destruct H as [[] [H' _]]. exact H'. }
  pose proof H as H0.
  rewrite (optimize_unfold a None Hb) in H. rewrite (optimize_unfold a (Some g) Hb). apply rbind_ok in H. destruct H as [ga [Hc H]]. apply rbind_ok in H. destruct H as [s [Es H]]. apply rbind_ok in H. destruct H as [[opt rounded] [Eo H]].
  cbn [fst snd] in H. assert (o = mkOutcome _ ga opt rounded) by congruence. subst o. cbn [o_grid o_optimized o_non_optimized]. clear H.
  destruct (scenario_wanted a s Hb Es) as [Hw _]. pose proof (budget_agrees a s hist Hb Hw) as Hbs.
  assert (Hspa : spend_of (a_data a) (a_geos a) (a_start a) (a_end a) = Ok hist) by (rewrite Hgeo; auto).
  destruct (fresh_run a ga hist s Hn Hb Hc Hspa Hh Hp Hw) as [share [k [L [U [m [A1 [A2 [A3 [A4 A5]]]]]]]]].
  assert (Hbud : budget_or (a_budget a) (qsum n hist) = budget_for a (qsum n hist)) by (apply budget_for_or; auto; apply qsum_nonneg; auto).
  destruct Hal as [D1 [D2 [D3 [D4 [D5 [D6 [D7 [D8 D9]]]]]]]].
  assert (Hspb : spend_of (a_data b) (a_geos b) (a_start b) (a_end b) = Ok hist) by (rewrite <- D1, <- D3, <- D4, <- D5; auto).
  destruct (create_inv b _ _ g hist Hn Hcb Hspb Hh Hpb Hbb) as [shareb [kb [Lb [Ub [rows [mb [B1 [B2 [B3 [B4 [B5 [B6 B7]]]]]]]]]]]].
  destruct B7 as [G1 [G2 [G3 [G4 [G5 [G6 [G7 [G8 [G9 [G10 G11]]]]]]]]]].
  assert (Hkb : kb = k). { rewrite Hbs, Hbud in A2. rewrite G10 in Hrf. assert (X : forall x y, @Ok Z x = Ok y -> x = y) by congruence. rewrite A2 in Hrf. apply X in Hrf. lia. }
  rewrite Hkb in *. clear Hkb.
  (* the outcome functions agree *)
  destruct (create_inv a _ _ ga hist Hn Hc Hspa Hh Hp (budget_nonneg a Hb)) as [share2 [k2 [L2 [U2 [rows2 [m2 [_ [_ [_ [Fa _]]]]]]]]]].
  assert (Hfreq : g_frequency g = g_frequency ga).
  { rewrite <- D1, <- D2, <- D3, <- D4, <- D5, <- D9, <- D8, <- D7 in B4. destruct (g_frequency g), (g_frequency ga); auto; try congruence; intuition congruence. }
  rewrite <- D1, <- D2, <- D3, <- D4, <- D5, <- D9, Hfreq in B5.
  set (out := outcome_of (a_data a) (a_posterior a) (a_kpi a) (a_geos a) (a_start a) (a_end a) (g_frequency ga)) in *.
  assert (Hval : validate_grid a (lower_of a) (upper_of a) g = Ok false \/ validate_grid a (lower_of a) (upper_of a) g = Ok true /\ forall c, (c < n)%nat -> (Lb c <= L c /\ L c + Z.of_nat (m c) * pow10 k <= Lb c + Z.of_nat (mb c) * pow10 k)%Z).
  { unfold M_Optimizer.validate_grid.
    repeat match goal with |- context [(if negb ?x then _ else _) = Ok false] => let E := fresh "E" in destruct x eqn:E; cbn [negb]; [|left; reflexivity] end.
    cbv zeta. rewrite Hsp. cbn [rbind]. rewrite G1, A1. cbn [rbind]. rewrite G10, <- Hbs, A3. cbn [rbind fst snd]. rewrite B5.
    destruct (check_spec n rows (fun c => points (out c) (Lb c) (pow10 k) (mb c)) L U) as [[C1 ->]|[_ ->]]; [|left; reflexivity]. right. rewrite A2. split; [reflexivity|].
    intros c Hx. specialize (C1 c Hx). destruct (B6 c Hx) as [_ [_ Y]]. apply not_outside in C1; [|apply pow10_pos|exact Y]. destruct (A4 c Hx) as [X _]. rewrite <- X. exact C1. }
  destruct Hval as [->|[-> Hin]]; cbn [rbind].
  - rewrite Hc. cbn [rbind]. rewrite Es. cbn [rbind]. rewrite Eo. cbn [rbind fst snd]. eexists. split; [reflexivity|]. auto.
  - rewrite Es. cbn [rbind]. rewrite G10, G9, G2, B5, <- D6.
    rewrite (optimize_on rows out Lb mb L m k U (a_gtol a) hist s (a_pct a) share (lower_of a) (upper_of a) (- Z.of_nat k)%Z Hn); auto.
    + rewrite A5 in Eo. rewrite Eo. cbn [rbind fst snd]. eexists. split; [reflexivity|]. auto.
    + intros c Hx. destruct (B6 c Hx) as [X [_ Y]]. auto.
    + intros c Hx. destruct (A4 c Hx) as [_ X]. destruct (Hin c Hx). auto.
    + intros c Hx. apply (A4 c Hx).
Qed.
End P.
