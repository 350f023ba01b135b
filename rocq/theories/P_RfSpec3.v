(** Proofs about all runs and about the planner's tables. *)
From Coq Require Import ZArith QArith Qround Qabs String List Bool Arith Sorted Lia Lqa.
From Verif Require Import Lib_QSum M_Base M_Opt P_Opt M_BudgetSpec S_BudgetSpec P_BudgetSpec M_MarketingSpec S_MarketingSpec P_MarketingSpec P_MarketingSpec2 P_MarketingSpec3 P_MarketingSpec4 M_RfSpec S_RfSpec P_RfSpec P_RfSpec2.
Import ListNotations.
Local Open Scope string_scope.
Local Open Scope list_scope.

Definition group_of (s : rf_spec) : string := match q_group s with Some i => i | None => "" end.
Record shaped (channels : list string) (r : rf_result) : Prop := {
  sh_lohi : exists lo hi, (0 < lo)%Q /\ (lo <= hi)%Q /\ p_constraints (z_spec r) = map (fun c => (c, (lo, hi))) channels;
  sh_best : exists best, length best = length channels /\ z_frequencies r = combine channels best;
  sh_media : map v_channel (w_media (z_analysis r)) = channels;
  sh_outcome : forall m, In m (w_media (z_analysis r)) -> exists o, v_outcomes m = [o];
  sh_cells : map fst (y_cells (z_grid r)) = channels }.
Lemma combine_fst : forall (A B : Type) (l : list A) (m : list B), length m = length l -> map fst (combine l m) = l.
Proof. induction l as [|a l IH]; intros [|b m] H; try discriminate; [ reflexivity | ]. cbn [combine map fst]. rewrite IH; [ reflexivity | cbn [length] in H; lia ]. Qed.
Lemma forall2_len : forall (A B : Type) (P : A -> B -> Prop) l m, Forall2 P l m -> length m = length l.
Proof. intros A B P l m F. induction F; cbn [length]; congruence. Qed.
Lemma concat_items : forall (A B C : Type) (f : A -> list B) (P : A * B -> C -> Prop) l bs,
  Forall2 (fun a b => Forall2 (fun y w => P (a, y) w) (f a) b) l bs -> Forall2 P (items f l) (concat bs).
Proof.
  intros A B C f P l bs F. unfold items. induction F as [|a b l bs H F IH]; [ constructor | ]. cbn [flat_map concat]. apply Forall2_app; [ | exact IH ].
  clear - H. induction H as [|y w ys ws H F IH]; [ constructor | constructor; [ exact H | exact IH ] ].
Qed.
Lemma forall2_maps : forall (A B C : Type) (P : A -> B -> Prop) (f : C -> A) (g : C -> B) l, (forall x, In x l -> P (f x) (g x)) -> Forall2 P (map f l) (map g l).
Proof. intros A B C P f g l. induction l as [|x l IH]; intros H; cbn [map]; constructor; [ apply H; left; reflexivity | apply IH; intros; apply H; right; assumption ]. Qed.
Lemma forall2_self : forall (A B : Type) (P : A -> B -> Prop) (g : A -> B) l, (forall x, In x l -> P x (g x)) -> Forall2 P l (map g l).
Proof. intros A B P g l. induction l as [|x l IH]; intros H; cbn [map]; constructor; [ apply H; left; reflexivity | apply IH; intros; apply H; right; assumption ]. Qed.
Lemma concat_ones : forall (A B : Type) (f : A -> B) l, concat (map (fun x => [f x]) l) = map f l.
Proof. induction l as [|x l IH]; [ reflexivity | ]. cbn [map concat app]. rewrite IH. reflexivity. Qed.

Section One.
Variable historical : Z -> Z -> list (string * Q).
Variable channels : list string.
Hypothesis Nd : NoDup channels.
Hypothesis Ne : channels <> [].
Hypothesis Nall : ~ In "All Channels" channels.
Hypothesis Hist : forall a b c, In c channels -> In c (map fst (historical a b)).

Lemma optimized_all : forall r, shaped channels r -> optimized_channels r = channels.
Proof using Nd.
  intros r [_ [best [L E]] _ _ _]. unfold optimized_channels. rewrite E, to_dict_nodup; rewrite combine_fst by exact L; [ reflexivity | exact Nd ].
Qed.
Lemma same_refl : forall l, same_set l l = true.
Proof. intros l. unfold same_set. assert (H : forallb (fun x => mem x l) l = true) by (apply forallb_forall; intros x X; apply mem_in; exact X). rewrite H. reflexivity. Qed.

Lemma spec_rows_ok : forall r, shaped channels r -> exists rows, rf_spec_rows historical r = Ok rows /\ Forall2 (wanted_rf_spec historical r) (p_constraints (z_spec r)) rows.
Proof using Nd Ne Nall Hist.
  intros r S. pose proof (optimized_all r S) as O. destruct S as [[lo [hi [L1 [L2 E]]]] _ _ _ _]. unfold rf_spec_rows. cbv zeta. rewrite O, E.
  replace (match map (fun c => (c, (lo, hi))) channels with [] => true | _ :: _ => false end) with false by (destruct channels; [ contradiction | reflexivity ]).
  cbn [raise_if]. rewrite map_map. cbn [fst]. rewrite map_id, same_refl. cbn [negb raise_if].
  eexists. split; [ apply mapR_ok; apply forall2_maps; intros c _; cbn [fst snd] | ].
  - assert (Z1 : Qeq_bool hi 0 = false) by (destruct (Qeq_bool hi 0) eqn:Q; [ apply Qeq_bool_eq in Q; lra | reflexivity ]). rewrite Z1. cbn [raise_if].
    assert (Z2 : Qeq_bool lo 0 = false) by (destruct (Qeq_bool lo 0) eqn:Q; [ apply Qeq_bool_eq in Q; lra | reflexivity ]). rewrite Z2.
    instantiate (1 := fun c => mkRfSpecRow (z_group r) (p_start (z_spec r)) (p_end (z_spec r)) "ROI" (spent historical r c) c lo hi). reflexivity.
  - apply forall2_maps. intros c _. repeat split.
Qed.

Lemma result_rows_ok : forall r, shaped channels r -> exists rows, rf_result_rows historical r = Ok rows /\ Forall2 (wanted_rf_result historical r) (w_media (z_analysis r)) rows.
Proof using Nd Nall Hist.
  intros r S. pose proof (optimized_all r S) as O. destruct S as [_ [best [L F]] M Os _]. unfold rf_result_rows. rewrite O.
  rewrite (to_dict_nodup _ (map (fun m => (v_channel m, m)) (w_media (z_analysis r)))) by (rewrite map_map; change (fun x => fst (v_channel x, x)) with v_channel; rewrite M; exact Nd).
  rewrite (to_dict_nodup _ (z_frequencies r)) by (rewrite F, combine_fst by exact L; exact Nd).
  match goal with |- context [mapR ?f _] => destruct (blocks _ _ f (fun e b => exists w, b = [w] /\ wanted_rf_result historical r (snd e) w) (map (fun m => (v_channel m, m)) (w_media (z_analysis r)))) as [bs [-> B]] end.
  - intros e Ie. apply in_map_iff in Ie. destruct Ie as [m [<- Im]]. cbn [fst snd]. assert (C : In (v_channel m) channels) by (rewrite <- M; apply in_map; exact Im).
    destruct (String.eqb_spec (v_channel m) "All Channels") as [X|_]; [ rewrite X in C; contradiction | ].
    rewrite (proj2 (mem_in _ _) C). cbn [negb]. destruct (dget_some _ _ _ (Hist (p_start (z_spec r)) (p_end (z_spec r)) _ C)) as [x X]. rewrite X.
    assert (Kf : In (v_channel m) (map fst (z_frequencies r))) by (rewrite F, combine_fst by exact L; exact C).
    destruct (dget_some _ _ _ Kf) as [f Ff]. rewrite Ff. destruct (Os m Im) as [o Eo].
    eexists. split; [ reflexivity | ]. unfold outcome_of_kind. rewrite Eo. cbn [find].
    destruct (M_BudgetSpec.o_revenue o) eqn:R; cbn [Bool.eqb map app]; (eexists; split; [ reflexivity | ]; exists o, f; split; [ exact Eo | ]; split; [ exact (dget_in _ _ _ _ Ff) | ]; rewrite R; unfold spent; rewrite X; repeat split).
  - cbn [rbind]. eexists. split; [ reflexivity | ]. clear - B. generalize dependent bs. generalize (w_media (z_analysis r)). induction l as [|m l IH]; intros bs B; cbn [map] in B; inversion B as [|e b es bs' [w [-> W]] B']; subst; cbn [concat app]; constructor; [ exact W | exact (IH _ B') ].
Qed.
Lemma grid_rows_ok : forall r, shaped channels r -> Forall2 (wanted_rf_grid r) (cells_of r) (rf_grid_rows r).
Proof using Nd.
  intros r [_ _ _ _ C]. unfold rf_grid_rows, cells_of. rewrite to_dict_nodup by (rewrite C; exact Nd). induction (y_cells (z_grid r)) as [|e l IH] in |- *; cbn [flat_map]; [ constructor | ].
  apply Forall2_app; [ | exact IH ]. apply forall2_maps. intros c _. repeat split.
Qed.

Lemma tables_ok : forall rs, rs <> [] -> Forall (shaped channels) rs -> ids_distinct (map z_group rs) ->
  exists t, make_rf_tables historical rs = Ok (Some t) /\
    Forall2 (fun e => wanted_rf_spec historical (fst e) (snd e)) (items (fun r => p_constraints (z_spec r)) rs) (rt_specs t) /\
    Forall2 (fun e => wanted_rf_result historical (fst e) (snd e)) (items (fun r => w_media (z_analysis r)) rs) (rt_results t) /\
    Forall2 (fun r sheet => fst sheet = rf_grid_sheet r /\ Forall2 (wanted_rf_grid r) (cells_of r) (snd sheet)) rs (rt_grids t).
Proof using Nd Ne Nall Hist.
  intros rs Nr F U. rewrite Forall_forall in F.
  destruct (blocks _ _ (rf_spec_rows historical) (fun r rows => Forall2 (wanted_rf_spec historical r) (p_constraints (z_spec r)) rows) rs) as [sp [E1 P1]]; [ intros r R; apply spec_rows_ok; exact (F r R) | ].
  destruct (blocks _ _ (rf_result_rows historical) (fun r rows => Forall2 (wanted_rf_result historical r) (w_media (z_analysis r)) rows) rs) as [rr [E2 P2]]; [ intros r R; apply result_rows_ok; exact (F r R) | ].
  exists (mkRfTables (map (fun r => (rf_grid_sheet r, rf_grid_rows r)) rs) (concat sp) (concat rr)). split; [ | split; [ | split ] ].
  - unfold make_rf_tables. destruct rs as [|r0 rs']; [ contradiction | ]. rewrite (proj2 (unique_spec _) U). cbn [negb raise_if]. rewrite E1. cbn [rbind]. rewrite E2. reflexivity.
  - apply (concat_items _ _ _ (fun r => p_constraints (z_spec r)) (fun e w => wanted_rf_spec historical (fst e) (snd e) w)). exact P1.
  - apply (concat_items _ _ _ (fun r => w_media (z_analysis r)) (fun e w => wanted_rf_result historical (fst e) (snd e) w)). exact P2.
  - apply forall2_self. intros r R. cbn [fst snd]. split; [ reflexivity | apply grid_rows_ok; exact (F r R) ].
Qed.
End One.

Section All.
Variable channels : list string.
Variable model_coords : coords.
Variables kpi_only revenue_type : bool.
Variables geos_n times_n : nat.
Variables frequency reach : nat -> nat -> nat -> Q.
Variable roi_at : option (list Z) -> bool -> Q -> Q -> string -> summary oq.
Variable metrics_at : option (list Z) -> bool -> Q -> list Q -> string -> metrics oq.
Variable curve_at : option (list Z) -> bool -> list Q -> string -> list (Q * Q).
Variable spend_of : option (list Z) -> list (string * Q).
Hypothesis Cal : calendar model_coords.
Hypothesis Some_channels : channels <> [].
Notation run := (run_rf channels model_coords kpi_only revenue_type geos_n times_n frequency reach roi_at metrics_at curve_at spend_of).
Notation execute := (execute_rf channels model_coords kpi_only revenue_type geos_n times_n frequency reach roi_at metrics_at curve_at spend_of).
Notation Chosen := (chosen channels model_coords kpi_only revenue_type geos_n times_n frequency roi_at spend_of).
Notation Told := (rf_told channels model_coords kpi_only revenue_type geos_n times_n frequency reach roi_at metrics_at curve_at spend_of).
Definition answerable (s : rf_spec) : Prop := exists times kpi lo hi grid best curve, Chosen s times kpi lo hi grid best curve.

Theorem execute_told : forall specs rs, Forall valid_rf specs -> execute specs = Ok rs -> Forall2 Told specs rs.
Proof using Cal Some_channels.
  intros specs rs V H. apply raise_inv in H. destruct H as [_ H]. apply mapR_ok in H. revert H. apply forall2_same. intros s r I E. rewrite Forall_forall in V. apply run_inv; auto.
Qed.
Theorem execute_iff : forall specs, Forall valid_rf specs -> ((exists rs, execute specs = Ok rs) <-> ids_distinct (map group_of specs) /\ Forall answerable specs).
Proof using Cal Some_channels.
  intros specs V. split.
  - intros [rs H]. pose proof H as H'. apply raise_inv in H. destruct H as [U _]. apply negb_false_iff in U. split; [ apply unique_spec; exact U | ].
    pose proof (execute_told specs rs V H') as T. apply Forall_forall. intros s S. destruct (forall2_left _ _ _ _ _ _ T S) as [r [times [kpi [lo [hi [grid [best [curve [C _]]]]]]]]].
    exists times, kpi, lo, hi, grid, best, curve. exact C.
  - intros [U A]. unfold execute_rf. change (fun s : rf_spec => match q_group s with Some i => i | None => "" end) with group_of. rewrite (proj2 (unique_spec _) U). cbn [negb raise_if].
    apply mapR_total. intros s S. rewrite Forall_forall in A, V. destruct (A s S) as [times [kpi [lo [hi [grid [best [curve C]]]]]]]. exact (run_ok _ _ _ _ _ _ _ _ _ _ _ _ Cal Some_channels _ _ _ _ _ _ _ _ (V s S) C).
Qed.
Lemma told_shaped : forall s r, Told s r -> shaped channels r.
Proof using Some_channels.
  intros s r [times [kpi [lo [hi [grid [best [curve [C [_ [_ [_ [_ [_ [_ [P [Z [_ [_ [M [_ [_ [Y _]]]]]]]]]]]]]]]]]]]]]]. destruct C as [_ _ _ _ C5 C6 C7 _ _]. constructor.
  - exists lo, hi. split; [ exact C6 | ]. split; [ | exact P ]. destruct channels as [|c0 cs]; [ contradiction | ]. inversion C7 as [|c f cs' fs [F _] _]; subst. apply (proj2 C5) in F. lra.
  - exists best. split; [ exact (forall2_len _ _ _ _ _ C7) | exact Z ].
  - clear - M. induction M as [|c m cs ms [E _] M IH]; [ reflexivity | ]. cbn [map]. rewrite E, IH. reflexivity.
  - intros m I. clear - M I. induction M as [|c m' cs ms [_ [_ [_ [_ [o [O _]]]]]] M IH]; [ destruct I | ]. destruct I as [<-|I]; [ exists o; exact O | exact (IH I) ].
  - exact Y.
Qed.
Theorem planner_lemma : forall historical specs rs, NoDup channels -> ~ In "All Channels" channels -> (forall a b c, In c channels -> In c (map fst (historical a b))) ->
  Forall valid_rf specs -> execute specs = Ok rs -> specs <> [] ->
  exists t, make_rf_tables historical rs = Ok (Some t) /\
    Forall2 (fun e => wanted_rf_spec historical (fst e) (snd e)) (items (fun r => p_constraints (z_spec r)) rs) (rt_specs t) /\
    Forall2 (fun e => wanted_rf_result historical (fst e) (snd e)) (items (fun r => w_media (z_analysis r)) rs) (rt_results t) /\
    Forall2 (fun r sheet => fst sheet = rf_grid_sheet r /\ Forall2 (wanted_rf_grid r) (cells_of r) (snd sheet)) rs (rt_grids t).
Proof using Cal Some_channels.
  intros historical specs rs Nd Na Hi V H Ns. pose proof (execute_told specs rs V H) as T. apply (tables_ok historical channels Nd Some_channels Na Hi).
  - intros ->. inversion T. subst. contradiction.
  - clear - T Some_channels. induction T as [|s r ss rs E T IH]; constructor; [ exact (told_shaped _ _ E) | exact IH ].
  - apply raise_inv in H. destruct H as [U _]. apply negb_false_iff in U. apply unique_spec in U. replace (map z_group rs) with (map group_of specs); [ exact U | ].
    clear - T. induction T as [|s r ss rs E T IH]; [ reflexivity | ]. cbn [map]. rewrite IH. f_equal. destruct E as [times [kpi [lo [hi [grid [best [curve [_ [_ [G _]]]]]]]]]]. symmetry. exact G.
Qed.

(** Frequencies below a twentieth, and data without a frequency above one. *)
Theorem minimum_lemma : forall s r, valid_rf s -> run s = Ok r -> (1 # 20 < q_min s)%Q.
Proof using Cal Some_channels.
  intros s r V H. destruct (run_inv _ _ _ _ _ _ _ _ _ _ _ _ Cal Some_channels s r V H) as [times [kpi [lo [hi [grid [best [curve [C _]]]]]]]]. destruct C as [_ _ [k [-> [A E]]] _ _ C6 _ _ _].
  assert (K : (1 <= k)%Z) by (unfold Qlt in C6; cbn [Qnum Qden] in C6; lia). assert (K' : ((1 # 10) <= (k # 10))%Q) by (apply tenth_le; exact K).
  pose proof A as A'. apply abs_bound in A'. destruct A' as [A1 A2]. destruct (Qlt_le_dec (1 # 20) (q_min s)) as [L|L]; [ exact L | exfalso ].
  assert (X : ((k # 10) == (1 # 10))%Q) by lra. assert (Y : (Qabs (q_min s - (k # 10)) == 1 # 20)%Q) by (apply Qabs_case; intros; lra). destruct (E Y) as [z Hz].
  unfold Qeq in X. cbn [Qnum Qden] in X. lia.
Qed.
Theorem low_lemma : forall s, valid_rf s -> (forall g t c, (g < geos_n)%nat -> (t < times_n)%nat -> (c < length channels)%nat -> (frequency g t c <= 1)%Q) -> exists e, run s = Err e.
Proof using Cal Some_channels.
  intros s V Low. destruct (run s) as [r|e] eqn:H; [ exfalso | exists e; reflexivity ].
  destruct (run_inv _ _ _ _ _ _ _ _ _ _ _ _ Cal Some_channels s r V H) as [times [kpi [lo [hi [grid [best [curve [C _]]]]]]]]. destruct C as [_ _ _ _ _ _ _ [top [below [[[g [t [c [G [T [Cc E]]]]]] _] [B F]]]] _].
  specialize (Low g t c G T Cc). rewrite <- E in Low. destruct channels as [|c0 cs]; [ contradiction | ]. inversion F as [|c' f cs' fs [I _] _]; subst c'. apply (proj2 B) in I. lra.
Qed.
End All.
