(** Lemmas about loading from data frames: the order of the rows, and the documented layout. *)
From Coq Require Import Reals ZArith Lia String List Bool Permutation FunctionalExtensionality.
From Verif Require Import M_Base M_Time Lib_Sort M_Builder S_Builder P_Builder P_BuilderOrder C_Builder P_BuilderFull M_Frame S_Frame P_Frame P_Frame2 P_Frame3.
Import ListNotations.
Local Open Scope string_scope.
Local Open Scope R_scope.
Local Open Scope nat_scope.
Local Open Scope list_scope.

Section P.
Context {G T : Type}.
Variables (geq : forall a b : G, {a = b} + {a <> b}) (teq : forall a b : T, {a = b} + {a <> b})
  (gord : G -> G -> bool) (tle : T -> T -> bool) (gle : G -> G -> bool)
  (parse : T -> option date) (national : G).
Hypothesis tle_order : strict_order tle.
Hypothesis gord_order : strict_order gord.
Notation da := (da G T string R).
Notation loader := (loader G T).
Notation row := (row G T).
Notation entry := (@entry G T).
Notation to_array := (to_array geq teq gord tle).
Notation load := (load geq teq gord tle gle parse national).
Notation validate_coords := (validate_coords geq teq gord tle national).

Definition with_rows (lo : loader) (rs : list row) : loader :=
  mkLoader (mkFrame (f_columns (lo_frame lo)) rs) (lo_coord lo) (lo_revenue lo) (lo_media lo) (lo_media_spend lo)
    (lo_reach lo) (lo_frequency lo) (lo_rf_spend lo) (lo_organic_reach lo) (lo_organic_frequency lo).

(** *** The order of the rows *)
Lemma unique_perm : forall A (dec : forall a b : A, {a = b} + {a <> b}) l m, Permutation l m -> unique dec l = unique dec m.
Proof.
  intros A dec l m P. destruct (unique dec l) eqn:U1, (unique dec m) eqn:U2; try reflexivity.
  - apply unique_iff in U1. assert (unique dec m = true) by (apply unique_iff; eapply Permutation_NoDup; eassumption). congruence.
  - apply unique_iff in U2. assert (unique dec l = true) by (apply unique_iff; eapply Permutation_NoDup; [apply Permutation_sym|]; eassumption). congruence.
Qed.
Lemma mem_perm : forall A (dec : forall a b : A, {a = b} + {a <> b}) x l m, Permutation l m -> mem dec x l = mem dec x m.
Proof.
  intros A dec x l m P. unfold mem. destruct (in_dec dec x l) as [I|N], (in_dec dec x m) as [I'|N']; try reflexivity; exfalso.
  - apply N'. eapply Permutation_in; eassumption.
  - apply N. eapply Permutation_in; [apply Permutation_sym|]; eassumption.
Qed.
Lemma nodup_perm : forall A (dec : forall a b : A, {a = b} + {a <> b}) l m, Permutation l m -> Permutation (nodup dec l) (nodup dec m).
Proof.
  intros A dec l m P. apply NoDup_Permutation; try apply NoDup_nodup. intros x. rewrite !nodup_In.
  split; apply Permutation_in; [|apply Permutation_sym]; exact P.
Qed.
Lemma gsort_perm : forall l m, Permutation l m -> isort gord l = isort gord m.
Proof.
  intros l m P. destruct gord_order as [[A B] C]. apply isort_unique; auto.
Qed.
Lemma to_array_perm : forall l l' ch, Permutation l l' -> to_array l ch = to_array l' ch.
Proof.
  intros l l' ch P. unfold M_Frame.to_array.
  rewrite (unique_perm _ (entry_key_dec geq teq) _ _ (Permutation_map fst P)).
  destruct (unique (entry_key_dec geq teq) (map fst l')) eqn:U; cbn [negb raise_if]; [|reflexivity]. cbv zeta.
  apply unique_iff in U.
  assert (U' : NoDup (map fst l)) by (eapply Permutation_NoDup; [apply Permutation_sym, Permutation_map; exact P|exact U]).
  rewrite (gsort_perm _ _ (nodup_perm _ geq _ _ (Permutation_map e_geo P))).
  rewrite (tsort_perm tle tle_order _ _ (nodup_perm _ teq _ _ (Permutation_map e_time P))).
  assert (Ec : match ch with Some cs => filter (fun c => mem string_dec c (map e_chan l)) cs | None => [] end
             = match ch with Some cs => filter (fun c => mem string_dec c (map e_chan l')) cs | None => [] end).
  { destruct ch as [cs|]; [|reflexivity]. apply filter_ext. intros c. apply mem_perm. apply Permutation_map. exact P. }
  rewrite Ec. f_equal. f_equal.
  apply functional_extensionality; intros i; apply functional_extensionality; intros j; apply functional_extensionality; intros k.
  destruct (nth_error _ i) as [g|]; [|reflexivity]. destruct (nth_error _ j) as [t|]; [|reflexivity].
  lazymatch goal with |- match ?q with _ => _ end = _ => destruct q as [c|]; [|reflexivity] end.
  destruct (cell_value geq teq l g t c) as [v|] eqn:E1.
  - apply find_in in E1. symmetry. apply find_in_unique; [exact U|]. eapply Permutation_in; eassumption.
  - destruct (cell_value geq teq l' g t c) as [v|] eqn:E2; [|reflexivity]. apply find_in in E2.
    rewrite (find_in_unique geq teq l g t c v U') in E1; [discriminate|]. eapply Permutation_in; [apply Permutation_sym|]; eassumption.
Qed.
Definition perm_frame (f f' : frame G T) : Prop := f_columns f = f_columns f' /\ Permutation (f_rows f) (f_rows f').
Lemma stack_perm : forall geo time cols chans f f', perm_frame f f' ->
  Permutation (stack geo time cols chans f) (stack geo time cols chans f').
Proof. intros geo time cols chans f f' [_ P]. unfold stack. apply Permutation_flat_map. exact P. Qed.
Lemma with_geo_perm : forall geo f f', perm_frame f f' -> perm_frame (with_geo national geo f) (with_geo national geo f').
Proof.
  intros geo f f' [C P]. unfold with_geo. rewrite C. destruct (mem string_dec geo (f_columns f')); [split; assumption|].
  split; [reflexivity|]. cbn [f_rows]. apply Permutation_map. exact P.
Qed.
Lemma overwrite_perm : forall col v (f f' : frame G T), perm_frame f f' -> perm_frame (overwrite col v f) (overwrite col v f').
Proof. intros col v f f' [C P]. split; [exact C|]. cbn. apply Permutation_map. exact P. Qed.
Lemma filter_perm' : forall A (p : A -> bool) l m, Permutation l m -> Permutation (filter p l) (filter p m).
Proof.
  intros A p l m P. induction P; cbn; auto.
  - destruct (p x); auto.
  - destruct (p x), (p y); auto. apply perm_swap.
  - etransitivity; eassumption.
Qed.
Lemma coords_perm : forall geo tm f f' (B : Type) (k : frame G T -> result B), perm_frame f f' ->
  (forall a b, perm_frame a b -> k a = k b) -> rbind (validate_coords geo tm f) k = rbind (validate_coords geo tm f') k.
Proof.
  intros geo tm f f' B k P K. pose proof (with_geo_perm geo f f' P) as P'. unfold M_Frame.validate_coords.
  destruct tm as [time|]; [|cbn [rbind]; apply K; exact P']. cbv zeta.
  assert (Eg : geo_groups geq gord geo (with_geo national geo f) = geo_groups geq gord geo (with_geo national geo f')).
  { unfold geo_groups. apply gsort_perm, nodup_perm, Permutation_map. apply P'. }
  assert (Et : forall g, times_of geq tle geo time (with_geo national geo f) g = times_of geq tle geo time (with_geo national geo f') g).
  { intros g. unfold times_of, rows_of. apply tsort_perm; [exact tle_order|]. apply Permutation_map, filter_perm'. apply P'. }
  rewrite Eg, (map_ext _ _ Et). unfold raise_if.
  destruct (existsb _ _); [reflexivity|]. destruct (match map _ _ with [] => _ | _ => _ end); [reflexivity|]. cbn [rbind]. apply K. exact P'.
Qed.
Lemma mean_perm : forall l m, Permutation l m -> mean l = mean m.
Proof.
  intros l m P. unfold mean. assert (Es : fold_right Rplus 0%R l = fold_right Rplus 0%R m).
  { clear - P. induction P; cbn; try congruence; ring. }
  rewrite Es, (Permutation_length P). destruct l as [|a l], m as [|b m]; try reflexivity.
  - apply Permutation_nil in P. discriminate.
  - apply Permutation_sym, Permutation_nil in P. discriminate.
Qed.

Lemma validate_cols_perm : forall f f' r o, perm_frame f f' -> validate_cols f r o = validate_cols f' r o.
Proof. intros f f' r o [C _]. unfold validate_cols. rewrite C. reflexivity. Qed.

Lemma to_arr_steps : forall geo time cols chans f f' c n, perm_frame f f' ->
  (c : component, to_array (stack geo time cols chans f) n) = (c, to_array (stack geo time cols chans f') n).
Proof. intros. f_equal. apply to_array_perm, stack_perm. assumption. Qed.
Lemma with_kpi_perm : forall d f f' a b c, perm_frame f f' ->
  with_kpi geq teq gord tle national d f a b c = with_kpi geq teq gord tle national d f' a b c.
Proof.
  intros d f f' a b c P. unfold with_kpi. cbv zeta. rewrite (validate_cols_perm f f') by exact P.
  f_equal. apply functional_extensionality; intros _. apply coords_perm; [exact P|]. intros x y Pxy. f_equal. f_equal. apply to_arr_steps. exact Pxy.
Qed.
Lemma with_named_perm : forall cm d f f' l b c, perm_frame f f' ->
  with_named geq teq gord tle national cm d f l b c = with_named geq teq gord tle national cm d f' l b c.
Proof.
  intros cm d f f' l b c P. unfold with_named. cbv zeta. destruct (empty l); [reflexivity|]. rewrite (validate_cols_perm f f') by exact P.
  f_equal. apply functional_extensionality; intros _. apply coords_perm; [exact P|]. intros x y Pxy. f_equal. f_equal. apply to_arr_steps. exact Pxy.
Qed.
Lemma with_population_perm : forall d f f' a b, perm_frame f f' ->
  with_population geq teq gord tle national d f a b = with_population geq teq gord tle national d f' a b.
Proof.
  intros d f f' a b P. unfold with_population. cbv zeta. rewrite (validate_cols_perm f f') by exact P.
  f_equal. apply functional_extensionality; intros _. apply coords_perm; [exact P|]. intros x y Pxy.
  assert (Eg : geo_groups geq gord (or_default b (df_geo d)) x = geo_groups geq gord (or_default b (df_geo d)) y)
    by (unfold geo_groups; apply gsort_perm, nodup_perm, Permutation_map; apply Pxy).
  rewrite Eg. do 5 f_equal. apply functional_extensionality; intros i. apply functional_extensionality; intros _. apply functional_extensionality; intros _.
  destruct (nth_error _ i) as [g|]; [|reflexivity]. apply mean_perm. unfold some_values. apply Permutation_flat_map, Permutation_map, filter_perm'. apply Pxy.
Qed.
Lemma with_rpk_perm : forall rev d f f' a b c, perm_frame f f' ->
  with_revenue_per_kpi geq teq gord tle national rev d f a b c = with_revenue_per_kpi geq teq gord tle national rev d f' a b c.
Proof.
  intros rev d f f' a b c P. unfold with_revenue_per_kpi. cbv zeta. rewrite (validate_cols_perm f f') by exact P.
  f_equal. apply functional_extensionality; intros _. apply coords_perm; [destruct rev; [apply overwrite_perm|]; exact P|]. intros x y Pxy. f_equal. f_equal. apply to_arr_steps. exact Pxy.
Qed.
Lemma with_media_perm : forall d f f' l1 l2 l3 b c, perm_frame f f' ->
  with_media geq teq gord tle national d f l1 l2 l3 b c = with_media geq teq gord tle national d f' l1 l2 l3 b c.
Proof.
  intros d f f' l1 l2 l3 b c P. unfold with_media. cbv zeta. f_equal. rewrite !(validate_cols_perm f f') by exact P.
  f_equal. apply functional_extensionality; intros _. f_equal. apply functional_extensionality; intros _. apply coords_perm; [exact P|]. intros x y Pxy.
  f_equal. apply functional_extensionality; intros _. f_equal.
  apply f_equal2; [apply to_arr_steps; exact Pxy|]. apply f_equal2; [apply to_arr_steps; exact Pxy|reflexivity].
Qed.
Lemma with_reach_perm : forall d f f' l1 l2 l3 l4 b c, perm_frame f f' ->
  with_reach geq teq gord tle national d f l1 l2 l3 l4 b c = with_reach geq teq gord tle national d f' l1 l2 l3 l4 b c.
Proof.
  intros d f f' l1 l2 l3 l4 b c P. unfold with_reach. cbv zeta. f_equal. rewrite !(validate_cols_perm f f') by exact P.
  f_equal. apply functional_extensionality; intros _. apply coords_perm; [exact P|]. intros x y Pxy.
  f_equal. apply functional_extensionality; intros _. f_equal.
  apply f_equal2; [apply to_arr_steps; exact Pxy|]. apply f_equal2; [apply to_arr_steps; exact Pxy|]. apply f_equal2; [apply to_arr_steps; exact Pxy|reflexivity].
Qed.
Lemma with_organic_media_perm : forall d f f' l1 l2 b c, perm_frame f f' ->
  with_organic_media geq teq gord tle national d f l1 l2 b c = with_organic_media geq teq gord tle national d f' l1 l2 b c.
Proof.
  intros d f f' l1 l2 b c P. unfold with_organic_media. cbv zeta. f_equal. rewrite !(validate_cols_perm f f') by exact P.
  f_equal. apply functional_extensionality; intros _. apply coords_perm; [exact P|]. intros x y Pxy.
  f_equal. apply functional_extensionality; intros _. f_equal. f_equal. apply to_arr_steps; exact Pxy.
Qed.
Lemma with_organic_reach_perm : forall d f f' l1 l2 l3 b c, perm_frame f f' ->
  with_organic_reach geq teq gord tle national d f l1 l2 l3 b c = with_organic_reach geq teq gord tle national d f' l1 l2 l3 b c.
Proof.
  intros d f f' l1 l2 l3 b c P. unfold with_organic_reach. cbv zeta. f_equal. rewrite !(validate_cols_perm f f') by exact P.
  f_equal. apply functional_extensionality; intros _. apply coords_perm; [exact P|]. intros x y Pxy.
  f_equal. apply functional_extensionality; intros _. f_equal.
  apply f_equal2; [apply to_arr_steps; exact Pxy|]. apply f_equal2; [apply to_arr_steps; exact Pxy|reflexivity].
Qed.
Lemma row_order_lemma : forall valid lo rs, Permutation (rows lo) rs -> load valid (with_rows lo rs) = load valid lo.
Proof.
  intros valid lo rs P.
  assert (Pf : perm_frame (lo_frame (with_rows lo rs)) (lo_frame lo)) by (split; [reflexivity|apply Permutation_sym; exact P]).
  assert (Ec : load_calls geq teq gord tle national (with_rows lo rs) = load_calls geq teq gord tle national lo).
  { unfold load_calls, with_controls, with_non_media_treatments. cbv zeta.
    set (F := lo_frame (with_rows lo rs)) in *. change (f_columns F) with (f_columns (lo_frame lo)).
    change (lo_coord (with_rows lo rs)) with (lo_coord lo). change (lo_revenue (with_rows lo rs)) with (lo_revenue lo).
    change (lo_media (with_rows lo rs)) with (lo_media lo). change (lo_media_spend (with_rows lo rs)) with (lo_media_spend lo).
    change (lo_reach (with_rows lo rs)) with (lo_reach lo). change (lo_frequency (with_rows lo rs)) with (lo_frequency lo).
    change (lo_rf_spend (with_rows lo rs)) with (lo_rf_spend lo). change (lo_organic_reach (with_rows lo rs)) with (lo_organic_reach lo).
    change (lo_organic_frequency (with_rows lo rs)) with (lo_organic_frequency lo).
    repeat apply (f_equal2 (@app _)).
    - apply (f_equal (fun z => [z])). apply with_kpi_perm. exact Pf.
    - destruct (mem _ _ _); [|reflexivity]. apply (f_equal (fun z => [z])). apply with_population_perm. exact Pf.
    - destruct (given _); [|reflexivity]. apply (f_equal (fun z => [z])). apply (f_equal (rbind _)). apply functional_extensionality; intros l. apply with_named_perm. exact Pf.
    - destruct (given _); [|reflexivity]. apply (f_equal (fun z => [z])). apply (f_equal (rbind _)). apply functional_extensionality; intros l. apply with_named_perm. exact Pf.
    - destruct (co_rpk (lo_coord lo)) as [s|]; [|reflexivity]. destruct (String.eqb s ""); [reflexivity|]. apply (f_equal (fun z => [z])). apply with_rpk_perm. exact Pf.
    - destruct (lo_media lo) as [m|]; [|reflexivity]. destruct (lo_media_spend lo); [|reflexivity]. apply (f_equal (fun z => [z])).
      apply (f_equal (rbind _)). apply functional_extensionality; intros a. apply (f_equal (rbind _)). apply functional_extensionality; intros b. apply (f_equal (rbind _)). apply functional_extensionality; intros ch.
      apply with_media_perm. exact Pf.
    - destruct (lo_reach lo) as [m|]; [|reflexivity]. destruct (lo_frequency lo); [|reflexivity]. destruct (lo_rf_spend lo); [|reflexivity]. apply (f_equal (fun z => [z])).
      apply (f_equal (rbind _)). apply functional_extensionality; intros a. apply (f_equal (rbind _)). apply functional_extensionality; intros b. apply (f_equal (rbind _)). apply functional_extensionality; intros c. apply (f_equal (rbind _)). apply functional_extensionality; intros ch.
      apply with_reach_perm. exact Pf.
    - destruct (given _); [|reflexivity]. apply (f_equal (fun z => [z])). apply (f_equal (rbind _)). apply functional_extensionality; intros l. apply with_organic_media_perm. exact Pf.
    - destruct (lo_organic_reach lo) as [m|]; [|reflexivity]. destruct (lo_organic_frequency lo); [|reflexivity]. apply (f_equal (fun z => [z])).
      apply (f_equal (rbind _)). apply functional_extensionality; intros a. apply (f_equal (rbind _)). apply functional_extensionality; intros b. apply (f_equal (rbind _)). apply functional_extensionality; intros ch.
      apply with_organic_reach_perm. exact Pf. }
  unfold M_Frame.load. rewrite Ec. reflexivity.
Qed.
End P.
