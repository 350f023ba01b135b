From Coq Require Import Reals QArith ZArith String Lia Lra List Bool Arith Permutation.
From Verif Require Import Lib_Sum M_Base M_AdstockHill M_Equations M_Transformers M_Aggregate
  S_Aggregate S_Adstock S_Media S_Analyzer M_Analyzer S_Predictor M_Stats S_Stats M_Accuracy S_Accuracy M_FitTable S_FitTable
  Lib_Sort M_FitChart S_FitChart C_FitTable.
Import ListNotations.
Local Open Scope R_scope.

Lemma index_nth : forall l i a, NoDup l -> nth_error l i = Some a -> index_by String.eqb a l = Some i.
Proof.
  induction l as [|b l IH]; intros i a N E; [destruct i; discriminate|]. inversion N as [|? ? Nb Nl]; subst. cbn [index_by].
  destruct i as [|i]; cbn in E.
  - injection E as <-. now rewrite String.eqb_refl.
  - assert (a <> b) by (intros ->; apply Nb; eapply nth_error_In; exact E).
    rewrite (proj2 (String.eqb_neq _ _) H). now rewrite (IH i a Nl E).
Qed.
Lemma nth_names : forall (l : list string) i, (i < length l)%nat -> nth_error l i = Some (nth i l ""%string).
Proof. intros l i H. apply nth_error_nth'. exact H. Qed.
Lemma inside_in : forall a l, inside a l = true <-> In a l.
Proof.
  intros a l. unfold inside. rewrite existsb_exists. split.
  - intros (b & I & E). apply String.eqb_eq in E. subst. exact I.
  - intros I. exists a. split; [exact I|apply String.eqb_refl].
Qed.
Lemma inside_all : forall l all, forallb (fun a => inside a all) l = true <-> forall a, In a l -> In a all.
Proof.
  intros l all. rewrite forallb_forall. split; intros H a I; [apply inside_in|apply inside_in]; auto.
Qed.
Lemma repeated_iff : forall l, repeated l = false <-> NoDup l.
Proof.
  intros l. unfold repeated. rewrite negb_false_iff, Nat.eqb_eq. split.
  - intros E. assert (P : forall m : list string, (length (nodup string_dec m) <= length m)%nat /\
      (length (nodup string_dec m) = length m -> NoDup m)).
    { induction m as [|a m [L K]]; cbn [nodup length]; [split; [lia|constructor]|].
      destruct (in_dec string_dec a m) as [I|I]; cbn [length]; split; try lia.
      intros Q. constructor; [exact I|apply K; lia]. }
    apply P. exact E.
  - intros N. now rewrite nodup_fixed_point.
Qed.

Lemma positions : forall all l, NoDup all -> NoDup l -> (forall a, In a l -> In a all) ->
  exists p, map (fun i => nth i all ""%string) p = l /\ NoDup p /\ (forall i, In i p -> (i < length all)%nat) /\
    forall i, In i p <-> (i < length all)%nat /\ In (nth i all ""%string) l.
Proof.
  intros all l Na. induction l as [|a l IH]; intros Nl I.
  - exists []. repeat split; try constructor; cbn; tauto.
  - inversion Nl as [|? ? Nal Nl']; subst. destruct (IH Nl' (fun b Hb => I b (or_intror Hb))) as (p & E & Np & B & M).
    destruct (In_nth all a ""%string (I a (or_introl eq_refl))) as (i & Hi & Ei).
    exists (i :: p). split; [cbn [map]; now rewrite Ei, E|]. split.
    { constructor; [|exact Np]. intros C. apply Nal. rewrite <- Ei. apply M. exact C. }
    split. { intros j [<-|Hj]; auto. }
    intros j. cbn [In]. split.
    + intros [<-|Hj]; [split; [exact Hi|left; symmetry; exact Ei]|]. apply M in Hj. tauto.
    + intros [Hj [Ej|Ej]]; [left|right; apply M; tauto].
      apply (proj1 (NoDup_nth all ""%string) Na); auto. congruence.
Qed.

Lemma is_kpi_resolved : forall x uk, well_formed x -> outcome_is_kpi x (resolve_use_kpi x uk) = outcome_is_kpi x uk.
Proof.
  intros x uk W. pose proof (wf_rpk x W) as H. unfold outcome_is_kpi, resolve_use_kpi.
  destruct (d_revenue_per_kpi (x_data x)); [|reflexivity]. destruct uk, (x_kpi_is_revenue x); reflexivity.
Qed.
Lemma actual_resolved : forall x uk g t, well_formed x -> actual_outcome x (resolve_use_kpi x uk) g t = actual_outcome x uk g t.
Proof. intros x uk g t W. unfold actual_outcome. now rewrite is_kpi_resolved. Qed.
Lemma total_ext : forall l f g, (forall i, f i = g i) -> total l f = total l g.
Proof. intros l f g H. unfold total. f_equal. apply map_ext. exact H. Qed.
Lemma outcome_resolved : forall x nd uk gl tl w, well_formed x ->
  cell_outcome x nd (resolve_use_kpi x uk) gl tl w = cell_outcome x nd uk gl tl w.
Proof.
  intros x nd uk gl tl w W. unfold cell_outcome. apply total_ext. intros g. apply total_ext. intros t.
  unfold outcome_in_units. now rewrite is_kpi_resolved.
Qed.

(** The cells of the data of a view. *)
Lemma data_cells : forall x h nc nd level draws uk f,
  fit_request x h nc nd None level 100 draws -> (0 < x_n_geos x)%nat -> ~ lookalike x nd ->
  fit_data x h nc nd draws uk level = Ok f ->
  exists b, (forall c, (c < n_chans (d_non_media (x_data x)))%nat -> is_baseline_value x None c (b c)) /\
    f_geo f = Some (x_geo x) /\ f_time f = Some (x_time x) /\ f_metric f = [Mean; CiLo; CiHi] /\
    (NoDup (x_geo x) -> NoDup (x_time x) -> forall i j l m, (i < x_n_geos x)%nat -> (j < x_n_times x)%nat ->
      exists a, cell f (nth i (x_geo x) ""%string) (nth j (x_time x) ""%string) l m = Some a /\ value_of x uk level draws b l [i] j m a).
Proof.
  intros x h nc nd level draws uk f V G0 L E. pose proof (fr_model _ _ _ _ _ _ _ _ V) as W.
  destruct (C91_table x h nc nd None level 100 draws false false uk false V G0 L)
    as (d & b & Ed & Hb & Em & Eg & Et & Es & _ & D).
  unfold fit_data in E. assert (d = f) by congruence. subst d.
  exists b. split; [exact Hb|]. split; [exact Eg|]. split; [exact Et|]. split; [exact Em|].
  intros Ng Nt i j l m Hi Hj.
  specialize (D i j (fun _ => Hi) (fun _ => Hj)). cbv zeta in D. destruct D as [Da D].
  destruct (D m AllData (fun _ => eq_refl)) as [D' _]. destruct (D' (fun _ _ _ _ => eq_refl)) as (e & r & Ee & Er & Se & Sr).
  cbn in Es. rewrite Es in Ee, Er. unfold members in *. rewrite !seq_nth in Da, Se, Sr by assumption. cbn [Nat.add] in Da, Se, Sr.
  unfold cell. rewrite Eg, Et, Em. cbn [labels].
  rewrite (index_nth (x_geo x) i _ Ng (nth_names _ _ Hi)).
  assert (Hj' : (j < length (x_time x))%nat) by (rewrite (wf_time x W); exact Hj).
  rewrite (index_nth (x_time x) j _ Nt (nth_names _ _ Hj')).
  assert (K : index_by same_stat m [Mean; CiLo; CiHi] = Some (stat_place m)) by (destruct m; reflexivity).
  rewrite K. destruct l; cbn [value_of].
  - eexists. split; [reflexivity|].
    cbn [position app] in Da. rewrite Da. unfold total. cbn [map lsum]. ring.
  - exists r. split; [exact Er|exact Sr].
  - exists e. split; [exact Ee|exact Se].
Qed.

Lemma value_resolved : forall x uk level draws b l gl t m a, well_formed x ->
  value_of x (resolve_use_kpi x uk) level draws b l gl t m a -> value_of x uk level draws b l gl t m a.
Proof.
  intros x uk level draws b l gl t m a W. destruct l; cbn [value_of].
  - intros ->. apply total_ext. intros g. apply actual_resolved. exact W.
  - intros H. rewrite (map_ext _ _ (fun w => outcome_resolved x (no_media_scenario x b) uk gl [t] w W)) in H. exact H.
  - intros H. rewrite (map_ext _ _ (fun w => outcome_resolved x no_data uk gl [t] w W)) in H. exact H.
Qed.

(** Sums of values over geos. *)
Lemma outcome_split : forall x nd uk gl t w, cell_outcome x nd uk gl [t] w = lsum (map (fun g => cell_outcome x nd uk [g] [t] w) gl).
Proof.
  intros x nd uk gl t w. unfold cell_outcome, total. f_equal. apply map_ext. intros g. cbn [map lsum]. ring.
Qed.
Lemma mean_total : forall level (f : nat -> draw -> R) (draws : list draw) (u : nat -> R) gl,
  (forall g, In g gl -> is_stat level (map (f g) draws) Mean (u g)) ->
  is_stat level (map (fun w => lsum (map (fun g => f g w) gl)) draws) Mean (lsum (map u gl)).
Proof.
  intros level f draws u gl H. cbn [is_stat]. rewrite map_length.
  rewrite (lsum_swap draw nat (fun w g => f g w) draws gl). rewrite <- lsum_scal. f_equal. apply map_ext_in.
  intros g I. specialize (H g I). cbn [is_stat] in H. rewrite map_length in H. exact H.
Qed.
Lemma value_total : forall x uk level draws b l t u gl,
  (forall g, In g gl -> value_of x uk level draws b l [g] t Mean (u g)) ->
  value_of x uk level draws b l gl t Mean (total gl u).
Proof.
  intros x uk level draws b l t u gl H. destruct l; cbn [value_of] in *.
  - unfold total. f_equal. apply map_ext_in. intros g I. rewrite (H g I). unfold total. cbn [map lsum]. ring.
  - rewrite (map_ext _ _ (fun w => outcome_split x (no_media_scenario x b) uk gl t w)). apply mean_total. exact H.
  - rewrite (map_ext _ _ (fun w => outcome_split x no_data uk gl t w)). apply mean_total. exact H.
Qed.
Lemma skip_sum_total : forall (f : nat -> option R) u gl, (forall g, In g gl -> f g = Some (u g)) ->
  skip_sum (map f gl) = Some (total gl u).
Proof.
  intros f u gl H. unfold skip_sum, total. f_equal. induction gl as [|g gl IH]; [reflexivity|]. cbn [map fold_right lsum].
  rewrite (H g (or_introl eq_refl)), IH; [reflexivity|]. intros k Hk. apply H. right. exact Hk.
Qed.

(** The rows. *)
Definition keep (baseline : bool) (l : line) : Prop := l = Baseline -> baseline = true.
Lemma lines_in : forall l, In l lines.
Proof. intros []; cbn; tauto. Qed.
Lemma filter_flat : forall (A B : Type) (p : B -> bool) (f : A -> list B) l, filter p (flat_map f l) = flat_map (fun a => filter p (f a)) l.
Proof.
  intros A B p f l. induction l as [|a l IH]; [reflexivity|]. cbn [flat_map]. now rewrite filter_app, IH.
Qed.
Lemma flat_length : forall (A B : Type) (f : A -> list B) n l, (forall a, length (f a) = n) -> length (flat_map f l) = (length l * n)%nat.
Proof.
  intros A B f n l H. induction l as [|a l IH]; [reflexivity|]. cbn [flat_map length]. rewrite app_length, H, IH. lia.
Qed.
Definition per_line (baseline : bool) : nat := if baseline then 3 else 2.
Lemma kept_length : forall (mk : line -> row) (baseline : bool), (forall l, w_line (mk l) = l) ->
  length (if baseline then map mk lines else filter (fun r => negb (is_baseline r)) (map mk lines)) = per_line baseline.
Proof.
  intros mk baseline H. destruct baseline; [reflexivity|]. unfold lines. cbn [map filter]. unfold is_baseline. rewrite !H. reflexivity.
Qed.
Lemma kept_in : forall (rows : list row) (baseline : bool) r, In r rows -> keep baseline (w_line r) ->
  In r (if baseline then rows else filter (fun r => negb (is_baseline r)) rows).
Proof.
  intros rows baseline r I K. destruct baseline; [exact I|]. apply filter_In. split; [exact I|].
  unfold is_baseline. destruct (w_line r) eqn:E; try reflexivity. specialize (K eq_refl). discriminate.
Qed.

Lemma to_rows_inv : forall f times geos by_geo baseline rows, to_rows f times geos by_geo baseline = Ok rows ->
  let ts := or_all times (labels (f_time f)) in
  let gs := or_all geos (labels (f_geo f)) in
  (forall t, In t ts -> In t (labels (f_time f))) /\ (forall g, In g gs -> In g (labels (f_geo f))) /\ NoDup ts /\ NoDup gs /\
  length rows = ((if by_geo then length gs else 1) * length ts * per_line baseline)%nat /\
  forall t l, In t ts -> keep baseline l ->
    (by_geo = true -> forall g, In g gs -> In (mkRow (Some g) t l (cell f g t l Mean) (cell f g t l CiLo) (cell f g t l CiHi)) rows) /\
    (by_geo = false -> In (mkRow None t l (skip_sum (map (fun g => cell f g t l Mean) gs)) (skip_sum (map (fun g => cell f g t l CiLo) gs))
       (skip_sum (map (fun g => cell f g t l CiHi) gs))) rows).
Proof.
  intros f times geos by_geo baseline rows E ts gs. unfold to_rows in E. fold ts gs in E. unfold raise_if in E.
  destruct (forallb (fun a => inside a (labels (f_time f))) ts && forallb (fun a => inside a (labels (f_geo f))) gs)%bool eqn:E1;
    cbn [negb] in E; [|discriminate].
  apply andb_prop in E1. destruct E1 as [E1 E2].
  destruct (repeated ts || repeated gs)%bool eqn:E3; [discriminate|]. apply orb_false_elim in E3. destruct E3 as [E3 E4].
  injection E as <-. split; [apply inside_all; exact E1|]. split; [apply inside_all; exact E2|].
  split; [apply repeated_iff; exact E3|]. split; [apply repeated_iff; exact E4|]. split.
  - destruct by_geo.
    + replace (if baseline then _ else _) with
        (flat_map (fun g => flat_map (fun t =>
           let rs := map (fun l => mkRow (Some g) t l (cell f g t l Mean) (cell f g t l CiLo) (cell f g t l CiHi)) lines in
           if baseline then rs else filter (fun r => negb (is_baseline r)) rs) (in_order ts)) (in_order gs)).
      2:{ destruct baseline; [reflexivity|]. rewrite filter_flat. apply flat_map_ext. intros g. symmetry. apply filter_flat. }
      rewrite (flat_length _ _ _ (length ts * per_line baseline)%nat).
      * unfold in_order. rewrite isort_length. lia.
      * intros g. rewrite (flat_length _ _ _ (per_line baseline)); [unfold in_order; now rewrite isort_length|].
        intros t. cbv zeta. apply (kept_length (fun l => mkRow (Some g) t l (cell f g t l Mean) (cell f g t l CiLo) (cell f g t l CiHi))). reflexivity.
    + match goal with |- length (if baseline then flat_map ?F ?L else _) = _ =>
        replace (if baseline then flat_map F L else filter (fun r => negb (is_baseline r)) (flat_map F L)) with
          (flat_map (fun t => if baseline then F t else filter (fun r => negb (is_baseline r)) (F t)) L) end.
      2:{ destruct baseline; [reflexivity|]. symmetry. apply filter_flat. }
      rewrite (flat_length _ _ _ (per_line baseline)); [unfold in_order; rewrite isort_length; lia|].
      intros t. cbv beta.
      apply (kept_length (fun l => mkRow None t l (skip_sum (map (fun g => cell f g t l Mean) gs)) (skip_sum (map (fun g => cell f g t l CiLo) gs))
       (skip_sum (map (fun g => cell f g t l CiHi) gs)))). reflexivity.
  - intros t l It K. split; intros ->.
    + intros g Ig. apply kept_in; [|exact K]. apply in_flat_map. exists g. split; [apply isort_in; exact Ig|].
      apply in_flat_map. exists t. split; [apply isort_in; exact It|]. destruct l; cbn [lines map In]; tauto.
    + apply kept_in; [|exact K]. apply in_flat_map. exists t. split; [apply isort_in; exact It|].
      destruct l; cbn [lines map In]; tauto.
Qed.

Lemma shown_positions : forall all l, NoDup all -> NoDup (or_all l all) -> (forall a, In a (or_all l all) -> In a all) ->
  exists p, map (fun i => nth i all ""%string) p = or_all l all /\ shown all l p /\ (forall i, In i p -> (i < length all)%nat).
Proof.
  intros all l Na Nl I. destruct (positions all (or_all l all) Na Nl I) as (p & E & Np & B & M).
  exists p. split; [exact E|]. split; [|exact B]. split; [exact Np|]. intros i. rewrite M.
  destruct l as [[|a r]|]; cbn [or_all asked]; try tauto; (split; [tauto|]; intros [H _]; split; [exact H|apply nth_In; exact H]).
Qed.

Lemma chart_lemma : forall x h nc nd level draws uk v population times geos by_geo baseline rows,
  fit_request x h nc nd None level 100 draws -> (0 < x_n_geos x)%nat -> ~ lookalike x nd -> NoDup (x_geo x) -> NoDup (x_time x) ->
  new_view x h nc nd draws uk level = Ok v -> chart_data v population times geos None by_geo baseline = Ok rows ->
  exists b gs ts, (forall c, (c < n_chans (d_non_media (x_data x)))%nat -> is_baseline_value x None c (b c)) /\
    shown (x_geo x) geos gs /\ shown (x_time x) times ts /\
    length rows = ((if by_geo then length gs else 1) * length ts * (if baseline then 3 else 2))%nat /\
    forall t l, In t ts -> (l = Baseline -> baseline = true) ->
      (by_geo = true -> forall g, In g gs -> exists r, In r rows /\ w_geo r = Some (nth g (x_geo x) ""%string) /\
         w_time r = nth t (x_time x) ""%string /\ w_line r = l /\
         forall m, exists a, col r m = Some a /\ value_of x uk level draws b l [g] t m a) /\
      (by_geo = false -> exists r, In r rows /\ w_geo r = None /\ w_time r = nth t (x_time x) ""%string /\ w_line r = l /\
         (exists a, w_mean r = Some a /\ value_of x uk level draws b l gs t Mean a) /\
         forall m, exists u, (forall g, In g gs -> value_of x uk level draws b l [g] t m (u g)) /\ col r m = Some (total gs u)).
Proof.
  intros x h nc nd level draws uk v population times geos by_geo baseline rows V G0 L Ng Nt Ev Ec.
  pose proof (fr_model _ _ _ _ _ _ _ _ V) as W.
  unfold new_view in Ev. destruct (fit_data x h nc nd draws (resolve_use_kpi x uk) level) as [f|] eqn:Ef; cbn [rbind] in Ev; [|discriminate].
  injection Ev as <-. destruct (data_cells _ _ _ _ _ _ _ _ V G0 L Ef) as (b & Hb & Eg & Et & _ & D). specialize (D Ng Nt).
  unfold chart_data in Ec. cbn [v_data n_given] in Ec.
  destruct (validate f times geos None by_geo); cbn [rbind] in Ec; [|discriminate].
  destruct (to_rows_inv _ _ _ _ _ _ Ec) as (It & Ig & Dt & Dg & Len & R). rewrite Eg, Et in *. cbn [labels] in *.
  destruct (shown_positions (x_geo x) geos Ng Dg Ig) as (gs & Mg & Sg & Bg).
  destruct (shown_positions (x_time x) times Nt Dt It) as (ts & Mt & St & Bt).
  exists b, gs, ts. split; [exact Hb|]. split; [exact Sg|]. split; [exact St|]. split.
  { rewrite Len, <- Mg, <- Mt, !map_length. reflexivity. }
  intros t l Ht K.
  assert (Bt' : (t < x_n_times x)%nat) by (rewrite <- (wf_time x W); apply Bt; exact Ht).
  assert (In (nth t (x_time x) ""%string) (or_all times (x_time x))) as Int.
  { rewrite <- Mt. apply in_map_iff. eauto. }
  specialize (R _ l Int K). destruct R as [R1 R2]. split; intros Eb.
  - intros g Hg. assert (In (nth g (x_geo x) ""%string) (or_all geos (x_geo x))) as Ing by (rewrite <- Mg; apply in_map_iff; eauto).
    eexists. split; [exact (R1 Eb _ Ing)|]. do 3 (split; [reflexivity|]). intros m.
    destruct (D g t l m (Bg g Hg) Bt') as (a1 & Ea & Va). exists a1. split; [destruct m; exact Ea|]. exact (value_resolved _ _ _ _ _ _ _ _ _ _ W Va).
  - eexists. split; [exact (R2 Eb)|]. do 3 (split; [reflexivity|]).
    assert (U : forall m, exists u, (forall g, In g gs -> value_of x uk level draws b l [g] t m (u g)) /\
      skip_sum (map (fun g => cell f g (nth t (x_time x) ""%string) l m) (or_all geos (x_geo x))) = Some (total gs u)).
    { intros m. exists (fun g => match cell f (nth g (x_geo x) ""%string) (nth t (x_time x) ""%string) l m with Some a => a | None => 0 end).
      split.
      - intros g Hg. destruct (D g t l m (Bg g Hg) Bt') as (a1 & Ea & Va). rewrite Ea. exact (value_resolved _ _ _ _ _ _ _ _ _ _ W Va).
      - rewrite <- Mg, map_map. apply skip_sum_total. intros g Hg. destruct (D g t l m (Bg g Hg) Bt') as (a1 & Ea & _). now rewrite Ea. }
    split.
    + destruct (U Mean) as (u & Hu & Eu). exists (total gs u). split; [exact Eu|]. apply value_total. exact Hu.
    + intros m. destruct (U m) as (u & Hu & Eu). exists u. split; [exact Hu|]. destruct m; exact Eu.
Qed.
