(** [predictive_accuracy] returns the documented metrics. *)
From Coq Require Import Reals ZArith String List Bool Arith Lra Lia Permutation.
From Verif Require Import Lib_Sum M_Base M_AdstockHill M_Equations M_Transformers M_Aggregate
  S_Aggregate P_Aggregate S_Adstock S_Media S_Analyzer M_Analyzer P_Analyzer P_AnalyzerIO S_Predictor
  P_Predictor M_Stats M_Accuracy S_Accuracy P_Accuracy.
Import ListNotations.
Local Open Scope R_scope.

Lemma pick_map : forall (f : string -> bool) l, pick (map f l) = positions f l.
Proof.
  intros f l. unfold pick.
  rewrite (positions_filter _ (fun b => b) (map f l) (fun i => f (nth i l ""%string)) (f ""%string)).
  - rewrite (positions_filter _ f l (fun i => f (nth i l ""%string)) ""%string) by reflexivity.
    rewrite map_length. reflexivity.
  - intros i _. symmetry. apply map_nth.
Qed.
Lemma pick_geos : forall x l, pick (map (fun g => mem g l) (x_geo x)) = chosen_geos x (Some l).
Proof.
  intros x l. rewrite pick_map. cbn [chosen_geos]. unfold x_n_geos. apply (positions_filter _ _ _ _ ""%string).
  intros i _. apply in_dec_mem.
Qed.
Lemma pick_times : forall x l, well_formed x ->
  pick (map (fun t => mem t l) (x_time x)) = chosen_times x (Some (TDates l)).
Proof.
  intros x l W. rewrite pick_map. cbn [chosen_times]. rewrite <- (wf_time x W). apply (positions_filter _ _ _ _ ""%string).
  intros i _. apply in_dec_mem.
Qed.

Lemma national_geo : forall x gs, x_is_national x = true -> chosen_geos x gs <> [] -> chosen_geos x gs = [0%nat].
Proof.
  intros x gs H Hne. unfold x_is_national in H. apply Nat.eqb_eq in H. destruct gs as [l|]; cbn [chosen_geos] in *.
  - rewrite H in *. cbn [seq filter] in *. destruct (in_dec string_dec (nth 0 (x_geo x) ""%string) l); [reflexivity|congruence].
  - rewrite H. reflexivity.
Qed.

(** Holdout cells of the selection. *)
Lemma filter_holdout_lemma : forall x m gs ts, well_formed x -> holdout_ok x (Some m) ->
  chosen_geos x gs <> [] -> by_dates ts ->
  let h := filter_holdout x m gs ts in
  m_rows h = length (chosen_geos x gs) /\ m_cols h = length (chosen_times x ts) /\
  forall i j, (i < length (chosen_geos x gs))%nat -> (j < length (chosen_times x ts))%nat ->
    m_at h i j = m_at m (nth i (chosen_geos x gs) 0%nat) (nth j (chosen_times x ts) 0%nat).
Proof.
  intros x m gs ts W [Hr Hc] Hne Hd. cbv zeta. unfold filter_holdout. cbv zeta.
  set (h1 := match gs with
            | Some l => if x_is_national x then m
                        else let k := pick (map (fun g => mem g l) (x_geo x)) in
                             mkMatrix (length k) (m_cols m) (fun i j => m_at m (nth i k 0%nat) j)
            | None => m end).
  assert (H1 : m_rows h1 = length (chosen_geos x gs) /\ m_cols h1 = x_n_times x /\
    forall i j, (i < length (chosen_geos x gs))%nat -> m_at h1 i j = m_at m (nth i (chosen_geos x gs) 0%nat) j).
  { unfold h1. destruct gs as [l|].
    - destruct (x_is_national x) eqn:En.
      + rewrite (national_geo x (Some l) En Hne). unfold x_is_national in En. apply Nat.eqb_eq in En.
        split; [rewrite Hr, En; reflexivity|]. split; [exact Hc|]. cbn [length nth]. intros i j Hi. replace i with 0%nat by lia. reflexivity.
      + cbv zeta. rewrite pick_geos. cbn [m_rows m_cols m_at]. auto.
    - cbn [chosen_geos]. rewrite seq_length. split; [exact Hr|]. split; [exact Hc|]. intros i j Hi.
      rewrite seq_nth by exact Hi. reflexivity. }
  clearbody h1. destruct H1 as (R1 & C1 & V1).
  destruct ts as [[l|l]|]; [| destruct Hd |].
  - rewrite (pick_times x l W). cbn [m_rows m_cols m_at]. split; [exact R1|]. split; [reflexivity|].
    intros i j Hi Hj. apply V1. exact Hi.
  - cbn [chosen_times]. rewrite seq_length. split; [exact R1|]. split; [exact C1|]. intros i j Hi Hj.
    rewrite V1 by exact Hi. rewrite seq_nth by exact Hj. reflexivity.
Qed.

Definition plain_matrix (gl tl : list nat) (f : nat -> nat -> R) (m : matrix R) : Prop :=
  m_rows m = length gl /\ m_cols m = length tl /\
  forall i j, (i < length gl)%nat -> (j < length tl)%nat -> m_at m i j = f (nth i gl 0%nat) (nth j tl 0%nat).

Lemma broadcast_same : forall n, broadcast n n = Ok n.
Proof. intros n. unfold broadcast. rewrite Nat.eqb_refl. reflexivity. Qed.
Lemma bidx_same : forall n i, (i < n)%nat -> bidx n i = i.
Proof. intros n i H. unfold bidx. destruct (Nat.eqb n 1) eqn:E; [|reflexivity]. apply Nat.eqb_eq in E. lia. Qed.

Lemma where_masked : forall gl tl f a h (c : nat -> nat -> bool) inside held,
  plain_matrix gl tl f a -> m_rows h = length gl -> m_cols h = length tl ->
  (forall i j, (i < length gl)%nat -> (j < length tl)%nat -> m_at h i j = c (nth i gl 0%nat) (nth j tl 0%nat)) ->
  (forall g t, inside g t = Bool.eqb (c g t) held) ->
  exists m, where_held held h a = Ok m /\ masked_matrix gl tl inside f m.
Proof.
  intros gl tl f a h c inside held (Ar & Ac & Av) Hr Hc Hv Hin. unfold where_held.
  rewrite Hr, Ar, Hc, Ac, !broadcast_same. cbn [rbind]. eexists. split; [reflexivity|].
  split; [reflexivity|]. split; [reflexivity|]. cbn [m_at]. intros i j Hi Hj.
  rewrite !bidx_same by assumption. unfold sel_cell. rewrite Hin, Hv, Av by assumption. reflexivity.
Qed.

(** All the data: nothing is masked. *)
Definition somed (m : matrix R) : matrix (option R) := mkMatrix (m_rows m) (m_cols m) (fun i j => Some (m_at m i j)).
Lemma somed_masked : forall gl tl f m, plain_matrix gl tl f m -> masked_matrix gl tl (fun _ _ => true) f (somed m).
Proof.
  intros gl tl f m (R1 & C1 & V1). split; [exact R1|]. split; [exact C1|]. intros i j Hi Hj. cbn. rewrite V1 by assumption. reflexivity.
Qed.
Lemma ravel_somed : forall m, map Some (ravel m) = ravel (somed m).
Proof.
  intros m. unfold ravel. cbn [somed m_rows m_cols m_at]. rewrite map_flat_map. apply flat_map_ext. intros i. rewrite map_map. reflexivity.
Qed.
Lemma sum_somed : forall m, (0 < m_rows m)%nat -> sum_geos m = nansum_geos (somed m).
Proof.
  intros m H. unfold sum_geos, nansum_geos. cbn [somed m_rows m_cols m_at]. apply map_ext. intros j. cbv zeta.
  destruct (m_rows m) as [|n] eqn:E; [lia|]. cbn [seq map forallb andb]. unfold nansum. rewrite present_somes.
  f_equal. change (Some (m_at m 0 j) :: map (fun i => Some (m_at m i j)) (seq 1 n))
    with (map (fun i => Some (m_at m i j)) (seq 0 (S n))).
  assert (G : forall l, somes (map (fun i => Some (m_at m i j)) l) = map (fun i => m_at m i j) l).
  { induction l as [|i l IH]; [reflexivity|]. cbn. f_equal. exact IH. }
  rewrite G. symmetry. apply (lsum_seq (S n) 0).
Qed.

Section Request.
Variables (x : model) (h : option (matrix bool)) (gs : option (list string)) (ts : option time_sel)
  (uk : bool) (bs : Z) (draws : list draw).
Hypothesis V : accuracy_request x h gs ts bs draws.
Let gl := chosen_geos x gs.
Let tl := chosen_times x ts.
Let e := mean_expected_outcome x uk draws.
Let a := actual_outcome x uk.

Lemma new_none : new_data_ok x no_data.
Proof. unfold new_data_ok, no_data. cbn. repeat split. Qed.

Lemma use_kpi_twice : resolve_use_kpi x (resolve_use_kpi x uk) = resolve_use_kpi x uk.
Proof.
  pose proof (ar_model _ _ _ _ _ _ V) as W. rewrite !(resolve_kpi_spec x _ W). unfold outcome_is_kpi.
  destruct (d_revenue_per_kpi (x_data x)); [|reflexivity]. destruct uk, (x_kpi_is_revenue x); reflexivity.
Qed.
Lemma outcome_twice : forall g t v,
  outcome_in_units x true (resolve_use_kpi x uk) g t v = outcome_in_units x true uk g t v.
Proof.
  intros g t v. pose proof (ar_model _ _ _ _ _ _ V) as W. unfold outcome_in_units.
  pose proof use_kpi_twice as E. rewrite !(resolve_kpi_spec x _ W) in E. rewrite (resolve_kpi_spec x uk W), E. reflexivity.
Qed.

Lemma actual_runs : exists input i at0,
  (if resolve_use_kpi x uk then Ok (of2 (x_kpi x))
   else match d_revenue_per_kpi (x_data x) with
        | Some r => Ok (of2 (mkT2 (geos2 (x_kpi x)) (times2 (x_kpi x)) (fun g t => val2 (x_kpi x) g t * val2 r g t)))
        | None => Err TypeError end) = Ok input /\
  package x (x_data x) gs ts None [] = Ok i /\
  filter_and_aggregate (counts x) (x_n_geos x) (x_n_times x) input (i_geo i) (i_time i) false false false false = Ok at0 /\
  plain_matrix gl tl a (matrix_of at0).
Proof.
  pose proof (ar_model _ _ _ _ _ _ V) as W. pose proof (ar_kpi _ _ _ _ _ _ V) as [Kg Kt].
  assert (I : exists input, (if resolve_use_kpi x uk then Ok (of2 (x_kpi x))
   else match d_revenue_per_kpi (x_data x) with
        | Some r => Ok (of2 (mkT2 (geos2 (x_kpi x)) (times2 (x_kpi x)) (fun g t => val2 (x_kpi x) g t * val2 r g t)))
        | None => Err TypeError end) = Ok input /\ shape input = [x_n_geos x; x_n_times x] /\
        forall g t, at_ input [g; t] = a g t).
  { rewrite (resolve_kpi_spec x uk W). unfold a, actual_outcome. pose proof (wf_rpk x W) as Wr. unfold outcome_is_kpi.
    destruct (d_revenue_per_kpi (x_data x)) as [r|].
    - destruct (uk && negb (x_kpi_is_revenue x)); eexists; (split; [reflexivity|]); cbn; rewrite Kg, Kt;
        (split; [reflexivity|]); intros; ring.
    - eexists. split; [reflexivity|]. cbn. rewrite Kg, Kt. split; [reflexivity|]. intros. ring. }
  destruct I as (input & Ei & Es & Ev).
  destruct (geo_runs x gs (ar_geos _ _ _ _ _ _ V)) as (gi & Hgi & Rg).
  destruct (time_runs x ts W (ar_times _ _ _ _ _ _ V)) as (ti & Hti & Rt & _).
  destruct (filter_no_media_lemma (counts x) (x_n_geos x) (x_n_times x) (x_n_times x) input [] gi ti false false false false)
    as (out & Ho & So & Vo); [exact Es|exact Rg|exact Rt| |].
  { split; [reflexivity|]. intros c _. rewrite Es. cbn. discriminate. }
  exists input, (mkInputs (x_data x) gi ti None []), out.
  split; [exact Ei|]. split.
  { unfold package. rewrite modified_data, Hgi, Hti. reflexivity. }
  split; [exact Ho|].
  pose proof (chosen_geos_lemma x gs gi Hgi) as Cg. pose proof (chosen_times_lemma x ts ti W (ar_times _ _ _ _ _ _ V) Hti) as Ct.
  cbn [app dimension] in So. rewrite Cg, Ct in So. fold gl tl in So.
  split; [unfold matrix_of; cbn [m_rows]; rewrite So; reflexivity|].
  split; [unfold matrix_of; cbn [m_cols]; rewrite So; reflexivity|].
  intros i j Hi Hj. cbn [matrix_of m_at].
  specialize (Vo [] i j eq_refl). cbn [app position] in Vo. rewrite Vo; [|rewrite Cg; intros _; exact Hi|rewrite Ct; intros _; exact Hj].
  unfold cell. rewrite Cg, Ct. fold gl tl. unfold members, total. cbn [map lsum]. rewrite Ev. ring.
Qed.

Lemma expected_matrix : forall at0 : tensor, exists E,
  expected_outcome x no_data gs ts false false true (resolve_use_kpi x uk) bs draws = Ok E /\
  plain_matrix gl tl e (matrix_of (mean_tensor E at0)).
Proof.
  intros at0. destruct V as [W K Ho Dr Ne Hb Hg Hgl Ht Mn Tr].
  destruct (expected_documented x no_data gs ts false false true (resolve_use_kpi x uk) bs draws W Dr Ne Hb Hg Ht
    (or_introl eq_refl) new_none Mn Tr) as (E & HE & HL & VE).
  exists E. split; [exact HE|]. fold gl tl in VE.
  assert (Hd : hd at0 E = nth 0 E at0) by (destruct E; reflexivity).
  assert (H0 : (0 < length draws)%nat) by (destruct draws; [congruence|cbn; lia]).
  assert (Hw0 : exists w0 : draw, True) by (destruct draws as [|w0 dr0]; [congruence|exists w0; exact Logic.I]).
  destruct Hw0 as [w0 _].
  assert (Sh : shape (hd at0 E) = [length gl; length tl]).
  { rewrite Hd. destruct (VE 0%nat w0 at0 H0) as [S _]. exact S. }
  split; [cbn [matrix_of m_rows mean_tensor shape]; unfold mean_tensor; cbn [M_Budget.shape]; rewrite Sh; reflexivity|].
  split; [unfold mean_tensor, matrix_of; cbn [M_Budget.shape m_cols]; rewrite Sh; reflexivity|].
  intros i j Hi Hj. unfold matrix_of, mean_tensor. cbn [m_at M_Budget.at_]. unfold e, mean_expected_outcome, mean.
  rewrite map_length, HL. f_equal. f_equal.
  apply (nth_ext _ _ 0 0); [rewrite !map_length; exact HL|]. intros k Hk. rewrite map_length in Hk.
  rewrite (nth_indep (map (fun t => at_ t [i; j]) E) 0 (at_ at0 [i; j])) by (rewrite map_length; exact Hk).
  rewrite (map_nth (fun t : tensor => at_ t [i; j]) E at0 k).
  set (F := fun w => outcome_in_units x true uk (nth i gl 0%nat) (nth j tl 0%nat) (predictor x no_data w (nth i gl 0%nat) (nth j tl 0%nat))).
  rewrite (nth_indep (map F draws) 0 (F w0)) by (rewrite map_length; lia). rewrite (map_nth F draws w0 k). unfold F.
  destruct (VE k w0 at0 ltac:(lia)) as [_ Vk]. specialize (Vk i j (fun _ => Hi) (fun _ => Hj)). cbn [position app] in Vk.
  rewrite Vk. unfold members, total. cbn [map lsum]. rewrite outcome_twice. ring.
Qed.

Lemma rows_pos : forall m, plain_matrix gl tl e m \/ plain_matrix gl tl a m -> (0 < m_rows m)%nat.
Proof.
  intros m H. assert (m_rows m = length gl) as -> by (destruct H as [[H _]|[H _]]; exact H).
  pose proof (ar_geo _ _ _ _ _ _ V) as Ng. fold gl in Ng. destruct gl; [congruence|cbn; lia].
Qed.

Let P (g : granularity) (s : evaluation_set) := pairs x h gl tl uk draws g s.
Lemma pairs_geo : forall s, P Geo s = geo_pairs gl tl (in_set h s) e a. Proof. reflexivity. Qed.
Lemma pairs_nat : forall s, P National s = nat_pairs gl tl (in_set h s) e a. Proof. reflexivity. Qed.

Lemma lookup_good : forall d lists, (forall g s, good (P g s) (lists g s)) ->
  d = mkDataset [RSquared; Mape; WMape] [Geo; National] (Some [Train; Test; AllData])
        (map (fun m => stack_last None (map (fun u => nth m u []) [stack_last None [lists Geo Train; lists National Train];
            stack_last None [lists Geo Test; lists National Test]; stack_last None [lists Geo AllData; lists National AllData]]))
           (seq 0 (length (stack_last None [lists Geo Train; lists National Train])))) ->
  forall m g s,
  lookup d m g s = Some (nth (metric_no m) (lists g s) None) /\
  lookup (sel_national d) m g s = match g with Geo => None | National => Some (nth (metric_no m) (lists g s) None) end.
Proof.
  intros d lists Hl -> m g s.
  assert (X : forall g s, exists u v w, lists g s = [u; v; w]).
  { intros g' s'. destruct (Hl g' s') as [L _]. destruct (lists g' s') as [|u [|v [|w [|]]]]; try discriminate. eauto. }
  destruct (X Geo Train) as (u1 & v1 & w1 & Y1). destruct (X Geo Test) as (u2 & v2 & w2 & Y2).
  destruct (X Geo AllData) as (u3 & v3 & w3 & Y3). destruct (X National Train) as (u4 & v4 & w4 & Y4).
  destruct (X National Test) as (u5 & v5 & w5 & Y5). destruct (X National AllData) as (u6 & v6 & w6 & Y6).
  rewrite Y1, Y2, Y3, Y4, Y5, Y6. clear X.
  destruct m, g, s; rewrite ?Y1, ?Y2, ?Y3, ?Y4, ?Y5, ?Y6; split; reflexivity.
Qed.

Lemma lookup_good_all : forall d lg ln, good (P Geo AllData) lg -> good (P National AllData) ln ->
  d = mkDataset [RSquared; Mape; WMape] [Geo; National] None
        (map (map (fun v => [v])) (stack_last None [lg; ln])) ->
  forall m g s,
  lookup d m g s = match s with AllData => Some (nth (metric_no m) (match g with Geo => lg | National => ln end) None) | _ => None end /\
  lookup (sel_national d) m g s = match g, s with National, AllData => Some (nth (metric_no m) ln None) | _, _ => None end.
Proof.
  intros d lg ln [Hl _] _ -> m g s. unfold stack_last. cbn [hd]. rewrite Hl. cbn [seq map].
  destruct m, g, s; split; reflexivity.
Qed.

Theorem accuracy_lemma : (h <> None -> by_dates ts) ->
  exists d, predictive_accuracy x h gs ts uk bs draws = Ok d /\
  forall m g s,
    (lookup d m g s = None <-> (g = Geo /\ x_n_geos x = 1%nat) \/ (h = None /\ s <> AllData)) /\
    forall v, lookup d m g s = Some v -> is_metric m (P g s) v.
Proof.
  intros Hd. destruct actual_runs as (input & i & at0 & E1 & E2 & E3 & PA).
  destruct (expected_matrix at0) as (E & E4 & PE). pose proof (ar_model _ _ _ _ _ _ V) as W.
  unfold predictive_accuracy. cbv zeta. rewrite E1. cbn [rbind]. rewrite E2. cbn [rbind]. rewrite E3. cbn [rbind].
  rewrite E4. cbn [rbind]. clear E1 E2 E3 E4.
  set (ma := matrix_of at0) in *. set (me := matrix_of (mean_tensor E at0)) in *. clearbody ma me.
  assert (AG : good (P Geo AllData) (accuracy_helper (map Some (ravel ma)) (map Some (ravel me)))).
  { rewrite pairs_geo, !ravel_somed. apply geo_good; apply somed_masked; assumption. }
  assert (AN : good (P National AllData) (accuracy_helper (sum_geos ma) (sum_geos me))).
  { rewrite pairs_nat, !sum_somed by (apply rows_pos; auto). apply nat_good; apply somed_masked; assumption. }
  assert (NN : x_is_national x = true <-> x_n_geos x = 1%nat) by apply Nat.eqb_eq.
  assert (Hh : h = None \/ exists m0, h = Some m0) by (destruct h; eauto).
  destruct Hh as [Eh|[m0 Eh]]; [rewrite Eh|].
  2: { rewrite Eh. assert (Hb : by_dates ts) by (apply Hd; rewrite Eh; discriminate).
    pose proof (ar_holdout _ _ _ _ _ _ V) as Hk. rewrite Eh in Hk.
    destruct (filter_holdout_lemma x m0 gs ts W Hk (ar_geo _ _ _ _ _ _ V) Hb) as (R1 & C1 & V1).
    set (hh := filter_holdout x m0 gs ts) in *. clearbody hh. fold gl tl in R1, C1, V1.
    assert (T0 : forall g t, in_set (Some m0) Train g t = Bool.eqb (m_at m0 g t) false)
      by (intros; cbn; destruct (m_at m0 g t); reflexivity).
    assert (T1 : forall g t, in_set (Some m0) Test g t = Bool.eqb (m_at m0 g t) true)
      by (intros; cbn; destruct (m_at m0 g t); reflexivity).
    destruct (where_masked gl tl a ma hh (m_at m0) _ false PA R1 C1 V1 T0) as (atr & X1 & M1).
    destruct (where_masked gl tl a ma hh (m_at m0) _ true PA R1 C1 V1 T1) as (ate & X2 & M2).
    destruct (where_masked gl tl e me hh (m_at m0) _ false PE R1 C1 V1 T0) as (etr & X3 & M3).
    destruct (where_masked gl tl e me hh (m_at m0) _ true PE R1 C1 V1 T1) as (ete & X4 & M4).
    rewrite X1. cbn [rbind]. rewrite X2. cbn [rbind]. rewrite X3. cbn [rbind]. rewrite X4. cbn [rbind].
    set (lists := fun (g : granularity) (s : evaluation_set) =>
      match g, s with
      | Geo, Train => accuracy_helper (ravel atr) (ravel etr)
      | Geo, Test => accuracy_helper (ravel ate) (ravel ete)
      | Geo, AllData => accuracy_helper (map Some (ravel ma)) (map Some (ravel me))
      | National, Train => accuracy_helper (nansum_geos atr) (nansum_geos etr)
      | National, Test => accuracy_helper (nansum_geos ate) (nansum_geos ete)
      | National, AllData => accuracy_helper (sum_geos ma) (sum_geos me)
      end).
    assert (GL : forall g s, good (P g s) (lists g s)).
    { intros [|] [| |]; cbn [lists]; try assumption;
        [rewrite pairs_geo; apply geo_good| rewrite pairs_geo; apply geo_good
        |rewrite pairs_nat; apply nat_good|rewrite pairs_nat; apply nat_good]; rewrite Eh; assumption. }
    pose proof (lookup_good _ lists GL eq_refl) as LK.
    eexists. split; [reflexivity|]. intros m g s. destruct (LK m g s) as [L1 L2].
    destruct (x_is_national x).
    + assert (Hn : x_n_geos x = 1%nat) by (apply NN; reflexivity).
      match goal with |- context [lookup ?D m g s] => change (lookup D m g s) with
        (lookup (sel_national (mkDataset [RSquared; Mape; WMape] [Geo; National] (Some [Train; Test; AllData])
        (map (fun m => stack_last None (map (fun u => nth m u []) [stack_last None [lists Geo Train; lists National Train];
            stack_last None [lists Geo Test; lists National Test]; stack_last None [lists Geo AllData; lists National AllData]]))
           (seq 0 (length (stack_last None [lists Geo Train; lists National Train])))))) m g s) end.
      rewrite L2. destruct g; (split; [split; [intros|intros [[]|[]]]|intros v Hv]); try congruence; auto.
      assert (v = nth (metric_no m) (lists National s) None) by congruence. subst v. apply GL.
    + assert (Hn : x_n_geos x <> 1%nat) by (intros N; apply NN in N; discriminate).
      match goal with |- context [lookup ?D m g s] => change (lookup D m g s) with
        (lookup (mkDataset [RSquared; Mape; WMape] [Geo; National] (Some [Train; Test; AllData])
        (map (fun m => stack_last None (map (fun u => nth m u []) [stack_last None [lists Geo Train; lists National Train];
            stack_last None [lists Geo Test; lists National Test]; stack_last None [lists Geo AllData; lists National AllData]]))
           (seq 0 (length (stack_last None [lists Geo Train; lists National Train]))))) m g s) end.
      rewrite L1. split; [split; [discriminate|intros [[]|[]]; congruence]|]. intros v Hv.
      assert (v = nth (metric_no m) (lists g s) None) by congruence. subst v. apply GL. }
  { pose proof (lookup_good_all _ _ _ AG AN eq_refl) as LK. cbn [rbind].
    eexists. split; [reflexivity|]. intros m g s. destruct (LK m g s) as [L1 L2].
    destruct (x_is_national x).
    + assert (Hn : x_n_geos x = 1%nat) by (apply NN; reflexivity).
      rewrite L2. destruct g, s; (split; [split; [intros|intros [[]|[]]]|intros v Hv]); try congruence; auto;
      try (right; split; [reflexivity|discriminate]).
      assert (v = nth (metric_no m) (accuracy_helper (sum_geos ma) (sum_geos me)) None) by congruence. subst v. apply AN.
    + assert (Hn : x_n_geos x <> 1%nat) by (intros N; apply NN in N; discriminate).
      rewrite L1. destruct s; (split; [split; [intros|intros [[]|[]]]|intros v Hv]); try congruence;
      try (right; split; [reflexivity|discriminate]).
      assert (v = nth (metric_no m) (match g with Geo => accuracy_helper (map Some (ravel ma)) (map Some (ravel me))
        | National => accuracy_helper (sum_geos ma) (sum_geos me) end) None) by congruence. subst v. destruct g; [apply AG|apply AN]. }
Qed.

(** Periods given as booleans: no date is [in] the list, so no holdout cell is left. *)
Theorem boolean_times_lemma : forall m l, h = Some m -> ts = Some (TBools l) -> (2 <= length tl)%nat ->
  predictive_accuracy x h gs ts uk bs draws = Err ValueError.
Proof.
  intros m l Eh Et H2. destruct actual_runs as (input & i & at0 & E1 & E2 & E3 & PA).
  destruct (expected_matrix at0) as (E & E4 & PE).
  unfold predictive_accuracy. cbv zeta. rewrite E1. cbn [rbind]. rewrite E2. cbn [rbind]. rewrite E3. cbn [rbind].
  rewrite E4. cbn [rbind]. rewrite Eh.
  assert (F : where_held false (filter_holdout x m gs ts) (matrix_of at0) = Err ValueError).
  { unfold where_held. destruct PA as (_ & Ac & _). rewrite Ac.
    assert (C0 : m_cols (filter_holdout x m gs ts) = 0%nat).
    { rewrite Et. unfold filter_holdout. cbv zeta. cbn [m_cols]. rewrite pick_map.
      rewrite (positions_filter _ (fun _ => false) (x_time x) (fun _ => false) ""%string) by reflexivity.
      rewrite filter_nil_all by reflexivity. reflexivity. }
    rewrite C0. unfold broadcast at 2.
    replace (Nat.eqb 0 (length tl)) with false by (symmetry; apply Nat.eqb_neq; lia).
    replace (Nat.eqb (length tl) 1) with false by (symmetry; apply Nat.eqb_neq; lia). cbn [Nat.eqb rbind].
    unfold broadcast. destruct (Nat.eqb _ _); [reflexivity|]. destruct (Nat.eqb _ _); [reflexivity|].
    destruct (Nat.eqb _ _); reflexivity. }
  rewrite F. reflexivity.
Qed.
End Request.

(** *** Consequences *)
Lemma lsum_map_nonneg : forall A (f : A -> R) l, (forall p, In p l -> 0 <= f p) -> 0 <= lsum (map f l).
Proof. intros A f l H. apply lsum_nonneg. intros r Hr. apply in_map_iff in Hr. destruct Hr as (p & <- & Hp). auto. Qed.
Lemma spread_nonneg : forall P, 0 <= spread P.
Proof. intros P. apply lsum_map_nonneg. intros p _. apply pow2_ge_0. Qed.
Lemma r_squared_bound : forall P r, is_r_squared P (Some r) -> r <= 1.
Proof.
  intros P r [H ->]. pose proof (spread_nonneg P).
  assert (0 <= squared_error P) by (apply lsum_map_nonneg; intros p _; apply pow2_ge_0).
  assert (0 <= squared_error P / spread P) by (apply Rle_mult_inv_pos; lra). lra.
Qed.
Lemma mape_bound : forall P r, is_mape P (Some r) -> 0 <= r.
Proof.
  intros P r (Q & _ & Hq & _ & ->). unfold avg. rewrite map_length. pose proof (len_pos _ Q Hq).
  apply Rle_mult_inv_pos; [|lra]. apply lsum_map_nonneg. intros p _. apply Rabs_pos.
Qed.
Lemma wmape_bound : forall P r, (forall p, In p P -> 0 <= snd p) -> is_wmape P (Some r) -> 0 <= r.
Proof.
  intros P r Hp [H ->]. assert (0 <= weight P) by (apply lsum_map_nonneg; exact Hp).
  assert (0 <= absolute_error P) by (apply lsum_map_nonneg; intros; apply Rabs_pos).
  apply Rle_mult_inv_pos; lra.
Qed.
Lemma lsum_map_zero : forall A (f : A -> R) l, (forall p, In p l -> f p = 0) -> lsum (map f l) = 0.
Proof. intros A f l H. induction l as [|p l IH]; [reflexivity|]. cbn. rewrite H, IH by auto with datatypes. ring. Qed.
Lemma perfect_metric : forall m P r, (forall p, In p P -> fst p = snd p) -> is_metric m P (Some r) ->
  r = match m with RSquared => 1 | _ => 0 end.
Proof.
  intros m P r Hp H. destruct m; cbn in H.
  - destruct H as [H ->]. replace (squared_error P) with 0; [unfold Rdiv; ring|].
    symmetry. apply lsum_map_zero. intros p Hin. rewrite (Hp p Hin). ring.
  - destruct H as (Q & (sel & -> & _) & _ & _ & ->). unfold avg.
    rewrite (lsum_map_zero _ (fun p : R * R => Rabs ((snd p - fst p) / snd p)) (filter sel P)); [unfold Rdiv; ring|].
    intros p Hin. apply filter_In in Hin. rewrite (Hp p (proj1 Hin)). replace ((snd p - snd p) / snd p) with 0 by (unfold Rdiv; ring).
    apply Rabs_R0.
  - destruct H as [H ->]. replace (absolute_error P) with 0; [unfold Rdiv; ring|].
    symmetry. apply lsum_map_zero. intros p Hin. rewrite (Hp p Hin). replace (snd p - snd p) with 0 by ring. apply Rabs_R0.
Qed.

Lemma filter_split_perm : forall A (f : A -> bool) l, Permutation l (filter (fun a => negb (f a)) l ++ filter f l).
Proof.
  intros A f l. induction l as [|a l IH]; [constructor|]. cbn. destruct (f a); cbn.
  - apply Permutation_cons_app. exact IH.
  - constructor. exact IH.
Qed.
Lemma flat_map_perm_app : forall A B (F G H : A -> list B) l, (forall a, In a l -> Permutation (F a) (G a ++ H a)) ->
  Permutation (flat_map F l) (flat_map G l ++ flat_map H l).
Proof.
  intros A B F G H l P. induction l as [|a l IH]; [constructor|]. cbn.
  rewrite (P a (or_introl eq_refl)). rewrite IH by auto with datatypes.
  rewrite <- !app_assoc. apply Permutation_app_head. rewrite !app_assoc. apply Permutation_app_tail. apply Permutation_app_comm.
Qed.
Lemma geo_partition : forall x m gl tl uk draws,
  Permutation (pairs x (Some m) gl tl uk draws Geo AllData)
    (pairs x (Some m) gl tl uk draws Geo Train ++ pairs x (Some m) gl tl uk draws Geo Test).
Proof.
  intros x m gl tl uk draws. cbn [pairs]. apply flat_map_perm_app. intros g _. rewrite <- map_app. apply Permutation_map.
  assert (E : filter (fun t => in_set (Some m) AllData g t) tl = tl).
  { clear. induction tl as [|t l IH]; [reflexivity|]. cbn. f_equal. exact IH. }
  rewrite E. cbn [in_set]. apply (filter_split_perm _ (fun t => m_at m g t)).
Qed.

(** *** Probability of a negative baseline *)
Lemma lsum_indicator : forall A (f : A -> R) l,
  lsum (map (fun a => if Rlt_dec (f a) 0 then 1 else 0) l)
  = INR (length (filter (fun a => if Rlt_dec (f a) 0 then true else false) l)).
Proof.
  intros A f l. induction l as [|a l IH]; [reflexivity|]. cbn [map lsum filter]. destruct (Rlt_dec (f a) 0).
  - cbn [length]. rewrite S_INR, IH. ring.
  - rewrite IH. ring.
Qed.
Lemma filter_length_le : forall A (f : A -> bool) l, (length (filter f l) <= length l)%nat.
Proof. intros A f l. induction l as [|a l IH]; [auto|]. cbn. destruct (f a); cbn; lia. Qed.


Lemma negative_baseline_lemma : forall x v gs ts uk bs draws,
  well_formed x -> Forall (draw_ok x) draws -> draws <> [] -> (0 < bs)%Z ->
  geos_ok x gs -> times_ok x ts -> baseline_ok x v -> (0 < x_n_geos x)%nat ->
  media_nonneg x no_data -> transformers_ok x ->
  exists p b, negative_baseline_probability x v gs ts uk bs draws = Ok p /\
    (forall c, (c < n_chans (d_non_media (x_data x)))%nat -> is_baseline_value x v c (b c)) /\
    p = INR (length (filter (fun w => if Rlt_dec (baseline_total x b uk (chosen_geos x gs) (chosen_times x ts) w) 0
                                      then true else false) draws)) / INR (length draws).
Proof.
  intros x v gs ts uk bs draws W Dr Ne Hb Hg Ht Hv G0 Mn Tr.
  assert (H : exists b, build_baseline_data x v = Ok (no_media_scenario x b) /\
    (forall c, (c < n_chans (d_non_media (x_data x)))%nat -> is_baseline_value x v c (b c))).
  { unfold build_baseline_data. rewrite (numbers_run x) by assumption. cbn [rbind]. cbv zeta.
    unfold no_media_scenario, held_at. pose proof (wf_nm x W) as Dn.
    destruct (d_non_media (x_data x)) as [n|] eqn:En.
    - destruct (baseline_runs x v Hv ltac:(congruence)) as [b Hbb]. rewrite Hbb.
      exists b. split; [reflexivity|]. cbn [n_chans]. intros c Hc. cbn in Dn. destruct Dn as [D1 D2].
      pose proof (wf_times x W). apply (baseline_value_computed x v n b c En D1); auto; try lia.
      intros g k Hgk. apply (wf_population x W). exact Hgk.
    - exists (fun _ => 0). split; [reflexivity|]. cbn. intros c Hc. lia. }
  destruct H as (b & Hbd & Hbv).
  assert (Hnd : new_data_ok x (no_media_scenario x b)).
  { unfold new_data_ok, no_media_scenario, held_at. cbn [d_media d_reach d_frequency d_organic_media d_organic_reach d_organic_frequency d_non_media d_controls d_revenue_per_kpi].
    assert (Z : forall y, fits (option_map zeroed y) y) by (intros [y|]; cbn; unfold same_shape; auto).
    assert (Z1 : forall y, fits y y) by (intros [y|]; cbn; unfold same_shape; auto).
    assert (Z0 : forall y, fits None y) by (intros [y|]; exact Logic.I).
    repeat split; auto. destruct (d_non_media (x_data x)); cbn; unfold same_shape; auto. }
  assert (Hmn : media_nonneg x (no_media_scenario x b)).
  { destruct Mn as (M1 & M2 & M3 & M4). unfold media_nonneg, given, no_media_scenario in *.
    cbn [d_media d_reach d_frequency d_organic_media d_organic_reach d_organic_frequency no_data] in *.
    assert (Z : forall y, nonneg (option_map zeroed y)) by (intros [y|]; cbn; auto; intros; lra).
    refine (conj _ (conj M2 (conj _ M4))).
    - pose proof (Z (d_media (x_data x))) as Q. destruct (d_media (x_data x)); exact Q.
    - pose proof (Z (d_organic_media (x_data x))) as Q. destruct (d_organic_media (x_data x)); exact Q. }
  destruct (expected_documented x (no_media_scenario x b) gs ts true true true uk bs draws W Dr Ne Hb Hg Ht
    (or_introl eq_refl) Hnd Hmn Tr) as (E & HE & HL & VE).
  exists (INR (length (filter (fun w => if Rlt_dec (baseline_total x b uk (chosen_geos x gs) (chosen_times x ts) w) 0
                                      then true else false) draws)) / INR (length draws)), b.
  split; [|split; [exact Hbv|reflexivity]].
  unfold negative_baseline_probability, baseline_expected_outcome. rewrite Hbd. cbn [rbind]. rewrite HE. cbn [rbind].
  f_equal. unfold mean. rewrite map_length, HL. f_equal.
  rewrite <- (lsum_indicator _ (baseline_total x b uk (chosen_geos x gs) (chosen_times x ts))). f_equal.
  assert (Hw0 : exists w0 : draw, True) by (destruct draws as [|w0 dr0]; [congruence|exists w0; exact Logic.I]).
  destruct Hw0 as [w0 _]. set (z := mkTensor [] (fun _ => 0)).
  set (FE := fun t : tensor => if Rlt_dec (at_ t []) 0 then 1 else 0).
  set (FD := fun w => if Rlt_dec (baseline_total x b uk (chosen_geos x gs) (chosen_times x ts) w) 0 then 1 else 0).
  apply (nth_ext _ _ 0 0); [rewrite !map_length; exact HL|]. intros k Hk. rewrite map_length in Hk.
  rewrite (nth_indep (map FE E) 0 (FE z)) by (rewrite map_length; exact Hk). rewrite (map_nth FE E z k).
  rewrite (nth_indep (map FD draws) 0 (FD w0)) by (rewrite map_length; lia). rewrite (map_nth FD draws w0 k).
  unfold FE, FD. destruct (VE k w0 z ltac:(lia)) as [_ Vk].
  specialize (Vk 0%nat 0%nat ltac:(discriminate) ltac:(discriminate)). cbn [position app members] in Vk.
  rewrite Vk. reflexivity.
Qed.
Lemma share_bounds : forall A (f : A -> bool) l, l <> [] -> 0 <= INR (length (filter f l)) / INR (length l) <= 1.
Proof.
  intros A f l H. pose proof (len_pos _ l H). pose proof (pos_INR (length (filter f l))).
  pose proof (le_INR _ _ (filter_length_le A f l)). split; [apply Rle_mult_inv_pos; lra|].
  apply (Rmult_le_reg_r (INR (length l))); [lra|]. unfold Rdiv. rewrite Rmult_assoc, Rinv_l by lra. lra.
Qed.
