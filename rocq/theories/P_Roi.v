(** Proofs about [roi], [marginal_roi] and [cpik]. *)
From Coq Require Import Reals ZArith Lia Lra String List Bool Arith.
From Verif Require Import Lib_Sum M_Base M_AdstockHill M_Equations M_Transformers M_Aggregate
  S_Aggregate S_Adstock S_Media S_Analyzer M_Analyzer S_Predictor P_Aggregate P_Analyzer P_AnalyzerIO
  P_Predictor S_Paid P_Paid P_PaidMono M_Stats M_Summary S_Roi.
From Verif Require P_Budget.
Import ListNotations.
Local Open Scope R_scope.

Lemma fdiv_quotient : forall a b, is_quotient (fdiv a b) a b.
Proof.
  intros a b. unfold is_quotient, fdiv. destruct (Req_EM_T b 0) as [E|E]; split; intros H; try congruence.
  exists (a / b). split; [reflexivity|]. field. exact H.
Qed.

Lemma filled_paid : forall x nd, paid_data_ok x nd ->
  paid_data_ok x (paid_fields (fill_missing x nd false false)) /\
  paid_model x (paid_fields (fill_missing x nd false false)) = paid_model x nd /\
  (paid_nonneg x nd -> paid_nonneg x (paid_fields (fill_missing x nd false false))) /\
  (forall w ch f sel br g t, paid_term x (paid_fields (fill_missing x nd false false)) w ch f sel br g t
                             = paid_term x nd w ch f sel br g t) /\
  get_modified_times x (fill_missing x nd false false) = None.
Proof.
  intros x nd H.
  assert (M : paid_model x (paid_fields (fill_missing x nd false false)) = paid_model x nd).
  { unfold paid_model, paid_fields, fill_missing, given, orelse. cbn [x_data d_media d_reach d_frequency d_revenue_per_kpi].
    destruct (d_media nd), (d_reach nd), (d_frequency nd), (d_revenue_per_kpi nd); try reflexivity.
    all: destruct (d_media (x_data x)), (d_reach (x_data x)), (d_frequency (x_data x)), (d_revenue_per_kpi (x_data x)); reflexivity. }
  assert (F : forall y y0, fits y y0 -> fits (orelse y y0) y0).
  { intros [a|] [b|]; cbn; unfold same_shape; tauto. }
  assert (F2 : forall y y0, fits2 y y0 -> fits2 (orelse y y0) y0).
  { intros [a|] [b|]; cbn; tauto. }
  destruct H as (H1 & H2 & H3 & H4 & H5).
  split.
  { unfold paid_data_ok, paid_fields, fill_missing. cbn [d_media d_reach d_frequency d_revenue_per_kpi
      d_organic_media d_organic_reach d_organic_frequency d_non_media d_controls]. auto 12. }
  split; [exact M|]. split.
  { unfold paid_nonneg, given, paid_fields, fill_missing, orelse. cbn [d_media d_reach d_frequency].
    destruct (d_media nd), (d_reach nd), (d_frequency nd); auto; 
    destruct (d_media (x_data x)), (d_reach (x_data x)), (d_frequency (x_data x)); auto. }
  split.
  { intros. unfold paid_term. rewrite M. reflexivity. }
  unfold get_modified_times, fill_missing. cbn [d_media d_reach d_frequency d_revenue_per_kpi
      d_organic_media d_organic_reach d_organic_frequency d_non_media d_controls].
  rewrite !modified3_given by assumption. rewrite modified2_given by assumption. reflexivity.
Qed.

(** The numerator. *)
Lemma numerator_lemma : forall x nd f0 f1 gs ts ag uk br bs draws,
  well_formed x -> paid_data_ok x nd -> paid_nonneg x nd -> transformers_ok x ->
  Forall (draw_ok x) draws -> draws <> [] -> (0 < bs)%Z -> 0 <= f0 < f1 ->
  geos_ok x gs -> times_ok x ts ->
  exists I, incremental_outcome x (paid_fields (fill_missing x nd false false))
              (roi_options f0 f1 gs ts ag (resolve_use_kpi x uk) br) bs draws = Ok I /\ length I = length draws /\
    forall k w0 z, (k < length draws)%nat ->
      shape (nth k I z) = (if ag then [] else [length (chosen_geos x gs)]) ++ [n_paid x] /\
      forall ch i, is_paid x ch -> (ag = false -> (i < length (chosen_geos x gs))%nat) ->
        at_ (nth k I z) (position ag i ++ [channel_index x ch])
        = outcome_change x nd (nth k draws w0) ch uk br f0 f1
            (members (chosen_geos x gs) ag i) (chosen_times x ts).
Proof.
  intros x nd f0 f1 gs ts ag uk br bs draws W H P T D Ne B F Hg Ht.
  destruct (filled_paid x nd H) as (H' & M & P' & Tm & _).
  destruct (paid_documented x (paid_fields (fill_missing x nd false false))
              (roi_options f0 f1 gs ts ag (resolve_use_kpi x uk) br) bs draws W H') as (I & HI & L & C); auto.
  { constructor; cbn; auto; try discriminate. }
  exists I. split; [exact HI|]. split; [exact L|]. intros k w0 z Hk. destruct (C k w0 z Hk) as [Sh V].
  split; [exact Sh|]. intros ch i Hc Hi.
  specialize (V ch i 0%nat Hc Hi ltac:(discriminate)). cbn [roi_options o_aggregate_geos o_aggregate_times
    o_selected_geos o_selected_times o_inverse o_use_kpi o_scaling_factor1 o_scaling_factor0
    o_media_selected_times o_by_reach position app members] in V.
  etransitivity; [exact V|]. unfold outcome_change. cbn [members].
  apply total_ext'. intros g. apply total_ext'. intros t. rewrite M, !Tm.
  f_equal. unfold outcome_per_unit. cbn [paid_model x_data d_revenue_per_kpi].
  change (kpi_tr (paid_model x nd)) with (kpi_tr x).
  f_equal.
  destruct H as (_ & _ & _ & HR & _).
  unfold outcome_is_kpi, resolve_use_kpi. cbn [paid_model x_data d_revenue_per_kpi x_kpi_is_revenue].
  pose proof (wf_rpk x W) as WR.
  destruct (d_revenue_per_kpi nd), (d_revenue_per_kpi (x_data x)); cbn in HR; try contradiction; auto;
  destruct uk, (x_kpi_is_revenue x); reflexivity.
Qed.

(** The denominator. *)
Lemma append3_runs : forall a b, geos a = geos b -> times a = times b ->
  append3 a b = Ok (mkT3 (geos a) (times a) (chans a + chans b)
     (fun g t c => if (c <? chans a)%nat then val a g t c else val b g t (c - chans a)%nat)).
Proof. intros a b H H'. unfold append3. rewrite H, H', !Nat.eqb_refl. reflexivity. Qed.

Lemma package_runs : forall x d gs ts, well_formed x -> get_modified_times x d = None ->
  geos_ok x gs -> times_ok x ts ->
  exists i, package x d gs ts None [] = Ok i /\
    resolve_geo_indices (x_geo x) gs = Ok (i_geo i) /\ in_range (x_n_geos x) (i_geo i) /\
    resolve_time_indices (x_time x) (x_n_times x) ts = Ok (i_time i) /\ in_range (x_n_times x) (i_time i).
Proof.
  intros x d gs ts W M Hg Ht. unfold package. rewrite M. cbv zeta.
  destruct (geo_runs x gs Hg) as (gi & Hgi & Rg). destruct (time_runs x ts W Ht) as (ti & Hti & Rt & _).
  rewrite Hgi, Hti. cbn [rbind]. eexists. split; [reflexivity|]. cbn [i_geo i_time]. auto.
Qed.

Lemma total_spend_lemma : forall flat f s, well_formed (f_x f) -> spend_ok flat f s ->
  exists t, total_spend s = Ok (Some t) /\
    match t with
    | Spend3 y => flat = false /\ geos y = x_n_geos (f_x f) /\ times y = x_n_times (f_x f) /\ chans y = n_paid (f_x f)
    | Spend1 n _ => flat = true /\ n = n_paid (f_x f)
    end /\
    forall ch gl tl, is_paid (f_x f) ch ->
      kind_spend (Some t) (channel_index (f_x f) ch) gl tl = channel_spend s ch gl tl.
Proof.
  intros flat f s W [H1 H2]. unfold total_spend, n_paid. set (x := f_x f) in *.
  destruct (s_media s) as [[n u|y]|] eqn:Em; destruct (d_media (x_data x)) as [m|] eqn:Dm; cbn in H1; try contradiction;
  destruct (s_rf s) as [[n' u'|y']|] eqn:Er; destruct (d_reach (x_data x)) as [r|] eqn:Dr; cbn in H2; try contradiction.
  - destruct H1 as [_ ->], H2 as [Hf ->]. cbn [append_spend rbind]. eexists. split; [reflexivity|].
    split; [cbn [n_chans]; split; [exact Hf|lia]|]. intros ch gl tl Hc. destruct ch; cbn in Hc; try contradiction;
    unfold channel_spend, channel_index; rewrite ?Em, ?Er, ?Dm, ?Dr; cbn [kind_spend n_chans]; rewrite ?Dm, ?Dr in Hc; cbn in Hc.
    + apply Nat.ltb_lt in Hc. rewrite Hc. reflexivity.
    + replace (chans m + c <? chans m)%nat with false by (symmetry; apply Nat.ltb_ge; lia).
      f_equal; lia.
  - destruct H1, H2; congruence.
  - destruct H1 as [Hf ->]. eexists. split; [reflexivity|]. split; [cbn [n_chans]; split; [exact Hf|lia]|].
    intros ch gl tl Hc. destruct ch; cbn in Hc; try contradiction;
    unfold channel_spend, channel_index; rewrite ?Em, ?Er, ?Dm, ?Dr; cbn [kind_spend n_chans]; rewrite ?Dm, ?Dr in Hc; cbn in Hc; [reflexivity|lia].
  - destruct H1, H2; congruence.
  - destruct H1 as (Hf & G1 & T1 & C1), H2 as (_ & G2 & T2 & C2). cbn [append_spend].
    rewrite append3_runs by congruence. cbn [rbind]. eexists. split; [reflexivity|].
    split; [cbn [n_chans geos times chans]; repeat split; auto; lia|].
    intros ch gl tl Hc. destruct ch; cbn in Hc; try contradiction;
    unfold channel_spend, channel_index; rewrite ?Em, ?Er, ?Dm, ?Dr; cbn [kind_spend n_chans val chans]; rewrite ?Dm, ?Dr in Hc; cbn in Hc;
    apply total_ext'; intros g; apply total_ext'; intros t.
    + rewrite C1. apply Nat.ltb_lt in Hc. rewrite Hc. reflexivity.
    + rewrite C1. replace (chans m + c <? chans m)%nat with false by (symmetry; apply Nat.ltb_ge; lia).
      f_equal; lia.
  - destruct H1 as (Hf & G1 & T1 & C1). eexists. split; [reflexivity|]. split; [cbn [n_chans]; repeat split; auto; lia|].
    intros ch gl tl Hc. destruct ch; cbn in Hc; try contradiction;
    unfold channel_spend, channel_index; rewrite ?Em, ?Er, ?Dm, ?Dr; cbn [kind_spend n_chans]; rewrite ?Dm, ?Dr in Hc; cbn in Hc; [reflexivity|lia].
  - destruct H2 as [Hf ->]. eexists. split; [reflexivity|]. split; [cbn [n_chans]; split; [exact Hf|lia]|].
    intros ch gl tl Hc. destruct ch; cbn in Hc; try contradiction;
    unfold channel_spend, channel_index; rewrite ?Em, ?Er, ?Dm, ?Dr; cbn [kind_spend n_chans]; rewrite ?Dm, ?Dr in Hc; cbn in Hc; [lia|reflexivity].
  - destruct H2 as (Hf & G1 & T1 & C1). eexists. split; [reflexivity|]. split; [cbn [n_chans]; repeat split; auto; lia|].
    intros ch gl tl Hc. destruct ch; cbn in Hc; try contradiction;
    unfold channel_spend, channel_index; rewrite ?Em, ?Er, ?Dm, ?Dr; cbn [kind_spend n_chans]; rewrite ?Dm, ?Dr in Hc; cbn in Hc; [lia|reflexivity].
  - exfalso. destruct (wf_paid x W) as [E|E]; congruence.
Qed.

Lemma paid_allowed : forall x, In (n_paid x) (allowed_channel_dim (counts x)).
Proof. intros x. unfold allowed_channel_dim, allowed_n_channels, counts, n_paid. cbn. tauto. Qed.

Lemma denominator_lemma : forall flat f s d gs ts ag, well_formed (f_x f) -> spend_ok flat f s ->
  get_modified_times (f_x f) d = None -> geos_ok (f_x f) gs -> times_ok (f_x f) ts ->
  (flat = true -> ag = true) ->
  exists t, spend_denominator f s d gs ts ag = Ok t /\
    shape t = (if ag then [] else [length (chosen_geos (f_x f) gs)]) ++ [n_paid (f_x f)] /\
    forall ch i, is_paid (f_x f) ch -> (ag = false -> (i < length (chosen_geos (f_x f) gs))%nat) ->
      at_ t (position ag i ++ [channel_index (f_x f) ch])
      = channel_spend s ch (members (chosen_geos (f_x f) gs) ag i) (chosen_times (f_x f) ts).
Proof.
  intros flat f s d gs ts ag W Hs M Hg Ht Hflat. unfold spend_denominator.
  destruct (total_spend_lemma flat f s W Hs) as (t & -> & Ok_ & V). cbn [rbind].
  destruct t as [n u|y].
  - destruct Ok_ as [Hf ->]. rewrite (Hflat Hf). cbn [negb raise_if]. eexists. split; [reflexivity|].
    split; [reflexivity|]. intros ch i Hc _. cbn [position app at_ hd members]. apply (V ch _ _ Hc).
  - destruct Ok_ as (_ & Gy & Ty & Cy).
    destruct (package_runs (f_x f) d gs ts W M Hg Ht) as (i & -> & Gi & Rg & Ti & Rt). cbn [rbind].
    destruct (filter_media_lemma (counts (f_x f)) (x_n_geos (f_x f)) (x_n_times (f_x f)) (times y) (chans y) (of3 y) []
                (i_geo i) (i_time i) ag true true true) as (out & Ho & So & Vo).
    { cbn. rewrite Gy. reflexivity. }
    { rewrite Cy. apply paid_allowed. }
    { exact Rg. } { rewrite Ty. exact Rt. } { reflexivity. }
    exists out. split; [exact Ho|].
    pose proof (chosen_geos_lemma _ _ _ Gi) as Eg. pose proof (chosen_times_lemma _ _ _ W Ht Ti) as Et.
    split.
    { rewrite So. unfold dimension. rewrite Eg, Cy. cbn [app]. reflexivity. }
    intros ch k Hc Hk. specialize (Vo [] k 0%nat (channel_index (f_x f) ch) eq_refl).
    rewrite Eg in Vo. specialize (Vo Hk ltac:(discriminate)). cbn [app position] in Vo.
    etransitivity; [exact Vo|]. unfold cell. rewrite Ty, Eg, Et. cbn [members app at_ of3].
    rewrite <- (V ch _ _ Hc). reflexivity.
Qed.

Lemma divide_all : forall (F : tensor -> result xtensor) I n sh,
  length I = n -> (forall k z, (k < n)%nat -> exists q, F (nth k I z) = Ok q /\ xshape q = sh) ->
  exists L, mapM F I = Ok L /\ length L = n /\
    forall k z q0, (k < n)%nat -> F (nth k I z) = Ok (nth k L q0).
Proof.
  intros F I n sh HL H.
  destruct (mapM_runs _ _ F I) as (L & HF).
  { intros a Ha. destruct (In_nth I a a Ha) as (k & Hk & E). destruct (H k a ltac:(lia)) as (q & Hq & _).
    exists q. rewrite E in Hq. exact Hq. }
  exists L. split; [exact HF|]. split.
  { pose proof (mapM_length _ _ _ _ _ HF). lia. }
  intros k z q0 Hk. apply (proj2 (mapM_each _ _ _ _ _ HF)); lia.
Qed.

Lemma divide_runs : forall a b, shape a = shape b ->
  divide_tensor a b = Ok (mkX (shape a) (fun idx => fdiv (at_ a idx) (at_ b idx))).
Proof.
  intros a b E. unfold divide_tensor. rewrite E.
  assert (R : forall s : list nat, shape_eqb s s = true).
  { intros s. apply P_Budget.shape_eqb_iff. reflexivity. }
  rewrite R. reflexivity.
Qed.

Lemma granularity_runs : forall flat f gs ts ag, spend_ok flat f (f_spend f) ->
  (flat = true -> gs = None /\ ts = None /\ ag = true) -> validate_granularity f gs ts ag = Ok tt.
Proof.
  intros flat f gs ts ag [H1 H2] Hf. unfold validate_granularity.
  destruct flat.
  - destruct (Hf eq_refl) as (-> & -> & ->). reflexivity.
  - assert (E : is_spend1 (s_media (f_spend f)) || is_spend1 (s_rf (f_spend f)) = false).
    { destruct (s_media (f_spend f)) as [[]|], (d_media (x_data (f_x f))); cbn in H1; try contradiction;
      destruct (s_rf (f_spend f)) as [[]|], (d_reach (x_data (f_x f))); cbn in H2; try contradiction;
      try (destruct H1; discriminate); try (destruct H2; discriminate); reflexivity. }
    cbv zeta. rewrite E, !andb_false_r. reflexivity.
Qed.

Section Ratio.
Variables (f : fitted) (post hist flat : bool) (nd : new_tensors) (gs : option (list string))
  (ts : option time_sel) (ag : bool) (bs : Z).
Hypothesis V : roi_request f post hist flat nd gs ts ag bs.
Let x := f_x f.
Let gl i := members (chosen_geos x gs) ag i.
Let tl := chosen_times x ts.

Lemma both_lemma : forall f0 f1 br uk, 0 <= f0 < f1 ->
  exists I s, 
    incremental_outcome x (paid_fields (fill_missing x (nt_data nd) false false))
      (roi_options f0 f1 gs ts ag (resolve_use_kpi x uk) br) bs (f_draws f post) = Ok I /\
    spend_denominator f (fill_spend f (nt_spend nd)) (fill_missing x (nt_data nd) false false) gs ts ag = Ok s /\
    length I = length (f_draws f post) /\
    shape s = (if ag then [] else [length (chosen_geos x gs)]) ++ [n_paid x] /\
    (forall k w0 z, (k < length (f_draws f post))%nat -> shape (nth k I z) = shape s /\
      forall ch i, is_paid x ch -> (ag = false -> (i < length (chosen_geos x gs))%nat) ->
        at_ (nth k I z) (position ag i ++ [channel_index x ch])
        = outcome_change x (nt_data nd) (nth k (f_draws f post) w0) ch uk br f0 f1 (gl i) tl /\
        at_ s (position ag i ++ [channel_index x ch])
        = channel_spend (spend_used f (nt_spend nd)) ch (gl i) tl).
Proof.
  intros f0 f1 br uk F. pose proof V as V'. destruct V' as [Wm Tr Dr Ne Ba Da Pn Sp Us Hg Ht Hh Fl].
  destruct (numerator_lemma x (nt_data nd) f0 f1 gs ts ag uk br bs (f_draws f post)) as (I & HI & L & C); auto.
  assert (Eu : fill_spend f (nt_spend nd) = spend_used f (nt_spend nd)) by reflexivity.
  destruct (filled_paid x (nt_data nd)) as (_ & _ & _ & _ & M); auto.
  destruct (denominator_lemma flat f (spend_used f (nt_spend nd)) (fill_missing x (nt_data nd) false false) gs ts ag)
    as (s & Hs & Sh & Vs); auto.
  exists I, s. rewrite Eu. split; [exact HI|]. split; [exact Hs|]. split; [exact L|]. split; [exact Sh|].
  intros k w0 z Hk. destruct (C k w0 z Hk) as [Sk Vk]. split; [unfold x in *; congruence|].
  intros ch i Hc Hi. split; [exact (Vk ch i Hc Hi)|exact (Vs ch i Hc Hi)].
Qed.

Lemma roi_lemma : forall uk, exists L, roi f post nd gs ts ag uk bs = Ok L /\
  length L = length (f_draws f post) /\
  forall k w0 q0, (k < length (f_draws f post))%nat ->
    xshape (nth k L q0) = (if ag then [] else [length (chosen_geos x gs)]) ++ [n_paid x] /\
    forall ch i, is_paid x ch -> (ag = false -> (i < length (chosen_geos x gs))%nat) ->
      is_quotient (xat (nth k L q0) (position ag i ++ [channel_index x ch]))
        (outcome_change x (nt_data nd) (nth k (f_draws f post) w0) ch uk true 0 1 (gl i) tl)
        (channel_spend (spend_used f (nt_spend nd)) ch (gl i) tl).
Proof.
  intros uk. destruct (both_lemma 0 1 true uk ltac:(lra)) as (I & s & HI & Hs & L & Sh & C).
  unfold roi. rewrite (granularity_runs hist f gs ts ag (rr_spend _ _ _ _ _ _ _ _ _ V) (rr_history _ _ _ _ _ _ _ _ _ V)).
  cbv zeta. cbn [rbind]. fold x. rewrite HI. cbn [rbind]. rewrite Hs. cbn [rbind].
  destruct (divide_all (fun a => divide_tensor a s) I _ (shape s) L) as (Q & HQ & LQ & CQ).
  { intros k z Hk. destruct (f_draws f post) as [|w0 dr] eqn:E; [cbn in Hk; lia|]. rewrite <- E in *.
    destruct (C k w0 z Hk) as [Sk _]. eexists. rewrite divide_runs by exact Sk. split; [reflexivity|exact Sk]. }
  exists Q. split; [exact HQ|]. split; [exact LQ|]. intros k w0 q0 Hk.
  pose proof (CQ k s q0 Hk) as E. destruct (C k w0 s Hk) as [Sk Vk].
  rewrite divide_runs in E by exact Sk.
  assert (E' : nth k Q q0 = mkX (shape (nth k I s)) (fun idx => fdiv (at_ (nth k I s) idx) (at_ s idx))) by congruence.
  rewrite E'. cbn [xshape xat]. split; [rewrite Sk; exact Sh|]. intros ch i Hc Hi.
  destruct (Vk ch i Hc Hi) as [-> ->]. apply fdiv_quotient.
Qed.

Lemma mroi_lemma : forall inc br uk, 0 < inc -> exists L, marginal_roi f inc post nd gs ts ag br uk bs = Ok L /\
  length L = length (f_draws f post) /\
  forall k w0 q0, (k < length (f_draws f post))%nat ->
    xshape (nth k L q0) = (if ag then [] else [length (chosen_geos x gs)]) ++ [n_paid x] /\
    forall ch i, is_paid x ch -> (ag = false -> (i < length (chosen_geos x gs))%nat) ->
      is_quotient (xat (nth k L q0) (position ag i ++ [channel_index x ch]))
        (outcome_change x (nt_data nd) (nth k (f_draws f post) w0) ch uk br 1 (1 + inc) (gl i) tl)
        (channel_spend (spend_used f (nt_spend nd)) ch (gl i) tl * inc).
Proof.
  intros inc br uk Hinc. destruct (both_lemma 1 (1 + inc) br uk ltac:(lra)) as (I & s & HI & Hs & L & Sh & C).
  unfold marginal_roi.
  rewrite (granularity_runs hist f gs ts ag (rr_spend _ _ _ _ _ _ _ _ _ V) (rr_history _ _ _ _ _ _ _ _ _ V)).
  cbv zeta. cbn [rbind]. fold x. rewrite HI. cbn [rbind]. rewrite Hs. cbn [rbind].
  destruct (divide_all (fun a => divide_tensor a (scale_tensor inc s)) I _ (shape s) L) as (Q & HQ & LQ & CQ).
  { intros k z Hk. destruct (f_draws f post) as [|w0 dr] eqn:E; [cbn in Hk; lia|]. rewrite <- E in *.
    destruct (C k w0 z Hk) as [Sk _]. eexists. rewrite divide_runs by exact Sk. split; [reflexivity|exact Sk]. }
  exists Q. split; [exact HQ|]. split; [exact LQ|]. intros k w0 q0 Hk.
  pose proof (CQ k s q0 Hk) as E. destruct (C k w0 s Hk) as [Sk Vk].
  rewrite divide_runs in E by exact Sk.
  assert (E' : nth k Q q0 = mkX (shape (nth k I s)) (fun idx => fdiv (at_ (nth k I s) idx) (at_ (scale_tensor inc s) idx))) by congruence.
  rewrite E'. cbn [xshape xat scale_tensor at_ M_Budget.at_]. split; [rewrite Sk; exact Sh|]. intros ch i Hc Hi.
  destruct (Vk ch i Hc Hi) as [-> ->]. apply fdiv_quotient.
Qed.

(** One over the ROI in KPI units; undefined when nothing was spent or nothing was gained. *)
Lemma cpik_lemma : exists L, cpik f post nd gs ts ag bs = Ok L /\
  length L = length (f_draws f post) /\
  forall k w0 q0, (k < length (f_draws f post))%nat ->
    xshape (nth k L q0) = (if ag then [] else [length (chosen_geos x gs)]) ++ [n_paid x] /\
    forall ch i, is_paid x ch -> (ag = false -> (i < length (chosen_geos x gs))%nat) ->
      channel_spend (spend_used f (nt_spend nd)) ch (gl i) tl <> 0 ->
      is_quotient (xat (nth k L q0) (position ag i ++ [channel_index x ch]))
        (channel_spend (spend_used f (nt_spend nd)) ch (gl i) tl)
        (outcome_change x (nt_data nd) (nth k (f_draws f post) w0) ch true true 0 1 (gl i) tl).
Proof.
  destruct (roi_lemma true) as (L & HL & LL & C). unfold cpik. rewrite HL. cbn [rbind].
  eexists. split; [reflexivity|]. split; [rewrite map_length; exact LL|]. intros k w0 q0 Hk.
  set (inv_ := fun r => mkX (xshape r) (fun idx => match xat r idx with Some v => fdiv 1 v | None => None end)).
  rewrite (nth_indep (map inv_ L) q0 (inv_ q0)) by (rewrite map_length; lia). rewrite map_nth.
  destruct (C k w0 q0 Hk) as [Sh Vk]. split; [exact Sh|]. intros ch i Hc Hi Hs.
  destruct (Vk ch i Hc Hi) as [_ Hq]. destruct (Hq Hs) as (r & Er & E).
  unfold inv_ at 1. cbn [xat]. rewrite Er.
  set (S := channel_spend _ _ _ _) in *. set (O := outcome_change _ _ _ _ _ _ _ _ _ _) in *.
  destruct (fdiv_quotient 1 r) as [Q0 Q1]. split.
  - intros Z. apply Q0. rewrite Z in E. apply Rmult_integral in E. tauto.
  - intros Z. assert (Nr : r <> 0) by (intros ->; lra). destruct (Q1 Nr) as (v & Ev & Hv).
    exists v. split; [exact Ev|]. rewrite <- E, <- Rmult_assoc, Hv. lra.
Qed.

Lemma outcome_change_nonneg : forall k w0 ch uk br f0 f1 i, (k < length (f_draws f post))%nat ->
  is_paid x ch -> 0 <= f0 <= f1 -> (forall g, 0 <= coefficient (nth k (f_draws f post) w0) ch g) ->
  (forall g t, 0 <= outcome_per_unit (paid_model x (nt_data nd)) true uk g t) ->
  0 <= outcome_change x (nt_data nd) (nth k (f_draws f post) w0) ch uk br f0 f1 (gl i) tl.
Proof.
  intros k w0 ch uk br f0 f1 i Hk Hc Hf Hb Ho. unfold outcome_change, total.
  pose proof V as V'. destruct V' as [Wm Tr Dr Ne Ba Da Pn Sp Us Hg Ht Hh Fl].
  apply lsum_nonneg. intros v Hv. apply in_map_iff in Hv. destruct Hv as (g & <- & _).
  apply lsum_nonneg. intros v Hv. apply in_map_iff in Hv. destruct Hv as (t & <- & Htl).
  apply Rmult_le_pos; [apply Ho|].
  assert (Tt : (t < x_n_times x)%nat).
  { unfold tl, chosen_times in Htl. destruct ts as [[l|l]|].
    - apply filter_In in Htl. destruct Htl as [Htl _]. apply in_seq in Htl. lia.
    - apply filter_In in Htl. destruct Htl as [Htl _]. apply in_seq in Htl. lia.
    - apply in_seq in Htl. lia. }
  rewrite Forall_forall in Dr.
  pose proof (paid_term_mono x (nt_data nd) (nth k (f_draws f post) w0) ch f0 f1 None br g t Wm Da
    (Dr _ (nth_In _ _ Hk)) Pn Tr Hc Tt (Hb g) Hf). lra.
Qed.
End Ratio.
