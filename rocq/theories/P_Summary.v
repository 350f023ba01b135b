(** Proofs about [summary_metrics]. *)
From Coq Require Import Reals ZArith Lia Lra String List Bool Arith Permutation.
From Verif Require Import Lib_Sum M_Base M_AdstockHill M_Equations M_Transformers M_Aggregate
  S_Aggregate S_Adstock S_Media S_Analyzer M_Analyzer S_Predictor P_Aggregate P_Analyzer P_AnalyzerIO
  P_Predictor S_Paid P_Paid P_PaidMono M_Stats S_Stats P_Stats M_Summary S_Roi P_Roi S_Summary.
From Verif Require P_Budget.
Import ListNotations.
Local Open Scope R_scope.

(** ** Summaries of the cells *)
Lemma central_summary : forall level l s, central_tendency_and_ci level l = Ok s -> is_summary level l s.
Proof.
  intros level l s H. destruct (central_inv _ _ _ H) as (Hc & Hl & Em & Ed & El & Eh).
  assert (Q : forall q, 0 <= q <= 1 -> is_quantile l q (interpolate (sort_values l) (INR (length l - 1) * q))).
  { intros q Hq. apply quantile_spec. apply quantile_runs; auto. }
  unfold is_summary. rewrite Em, Ed, El, Eh. refine (conj _ (conj _ (conj _ _))); try (apply Q; lra).
  unfold mean. field. apply not_0_INR. destruct l; [congruence|discriminate].
Qed.

Lemma summarise_runs : forall level cells, -1 <= level <= 1 ->
  exists v, summarise level cells = Ok v /\
    (forall idx l, cells idx = Some l -> l <> [] -> reports (v idx) level l) /\
    (forall idx, cells idx = None -> v idx = None).
Proof.
  intros level cells H. unfold summarise.
  destruct (central_runs level [0] ltac:(discriminate) H) as (s0 & ->). cbn [rbind].
  eexists. split; [reflexivity|]. split.
  - intros idx l E Hl. destruct (central_runs level l Hl H) as (s & Es).
    exists s. rewrite E, Es. split; [reflexivity|]. apply central_summary. exact Es.
  - intros idx E. rewrite E. reflexivity.
Qed.

Lemma both_dist_runs : forall (P : bool -> variable -> Prop) (g : bool -> result variable),
  (forall p, exists v, g p = Ok v /\ P p v) ->
  exists v, both_dist g = Ok v /\ forall p, P p (v p).
Proof.
  intros P g H. destruct (H false) as (a & Ha & Pa). destruct (H true) as (b & Hb & Pb).
  unfold both_dist. rewrite Ha, Hb. cbn [rbind]. eexists. split; [reflexivity|].
  intros []; assumption.
Qed.

Lemma summarise_both : forall level cells, -1 <= level <= 1 ->
  exists v, both_dist (fun p => summarise level (cells p)) = Ok v /\
    forall p, (forall idx l, cells p idx = Some l -> l <> [] -> reports (v p idx) level l) /\
              (forall idx, cells p idx = None -> v p idx = None).
Proof.
  intros level cells H.
  apply (both_dist_runs (fun p v => (forall idx l, cells p idx = Some l -> l <> [] -> reports (v idx) level l) /\
              (forall idx, cells p idx = None -> v idx = None))).
  intros p. apply summarise_runs. exact H.
Qed.

Lemma map_pointwise : forall A B (F : A -> R) (G : B -> R) la lb a b, length la = length lb ->
  (forall k, (k < length lb)%nat -> F (nth k la a) = G (nth k lb b)) -> map F la = map G lb.
Proof.
  intros A B F G la. induction la as [|x la IH]; intros [|y lb] a b HL H; try discriminate; [reflexivity|].
  cbn [map]. f_equal.
  - apply (H 0%nat). cbn. lia.
  - apply (IH lb a b); [cbn in HL; lia|]. intros k Hk. apply (H (S k)). cbn. lia.
Qed.

(** ** Rows *)
Lemma row_sum : forall x (G : nat -> R) F,
  (forall ch, is_paid x ch -> G (channel_index x ch) = F ch) ->
  rsum (n_paid x) G = in_row x None F.
Proof.
  intros x G F H. unfold n_paid. rewrite rsum_app. cbn [in_row]. f_equal; apply rsum_ext; intros c Hc.
  - apply (H (ChMedia c)). exact Hc.
  - apply (H (ChRf c)). exact Hc.
Qed.

Lemma paid_index : forall x ch, is_paid x ch -> (channel_index x ch < n_paid x)%nat.
Proof. intros x ch H. unfold n_paid. destruct ch; cbn in *; try contradiction; lia. Qed.

Lemma total_rows : forall x y lead, shape y = lead ++ [n_paid x] ->
  exists z, with_total y = Ok z /\ shape z = lead ++ [S (n_paid x)] /\
    forall pos F, (forall ch, is_paid x ch -> at_ y (pos ++ [channel_index x ch]) = F ch) ->
      forall r, is_row x r -> at_ z (pos ++ [row x r]) = in_row x r F.
Proof.
  intros x y lead H. destruct (with_total_spec y lead (n_paid x) H) as (z & Hz & Sz & V).
  exists z. split; [exact Hz|]. split; [exact Sz|]. intros pos F HF r Hr. destruct (V pos) as [V1 V2].
  destruct r as [ch|]; cbn [row in_row].
  - rewrite V1 by (apply paid_index; exact Hr). apply HF. exact Hr.
  - rewrite V2. exact (row_sum x (fun c => at_ y (pos ++ [c])) F HF).
Qed.

Lemma in_row_ext : forall x r F G, (forall ch, is_paid x ch -> F ch = G ch) -> is_row x r ->
  in_row x r F = in_row x r G.
Proof.
  intros x [ch|] F G H Hr; cbn [in_row]; [apply H; exact Hr|].
  f_equal; apply rsum_ext; intros c Hc; apply H; exact Hc.
Qed.

(** ** Incremental outcomes with the total *)
Lemma paid_without_controls : forall x nd, paid_data_ok x nd -> without_controls nd = nd.
Proof.
  intros x nd (_ & _ & _ & _ & E1 & E2 & E3 & E4 & E5). destruct nd; cbn in *. subst. reflexivity.
Qed.
Lemma paid_times_kept : forall x nd, paid_data_ok x nd -> d_revenue_per_kpi nd = None -> new_data_ok x nd.
Proof.
  intros x nd (H1 & H2 & H3 & _ & E1 & E2 & E3 & E4 & E5) R. unfold new_data_ok.
  rewrite E1, E2, E3, E4, E5. cbn [fits]. repeat (split; [first [assumption|exact Logic.I]|]). exact R.
Qed.

Section Inc.
Variables (x : model) (nd : data) (gs : option (list string)) (ts : option time_sel) (ag at' : bool)
  (bs : Z) (draws : list draw).
Hypotheses (W : well_formed x) (H : paid_data_ok x nd) (P : paid_nonneg x nd) (T : transformers_ok x)
  (D : Forall (draw_ok x) draws) (Ne : draws <> []) (B : (0 < bs)%Z) (Hg : geos_ok x gs) (Ht : times_ok x ts).
Let lead := (if ag then [] else [length (chosen_geos x gs)]) ++ (if at' then [] else [length (chosen_times x ts)]).
Let gl i := members (chosen_geos x gs) ag i.
Let tl j := members (chosen_times x ts) at' j.

Lemma outcome_unit_resolved : forall uk g t,
  outcome_per_unit (paid_model x nd) true (resolve_use_kpi x uk) g t = outcome_per_unit (paid_model x nd) true uk g t.
Proof.
  intros uk g t. unfold outcome_per_unit. cbn [paid_model x_data d_revenue_per_kpi]. f_equal.
  destruct H as (_ & _ & _ & HR & _). pose proof (wf_rpk x W) as WR.
  unfold outcome_is_kpi, resolve_use_kpi. cbn [paid_model x_data d_revenue_per_kpi x_kpi_is_revenue].
  destruct (d_revenue_per_kpi nd), (d_revenue_per_kpi (x_data x)); cbn in HR; try contradiction; auto;
  destruct uk, (x_kpi_is_revenue x); reflexivity.
Qed.

Lemma aggregate_lemma : forall f0 f1 br uk uk', 0 <= f0 < f1 -> uk' = uk \/ uk' = resolve_use_kpi x uk ->
  exists I, incremental_outcome_aggregate x nd
     (mkOptions f0 f1 gs ts None ag at' true uk' br false None) bs draws = Ok I /\
    forall r i j, is_row x r -> (ag = false -> (i < length (chosen_geos x gs))%nat) ->
      (at' = false -> (j < length (chosen_times x ts))%nat) ->
      cell_draws I (position ag i ++ position at' j ++ [row x r])
      = map (fun w => in_row x r (fun ch => outcome_change x nd w ch uk br f0 f1 (gl i) (tl j))) draws.
Proof.
  intros f0 f1 br uk uk' F Huk.
  destruct (paid_documented x nd (mkOptions f0 f1 gs ts None ag at' true uk' br false None)
              bs draws W H) as (I0 & HI & L & C); auto.
  { constructor; cbn; auto; try discriminate. }
  cbn [o_aggregate_geos o_aggregate_times o_selected_geos o_selected_times o_inverse o_use_kpi
    o_scaling_factor1 o_scaling_factor0 o_media_selected_times o_by_reach] in C.
  unfold incremental_outcome_aggregate. rewrite HI. cbn [rbind].
  destruct draws as [|w0 dr] eqn:Ed; [congruence|]. rewrite <- Ed in *.
  destruct (mapM_runs _ _ with_total I0) as (I & HM).
  { intros a Ha. destruct (In_nth I0 a a Ha) as (k & Hk & E).
    destruct (C k w0 a ltac:(lia)) as [Sh _]. rewrite app_assoc, E in Sh.
    destruct (total_rows x a _ Sh) as (z & Hz & _). eauto. }
  exists I. split; [exact HM|]. intros r i j Hr Hi Hj.
  destruct (mapM_each _ _ _ _ _ HM) as [LM VM].
  unfold cell_draws. apply (map_pointwise _ _ _ _ _ _ (mkTensor [] (fun _ => 0)) w0); [lia|].
  intros k Hk. set (z0 := mkTensor [] (fun _ => 0)).
  destruct (C k w0 z0 ltac:(lia)) as [Sh V]. rewrite app_assoc in Sh.
  destruct (total_rows x _ _ Sh) as (z & Hz & _ & Vz).
  assert (E : nth k I z0 = z) by (pose proof (VM k z0 z0 ltac:(lia)); congruence).
  rewrite E, app_assoc.
  apply (Vz (position ag i ++ position at' j)
           (fun ch => outcome_change x nd (nth k draws w0) ch uk br f0 f1 (gl i) (tl j))); [|exact Hr].
  intros ch Hc. rewrite <- app_assoc, (V ch i j Hc Hi Hj). unfold outcome_change.
  apply total_ext'. intros g. apply total_ext'. intros t.
  destruct Huk as [->| ->]; [|rewrite outcome_unit_resolved]; reflexivity.
Qed.

(** Expected outcome. *)
Lemma expected_lemma : forall uk, d_revenue_per_kpi nd = None ->
  nonneg (d_organic_media (x_data x)) -> nonneg (d_organic_frequency (x_data x)) ->
  exists E, expected_outcome x nd gs ts ag at' true (resolve_use_kpi x uk) bs draws = Ok E /\
    forall i j, (ag = false -> (i < length (chosen_geos x gs))%nat) ->
      (at' = false -> (j < length (chosen_times x ts))%nat) ->
      cell_draws E (position ag i ++ position at' j)
      = map (fun w => outcome_total x nd w uk (gl i) (tl j)) draws.
Proof.
  intros uk R O1 O2.
  destruct (expected_documented x nd gs ts ag at' true (resolve_use_kpi x uk) bs draws W D Ne B Hg Ht
    (or_introl eq_refl) (paid_times_kept x nd H R)) as (E & HE & L & V); auto.
  { destruct P as (P1 & P2 & P3). destruct H as (_ & _ & _ & _ & E1 & E2 & E3 & _). unfold media_nonneg, given in *.
    rewrite E1, E3. tauto. }
  exists E. split; [exact HE|]. intros i j Hi Hj.
  destruct draws as [|w0 dr] eqn:Ed; [congruence|]. rewrite <- Ed in *.
  unfold cell_draws. apply (map_pointwise _ _ _ _ _ _ (mkTensor [] (fun _ => 0)) w0); [lia|].
  intros k Hk. destruct (V k w0 (mkTensor [] (fun _ => 0)) ltac:(lia)) as [_ V']. rewrite (V' i j Hi Hj).
  unfold outcome_total. apply total_ext'. intros g. apply total_ext'. intros t.
  unfold outcome_in_units, outcome_is_kpi, resolve_use_kpi.
  destruct (d_revenue_per_kpi (x_data x)); [|reflexivity]. destruct uk, (x_kpi_is_revenue x); reflexivity.
Qed.

(** Impressions. *)
Lemma orelse_given : forall (f : data -> option T3), orelse (f nd) (f (x_data x)) = given f nd x.
Proof. intros f. unfold orelse, given. destruct (f nd); reflexivity. Qed.

Definition frequency_ok (q : option (nat -> R)) : Prop :=
  match q with Some v => forall c, v c <> 0 | None => True end.

Lemma impressions_lemma : forall q, frequency_ok q ->
  exists I, get_aggregated_impressions x nd gs ts ag at' q false = Ok I /\
    shape I = lead ++ [n_paid x] /\
    forall ch i j, is_paid x ch -> (ag = false -> (i < length (chosen_geos x gs))%nat) ->
      (at' = false -> (j < length (chosen_times x ts))%nat) ->
      at_ I (position ag i ++ position at' j ++ [channel_index x ch])
      = channel_impressions x nd ch (gl i) (tl j).
Proof.
  intros q Hq. unfold get_aggregated_impressions. cbv zeta.
  pose proof (paid_dims x nd H) as (L1 & L2 & L3).
  pose proof (paid_well_formed x nd W H) as W'.
  pose proof (wf_media _ W') as Dm. pose proof (wf_reach _ W') as Dr. pose proof (wf_freq _ W') as Df.
  pose proof (wf_rf _ W') as Pr. pose proof (wf_paid _ W') as Pd. pose proof (wf_times x W) as Wt.
  cbn [paid_model x_data d_media d_reach d_frequency x_geo x_cx] in Dm, Dr, Df, Pr, Pd.
  change (x_n_geos (paid_model x nd)) with (x_n_geos x) in *.
  change (x_n_media_times (paid_model x nd)) with (x_n_media_times x) in *.
  set (d0 := fill_missing x nd false false). set (d1 := with_frequency d0 q).
  assert (M0 : get_modified_times x d0 = None) by (apply (filled_paid x nd H)).
  assert (E0 : d_media d0 = given d_media nd x /\ d_reach d0 = given d_reach nd x /\
               d_frequency d0 = given d_frequency nd x /\ d_organic_media d0 = None /\
               d_organic_reach d0 = None /\ d_organic_frequency d0 = None /\ d_non_media d0 = None).
  { unfold d0, fill_missing. cbn. rewrite !orelse_given. auto 10. }
  destruct E0 as (Em & Er & Ef & Eo1 & Eo2 & Eo3 & Eo4).
  assert (E1 : d_media d1 = d_media d0 /\ d_organic_media d1 = None /\ d_organic_reach d1 = None /\
               d_organic_frequency d1 = None /\ d_non_media d1 = None).
  { unfold d1, with_frequency. destruct q; cbn; rewrite ?Eo2, ?Eo3, ?Eo1, ?Eo4; auto. }
  destruct E1 as (F1 & F2 & F3 & F4 & F5).
  assert (M1 : get_modified_times x d1 = None).
  { unfold d1, with_frequency. destruct q as [q|]; [|exact M0].
    unfold get_modified_times in *. cbv zeta in *.
    cbn [d_media d_reach d_frequency d_organic_media d_organic_reach d_organic_frequency d_non_media d_controls d_revenue_per_kpi].
    rewrite Eo2, Eo3, Eo1, Eo4 in *. rewrite Er, Ef in *. cbn [at_frequency fst snd].
    destruct (given d_reach nd x) as [r|] eqn:Gr, (given d_frequency nd x) as [fq|] eqn:Gf; cbn in Pr; try contradiction;
      cbn [at_frequency fst snd]; [|exact M0].
    destruct (d_reach (x_data x)) as [r0|] eqn:Xr; cbn in L2; [|contradiction].
    destruct (d_frequency (x_data x)) as [f0|] eqn:Xf; cbn in L3; [|contradiction].
    unfold modified3 in *. cbn [times] in *.
    destruct L2 as (Q1 & Q2 & Q3), L3 as (Q4 & Q5 & Q6).
    assert (Tr : times r = times fq) by (destruct Dr, Df; congruence).
    rewrite <- Tr, Q2 in *.
    assert (Tf : times f0 = times r0) by congruence. rewrite Tf in *. exact M0. }
  destruct (package_runs x d1 gs ts W M1 Hg Ht) as (i0 & Hp & Gi & Rg & Ti & Rt).
  rewrite Hp. cbn [rbind]. rewrite M1.
  rewrite F3, F4, F2, F5. cbn [impressions_rf rbind opt_list map app].
  assert (RF : exists rf, impressions_rf (x_n_times x) (d_reach d1) (d_frequency d1) = Ok rf /\
    match given d_reach nd x, given d_frequency nd x with
    | Some r, Some fq => exists y, rf = [y] /\ geos y = x_n_geos x /\ times y = x_n_times x /\ chans y = chans r /\
        forall g t c, val y g t c = val r g (x_n_media_times x - x_n_times x + t)%nat c
                                    * val fq g (x_n_media_times x - x_n_times x + t)%nat c
    | _, _ => rf = []
    end).
  { destruct (given d_reach nd x) as [r|] eqn:Gr, (given d_frequency nd x) as [fq|] eqn:Gf; cbn in Pr; try contradiction.
    - destruct Dr as [Dr1 Dr2], Df as [Df1 Df2].
      unfold d1, with_frequency. destruct q as [q|]; cbn [d_reach d_frequency];
        rewrite ?Er, ?Ef; cbn [at_frequency fst snd impressions_rf]; unfold times3; cbn [last_times geos times chans];
        rewrite ?Dr1, ?Dr2, ?Df1, ?Df2, ?Pr, !Nat.eqb_refl; cbn [andb rbind]; eexists; (split; [reflexivity|]);
        eexists; (split; [reflexivity|]); cbn [geos times chans val last_times]; rewrite ?Dr1, ?Dr2, ?Df2;
        (split; [reflexivity|]); (split; [lia|]); (split; [auto|]).
      + intros g t c. field. apply Hq.
      + reflexivity.
    - exists []. split; [|reflexivity]. unfold d1, with_frequency. destruct q as [q|]; cbn [d_reach d_frequency];
        rewrite ?Er, ?Ef; reflexivity. }
  destruct RF as (rf & -> & Vrf). cbn [rbind].
  rewrite F1, Em, !app_nil_r.
  assert (Y : exists y, concat3 (map (last_times (x_n_times x)) (opt_list (given d_media nd x)) ++ rf) = Ok y /\
     geos y = x_n_geos x /\ times y = x_n_times x /\ chans y = n_paid x /\
     forall ch g t, is_paid x ch -> val y g t (channel_index x ch) = impressions_at x nd ch g t).
  { unfold n_paid, channel_index, impressions_at. rewrite <- (like_chans _ _ L1), <- (like_chans _ _ L2).
    assert (IP : forall ch, is_paid x ch -> match ch with ChMedia c => (c < n_chans (given d_media nd x))%nat
                       | ChRf c => (c < n_chans (given d_reach nd x))%nat | _ => False end).
    { intros ch. rewrite (like_chans _ _ L1), (like_chans _ _ L2). destruct ch; cbn; auto. }
    destruct (given d_media nd x) as [m|] eqn:Gm.
    - destruct Dm as [Dm1 Dm2].
      destruct (given d_reach nd x) as [r|] eqn:Gr, (given d_frequency nd x) as [fq|] eqn:Gf; cbn in Pr; try contradiction.
      + destruct Vrf as (y & -> & Y1 & Y2 & Y3 & Y4). cbn [opt_list map app concat3 rbind].
        rewrite append3_runs by (cbn [last_times geos times]; lia). eexists. split; [reflexivity|].
        cbn [geos times chans val last_times n_chans]. split; [exact Dm1|]. split; [lia|]. split; [lia|].
        intros ch g t Hc. apply IP in Hc. destruct ch; cbn [n_chans] in Hc; try contradiction.
        * apply Nat.ltb_lt in Hc. rewrite Hc, Dm2. reflexivity.
        * replace (chans m + c <? chans m)%nat with false by (symmetry; apply Nat.ltb_ge; lia).
          replace (chans m + c - chans m)%nat with c by lia. apply Y4.
      + subst rf. cbn [opt_list map app concat3]. eexists. split; [reflexivity|].
        cbn [geos times chans val last_times n_chans]. split; [exact Dm1|]. split; [lia|]. split; [lia|].
        intros ch g t Hc. apply IP in Hc. destruct ch; cbn [n_chans] in Hc; try contradiction; try lia.
        rewrite Dm2. reflexivity.
    - destruct (given d_reach nd x) as [r|] eqn:Gr, (given d_frequency nd x) as [fq|] eqn:Gf; cbn in Pr; try contradiction.
      + destruct Vrf as (y & -> & Y1 & Y2 & Y3 & Y4). cbn [opt_list map app concat3]. eexists. split; [reflexivity|].
        cbn [n_chans]. split; [exact Y1|]. split; [exact Y2|]. split; [lia|].
        intros ch g t Hc. apply IP in Hc. destruct ch; cbn [n_chans] in Hc; try contradiction; try lia. apply Y4.
      + destruct Pd; congruence. }
  destruct Y as (y & -> & Gy & Ty & Cy & Vy). cbn [rbind].
  destruct (filter_media_lemma (counts x) (x_n_geos x) (x_n_times x) (times y) (chans y) (of3 y) []
              (i_geo i0) (i_time i0) ag at' true true) as (out & Ho & So & Vo).
  { cbn. rewrite Gy. reflexivity. }
  { rewrite Cy. apply paid_allowed. }
  { exact Rg. } { rewrite Ty. exact Rt. } { reflexivity. }
  exists out. split; [exact Ho|].
  pose proof (chosen_geos_lemma _ _ _ Gi) as Eg. pose proof (chosen_times_lemma _ _ _ W Ht Ti) as Et.
  split.
  { rewrite So. unfold dimension, lead. rewrite Ty, Eg, Et, Cy. cbn [app]. rewrite app_assoc. reflexivity. }
  intros ch k j Hc Hk Hj. specialize (Vo [] k j (channel_index x ch) eq_refl).
  rewrite Ty, Eg, Et in Vo. specialize (Vo Hk Hj). cbn [app] in Vo.
  etransitivity; [exact Vo|]. unfold cell. rewrite Eg, Et. unfold channel_impressions.
  apply total_ext'. intros g. apply total_ext'. intros t. cbn [of3 at_ M_Budget.at_ app]. apply Vy. exact Hc.
Qed.
End Inc.

(** ** Labels *)
Lemma filter_sublist_length : forall (names l : list string), NoDup names -> NoDup l ->
  Forall (fun g => In g names) l ->
  Permutation l (map (fun i => nth i names ""%string)
    (filter (fun i => if in_dec string_dec (nth i names ""%string) l then true else false) (seq 0 (length names)))).
Proof.
  intros names l Hn Hl Hin. rewrite Forall_forall in Hin.
  set (sel := filter _ _).
  assert (Hs : forall i, In i sel -> (i < length names)%nat /\ In (nth i names ""%string) l).
  { intros i Hi. unfold sel in Hi. apply filter_In in Hi. destruct Hi as [Hi Hd]. apply in_seq in Hi.
    destruct (in_dec string_dec (nth i names ""%string) l); [|discriminate]. split; [lia|assumption]. }
  apply NoDup_Permutation; [exact Hl| |].
  - assert (Ns : NoDup sel) by (apply NoDup_filter; apply seq_NoDup).
    clearbody sel. induction sel as [|i sel IH]; [constructor|]. cbn [map].
    apply NoDup_cons_iff in Ns. destruct Ns as [Ni Ns].
    constructor; [|apply IH; [intros; apply Hs; right; assumption|exact Ns]].
    intros C. apply in_map_iff in C. destruct C as (k & Ek & Hk).
    assert (i = k).
    { rewrite NoDup_nth in Hn. symmetry. apply Hn; [apply Hs; right; exact Hk|apply Hs; left; reflexivity|exact Ek]. }
    subst. contradiction.
  - intros g. split.
    + intros Hg. destruct (In_nth names g ""%string (Hin g Hg)) as (i & Hi & E).
      apply in_map_iff. exists i. split; [exact E|]. apply filter_In. split; [apply in_seq; lia|].
      rewrite E. destruct (in_dec string_dec g l); [reflexivity|contradiction].
    + intros Hg. apply in_map_iff in Hg. destruct Hg as (i & <- & Hi). apply (Hs i Hi).
Qed.

Lemma map_nth_seq : forall (l : list string), map (fun i => nth i l ""%string) (seq 0 (length l)) = l.
Proof.
  intros l. induction l as [|a l IH]; [reflexivity|]. cbn [length seq map nth]. f_equal.
  rewrite <- seq_shift, map_map. exact IH.
Qed.

Lemma geo_labels_perm : forall x gs, geos_ok x gs -> NoDup (x_geo x) -> (forall l, gs = Some l -> NoDup l) ->
  Permutation (geo_labels x gs) (geo_names x gs).
Proof.
  intros x [l|] Hg Hn Hl; unfold geo_names, chosen_geos, geo_labels.
  - apply filter_sublist_length; auto.
  - unfold x_n_geos. rewrite map_nth_seq. reflexivity.
Qed.

Lemma geo_labels_length : forall x gs, geos_ok x gs -> NoDup (x_geo x) -> (forall l, gs = Some l -> NoDup l) ->
  length (geo_labels x gs) = length (chosen_geos x gs).
Proof.
  intros x gs Hg Hn Hl. rewrite (Permutation_length (geo_labels_perm x gs Hg Hn Hl)).
  unfold geo_names. apply map_length.
Qed.

Lemma mapM_nth_error : forall (names : list string) l, Forall (fun i => (i < length names)%nat) l ->
  mapM (fun k => match nth_error names k with Some s => Ok s | None => Err IndexError end) l
  = Ok (map (fun i => nth i names ""%string) l).
Proof.
  intros names l F. induction F as [|i l Hi F IH]; [reflexivity|]. cbn [mapM map]. rewrite IH.
  rewrite (nth_error_nth' names ""%string Hi). reflexivity.
Qed.

Lemma time_labels_lemma : forall x d ts, well_formed x -> get_modified_times x d = None -> times_ok x ts ->
  time_labels x d ts = Ok (period_names x ts).
Proof.
  intros x d ts W M Ht. unfold time_labels.
  destruct (package_runs x d None ts W M Logic.I Ht) as (i & -> & _ & _ & Ti & Rt). cbn [rbind].
  pose proof (chosen_times_lemma _ _ _ W Ht Ti) as Et. unfold time_names, period_names. rewrite M, <- Et.
  pose proof (wf_time x W) as L. destruct (i_time i) as [l|]; cbn [selection].
  - apply mapM_nth_error. rewrite L. exact Rt.
  - rewrite <- L, map_nth_seq. reflexivity.
Qed.

(** ** Spend *)
Lemma spend_restrict : forall f s, spend_ok false f s ->
  mkSpend (match d_media (x_data (f_x f)) with Some _ => s_media s | None => None end)
          (match d_reach (x_data (f_x f)) with Some _ => s_rf s | None => None end) = s.
Proof.
  intros f [a b] [H1 H2]. cbn [s_media s_rf] in *.
  destruct a as [[]|], (d_media (x_data (f_x f))); cbn in H1; try contradiction;
  destruct b as [[]|], (d_reach (x_data (f_x f))); cbn in H2; try contradiction; reflexivity.
Qed.

Lemma spend_lemma : forall f s d gs ts ag at', well_formed (f_x f) -> spend_ok false f s ->
  get_modified_times (f_x f) d = None -> geos_ok (f_x f) gs -> times_ok (f_x f) ts ->
  exists y i t, total_spend s = Ok (Some (Spend3 y)) /\ package (f_x f) d gs ts None [] = Ok i /\
    filter_and_aggregate (counts (f_x f)) (x_n_geos (f_x f)) (x_n_times (f_x f)) (of3 y) (i_geo i) (i_time i)
      ag at' true true = Ok t /\
    shape t = ((if ag then [] else [length (chosen_geos (f_x f) gs)])
               ++ (if at' then [] else [length (chosen_times (f_x f) ts)])) ++ [n_paid (f_x f)] /\
    forall ch i j, is_paid (f_x f) ch -> (ag = false -> (i < length (chosen_geos (f_x f) gs))%nat) ->
      (at' = false -> (j < length (chosen_times (f_x f) ts))%nat) ->
      at_ t (position ag i ++ position at' j ++ [channel_index (f_x f) ch])
      = channel_spend s ch (members (chosen_geos (f_x f) gs) ag i) (members (chosen_times (f_x f) ts) at' j).
Proof.
  intros f s d gs ts ag at' W Hs M Hg Ht.
  destruct (total_spend_lemma false f s W Hs) as (t & Et0 & Ok_ & V).
  destruct t as [n u|y]; [destruct Ok_; discriminate|]. destruct Ok_ as (_ & Gy & Ty & Cy).
  destruct (package_runs (f_x f) d gs ts W M Hg Ht) as (i & Hp & Gi & Rg & Ti & Rt).
  destruct (filter_media_lemma (counts (f_x f)) (x_n_geos (f_x f)) (x_n_times (f_x f)) (times y) (chans y) (of3 y) []
              (i_geo i) (i_time i) ag at' true true) as (out & Ho & So & Vo).
  { cbn. rewrite Gy. reflexivity. }
  { rewrite Cy. apply paid_allowed. }
  { exact Rg. } { rewrite Ty. exact Rt. } { reflexivity. }
  exists y, i, out. split; [exact Et0|]. split; [exact Hp|]. split; [exact Ho|].
  pose proof (chosen_geos_lemma _ _ _ Gi) as Eg. pose proof (chosen_times_lemma _ _ _ W Ht Ti) as Et.
  split.
  { rewrite So. unfold dimension. rewrite Ty, Eg, Et, Cy. cbn [app]. rewrite app_assoc. reflexivity. }
  intros ch k j Hc Hk Hj. specialize (Vo [] k j (channel_index (f_x f) ch) eq_refl).
  rewrite Ty, Eg, Et in Vo. specialize (Vo Hk Hj). cbn [app] in Vo.
  etransitivity; [exact Vo|]. unfold cell. rewrite Eg, Et. cbn [members app at_ of3 M_Budget.at_].
  rewrite <- (V ch _ _ Hc). reflexivity.
Qed.

(** ** Ratios *)
Lemma over_fixed_some : forall l b idx v, b idx = v -> v <> 0 ->
  over_fixed l b idx = Some (map (fun a => a / v) (cell_draws l idx)).
Proof. intros l b idx v E H. unfold over_fixed. rewrite E. destruct (Req_EM_T v 0); [contradiction|reflexivity]. Qed.

Lemma fixed_over_some : forall l b idx, (forall v, In v (cell_draws l idx) -> v <> 0) ->
  fixed_over b l idx = Some (map (fun a => b idx / a) (cell_draws l idx)).
Proof.
  intros l b idx H. unfold fixed_over.
  replace (forallb nonzero (cell_draws l idx)) with true; [reflexivity|]. symmetry. apply forallb_forall.
  intros v Hv. unfold nonzero. destruct (Req_EM_T v 0); [exfalso; exact (H v Hv e)|reflexivity].
Qed.

Lemma scaled_quotient : forall a b k, is_quotient (option_map (fun r => r * k) (fdiv a b)) (k * a) b.
Proof.
  intros a b k. destruct (fdiv_quotient a b) as [Q0 Q1]. split; intros H.
  - rewrite (Q0 H). reflexivity.
  - destruct (Q1 H) as (r & -> & <-). exists (r * k). split; [reflexivity|]. ring.
Qed.

Lemma shape_eqb_refl' : forall s : list nat, shape_eqb s s = true.
Proof. intros s. apply P_Budget.shape_eqb_iff. reflexivity. Qed.

(** ** The table *)
Section Table.
Variables (f : fitted) (nd : new_tensors) (br : bool) (increase : R)
  (gs : option (list string)) (ts : option time_sel) (ag at' uk : bool) (level : R) (bs : Z)
  (q : option (nat -> R)).
Hypotheses (V : summary_request f nd gs ts level bs) (Hinc : 0 < increase) (Hq : frequency_ok q).
Let x := f_x f.

Lemma table_lemma : exists s,
  summary_metrics f nd br increase gs ts ag at' q uk level bs false None = Ok s /\
  summary_table f nd br increase gs ts ag at' uk level s /\
  sm_geo s = if ag then None else Some (geo_labels x gs).
Proof.
  pose proof V as V'.
  destruct V' as [Wm Tr Dr Ne Ba Da Rv Pn (O1 & O2) Sp Na Hg Ht Ng Ds Lv]. fold x in Wm, Tr, Da, Pn, O1, O2, Na, Hg, Ht, Ng.
  pose proof (new_data_times x _ (paid_times_kept x _ Da Rv)) as Mt.
  pose proof (paid_without_controls x _ Da) as Wc.
  unfold summary_metrics. cbv zeta. fold x. rewrite Wc.
  set (d := nt_data nd) in *.
  set (lead := (if ag then [] else [length (chosen_geos x gs)]) ++ (if at' then [] else [length (chosen_times x ts)])).
  destruct (impressions_lemma x d gs ts ag at' Wm Da Hg Ht q Hq) as (imp0 & Him & Shm & Vim).
  rewrite Him. cbn [rbind].
  destruct (total_rows x imp0 _ Shm) as (imp & Hit & Shi & Vit). rewrite Hit. cbn [rbind]. fold lead in Shi.
  assert (Inc : forall f0 f1 b u p, 0 <= f0 < f1 -> exists I,
     incremental_outcome_aggregate x d (mkOptions f0 f1 gs ts None ag at' true (resolve_use_kpi x u) b false None)
       bs (f_draws f p) = Ok I /\
     forall r i j, in_table f gs ts ag at' r i j ->
       cell_draws I (at_cell f ag at' r i j) = map (fun w => row_gain f nd gs ts ag at' u b f0 f1 w r i j) (f_draws f p)).
  { intros f0 f1 b u p F.
    destruct (aggregate_lemma x d gs ts ag at' bs (f_draws f p) Wm Da Pn Tr (Dr p) (Ne p) Ba Hg Ht f0 f1 b u _ F
                (or_intror eq_refl))
      as (I & HI & VI).
    exists I. split; [exact HI|]. intros r i j (Hr & Hi & Hj). exact (VI r i j Hr Hi Hj). }
  destruct (Inc 0 1 true uk false ltac:(lra)) as (inc_prior & E1 & C1). rewrite E1. cbn [rbind].
  destruct (Inc 0 1 true uk true ltac:(lra)) as (inc_post & E2 & C2). rewrite E2. cbn [rbind].
  destruct (Inc 1 (1 + increase) br uk false ltac:(lra)) as (m_prior & E3 & C3). rewrite E3. cbn [rbind].
  destruct (Inc 1 (1 + increase) br uk true ltac:(lra)) as (m_post & E4 & C4). rewrite E4. cbn [rbind].
  assert (Tl : (if at' then Ok None else rbind (time_labels x d ts) (fun l => Ok (Some l)))
               = Ok (if at' then None else Some (period_names x ts))).
  { destruct at'; [reflexivity|]. rewrite (time_labels_lemma x d ts Wm Mt Ht). reflexivity. }
  rewrite Tl. cbn [rbind].
  assert (Nl : length (f_paid_names f ++ ["All Channels"%string]) = S (n_paid x)).
  { rewrite app_length, Na. cbn. lia. }
  assert (Cf : coords_fit [if ag then None else Some (geo_labels x gs);
                 if at' then None else Some (period_names x ts); Some (f_paid_names f ++ ["All Channels"%string])]
                 (shape imp) = true).
  { unfold coords_fit. rewrite Shi. apply P_Budget.shape_eqb_iff. unfold lead.
    pose proof (geo_labels_length x gs Hg Ng Ds) as GL.
    assert (PL : length (period_names x ts) = length (chosen_times x ts)) by apply map_length.
    destruct ag, at'; cbn [flat_map app]; rewrite ?Nl, ?GL, ?PL; reflexivity. }
  rewrite Cf. cbn [negb raise_if].
  assert (Ci : forall p r i j, in_table f gs ts ag at' r i j ->
     cell_draws (if p : bool then inc_post else inc_prior) (at_cell f ag at' r i j)
     = map (fun w => row_gain f nd gs ts ag at' uk true 0 1 w r i j) (f_draws f p)) by (intros []; assumption).
  assert (Cm : forall p r i j, in_table f gs ts ag at' r i j ->
     cell_draws (if p : bool then m_post else m_prior) (at_cell f ag at' r i j)
     = map (fun w => row_gain f nd gs ts ag at' uk br 1 (1 + increase) w r i j) (f_draws f p)) by (intros []; assumption).
  assert (Ie : forall r i j, in_table f gs ts ag at' r i j ->
     at_ imp (at_cell f ag at' r i j) = row_impressions f nd gs ts ag at' r i j).
  { intros r i j (Hr & Hi & Hj). unfold at_cell. rewrite app_assoc. fold x.
    apply (Vit (position ag i ++ position at' j)
      (fun ch => channel_impressions x d ch (cell_geos f gs ag i) (cell_times f ts at' j))); [|exact Hr].
    intros ch Hc. rewrite <- app_assoc. exact (Vim ch i j Hc Hi Hj). }
  assert (Mn : forall (A B : Type) (g : A -> B) l, l <> [] -> map g l <> []).
  { intros A B g [|a l] Hl; [congruence|discriminate]. }
  destruct (summarise_both level (fun (p : bool) idx => Some (cell_draws (if p then inc_post else inc_prior) idx)) Lv) as (v_inc & Ev1 & Hv1).
  rewrite Ev1. cbn [rbind].
  destruct (summarise_both level (fun p : bool => over_fixed (if p then inc_post else inc_prior) (at_ imp)) Lv) as (v_eff & Ev2 & Hv2).
  rewrite Ev2. cbn [rbind].
  rewrite Mt.
  assert (Exp : forall p, exists E, expected_outcome x d gs ts ag at' true (resolve_use_kpi x uk) bs (f_draws f p) = Ok E /\
    forall i j, (ag = false -> (i < length (chosen_geos x gs))%nat) ->
      (at' = false -> (j < length (chosen_times x ts))%nat) ->
      cell_draws E (position ag i ++ position at' j)
      = map (fun w => outcome_total x d w uk (cell_geos f gs ag i) (cell_times f ts at' j)) (f_draws f p)).
  { intros p. apply (expected_lemma x d gs ts ag at' bs (f_draws f p) Wm Da Pn Tr (Dr p) (Ne p) Ba Hg Ht uk Rv O1 O2). }
  destruct (Exp false) as (e_prior & Ee1 & Ce1). rewrite Ee1. cbn [rbind].
  destruct (Exp true) as (e_post & Ee2 & Ce2). rewrite Ee2. cbn [rbind].
  destruct (summarise_both level (fun p : bool => percent (over_fixed (if p then inc_post else inc_prior) (mean_expected (if p then e_post else e_prior)))) Lv) as (v_pct & Ev3 & Hv3).
  rewrite Ev3. cbn [rbind].
  assert (Me : forall p r i j, in_table f gs ts ag at' r i j ->
     mean_expected (if p : bool then e_post else e_prior) (at_cell f ag at' r i j) = mean_outcome f nd gs ts ag at' uk p i j).
  { intros p r i j (Hr & Hi & Hj). unfold mean_expected, at_cell. rewrite app_assoc, removelast_last.
    destruct p; rewrite ?(Ce1 i j Hi Hj), ?(Ce2 i j Hi Hj); unfold mean, mean_outcome; rewrite map_length; reflexivity. }
  assert (Eu : fill_spend f (nt_spend nd) = spend_used f (nt_spend nd)) by reflexivity.
  rewrite Eu. 
  pose proof (spend_restrict f _ Sp) as Sr. fold x in Sr. rewrite Sr.
  destruct (spend_lemma f (spend_used f (nt_spend nd)) d gs ts ag at' Wm Sp Mt Hg Ht)
    as (y & i0 & sp0 & Hts & Hpk & Hfa & Shs & Vsp).
  fold x in Hts, Hpk, Hfa, Shs, Vsp.
  rewrite Hts. cbn [rbind]. rewrite Hpk. cbn [rbind]. rewrite Hfa. cbn [rbind].
  destruct (total_rows x sp0 _ Shs) as (sp & Hst & Shs' & Vst). rewrite Hst. cbn [rbind].
  rewrite Shi, Shs'. fold lead. rewrite shape_eqb_refl'. cbn [negb raise_if].
  assert (Se : forall r i j, in_table f gs ts ag at' r i j ->
     at_ sp (at_cell f ag at' r i j) = row_spend f nd gs ts ag at' r i j).
  { intros r i j (Hr & Hi & Hj). unfold at_cell. rewrite app_assoc. fold x.
    apply (Vst (position ag i ++ position at' j)
      (fun ch => channel_spend (spend_used f (nt_spend nd)) ch (cell_geos f gs ag i) (cell_times f ts at' j))); [|exact Hr].
    intros ch Hc. rewrite <- app_assoc. exact (Vsp ch i j Hc Hi Hj). }
  assert (Ta : forall r i j, total_at (length (f_paid_names f ++ ["All Channels"%string]) - 1) (at_cell f ag at' r i j)
               = at_cell f ag at' None i j).
  { intros r i j. unfold total_at, at_cell. rewrite app_assoc, removelast_last, Nl. cbn [row]. fold x.
    replace (S (n_paid x) - 1)%nat with (n_paid x) by lia. rewrite <- app_assoc. reflexivity. }
  assert (In_none : forall r i j, in_table f gs ts ag at' r i j -> in_table f gs ts ag at' None i j).
  { intros r i j (_ & A & B). split; [exact Logic.I|]. auto. }
  assert (Pct : forall (t : tensor) (F : option channel -> nat -> nat -> R),
     (forall r i j, in_table f gs ts ag at' r i j -> at_ t (at_cell f ag at' r i j) = F r i j) ->
     forall r i j, in_table f gs ts ag at' r i j ->
      is_quotient (pct_of (length (f_paid_names f ++ ["All Channels"%string]) - 1) t (at_cell f ag at' r i j))
        (100 * F r i j) (F None i j)).
  { intros t F HF r i j Hc. unfold pct_of. rewrite Ta, (HF r i j Hc), (HF None i j (In_none r i j Hc)).
    apply scaled_quotient. }
  assert (Dl : forall v r i j, in_table f gs ts ag at' r i j ->
     (r = None -> drop_last_channel (length (f_paid_names f ++ ["All Channels"%string]) - 1) v (at_cell f ag at' r i j) = None) /\
     (is_single r -> drop_last_channel (length (f_paid_names f ++ ["All Channels"%string]) - 1) v (at_cell f ag at' r i j)
                     = v (at_cell f ag at' r i j))).
  { intros v r i j (Hr & _). unfold drop_last_channel, at_cell. rewrite app_assoc, last_last, Nl.
    replace (S (n_paid x) - 1)%nat with (n_paid x) by lia. split.
    - intros ->. cbn [row]. fold x. rewrite Nat.eqb_refl. reflexivity.
    - intros Hs. destruct r as [ch|]; [|exfalso; exact (Hs eq_refl)]. cbn [row]. fold x.
      pose proof (paid_index x ch Hr) as Hlt.
      replace (Nat.eqb (channel_index x ch) (n_paid x)) with false; [reflexivity|].
      symmetry. apply Nat.eqb_neq. lia. }
  assert (T_inc : forall p r i j, in_table f gs ts ag at' r i j ->
    reports (v_inc p (at_cell f ag at' r i j)) level
      (map (fun w => row_gain f nd gs ts ag at' uk true 0 1 w r i j) (f_draws f p))).
  { intros p r i j Hc. apply (proj1 (Hv1 p)); [rewrite (Ci p r i j Hc); reflexivity|apply Mn, Ne]. }
  assert (T_pct : forall p r i j, in_table f gs ts ag at' r i j -> mean_outcome f nd gs ts ag at' uk p i j <> 0 ->
    reports (v_pct p (at_cell f ag at' r i j)) level
      (map (fun w => row_gain f nd gs ts ag at' uk true 0 1 w r i j / mean_outcome f nd gs ts ag at' uk p i j * 100)
        (f_draws f p))).
  { intros p r i j Hc Hm. apply (proj1 (Hv3 p)); [|apply Mn, Ne].
    unfold percent. rewrite (over_fixed_some _ _ _ _ (Me p r i j Hc) Hm). cbn [option_map].
    rewrite (Ci p r i j Hc), !map_map. reflexivity. }
  assert (T_cpm : forall r i j, in_table f gs ts ag at' r i j ->
     is_quotient (option_map (fun r0 => r0 * 1000) (fdiv (at_ sp (at_cell f ag at' r i j)) (at_ imp (at_cell f ag at' r i j))))
       (1000 * row_spend f nd gs ts ag at' r i j) (row_impressions f nd gs ts ag at' r i j)).
  { intros r i j Hc. rewrite (Se r i j Hc), (Ie r i j Hc). apply scaled_quotient. }
  assert (T_eff : forall p r i j, in_table f gs ts ag at' r i j -> row_impressions f nd gs ts ag at' r i j <> 0 ->
      reports (v_eff p (at_cell f ag at' r i j)) level
        (map (fun w => row_gain f nd gs ts ag at' uk true 0 1 w r i j / row_impressions f nd gs ts ag at' r i j) (f_draws f p))).
  { intros p r i j Hc Hm. apply (proj1 (Hv2 p)); [|apply Mn, Ne].
    rewrite (over_fixed_some _ _ _ _ (Ie r i j Hc) Hm), (Ci p r i j Hc), map_map. reflexivity. }
  assert (Sh : lead ++ [S (n_paid x)] = (if ag then [] else [length (chosen_geos x gs)])
               ++ (if at' then [] else [length (chosen_times x ts)]) ++ [S (n_paid x)]).
  { unfold lead. rewrite app_assoc. reflexivity. }
  destruct at' eqn:Eat.
  - destruct (summarise_both level (fun p : bool => over_fixed (if p then inc_post else inc_prior) (at_ sp)) Lv) as (v_roi & Ev4 & Hv4).
    rewrite Ev4. cbn [rbind].
    destruct (summarise_both level (fun p : bool => over_fixed (if p then m_post else m_prior) (fun idx => at_ sp idx * increase)) Lv) as (v_mroi & Ev5 & Hv5).
    rewrite Ev5. cbn [rbind].
    assert (K : forall p, exists I, incremental_outcome_aggregate x d
       (mkOptions 0 1 gs ts None ag true true true true false None) bs (f_draws f p) = Ok I /\
       forall r i j, in_table f gs ts ag true r i j ->
         cell_draws I (at_cell f ag true r i j) = map (fun w => row_gain f nd gs ts ag true true true 0 1 w r i j) (f_draws f p)).
    { intros p.
      destruct (aggregate_lemma x d gs ts ag true bs (f_draws f p) Wm Da Pn Tr (Dr p) (Ne p) Ba Hg Ht 0 1 true true true
                  ltac:(lra) (or_introl eq_refl)) as (I & HI & VI).
      exists I. split; [exact HI|]. intros r i j (Hr & Hi & Hj). exact (VI r i j Hr Hi Hj). }
    destruct (K false) as (k_prior & Ek1 & Ck1). rewrite Ek1. cbn [rbind].
    destruct (K true) as (k_post & Ek2 & Ck2). rewrite Ek2. cbn [rbind].
    destruct (summarise_both level (fun p : bool => fixed_over (at_ sp) (if p then k_post else k_prior)) Lv) as (v_cpik & Ev6 & Hv6).
    rewrite Ev6. cbn [rbind].
    eexists. split; [reflexivity|]. split; [|reflexivity].
    constructor; cbn [sm_shape sm_channel sm_time sm_incremental sm_contribution sm_effectiveness sm_impressions
      sm_spend sm_pct_of_impressions sm_pct_of_spend sm_cpm sm_roi sm_mroi sm_cpik].
    + exact Sh.
    + reflexivity.
    + reflexivity.
    + exact T_inc.
    + exists v_pct. split; [reflexivity|exact T_pct].
    + exists imp. split; [reflexivity|exact Ie].
    + exists sp. split; [reflexivity|exact Se].
    + eexists. split; [reflexivity|]. exact (Pct imp _ Ie).
    + eexists. split; [reflexivity|]. exact (Pct sp _ Se).
    + eexists. split; [reflexivity|exact T_cpm].
    + discriminate.
    + intros _. exists v_roi. split; [reflexivity|]. intros p r i j Hc Hs.
      apply (proj1 (Hv4 p)); [|apply Mn, Ne].
      rewrite (over_fixed_some _ _ _ _ (Se r i j Hc) Hs), (Ci p r i j Hc), map_map. reflexivity.
    + intros _. exists v_cpik. split; [reflexivity|]. intros p r i j Hc Hz.
      assert (Ck : cell_draws (if p then k_post else k_prior) (at_cell f ag true r i j)
        = map (fun w => row_gain f nd gs ts ag true true true 0 1 w r i j) (f_draws f p)) by (destruct p; [apply Ck2|apply Ck1]; exact Hc).
      apply (proj1 (Hv6 p)); [|apply Mn, Ne].
      rewrite fixed_over_some.
      * rewrite Ck, map_map, (Se r i j Hc). reflexivity.
      * rewrite Ck. intros v Hv. apply in_map_iff in Hv. destruct Hv as (w & <- & Hw). exact (Hz w Hw).
    + intros _. eexists. split; [reflexivity|]. intros p r i j Hc. cbv beta.
      destruct (Dl (v_mroi p) r i j Hc) as [D1 D2]. split; [exact D1|]. intros Hs Hm. rewrite (D2 Hs).
      apply (proj1 (Hv5 p)); [|apply Mn, Ne].
      assert (Hz : row_spend f nd gs ts ag true r i j * increase <> 0) by (apply Rmult_integral_contrapositive_currified; lra).
      rewrite (over_fixed_some _ _ _ (row_spend f nd gs ts ag true r i j * increase)); [|rewrite (Se r i j Hc); reflexivity|exact Hz].
      rewrite (Cm p r i j Hc), map_map. reflexivity.
    + intros _. eexists. split; [reflexivity|]. intros p r i j Hc. cbv beta.
      destruct (Dl (v_eff p) r i j Hc) as [D1 D2]. split; [exact D1|]. intros Hs Hm. rewrite (D2 Hs).
      apply T_eff; assumption.
  - eexists. split; [reflexivity|]. split; [|reflexivity].
    constructor; cbn [sm_shape sm_channel sm_time sm_incremental sm_contribution sm_effectiveness sm_impressions
      sm_spend sm_pct_of_impressions sm_pct_of_spend sm_cpm sm_roi sm_mroi sm_cpik]; try discriminate.
    + exact Sh.
    + reflexivity.
    + reflexivity.
    + exact T_inc.
    + exists v_pct. split; [reflexivity|exact T_pct].
    + exists imp. split; [reflexivity|exact Ie].
    + exists sp. split; [reflexivity|exact Se].
    + eexists. split; [reflexivity|]. exact (Pct imp _ Ie).
    + eexists. split; [reflexivity|]. exact (Pct sp _ Se).
    + eexists. split; [reflexivity|exact T_cpm].
    + auto.
Qed.
End Table.
