(** Property C36: return on investment, its marginal version and the cost per incremental KPI. *)
From Coq Require Import Reals ZArith Lia Lra String List Bool Arith.
From Verif Require Import Lib_Sum M_Base M_AdstockHill M_Equations M_Transformers M_Aggregate
  S_Aggregate S_Adstock S_Media S_Analyzer M_Analyzer S_Predictor P_Predictor S_Paid C_Predictor C_Paid M_Stats M_Summary
  S_Roi P_Roi.
From Verif Require P_Aggregate.
Import ListNotations.
Local Open Scope R_scope.

(** ** C36: in every draw, for every paid channel (and geo): ROI times spend is the incremental
    outcome of the channel; undefined when nothing was spent. *)
Theorem C36_roi : forall f post hist flat nd gs ts ag uk bs,
  roi_request f post hist flat nd gs ts ag bs ->
  exists L, roi f post nd gs ts ag uk bs = Ok L /\ length L = length (f_draws f post) /\
  forall k w0 q0, (k < length (f_draws f post))%nat ->
    xshape (nth k L q0)
    = (if ag then [] else [length (chosen_geos (f_x f) gs)]) ++ [n_paid (f_x f)] /\
    forall ch i, is_paid (f_x f) ch -> (ag = false -> (i < length (chosen_geos (f_x f) gs))%nat) ->
      let geos := members (chosen_geos (f_x f) gs) ag i in
      let times := chosen_times (f_x f) ts in
      is_quotient (xat (nth k L q0) (position ag i ++ [channel_index (f_x f) ch]))
        (outcome_change (f_x f) (nt_data nd) (nth k (f_draws f post) w0) ch uk true 0 1 geos times)
        (channel_spend (spend_used f (nt_spend nd)) ch geos times).
Proof. intros f post hist flat nd gs ts ag uk bs V. exact (roi_lemma f post hist flat nd gs ts ag bs V uk). Qed.
Print Assumptions C36_roi.

(** Marginal ROI times the additional spend is the additional outcome. *)
Theorem C36_marginal_roi : forall f post hist flat nd gs ts ag increase by_reach uk bs,
  roi_request f post hist flat nd gs ts ag bs -> 0 < increase ->
  exists L, marginal_roi f increase post nd gs ts ag by_reach uk bs = Ok L /\
  length L = length (f_draws f post) /\
  forall k w0 q0, (k < length (f_draws f post))%nat ->
    xshape (nth k L q0)
    = (if ag then [] else [length (chosen_geos (f_x f) gs)]) ++ [n_paid (f_x f)] /\
    forall ch i, is_paid (f_x f) ch -> (ag = false -> (i < length (chosen_geos (f_x f) gs))%nat) ->
      let geos := members (chosen_geos (f_x f) gs) ag i in
      let times := chosen_times (f_x f) ts in
      is_quotient (xat (nth k L q0) (position ag i ++ [channel_index (f_x f) ch]))
        (outcome_change (f_x f) (nt_data nd) (nth k (f_draws f post) w0) ch uk by_reach 1 (1 + increase)
           geos times)
        (channel_spend (spend_used f (nt_spend nd)) ch geos times * increase).
Proof.
  intros f post hist flat nd gs ts ag inc br uk bs V H. exact (mroi_lemma f post hist flat nd gs ts ag bs V inc br uk H).
Qed.
Print Assumptions C36_marginal_roi.

(** The cost per incremental KPI is spend over incremental KPI. *)
Theorem C36_cpik : forall f post hist flat nd gs ts ag bs,
  roi_request f post hist flat nd gs ts ag bs ->
  exists L, cpik f post nd gs ts ag bs = Ok L /\ length L = length (f_draws f post) /\
  forall k w0 q0, (k < length (f_draws f post))%nat ->
    xshape (nth k L q0)
    = (if ag then [] else [length (chosen_geos (f_x f) gs)]) ++ [n_paid (f_x f)] /\
    forall ch i, is_paid (f_x f) ch -> (ag = false -> (i < length (chosen_geos (f_x f) gs))%nat) ->
      let geos := members (chosen_geos (f_x f) gs) ag i in
      let times := chosen_times (f_x f) ts in
      channel_spend (spend_used f (nt_spend nd)) ch geos times <> 0 ->
      is_quotient (xat (nth k L q0) (position ag i ++ [channel_index (f_x f) ch]))
        (channel_spend (spend_used f (nt_spend nd)) ch geos times)
        (outcome_change (f_x f) (nt_data nd) (nth k (f_draws f post) w0) ch true true 0 1 geos times).
Proof. intros f post hist flat nd gs ts ag bs V. exact (cpik_lemma f post hist flat nd gs ts ag bs V). Qed.
Print Assumptions C36_cpik.

(** Reciprocity of the two, whatever the data. *)
Theorem C36_reciprocal : forall f post nd gs ts ag bs C, cpik f post nd gs ts ag bs = Ok C ->
  exists L, roi f post nd gs ts ag true bs = Ok L /\ length C = length L /\
  forall k q0 idx r, (k < length L)%nat -> xat (nth k L q0) idx = Some r -> r <> 0 ->
    exists c, xat (nth k C q0) idx = Some c /\ c * r = 1.
Proof.
  intros f post nd gs ts ag bs C H. unfold cpik in H. destruct (roi f post nd gs ts ag true bs) as [L|] eqn:E; [|discriminate].
  cbn [rbind] in H. exists L. split; [reflexivity|].
  set (inv_ := fun r => mkX (xshape r) (fun idx => match xat r idx with Some v => fdiv 1 v | None => None end)) in H.
  assert (EC : C = map inv_ L) by congruence. subst C. split; [apply map_length|].
  intros k q0 idx r Hk Hr Hz. rewrite (nth_indep _ q0 (inv_ q0)) by (rewrite map_length; exact Hk). rewrite map_nth.
  unfold inv_ at 1. cbn [xat]. rewrite Hr. destruct (fdiv_quotient 1 r) as [_ Q]. exact (Q Hz).
Qed.
Print Assumptions C36_reciprocal.

(** A channel with non-negative coefficients has non-negative ROI and marginal ROI (revenue per
    KPI and populations are not negative). *)
Theorem C36_nonnegative : forall f post hist flat nd gs ts ag uk bs L k w0 q0 ch i r,
  roi_request f post hist flat nd gs ts ag bs -> roi f post nd gs ts ag uk bs = Ok L ->
  (k < length (f_draws f post))%nat -> is_paid (f_x f) ch ->
  (ag = false -> (i < length (chosen_geos (f_x f) gs))%nat) ->
  (forall g, 0 <= coefficient (nth k (f_draws f post) w0) ch g) ->
  (forall g t, 0 <= outcome_per_unit (paid_model (f_x f) (nt_data nd)) true uk g t) ->
  0 <= channel_spend (spend_used f (nt_spend nd)) ch (members (chosen_geos (f_x f) gs) ag i)
         (chosen_times (f_x f) ts) ->
  xat (nth k L q0) (position ag i ++ [channel_index (f_x f) ch]) = Some r -> 0 <= r.
Proof.
  intros f post hist flat nd gs ts ag uk bs L k w0 q0 ch i r V HL Hk Hc Hi Hb Ho Hs Hr.
  destruct (roi_lemma f post hist flat nd gs ts ag bs V uk) as (L' & HL' & _ & C).
  assert (L' = L) by congruence. subst L'. destruct (C k w0 q0 Hk) as [_ Q]. destruct (Q ch i Hc Hi) as [Q0 Q1].
  set (S := channel_spend _ _ _ _) in *.
  destruct (Req_dec S 0) as [Z|Z]; [rewrite (Q0 Z) in Hr; discriminate|].
  destruct (Q1 Z) as (r' & Er & E). assert (r' = r) by congruence. subst r'.
  assert (N : 0 <= r * S).
  { rewrite E. exact (outcome_change_nonneg f post hist flat nd gs ts ag bs V k w0 ch uk true 0 1 i Hk Hc ltac:(lra) Hb Ho). }
  nra.
Qed.
Print Assumptions C36_nonnegative.

(** The ROI over all geos is the spend-weighted mean of the ROI of the geos. *)
Lemma total_split : forall l F, total l F = lsum (map (fun i => total [nth i l 0%nat] F) (seq 0 (length l))).
Proof.
  intros l F. unfold total. f_equal. cbn [map lsum].
  transitivity (map (fun i => F (nth i l 0%nat)) (seq 0 (length l))).
  - induction l as [|a l IH]; [reflexivity|]. cbn [map length seq nth]. f_equal.
    rewrite IH at 1. rewrite <- seq_shift, map_map. reflexivity.
  - apply map_ext. intros i. lra.
Qed.
Theorem C36_geo_weighted : forall f post nd gs ts uk bs LA LG k (w0 : draw) q0 ch r rs,
  roi_request f post false false nd gs ts true bs ->
  roi f post nd gs ts true uk bs = Ok LA -> roi f post nd gs ts false uk bs = Ok LG ->
  (k < length (f_draws f post))%nat -> is_paid (f_x f) ch ->
  let n := length (chosen_geos (f_x f) gs) in
  let spend gl := channel_spend (spend_used f (nt_spend nd)) ch gl (chosen_times (f_x f) ts) in
  xat (nth k LA q0) [channel_index (f_x f) ch] = Some r ->
  (forall i, (i < n)%nat -> xat (nth k LG q0) [i; channel_index (f_x f) ch] = Some (rs i)) ->
  r * spend (chosen_geos (f_x f) gs) = rsum n (fun i => rs i * spend [nth i (chosen_geos (f_x f) gs) 0%nat]) /\
  spend (chosen_geos (f_x f) gs) = rsum n (fun i => spend [nth i (chosen_geos (f_x f) gs) 0%nat]).
Proof.
  intros f post nd gs ts uk bs LA LG k w0 q0 ch r rs V HA HG Hk Hc n spend Hr Hrs.
  assert (V' : roi_request f post false false nd gs ts false bs).
  { destruct V. constructor; auto; discriminate. }
  destruct (roi_lemma _ _ _ _ _ _ _ _ _ V uk) as (L1 & H1 & _ & C1).
  destruct (roi_lemma _ _ _ _ _ _ _ _ _ V' uk) as (L2 & H2 & _ & C2).
  assert (L1 = LA) by congruence. assert (L2 = LG) by congruence. subst L1 L2.
  destruct (C1 k w0 q0 Hk) as [_ Q1]. destruct (C2 k w0 q0 Hk) as [_ Q2].
  destruct (Q1 ch 0%nat Hc ltac:(discriminate)) as [A0 A1]. cbn [position app members] in A0, A1.
  fold (spend (chosen_geos (f_x f) gs)) in A0, A1.
  assert (E1 : r * spend (chosen_geos (f_x f) gs)
     = outcome_change (f_x f) (nt_data nd) (nth k (f_draws f post) w0) ch uk true 0 1 (chosen_geos (f_x f) gs) (chosen_times (f_x f) ts)).
  { destruct (Req_dec (spend (chosen_geos (f_x f) gs)) 0) as [Z|Z].
    - rewrite (A0 Z) in Hr. discriminate.
    - destruct (A1 Z) as (r' & E & H). assert (r' = r) by congruence. subst. exact H. }
  assert (E2 : forall i, (i < n)%nat -> rs i * spend [nth i (chosen_geos (f_x f) gs) 0%nat]
     = outcome_change (f_x f) (nt_data nd) (nth k (f_draws f post) w0) ch uk true 0 1 [nth i (chosen_geos (f_x f) gs) 0%nat] (chosen_times (f_x f) ts)).
  { intros i Hi. destruct (Q2 ch i Hc (fun _ => Hi)) as [B0 B1]. cbn [position app members] in B0, B1.
    fold (spend [nth i (chosen_geos (f_x f) gs) 0%nat]) in B0, B1. specialize (Hrs i Hi).
    destruct (Req_dec (spend [nth i (chosen_geos (f_x f) gs) 0%nat]) 0) as [Z|Z].
    - rewrite (B0 Z) in Hrs. discriminate.
    - destruct (B1 Z) as (r' & E & H). assert (r' = rs i) by congruence. subst. exact H. }
  assert (Sp : spend (chosen_geos (f_x f) gs) = lsum (map (fun i => spend [nth i (chosen_geos (f_x f) gs) 0%nat]) (seq 0 n))).
  { unfold spend, n. pose proof (rr_used _ _ _ _ _ _ _ _ _ V) as [U1 U2].
    destruct ch; cbn [is_paid] in Hc; try contradiction; cbn [channel_spend].
    - destruct (s_media (spend_used f (nt_spend nd))) as [[|y]|]; cbn in U1.
      + destruct (d_media (x_data (f_x f))); [destruct U1; discriminate|contradiction].
      + cbn [kind_spend]. apply total_split.
      + destruct (d_media (x_data (f_x f))) eqn:Ed; [contradiction|]. unfold is_channel in Hc. rewrite Ed in Hc. cbn in Hc. lia.
    - destruct (s_rf (spend_used f (nt_spend nd))) as [[|y]|]; cbn in U2.
      + destruct (d_reach (x_data (f_x f))); [destruct U2; discriminate|contradiction].
      + cbn [kind_spend]. apply total_split.
      + destruct (d_reach (x_data (f_x f))) eqn:Ed; [contradiction|]. unfold is_channel in Hc. rewrite Ed in Hc. cbn in Hc. lia. }
  assert (RL : forall m (h : nat -> R), lsum (map h (seq 0 m)) = rsum m h) by (intros; rewrite lsum_seq; reflexivity).
  split; [|rewrite Sp; apply RL].
  rewrite E1. unfold outcome_change at 1. rewrite total_split. fold n.
  rewrite <- RL. f_equal. apply map_ext_in. intros i Hi. apply in_seq in Hi. rewrite E2 by lia. reflexivity.
Qed.
Print Assumptions C36_geo_weighted.

(** Refuted: spend given per channel is not refused for a selection of periods.  The documentation
    says it is; the result is the outcome of the selected periods over all of the spend. *)
Definition ex_spend3 (n : nat) : spend := Spend3 (mkT3 2 2 n (fun g t c => 1 + INR (g + t + c))).
Definition ex_fitted : fitted :=
  mkFitted ex_rich (mkSpend (Some (ex_spend3 2)) (Some (ex_spend3 1)))
    ["tv"; "radio"; "video"]%string ["blog"; "search"; "price"]%string
    [ex_rich_draw; ex_rich_draw] [ex_rich_draw].
Definition ex_flat_spend : new_tensors :=
  mkNew ex_paid (mkSpend (Some (Spend1 2 (fun c => 10 + INR c))) (Some (Spend1 1 (fun _ => 20)))).
Lemma ex_roi_request : forall post flat nd gs ts ag, paid_data_ok ex_rich (nt_data nd) ->
  paid_nonneg ex_rich (nt_data nd) -> spend_ok flat ex_fitted (spend_used ex_fitted (nt_spend nd)) ->
  geos_ok ex_rich gs -> times_ok ex_rich ts -> (flat = true -> ag = true) ->
  roi_request ex_fitted post false flat nd gs ts ag 10.
Proof.
  destruct C58_example as (W & D & _ & _ & _ & T & _).
  intros post flat nd gs ts ag H1 H2 H3 H4 H5 H6. constructor; auto; try discriminate; try lia.
  - destruct post; unfold f_draws, f_prior, f_posterior, ex_fitted;
    repeat (apply Forall_cons; [exact D|]); apply Forall_nil.
  - destruct post; discriminate.
  - split; cbn; auto.
Qed.
Theorem C36_selection_of_flat_spend_refused_refuted : exists f nd ts L,
  ts <> None /\ spend_ok true f (spend_used f (nt_spend nd)) /\
  length (chosen_times (f_x f) ts) = 1%nat /\ x_n_times (f_x f) = 2%nat /\
  roi f true nd None ts true false 10 = Ok L.
Proof.
  destruct C58_paid_example as (P1 & P2 & _).
  assert (S : spend_ok true ex_fitted (spend_used ex_fitted (nt_spend ex_flat_spend))) by (split; cbn; auto).
  destruct (C36_roi ex_fitted true false true ex_flat_spend None (Some (TBools [false; true])) true false 10)
    as (L & HL & _).
  { apply ex_roi_request; auto; cbn; auto. }
  exists ex_fitted, ex_flat_spend, (Some (TBools [false; true])), L.
  split; [discriminate|]. split; [exact S|]. repeat split. exact HL.
Qed.
Print Assumptions C36_selection_of_flat_spend_refused_refuted.

(** C36. If the model's own spend is given per channel only, geos and periods cannot be selected and geos cannot
    be told apart. *)
Theorem C36_flat_history_refused : forall f post delta nd gs ts ag by_reach uk bs n u,
  s_media (f_spend f) = Some (Spend1 n u) \/ s_rf (f_spend f) = Some (Spend1 n u) ->
  gs <> None \/ ts <> None \/ ag = false ->
  roi f post nd gs ts ag uk bs = Err ValueError /\ cpik f post nd gs ts ag bs = Err ValueError /\
  marginal_roi f delta post nd gs ts ag by_reach uk bs = Err ValueError.
Proof.
  intros f post delta nd gs ts ag by_reach uk bs n u F W.
  assert (V : validate_granularity f gs ts ag = Err ValueError).
  { unfold validate_granularity. assert (Fl : is_spend1 (s_media (f_spend f)) || is_spend1 (s_rf (f_spend f)) = true).
    { destruct F as [-> | ->]; [reflexivity|apply orb_true_r]. }
    rewrite Fl. destruct gs; [reflexivity|]. destruct ag; [|reflexivity]. destruct ts; [reflexivity|].
    destruct W as [W|[W|W]]; [congruence|congruence|discriminate]. }
  unfold cpik, roi, marginal_roi. rewrite V. cbn [rbind]. auto.
Qed.
Print Assumptions C36_flat_history_refused.
Example C36_flat_history_example : exists f : fitted, s_media (f_spend f) = Some (Spend1 2 INR) /\ f_x f = ex_rich.
Proof. exists (mkFitted ex_rich (mkSpend (Some (Spend1 2 INR)) None) (f_paid_names ex_fitted) (f_other_names ex_fitted) (f_prior ex_fitted) (f_posterior ex_fitted)). split; reflexivity. Qed.

(** The hypotheses are met by a model with every kind of treatment, for a selection of geos and
    periods and new media, spend and revenue; the two media channels and the reach channel have
    non-zero spend. *)
Example C36_example :
  roi_request ex_fitted true false false (mkNew ex_paid (mkSpend (Some (ex_spend3 2)) None))
    (Some ["b"]%string) (Some (TBools [false; true])) false 10 /\
  n_paid ex_rich = 3%nat /\
  channel_spend (f_spend ex_fitted) (ChMedia 1) [1%nat] [1%nat] = 1 + INR 3.
Proof.
  destruct C58_paid_example as (P1 & P2 & _). split; [|split; [reflexivity|]].
  - apply ex_roi_request; auto; cbn; auto; try discriminate. split; cbn; auto.
  - cbn [channel_spend f_spend ex_fitted s_media kind_spend ex_spend3]. unfold total. cbn [map lsum val Nat.add]. lra.
Qed.
