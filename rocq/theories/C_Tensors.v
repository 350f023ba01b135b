(** Property C40: counterfactual data and the model's own data. *)
From Coq Require Import Reals Lra List Arith Bool Lia.
From Verif Require Import M_Base M_Tensors S_Tensors P_Tensors.
From Verif Require M_Analyzer.
Import ListNotations.
Local Open Scope nat_scope.
Local Open Scope list_scope.

(** Which data are accepted.  With flexible times: every required tensor that is given is one the
    model has, with its geos and channels, and either no given tensor changes the number of
    periods, or every required tensor the model has is given with the new number of periods. *)
Theorem C40_accepted : forall x d required allow, well_formed x -> ranked d ->
  ((exists r, validate_and_fill x d required allow = Ok r) <->
   (forall f, In f required -> well_shaped x d f) /\
   (if allow then (forall f, unchanged x d f) \/
                  (exists t, first_change x d t /\ forall f, In f required -> own x f <> None -> covers d f t)
    else forall f, In f required -> keeps_periods x d f)).
Proof. intros x d required allow W R. exact (fill_iff x d W R required allow). Qed.
Print Assumptions C40_accepted.

(** What comes out: for each required tensor the given one, and the model's own if none is given;
    nothing else, but a given time.  The tensors that are not used are reported. *)
Theorem C40_filled : forall x d required allow out warned, well_formed x -> ranked d ->
  validate_and_fill x d required allow = Ok (out, warned) ->
  (forall f, In f required -> out f = match d f with Some n => Some n | None => own x f end) /\
  (forall f, ~ In f required -> f <> Time -> out f = None) /\
  (~ In Time required -> out Time = d Time) /\
  (forall f, In f warned <-> d f <> None /\ ~ In f required /\ f <> Time).
Proof. intros x d required allow out warned W R H. exact (fill_result x d W R required allow out warned H). Qed.
Print Assumptions C40_filled.

(** The periods of the result: those of the model, or one new number of periods for all. *)
Theorem C40_periods : forall x d required out warned, well_formed x -> ranked d ->
  validate_and_fill x d required true = Ok (out, warned) ->
  (forall f n o, In f required -> f <> Time -> out f = Some n -> own x f = Some o -> ndim n > 1 -> ndim o > 1 ->
     nth 1 (sh n) 0 = periods x f) \/
  (exists t, forall f n, In f required -> out f = Some n ->
     (f = Time -> sh n = [t]) /\ (f <> Time -> ndim n > 1 /\ nth 1 (sh n) 0 = t)).
Proof.
  intros x d required out warned W R H. pose proof (proj1 (fill_iff x d W R required true) (ex_intro _ _ H)) as [Ws T].
  destruct (fill_result x d W R required true out warned H) as (A & _). destruct T as [T|(t & _ & T)].
  - left. intros f n o I _ E Eo R1 R2. rewrite (A f I) in E. unfold given_or_own in E.
    destruct (own_periods x W f o Eo R2) as [_ P]. rewrite <- P. destruct (d f) as [n'|] eqn:Ed.
    + assert (n' = n) by congruence. subst. exact (T f n o Ed Eo R1 R2).
    + congruence.
  - right. exists t. intros f n I E. rewrite (A f I) in E. unfold given_or_own in E. destruct (own x f) as [o|] eqn:Eo.
    + destruct (T f I) as (m & Em & C); [congruence|]. rewrite Em in E. assert (m = n) by congruence. subst. exact C.
    + destruct (d f) as [n'|] eqn:Ed; [|discriminate]. destruct (Ws f I n' Ed) as (o & Eo' & _). congruence.
Qed.
Print Assumptions C40_periods.

(** Given tensors have the model's geos and channels in the result. *)
Theorem C40_shapes : forall x d required allow out warned f n o, well_formed x -> ranked d ->
  validate_and_fill x d required allow = Ok (out, warned) -> In f required -> out f = Some n -> own x f = Some o ->
  (ndim n > 1 -> nth 0 (sh n) 0 = x_n_geos x) /\ (f <> RevenuePerKpi -> f <> Time -> last (sh n) 0 = last (sh o) 0).
Proof.
  intros x d required allow out warned f n o W R H I E Eo. pose proof (proj1 (fill_iff x d W R required allow) (ex_intro _ _ H)) as [Ws _].
  destruct (fill_result x d W R required allow out warned H) as (A & _). rewrite (A f I) in E. unfold given_or_own in E.
  destruct (d f) as [n'|] eqn:Ed.
  - assert (n' = n) by congruence. subst. destruct (Ws f I n Ed) as (o' & Eo' & G). assert (o' = o) by congruence. subst. exact G.
  - assert (n = o) by congruence. subst. split; [intros R1; exact (proj1 (own_periods x W f o Eo R1))|reflexivity].
Qed.
Print Assumptions C40_shapes.

(** *** Optimal frequencies keep the impressions *)
(** (Order of unfolding in conversion checks only.) *)
Local Strategy 1000 [rbind validate_and_fill].
Lemma two_steps : forall (m : result (data * list field)) (k : data -> result data) (g : data -> data) out,
  rbind (rbind m (fun o => Ok (fst o))) (fun d => rbind (k d) (fun d => Ok (g d))) = Ok out ->
  exists r d1, m = Ok r /\ k (fst r) = Ok d1 /\ out = g d1.
Proof.
  intros m k g out H. apply inv_rb in H. destruct H as (d0 & E & H). apply inv_rb in E. destruct E as (r & Er & E).
  apply inv_rb in H. destruct H as (d1 & E1 & H). exists r, d1. split; [exact Er|]. split; [|congruence].
  assert (d0 = fst r) by congruence. subst. exact E1.
Qed.
(** With an optimal frequency for every channel the result has that frequency and the impressions
    (those given or the product of reach and frequency) are kept, for paid and organic channels;
    all other tensors stay as they are. *)
Theorem C40_optimal_frequency : forall x d required q filled warned out, well_formed x -> ranked d ->
  validate_and_fill x d required true = Ok (filled, warned) ->
  build_unscaled x (Some d) (Some required) (Some q) false = Ok out ->
  (forall imp, x_n_rf_channels x > 0 ->
     (filled RfImpressions = Some imp \/
      filled RfImpressions = None /\ exists r f, filled Reach = Some r /\ filled Frequency = Some f /\ imp = mul r f) ->
     fits q (last (sh imp) 0) ->
     exists r f, out Reach = Some r /\ out Frequency = Some f /\ sh r = sh imp /\ sh f = sh imp /\
       forall i, index_of i (sh imp) -> freq_at q (last i 0) = Some (el f i) /\
         (el f i <> 0%R -> (el r i * el f i)%R = el imp i)) /\
  (forall r0 f0, x_n_organic_rf_channels x > 0 -> filled OrganicReach = Some r0 -> filled OrganicFrequency = Some f0 ->
     sh r0 = sh f0 -> fits q (last (sh f0) 0) ->
     exists r f, out OrganicReach = Some r /\ out OrganicFrequency = Some f /\ sh r = sh f0 /\ sh f = sh f0 /\
       forall i, index_of i (sh f0) -> freq_at q (last i 0) = Some (el f i) /\
         (el f i <> 0%R -> (el r i * el f i)%R = (el r0 i * el f0 i)%R)) /\
  out RfImpressions = None /\
  (forall g, g <> RfImpressions -> g <> Reach -> g <> Frequency -> g <> OrganicReach -> g <> OrganicFrequency -> out g = filled g).
Proof.
  intros x d required q filled warned out W R Hf H.
  assert (Rf : ranked filled).
  { pose proof (proj1 (fill_steps x d required true _) Hf) as (_ & _ & _ & _ & K). cbn [fst] in K. unfold fill_default_values in K.
    apply data_tensors_iff in K. destruct K as [-> K]. exact K. }
  destruct (two_steps (validate_and_fill x d required true) (fun d => adjust_frequency x d q) (put RfImpressions None) out H) as (r & d1 & Er & Ha & Eo).
  assert (r = (filled, warned)) by congruence. subst r out. cbn [fst] in Ha. clear Er H.
  unfold adjust_frequency in Ha. apply inv_rb in Ha. destruct Ha as (rf & E1 & Ha). apply inv_rb in Ha. destruct Ha as (orf & E2 & Ha).
  assert (Ed : d1 = put Reach (fst rf) (put Frequency (snd rf) (put OrganicReach (fst orf) (put OrganicFrequency (snd orf) filled)))) by congruence.
  clear Ha. subst d1. refine (conj _ (conj _ (conj eq_refl _))).
  - intros imp Nz Himp Fit. rewrite (proj2 (Nat.ltb_lt 0 _) Nz) in E1.
    assert (Ei : match filled RfImpressions with Some i => Some i | None => match filled Reach, filled Frequency with Some r, Some f => Some (mul r f) | _, _ => None end end = Some imp).
    { destruct Himp as [->|(-> & r & f & -> & -> & ->)]; reflexivity. }
    rewrite Ei in E1. assert (Rk : ndim imp > 0).
    { destruct Himp as [K|(_ & r & f & Kr & _ & ->)].
      - apply Rf in K. cbn in K. lia.
      - apply Rf in Kr. change (ndim (mul r f)) with (ndim r). cbn in Kr. lia. }
    destruct (ones_times_fits imp q Rk Fit) as (nf & En & Es & At). rewrite En in E1. cbn [rbind] in E1.
    assert (rf = (Some (div imp nf), Some nf)) by congruence. subst rf. exists (div imp nf), nf.
    refine (conj eq_refl (conj eq_refl (conj Es (conj Es _)))). intros i I. split; [apply At; exact I|]. intros N0.
    rewrite (div_at imp nf i Es Rk I). field. exact N0.
  - intros r0 f0 Nz Er Ef Esh Fit. rewrite (proj2 (Nat.ltb_lt 0 _) Nz), Er, Ef in E2.
    assert (Rk : ndim f0 > 0) by (apply Rf in Ef; cbn in Ef; lia).
    destruct (ones_times_fits f0 q Rk Fit) as (nf & En & Es & At). rewrite En in E2. cbn [rbind] in E2.
    assert (orf = (Some (div (mul r0 f0) nf), Some nf)) by congruence. subst orf. exists (div (mul r0 f0) nf), nf.
    refine (conj eq_refl (conj eq_refl (conj Es (conj Es _)))). intros i I. split; [apply At; exact I|]. intros N0.
    assert (Rm : ndim (mul r0 f0) > 0) by (unfold ndim; cbn; rewrite Esh; exact Rk).
    rewrite (div_at (mul r0 f0) nf i); [|cbn; congruence|exact Rm|cbn; rewrite Esh; exact I]. cbn [el mul]. field. exact N0.
  - intros g N1 N2 N3 N4 N5. unfold put. destruct (field_eq_dec g RfImpressions); [contradiction|]. destruct (field_eq_dec g Reach); [contradiction|].
    destruct (field_eq_dec g Frequency); [contradiction|]. destruct (field_eq_dec g OrganicReach); [contradiction|]. destruct (field_eq_dec g OrganicFrequency); [contradiction|]. reflexivity.
Qed.
Print Assumptions C40_optimal_frequency.

(** Placeholder media replace media and media spend, by ones, and nothing else. *)
Theorem C40_dummy_media : forall x d required filled warned out, well_formed x -> ranked d ->
  validate_and_fill x d required true = Ok (filled, warned) ->
  build_unscaled x (Some d) (Some required) None true = Ok out ->
  (forall g, g <> RfImpressions -> g <> Media -> g <> MediaSpend -> out g = filled g) /\ out RfImpressions = None /\
  (x_n_media_channels x = 0 -> out Media = filled Media /\ out MediaSpend = filled MediaSpend) /\
  (x_n_media_channels x > 0 -> exists m s, out Media = Some m /\ out MediaSpend = Some s /\
     (forall i, el m i = 1%R /\ el s i = 1%R) /\
     ((forall f, unchanged x filled f) ->
        sh m = [x_n_geos x; x_n_media_times x; x_n_media_channels x] /\ sh s = [x_n_geos x; x_n_times x; x_n_media_channels x]) /\
     (forall t, t > 0 -> first_change x filled t -> sh m = [x_n_geos x; t; x_n_media_channels x] /\ sh s = sh m)).
Proof.
  intros x d required filled warned out W R Hf H.
  destruct (two_steps (validate_and_fill x d required true) (fun d => Ok d)
    (fun d => put RfImpressions None (if 0 <? x_n_media_channels x then insert_dummy x d else d)) out H) as (r & d1 & Er & Ha & Eo).
  assert (r = (filled, warned)) by congruence. subst r. cbn [fst] in Ha. assert (d1 = filled) by congruence. subst d1. clear Er H Ha.
  destruct (Nat.ltb_spec 0 (x_n_media_channels x)) as [P|P].
  - subst out. unfold insert_dummy.
    refine (conj _ (conj eq_refl (conj _ _))).
    + intros g N1 N2 N3. unfold put. destruct (field_eq_dec g RfImpressions); [contradiction|]. destruct (field_eq_dec g Media); [contradiction|].
      destruct (field_eq_dec g MediaSpend); [contradiction|]. reflexivity.
    + intros K. lia.
    + intros _. eexists _, _. split; [reflexivity|]. split; [reflexivity|]. split; [intros i; split; reflexivity|]. split.
      * intros U. rewrite (proj2 (modified_times_none x filled) U). split; reflexivity.
      * intros t Pt F. rewrite (proj2 (modified_times_some x filled t) F). destruct t; [lia|]. split; reflexivity.
  - subst out. refine (conj _ (conj eq_refl (conj _ _))).
    + intros g N1 N2 N3. unfold put. destruct (field_eq_dec g RfImpressions); [contradiction|reflexivity].
    + intros _. split; reflexivity.
    + intros K. lia.
Qed.
Print Assumptions C40_dummy_media.

(** *** The filling used by the models of the analyzer (C30 to C37, C57, C58) is this one *)
Definition emb3 (y : T3) : tensor := mkTensor [geos y; times y; chans y] (fun i => val y (nth 0 i 0) (nth 1 i 0) (nth 2 i 0)).
Definition emb2 (y : M_Analyzer.T2) : tensor :=
  mkTensor [M_Analyzer.geos2 y; M_Analyzer.times2 y] (fun i => M_Analyzer.val2 y (nth 0 i 0) (nth 1 i 0)).
Definition emb (d : M_Analyzer.data) (f : field) : option tensor :=
  match f with
  | Media => option_map emb3 (M_Analyzer.d_media d)
  | Reach => option_map emb3 (M_Analyzer.d_reach d)
  | Frequency => option_map emb3 (M_Analyzer.d_frequency d)
  | OrganicMedia => option_map emb3 (M_Analyzer.d_organic_media d)
  | OrganicReach => option_map emb3 (M_Analyzer.d_organic_reach d)
  | OrganicFrequency => option_map emb3 (M_Analyzer.d_organic_frequency d)
  | NonMediaTreatments => option_map emb3 (M_Analyzer.d_non_media d)
  | Controls => option_map emb3 (M_Analyzer.d_controls d)
  | RevenuePerKpi => option_map emb2 (M_Analyzer.d_revenue_per_kpi d)
  | _ => None
  end.
(** constants.py:107-114 with tensors.py:1197-1201. *)
Definition analyzer_fields (non_paid controls : bool) : list field :=
  [Media; Reach; Frequency; RevenuePerKpi] ++
  (if non_paid then [OrganicMedia; OrganicReach; OrganicFrequency; NonMediaTreatments] else []) ++
  (if controls then [Controls] else []).
Theorem C40_analyzer_fill : forall x (m : M_Analyzer.model) (d : M_Analyzer.data) non_paid controls out warned,
  well_formed x -> (forall f, f <> MediaSpend -> f <> RfSpend -> f <> Time -> x_input x f = emb (M_Analyzer.x_data m) f) ->
  validate_and_fill x (emb d) (analyzer_fields non_paid controls) true = Ok (out, warned) ->
  forall f, out f = emb (M_Analyzer.fill_missing m d non_paid controls) f.
Proof.
  intros x m d np ct out warned W Em H f.
  assert (R : ranked (emb d)).
  { intros g n E. destruct g; cbn in E; try discriminate; match type of E with option_map _ ?o = _ => destruct o end; cbn in E; try discriminate;
      injection E as <-; cbn; tauto. }
  destruct (C40_filled x (emb d) _ true out warned W R H) as (A & B & C & _).
  assert (Ow : forall g, g <> MediaSpend -> g <> RfSpend -> g <> Time -> g <> RfImpressions -> own x g = emb (M_Analyzer.x_data m) g).
  { intros g N1 N2 N3 N4. rewrite <- Em by assumption. destruct g; reflexivity || congruence. }
  destruct (in_dec field_eq_dec f (analyzer_fields np ct)) as [I|I].
  - rewrite (A f I). rewrite Ow.
    + destruct f; destruct np, ct; try (exfalso; cbn in I; intuition congruence);
        unfold M_Analyzer.fill_missing; cbn -[emb3 emb2];
        match goal with |- context [option_map _ (M_Analyzer.orelse ?a _)] => destruct a; reflexivity end.
    + intros ->; destruct np, ct; cbn in I; intuition congruence.
    + intros ->; destruct np, ct; cbn in I; intuition congruence.
    + intros ->; destruct np, ct; cbn in I; intuition congruence.
    + intros ->; destruct np, ct; cbn in I; intuition congruence.
  - destruct (field_eq_dec f Time) as [->|Nt]; [rewrite C by exact I; reflexivity|]. rewrite (B f I Nt).
    destruct f; destruct np, ct; try reflexivity; exfalso; apply I; cbn; tauto.
Qed.
Print Assumptions C40_analyzer_fill.

(** *** A concrete model and concrete data *)
Definition ex_tensor (s : list nat) (v : R) : tensor := mkTensor s (fun _ => v).
(** Two geos, three periods (four with media), one media and two RF channels. *)
Definition ex_context : context :=
  mkContext (fun f => match f with
    | Media => Some (ex_tensor [2; 4; 1] 1) | MediaSpend => Some (ex_tensor [1] 2)
    | Reach => Some (ex_tensor [2; 4; 2] 3) | Frequency => Some (ex_tensor [2; 4; 2] 4)
    | RfSpend => Some (ex_tensor [2; 3; 2] 5) | RevenuePerKpi => Some (ex_tensor [2; 3] 6)
    | Time => Some (ex_tensor [3] 7) | OrganicMedia => Some (ex_tensor [2; 4; 1] 8) | _ => None end)
    2 3 4 1 2 0.
Lemma ex_well_formed : well_formed ex_context.
Proof.
  refine (conj _ (conj _ (conj _ (conj _ eq_refl)))).
  - intros f o E. destruct f; cbn in E; try discriminate; injection E as <-; cbn; (split; [tauto|intros K; try (split; reflexivity); cbn in K; lia]).
  - eexists. split; reflexivity.
  - cbn. split; discriminate.
  - cbn. split; discriminate.
Qed.
Definition ex_data : data := fun f => match f with
  | Media => Some (ex_tensor [2; 5; 1] 10) | Reach => Some (ex_tensor [2; 5; 2] 11) | Frequency => Some (ex_tensor [2; 5; 2] 12)
  | RevenuePerKpi => Some (ex_tensor [2; 5] 13) | Controls => Some (ex_tensor [2; 3; 1] 14) | _ => None end.
Example C40_example_modified : ranked ex_data /\
  exists out, validate_and_fill ex_context ex_data [Media; Reach; Frequency; RevenuePerKpi] true = Ok (out, [Controls]) /\
    out Media = ex_data Media /\ out OrganicMedia = None.
Proof.
  split; [intros f n E; destruct f; cbn in E; try discriminate; injection E as <-; cbn; tauto|].
  eexists. split; [reflexivity|]. split; reflexivity.
Qed.
Example C40_example_defaults :
  exists out, validate_and_fill ex_context (fun f => match f with Reach => Some (ex_tensor [2; 4; 2] 9) | _ => None end)
      [Media; Reach; Frequency; RfImpressions] true = Ok (out, []) /\
    out Reach = Some (ex_tensor [2; 4; 2] 9) /\ out Frequency = Some (ex_tensor [2; 4; 2] 4) /\
    (exists o, build_unscaled ex_context (Some (fun f => match f with Reach => Some (ex_tensor [2; 4; 2] 9) | _ => None end))
       (Some [Media; Reach; Frequency]) (Some (FVector [2%R; 3%R])) true = Ok o).
Proof. eexists. split; [reflexivity|]. split; [reflexivity|]. split; [reflexivity|]. eexists. reflexivity. Qed.
(** Missing and wrong tensors are refused. *)
Example C40_example_refused :
  validate_and_fill ex_context (fun f => match f with Media => Some (ex_tensor [2; 5; 1] 9) | _ => None end) [Media; Reach] true = Err ValueError /\
  validate_and_fill ex_context (fun f => match f with Media => Some (ex_tensor [3; 4; 1] 9) | _ => None end) [Media] true = Err ValueError /\
  validate_and_fill ex_context (fun f => match f with OrganicReach => Some (ex_tensor [2; 4; 1] 9) | _ => None end) [OrganicReach] true = Err ValueError.
Proof. repeat split; reflexivity. Qed.

(** Refuted: the given tensors agree on the number of periods.  A time of any length is accepted
    as long as no other tensor changes the number of periods ... *)
Theorem C40_time_length_refuted : forall k, exists out,
  validate_and_fill ex_context (fun f => match f with Time => Some (ex_tensor [k] 9) | _ => None end) [Media; RevenuePerKpi; Time] true = Ok (out, []) /\
  out Time = Some (ex_tensor [k] 9) /\ out RevenuePerKpi = Some (ex_tensor [2; 3] 6).
Proof.
  intros k. eexists. split; [|].
  - unfold validate_and_fill. cbn. rewrite !andb_false_r. reflexivity.
  - split; reflexivity.
Qed.
Print Assumptions C40_time_length_refuted.
(** ... and so is a spend by geo and period if the model's own spend is by channel only. *)
Theorem C40_spend_length_refuted : forall k, exists out,
  validate_and_fill ex_context (fun f => match f with MediaSpend => Some (ex_tensor [2; k; 1] 9) | _ => None end) [Media; MediaSpend] true = Ok (out, []) /\
  out MediaSpend = Some (ex_tensor [2; k; 1] 9) /\ out Media = Some (ex_tensor [2; 4; 1] 1).
Proof. intros k. eexists. split; [reflexivity|split; reflexivity]. Qed.
Print Assumptions C40_spend_length_refuted.
(** Refuted: a tensor reported as ignored is ignored.  Unused organic media of another length make
    the call fail. *)
Theorem C40_ignored_tensor_matters_refuted :
  validate_variables ex_context (fun f => match f with OrganicMedia => Some (ex_tensor [2; 5; 1] 9) | _ => None end) [Media] fields = Ok [OrganicMedia] /\
  validate_and_fill ex_context (fun f => match f with OrganicMedia => Some (ex_tensor [2; 5; 1] 9) | _ => None end) [Media] true = Err ValueError /\
  exists out, validate_and_fill ex_context no_data [Media] true = Ok (out, []).
Proof. split; [reflexivity|]. split; [reflexivity|]. eexists. reflexivity. Qed.
Print Assumptions C40_ignored_tensor_matters_refuted.
(** Refuted: wrong lengths are reported as a [ValueError].  A time that does not match the new
    number of periods, and a spend by geo and period where the model has one by channel and times
    may not change, are an [IndexError]. *)
Theorem C40_error_kind_refuted :
  validate_and_fill ex_context (fun f => match f with Media => Some (ex_tensor [2; 5; 1] 9) | Time => Some (ex_tensor [6] 9) | _ => None end) [Media; Time] true = Err IndexError /\
  validate_and_fill ex_context (fun f => match f with MediaSpend => Some (ex_tensor [2; 3; 1] 9) | _ => None end) [MediaSpend] false = Err IndexError.
Proof. split; reflexivity. Qed.
Print Assumptions C40_error_kind_refuted.
