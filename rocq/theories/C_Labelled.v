(** C90: labelled incremental outcomes carry the labels of what they hold. *)
From Coq Require Import String Reals ZArith List Bool Arith Lia Lra.
From Verif Require Import Lib_Sum M_Base M_AdstockHill M_Equations M_Transformers M_Aggregate S_Aggregate S_Adstock S_Media
  S_Analyzer M_Analyzer S_Predictor S_Paid P_AnalyzerIO P_Predictor P_Paid M_Summary S_Summary C_Predictor C_Paid.
From Verif Require Import M_ArgBuilder M_ChannelMaps M_Labelled S_Labelled P_Labelled.
Import ListNotations.
Local Open Scope R_scope.
Local Open Scope list_scope.

(** Every valid request succeeds; the geos and periods of the array are labelled with the names of
    the selected ones, in the order of the data, each channel with its name, and the entry of a
    channel is the documented incremental outcome of that channel, geo and period. *)
Theorem C90_labels : forall x d new_time o bs draws b,
  well_formed x -> valid_request x o bs draws -> names_ok x d ->
  (forall c, (c < n_chans (d_non_media (x_data x)))%nat -> is_baseline_value x (o_baseline_values o) c (b c)) ->
  media_nonneg x (x_data x) -> transformers_ok x ->
  exists r, incremental_outcome_xr x d no_data new_time o bs draws = Ok r /\
    lb_geo r = (if o_aggregate_geos o then None else Some (geo_names x (o_selected_geos o))) /\
    lb_time r = (if o_aggregate_times o then None else Some (period_names x (o_selected_times o))) /\
    length (lb_channel r) = (n_chans (d_media (x_data x)) + n_chans (d_reach (x_data x)) + n_chans (d_non_media (x_data x))
       + n_chans (d_organic_media (x_data x)) + n_chans (d_organic_reach (x_data x)))%nat /\
    length (lb_values r) = length draws /\
    forall ch, is_channel x ch ->
      (exists name, channel_name d ch = Some name /\ nth_error (lb_channel r) (channel_index x ch) = Some name) /\
      forall k w0 z i j, (k < length draws)%nat ->
        (o_aggregate_geos o = false -> (i < length (chosen_geos x (o_selected_geos o)))%nat) ->
        (o_aggregate_times o = false -> (j < length (chosen_times x (o_selected_times o)))%nat) ->
        at_ (nth k (lb_values r) z) (position (o_aggregate_geos o) i ++ position (o_aggregate_times o) j
                         ++ [channel_index x ch])
        = total (members (chosen_geos x (o_selected_geos o)) (o_aggregate_geos o) i) (fun g =>
          total (members (chosen_times x (o_selected_times o)) (o_aggregate_times o) j) (fun t =>
            outcome_per_unit x (o_inverse o) (o_use_kpi o) g t
            * (channel_term x (treatment x ch (o_scaling_factor1 o) (o_media_selected_times o) (o_by_reach o) None)
                 (nth k draws w0) ch g t
               - channel_term x (treatment x ch (o_scaling_factor0 o) (o_media_selected_times o) (o_by_reach o)
                   (Some (match ch with ChNonMedia c => b c | _ => 0 end)))
                   (nth k draws w0) ch g t))).
Proof.
  intros x d nt o bs draws b W V N Hb Hpos Htr.
  destruct (request_runs x o bs draws W V) as [I HI].
  pose proof (incremental_inv x o bs draws I (vr_paid _ _ _ _ V) HI) as (_ & LI & _).
  assert (Hk0 : (0 < length draws)%nat).
  { pose proof (vr_some _ _ _ _ V). destruct draws; [congruence|cbn; lia]. }
  pose proof (incremental_shape x o bs draws I 0 (mkTensor [] (fun _ => 0)) W (vr_draws _ _ _ _ V) (vr_geos _ _ _ _ V)
    (vr_times _ _ _ _ V) (vr_paid _ _ _ _ V) HI Hk0) as HS.
  set (channels := (listed (cn_media (nd_channels d)) ++ listed (cn_rf (nd_channels d)))
    ++ listed (cn_organic_media (nd_channels d)) ++ listed (cn_organic_rf (nd_channels d)) ++ listed (nd_non_media d)).
  assert (HL : length channels = n_all x).
  { destruct N as (N1 & N2 & N3 & N4 & N5). apply fits_length in N1, N2, N3, N4, N5.
    unfold channels, n_all. rewrite !app_length. lia. }
  assert (HC : (if o_include_non_paid o then get_all_channels d else all_paid (nd_channels d)) = Ok channels).
  { rewrite (vr_paid _ _ _ _ V). apply (all_names x d W N). }
  assert (Hne : I <> []) by (intros ->; cbn in LI; lia).
  eexists. split; [exact (xr_runs x d no_data nt o bs draws I _ channels W (vr_times _ _ _ _ V) HI Hne HS HC HL)|].
  cbn [lb_geo lb_time lb_channel lb_values]. split; [reflexivity|]. split; [reflexivity|]. split; [exact HL|]. split; [exact LI|].
  intros ch Hch. split; [exact (name_lookup x d ch W N Hch)|].
  destruct (channel_documented x o bs draws ch (match ch with ChNonMedia c => b c | _ => 0 end) W V Hch) as (I' & HI' & _ & D).
  { intros c ->. apply Hb. exact Hch. }
  { exact Hpos. } { exact Htr. }
  assert (I' = I) by congruence. subst I'. intros k w0 z i j Hk Hi Hj. exact (proj2 (D k w0 z Hk) i j Hi Hj).
Qed.
Print Assumptions C90_labels.

(** Read by label: with distinct names of geos and periods, the entry under the labels of a geo, a
    period and a channel is that of this geo, period and channel. *)
Theorem C90_by_label : forall x d new_time o bs draws b,
  well_formed x -> valid_request x o bs draws -> names_ok x d ->
  (forall c, (c < n_chans (d_non_media (x_data x)))%nat -> is_baseline_value x (o_baseline_values o) c (b c)) ->
  media_nonneg x (x_data x) -> transformers_ok x ->
  o_aggregate_geos o = false -> o_aggregate_times o = false -> NoDup (x_geo x) -> NoDup (x_time x) ->
  exists r geo time, incremental_outcome_xr x d no_data new_time o bs draws = Ok r /\
    lb_dims r = ["geo"; "time"; "channel"]%string /\ lb_geo r = Some geo /\ lb_time r = Some time /\
    forall k w0 z i j g t ch, (k < length draws)%nat -> is_channel x ch ->
      (g < x_n_geos x)%nat -> (t < x_n_times x)%nat ->
      nth_error geo i = nth_error (x_geo x) g -> nth_error time j = nth_error (x_time x) t ->
      at_ (nth k (lb_values r) z) [i; j; channel_index x ch]
      = outcome_per_unit x (o_inverse o) (o_use_kpi o) g t
            * (channel_term x (treatment x ch (o_scaling_factor1 o) (o_media_selected_times o) (o_by_reach o) None)
                 (nth k draws w0) ch g t
               - channel_term x (treatment x ch (o_scaling_factor0 o) (o_media_selected_times o) (o_by_reach o)
                   (Some (match ch with ChNonMedia c => b c | _ => 0 end)))
                   (nth k draws w0) ch g t).
Proof.
  intros x d nt o bs draws b W V N Hb Hpos Htr Eg Et NG NT.
  destruct (C90_labels x d nt o bs draws b W V N Hb Hpos Htr) as (r & Hr & G & T & _ & _ & D).
  rewrite Eg in *. rewrite Et in *. exists r, (geo_names x (o_selected_geos o)), (period_names x (o_selected_times o)).
  split; [exact Hr|]. split.
  { unfold incremental_outcome_xr in Hr. destruct (incremental_outcome _ _ _ _ _) as [I|]; [|discriminate]. cbn [rbind] in Hr.
    destruct (if o_include_non_paid o then _ else _) as [cs|]; [|discriminate]. cbn [rbind] in Hr.
    destruct (negb _); [discriminate|]. cbn [raise_if] in Hr. injection Hr as <-. cbn [lb_dims]. unfold xr_dims. rewrite Eg, Et. reflexivity. }
  split; [exact G|]. split; [exact T|]. intros k w0 z i j g t ch Hk Hch Hg Ht Li Lj.
  assert (K : forall (names : list string) chosen i g, NoDup names -> (forall p, In p chosen -> (p < length names)%nat) ->
     (g < length names)%nat -> nth_error (map (fun p => nth p names ""%string) chosen) i = nth_error names g ->
     (i < length chosen)%nat /\ nth i chosen 0%nat = g).
  { intros names chosen i' g' ND R Hg' E. assert (Hi : (i' < length chosen)%nat).
    { rewrite <- (map_length (fun p => nth p names ""%string)). apply nth_error_Some. rewrite E. apply nth_error_Some. exact Hg'. }
    split; [exact Hi|]. rewrite (map_nth_error (fun p => nth p names ""%string) i' chosen (nth_error_nth' chosen 0%nat Hi)) in E.
    rewrite (nth_error_nth' names ""%string Hg') in E. injection E as E.
    apply (proj1 (NoDup_nth names ""%string) ND); [apply R; apply nth_In; exact Hi|exact Hg'|exact E]. }
  assert (Rg : forall p, In p (chosen_geos x (o_selected_geos o)) -> (p < length (x_geo x))%nat).
  { intros p. unfold chosen_geos, x_n_geos. destruct (o_selected_geos o); [intros H; apply filter_In in H; destruct H as [H _]|intros H];
      apply in_seq in H; lia. }
  pose proof (wf_time x W) as WT.
  assert (Rt : forall p, In p (chosen_times x (o_selected_times o)) -> (p < length (x_time x))%nat).
  { intros p. rewrite WT. unfold chosen_times. destruct (o_selected_times o) as [[l|l]|];
      [intros H; apply filter_In in H; destruct H as [H _]|intros H; apply filter_In in H; destruct H as [H _]|intros H]; apply in_seq in H; lia. }
  destruct (K (x_geo x) (chosen_geos x (o_selected_geos o)) i g NG Rg Hg Li) as [Hi Ei].
  assert (Ht' : (t < length (x_time x))%nat) by (rewrite WT; exact Ht).
  destruct (K (x_time x) (chosen_times x (o_selected_times o)) j t NT Rt Ht' Lj) as [Hj Ej].
  destruct (D ch Hch) as [_ DV]. pose proof (DV k w0 z i j Hk (fun _ => Hi) (fun _ => Hj)) as E.
  unfold position, members in E. cbn [app] in E. rewrite E. unfold total. rewrite Ei, Ej. cbn [lsum map].
  rewrite ?Rplus_0_r. reflexivity.
Qed.
Print Assumptions C90_by_label.

(** The paid channels alone, on new media data of the historical length. *)
Theorem C90_paid : forall x d nd new_time o bs draws,
  well_formed x -> paid_data_ok x nd -> paid_request x o bs draws -> names_ok x d ->
  paid_nonneg x nd -> transformers_ok x ->
  exists r, incremental_outcome_xr x d nd new_time o bs draws = Ok r /\
    lb_geo r = (if o_aggregate_geos o then None else Some (geo_names x (o_selected_geos o))) /\
    lb_time r = (if o_aggregate_times o then None else Some (period_names x (o_selected_times o))) /\
    length (lb_channel r) = n_paid x /\ length (lb_values r) = length draws /\
    forall ch, is_paid x ch ->
      (exists name, channel_name d ch = Some name /\ nth_error (lb_channel r) (channel_index x ch) = Some name) /\
      forall k w0 z i j, (k < length draws)%nat ->
        (o_aggregate_geos o = false -> (i < length (chosen_geos x (o_selected_geos o)))%nat) ->
        (o_aggregate_times o = false -> (j < length (chosen_times x (o_selected_times o)))%nat) ->
        at_ (nth k (lb_values r) z) (position (o_aggregate_geos o) i ++ position (o_aggregate_times o) j
                         ++ [channel_index x ch])
        = total (members (chosen_geos x (o_selected_geos o)) (o_aggregate_geos o) i) (fun g =>
          total (members (chosen_times x (o_selected_times o)) (o_aggregate_times o) j) (fun t =>
            outcome_per_unit (paid_model x nd) (o_inverse o) (o_use_kpi o) g t
            * (paid_term x nd (nth k draws w0) ch (o_scaling_factor1 o) (o_media_selected_times o) (o_by_reach o) g t
               - paid_term x nd (nth k draws w0) ch (o_scaling_factor0 o) (o_media_selected_times o) (o_by_reach o) g t))).
Proof.
  intros x d nd nt o bs draws W P V N Hpos Htr.
  destruct (paid_documented x nd o bs draws W P V Hpos Htr) as (I & HI & LI & D).
  assert (Hk0 : (0 < length draws)%nat).
  { pose proof (pr_some _ _ _ _ V). destruct draws; [congruence|cbn; lia]. }
  assert (HS := fun w0 => proj1 (D 0%nat w0 (mkTensor [] (fun _ => 0)) Hk0)).
  assert (w0 : draw) by (destruct draws as [|w ?]; [cbn in Hk0; lia|exact w]).
  set (channels := listed (cn_media (nd_channels d)) ++ listed (cn_rf (nd_channels d))).
  assert (HL : length channels = n_paid x).
  { destruct N as (N1 & N2 & _). apply fits_length in N1, N2. unfold channels, n_paid. rewrite app_length. lia. }
  assert (HC : (if o_include_non_paid o then get_all_channels d else all_paid (nd_channels d)) = Ok channels).
  { rewrite (pr_paid _ _ _ _ V). apply (paid_names x d W N). }
  assert (Hne : I <> []) by (intros ->; cbn in LI; lia).
  eexists. split; [exact (xr_runs x d nd nt o bs draws I _ channels W (pr_times _ _ _ _ V) HI Hne (HS w0) HC HL)|].
  cbn [lb_geo lb_time lb_channel lb_values]. split; [reflexivity|]. split; [reflexivity|]. split; [exact HL|]. split; [exact LI|].
  intros ch Hch. split.
  { assert (Hc : is_channel x ch) by (destruct ch; cbn in Hch |- *; try contradiction; exact Hch).
    destruct (name_lookup x d ch W N Hc) as (name & E1 & E2). exists name. split; [exact E1|].
    rewrite nth_error_app1 in E2; [exact E2|]. fold channels. rewrite HL. unfold n_paid. destruct ch; cbn in Hch |- *; try contradiction; lia. }
  intros k w z i j Hk Hi Hj. exact (proj2 (D k w z Hk) ch i j Hch Hi Hj).
Qed.
Print Assumptions C90_paid.

(** The dates of new data of the historical length are not used: the array is labelled with the
    dates of the model. *)
Definition ex_channel_names : name_data :=
  mkNameData (mkNames (Some ["tv"; "radio"]%string) (Some ["video"]%string) (Some ["blog"]%string) (Some ["mail"]%string))
    (Some ["price"]%string) (Some ["gqv"]%string).
Definition ex_unselected : options := mkOptions 0 1 None None None false false true false true false None.
Example C90_example : names_ok ex_rich ex_channel_names /\ paid_request ex_rich ex_unselected 10 [ex_rich_draw] /\
  well_formed ex_rich /\ paid_data_ok ex_rich ex_paid /\ paid_nonneg ex_rich ex_paid /\ transformers_ok ex_rich.
Proof.
  destruct C58_example as (W & D & _ & _ & _ & T & _). destruct C58_paid_example as (P & Q & _).
  split; [unfold names_ok, fits_names; cbn; auto|].
  split; [constructor; cbn; auto; try lia; try lra; try congruence|]. auto.
Qed.
Theorem C90_new_dates_refuted : exists x d nd dates o bs draws r,
  well_formed x /\ paid_data_ok x nd /\ paid_request x o bs draws /\ names_ok x d /\
  length dates = x_n_times x /\ NoDup dates /\ (forall t, In t dates -> ~ In t (x_time x)) /\
  incremental_outcome_xr x d nd (Some dates) o bs draws = Ok r /\ lb_time r = Some (x_time x).
Proof.
  destruct C90_example as (N & V & W & P & Q & T).
  destruct (C90_paid ex_rich ex_channel_names ex_paid (Some ["2025-01-06"; "2025-01-13"]%string) ex_unselected 10 [ex_rich_draw] W P V N Q T)
    as (r & Hr & _ & E & _).
  exists ex_rich, ex_channel_names, ex_paid, ["2025-01-06"; "2025-01-13"]%string, ex_unselected, 10%Z, [ex_rich_draw], r.
  split; [exact W|]. split; [exact P|]. split; [exact V|]. split; [exact N|]. split; [reflexivity|].
  split; [repeat constructor; cbn; intuition discriminate|]. split; [cbn; intuition congruence|]. split; [exact Hr|].
  rewrite E. reflexivity.
Qed.
Print Assumptions C90_new_dates_refuted.
