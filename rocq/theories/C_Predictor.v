(** Property C58: what the expected and incremental outcomes are, from the data and the draws. *)
From Coq Require Import Reals ZArith Lia Lra String List Bool Arith.
From Verif Require Import Lib_Sum M_Base M_AdstockHill M_Equations M_Transformers M_Aggregate
  S_Aggregate S_Adstock S_Media M_Analyzer S_Analyzer S_Predictor P_Predictor C_Analyzer.
Import ListNotations.
Local Open Scope R_scope.

(** ** C58: the expected outcome is the linear predictor of the documentation, in the units
    asked for, for the geos and periods asked for. *)
Theorem C58_expected_outcome : forall x nd gs ts ag at' inv uk bs draws,
  well_formed x -> Forall (draw_ok x) draws -> draws <> [] -> (0 < bs)%Z ->
  geos_ok x gs -> times_ok x ts -> (inv = true \/ outcome_is_kpi x uk = true) ->
  new_data_ok x nd -> media_nonneg x nd -> transformers_ok x ->
  exists E, expected_outcome x nd gs ts ag at' inv uk bs draws = Ok E /\
    length E = length draws /\
    forall k w0 z, (k < length draws)%nat ->
      shape (nth k E z) = (if ag then [] else [length (chosen_geos x gs)])
                          ++ (if at' then [] else [length (chosen_times x ts)]) /\
      forall i j, (ag = false -> (i < length (chosen_geos x gs))%nat) ->
        (at' = false -> (j < length (chosen_times x ts))%nat) ->
        at_ (nth k E z) (position ag i ++ position at' j)
        = total (members (chosen_geos x gs) ag i) (fun g =>
          total (members (chosen_times x ts) at' j) (fun t =>
            outcome_in_units x inv uk g t (predictor x nd (nth k draws w0) g t))).
Proof. exact expected_documented. Qed.
Print Assumptions C58_expected_outcome.

(** The incremental outcome of a channel: its own term of the predictor under the two
    treatments, in outcome units. *)
Theorem C58_incremental_outcome : forall x o bs draws ch bv,
  well_formed x -> valid_request x o bs draws -> is_channel x ch ->
  (forall c, ch = ChNonMedia c -> is_baseline_value x (o_baseline_values o) c bv) ->
  media_nonneg x (x_data x) -> transformers_ok x ->
  exists I, incremental_outcome x no_data o bs draws = Ok I /\ length I = length draws /\
    forall k w0 z, (k < length draws)%nat ->
      (exists C, (channel_index x ch < C)%nat /\
         shape (nth k I z) = (if o_aggregate_geos o then [] else [length (chosen_geos x (o_selected_geos o))])
                 ++ (if o_aggregate_times o then [] else [length (chosen_times x (o_selected_times o))])
                 ++ [C]) /\
      forall i j, (o_aggregate_geos o = false -> (i < length (chosen_geos x (o_selected_geos o)))%nat) ->
        (o_aggregate_times o = false -> (j < length (chosen_times x (o_selected_times o)))%nat) ->
        at_ (nth k I z) (position (o_aggregate_geos o) i ++ position (o_aggregate_times o) j
                         ++ [channel_index x ch])
        = total (members (chosen_geos x (o_selected_geos o)) (o_aggregate_geos o) i) (fun g =>
          total (members (chosen_times x (o_selected_times o)) (o_aggregate_times o) j) (fun t =>
            outcome_per_unit x (o_inverse o) (o_use_kpi o) g t
            * (channel_term x (treatment x ch (o_scaling_factor1 o) (o_media_selected_times o) (o_by_reach o) None)
                 (nth k draws w0) ch g t
               - channel_term x (treatment x ch (o_scaling_factor0 o) (o_media_selected_times o) (o_by_reach o) (Some bv))
                   (nth k draws w0) ch g t))).
Proof. exact channel_documented. Qed.
Print Assumptions C58_incremental_outcome.

(** Refused: a counterfactual that is not a reduction, and revenue without transforming the
    KPI back. *)
Theorem C58_scaling_factors_checked : forall x nd o bs draws I,
  incremental_outcome x nd o bs draws = Ok I -> 0 <= o_scaling_factor0 o < o_scaling_factor1 o.
Proof. exact scaling_refused. Qed.
Print Assumptions C58_scaling_factors_checked.

Theorem C58_units_checked : forall x nd o bs draws I, well_formed x ->
  incremental_outcome x nd o bs draws = Ok I ->
  o_inverse o = true \/ outcome_is_kpi x (o_use_kpi o) = true.
Proof. exact units_refused. Qed.
Print Assumptions C58_units_checked.

Theorem C58_expected_units_checked : forall x nd gs ts ag at' inv uk bs draws E, well_formed x ->
  expected_outcome x nd gs ts ag at' inv uk bs draws = Ok E ->
  inv = true \/ outcome_is_kpi x uk = true.
Proof. exact expected_units_refused. Qed.
Print Assumptions C58_expected_units_checked.

(** A model with every kind of treatment meets the hypotheses. *)
Definition ex_rich : model :=
  mkModel (mkCtx 3 2 2 false) ["a"; "b"]%string ["2024-01-01"; "2024-01-08"]%string (fun g => 1 + INR g)
    (mkT2 2 2 (fun g t => INR (g + 2 * t)))
    (mkData (Some ex_media) (Some ex_reach) (Some ex_freq) (Some ex_reach) (Some ex_reach) (Some ex_freq)
       (Some ex_price) (Some ex_price) (Some (mkT2 2 2 (fun _ _ => 3))))
    (DOne Geometric) (DOne Binomial) (DOne Binomial) (DOne Geometric)
    (SSeq [Hill; NoSat]) (SOne Hill) (SOne Hill) (SOne Hill)
    (Some ex_factor) (Some ex_factor) (Some ex_factor) (Some ex_factor) None None None false.
Definition ex_rich_draw : draw :=
  mkDraw (fun _ => 1) (fun _ => 2) (ex_params 2) (ex_params 1) (ex_params 1) (ex_params 1)
    (fun _ c => 1 + INR c) (fun _ _ => 1) (fun _ _ => 4) (fun _ _ => 5) (fun _ _ => 6) (fun _ _ => 2).
Definition ex_new : data :=
  mkData (Some (mkT3 2 3 2 (fun _ _ _ => 7))) None (Some (mkT3 2 3 1 (fun _ _ _ => 2))) None None None
    (Some (mkT3 2 2 1 (fun _ _ _ => 3))) None None.
Lemma ex_media_nonneg : forall g t c, 0 <= val ex_media g t c.
Proof. intros. cbn. apply pos_INR. Qed.
Example C58_example : well_formed ex_rich /\ draw_ok ex_rich ex_rich_draw /\ new_data_ok ex_rich ex_new /\
  media_nonneg ex_rich ex_new /\ media_nonneg ex_rich (x_data ex_rich) /\ transformers_ok ex_rich /\
  outcome_is_kpi ex_rich true = true /\ outcome_is_kpi ex_rich false = false /\
  chosen_geos ex_rich (Some ["b"]%string) = [1%nat] /\
  chosen_times ex_rich (Some (TBools [false; true])) = [1%nat].
Proof.
  assert (F : forall t, 0 <= 1 + INR t) by (intros t; pose proof (pos_INR t); lra).
  split.
  { constructor; cbn; auto; try lia; try (split; reflexivity).
    - left. discriminate.
    - unfold kind_ok, decay_ok, sat_ok, recognised. cbn.
      repeat split; try discriminate; try tauto. repeat constructor; discriminate. }
  split.
  { unfold draw_ok. cbn.
    refine (conj _ (conj _ (conj _ (conj _ (conj _ (conj _ (conj _ _)))))));
      try congruence; apply ex_params_ok. }
  split; [unfold new_data_ok, fits, same_shape; cbn; tauto|].
  split; [unfold media_nonneg; cbn; repeat split; intros; try lra; try apply pos_INR; auto|].
  split; [unfold media_nonneg; cbn; repeat split; intros; try apply pos_INR; auto|].
  split; [unfold transformers_ok, factors_pos; cbn; repeat split; intros; lra|].
  repeat split.
Qed.
