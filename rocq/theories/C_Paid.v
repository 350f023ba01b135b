(** Property C58, continued: the incremental outcome of the paid channels on new data. *)
From Coq Require Import Reals ZArith Lia Lra String List Bool Arith.
From Verif Require Import Lib_Sum M_Base M_AdstockHill M_Equations M_Transformers M_Aggregate
  S_Aggregate S_Adstock S_Media S_Analyzer M_Analyzer S_Predictor S_Paid P_Paid C_Predictor.
Import ListNotations.
Local Open Scope R_scope.

(** With new media, reach, frequency or revenue per KPI of the historical shape, the incremental
    outcome of a paid channel is the difference of its own term of the predictor on these data
    (the scaling and the parameters stay those of the fitted model). *)
Theorem C58_paid_channels : forall x nd o bs draws,
  well_formed x -> paid_data_ok x nd -> paid_request x o bs draws ->
  paid_nonneg x nd -> transformers_ok x ->
  exists I, incremental_outcome x nd o bs draws = Ok I /\ length I = length draws /\
    forall k w0 z, (k < length draws)%nat ->
      shape (nth k I z) = (if o_aggregate_geos o then [] else [length (chosen_geos x (o_selected_geos o))])
              ++ (if o_aggregate_times o then [] else [length (chosen_times x (o_selected_times o))])
              ++ [n_paid x] /\
      forall ch i j, is_paid x ch ->
        (o_aggregate_geos o = false -> (i < length (chosen_geos x (o_selected_geos o)))%nat) ->
        (o_aggregate_times o = false -> (j < length (chosen_times x (o_selected_times o)))%nat) ->
        at_ (nth k I z) (position (o_aggregate_geos o) i ++ position (o_aggregate_times o) j
                         ++ [channel_index x ch])
        = total (members (chosen_geos x (o_selected_geos o)) (o_aggregate_geos o) i) (fun g =>
          total (members (chosen_times x (o_selected_times o)) (o_aggregate_times o) j) (fun t =>
            outcome_per_unit (paid_model x nd) (o_inverse o) (o_use_kpi o) g t
            * (paid_term x nd (nth k draws w0) ch (o_scaling_factor1 o) (o_media_selected_times o) (o_by_reach o) g t
               - paid_term x nd (nth k draws w0) ch (o_scaling_factor0 o) (o_media_selected_times o) (o_by_reach o) g t))).
Proof. exact paid_documented. Qed.
Print Assumptions C58_paid_channels.

(** New media and revenue per KPI for the model with every kind of treatment. *)
Definition ex_paid : data :=
  mkData (Some (mkT3 2 3 2 (fun _ t _ => INR t))) None None None None None None None
    (Some (mkT2 2 2 (fun _ t => 1 + INR t))).
Definition ex_paid_options : options :=
  mkOptions 0 1 (Some ["b"]%string) (Some (TBools [false; true])) None false true true false true false None.
Example C58_paid_example : paid_data_ok ex_rich ex_paid /\ paid_nonneg ex_rich ex_paid /\
  paid_request ex_rich ex_paid_options 10 [ex_rich_draw; ex_rich_draw].
Proof.
  assert (D : draw_ok ex_rich ex_rich_draw) by exact (proj1 (proj2 C58_example)).
  split; [unfold paid_data_ok, fits, fits2, same_shape; cbn; tauto|].
  split.
  { unfold paid_nonneg, nonneg, given. cbn. repeat split; intros; try apply pos_INR.
    all: try (pose proof (pos_INR t); lra). }
  constructor; cbn; auto; try lia; try lra; try congruence.
Qed.
