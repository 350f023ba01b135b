(** Specification vocabulary for analyses of the paid channels on new data. *)
From Coq Require Import Reals ZArith String List Bool Arith.
From Verif Require Import Lib_Sum M_Base M_AdstockHill M_Equations M_Transformers M_Aggregate
  S_Aggregate S_Adstock S_Media S_Analyzer M_Analyzer S_Predictor.
Import ListNotations.
Local Open Scope R_scope.

(** New data of the paid channels, of the dimensions of the historical data. *)
Definition fits2 (y y0 : option T2) : Prop :=
  match y, y0 with
  | None, _ => True
  | Some a, Some b => geos2 a = geos2 b /\ times2 a = times2 b
  | Some _, None => False
  end.
Definition paid_data_ok (x : model) (nd : data) : Prop :=
  let o := x_data x in
  fits (d_media nd) (d_media o) /\ fits (d_reach nd) (d_reach o) /\
  fits (d_frequency nd) (d_frequency o) /\ fits2 (d_revenue_per_kpi nd) (d_revenue_per_kpi o) /\
  d_organic_media nd = None /\ d_organic_reach nd = None /\ d_organic_frequency nd = None /\
  d_non_media nd = None /\ d_controls nd = None.

(** The model [x] with the new data in place of the historical ones and without the non-paid
    treatments: the fitted parameters and transformers are those of [x]. *)
Definition paid_model (x : model) (nd : data) : model :=
  mkModel (x_cx x) (x_geo x) (x_time x) (x_population x) (x_kpi x)
    (mkData (given d_media nd x) (given d_reach nd x) (given d_frequency nd x)
       None None None None (d_controls (x_data x))
       (match d_revenue_per_kpi nd with Some r => Some r | None => d_revenue_per_kpi (x_data x) end))
    (x_decay_media x) (x_decay_rf x) (x_decay_organic_media x) (x_decay_organic_rf x)
    (x_sat_media x) (x_sat_rf x) (x_sat_organic_media x) (x_sat_organic_rf x)
    (x_media_transformer x) (x_reach_transformer x)
    (x_organic_media_transformer x) (x_organic_reach_transformer x)
    (x_control_scaling_id x) (x_non_media_scaling_id x) None (x_kpi_is_revenue x).

(** A call of [incremental_outcome] for the paid channels with admissible arguments. *)
Record paid_request (x : model) (o : options) (batch_size : Z) (draws : list draw) : Prop := {
  pr_draws : Forall (draw_ok x) draws;
  pr_some : draws <> [];
  pr_batch : (0 < batch_size)%Z;
  pr_paid : o_include_non_paid o = false;
  pr_factors : 0 <= o_scaling_factor0 o < o_scaling_factor1 o;
  pr_geos : geos_ok x (o_selected_geos o);
  pr_times : times_ok x (o_selected_times o);
  pr_media_times : forall l, o_media_selected_times o = Some l -> length l = x_n_media_times x;
  pr_baseline : o_baseline_values o = None;
  pr_units : o_inverse o = true \/ (o_use_kpi o = true /\ x_kpi_is_revenue x = false)
}.

(** Paid channels, and their number. *)
Definition is_paid (x : model) (ch : channel) : Prop :=
  match ch with ChMedia _ | ChRf _ => is_channel x ch | _ => False end.
Definition n_paid (x : model) : nat := (n_chans (d_media (x_data x)) + n_chans (d_reach (x_data x)))%nat.

(** The term of a paid channel in the linear predictor when its media (or its reach, or its
    frequency) are multiplied by [f] in the executed periods. *)
Definition paid_term (x : model) (nd : data) (w : draw) (ch : channel) (f : R) (sel : option (list bool))
    (by_reach : bool) (g t : nat) : R :=
  channel_term (paid_model x nd) (treatment (paid_model x nd) ch f sel by_reach None) w ch g t.

(** Media and frequencies are not negative. *)
Definition paid_nonneg (x : model) (nd : data) : Prop :=
  nonneg (given d_media nd x) /\ nonneg (given d_reach nd x) /\ nonneg (given d_frequency nd x).

(** The coefficient of a paid channel in a draw. *)
Definition coefficient (w : draw) (ch : channel) (g : nat) : R :=
  match ch with ChMedia c => w_beta_gm w g c | ChRf c => w_beta_grf w g c | _ => 0 end.
