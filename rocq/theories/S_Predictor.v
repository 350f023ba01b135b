(** Specification of the expected outcome: the linear predictor of the Meridian documentation,
    written out channel by channel. *)
From Coq Require Import Reals ZArith String List Bool Arith.
From Verif Require Import Lib_Sum M_Base M_AdstockHill M_Equations M_Transformers M_Aggregate
  S_Aggregate S_Adstock S_Media S_Analyzer
  M_Analyzer.
Import ListNotations.
Local Open Scope R_scope.

(** The data an analysis runs on: the user's tensor, else the historical one. *)
Definition given (f : data -> option T3) (nd : data) (x : model) : option T3 :=
  match f nd with Some y => Some y | None => f (x_data x) end.

(** The user's tensors have the dimensions of the historical ones. *)
Definition fits (y y0 : option T3) : Prop :=
  match y, y0 with
  | None, _ => True
  | Some a, Some b => same_shape a b
  | Some _, None => False
  end.
Definition new_data_ok (x : model) (nd : data) : Prop :=
  let o := x_data x in
  fits (d_media nd) (d_media o) /\ fits (d_reach nd) (d_reach o) /\
  fits (d_frequency nd) (d_frequency o) /\ fits (d_organic_media nd) (d_organic_media o) /\
  fits (d_organic_reach nd) (d_organic_reach o) /\ fits (d_organic_frequency nd) (d_organic_frequency o) /\
  fits (d_non_media nd) (d_non_media o) /\ fits (d_controls nd) (d_controls o) /\
  d_revenue_per_kpi nd = None.

Definition nonneg (o : option T3) : Prop :=
  match o with
  | Some y => forall g t c, (t < times y)%nat -> (c < chans y)%nat -> 0 <= val y g t c
  | None => True
  end.
Definition media_nonneg (x : model) (nd : data) : Prop :=
  nonneg (given d_media nd x) /\ nonneg (given d_frequency nd x) /\
  nonneg (given d_organic_media nd x) /\ nonneg (given d_organic_frequency nd x).

(** Scale factors of the media and reach transformers are positive (C07: they are, for positive
    populations and non-negative media). *)
Definition factors_pos (o : option media_transformer) : Prop :=
  match o with Some tr => forall g c, 0 < scale_factors_gm tr g c | None => True end.
Definition transformers_ok (x : model) : Prop :=
  factors_pos (x_media_transformer x) /\ factors_pos (x_organic_media_transformer x) /\
  factors_pos (x_reach_transformer x) /\ factors_pos (x_organic_reach_transformer x).

(** Media in the units of the model. *)
Definition in_units (tr : option media_transformer) (y : T3) (g t c : nat) : R :=
  match tr with Some k => val y g t c / scale_factors_gm k g c | None => val y g t c end.
Definition standardised (tr : option centering_transformer) (y : T3) (g t c : nat) : R :=
  match tr with Some k => centering_forward k true g c (val y g t c) | None => val y g t c end.

(** Response of media channel [c] in geo [g], period [t] of the KPI. *)
Definition media_channel (x : model) (tr : option media_transformer) (p : chan_params)
    (df : decay_arg) (sa : sat_arg) (y : T3) (g t c : nat) : R :=
  let W := window y (ctx_max_lag (x_cx x)) in
  match assigned_decay df (chans y) c, assigned_sat sa (chans y) c with
  | Some d, Some s =>
      media_response (ctx_hill_before_adstock (x_cx x)) s (p_ec p c) (p_slope p c) W
        (documented_weight d (p_alpha p c) W) (fun u => in_units tr y g u c)
        (x_n_media_times x - x_n_times x + t)
  | _, _ => 0
  end.

(** Response of a channel with reach and frequency: saturated frequency times reach, lagged. *)
Definition rf_channel (x : model) (tr : option media_transformer) (p : chan_params)
    (df : decay_arg) (sa : sat_arg) (reach freq : T3) (g t c : nat) : R :=
  let W := window reach (ctx_max_lag (x_cx x)) in
  match assigned_decay df (chans reach) c, assigned_sat sa (chans reach) c with
  | Some d, Some s =>
      lagged_average W (documented_weight d (p_alpha p c) W)
        (fun u => in_units tr reach g u c * saturate s (p_ec p c) (p_slope p c) (val freq g u c))
        (x_n_media_times x - x_n_times x + t)
  | _, _ => 0
  end.

Definition over (o : option T3) (f : T3 -> nat -> R) : R :=
  match o with Some y => rsum (chans y) (f y) | None => 0 end.
Definition over2 (o o' : option T3) (f : T3 -> T3 -> nat -> R) : R :=
  match o, o' with Some y, Some z => rsum (chans y) (f y z) | _, _ => 0 end.

(** The linear predictor. *)
Definition predictor (x : model) (nd : data) (w : draw) (g t : nat) : R :=
  w_tau_g w g + w_mu_t w t
  + over (given d_media nd x) (fun y c =>
      w_beta_gm w g c * media_channel x (x_media_transformer x) (w_media w) (x_decay_media x)
                          (x_sat_media x) y g t c)
  + over2 (given d_reach nd x) (given d_frequency nd x) (fun r f c =>
      w_beta_grf w g c * rf_channel x (x_reach_transformer x) (w_rf w) (x_decay_rf x) (x_sat_rf x)
                           r f g t c)
  + over (given d_organic_media nd x) (fun y c =>
      w_beta_gom w g c * media_channel x (x_organic_media_transformer x) (w_organic_media w)
                           (x_decay_organic_media x) (x_sat_organic_media x) y g t c)
  + over2 (given d_organic_reach nd x) (given d_organic_frequency nd x) (fun r f c =>
      w_beta_gorf w g c * rf_channel x (x_organic_reach_transformer x) (w_organic_rf w)
                            (x_decay_organic_rf x) (x_sat_organic_rf x) r f g t c)
  + over (given d_controls nd x) (fun y c =>
      w_gamma_gc w g c * standardised (controls_transformer x) y g t c)
  + over (given d_non_media nd x) (fun y c =>
      w_gamma_gn w g c * standardised (non_media_transformer x) y g t c).

(** Is the outcome the KPI itself (rather than revenue)? *)
Definition outcome_is_kpi (x : model) (use_kpi : bool) : bool :=
  match d_revenue_per_kpi (x_data x) with
  | None => true
  | Some _ => use_kpi && negb (x_kpi_is_revenue x)
  end.

(** Outcome of a value of the linear predictor: undo the standardisation of the KPI and the
    division by population, then multiply by the revenue per KPI. *)
Definition outcome_in_units (x : model) (inverse use_kpi : bool) (g t : nat) (v : R) : R :=
  if inverse then
    (v * k_stdev (kpi_tr x) + k_mean (kpi_tr x)) * x_population x g
    * match d_revenue_per_kpi (x_data x) with
      | Some r => if outcome_is_kpi x use_kpi then 1 else val2 r g t
      | None => 1
      end
  else v.

(** The geos and periods asked for, in the order of the data. *)
Definition chosen_geos (x : model) (gs : option (list string)) : list nat :=
  match gs with
  | None => seq 0 (x_n_geos x)
  | Some l => filter (fun i => if in_dec string_dec (nth i (x_geo x) ""%string) l then true else false)
                (seq 0 (x_n_geos x))
  end.
Definition chosen_times (x : model) (ts : option time_sel) : list nat :=
  match ts with
  | None => seq 0 (x_n_times x)
  | Some (TDates l) =>
      filter (fun i => if in_dec string_dec (nth i (x_time x) ""%string) l then true else false)
        (seq 0 (x_n_times x))
  | Some (TBools l) => filter (fun i => nth i l false) (seq 0 (x_n_times x))
  end.

(** The term of one treatment in the linear predictor. *)
Definition channel_term (x : model) (nd : data) (w : draw) (ch : channel) (g t : nat) : R :=
  match ch with
  | ChMedia c =>
      match given d_media nd x with
      | Some y => w_beta_gm w g c * media_channel x (x_media_transformer x) (w_media w)
                                      (x_decay_media x) (x_sat_media x) y g t c
      | None => 0
      end
  | ChRf c =>
      match given d_reach nd x, given d_frequency nd x with
      | Some r, Some f => w_beta_grf w g c * rf_channel x (x_reach_transformer x) (w_rf w)
                                               (x_decay_rf x) (x_sat_rf x) r f g t c
      | _, _ => 0
      end
  | ChOrganicMedia c =>
      match given d_organic_media nd x with
      | Some y => w_beta_gom w g c * media_channel x (x_organic_media_transformer x) (w_organic_media w)
                                       (x_decay_organic_media x) (x_sat_organic_media x) y g t c
      | None => 0
      end
  | ChOrganicRf c =>
      match given d_organic_reach nd x, given d_organic_frequency nd x with
      | Some r, Some f => w_beta_gorf w g c * rf_channel x (x_organic_reach_transformer x) (w_organic_rf w)
                                                (x_decay_organic_rf x) (x_sat_organic_rf x) r f g t c
      | _, _ => 0
      end
  | ChNonMedia c =>
      match given d_non_media nd x with
      | Some y => w_gamma_gn w g c * standardised (non_media_transformer x) y g t c
      | None => 0
      end
  end.

(** Outcome of one unit of the linear predictor. *)
Definition outcome_per_unit (x : model) (inverse use_kpi : bool) (g t : nat) : R :=
  if inverse then
    k_stdev (kpi_tr x) * x_population x g
    * match d_revenue_per_kpi (x_data x) with
      | Some r => if outcome_is_kpi x use_kpi then 1 else val2 r g t
      | None => 1
      end
  else 1.
