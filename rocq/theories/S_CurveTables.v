(** Specification of the tables behind the transformation plots. *)
From Coq Require Import String Reals ZArith List Arith.
From Verif Require Import Lib_Sum Lib_Pow M_Base M_AdstockHill M_Equations M_Transformers M_Analyzer M_Stats
  M_CurveTables S_Adstock S_Stats S_Transformers.
Import ListNotations.
Local Open Scope R_scope.

(** The draws of the prior or the posterior. *)
Definition draws_of (f : curve_model) (posterior : bool) : list draw :=
  match (if posterior then cm_posterior f else cm_prior f) with Some l => l | None => [] end.

(** Channel number [c] of kind [k] is called [name]. *)
Definition is_channel (f : curve_model) (k : kind) (c : nat) (name : string) : Prop :=
  (c < kind_channels k (cm_x f))%nat /\ nth_error (cm_names f k) c = Some name.

(** The periods the adstock average of this model spans, and the largest lag the user asked for
    (at least one period is drawn). *)
Definition model_window (f : curve_model) : nat :=
  Nat.min (Z.to_nat (ctx_max_lag (x_cx (cm_x f))) + 1) (ctx_n_media_times (x_cx (cm_x f))).
Definition drawn_periods (f : curve_model) : nat := Z.to_nat (Z.max (ctx_max_lag (x_cx (cm_x f))) 1).

(** The share of an exposure that is left after [l] time units, for a window of [W] periods. *)
Definition left_after (d : decay) (alpha : R) (W : nat) (l : R) : R :=
  match d with
  | Geometric => rpow alpha l
  | Binomial => if Req_EM_T alpha 0 then (if Req_EM_T l 0 then 1 else 0)
                else rpow (1 - l / INR W) (1 / alpha - 1)
  | OtherDecay => 0
  end.

(** A fitted model: both distributions are sampled, decay rates lie in [0, 1], every channel has
    a name of its own and a decay function. *)
Definition fitted_curves (f : curve_model) : Prop :=
  (exists l, cm_prior f = Some l /\ l <> []) /\ (exists l, cm_posterior f = Some l /\ l <> []) /\
  (0 <= ctx_max_lag (x_cx (cm_x f)))%Z /\ (0 < ctx_n_media_times (x_cx (cm_x f)))%nat /\
  (forall k, length (cm_names f k) = kind_channels k (cm_x f)) /\
  NoDup (flat_map (cm_names f) [KMedia; KRf; KOrganicMedia; KOrganicRf]) /\
  (forall k, (0 < kind_channels k (cm_x f))%nat -> decay_ok (kind_decay k (cm_x f)) (kind_channels k (cm_x f))) /\
  (forall post w k c, In w (draws_of f post) -> 0 <= p_alpha (kind_params k w) c <= 1).

(** Some kind has channels. *)
Definition has_channels (f : curve_model) : Prop := exists k, (0 < kind_channels k (cm_x f))%nat.

(** The statistics of the rows are [m] everywhere. *)
Definition all_equal (s : stats) (m : R) : Prop := st_mean s = m /\ st_lo s = m /\ st_hi s = m.

(** *** Hill curves *)
(** What is drawn on the axis: media by capita, or frequency. *)
Definition axis_value (f : curve_model) (k : kind) (y : T3) (g t c : nat) : R :=
  match k with
  | KMedia | KOrganicMedia => val y g t c / x_population (cm_x f) g
  | KRf | KOrganicRf => val y g t c
  end.
Definition axis_values (f : curve_model) (k : kind) (y : T3) (c : nat) : list R :=
  channel_values (mkT3 (geos y) (times y) (chans y) (axis_value f k y)) c.

Definition is_max (l : list R) (m : R) : Prop := In m l /\ forall v, In v l -> v <= m.
Definition is_min (l : list R) (m : R) : Prop := In m l /\ forall v, In v l -> m <= v.

(** The unit in which the model measures the axis: the median of the media by capita that is not
    zero; frequency is not scaled. *)
Definition is_unit (f : curve_model) (k : kind) (y : T3) (c : nat) (u : R) : Prop :=
  match k with
  | KMedia | KOrganicMedia => is_median (filter nonzero (axis_values f k y c)) u
  | KRf | KOrganicRf => u = 1
  end.

(** The data of a kind are those the transformer was made from, in a model that could be built. *)
Definition curve_data (f : curve_model) (k : kind) (y : T3) : Prop :=
  kind_data k (cm_x f) = Some y /\ (0 < geos y)%nat /\ (0 < times y)%nat /\ (0 < chans y)%nat /\
  nonneg_tensor y /\ length (cm_names f k) = chans y /\
  positive_population (geos y) (x_population (cm_x f)) /\
  match k with
  | KMedia | KOrganicMedia =>
      exists tr, kind_transformer k (cm_x f) = Some tr /\
        media_transformer_init y (x_population (cm_x f)) = Ok tr
  | KRf | KOrganicRf => True
  end.

(** Hill parameters as the model draws them. *)
Definition hill_draws_ok (f : curve_model) (k : kind) : Prop :=
  forall post w c, In w (draws_of f post) ->
    0 < p_ec (kind_params k w) c /\ 0 < p_slope (kind_params k w) c.

(** A request that makes sense: both distributions are sampled, the channels have names of their
    own, and every kind that is present has data and one set of parameters by channel. *)
Definition hill_request (f : curve_model) : Prop :=
  (exists l, cm_prior f = Some l /\ l <> []) /\ (exists l, cm_posterior f = Some l /\ l <> []) /\
  NoDup (flat_map (cm_names f) [KMedia; KRf; KOrganicMedia; KOrganicRf]) /\
  (forall k, (kind_data k (cm_x f) = None /\ cm_names f k = []) \/ exists y, curve_data f k y) /\
  (forall post w k, In w (draws_of f post) -> n_par (kind_params k w) = kind_channels k (cm_x f)).

(** *** Histograms *)
(** How many values lie in an interval, closed on the left and, if [closed], on the right. *)
Definition in_interval (a b : R) (closed : bool) (v : R) : bool :=
  (if Rle_dec a v then true else false) &&
  (if closed then (if Rle_dec v b then true else false) else (if Rlt_dec v b then true else false)).
Definition number_in (l : list R) (a b : R) (closed : bool) : nat := length (filter (in_interval a b closed) l).
