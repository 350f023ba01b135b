(** Specification vocabulary for prior calibration (C09-C11). *)
From Coq Require Import Reals ZArith Arith List.
From Verif Require Import Lib_Sum Lib_Pow M_Base M_AdstockHill M_Equations M_Transformers
  M_Priors S_Adstock S_Media S_Transformers.
Import ListNotations.
Local Open Scope R_scope.

(** Total outcome (revenue, or KPI when revenue per KPI is unknown) predicted when the scaled-KPI
    linear predictor is [lin]. *)
Definition expected_outcome (md : model) (lin : nat -> nat -> R) : R :=
  rsum (md_geos md) (fun g => rsum (ctx_n_times (md_cx md)) (fun t =>
    md_revenue md g t * kpi_inverse (md_kpi_transformer md) g (lin g t))).

(** The two media plans compared by a prior: an mROI prior compares 1% more media with the actual
    media; the others compare the actual media with media switched off (everywhere, or only in
    the calibration period of an ROI prior). *)
Definition plan_with (pt : prior_type) (media : T3) : T3 :=
  match pt with
  | PtMROI => mkT3 (geos media) (times media) (chans media)
                (fun g t m => (1 + 1 / 100) * val media g t m)
  | _ => media
  end.
Definition plan_without (pt : prior_type) (calibration : option (nat -> nat -> bool)) (media : T3) : T3 :=
  match pt, calibration with
  | PtMROI, _ => media
  | PtROI, Some period =>
      mkT3 (geos media) (times media) (chans media)
        (fun g t m => if period t m then 0 else val media g t m)
  | _, _ => mkT3 (geos media) (times media) (chans media) (fun _ _ _ => 0)
  end.

(** Spend of channel [m] in the modelled window (restricted to the calibration period). *)
Definition spend_in (n_media_times : nat) (period : option (nat -> nat -> bool)) (spend : T3) (m : nat) : R :=
  rsum (geos spend) (fun g => rsum (times spend) (fun t =>
    match period with
    | None => val spend g t m
    | Some c => if c (n_media_times - times spend + t)%nat m then val spend g t m else 0
    end)).

(** What one unit of the prior's parameter stands for. *)
Definition prior_unit (md : model) (pt : prior_type) (calibration : option (nat -> nat -> bool))
    (spend : T3) (m : nat) : R :=
  match pt with
  | PtROI => spend_in (ctx_n_media_times (md_cx md)) calibration spend m
  | PtMROI => 1 / 100 * spend_in (ctx_n_media_times (md_cx md)) calibration spend m
  | PtContribution =>
      rsum (md_geos md) (fun g => rsum (ctx_n_times (md_cx md)) (fun t =>
        md_kpi md g t * md_revenue md g t))
  | _ => 0
  end.

(** Priors from which the coefficient is derived (rather than drawn). *)
Definition derived_prior (pt : prior_type) : Prop :=
  pt = PtROI \/ pt = PtMROI \/ pt = PtContribution.

(** The prior needs a second media plan with some media left in it. *)
Definition partial_counterfactual (pt : prior_type) (calibration : option (nat -> nat -> bool)) : Prop :=
  pt = PtMROI \/ (pt = PtROI /\ calibration <> None).

(** A model with data: non-empty, positive populations, media covering the KPI window. *)
Definition model_ok (md : model) : Prop :=
  (0 < md_geos md)%nat /\ (1 <= ctx_n_times (md_cx md))%nat /\
  (ctx_n_times (md_cx md) <= ctx_n_media_times (md_cx md))%nat /\
  (0 <= ctx_max_lag (md_cx md))%Z /\ (forall g, 0 < md_population md g).

(** A tensor of media execution: right shape, non-negative. *)
Definition execution_ok (md : model) (x : T3) : Prop :=
  geos x = md_geos md /\ times x = ctx_n_media_times (md_cx md) /\
  (forall g t c, (t < times x)%nat -> (c < chans x)%nat -> 0 <= val x g t c).

(** Parameters and per-channel choices fitting a tensor of [n] channels. *)
Definition transform_ok (n : nat) (p : chan_params) (df : decay_arg) (sa : sat_arg) : Prop :=
  n_par p = n /\ params_ok p /\ decay_ok df n /\ sat_ok sa n.

(** [b] is the smallest / largest entry of channel [n]. *)
Definition is_channel_min (y : T3) (n : nat) (b : R) : Prop :=
  (exists g t, (g < geos y)%nat /\ (t < times y)%nat /\ val y g t n = b) /\
  forall g t, (g < geos y)%nat -> (t < times y)%nat -> b <= val y g t n.
Definition is_channel_max (y : T3) (n : nat) (b : R) : Prop :=
  (exists g t, (g < geos y)%nat /\ (t < times y)%nat /\ val y g t n = b) /\
  forall g t, (g < geos y)%nat -> (t < times y)%nat -> val y g t n <= b.

(** Treatment values per capita in the flagged channels. *)
Definition per_capita (x : T3) (population : nat -> R) (id : option (nat -> bool)) : T3 :=
  mkT3 (geos x) (times x) (chans x)
    (fun g t n => per_capita_if_flagged id population g n (val x g t n)).

(** Channel [n] is not population scaled. *)
Definition unflagged (id : option (nat -> bool)) (n : nat) : Prop :=
  match id with Some b => b n = false | None => True end.
