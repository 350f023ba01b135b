(** Model of how Meridian turns ROI / mROI / contribution priors into coefficients:
    meridian/model/media.py, the prior part of meridian/model/equations.py, and the treatment
    blocks of meridian/model/prior_sampler.py and meridian/model/posterior_sampler.py. *)
From Coq Require Import Reals ZArith List Bool.
From Verif Require Import Lib_Sum Lib_Pow M_Base M_AdstockHill M_Equations M_Transformers.
Import ListNotations.
Local Open Scope R_scope.

(** constants.py TREATMENT_PRIOR_TYPE_*; [PtOther] is any other string. *)
Inductive prior_type := PtROI | PtMROI | PtContribution | PtCoefficient | PtOther.

(** constants.py MEDIA_EFFECTS_*. *)
Inductive effects := EffNormal | EffLogNormal.

(** The part of [ModelContext] (context.py) read by the coefficient calculation. *)
Record model := mkModel {
  md_cx : ctx;
  md_geos : nat;
  md_population : nat -> R;
  md_kpi : nat -> nat -> R;
  md_revenue_per_kpi : option (nat -> nat -> R);
  md_effects_spec : effects  (* model_spec.media_effects_dist *)
}.

(** context.py:649-654 [media_effects_dist]: always normal for a national model. *)
Definition media_effects_dist (md : model) : effects :=
  if Nat.eqb (md_geos md) 1 then EffNormal else md_effects_spec md.

(** context.py:618-620 and transformers.py:191-213: stdev of the population scaled KPI. *)
Definition md_kpi_transformer (md : model) : kpi_transformer :=
  kpi_init (md_geos md) (ctx_n_times (md_cx md)) (md_kpi md) (md_population md).

(** equations.py:437-443: ones when revenue_per_kpi is missing. *)
Definition md_revenue (md : model) (g t : nat) : R :=
  match md_revenue_per_kpi md with Some r => r g t | None => 1 end.

(** input_data.py:1107-1111 [get_total_outcome]. *)
Definition total_outcome (md : model) : R :=
  match md_revenue_per_kpi md with
  | None => rsum (md_geos md) (fun g => rsum (ctx_n_times (md_cx md)) (fun t => md_kpi md g t))
  | Some r => rsum (md_geos md) (fun g => rsum (ctx_n_times (md_cx md)) (fun t => md_kpi md g t * r g t))
  end.

(** [InputData.media_spend] / [rf_spend]: one total per channel, or a (geo, time, channel) array. *)
Inductive spend_data := SpendPerChannel (s : nat -> R) | SpendArray (s : T3).

(** input_data.py:1113-1126 [_allocate_spend]: proportional to the media units of the last
    [n_times] periods.  A channel without units in that window gives 0/0 = NaN in the code; the
    theorems assume a non-zero total. *)
Definition allocate_spend (n_times : nat) (spend : nat -> R) (units : T3) : T3 :=
  let off := (times units - n_times)%nat in
  let total m := rsum (geos units) (fun g => rsum n_times (fun t => val units g (off + t)%nat m)) in
  mkT3 (geos units) n_times (chans units)
    (fun g t m => spend m * (val units g (off + t)%nat m / total m)).

(** input_data.py:391-405 [allocated_media_spend], [allocated_rf_spend]. *)
Definition allocated_spend (n_times : nat) (spend : spend_data) (units : T3) : T3 :=
  match spend with
  | SpendPerChannel s => allocate_spend n_times s units
  | SpendArray a => a
  end.

(** input_data.py:78-100 [_aggregate_spend]; the calibration period is (media time, channel). *)
Definition aggregate_spend (n_media_times : nat) (calibration : option (nat -> nat -> bool))
    (spend : T3) (m : nat) : R :=
  match calibration with
  | None => rsum (geos spend) (fun g => rsum (times spend) (fun t => val spend g t m))
  | Some c =>
      rsum (geos spend) (fun g => rsum (times spend) (fun t =>
        val spend g t m * (if c (n_media_times - times spend + t)%nat m then 1 else 0)))
  end.

(** constants.py:264 MROI_FACTOR. *)
Definition mroi_factor : R := 101 / 100.

(** media.py:37-58 [_roi_calibration_scaled_counterfactual]. *)
Definition roi_calibration_counterfactual (x : T3) (calibration : nat -> nat -> bool) : T3 :=
  mkT3 (geos x) (times x) (chans x)
    (fun g t m => val x g t m * (if calibration t m then 0 else 1)).

(** [tensor * factor]. *)
Definition scale3 (k : R) (x : T3) : T3 :=
  mkT3 (geos x) (times x) (chans x) (fun g t m => val x g t m * k).

(** [media_transformer.forward(media)] of the whole tensor (transformers.py:99-102). *)
Definition forward3 (tr : media_transformer) (x : T3) : T3 :=
  mkT3 (geos x) (times x) (chans x) (fun g t m => val x g t m / scale_factors_gm tr g m).

(** The fields of [MediaTensors] / [RfTensors] used for priors (media.py:61-96, 212-252). *)
Record prior_tensors := mkPT {
  pt_scaled : T3;
  pt_counterfactual : option T3;
  pt_denominator : option (nat -> R)
}.

(** media.py:129-158 and 283-311: counterfactual and denominator by prior type. *)
Definition prior_counterfactual (md : model) (pt : prior_type)
    (calibration : option (nat -> nat -> bool)) (scaled : T3) (agg_spend : nat -> R)
    : result prior_tensors :=
  match pt with
  | PtROI =>
      Ok (mkPT scaled
            (match calibration with
             | None => None
             | Some c => Some (roi_calibration_counterfactual scaled c)
             end)
            (Some agg_spend))
  | PtMROI => Ok (mkPT scaled (Some (scale3 mroi_factor scaled))
                    (Some (fun m => agg_spend m * (mroi_factor - 1))))
  | PtContribution => Ok (mkPT scaled None (Some (fun _ => total_outcome md)))
  | PtCoefficient => Ok (mkPT scaled None None)
  | PtOther => Err ValueError
  end.

(** media.py:99-167 [build_media_tensors]. *)
Definition build_media_tensors (md : model) (pt : prior_type)
    (calibration : option (nat -> nat -> bool)) (media : T3) (spend : spend_data)
    : result prior_tensors :=
  rbind (media_transformer_init media (md_population md)) (fun tr =>
  let agg := aggregate_spend (ctx_n_media_times (md_cx md)) calibration
               (allocated_spend (ctx_n_times (md_cx md)) spend media) in
  prior_counterfactual md pt calibration (forward3 tr media) agg).

(** media.py:255-322 [build_rf_tensors]: the same on reach; spend is allocated by impressions. *)
Definition build_rf_tensors (md : model) (pt : prior_type)
    (calibration : option (nat -> nat -> bool)) (reach frequency : T3) (spend : spend_data)
    : result prior_tensors :=
  rbind (media_transformer_init reach (md_population md)) (fun tr =>
  let agg := aggregate_spend (ctx_n_media_times (md_cx md)) calibration
               (allocated_spend (ctx_n_times (md_cx md)) spend (mul3 reach frequency)) in
  prior_counterfactual md pt calibration (forward3 tr reach) agg).

(** [backend.absolute(a - b)]. *)
Definition abs_diff3 (a b : T3) : T3 :=
  mkT3 (geos a) (times a) (chans a) (fun g t m => Rabs (val a g t m - val b g t m)).

(** equations.py:298-340 [linear_predictor_counterfactual_difference_media]: the counterfactual
    call leaves [saturation_spec] at its default ('hill', equations.py:42-52). *)
Definition counterfactual_difference_media (md : model) (cf : option T3) (transformed : T3)
    (p : chan_params) (df : decay_arg) : result T3 :=
  match cf with
  | None => Ok transformed
  | Some x => rbind (adstock_hill_media (md_cx md) x p df (SOne Hill) None) (fun y =>
              Ok (abs_diff3 transformed y))
  end.

(** equations.py:342-383 [linear_predictor_counterfactual_difference_rf]. *)
Definition counterfactual_difference_rf (md : model) (cf : option T3) (frequency transformed : T3)
    (p : chan_params) (df : decay_arg) : result T3 :=
  match cf with
  | None => Ok transformed
  | Some x => rbind (adstock_hill_rf (md_cx md) x frequency p df (SOne Hill) None) (fun y =>
              Ok (abs_diff3 transformed y))
  end.

(** equations.py:444-450: outcome per unit of geo coefficient, [gtx,gt,g,->gx]. *)
Definition outcome_over_beta (md : model) (diff : T3) (g x : nat) : R :=
  rsum (ctx_n_times (md_cx md)) (fun t =>
    val diff g t x * md_revenue md g t * md_population md g * k_stdev (md_kpi_transformer md)).

(** [backend.log]; [None] stands for -inf / NaN. *)
Definition flog (x : R) : option R := if Rlt_dec 0 x then Some (ln x) else None.

(** equations.py:385-469 [calculate_beta_x], channel [x]; [None] when the result is not finite. *)
Definition calculate_beta_x (md : model) (is_non_media : bool) (incremental_outcome : nat -> R)
    (diff : T3) (eta : nat -> R) (dev : nat -> nat -> R) (x : nat) : option R :=
  let k := outcome_over_beta md diff in
  match is_non_media, media_effects_dist md with
  | false, EffLogNormal =>
      match flog (incremental_outcome x),
            flog (rsum (md_geos md) (fun g => k g x * exp (dev g x * eta x))) with
      | Some a, Some b => Some (a - b)
      | _, _ => None
      end
  | _, _ =>
      fdiv (incremental_outcome x - rsum (md_geos md) (fun g => k g x * dev g x * eta x))
           (rsum (md_geos md) (fun g => k g x))
  end.

(** posterior_sampler.py:351-356, prior_sampler.py:192-200 (and the RF / organic copies): geo
    coefficients. *)
Definition beta_gx (md : model) (beta eta : nat -> R) (dev : nat -> nat -> R) (g x : nat) : R :=
  let v := beta x + eta x * dev g x in
  match media_effects_dist md with EffNormal => v | EffLogNormal => exp v end.

(** prior_sampler.py:141-190 and posterior_sampler.py:310-347: the mean coefficient of the paid
    media channels, given the drawn value [theta] of the parameter selected by the prior type
    (for coefficient priors [theta] is the coefficient itself). *)
Definition paid_media_beta (md : model) (pt : prior_type)
    (calibration : option (nat -> nat -> bool)) (media : T3) (spend : spend_data)
    (p : chan_params) (df : decay_arg) (sa : sat_arg)
    (theta eta : nat -> R) (dev : nat -> nat -> R) : result (nat -> option R) :=
  rbind (build_media_tensors md pt calibration media spend) (fun mt =>
  match pt_denominator mt with
  | None => Ok (fun m => Some (theta m))
  | Some den =>
      rbind (adstock_hill_media (md_cx md) (pt_scaled mt) p df sa None) (fun transformed =>
      rbind (counterfactual_difference_media md (pt_counterfactual mt) transformed p df) (fun diff =>
      Ok (calculate_beta_x md false (fun m => theta m * den m) diff eta dev)))
  end).

(** prior_sampler.py:251-304 and posterior_sampler.py:376-415: paid reach and frequency. *)
Definition paid_rf_beta (md : model) (pt : prior_type)
    (calibration : option (nat -> nat -> bool)) (reach frequency : T3) (spend : spend_data)
    (p : chan_params) (df : decay_arg) (sa : sat_arg)
    (theta eta : nat -> R) (dev : nat -> nat -> R) : result (nat -> option R) :=
  rbind (build_rf_tensors md pt calibration reach frequency spend) (fun mt =>
  match pt_denominator mt with
  | None => Ok (fun m => Some (theta m))
  | Some den =>
      rbind (adstock_hill_rf (md_cx md) (pt_scaled mt) frequency p df sa None) (fun transformed =>
      rbind (counterfactual_difference_rf md (pt_counterfactual mt) frequency transformed p df)
        (fun diff =>
      Ok (calculate_beta_x md false (fun m => theta m * den m) diff eta dev)))
  end).

(** media.py:188-209 and prior_sampler.py:365-399, posterior_sampler.py:444-468. *)
Definition organic_media_beta (md : model) (pt : prior_type) (media : T3)
    (p : chan_params) (df : decay_arg) (sa : sat_arg)
    (theta eta : nat -> R) (dev : nat -> nat -> R) : result (nat -> option R) :=
  rbind (media_transformer_init media (md_population md)) (fun tr =>
  match pt with
  | PtCoefficient => Ok (fun m => Some (theta m))
  | PtContribution =>
      rbind (adstock_hill_media (md_cx md) (forward3 tr media) p df sa None) (fun transformed =>
      Ok (calculate_beta_x md false (fun m => theta m * total_outcome md) transformed eta dev))
  | _ => Err ValueError
  end).

(** media.py:345-369 and prior_sampler.py:461-496, posterior_sampler.py:495-521; the caller passes
    the prior type it consulted. *)
Definition organic_rf_beta (md : model) (pt : prior_type) (reach frequency : T3)
    (p : chan_params) (df : decay_arg) (sa : sat_arg)
    (theta eta : nat -> R) (dev : nat -> nat -> R) : result (nat -> option R) :=
  rbind (media_transformer_init reach (md_population md)) (fun tr =>
  match pt with
  | PtCoefficient => Ok (fun m => Some (theta m))
  | PtContribution =>
      rbind (adstock_hill_rf (md_cx md) (forward3 tr reach) frequency p df sa None) (fun transformed =>
      Ok (calculate_beta_x md false (fun m => theta m * total_outcome md) transformed eta dev))
  | _ => Err ValueError
  end).

(** One entry of [non_media_baseline_values]. *)
Inductive baseline_value := BMin | BMax | BNum (v : R) | BOther.

(** Smallest / largest entry of a list ([reduce_min], [reduce_max]). *)
Definition list_min (l : list R) : R :=
  match l with [] => 0 | x :: r => fold_left Rmin r x end.
Definition list_max (l : list R) : R :=
  match l with [] => 0 | x :: r => fold_left Rmax r x end.

(** equations.py:237-251: non-media treatments divided by population in the flagged channels. *)
Definition non_media_population_scaled (md : model) (x : T3) (id : option (nat -> bool)) : T3 :=
  mkT3 (geos x) (times x) (chans x) (fun g t n =>
    divide_no_nan (val x g t n)
      (match id with Some b => if b n then md_population md g else 1 | None => 1 end)).

(** equations.py:272-292: the baseline of one channel. *)
Definition channel_baseline (y : T3) (b : baseline_value) (n : nat) : option R :=
  match b with
  | BMin => Some (list_min (channel_values y n))
  | BMax => Some (list_max (channel_values y n))
  | BNum v => Some v
  | BOther => None
  end.

(** equations.py:210-296 [compute_non_media_treatments_baseline]; [values] is the argument or,
    when that is None, [model_spec.non_media_baseline_values]. *)
Definition non_media_baseline (md : model) (x : T3) (id : option (nat -> bool))
    (values : option (list baseline_value)) : result (nat -> R) :=
  let y := non_media_population_scaled md x id in
  let filled := match values with Some l => l | None => repeat BMin (chans x) end in
  raise_if (negb (Nat.eqb (chans x) (length filled))) ValueError
  (if forallb (fun n => match channel_baseline y (nth n filled BOther) n with
                        | Some _ => true | None => false end) (seq 0 (chans x))
   then Ok (fun n => match channel_baseline y (nth n filled BOther) n with
                     | Some v => v | None => 0 end)
   else Err ValueError).

(** prior_sampler.py:563-568 and posterior_sampler.py:586-591: treatments minus baseline on the
    linear predictor scale; [forward] is called with its default [apply_population_scaling=True]. *)
Definition non_media_difference (x : T3) (population : nat -> R) (id : option (nat -> bool))
    (baseline : nat -> R) : T3 :=
  let tr := centering_init x population id in
  mkT3 (geos x) (times x) (chans x) (fun g t n =>
    centering_forward tr true g n (val x g t n) - centering_forward tr true g n (baseline n)).

(** prior_sampler.py:548-580 and posterior_sampler.py:580-602: [gamma_n]. *)
Definition non_media_gamma (md : model) (pt : prior_type) (x : T3) (id : option (nat -> bool))
    (values : option (list baseline_value))
    (theta xi : nat -> R) (dev : nat -> nat -> R) : result (nat -> option R) :=
  match pt with
  | PtCoefficient => Ok (fun n => Some (theta n))
  | PtContribution =>
      rbind (non_media_baseline md x id values) (fun b =>
      Ok (calculate_beta_x md true (fun n => theta n * total_outcome md)
            (non_media_difference x (md_population md) id b) xi dev))
  | _ => Err ValueError
  end.

(** posterior_sampler.py:604, prior_sampler.py:581-586: geo coefficients of non-media treatments. *)
Definition gamma_gn (gamma xi : nat -> R) (dev : nat -> nat -> R) (g n : nat) : R :=
  gamma n + xi n * dev g n.

(** analysis/tensors.py:1320-1337: the baseline used when contributions are reported (already
    population scaled, so [apply_population_scaling=False]). *)
Definition reported_baseline (x : T3) (population : nat -> R) (id : option (nat -> bool))
    (baseline : nat -> R) (g n : nat) : R :=
  centering_forward (centering_init x population id) false g n (baseline n).

(** analysis/tensors.py:1408-1431 followed by [forward]: the same baseline as built for the
    expected-outcome baseline: multiplied by population, then transformed. *)
Definition reported_baseline_expected (x : T3) (population : nat -> R) (id : option (nat -> bool))
    (baseline : nat -> R) (g n : nat) : R :=
  let f := match id with Some b => if b n then population g else 1 | None => 1 end in
  centering_forward (centering_init x population id) true g n (baseline n * f).
