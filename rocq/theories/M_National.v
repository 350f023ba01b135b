(** Model of the data arrays of the EDA engine: meridian/model/eda/eda_engine.py, truncation to the
    periods of the KPI, aggregation to the national level, scaling, reach and frequency.  Scaled
    arrays are [cube]s of M_DataChecks.  Names and coordinates of the arrays are not modelled. *)
From Coq Require Import Reals ZArith List Bool Arith.
From Verif Require Import Lib_Sum M_Base M_Transformers M_DataChecks.
From Verif Require M_Eda.
Import ListNotations.
Local Open Scope R_scope.

(** eda_engine.py:1332-1345 [_truncate_media_time]: the last [n_times] periods. *)
Definition truncate_media_time (n_times : nat) (x : T3) : T3 :=
  mkT3 (geos x) n_times (chans x) (fun g t m => val x g (times x - n_times + t)%nat m).
Definition truncate_cube (n_times : nat) (x : cube) : cube :=
  mkCube (cu_geos x) n_times (cu_vars x) (fun g t v => cu_at x g (cu_times x - n_times + t)%nat v).

(** eda_engine.py:1347-1376 [_scale_xarray]; without a population it is one. *)
Inductive transformer_class := Centering | MediaClass.
Definition ones : nat -> R := fun _ => 1.
Definition exact_cube (x : T3) : cube := mkCube (geos x) (times x) (chans x) (fun g t m => Some (val x g t m)).
Definition scale_xarray (x : T3) (cls : option transformer_class) (population : option (nat -> R)) : result cube :=
  let pop := match population with Some p => p | None => ones end in
  match cls with
  | None => Ok (exact_cube x)
  | Some Centering =>
      let tr := centering_init x pop None in
      Ok (mkCube (geos x) (times x) (chans x) (fun g t m => Some (centering_forward tr true g m (val x g t m))))
  | Some MediaClass =>
      rbind (media_transformer_init x pop) (fun tr =>
      Ok (mkCube (geos x) (times x) (chans x) (fun g t m => media_forward tr g m (val x g t m))))
  end.

(** eda_engine.py:1378-1413 [_aggregate_variables]; an aggregation takes the values of the geos. *)
Definition aggregation := list R -> R.
Definition default_aggregation : aggregation := lsum.
Definition aggregate_variables (x : T3) (agg_map : nat -> option aggregation) : T3 :=
  mkT3 1 (times x) (chans x) (fun _ t m =>
    match agg_map m with Some f => f | None => default_aggregation end (map (fun g => val x g t m) (seq 0 (geos x)))).
(** eda_engine.py:1415-1462 [_aggregate_and_scale_geo_da]; without a channel dimension the sum. *)
Definition sum_geos (x : T3) : T3 :=
  mkT3 1 (times x) (chans x) (fun _ t m => rsum (geos x) (fun g => val x g t m)).
Definition aggregate (x : T3) (agg_map : option (nat -> option aggregation)) : T3 :=
  match agg_map with Some f => aggregate_variables x f | None => sum_geos x end.
Definition aggregate_and_scale (x : T3) (cls : option transformer_class) (agg_map : option (nat -> option aggregation))
    : result cube := scale_xarray (aggregate x agg_map) cls None.

(** context.py: the model's own scaling of media, reach, organic media: all media periods. *)
Definition model_scaled (x : T3) (population : nat -> R) : result cube := scale_xarray x (Some MediaClass) (Some population).

(** eda_engine.py:645-730: raw, scaled and national scaled media ([national] models have one geo). *)
Definition media_raw_da (n_times : nat) (media : T3) : T3 := truncate_media_time n_times media.
Definition media_scaled_da (n_times : nat) (media : T3) (population : nat -> R) : result cube :=
  rbind (model_scaled media population) (fun c => Ok (truncate_cube n_times c)).
Definition national_media_raw_da (national : bool) (n_times : nat) (media : T3) : T3 :=
  if national then media_raw_da n_times media else sum_geos (media_raw_da n_times media).
Definition national_media_scaled_da (national : bool) (n_times : nat) (media : T3) (population : nat -> R) : result cube :=
  if national then media_scaled_da n_times media population
  else aggregate_and_scale (media_raw_da n_times media) (Some MediaClass) None.
(** eda_engine.py:621-643, 799-822, 1046-1061: controls, non-media treatments and the KPI (one
    variable, no map) of a model with several geos. *)
Definition national_centered_da (x : T3) (agg_map : option (nat -> option aggregation)) : result cube :=
  aggregate_and_scale x (Some Centering) agg_map.

Record rf_data := mkRfData {
  rd_reach_raw : T3; rd_reach_scaled : cube; rd_frequency : T3; rd_impressions_raw : T3; rd_impressions_scaled : cube;
  rd_national_reach_raw : T3; rd_national_reach_scaled : cube; rd_national_frequency : T3;
  rd_national_impressions_raw : T3; rd_national_impressions_scaled : cube
}.
(** eda_engine.py:1464-1577 [_get_rf_data]. *)
Definition times_of (a b : T3) : T3 := mkT3 (geos a) (times a) (chans a) (fun g t m => val a g t m * val b g t m).
Definition get_rf_data (national : bool) (n_times : nat) (population : nat -> R) (reach_in freq_in : T3) : result rf_data :=
  rbind (model_scaled reach_in population) (fun full_reach_scaled =>
  let reach := truncate_media_time n_times reach_in in
  let reach_scaled := truncate_cube n_times full_reach_scaled in
  let frequency := truncate_media_time n_times freq_in in
  let impressions := times_of reach frequency in
  if national then
    rbind (scale_xarray impressions (Some MediaClass) None) (fun impressions_scaled =>
    Ok (mkRfData reach reach_scaled frequency impressions impressions_scaled
          reach reach_scaled frequency impressions impressions_scaled))
  else
    rbind (aggregate_and_scale reach (Some MediaClass) None) (fun national_reach_scaled =>
    let national_reach := sum_geos reach in
    let national_impressions := sum_geos impressions in
    let national_frequency := mkT3 1 (times reach) (chans reach) (fun g t m =>
      if Req_EM_T (val national_reach g t m) 0 then 0 else val national_impressions g t m / val national_reach g t m) in
    rbind (scale_xarray impressions (Some MediaClass) (Some population)) (fun impressions_scaled =>
    rbind (aggregate_and_scale impressions (Some MediaClass) None) (fun national_impressions_scaled =>
    Ok (mkRfData reach reach_scaled frequency impressions impressions_scaled
          national_reach national_reach_scaled national_frequency national_impressions national_impressions_scaled))))).

(** eda_engine.py:1063-1084 and the two checks of multicollinearity that read it: the stacked
    treatments need the scaled impressions of every reach and frequency channel.  An exception of
    [_get_rf_data] ends the checks; [run_all_critical_checks] makes a finding of it (M_Eda). *)
Definition needs {A B} (data : option (result A)) (check : result B) : result B :=
  match data with Some (Err e) => Err e | _ => check end.
Definition critical_checks (rf organic_rf : option (result rf_data)) (kpi vif corr : result M_Eda.outcome) : M_Eda.outcomes :=
  M_Eda.run_checks kpi (needs rf (needs organic_rf vif)) (needs rf (needs organic_rf corr)).
