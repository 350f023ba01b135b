(** Model of the spend-based metrics of meridian/analysis/analyzer.py: [roi], [marginal_roi],
    [cpik], [get_aggregated_impressions], [summary_metrics] and [baseline_summary_metrics].
    One tensor per draw, as in M_Analyzer; a division by zero gives [None] (NaN or infinity). *)
From Coq Require Import Reals ZArith String List Bool Arith DecimalString.
From Verif Require Import Lib_Sum M_Base M_AdstockHill M_Equations M_Transformers M_Aggregate M_Analyzer
  M_Stats.
Import ListNotations.
Local Open Scope R_scope.

(** Spend of one kind: per channel, or per geo, time and channel (tensors.py:516-520). *)
Inductive spend := Spend1 (n : nat) (s : nat -> R) | Spend3 (y : T3).
Record spend_data := mkSpend { s_media : option spend; s_rf : option spend }.
Definition no_spend : spend_data := mkSpend None None.

(** A fitted model: data, spend, channel names and the two sets of draws. *)
Record fitted := mkFitted {
  f_x : model;
  f_spend : spend_data;
  f_paid_names : list string;       (* input_data.get_all_paid_channels() *)
  f_other_names : list string;      (* then organic and non-media names *)
  f_prior : list draw;
  f_posterior : list draw
}.
Definition f_draws (f : fitted) (use_posterior : bool) : list draw :=
  if use_posterior then f_posterior f else f_prior f.

(** New data: [DataTensors] with spend. *)
Record new_tensors := mkNew { nt_data : data; nt_spend : spend_data }.
Definition no_new : new_tensors := mkNew no_data no_spend.

(** tensors.py:393-408 [total_spend]; tensors of different rank or size do not concatenate. *)
Definition append_spend (a b : spend) : result spend :=
  match a, b with
  | Spend1 n s, Spend1 m u =>
      Ok (Spend1 (n + m) (fun c => if (c <? n)%nat then s c else u (c - n)%nat))
  | Spend3 y, Spend3 z => rbind (append3 y z) (fun r => Ok (Spend3 r))
  | _, _ => Err ValueError
  end.
Definition total_spend (s : spend_data) : result (option spend) :=
  match s_media s, s_rf s with
  | Some a, Some b => rbind (append_spend a b) (fun r => Ok (Some r))
  | Some a, None => Ok (Some a)
  | None, Some b => Ok (Some b)
  | None, None => Ok None
  end.

(** tensors.py:862-916 [_fill_default_values] for the spend tensors. *)
Definition fill_spend (f : fitted) (s : spend_data) : spend_data :=
  mkSpend (orelse (s_media s) (s_media (f_spend f))) (orelse (s_rf s) (s_rf (f_spend f))).

(** Fields [PAID_DATA] of the data (tensors.py:448-453 [filter_fields]). *)
Definition paid_fields (d : data) : data :=
  mkData (d_media d) (d_reach d) (d_frequency d) None None None None None (d_revenue_per_kpi d).
Definition without_controls (d : data) : data :=
  mkData (d_media d) (d_reach d) (d_frequency d) (d_organic_media d) (d_organic_reach d)
    (d_organic_frequency d) (d_non_media d) None (d_revenue_per_kpi d).

(** analyzer.py:1600-1661 [_validate_geo_and_time_granularity]: on the historical spend. *)
Definition is_spend1 (s : option spend) : bool := match s with Some (Spend1 _ _) => true | _ => false end.
Definition validate_granularity (f : fitted) (gs : option (list string)) (ts : option time_sel)
    (aggregate_geos : bool) : result unit :=
  let flat := is_spend1 (s_media (f_spend f)) || is_spend1 (s_rf (f_spend f)) in
  let has {A} (o : option A) := match o with Some _ => true | None => false end in
  raise_if ((has gs || negb aggregate_geos) && flat) ValueError (
  raise_if (has ts && flat) ValueError (Ok tt)).

(** A tensor with entries that may be non-finite. *)
Record xtensor := mkX { xshape : list nat; xat : list nat -> option R }.
Definition divide_tensor (a b : tensor) : result xtensor :=
  if shape_eqb (shape a) (shape b) then Ok (mkX (shape a) (fun idx => fdiv (at_ a idx) (at_ b idx)))
  else Err ValueError.
Definition scale_tensor (r : R) (a : tensor) : tensor := mkTensor (shape a) (fun idx => at_ a idx * r).

(** The denominator of ROI and marginal ROI (analyzer.py:1759-1795 and 1887-1922): spend of the
    selected geos and times when it has these dimensions; per channel otherwise. *)
Definition spend_denominator (f : fitted) (s : spend_data) (d : data) (gs : option (list string))
    (ts : option time_sel) (aggregate_geos : bool) : result tensor :=
  rbind (total_spend s) (fun t =>
  match t with
  | None => Err TypeError
  | Some (Spend3 y) =>
      rbind (package (f_x f) d gs ts None []) (fun i =>
      filter_and_aggregate (counts (f_x f)) (x_n_geos (f_x f)) (x_n_times (f_x f)) (of3 y) (i_geo i)
        (i_time i) aggregate_geos true true true)
  | Some (Spend1 n u) =>
      raise_if (negb aggregate_geos) ValueError
        (Ok (mkTensor [n] (fun idx => u (hd 0%nat idx))))
  end).

(** Options with which ROI and marginal ROI call [incremental_outcome]. *)
Definition roi_options (f0 f1 : R) (gs : option (list string)) (ts : option time_sel)
    (aggregate_geos use_kpi by_reach : bool) : options :=
  mkOptions f0 f1 gs ts None aggregate_geos true true use_kpi by_reach false None.

(** analyzer.py:1797-1922 [roi]. *)
Definition roi (f : fitted) (use_posterior : bool) (nd : new_tensors) (gs : option (list string))
    (ts : option time_sel) (aggregate_geos use_kpi : bool) (batch_size : Z) : result (list xtensor) :=
  let x := f_x f in
  let use_kpi := resolve_use_kpi x use_kpi in
  rbind (validate_granularity f gs ts aggregate_geos) (fun _ =>
  let filled := fill_missing x (nt_data nd) false false in
  rbind (incremental_outcome x (paid_fields filled)
           (roi_options 0 1 gs ts aggregate_geos use_kpi true) batch_size (f_draws f use_posterior)) (fun I =>
  rbind (spend_denominator f (fill_spend f (nt_spend nd)) filled gs ts aggregate_geos) (fun s =>
  mapM (fun a => divide_tensor a s) I))).

(** analyzer.py:1663-1795 [marginal_roi]. *)
Definition marginal_roi (f : fitted) (incremental_increase : R) (use_posterior : bool) (nd : new_tensors)
    (gs : option (list string)) (ts : option time_sel) (aggregate_geos by_reach use_kpi : bool)
    (batch_size : Z) : result (list xtensor) :=
  let x := f_x f in
  let use_kpi := resolve_use_kpi x use_kpi in
  rbind (validate_granularity f gs ts aggregate_geos) (fun _ =>
  let filled := fill_missing x (nt_data nd) false false in
  rbind (incremental_outcome x (paid_fields filled)
           (roi_options 1 (1 + incremental_increase) gs ts aggregate_geos use_kpi by_reach) batch_size
           (f_draws f use_posterior)) (fun I =>
  rbind (spend_denominator f (fill_spend f (nt_spend nd)) filled gs ts aggregate_geos) (fun s =>
  mapM (fun a => divide_tensor a (scale_tensor incremental_increase s)) I))).

(** analyzer.py:1924-1997 [cpik]: one over the ROI in KPI units. *)
Definition cpik (f : fitted) (use_posterior : bool) (nd : new_tensors) (gs : option (list string))
    (ts : option time_sel) (aggregate_geos : bool) (batch_size : Z) : result (list xtensor) :=
  rbind (roi f use_posterior nd gs ts aggregate_geos true batch_size) (fun l =>
  Ok (map (fun r => mkX (xshape r) (fun idx => match xat r idx with Some v => fdiv 1 v | None => None end)) l)).

(** [y[:, -n:, :]]. *)
Definition last_times (n : nat) (y : T3) : T3 :=
  mkT3 (geos y) (Nat.min n (times y)) (chans y) (fun g t c => val y g (times y - n + t)%nat c).
Definition times3 (a b : T3) : result T3 :=
  if Nat.eqb (geos a) (geos b) && Nat.eqb (times a) (times b) && Nat.eqb (chans a) (chans b)
  then Ok (mkT3 (geos a) (times a) (chans a) (fun g t c => val a g t c * val b g t c)) else Err ValueError.

(** tensors.py:1009-1070 [_build_unscaled_data_tensors]: the frequency [q c] in place of the
    frequency, with the same impressions ([reach / frequency]; [rf_impressions] is not part of the
    new data here). *)
Definition at_frequency (reach freq : option T3) (q : nat -> R) : option T3 * option T3 :=
  match reach, freq with
  | Some r, Some f =>
      (Some (mkT3 (geos r) (times r) (chans r) (fun g t c => val r g t c * val f g t c / q c)),
       Some (mkT3 (geos r) (times r) (chans r) (fun g t c => q c)))
  | _, _ => (reach, freq)
  end.
Definition with_frequency (d : data) (q : option (nat -> R)) : data :=
  match q with
  | None => d
  | Some q =>
      let rf := at_frequency (d_reach d) (d_frequency d) q in
      let orf := at_frequency (d_organic_reach d) (d_organic_frequency d) q in
      mkData (d_media d) (fst rf) (snd rf) (d_organic_media d) (fst orf) (snd orf) (d_non_media d)
        (d_controls d) (d_revenue_per_kpi d)
  end.

(** [backend.concatenate] of a list of rank-three tensors along the channels. *)
Fixpoint concat3 (l : list T3) : result T3 :=
  match l with
  | [] => Err ValueError
  | [y] => Ok y
  | y :: r => rbind (concat3 r) (fun z => append3 y z)
  end.
Definition opt_list (o : option T3) : list T3 := match o with Some y => [y] | None => [] end.
Definition impressions_rf (n : nat) (reach freq : option T3) : result (list T3) :=
  match reach, freq with
  | Some r, Some f => rbind (times3 (last_times n r) (last_times n f)) (fun y => Ok [y])
  | _, _ => Ok []
  end.

(** analyzer.py:2727-2819 [get_aggregated_impressions]. *)
Definition get_aggregated_impressions (x : model) (nd : data) (gs : option (list string))
    (ts : option time_sel) (aggregate_geos aggregate_times : bool) (optimal_frequency : option (nat -> R))
    (include_non_paid : bool) : result tensor :=
  let d0 := fill_missing x nd include_non_paid false in
  let d1 := with_frequency d0 optimal_frequency in
  rbind (package x d1 gs ts None []) (fun i =>
  let n := match get_modified_times x d1 with Some (S m) => S m | _ => x_n_times x end in
  rbind (impressions_rf n (d_reach d1) (d_frequency d1)) (fun rf =>
  rbind (impressions_rf n (d_organic_reach d1) (d_organic_frequency d1)) (fun orf =>
  rbind (concat3 (map (last_times n) (opt_list (d_media d1)) ++ rf
                  ++ map (last_times n) (opt_list (d_organic_media d1)) ++ orf
                  ++ opt_list (d_non_media d1))) (fun y =>
  filter_and_aggregate (counts x) (x_n_geos x) (x_n_times x) (of3 y) (i_geo i) (i_time i)
    aggregate_geos aggregate_times true true)))).

(** analyzer.py:111-152 [_central_tendency_and_ci_by_prior_and_posterior] for one distribution:
    the draws of each cell, summarised ([None]: some draw is not finite; numpy may then still
    report some of the statistics). *)
Definition variable := list nat -> option stats.
Definition summarise (level : R) (cells : list nat -> option (list R)) : result variable :=
  rbind (central_tendency_and_ci level [0]) (fun _ =>
  Ok (fun idx => match cells idx with
                 | None => None
                 | Some l => match central_tendency_and_ci level l with Ok s => Some s | Err _ => None end
                 end)).
Definition cell_draws (l : list tensor) (idx : list nat) : list R := map (fun a => at_ a idx) l.

(** Ratios by cell: every draw over one number, and one number over every draw. *)
Definition over_fixed (l : list tensor) (b : list nat -> R) (idx : list nat) : option (list R) :=
  if Req_EM_T (b idx) 0 then None else Some (map (fun v => v / b idx) (cell_draws l idx)).
Definition fixed_over (b : list nat -> R) (l : list tensor) (idx : list nat) : option (list R) :=
  if forallb nonzero (cell_draws l idx) then Some (map (fun v => b idx / v) (cell_draws l idx)) else None.

(** [mean(expected, (0, 1))[..., None]] and the percentage of the expected outcome
    (analyzer.py:4375-4405 [_compute_pct_of_contribution]). *)
Definition mean_expected (e : list tensor) (idx : list nat) : R := mean (cell_draws e (removelast idx)).
Definition percent (cells : list nat -> option (list R)) (idx : list nat) : option (list R) :=
  option_map (map (fun v => v * 100)) (cells idx).

(** [.where(channel != ALL_CHANNELS)]: the last channel becomes NaN. *)
Definition drop_last_channel (n : nat) (v : variable) : variable :=
  fun idx => if Nat.eqb (last idx 0%nat) n then None else v idx.

(** A data set: coordinates and the variables of the prior ([false]) and the posterior. *)
Record summary := mkSummary {
  sm_geo : option (list string);
  sm_time : option (list string);
  sm_channel : list string;
  sm_shape : list nat;
  sm_incremental : bool -> variable;
  sm_contribution : option (bool -> variable);
  sm_effectiveness : option (bool -> variable);
  sm_impressions : option tensor;
  sm_spend : option tensor;
  sm_pct_of_impressions : option (list nat -> option R);
  sm_pct_of_spend : option (list nat -> option R);
  sm_cpm : option (list nat -> option R);
  sm_roi : option (bool -> variable);
  sm_mroi : option (bool -> variable);
  sm_cpik : option (bool -> variable)
}.

Definition both_dist (v : bool -> result variable) : result (bool -> variable) :=
  rbind (v false) (fun a => rbind (v true) (fun b => Ok (fun p : bool => if p then b else a))).

(** analyzer.py:4287-4331 [_compute_spend_data_aggregate]: [t / t[..., -1:] * 100]. *)
Definition total_at (n : nat) (idx : list nat) : list nat := removelast idx ++ [n].
Definition pct_of (n : nat) (t : tensor) (idx : list nat) : option R :=
  option_map (fun r => r * 100) (fdiv (at_ t idx) (at_ t (total_at n idx))).

(** Coordinates (analyzer.py:2490-2528): geo labels as the user gives them; time labels at the
    resolved indices.  [np.arange] labels are written in decimal. *)
Definition geo_labels (x : model) (gs : option (list string)) : list string :=
  match gs with None => x_geo x | Some l => l end.
Definition time_names (x : model) (d : data) : list string :=
  match get_modified_times x d with
  | None => x_time x
  | Some n => map (fun i => NilEmpty.string_of_uint (Nat.to_uint i)) (seq 0 n)
  end.
Definition time_labels (x : model) (d : data) (ts : option time_sel) : result (list string) :=
  rbind (package x d None ts None []) (fun i =>
  match i_time i with
  | None => Ok (time_names x d)
  | Some l => mapM (fun k => match nth_error (time_names x d) k with Some s => Ok s | None => Err IndexError end) l
  end).
(** xarray refuses coordinates whose length is not that of the dimension. *)
Definition coords_fit (labels : list (option (list string))) (shape : list nat) : bool :=
  shape_eqb (flat_map (fun o => match o with Some l => [length l] | None => [] end) labels) shape.

(** analyzer.py:2297-2725 [summary_metrics]. *)
Definition summary_metrics (f : fitted) (nd : new_tensors) (mroi_by_reach : bool) (increase : R)
    (gs : option (list string)) (ts : option time_sel) (aggregate_geos aggregate_times : bool)
    (optimal_frequency : option (nat -> R)) (use_kpi : bool) (level : R) (batch_size : Z)
    (include_non_paid : bool) (baseline : option (list baseline_value)) : result summary :=
  let x := f_x f in
  let d := nt_data nd in
  let use_kpi := resolve_use_kpi x use_kpi in
  rbind (get_aggregated_impressions x (without_controls d) gs ts aggregate_geos aggregate_times
           optimal_frequency include_non_paid) (fun imp0 =>
  rbind (with_total imp0) (fun imp =>
  let inc (f0 f1 : R) (by_reach uk np : bool) (bl : option (list baseline_value)) (post : bool) :=
    incremental_outcome_aggregate x (without_controls d)
      (mkOptions f0 f1 gs ts None aggregate_geos aggregate_times true uk by_reach np bl)
      batch_size (f_draws f post) in
  rbind (inc 0 1 true use_kpi include_non_paid baseline false) (fun inc_prior =>
  rbind (inc 0 1 true use_kpi include_non_paid baseline true) (fun inc_post =>
  let inc_of (p : bool) := if p then inc_post else inc_prior in
  rbind (inc 1 (1 + increase) mroi_by_reach use_kpi include_non_paid baseline false) (fun m_prior =>
  rbind (inc 1 (1 + increase) mroi_by_reach use_kpi include_non_paid baseline true) (fun m_post =>
  let m_of (p : bool) := if p then m_post else m_prior in
  let channels := ((if include_non_paid then f_paid_names f ++ f_other_names f else f_paid_names f)
                   ++ ["All Channels"%string])%list in
  let n := (length channels - 1)%nat in
  let geo := if aggregate_geos then None else Some (geo_labels x gs) in
  rbind (if aggregate_times then Ok None
         else rbind (time_labels x d ts) (fun l => Ok (Some l))) (fun time =>
  raise_if (negb (coords_fit [geo; time; Some channels] (shape imp))) ValueError (
  rbind (both_dist (fun p => summarise level (fun idx => Some (cell_draws (inc_of p) idx)))) (fun v_inc =>
  rbind (both_dist (fun p => summarise level (over_fixed (inc_of p) (at_ imp)))) (fun v_eff =>
  rbind (match get_modified_times x d with
         | Some _ => Ok None
         | None =>
             let expected (p : bool) := expected_outcome x d gs ts aggregate_geos aggregate_times true
                                          use_kpi batch_size (f_draws f p) in
             rbind (expected false) (fun e_prior =>
             rbind (expected true) (fun e_post =>
             let e_of (p : bool) := if p then e_post else e_prior in
             rbind (both_dist (fun p => summarise level (percent (over_fixed (inc_of p) (mean_expected (e_of p))))))
               (fun v => Ok (Some v))))
         end) (fun v_pct =>
  let eff := if aggregate_times then Some (fun p => drop_last_channel n (v_eff p)) else None in
  if include_non_paid then
    Ok (mkSummary geo time channels (shape imp) v_inc v_pct eff None None None None None None None None)
  else
    let s := fill_spend f (nt_spend nd) in
    rbind (total_spend (mkSpend (match d_media (x_data x) with Some _ => s_media s | None => None end)
                                (match d_reach (x_data x) with Some _ => s_rf s | None => None end))) (fun st =>
    rbind (match st with Some (Spend3 y) => Ok y | _ => Err ValueError end) (fun y =>
    rbind (package x d gs ts None []) (fun i =>
    rbind (filter_and_aggregate (counts x) (x_n_geos x) (x_n_times x) (of3 y) (i_geo i) (i_time i)
             aggregate_geos aggregate_times true true) (fun sp0 =>
    rbind (with_total sp0) (fun sp =>
    raise_if (negb (shape_eqb (shape sp) (shape imp))) ValueError (
    let out roi mroi cp :=
      mkSummary geo time channels (shape imp) v_inc v_pct eff (Some imp) (Some sp)
        (Some (pct_of n imp)) (Some (pct_of n sp))
        (Some (fun idx => option_map (fun r => r * 1000) (fdiv (at_ sp idx) (at_ imp idx)))) roi mroi cp in
    if aggregate_times then
      rbind (both_dist (fun p => summarise level (over_fixed (inc_of p) (at_ sp)))) (fun v_roi =>
      rbind (both_dist (fun p => summarise level (over_fixed (m_of p) (fun idx => at_ sp idx * increase))))
        (fun v_mroi =>
      rbind (inc 0 1 true true false None false) (fun k_prior =>
      rbind (inc 0 1 true true false None true) (fun k_post =>
      rbind (both_dist (fun p => summarise level (fixed_over (at_ sp) (if p then k_post else k_prior)))) (fun v_cpik =>
      Ok (out (Some v_roi) (Some (fun p => drop_last_channel n (v_mroi p))) (Some v_cpik)))))))
    else Ok (out None None None)))))))))))))))))).

(** analyzer.py:2821-2962 [baseline_summary_metrics]: labels of both dimensions as the user gives
    them (a boolean selection is labelled by the booleans), one channel. *)
Record baseline_summary := mkBaselineSummary {
  bs_geo : option (list string);
  bs_time : option (list string);
  bs_shape : list nat;
  bs_outcome : bool -> variable;
  bs_contribution : bool -> variable
}.
Definition user_time_labels (x : model) (ts : option time_sel) : list string :=
  match ts with
  | None => x_time x
  | Some (TDates l) => l
  | Some (TBools l) => map (fun b : bool => if b then "True"%string else "False"%string) l
  end.
Definition baseline_summary_metrics (f : fitted) (gs : option (list string)) (ts : option time_sel)
    (aggregate_geos aggregate_times : bool) (baseline : option (list baseline_value)) (use_kpi : bool)
    (level : R) (batch_size : Z) : result baseline_summary :=
  let x := f_x f in
  let use_kpi := resolve_use_kpi x use_kpi in
  let geo := if aggregate_geos then None else Some (geo_labels x gs) in
  let time := if aggregate_times then None else Some (user_time_labels x ts) in
  let expected (p : bool) := expected_outcome x no_data gs ts aggregate_geos aggregate_times true use_kpi
                               batch_size (f_draws f p) in
  let base (p : bool) := baseline_expected_outcome x baseline gs ts aggregate_geos aggregate_times true
                           use_kpi batch_size (f_draws f p) in
  rbind (expected false) (fun e_prior => rbind (expected true) (fun e_post =>
  rbind (base false) (fun b_prior => rbind (base true) (fun b_post =>
  let e_of (p : bool) := if p then e_post else e_prior in
  let b_of (p : bool) := if p then b_post else b_prior in
  let sh := match b_post with b :: _ => shape b | [] => [] end in
  raise_if (negb (coords_fit [geo; time] sh)) ValueError (
  rbind (both_dist (fun p => summarise level (fun idx => Some (cell_draws (b_of p) idx)))) (fun v =>
  rbind (both_dist (fun p => summarise level
           (percent (over_fixed (b_of p) (fun idx => mean (cell_draws (e_of p) idx)))))) (fun w =>
  Ok (mkBaselineSummary geo time sh v w)))))))).
