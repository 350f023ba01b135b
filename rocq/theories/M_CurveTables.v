(** Model of the tables behind the transformation plots of meridian/analysis/analyzer.py:
    [adstock_decay] and [hill_curves].  The chain and draw dimensions are one list of draws;
    floats are exact reals, NaN and infinite entries are [None].  The medians that [stats] also
    carries are not in these tables. *)
From Coq Require Import String Reals ZArith List Bool Arith.
From Verif Require Import Lib_Sum Lib_Pow M_Base M_AdstockHill M_Equations M_Transformers M_Aggregate
  M_Analyzer M_Stats.
Import ListNotations.
Local Open Scope R_scope.

(** The four kinds of channels (constants MEDIA, RF, ORGANIC_MEDIA, ORGANIC_RF). *)
Inductive kind := KMedia | KRf | KOrganicMedia | KOrganicRf.

(** What the two methods read: the model context, the channel names by kind, and the groups
    "prior" and "posterior" of the inference data ([None]: not sampled). *)
Record curve_model := mkCurveModel {
  cm_x : model;
  cm_names : kind -> list string;
  cm_prior : option (list draw);
  cm_posterior : option (list draw)
}.

(** The parameters, decay functions and data of one kind (analyzer.py:379-405 and 3904-3949). *)
Definition kind_params (k : kind) (w : draw) : chan_params :=
  match k with
  | KMedia => w_media w | KRf => w_rf w
  | KOrganicMedia => w_organic_media w | KOrganicRf => w_organic_rf w
  end.
Definition kind_decay (k : kind) (x : model) : decay_arg :=
  match k with
  | KMedia => x_decay_media x | KRf => x_decay_rf x
  | KOrganicMedia => x_decay_organic_media x | KOrganicRf => x_decay_organic_rf x
  end.
(** Media, or the frequency of a kind with reach and frequency. *)
Definition kind_data (k : kind) (x : model) : option T3 :=
  match k with
  | KMedia => d_media (x_data x) | KRf => d_frequency (x_data x)
  | KOrganicMedia => d_organic_media (x_data x) | KOrganicRf => d_organic_frequency (x_data x)
  end.
(** The transformer of a kind; the Hill curve of a kind with reach and frequency has none. *)
Definition kind_transformer (k : kind) (x : model) : option media_transformer :=
  match k with
  | KMedia => x_media_transformer x
  | KOrganicMedia => x_organic_media_transformer x
  | KRf | KOrganicRf => None
  end.
Definition kind_channels (k : kind) (x : model) : nat := n_chans (kind_data k x).

(** A list of results: the first error, if any. *)
Fixpoint collect {A} (l : list (result A)) : result (list A) :=
  match l with
  | [] => Ok []
  | a :: r => rbind a (fun v => rbind (collect r) (fun vs => Ok (v :: vs)))
  end.

(** Labels must be distinct for [DataFrame.pivot] (and [pd.Categorical]). *)
Fixpoint distinct (l : list string) : bool :=
  match l with [] => true | a :: r => negb (existsb (String.eqb a) r) && distinct r end.

Definition is_some {A} (o : option A) : bool := match o with Some _ => true | None => false end.

(** analyzer.py:110-148 [_central_tendency_and_ci_by_prior_and_posterior], one cell of one
    distribution: a NaN among the draws makes every statistic NaN. *)
Definition summarise_draws (level : R) (l : list (option R)) : result (option stats) :=
  rbind (central_tendency_and_ci level (map (fun o => match o with Some v => v | None => 0 end) l))
    (fun s => Ok (if forallb is_some l then Some s else None)).

(** [base ** e] for any real base: a negative base has a real power only for a whole exponent;
    an infinite exponent is [None] (adstock_hill.py:297-301). *)
Definition float_power (base : R) (e : option R) : option R :=
  match e with
  | Some s =>
      if Rlt_dec base 0
      then if Req_EM_T s (IZR (Int_part s)) then Some (powerRZ base (Int_part s)) else None
      else Some (rpow base s)
  | None =>
      if Req_EM_T (Rabs base) 1 then Some 1 else if Rlt_dec (Rabs base) 1 then Some 0 else None
  end.

(** adstock_hill.py:167-205 [_compute_single_decay_function_weights] with [normalize=False] at
    the (real) lag [l], for [alpha] in [0, 1]. *)
Definition decay_at (binomial : bool) (alpha : R) (window_size : nat) (l : R) : option R :=
  if binomial then float_power (1 - l / INR window_size) (map_alpha_for_binomial_decay alpha)
  else Some (rpow alpha l).

(** adstock_hill.py:102-164 [compute_decay_weights] with [normalize=False]: by channel and lag.
    As in M_AdstockHill, a list of names has one name per channel or one for all. *)
Definition decay_effects (n_alpha : nat) (alpha : nat -> R) (window_size : nat) (df : decay_arg)
    : result (nat -> R -> option R) :=
  match df with
  | DOne OtherDecay => Err ValueError
  | DOne d => Ok (fun c l => decay_at (is_binomial d) (alpha c) window_size l)
  | DSeq ds =>
      if Nat.eqb (length ds) n_alpha
      then Ok (fun c l => decay_at (is_binomial (nth c ds OtherDecay)) (alpha c) window_size l)
      else match ds with
           | [d] => Ok (fun c l => decay_at (is_binomial d) (alpha c) window_size l)
           | _ => Err ValueError
           end
  end.

(** constants.py:790-791. *)
Definition DEFAULT_STEPS : Z := 5.
Definition MAX_TOTAL_STEPS : Z := 1000.

(** analyzer.py:3784-3795: the number of steps by time period and [np.arange(0, max_lag,
    1 / steps)].  Exact arithmetic; the length of the float range is the exact one. *)
Definition steps_per_period (max_lag : Z) : Z :=
  Z.min DEFAULT_STEPS (MAX_TOTAL_STEPS / Z.max max_lag 1).
Definition lag_range (max_lag : Z) : result (list R) :=
  let steps := steps_per_period max_lag in
  if (steps =? 0)%Z then Err ZeroDivisionError
  else Ok (map (fun i => INR i / IZR steps) (seq 0 (Z.to_nat (Z.max max_lag 1 * steps)))).

(** [float.is_integer]. *)
Definition is_integer (v : R) : bool := if Req_EM_T v (IZR (Int_part v)) then true else false.

(** One row of the table of [adstock_decay]. *)
Record decay_row := mkDecayRow {
  dr_channel : string;
  dr_time : R;                      (* time_units *)
  dr_posterior : bool;              (* distribution *)
  dr_stats : option stats;          (* mean, ci_lo, ci_hi *)
  dr_is_int : bool                  (* is_int_time_unit *)
}.

(** analyzer.py:351-455 [_get_adstock_dataframe] and 3811-3830: the rows of one kind.  Rows are
    listed by channel in the order of the data; pandas sorts them by channel name. *)
Definition decay_rows (f : curve_model) (prior posterior : list draw) (lags : list R) (level : R)
    (k : kind) : result (list decay_row) :=
  let x := cm_x f in
  let n := kind_channels k x in
  let names := cm_names f k in
  if Nat.eqb n 0 then Ok [] else
  let window_size := Nat.min (Z.to_nat (ctx_max_lag (x_cx x)) + 1) (ctx_n_media_times (x_cx x)) in
  let effects ws := collect (map (fun w =>
    decay_effects n (p_alpha (kind_params k w)) window_size (kind_decay k x)) ws) in
  rbind (effects prior) (fun e_prior =>
  rbind (effects posterior) (fun e_posterior =>
  raise_if (negb (Nat.eqb (length names) n) || negb (distinct names)) ValueError (
  collect (flat_map (fun c => flat_map (fun l => map (fun post : bool =>
    rbind (summarise_draws level
             (map (fun e => e c l) (if post then e_posterior else e_prior))) (fun s =>
    Ok (mkDecayRow (nth c names EmptyString) l post s (is_integer l)))) [true; false])
    lags) (seq 0 n))))).

(** analyzer.py:3763-3859 [adstock_decay]; [RuntimeError] stands for NotFittedModelError.
    Concatenating no tables raises. *)
Definition adstock_decay (f : curve_model) (level : R) : result (list decay_row) :=
  match cm_prior f, cm_posterior f with
  | Some prior, Some posterior =>
      rbind (lag_range (ctx_max_lag (x_cx (cm_x f)))) (fun lags =>
      rbind (collect (map (decay_rows f prior posterior lags level)
               [KMedia; KRf; KOrganicMedia; KOrganicRf])) (fun tables =>
      match concat tables with [] => Err ValueError | rows => Ok rows end))
  | _, _ => Err RuntimeError
  end.

(** constants.py:792. *)
Definition HILL_NUM_STEPS : nat := 500.

(** One row of the first table of [hill_curves]. *)
Record hill_row := mkHillRow {
  hl_channel : string;
  hl_posterior : bool;
  hl_stats : stats;
  hl_media_units : R
}.

(** analyzer.py:3904-3949: the tensor whose maximum by channel ends the axis: scaled media, or
    frequency. *)
Definition hill_data (k : kind) (x : model) : option T3 :=
  match k with
  | KMedia | KOrganicMedia => transform_media (kind_data k x) (kind_transformer k x)
  | KRf | KOrganicRf => kind_data k x
  end.

(** analyzer.py:3957-3961 [np.linspace(0, linspace_max_values, HILL_NUM_STEPS)]. *)
Definition linspace (y : T3) (s c : nat) : R :=
  INR s * (list_max (channel_values y c) / INR (HILL_NUM_STEPS - 1)).

(** analyzer.py:3861-4037 [_get_hill_curves_dataframe]: the values, pivoted to rows sorted by
    channel (in the order of the data), position on the axis and distribution ("posterior" before
    "prior"); the media units are then written into the rows by position. *)
Definition hill_rows (f : curve_model) (prior posterior : list draw) (level : R) (k : kind)
    : result (list hill_row) :=
  let x := cm_x f in
  match hill_data k x with
  | None => Err ValueError
  | Some y =>
      let n := chans y in
      let names := cm_names f k in
      let expanded := mkT3 1 HILL_NUM_STEPS n (fun _ s c => linspace y s c) in
      let values ws := collect (map (fun w =>
        let p := kind_params k w in
        hill_forward expanded (n_par p) (p_ec p) (n_par p) (p_slope p)) ws) in
      rbind (values prior) (fun v_prior =>
      rbind (values posterior) (fun v_posterior =>
      raise_if (negb (Nat.eqb (length names) n) || negb (distinct names)) ValueError (
      rbind (collect (flat_map (fun c => flat_map (fun s => map (fun post : bool =>
          rbind (central_tendency_and_ci level
                   (map (fun v => val v 0%nat s c) (if post then v_posterior else v_prior)))
            (fun st => Ok (nth c names EmptyString, post, st))) [true; false])
          (seq 0 HILL_NUM_STEPS)) (seq 0 n))) (fun pivot =>
      let x_range s c := match kind_transformer k x with
                         | Some tr => linspace y s c * population_scaled_median_m tr c
                         | None => linspace y s c
                         end in
      let x_range_list :=
        flat_map (fun c => map (fun s => x_range s c) (seq 0 HILL_NUM_STEPS)) (seq 0 n) in
      let media_units_arr := flat_map (fun v => [v; v]) x_range_list in
      raise_if (negb (Nat.eqb (length media_units_arr) (length pivot))) ValueError (
      Ok (map (fun r => match r with ((name, post, st), u) => mkHillRow name post st u end)
            (combine pivot media_units_arr)))))))
  end.

(** [np.histogram(l, bins=n_bins, density=True)] of a non-empty list: equal bins from the least
    to the greatest value (half a unit to either side of a single value), each closed on the left,
    the last one closed. *)
Definition hist_first (l : list R) : R :=
  if Req_EM_T (list_min l) (list_max l) then list_min l - 1 / 2 else list_min l.
Definition hist_last (l : list R) : R :=
  if Req_EM_T (list_min l) (list_max l) then list_max l + 1 / 2 else list_max l.
Definition hist_edge (l : list R) (n_bins i : nat) : R :=
  hist_first l + INR i * ((hist_last l - hist_first l) / INR n_bins).
Definition hist_bin (l : list R) (n_bins : nat) (v : R) : nat :=
  Nat.min (n_bins - 1)
    (Z.to_nat (Int_part ((v - hist_first l) / (hist_last l - hist_first l) * INR n_bins))).
Definition hist_count (l : list R) (n_bins i : nat) : nat :=
  length (filter (fun v => Nat.eqb (hist_bin l n_bins v) i) l).
Definition hist_density (l : list R) (n_bins i : nat) : R :=
  INR (hist_count l n_bins i) / (hist_edge l n_bins (S i) - hist_edge l n_bins i) / INR (length l).

(** One row of the second table of [hill_curves]. *)
Record hist_row := mkHistRow {
  hr_channel : string;
  hr_kind : kind;
  hr_scaled : R;                    (* scaled_count_histogram *)
  hr_count : R;                     (* count_histogram *)
  hr_start : R;                     (* start_interval_histogram *)
  hr_end : R                        (* end_interval_histogram *)
}.

(** analyzer.py:4039-4095 [_get_channel_hill_histogram_dataframe] for one channel: a channel
    without values is skipped; [n_bins < 1] raises in numpy. *)
Definition channel_histogram (k : kind) (name : string) (l : list R) (n_bins : nat)
    : result (list hist_row) :=
  match l with
  | [] => Ok []
  | _ =>
      raise_if (Nat.eqb n_bins 0) ValueError (
      let counts := map (hist_density l n_bins) (seq 0 n_bins) in
      let max_counts := if Rlt_dec 0 (list_max counts) then list_max counts else 1 in
      Ok (map (fun i => mkHistRow name k (hist_density l n_bins i / max_counts)
                          (hist_density l n_bins i) (hist_edge l n_bins i) (hist_edge l n_bins (S i)))
            (seq 0 n_bins)))
  end.

(** analyzer.py:4097-4216 [_get_hill_histogram_dataframe], one kind: media units by capita, or
    frequency, of every geo and time. *)
Definition hist_data (k : kind) (x : model) : option T3 :=
  match k with
  | KMedia | KOrganicMedia =>
      match hill_data k x, kind_transformer k x with
      | Some y, Some tr => Some (mkT3 (geos y) (times y) (chans y)
                                   (fun g t c => val y g t c * population_scaled_median_m tr c))
      | _, _ => None
      end
  | KRf | KOrganicRf => kind_data k x
  end.
Definition kind_histograms (f : curve_model) (n_bins : nat) (k : kind) : result (list hist_row) :=
  match hist_data k (cm_x f) with
  | None => Ok []
  | Some y =>
      rbind (collect (map (fun c =>
        channel_histogram k (nth c (cm_names f k) EmptyString) (channel_values y c) n_bins)
        (seq 0 (length (cm_names f k))))) (fun tables => Ok (concat tables))
  end.

(** analyzer.py:4218-4274 [hill_curves]: the curves and the histograms (pandas puts one table
    below the other). *)
Definition hill_curves (f : curve_model) (level : R) (n_bins : nat)
    : result (list hill_row * list hist_row) :=
  match cm_prior f, cm_posterior f with
  | Some prior, Some posterior =>
      rbind (collect (map (fun k => if Nat.eqb (kind_channels k (cm_x f)) 0 then Ok []
                                    else hill_rows f prior posterior level k)
               [KMedia; KRf; KOrganicMedia; KOrganicRf])) (fun curves =>
      rbind (collect (map (kind_histograms f n_bins)
               [KRf; KMedia; KOrganicMedia; KOrganicRf])) (fun hists =>
      Ok (concat curves, concat hists)))
  | _, _ => Err RuntimeError
  end.
