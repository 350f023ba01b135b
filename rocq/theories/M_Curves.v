(** Model of [optimal_freq] and [response_curves] of meridian/analysis/analyzer.py.  Conventions
    of M_Analyzer and M_Summary; [time] is not part of the new data (it is filled with the
    historical dates, which is what the other calculations read without it). *)
From Coq Require Import Reals ZArith String List Bool Arith.
From Verif Require Import Lib_Sum M_Base M_AdstockHill M_Equations M_Transformers M_Aggregate M_Analyzer
  M_Stats M_Summary.
Import ListNotations.
Local Open Scope R_scope.

(** constants.py:775-778 and analyzer.py:2301: defaults. *)
Definition default_level : R := 9 / 10.
Definition default_batch : Z := 100.
Definition default_increase : R := 1 / 100.

(** New data for [optimal_freq]: the fields it reads.  All others are dropped with a warning
    (tensors.py:702-723, 869-909), [reach] and [frequency] among them. *)
Record rf_tensors := mkRf {
  rn_impressions : option T3;
  rn_spend : option spend;
  rn_revenue : option T2;
  rn_ignored : data
}.

(** media.py:265-267: [reach * frequency]. *)
Definition product (r q : option T3) : option T3 :=
  match r, q with
  | Some a, Some b => Some (mkT3 (geos a) (times a) (chans a) (fun g t c => val a g t c * val b g t c))
  | _, _ => None
  end.

(** tensors.py:1009-1109 [_build_unscaled_data_tensors] with [optimal_frequency] and
    [insert_dummy_media]: the impressions at frequency [q c]; media and media spend all ones. *)
Definition ones3 (g t c : nat) : T3 := mkT3 g t c (fun _ _ _ => 1).
Definition at_optimal (f : fitted) (nd : rf_tensors) (q : nat -> R) : new_tensors :=
  let x := f_x f in
  let imp := orelse (rn_impressions nd) (product (d_reach (x_data x)) (d_frequency (x_data x))) in
  let reach := option_map (fun y => mkT3 (geos y) (times y) (chans y) (fun g t c => val y g t c / q c)) imp in
  let freq := option_map (fun y => mkT3 (geos y) (times y) (chans y) (fun _ _ c => q c)) imp in
  let rpk := orelse (rn_revenue nd) (d_revenue_per_kpi (x_data x)) in
  let d := mkData None reach freq None None None None None rpk in
  let n_m := match get_modified_times x d with Some (S n) => S n | _ => x_n_media_times x end in
  let n_t := match get_modified_times x d with Some (S n) => S n | _ => x_n_times x end in
  let m := n_chans (d_media (x_data x)) in
  let dummy {A} (y : A) := if (0 <? m)%nat then Some y else None in
  mkNew (mkData (dummy (ones3 (x_n_geos x) n_m m)) reach freq None None None None None rpk)
        (mkSpend (dummy (Spend3 (ones3 (x_n_geos x) n_t m))) (orelse (rn_spend nd) (s_rf (f_spend f)))).

(** The draws of one cell ([None]: some draw is not finite). *)
Definition xcell_draws (l : list xtensor) (idx : list nat) : option (list R) :=
  fold_right (fun a acc => match xat a idx, acc with Some v, Some r => Some (v :: r) | _, _ => None end)
    (Some []) l.

(** [np.nanargmax] of one column: the first index of the largest value.  A column without finite
    value raises (all NaN; an infinite ROI, of a channel with outcome and no spend, is not
    modelled). *)
Fixpoint nanargmax_from (i : nat) (best : option (nat * R)) (l : list (option R)) : option (nat * R) :=
  match l with
  | [] => best
  | None :: r => nanargmax_from (S i) best r
  | Some v :: r =>
      match best with
      | Some (_, b) => if Rlt_dec b v then nanargmax_from (S i) (Some (i, v)) r else nanargmax_from (S i) best r
      | None => nanargmax_from (S i) (Some (i, v)) r
      end
  end.
Definition nanargmax (l : list (option R)) : result nat :=
  match nanargmax_from 0 None l with Some (i, _) => Ok i | None => Err ValueError end.

(** [np.arange(1, max_freq, 0.1)] (floats as reals). *)
Definition default_grid (max_freq : R) : list R :=
  map (fun i => 1 + INR i / 10) (seq 0 (Z.to_nat (- Int_part (- ((max_freq - 1) * 10))))).
(** [np.max] over a tensor. *)
Definition max3 (y : T3) : R :=
  list_max (flat_map (fun g => flat_map (fun t => map (fun c => val y g t c) (seq 0 (chans y)))
                                 (seq 0 (times y))) (seq 0 (geos y))).

(** The data set returned by [optimal_freq]; variables per RF channel. *)
Record optimal := mkOptimal {
  of_grid : list R;
  of_roi : list (nat -> option stats);    (* by frequency, then channel *)
  of_frequency : list R;                  (* optimal frequency, by channel *)
  of_outcome : nat -> option stats;
  of_effectiveness : nat -> option stats;
  of_optimized_roi : nat -> option stats;
  of_mroi_by_reach : nat -> option stats;
  of_mroi_by_frequency : nat -> option stats;
  of_cpik : nat -> option stats
}.

(** [.sel(channel=rf_channel, distribution=...)] of a variable (channel names are unique). *)
Definition select_rf (m : nat) (v : option (bool -> variable)) (post : bool) (c : nat) : option stats :=
  match v with Some w => w post [(m + c)%nat] | None => None end.

(** analyzer.py:2964-3204 [optimal_freq].  The two [summary_metrics] calls use the default
    confidence level. *)
Definition optimal_freq (f : fitted) (nd : rf_tensors) (max_frequency : option R) (freq_grid : option (list R))
    (use_posterior use_kpi : bool) (gs : option (list string)) (ts : option time_sel) (level : R)
    : result optimal :=
  let x := f_x f in
  let use_kpi := resolve_use_kpi x use_kpi in
  let n_rf := n_chans (d_reach (x_data x)) in
  let m := n_chans (d_media (x_data x)) in
  raise_if (Nat.eqb n_rf 0) ValueError (
  let max_freq := match max_frequency with
                  | Some v => if Req_EM_T v 0 then match d_frequency (x_data x) with Some y => max3 y | None => 0 end else v
                  | None => match d_frequency (x_data x) with Some y => max3 y | None => 0 end
                  end in
  let grid := match freq_grid with Some l => l | None => default_grid max_freq end in
  rbind (mapM (fun q =>
           rbind (roi f use_posterior (at_optimal f nd (fun _ => q)) gs ts true use_kpi default_batch) (fun I =>
           rbind (summarise level (xcell_draws I)) (fun v =>
           Ok (fun c => v [(m + c)%nat])))) grid) (fun metric_grid =>
  rbind (mapM (fun c => nanargmax (map (fun v : nat -> option stats => option_map st_mean (v c)) metric_grid))
           (seq 0 n_rf)) (fun idx =>
  let best := map (fun i => nth i grid 0) idx in
  let nd' := at_optimal f nd (fun c => nth c best 0) in
  let metrics by_reach := summary_metrics f nd' by_reach default_increase gs ts true true None use_kpi
                            default_level default_batch false None in
  rbind (metrics true) (fun s1 =>
  rbind (metrics false) (fun s2 =>
  let get v := select_rf m v use_posterior in
  Ok (mkOptimal grid metric_grid best (get (Some (sm_incremental s1))) (get (sm_effectiveness s1))
        (get (sm_roi s1)) (get (sm_mroi s1)) (get (sm_mroi s2)) (get (sm_cpik s1)))))))).

(** One point of the response curves: mean and interval (the median is not reported). *)
Record point := mkPoint { pt_mean : R; pt_lo : R; pt_hi : R }.
Definition to_point (s : stats) : point := mkPoint (st_mean s) (st_lo s) (st_hi s).
Definition zero_point : point := mkPoint 0 0 0.
Record curves := mkCurves {
  cv_multipliers : list R;
  cv_channels : list string;
  cv_spend : list (nat -> R);                 (* by multiplier, then channel *)
  cv_outcome : list (nat -> option point)
}.

(** [list(np.arange(0, 2.2, 0.2))]. *)
Definition default_multipliers : list R := map (fun i => INR i / 5) (seq 0 11).

(** analyzer.py:3571-3761 [response_curves].  The optimal frequency is always that of the
    posterior. *)
Definition response_curves (f : fitted) (nd : new_tensors) (multipliers : option (list R)) (use_posterior : bool)
    (gs : option (list string)) (ts : option time_sel) (by_reach use_optimal_frequency use_kpi : bool)
    (level : R) (batch_size : Z) : result curves :=
  let x := f_x f in
  let d := fill_missing x (nt_data nd) false false in
  let s := fill_spend f (nt_spend nd) in
  rbind (if negb (Nat.eqb (n_chans (d_reach (x_data x))) 0) && use_optimal_frequency then
           rbind (optimal_freq f (mkRf (product (d_reach d) (d_frequency d)) (s_rf s) (d_revenue_per_kpi d) no_data)
                    None None true use_kpi gs ts default_level) (fun o =>
           let q c := nth c (of_frequency o) 0 in
           Ok (option_map (fun y => mkT3 (geos y) (times y) (chans y) (fun g t c => val y g t c / q c))
                 (product (d_reach d) (d_frequency d)),
               option_map (fun y => mkT3 (geos y) (times y) (chans y) (fun _ _ c => q c)) (d_frequency d)))
         else Ok (d_reach d, d_frequency d)) (fun rf =>
  let ms := match multipliers with Some l => l | None => default_multipliers end in
  let adjusted := mkData (d_media d) (fst rf) (snd rf) None None None None None (d_revenue_per_kpi d) in
  rbind (mapM (fun m =>
           if Req_EM_T m 0 then Ok (fun _ => Some zero_point) else
           rbind (incremental_outcome x adjusted (roi_options 0 m gs ts true use_kpi by_reach) batch_size
                    (f_draws f use_posterior)) (fun I =>
           rbind (summarise level (fun idx => Some (cell_draws I idx))) (fun v =>
           Ok (fun c => option_map to_point (v [c]))))) ms) (fun out =>
  rbind (total_spend s) (fun t =>
  rbind (match t with
         | None => Err TypeError
         | Some (Spend1 n u) => Ok u
         | Some (Spend3 y) =>
             rbind (package x d gs ts None []) (fun i =>
             rbind (filter_and_aggregate (counts x) (x_n_geos x) (x_n_times x) (of3 y) (i_geo i) (i_time i)
                      true true true true) (fun a =>
             Ok (fun c => at_ a [c])))
         end) (fun u =>
  Ok (mkCurves ms (f_paid_names f) (map (fun m c => m * u c) ms) out))))).
