(** Model of [WeeklyOptimizationGrid.create] of meridian/analysis/weekly_optimization_grid.py: the
    outcomes and the spend it stores.  Its multipliers are those of M_Weekly ([create_multipliers]);
    new data has the periods of the model and no [time].  Floats are exact reals and the leading
    (chain, draw) dimensions a list of draws. *)
From Coq Require Import Reals ZArith String List Bool Arith.
From Verif Require Import Lib_Sum M_Base M_AdstockHill M_Equations M_Transformers M_Aggregate M_Analyzer
  M_Stats M_Summary M_Spend M_ChannelMaps.
Import ListNotations.
Local Open Scope R_scope.
Local Open Scope list_scope.

(** weekly_optimization_grid.py:450, 460: media times a multiplier. *)
Definition times_multiplier (m : R) (y : T3) : T3 :=
  mkT3 (geos y) (times y) (chans y) (fun g t c => val y g t c * m).
(** weekly_optimization_grid.py:468, 492: [media_t1 - media_t0]. *)
Definition minus3 (a b : T3) : T3 :=
  mkT3 (geos a) (times a) (chans a) (fun g t c => val a g t c - val b g t c).

(** The tensors the batches run on. *)
Record weekly_data := mkWeeklyData {
  wd_media : option T3;       (* scaled *)
  wd_reach : option T3;       (* scaled *)
  wd_frequency : option T3;
  wd_revenue : T2             (* of the selected weeks *)
}.

(** weekly_optimization_grid.py:446-505: the change of the transformed media of all channels with
    their coefficients; [n_times_output] is the number of periods. *)
Definition media_change (x : model) (d : weekly_data) (w : draw) (m : R) : result part :=
  let n := Some (Z.of_nat (length (x_time x))) in
  rbind (media_part (wd_media d)
           (fun y => rbind (adstock_hill_media (x_cx x) (times_multiplier m y) (w_media w) (x_decay_media x) (x_sat_media x) n) (fun a =>
                     rbind (adstock_hill_media (x_cx x) (times_multiplier 0 y) (w_media w) (x_decay_media x) (x_sat_media x) n) (fun b =>
                     Ok (minus3 a b)))) (n_par (w_media w), w_beta_gm w)) (fun l1 =>
  rbind (rf_part (wd_reach d) (wd_frequency d)
           (fun r f => rbind (adstock_hill_rf (x_cx x) (times_multiplier m r) f (w_rf w) (x_decay_rf x) (x_sat_rf x) n) (fun a =>
                       rbind (adstock_hill_rf (x_cx x) (times_multiplier 0 r) f (w_rf w) (x_decay_rf x) (x_sat_rf x) n) (fun b =>
                       Ok (minus3 a b)))) (n_par (w_rf w), w_beta_grf w)) (fun l2 =>
  concat_parts (l1 ++ l2))).

(** weekly_optimization_grid.py:507-508, 223-224: [backend.gather] along the periods. *)
Definition gather3 (idx : option (list nat)) (y : T3) : T3 :=
  match idx with
  | None => y
  | Some l => mkT3 (geos y) (length l) (chans y) (fun g t c => val y g (nth t l 0%nat) c)
  end.
Definition gather2 (idx : option (list nat)) (y : T2) : T2 :=
  match idx with
  | None => y
  | Some l => mkT2 (geos2 y) (length l) (fun g t => val2 y g (nth t l 0%nat))
  end.

(** weekly_optimization_grid.py:510-533, one draw: the einsums need equal dimensions. *)
Definition weekly_outcome (x : model) (d : weekly_data) (idx : option (list nat)) (use_kpi : bool) (m : R)
    (w : draw) : result T3 :=
  rbind (media_change x d w m) (fun p =>
  let y := gather3 idx (fst p) in
  raise_if (negb (Nat.eqb (chans y) (fst (snd p)))) ValueError (
  let kpi := fun g t c => kpi_inverse (kpi_tr x) g (val y g t c * snd (snd p) g c) - kpi_inverse (kpi_tr x) g 0 in
  if use_kpi then Ok (mkT3 (geos y) (times y) (chans y) kpi)
  else
    let r := wd_revenue d in
    raise_if (negb (Nat.eqb (geos2 r) (geos y) && Nat.eqb (times2 r) (times y))) ValueError (
    Ok (mkT3 (geos y) (times y) (chans y) (fun g t c => val2 r g t * kpi g t c))))).

(** weekly_optimization_grid.py:535-542: the mean over the draws, then the sum over the geos; a
    table of weeks and channels.  The mean of no draws (NaN) is not modelled. *)
Definition outcome_of_multiplier (x : model) (d : weekly_data) (idx : option (list nat)) (use_kpi : bool)
    (draws : list draw) (m : R) : result (list (list R)) :=
  rbind (mapM (weekly_outcome x d idx use_kpi m) draws) (fun ys =>
  match ys with
  | [] => Err ValueError
  | y :: _ =>
      Ok (map (fun t => map (fun c =>
            rsum (geos y) (fun g => lsum (map (fun z => val z g t c) ys) / INR (length ys)))
          (seq 0 (chans y))) (seq 0 (times y)))
  end).

(** weekly_optimization_grid.py:307-308: slices of [multiplier_batch_size] elements. *)
Fixpoint batches {A} (fuel b : nat) (l : list A) : list (list A) :=
  match fuel, l with
  | S k, _ :: _ => firstn b l :: batches k b (skipn b l)
  | _, _ => []
  end.

(** The stored arrays: outcome by channel, multiplier and week; spend by channel and week. *)
Record weekly_table := mkWeekly {
  wt_channel : list string;
  wt_multiplier : list R;
  wt_time : list string;
  wt_outcome : list (list (list R));
  wt_spend : list (list (option R))
}.

(** [all_times.index(t)]. *)
Definition position_of (all : list string) (t : string) : result nat :=
  match index_of t all with Some i => Ok i | None => Err ValueError end.

(** weekly_optimization_grid.py:226-295: the tensors.  [optimum] is the result of
    [Analyzer.optimal_freq] when [use_optimal_frequency].  A kind of channels has its transformer
    (media.py:112, 269), so the branches without one are not modelled. *)
Definition weekly_tensors (x : model) (d : data) (optimum : option (nat -> R)) (idx : option (list nat))
    : weekly_data :=
  let rpk := match d_revenue_per_kpi d with
             | Some r => r
             | None => mkT2 (x_n_geos x) (length (x_time x)) (fun _ _ => 1)
             end in
  let rf := match optimum, d_reach d, d_frequency d with
            | Some q, Some r, Some f =>
                (Some (mkT3 (geos r) (times r) (chans r) (fun g t c => divide_no_nan (val r g t c * val f g t c) (q c))),
                 Some (mkT3 (geos f) (times f) (chans f) (fun _ _ c => q c)))
            | _, r, f => (r, f)
            end in
  mkWeeklyData (transform_media (d_media d) (x_media_transformer x))
    (transform_media (fst rf) (x_reach_transformer x)) (snd rf) (gather2 idx rpk).

(** weekly_optimization_grid.py:145-370 [create] after the checks of its arguments.  [selected]:
    the labels of the weeks from [_expand_selected_times] (C20). *)
Definition create (f : fitted) (nd : new_tensors) (use_posterior use_kpi : bool) (optimum : option (nat -> R))
    (selected : option (list string)) (multipliers : list R) (batch_size : Z) : result weekly_table :=
  let x := f_x f in
  let d := fill_missing x (nt_data nd) false false in
  let all_times := x_time x in
  rbind (match selected with
         | None => Ok None
         | Some l => rbind (mapM (position_of all_times) l) (fun idx => Ok (Some idx))
         end) (fun idx =>
  rbind (get_aggregated_spend f nd None (Some (TDates all_times)) false
           (0 <? n_chans (d_media (x_data x)))%nat (0 <? n_chans (d_reach (x_data x)))%nat) (fun spend =>
  let labels := match selected with None => all_times | Some l => l end in
  let t := weekly_tensors x d optimum idx in
  let b := Z.to_nat (Z.max 1 batch_size) in
  rbind (mapM (mapM (outcome_of_multiplier x t idx use_kpi (f_draws f use_posterior)))
           (batches (length multipliers) b multipliers)) (fun outs =>
  let outcomes := concat outs in
  match outcomes with
  | [] => Err ValueError               (* np.concatenate of nothing *)
  | o :: _ =>
      let channels := f_paid_names f in
      raise_if (negb (Nat.eqb (length o) (length labels)
                      && Nat.eqb (length (hd [] o)) (length channels))) ValueError (
      Ok (mkWeekly channels multipliers labels
            (map (fun c => map (fun table => map (fun row => nth c row 0) table) outcomes)
               (seq 0 (length channels)))
            (map (fun c => map (fun j => tb_at spend [j; c])
                             (match idx with None => seq 0 (length all_times) | Some l => l end))
               (seq 0 (length (tb_channel spend))))))
  end))).
