(** Model of meridian/analysis/analyzer.py [expected_vs_actual_data]: expected, baseline and
    actual outcomes with credible intervals, by evaluation set. *)
From Coq Require Import Reals ZArith String List Bool Arith.
From Verif Require Import Lib_Sum M_Base M_AdstockHill M_Equations M_Transformers M_Aggregate M_Analyzer M_Stats
  M_Accuracy.
Import ListNotations.
Local Open Scope R_scope.
Local Open Scope nat_scope.
Local Open Scope list_scope.

(** A numpy array whose entries may be NaN ([None]). *)
Record ntensor := mkN { n_shape : list nat; n_at : list nat -> option R }.

(** A sum with a NaN is NaN. *)
Definition nadd (a b : option R) : option R :=
  match a, b with Some u, Some v => Some (u + v)%R | _, _ => None end.
Definition nan_sum (l : list (option R)) : option R := fold_right nadd (Some 0%R) l.
Definition n_sum_axis (x : ntensor) (axis : nat) : ntensor :=
  mkN (remove_at axis (n_shape x))
    (fun idx => nan_sum (map (fun i => n_at x (insert_at axis i idx)) (seq 0 (nth axis (n_shape x) 0)))).

(** analyzer.py:595-701 [filter_and_aggregate_by_indices] without indices, on an array that may
    hold NaN (M_Aggregate.filter_and_aggregate for the general case). *)
Definition n_aggregate (k : channel_counts) (n_geos n_times : nat) (x : ntensor)
    (aggregate_geos aggregate_times : bool) : result ntensor :=
  rbind (resolve_media_dim k n_geos n_times (mkTensor (n_shape x) (fun _ => 0%R)) false false) (fun media_dim =>
  let m := if media_dim then 1 else 0 in
  let geo_dim := length (n_shape x) - 2 - m in
  let time_dim := length (n_shape x) - 1 - m in
  let x1 := if aggregate_times then n_sum_axis x time_dim else x in
  Ok (if aggregate_geos then n_sum_axis x1 geo_dim else x1)).

(** The result of [expected_outcome] with its chain and draw dimensions. *)
Definition by_chain (n_chains n_draws : nat) (E : list tensor) : ntensor :=
  let z := mkTensor [] (fun _ => 0%R) in
  mkN (n_chains :: n_draws :: shape (hd z E))
    (fun idx => match idx with
                | c :: d :: r => Some (at_ (nth (c * n_draws + d) E z) r)
                | _ => None
                end).

Inductive stat := Mean | CiLo | CiHi.
Definition stats_order : list stat := [Mean; CiLo; CiHi].

(** analyzer.py:48-76 [get_central_tendency_and_ci] on one cell: the mean and the quantiles of
    values among which there is a NaN are NaN. *)
Fixpoint all_some (l : list (option R)) : option (list R) :=
  match l with
  | [] => Some []
  | Some v :: r => option_map (cons v) (all_some r)
  | None :: _ => None
  end.
Definition cell_stat (level : R) (vals : list (option R)) (m : stat) : option R :=
  match all_some vals with
  | None => None
  | Some l => match central_tendency_and_ci level l with
              | Ok s => Some (match m with Mean => st_mean s | CiLo => st_lo s | CiHi => st_hi s end)
              | Err _ => None
              end
  end.
(** [np.quantile] refuses levels outside the unit interval, and no data. *)
Definition outside (q : R) : bool :=
  (if Rlt_dec q 0 then true else false) || (if Rlt_dec 1 q then true else false).
Definition check_level {A} (level : R) (n : nat) (r : result A) : result A :=
  raise_if (outside ((1 - level) / 2)) ValueError (
  raise_if (Nat.eqb n 0) IndexError (
  raise_if (outside ((1 + level) / 2)) ValueError r)).

(** The reduction over the axes (0, 1); the statistics are the last axis. *)
Definition reduce_draws (level : R) (x : ntensor) : result ntensor :=
  match n_shape x with
  | a :: b :: rest =>
      check_level level (a * b) (
      Ok (mkN (rest ++ [3]) (fun idx =>
            let cell := removelast idx in
            cell_stat level
              (flat_map (fun c => map (fun d => n_at x (c :: d :: cell)) (seq 0 b)) (seq 0 a))
              (nth (last idx 0) stats_order Mean))))
  | _ => Err ValueError
  end.
(** The reduction over the axes (1, 2), followed by [transpose]: the evaluation sets are the
    last axis, after the statistics. *)
Definition reduce_draws_by_set (level : R) (x : ntensor) : result ntensor :=
  match n_shape x with
  | s :: a :: b :: rest =>
      check_level level (a * b) (
      Ok (mkN (rest ++ [3; s]) (fun idx =>
            let set := last idx 0 in
            let stat_idx := removelast idx in
            let cell := removelast stat_idx in
            cell_stat level
              (flat_map (fun c => map (fun d => n_at x (set :: c :: d :: cell)) (seq 0 b)) (seq 0 a))
              (nth (last stat_idx 0) stats_order Mean))))
  | _ => Err ValueError
  end.

(** [np.where(holdout_id, nan, draws)] ([held = false]) and [np.where(holdout_id, draws, nan)];
    the holdout is broadcast against the last two axes.  The one-dimensional [holdout_id] of a
    national model is a matrix with one row here. *)
Definition n_where (held : bool) (h : matrix bool) (x : ntensor) : result ntensor :=
  match n_shape x with
  | [a; b; g; t] =>
      rbind (broadcast (m_rows h) g) (fun r =>
      rbind (broadcast (m_cols h) t) (fun c =>
      Ok (mkN [a; b; r; c] (fun idx =>
            match idx with
            | [i; j; u; v] =>
                if Bool.eqb (m_at h (bidx (m_rows h) u) (bidx (m_cols h) v)) held
                then n_at x [i; j; bidx g u; bidx t v] else None
            | _ => None
            end))))
  | _ => Err ValueError
  end.
(** [np.stack([a, b, c], axis=0)]. *)
Definition stack3 (a b c : ntensor) : result ntensor :=
  raise_if (negb (shape_eqb (n_shape a) (n_shape b) && shape_eqb (n_shape a) (n_shape c))) ValueError (
  Ok (mkN (3 :: n_shape a)
        (fun idx => match idx with s :: r => n_at (nth s [a; b; c] a) r | [] => None end))).

(** analyzer.py:1999-2067 [_mean_and_ci_by_eval_set]. *)
Definition mean_and_ci_by_eval_set (x : model) (draws : ntensor) (split : option (matrix bool))
    (aggregate_geos aggregate_times : bool) (level : R) : result ntensor :=
  match split with
  | None =>
      rbind (n_aggregate (counts x) (x_n_geos x) (x_n_times x) draws aggregate_geos aggregate_times)
        (reduce_draws level)
  | Some h =>
      rbind (n_where false h draws) (fun train =>
      rbind (n_where true h draws) (fun test =>
      rbind (stack3 train test draws) (fun both =>
      rbind (n_aggregate (counts x) (x_n_geos x) (x_n_times x) both aggregate_geos aggregate_times)
        (reduce_draws_by_set level))))
  end.

(** The returned dataset: coordinates, data variables and attributes. *)
Record fit_table := mkFit {
  f_metric : list stat;
  f_geo : option (list string);
  f_time : option (list string);
  f_set : option (list evaluation_set);
  f_expected : ntensor;
  f_baseline : ntensor;
  f_actual : tensor;
  f_level : R
}.
Definition coord_dim {A} (c : option (list A)) : list nat :=
  match c with Some l => [length l] | None => [] end.

(** analyzer.py:2069-2078 [_can_split_by_holdout_id]: without a holdout nothing is split
    (the warning is not modelled). *)
Definition can_split (split_by_holdout_id : bool) (holdout_id : option (matrix bool)) : option (matrix bool) :=
  if split_by_holdout_id then holdout_id else None.

(** analyzer.py:2080-2184 [expected_vs_actual_data].  The draws of all chains are one list,
    chain after chain.  [xr.Dataset] refuses variables whose sizes differ from the coordinates.
    [holdout_id] comes from the model specification. *)
Definition expected_vs_actual (x : model) (holdout_id : option (matrix bool)) (n_chains n_draws : nat)
    (aggregate_geos aggregate_times use_kpi split_by_holdout_id : bool)
    (values : option (list baseline_value)) (level : R) (batch_size : Z) (draws : list draw)
    : result fit_table :=
  let use_kpi := resolve_use_kpi x use_kpi in
  let split := can_split split_by_holdout_id holdout_id in
  rbind (expected_outcome x no_data None None false false true use_kpi batch_size draws) (fun E =>
  rbind (mean_and_ci_by_eval_set x (by_chain n_chains n_draws E) split aggregate_geos aggregate_times level)
    (fun expected =>
  rbind (baseline_expected_outcome x values None None false false true use_kpi batch_size draws) (fun B =>
  rbind (mean_and_ci_by_eval_set x (by_chain n_chains n_draws B) split aggregate_geos aggregate_times level)
    (fun baseline =>
  rbind (if use_kpi then Ok (of2 (x_kpi x))
         else match d_revenue_per_kpi (x_data x) with
              | Some r => Ok (of2 (mkT2 (geos2 (x_kpi x)) (times2 (x_kpi x))
                                     (fun g t => (val2 (x_kpi x) g t * val2 r g t)%R)))
              | None => Err TypeError
              end) (fun input =>
  rbind (filter_and_aggregate (counts x) (x_n_geos x) (x_n_times x) input None None
           aggregate_geos aggregate_times false false) (fun actual =>
  let geo := if aggregate_geos then None else Some (x_geo x) in
  let time := if aggregate_times then None else Some (x_time x) in
  let sets := match split with Some _ => Some [Train; Test; AllData] | None => None end in
  let actual_dims := coord_dim geo ++ coord_dim time in
  let dims := actual_dims ++ [length stats_order] ++ coord_dim sets in
  raise_if (negb (shape_eqb (n_shape expected) dims && shape_eqb (n_shape baseline) dims
                  && shape_eqb (shape actual) actual_dims)) ValueError (
  Ok (mkFit stats_order geo time sets expected baseline actual level)))))))).
