(** Model of meridian/analysis/analyzer.py [predictive_accuracy], of the goodness of fit metrics
    on data with missing values, and of [negative_baseline_probability]. *)
From Coq Require Import Reals ZArith String List Bool Arith.
From Verif Require Import Lib_Sum M_Base M_AdstockHill M_Equations M_Transformers M_Aggregate M_Analyzer M_Stats.
Import ListNotations.
Local Open Scope R_scope.

(** A numpy matrix. *)
Record matrix (B : Type) := mkMatrix { m_rows : nat; m_cols : nat; m_at : nat -> nat -> B }.
Arguments mkMatrix {B}. Arguments m_rows {B}. Arguments m_cols {B}. Arguments m_at {B}.

Definition ravel {B} (a : matrix B) : list B :=
  flat_map (fun i => map (fun j => m_at a i j) (seq 0 (m_cols a))) (seq 0 (m_rows a)).
(** The matrix of a tensor of rank 2. *)
Definition matrix_of (t : tensor) : matrix R :=
  mkMatrix (nth 0 (shape t) 0%nat) (nth 1 (shape t) 0%nat) (fun i j => at_ t [i; j]).

(** [None] is NaN.  [nanmean] and [nanvar] of nothing are NaN, [nansum] of nothing is 0. *)
Definition present (l : list (option R)) : list R :=
  flat_map (fun o => match o with Some r => [r] | None => [] end) l.
Definition nanmean (l : list (option R)) : option R :=
  match present l with [] => None | d => Some (mean d) end.
Definition nansum (l : list (option R)) : R := lsum (present l).
Definition pairwise (f : R -> R -> option R) (a b : list (option R)) : list (option R) :=
  map (fun p => match p with (Some u, Some v) => f u v | _ => None end) (combine a b).
(** backend/__init__.py:737-747 [_tf_nanvar]. *)
Definition nanvar (l : list (option R)) : option R :=
  match nanmean l with
  | Some m => nanmean (map (option_map (fun a => (a - m) ^ 2)) l)
  | None => None
  end.

(** analyzer.py:79-81 [_calc_rsquared]; non-finite results (a zero variance) are [None]. *)
Definition nan_rsquared (expected actual : list (option R)) : option R :=
  match nanmean (pairwise (fun e a => Some ((e - a) ^ 2)) expected actual), nanvar actual with
  | Some n, Some v => option_map (fun q => 1 - q) (fdiv n v)
  | _, _ => None
  end.

(** analyzer.py:84-86 [_calc_mape]: a division of a non-zero number by 0 is infinite and makes
    the mean infinite ([None]); 0/0 is NaN and is skipped by the mean. *)
Definition is_infinite (e a : R) : bool := negb (nonzero a) && nonzero (a - e).
Definition nan_mape (expected actual : list (option R)) : option R :=
  if existsb (fun p => match p with (Some e, Some a) => is_infinite e a | _ => false end)
       (combine expected actual)
  then None
  else nanmean (pairwise (fun e a => option_map Rabs (fdiv (a - e) a)) expected actual).

(** analyzer.py:89-93 [_calc_weighted_mape]. *)
Definition nan_weighted_mape (expected actual : list (option R)) : option R :=
  fdiv (nansum (pairwise (fun e a => Some (Rabs (a - e))) expected actual)) (nansum actual).

(** analyzer.py:3352-3379 [_predictive_accuracy_helper]: the three metrics. *)
Definition accuracy_helper (actual expected : list (option R)) : list (option R) :=
  [nan_rsquared expected actual; nan_mape expected actual; nan_weighted_mape expected actual].

(** context.py:549-551 [is_national]. *)
Definition x_is_national (x : model) : bool := Nat.eqb (x_n_geos x) 1.

(** analyzer.py:3381-3403 [_filter_holdout_id_for_selected_geos_and_times], on the raw arguments:
    a date is never [in] a list of booleans.  The one-dimensional [holdout_id] of a national
    model is a matrix with one row here. *)
Definition pick (keep : list bool) : list nat := positions (fun b => b) keep.
Definition filter_holdout (x : model) (h : matrix bool) (geos : option (list string))
    (times : option time_sel) : matrix bool :=
  let h1 := match geos with
            | Some l => if x_is_national x then h
                        else let k := pick (map (fun g => mem g l) (x_geo x)) in
                             mkMatrix (length k) (m_cols h) (fun i j => m_at h (nth i k 0%nat) j)
            | None => h
            end in
  match times with
  | None => h1
  | Some s =>
      let k := pick (map (fun t => match s with TDates l => mem t l | TBools _ => false end) (x_time x)) in
      mkMatrix (m_rows h1) (length k) (fun i j => m_at h1 i (nth j k 0%nat))
  end.

(** [np.where(holdout_id, nan, a)] ([held = false]) and [np.where(holdout_id, a, nan)], with
    numpy broadcasting. *)
Definition broadcast (n m : nat) : result nat :=
  if Nat.eqb n m then Ok n else if Nat.eqb n 1 then Ok m else if Nat.eqb m 1 then Ok n
  else Err ValueError.
Definition bidx (n i : nat) : nat := if Nat.eqb n 1 then 0%nat else i.
Definition where_held (held : bool) (h : matrix bool) (a : matrix R) : result (matrix (option R)) :=
  rbind (broadcast (m_rows h) (m_rows a)) (fun r =>
  rbind (broadcast (m_cols h) (m_cols a)) (fun c =>
  Ok (mkMatrix r c (fun i j =>
        if Bool.eqb (m_at h (bidx (m_rows h) i) (bidx (m_cols h) j)) held
        then Some (m_at a (bidx (m_rows a) i) (bidx (m_cols a) j)) else None)))).

(** analyzer.py:3310-3312 [nansum] over the geos: NaN when all are NaN. *)
Definition nansum_geos (a : matrix (option R)) : list (option R) :=
  map (fun j => let col := map (fun i => m_at a i j) (seq 0 (m_rows a)) in
                if forallb (fun o => match o with None => true | Some _ => false end) col
                then None else Some (nansum col)) (seq 0 (m_cols a)).
(** [np.sum(a, 0)]. *)
Definition sum_geos (a : matrix R) : list (option R) :=
  map (fun j => Some (rsum (m_rows a) (fun i => m_at a i j))) (seq 0 (m_cols a)).

Inductive metric := RSquared | Mape | WMape.
Inductive granularity := Geo | National.
Inductive evaluation_set := Train | Test | AllData.

(** The returned dataset: labels, and values indexed by metric, granularity and (with a
    holdout) evaluation set. *)
Record dataset := mkDataset {
  ds_metric : list metric;
  ds_granularity : list granularity;
  ds_set : option (list evaluation_set);
  ds_value : list (list (list (option R)))
}.

(** [np.stack([a, b, ...], axis=-1)] of lists of the same length. *)
Definition stack_last {B} (d : B) (l : list (list B)) : list (list B) :=
  map (fun i => map (fun a => nth i a d) l) (seq 0 (length (hd [] l))).

(** [dataset.sel(geo_granularity=[NATIONAL])]. *)
Definition sel_national (d : dataset) : dataset :=
  mkDataset (ds_metric d) [National] (ds_set d)
    (map (fun row => map snd (filter (fun p => match fst p with National => true | Geo => false end)
                                (combine (ds_granularity d) row))) (ds_value d)).

Definition mean_tensor (E : list tensor) (d : tensor) : tensor :=
  mkTensor (shape (hd d E)) (fun idx => mean (map (fun t => at_ t idx) E)).

(** analyzer.py:3206-3350 [predictive_accuracy].  The draws of all chains are one list.
    [holdout_id] comes from the model specification. *)
Definition predictive_accuracy (x : model) (holdout_id : option (matrix bool))
    (geos : option (list string)) (times : option time_sel) (use_kpi : bool) (batch_size : Z)
    (draws : list draw) : result dataset :=
  let use_kpi := resolve_use_kpi x use_kpi in
  rbind (if use_kpi then Ok (of2 (x_kpi x))
         else match d_revenue_per_kpi (x_data x) with
              | Some r => Ok (of2 (mkT2 (geos2 (x_kpi x)) (times2 (x_kpi x))
                                     (fun g t => val2 (x_kpi x) g t * val2 r g t)))
              | None => Err TypeError
              end) (fun input =>
  rbind (package x (x_data x) geos times None []) (fun i =>
  rbind (filter_and_aggregate (counts x) (x_n_geos x) (x_n_times x) input (i_geo i) (i_time i)
           false false false false) (fun at0 =>
  rbind (expected_outcome x no_data geos times false false true use_kpi batch_size draws) (fun E =>
  let actual := matrix_of at0 in
  let expected := matrix_of (mean_tensor E at0) in
  let all := fun a : matrix R => map Some (ravel a) in
  let geo_all := accuracy_helper (all actual) (all expected) in
  let national_all := accuracy_helper (sum_geos actual) (sum_geos expected) in
  let grans := [Geo; National] in
  let metrics := [RSquared; Mape; WMape] in
  rbind (match holdout_id with
         | None =>
             Ok (mkDataset metrics grans None
                   (map (map (fun v => [v])) (stack_last None [geo_all; national_all])))
         | Some h0 =>
             let h := filter_holdout x h0 geos times in
             rbind (where_held false h actual) (fun actual_train =>
             rbind (where_held true h actual) (fun actual_test =>
             rbind (where_held false h expected) (fun expected_train =>
             rbind (where_held true h expected) (fun expected_test =>
             let geo_train := accuracy_helper (ravel actual_train) (ravel expected_train) in
             let national_train :=
               accuracy_helper (nansum_geos actual_train) (nansum_geos expected_train) in
             let geo_test := accuracy_helper (ravel actual_test) (ravel expected_test) in
             let national_test :=
               accuracy_helper (nansum_geos actual_test) (nansum_geos expected_test) in
             let train := stack_last None [geo_train; national_train] in
             let test := stack_last None [geo_test; national_test] in
             let alls := stack_last None [geo_all; national_all] in
             Ok (mkDataset metrics grans (Some [Train; Test; AllData])
                   (map (fun m => stack_last None (map (fun a => nth m a []) [train; test; alls]))
                      (seq 0 (length train))))))))
         end) (fun d =>
  Ok (if x_is_national x then sel_national d else d)))))).

(** analyzer.py:4658-4730 [negative_baseline_probability]: the share of draws whose baseline
    outcome, summed over geos and times, is negative. *)
Definition negative_baseline_probability (x : model) (values : option (list baseline_value))
    (geos : option (list string)) (times : option time_sel) (use_kpi : bool) (batch_size : Z)
    (draws : list draw) : result R :=
  rbind (baseline_expected_outcome x values geos times true true true use_kpi batch_size draws) (fun B =>
  Ok (mean (map (fun t : tensor => if Rlt_dec (at_ t []) 0 then 1 else 0) B))).
