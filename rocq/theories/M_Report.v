(** Model of the report of a budget optimization: meridian/analysis/optimizer.py
    [_create_budget_dataset], [_raise_warning_if_target_constraints_not_met] and the tables of
    [OptimizationResults].  One tensor per draw, as in M_Analyzer; a division by zero gives [None]
    (NaN or infinity).  The labels of dates and the rendering of charts are not modelled. *)
From Coq Require Import Reals ZArith String List Bool Arith.
From Verif Require Import Lib_Sum M_Base M_AdstockHill M_Equations M_Transformers M_Aggregate M_Analyzer
  M_Stats M_Summary.
From Verif Require M_Budget.
Import ListNotations.
Local Open Scope R_scope.

(** optimizer.py:2372-2448 [_get_incremental_outcome_tensors] and 2489-2494: the data an
    optimization reports on when [spend] is spent where [hist] was. *)
Definition report_data (x : model) (hist spend : nat -> R) (nd : data) (opt : option (nat -> R)) : data :=
  let d := fill_missing x nd false false in
  let m := n_chans (d_media (x_data x)) in
  let media := if (0 <? m)%nat then option_map (M_Budget.scaled_media spend hist) (d_media d) else None in
  let rf := if (0 <? n_chans (d_reach (x_data x)))%nat then
              match d_reach d, d_frequency d with
              | Some r, Some q =>
                  Some (M_Budget.dataset_rf (fun c => spend (m + c)%nat) (fun c => hist (m + c)%nat) opt r q)
              | _, _ => None
              end
            else None in
  mkData media (option_map fst rf) (option_map snd rf) None None None None None (d_revenue_per_kpi d).

Record report := mkReport {
  rp_spend : nat -> R;
  rp_pct_of_spend : nat -> R;
  rp_incremental : nat -> option stats;
  rp_effectiveness : nat -> option stats;
  rp_roi : nat -> option stats;
  rp_mroi : nat -> option stats;
  rp_cpik : nat -> option stats;
  rp_budget : R;
  rp_profit : R;
  rp_total_incremental : R;
  rp_total_roi : option R;
  rp_total_cpik : option R;
  rp_is_revenue : bool
}.

(** optimizer.py:2567-2573: the mean over the draws of the budget over the outcome of all channels. *)
Definition total_cpik (budget : R) (totals : list R) : option R :=
  if forallb nonzero totals then Some (mean (map (fun t => budget / t) totals)) else None.

(** optimizer.py:2450-2628 [_create_budget_dataset]; channels numbered from 0, media first. *)
Definition create_budget_dataset (f : fitted) (hist spend : nat -> R) (nd : data) (post use_kpi : bool)
    (gs : option (list string)) (ts : option time_sel) (opt : option (nat -> R)) (level : R) (batch_size : Z)
    : result report :=
  let x := f_x f in
  let n := (n_chans (d_media (x_data x)) + n_chans (d_reach (x_data x)))%nat in
  let d := report_data x hist spend nd opt in
  let budget := rsum n spend in
  let inc (f0 f1 : R) :=
    incremental_outcome x d (mkOptions f0 f1 gs ts None true true true use_kpi true false None)
      batch_size (f_draws f post) in
  rbind (inc 0 1) (fun outcome =>
  rbind (inc 1 (1 + 1 / 100)) (fun marginal =>
  rbind (summarise level (fun idx => Some (cell_draws outcome idx))) (fun v_inc =>
  rbind (get_aggregated_impressions x
           (mkData (d_media d) (d_reach d) (d_frequency d) None None None None None None)
           gs ts true true opt false) (fun imp =>
  rbind (summarise level (over_fixed outcome (at_ imp))) (fun v_eff =>
  let by_spend (idx : list nat) := spend (hd 0%nat idx) in
  rbind (summarise level (over_fixed outcome by_spend)) (fun v_roi =>
  rbind (summarise level (over_fixed marginal (fun idx => by_spend idx * (1 / 100)))) (fun v_mroi =>
  rbind (summarise level (fixed_over by_spend outcome)) (fun v_cpik =>
  let total := rsum n (fun c => match v_inc [c] with Some s => st_mean s | None => 0 end) in
  let totals := map (fun a => rsum n (fun c => at_ a [c])) outcome in
  let whole := if Rlt_dec 0 (rsum n spend) then rsum n spend else 1 in
  Ok (mkReport spend (fun c => spend c / whole)
        (fun c => v_inc [c]) (fun c => v_eff [c]) (fun c => v_roi [c]) (fun c => v_mroi [c]) (fun c => v_cpik [c])
        budget (total - budget) total (fdiv total budget) (total_cpik budget totals)
        (x_kpi_is_revenue x || negb use_kpi))))))))))%bool.

(** optimizer.py:3209-3236: whether a warning is given.  [Some 0] is falsy; comparing with NaN is
    false, but a marginal ROI that is NaN counts as missing the target. *)
Definition warns (target_roi target_mroi : option R) (r : report) (n : nat) : bool :=
  let truthy (o : option R) := match o with Some v => nonzero v | None => false end in
  if truthy target_roi then
    match target_roi, rp_total_roi r with
    | Some t, Some v => if Rlt_dec v t then true else false
    | _, _ => false
    end
  else if truthy target_mroi then
    existsb (fun c => match target_mroi, rp_mroi r c with
                      | Some t, Some s => if Rlt_dec (st_mean s) t then true else false
                      | _, _ => true
                      end) (seq 0 n)
  else false.

(** [sort_values]; pandas leaves the order of ties open, here it is that of the rows. *)
Fixpoint insert_row (le : R -> R -> bool) (a : string * R) (l : list (string * R)) : list (string * R) :=
  match l with
  | [] => [a]
  | b :: l' => if le (snd a) (snd b) then a :: l else b :: insert_row le a l'
  end.
Fixpoint sort_rows (le : R -> R -> bool) (l : list (string * R)) : list (string * R) :=
  match l with [] => [] | a :: l' => insert_row le a (sort_rows le l') end.
Definition rle (a b : R) : bool := if Rle_dec a b then true else false.
Definition is_negative (a : string * R) : bool := if Rlt_dec (snd a) 0 then true else false.

(** optimizer.py:1149-1158 [_get_delta_data]. *)
Definition delta_rows (names : list string) (optimized nonoptimized : nat -> R) : list (string * R) :=
  let rows := map (fun i => (nth i names ""%string, optimized i - nonoptimized i)) (seq 0 (length names)) in
  sort_rows rle (filter is_negative rows)
  ++ sort_rows (fun a b => rle b a) (filter (fun a => negb (is_negative a)) rows).

Definition mean_incremental (r : report) (c : nat) : R :=
  match rp_incremental r c with Some s => st_mean s | None => 0 end.

(** optimizer.py:1160-1169 [_transform_outcome_delta_data]: the bars of the waterfall chart. *)
Definition waterfall_rows (names : list string) (optimized nonoptimized : report) : list (string * R) :=
  (("non_optimized"%string, rp_total_incremental nonoptimized)
   :: delta_rows names (mean_incremental optimized) (mean_incremental nonoptimized))
  ++ [("optimized"%string, 0)].

(** optimizer.py:652-668: where the bars of the chart start and end. *)
Fixpoint bars_from (sum : R) (rows : list (string * R)) : list (string * R * R) :=
  match rows with
  | [] => []
  | (name, v) :: rows' =>
      (name, if String.eqb name "optimized" then 0 else sum + v - v, sum + v) :: bars_from (sum + v) rows'
  end.
Definition waterfall (names : list string) (optimized nonoptimized : report) : list (string * R * R) :=
  bars_from 0 (waterfall_rows names optimized nonoptimized).

(** optimizer.py:1787-1792 [spend_ratio], and 1082-1092, 1047-1052: the limits on a channel's spend
    drawn in the response curve chart, as multiples of historical spend. *)
Definition spend_ratio (nonoptimized hist : nat -> R) (c : nat) : R :=
  if Req_EM_T (hist c) 0 then 0 else nonoptimized c / hist c.
Definition spread_bound (l : list R) (c : nat) : R := match l with [b] => b | _ => nth c l 0 end.
Definition drawn_limit (bounds : list R) (nonoptimized hist : nat -> R) (c : nat) : R :=
  spread_bound bounds c * spend_ratio nonoptimized hist c.

(** optimizer.py:1054-1057: [arange(0, max(max(upper) + 0.5, 2), 0.01)]. *)
Definition ceiling (r : R) : Z := (1 - up (- r))%Z.
Definition curve_multipliers (n : nat) (upper : list R) (nonoptimized hist : nat -> R) : list R :=
  let limit := Rmax (fold_right Rmax 0 (map (drawn_limit upper nonoptimized hist) (seq 0 n)) + 1 / 2) 2 in
  map (fun i => INR i * (1 / 100)) (seq 0 (Z.to_nat (ceiling (limit * 100)))).
