(** Model of the charts of response curves (meridian/analysis/visualizer.py [MediaEffects.plot_response_curves],
    meridian/analysis/optimizer.py [OptimizationResults.plot_response_curves]) and of the range of the waterfall chart
    ([plot_incremental_outcome_delta]).

    The curves themselves are those of M_Curves; here they are given.  Numbers of the tables are rational (the rounding
    of floating point is left out).  Of the charts, the rows drawn and the filters and conditions on them are modelled,
    the marks, axes and colours are not.  Names are compared byte by byte, which for UTF-8 is Python's order. *)
From Coq Require Import Reals QArith ZArith String List Bool Arith.
From Verif Require Import Lib_Sum M_Base Lib_Sort M_Report.
From Verif Require M_FitChart.
Import ListNotations.
Local Open Scope Q_scope.
Local Open Scope string_scope.
Local Open Scope nat_scope.
Local Open Scope list_scope.

(** One channel of the dataset of [response_curves_data] (visualizer.py:979-986): the values at the multiplier with
    a given position. *)
Record values := mkValues { v_spend : Q; v_mean : Q; v_lo : Q; v_hi : Q }.
Record curve := mkCurve { c_name : string; c_at : nat -> values }.

(** visualizer.py:1102-1122: the number of channels shown, also the number in the title of the layered chart.  [total]
    counts all channels of the input, paid or not (input_data.py:1049-1065). *)
Definition shown_count (total : nat) (separate : bool) (wanted : option Z) : Z :=
  if separate then Z.of_nat total else
  let most := Z.min (Z.of_nat total) 10 in
  let n := match wanted with Some n => n | None => if Z.leb 7 (Z.of_nat total) then 7%Z else most end in
  let n := if Z.ltb most n then most else n in
  if Z.ltb n 1 then 1%Z else n.

(** A row of the data frame. *)
Record row := mkRow { r_name : string; r_spend : Q; r_mult : Q; r_mean : Q; r_lo : Q; r_hi : Q; r_current : bool }.
Definition row_leb (a b : row) : bool :=
  match String.compare (r_name a) (r_name b) with
  | Lt => true | Gt => false
  | Eq => match Qcompare (r_spend a) (r_spend b) with Lt => true | Gt => false | Eq => Qle_bool (r_mult a) (r_mult b) end
  end.
Definition rows_of (mult : list Q) (c : curve) : list row :=
  map (fun i => let v := c_at c i in let m := nth i mult 0%Q in
         mkRow (c_name c) (v_spend v) m (v_mean v) (v_lo v) (v_hi v) (Qeq_bool m 1)) (seq 0 (length mult)).
(** visualizer.py:1436-1495 [_transform_response_curve_metrics].  [sortby] in descending order is the ascending order
    reversed.  [pivot] sorts by its index; it fails on repeated rows, which distinct names and multipliers exclude. *)
Definition chart_table (mult : list Q) (curves : list curve) (n : Z) : result (list row) :=
  match M_FitChart.index_by Qeq_bool 1%Q mult with
  | None => Err KeyError
  | Some k =>
      let sorted := rev (isort (fun a b => Qle_bool (v_spend (c_at a k)) (v_spend (c_at b k))) curves) in
      Ok (isort row_leb (flat_map (rows_of mult) (M_FitChart.slice_to n sorted)))
  end.
(** visualizer.py:1062-1129: the number of channels and the table. *)
Definition plot_curves (total : nat) (separate : bool) (wanted : option Z) (mult : list Q) (curves : list curve) : result (Z * list row) :=
  let n := shown_count total separate wanted in rbind (chart_table mult curves n) (fun t => Ok (n, t)).

(** optimizer.py:1002-1015 [_get_top_channels_by_spend]; pandas leaves the order of equal spends open. *)
Definition top_channels (spend : list (string * Q)) (n : Z) : result (list string) :=
  raise_if (Z.ltb (Z.of_nat (length spend)) n) ValueError
    (Ok (M_FitChart.slice_to n (map fst (isort (fun a b => Qle_bool (snd b) (snd a)) spend)))).

(** What is known of a channel after an optimization: the limits drawn (optimizer.py:1078-1095, [drawn_limit] in
    M_Report), the points (spend, outcome) of the two plans, and the curve: multiplier, spend and mean outcome. *)
Record chan := mkChan { h_name : string; h_lower : Q; h_upper : Q; h_opt : Q * Q; h_non : Q * Q; h_curve : list (Q * Q * Q) }.
(** A row of the data frame; a point has no multiplier, a row of a curve no level. *)
Inductive level := Optimized | NonOptimized.
Record mark := mkMark { m_name : string; m_mult : option Q; m_spend : Q; m_mean : Q; m_level : option level }.
Record limited := mkLimited { l_mark : mark; l_lower : Q; l_upper : Q }.
Definition curve_marks (h : chan) : list mark :=
  map (fun p => mkMark (h_name h) (Some (fst (fst p))) (snd (fst p)) (snd p) None) (h_curve h).
Definition opt_mark (h : chan) : mark := mkMark (h_name h) None (fst (h_opt h)) (snd (h_opt h)) (Some Optimized).
Definition non_mark (h : chan) : mark := mkMark (h_name h) None (fst (h_non h)) (snd (h_non h)) (Some NonOptimized).
Definition mark_mult (m : mark) : Q := match m_mult m with Some q => q | None => 0%Q end.
Definition mark_leb (a b : mark) : bool :=
  match String.compare (m_name a) (m_name b) with
  | Lt => true | Gt => false
  | Eq => match Qcompare (m_spend a) (m_spend b) with Lt => true | Gt => false | Eq => Qle_bool (mark_mult a) (mark_mult b) end
  end.
Definition merge_limits (channels : list chan) (l : list mark) : list limited :=
  flat_map (fun m => map (fun h => mkLimited m (h_lower h) (h_upper h)) (filter (fun h => String.eqb (h_name h) (m_name m)) channels)) l.
Fixpoint rank (top : list string) (a : string) : nat :=
  match top with [] => 0 | b :: r => if String.eqb a b then 0 else S (rank r a) end.
(** optimizer.py:1067-1147 [_get_plottable_response_curves_df].  The order of the rows of one channel is left open by
    pandas; here it is kept. *)
Definition plottable (channels : list chan) (n : option Z) : result (list limited) :=
  let marks := isort mark_leb (flat_map curve_marks channels) ++ map opt_mark channels ++ map non_mark channels in
  let merged := merge_limits channels marks in
  match n with
  | None => Ok merged
  | Some k =>
      if Z.eqb k 0 then Ok merged
      else rbind (top_channels (map (fun h => (h_name h, fst (h_opt h))) channels) k) (fun top =>
        Ok (isort (fun a b => Nat.leb (rank top (m_name (l_mark a))) (rank top (m_name (l_mark b))))
              (filter (fun r => existsb (String.eqb (m_name (l_mark r))) top) merged)))
  end.

(** optimizer.py:932-985: the conditions of the layers of the chart.  In the expressions of the chart a missing number
    and zero are both false. *)
Definition truthy (m : option Q) : bool := match m with Some q => negb (Qeq_bool q 0) | None => false end.
Definition within (r : limited) : bool :=
  match m_mult (l_mark r) with Some m => Qle_bool (l_lower r) m && Qle_bool m (l_upper r) | None => false end.
Definition below_layer (r : limited) : bool :=
  truthy (m_mult (l_mark r)) && match m_mult (l_mark r) with Some m => Qle_bool m (l_lower r) | None => false end.
Definition above_layer (r : limited) : bool :=
  truthy (m_mult (l_mark r)) && match m_mult (l_mark r) with Some m => Qle_bool (l_lower r) m | None => false end.
(** The first layer is dashed; the second is solid within the limits and dashed outside. *)
Definition solid (r : limited) : bool := above_layer r && within r.
Definition dashed (r : limited) : bool := below_layer r || (above_layer r && negb (within r)).
Definition point_drawn (r : limited) : bool := match m_level (l_mark r) with Some _ => true | None => false end.

Local Open Scope R_scope.
(** Python's [int] of a float. *)
Definition truncate (r : R) : Z := if Rle_dec 0 r then Int_part r else (- Int_part (- r))%Z.
(** optimizer.py:683-684 [sum_decr], [y_padding]. *)
Definition sum_decr (rows : list (string * R)) : R :=
  fold_right (fun a s => if Rlt_dec (snd a) 0 then snd a + s else s) 0 rows.
Definition y_padding (d : R) : R := if Rlt_dec d 0 then powerRZ 10 (truncate (ln (- d) / ln 10)) else 2.
(** optimizer.py:685-688 [domain_scale]: the range of the axis; bars are clipped to it (optimizer.py:737-747). *)
Definition domain_scale (names : list string) (optimized nonoptimized : report) : R * R :=
  let d := sum_decr (waterfall_rows names optimized nonoptimized) in
  (rp_total_incremental nonoptimized + d - y_padding d, rp_total_incremental optimized + y_padding d).
