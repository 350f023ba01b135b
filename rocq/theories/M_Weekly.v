(** Model of meridian/analysis/weekly_optimization_grid.py.  Numbers are exact rationals.  Labels of
    weeks are of an arbitrary type with the order of strings ([tle]) and a reading as a date
    ([parse]).  The outcome and the spend arrays of a grid have the same weeks and channels, as
    those made by [create]; outcomes are never NaN there (all channels have the same multipliers). *)
From Coq Require Import ZArith QArith Qround List Bool Arith.
From Verif Require Import Lib_QSum Lib_Sort M_Base M_Opt M_Time.
Import ListNotations.
Local Open Scope nat_scope.
Local Open Scope list_scope.

(** weekly_optimization_grid.py:56-65: the scalar attributes. *)
Record settings := mkSettings {
  use_kpi : bool; use_posterior : bool; multiplier_step : Q; percent_decrease : Q; percent_increase : Q;
  constraint_variation : Q; n_rf : nat; use_optimal_frequency : bool; max_frequency : option Q;
  optimal_frequency : option (list Q)
}.
Definition opt_eqb {A} (eqb : A -> A -> bool) (a b : option A) : bool :=
  match a, b with Some x, Some y => eqb x y | None, None => true | _, _ => false end.
Fixpoint list_eqb {A} (eqb : A -> A -> bool) (a b : list A) : bool :=
  match a, b with
  | [], [] => true
  | x :: a, y :: b => eqb x y && list_eqb eqb a b
  | _, _ => false
  end.
(** Numbers are compared by value. *)
Definition q_eqb (x y : Q) : bool := Qeq_bool x y.

Section Weekly.
Context {T : Type}.
Variables (teq : forall a b : T, {a = b} + {a <> b}) (tle : T -> T -> bool) (parse : T -> option date).

(** One week: its label, the outcome of each channel at each multiplier, the spend of each channel. *)
Record week := mkWeek { w_time : T; w_outcome : nat -> nat -> Q; w_spend : nat -> Q }.
Record wgrid := mkGrid { g_settings : settings; g_channels : list nat; g_mults : list Q; g_weeks : list week }.
Definition times_of (g : wgrid) : list T := map w_time (g_weeks g).

(** weekly_optimization_grid.py:850-902: the comparison of a grid with the first one. *)
Definition same_settings (a b : settings) : bool :=
  eqb (use_kpi a) (use_kpi b) && eqb (use_posterior a) (use_posterior b) &&
  q_eqb (multiplier_step a) (multiplier_step b) && q_eqb (percent_decrease a) (percent_decrease b) &&
  q_eqb (percent_increase a) (percent_increase b) && q_eqb (constraint_variation a) (constraint_variation b) &&
  (n_rf a =? n_rf b) && eqb (use_optimal_frequency a) (use_optimal_frequency b) &&
  opt_eqb q_eqb (max_frequency a) (max_frequency b) &&
  opt_eqb (list_eqb q_eqb) (optimal_frequency a) (optimal_frequency b).
Definition matches (first g : wgrid) : bool :=
  same_settings (g_settings g) (g_settings first) && list_eqb Nat.eqb (g_channels g) (g_channels first) &&
  list_eqb q_eqb (g_mults g) (g_mults first).

Fixpoint unique (l : list T) : bool :=
  match l with
  | [] => true
  | a :: l => negb (existsb (fun b => if teq a b then true else false) l) && unique l
  end.
Fixpoint mapM {A B} (f : A -> result B) (l : list A) : result (list B) :=
  match l with
  | [] => Ok []
  | a :: l => rbind (f a) (fun b => rbind (mapM f l) (fun bs => Ok (b :: bs)))
  end.
(** [tc.normalize_date] of a label. *)
Definition read_date (t : T) : result date := match parse t with Some d => Ok d | None => Err ValueError end.
(** weekly_optimization_grid.py:923-929. *)
Fixpoint weekly (l : list date) : bool :=
  match l with
  | a :: ((b :: _) as r) => Z.eqb (ordinal b - ordinal a) 7 && weekly r
  | _ => true
  end.
(** weekly_optimization_grid.py:821-944 [combine].  [np.argsort] of distinct labels. *)
Definition combine_grids (grids : list wgrid) : result wgrid :=
  match grids with
  | [] => Err ValueError
  | [g] => Ok g
  | first :: rest =>
      raise_if (negb (forallb (matches first) rest)) ValueError (
      let all := concat (map g_weeks grids) in
      raise_if (negb (unique (map w_time all))) ValueError (
      let sorted := isort (fun a b => tle (w_time a) (w_time b)) all in
      rbind (mapM read_date (map w_time sorted)) (fun dates =>
      raise_if (negb (weekly dates)) ValueError (
      Ok (mkGrid (g_settings first) (g_channels first) (g_mults first) sorted)))))
  end.

(** *** The grid for the optimizer *)
(** [np.interp] over increasing sample points. *)
Fixpoint interp_from (x x0 y0 : Q) (l : list (Q * Q)) : Q :=
  match l with
  | [] => y0
  | (x1, y1) :: r => if Qlt_bool x x1 then ((y1 - y0) / (x1 - x0) * (x - x0) + y0)%Q else interp_from x x1 y1 r
  end.
Definition interp (x : Q) (l : list (Q * Q)) : Q :=
  match l with
  | [] => 0%Q
  | (x0, y0) :: r => if Qle_bool x x0 then y0 else interp_from x x0 y0 r
  end.
Definition lsum {A} (f : A -> Q) (l : list A) : Q := fold_right (fun a s => (f a + s)%Q) 0%Q l.
(** The sample points of a channel over some weeks. *)
Definition points (mults : list Q) (f : nat -> Q) : list (Q * Q) :=
  map (fun p => (fst p, f (snd p))) (combine mults (seq 0 (length mults))).
(** weekly_optimization_grid.py:790-810: the outcome of a channel at a spend. *)
Definition outcome_at_spend (mults : list Q) (weeks : list week) (hist : nat -> Q) (c : nat) (v : Z) : Q :=
  if Qeq_bool (hist c) 0 then 0%Q
  else interp (inject_Z v / hist c)%Q (points mults (fun j => lsum (fun w => w_outcome w c j) weeks)).

(** weekly_optimization_grid.py:533-566 [_validate_dates]. *)
Definition covers_date (g : wgrid) (d : option T) : bool :=
  match d with None => true | Some t => existsb (fun b => if teq t b then true else false) (times_of g) end.
(** [sel(time=slice(start, end))]: the positions from that of the first label to that of the last. *)
Fixpoint drop_before (t : T) (l : list week) : list week :=
  match l with [] => [] | w :: r => if teq t (w_time w) then l else drop_before t r end.
Fixpoint take_through (t : T) (l : list week) : list week :=
  match l with [] => [] | w :: r => w :: (if teq t (w_time w) then [] else take_through t r) end.
Definition slice (s e : T) (l : list week) : list week :=
  (* an end before the start selects nothing *)
  if existsb (fun w => if teq e (w_time w) then true else false) (drop_before s l) then take_through e (drop_before s l) else [].

(** weekly_optimization_grid.py:568-626 [_validate_optimization_bounds]; the round factor is -k. *)
Fixpoint bounds_covered (mults : list Q) (hist : nat -> Q) (lower upper : nat -> Z) (k : nat) (channels : list nat) : result bool :=
  match channels with
  | [] => Ok true
  | c :: r =>
      let spend := round_to k (hist c) in
      if Z.eqb spend 0 then bounds_covered mults hist lower upper k r
      else
        match mults with
        | [] => Err IndexError
        | m0 :: _ =>
            let lo := round_to k (m0 * inject_Z spend) in
            let hi := round_to k (last mults 0%Q * inject_Z spend) in
            rbind (bounds_covered mults hist lower upper k r) (fun ok =>
              Ok (negb (Z.ltb (lower c) lo) && negb (Z.ltb hi (upper c)) && ok))
        end
  end.

(** backend: [stabilize_rf_roi_grid], one column (M_Budget). *)
Variable stab : list (option Q) -> list (option Q) -> list (option Q).
Definition stabilized (col : list cells) : list cells :=
  map (fun p => match fst p, snd p with Some (v, _), Some o => Some (v, o) | _, _ => None end)
    (combine col (stab (map (option_map (fun p => inject_Z (fst p))) col) (map (option_map snd) col))).
(** weekly_optimization_grid.py:812-815: the last columns are the reach and frequency channels. *)
Definition stabilize_columns (rf : nat) (g : grid) : grid :=
  map (fun p => if Nat.ltb (fst p) (length g - rf) then snd p else stabilized (snd p)) (combine (seq 0 (length g)) g).

(** weekly_optimization_grid.py:755-817 [_create_grids]. *)
Definition create_weekly_grids (g : wgrid) (lower upper : nat -> Z) (step : Z) (hist : nat -> Q) (selected : list week) : result grid :=
  let n := length (g_channels g) in
  raise_if (match g_mults g with [] => existsb (fun c => negb (Qeq_bool (hist c) 0)) (seq 0 n) | _ => false end) ValueError (
  rbind (create_grids n lower upper step (outcome_at_spend (g_mults g) selected hist)) (fun r =>
  Ok (if 0 <? n_rf (g_settings g) then stabilize_columns (n_rf (g_settings g)) r else r))).

Record opt_grid := mkOptGrid { o_grid : grid; o_hist : nat -> Q; o_times : list T; o_start : T; o_end : T; o_k : nat }.

(** weekly_optimization_grid.py:628-753 [to_optimization_grid]; [None] when a validation fails. *)
Definition to_optimization_grid (g : wgrid) (start_date end_date : option T) (budget : option Q)
    (lo hi : option constraint) : result (option opt_grid) :=
  if negb (covers_date g start_date && covers_date g end_date) then Ok None
  else
    match g_weeks g with
    | [] => Err IndexError
    | w0 :: _ =>
        let s := match start_date with Some t => t | None => w_time w0 end in
        let e := match end_date with Some t => t | None => w_time (last (g_weeks g) w0) end in
        let selected := filter (fun w => tle s (w_time w) && tle (w_time w) e) (g_weeks g) in
        let hist := fun c => lsum (fun w => w_spend w c) (slice s e (g_weeks g)) in
        let n := length (g_channels g) in
        let total := match budget with Some b => b | None => qsum n hist end in
        rbind (validate_pct_of_spend n hist None) (fun pct =>
        let spend := fun c => (total * pct c)%Q in
        rbind (get_round_factor total (1 # 10000)) (fun factor =>
        let k := Z.to_nat (- factor) in
        let dflt := Scalar (constraint_variation (g_settings g)) in
        rbind (get_optimization_bounds n spend k (match lo with Some c => c | None => dflt end)
                 (match hi with Some c => c | None => dflt end)) (fun b =>
        rbind (bounds_covered (g_mults g) hist (fst b) (snd b) k (seq 0 n)) (fun ok =>
        if negb ok then Ok None
        else
          rbind (create_weekly_grids g (fst b) (snd b) (pow10 k) hist selected) (fun r =>
          Ok (Some (mkOptGrid r hist (map w_time selected) s e k)))))))
    end.
End Weekly.
Arguments mkWeek {T} _ _ _.
Arguments w_time {T} _.
Arguments w_outcome {T} _ _ _.
Arguments w_spend {T} _ _.
Arguments mkGrid {T} _ _ _ _.
Arguments g_settings {T} _.
Arguments g_channels {T} _.
Arguments g_mults {T} _.
Arguments g_weeks {T} _.
Arguments mkOptGrid {T} _ _ _ _ _ _.
Arguments o_grid {T} _.
Arguments o_hist {T} _.
Arguments o_times {T} _.
Arguments o_start {T} _.
Arguments o_end {T} _.
Arguments o_k {T} _.

(** weekly_optimization_grid.py:117-131, 184-207: the arguments of [create] and its multipliers, in
    millionths ([np.round(..., decimals=6)]).  [np.arange(a, b, step)] has ceil((b - a) / step)
    elements; the set of multipliers is sorted. *)
Definition millionths (x : Q) : Z := rint (x * 1000000).
Definition z_insert (x : Z) (l : list Z) : list Z := if existsb (Z.eqb x) l then l else insert Z.leb x l.
Definition create_multipliers (decrease increase variation : Q) (step : option Q) : result (list Q * Q) :=
  raise_if (negb (Qle_bool 0 decrease && Qlt_bool decrease 1)) ValueError (
  raise_if (Qlt_bool increase 0) ValueError (
  raise_if (Qlt_bool variation 0) ValueError (
  let lower := ((1 - decrease) * (1 - variation))%Q in
  let upper := ((1 + increase) * (1 + variation))%Q in
  let step := match step with Some s => s | None => ((1 # 10000) * (1 - decrease))%Q end in
  raise_if (Qeq_bool step 0) ZeroDivisionError (
  let len := Z.to_nat (Qceiling ((upper + step / 2 - lower) / step)) in
  let mults := map (fun i => millionths (lower + inject_Z (Z.of_nat i) * step)) (seq 0 len) in
  Ok (map (fun z => (inject_Z z / 1000000)%Q) (fold_right z_insert [] mults), step))))).
