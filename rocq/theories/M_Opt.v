(** Model of the budget optimizer: meridian/analysis/optimizer.py.
    Spend is an integer number of currency units after rounding ([astype(int)] in the code); incremental
    outcomes are exact rationals.  A grid is a list of channel columns; a cell is [None] where the code
    has NaN (spend and outcome are NaN in the same cells, as produced by [_create_grids]). *)
From Coq Require Import ZArith QArith Qround List Bool Arith.
From Verif Require Import Lib_QSum M_Base.
Import ListNotations.

Definition Qlt_bool (x y : Q) : bool := negb (Qle_bool y x).

(** optimizer.py:54 [_SpendConstraint]: a number or one number per channel. *)
Inductive constraint := Scalar (x : Q) | PerChannel (l : list Q).

(** optimizer.py:3063-3097 [_validate_spend_constraints]. *)
Definition const_array (c : constraint) : list Q :=
  match c with Scalar x => [x] | PerChannel l => l end.
Definition bad_length (n : nat) (l : list Q) : bool := negb (Nat.eqb (length l) 1 || Nat.eqb (length l) n).
Definition validate_spend_constraints (n : nat) (lo hi : constraint) : result (list Q * list Q) :=
  let lo := const_array lo in
  let hi := const_array hi in
  raise_if (bad_length n lo || bad_length n hi) ValueError (
  raise_if (existsb (fun x => negb (Qle_bool 0 x && Qle_bool x 1)) lo) ValueError (
  raise_if (existsb (fun x => Qlt_bool x 0) hi) ValueError (Ok (lo, hi)))).

(** optimizer.py:3100-3132 [_get_spend_bounds]. *)
Definition get_spend_bounds (n : nat) (lo hi : constraint) : result (list Q * list Q) :=
  rbind (validate_spend_constraints n lo hi) (fun p =>
  Ok (map (fun x => if Qle_bool 0 (1 - x) then 1 - x else 0)%Q (fst p), map (fun x => 1 + x)%Q (snd p))).

(** NumPy broadcasting of an array of length 1 or n. *)
Definition broadcast (l : list Q) (i : nat) : Q :=
  match l with [x] => x | _ => nth i l 0%Q end.

(** optimizer.py:2982-3020 [get_optimization_bounds]; the round factor is -k with k >= 0. *)
Definition get_optimization_bounds (n : nat) (spend : nat -> Q) (k : nat) (lo hi : constraint)
  : result ((nat -> Z) * (nat -> Z)) :=
  rbind (get_spend_bounds n lo hi) (fun b =>
  let rounded := fun i => round_to k (spend i) in
  Ok (fun i => round_to k (broadcast (fst b) i * inject_Z (rounded i)),
      fun i => round_to k (broadcast (snd b) i * inject_Z (rounded i)))).

(** [int(math.log10(t))] for t >= 1, in exact arithmetic: number of decimal digits of the integer part
    minus one. *)
Fixpoint ilog10 (fuel : nat) (z : Z) : nat :=
  match fuel with
  | O => O
  | S f => if Z.ltb z 10 then O else S (ilog10 f (z / 10))
  end.
Definition int_log10 (t : Q) : nat := ilog10 (Z.to_nat (Qfloor t)) (Qfloor t).

(** optimizer.py:3023-3044 [get_round_factor]. *)
Definition get_round_factor (budget gtol : Q) : result Z :=
  let tolerance := (budget * gtol)%Q in
  if Qle_bool 1 gtol then Err ValueError
  else if Qle_bool budget 0 then Err ValueError
  else if Qlt_bool tolerance 1 then Ok 0%Z
  else Ok (- Z.of_nat (int_log10 tolerance) - 1)%Z.

(** optimizer.py:3047-3060 [_validate_pct_of_spend].  A historical spend adding up to zero gives NaN in
    the code; it is outside the model and reported as RuntimeError. *)
Definition Qabs_ (x : Q) : Q := if Qle_bool 0 x then x else (- x)%Q.
Definition Qmax_ (x y : Q) : Q := if Qle_bool x y then y else x.
Definition isclose_one (x : Q) : bool :=
  Qle_bool (Qabs_ (x - 1)) (Qmax_ ((1 # 1000000000) * Qmax_ (Qabs_ x) 1) (1 # 1000)).
Definition validate_pct_of_spend (n : nat) (hist : nat -> Q) (pct : option (list Q)) : result (nat -> Q) :=
  match pct with
  | Some l =>
    raise_if (negb (Nat.eqb (length l) n)) ValueError (
    raise_if (negb (isclose_one (fold_left Qplus l 0%Q))) ValueError (
    Ok (fun i => nth i l 0%Q)))
  | None =>
    if Qeq_bool (qsum n hist) 0 then Err RuntimeError else Ok (fun i => hist i / qsum n hist)%Q
  end.

Definition cells := option (Z * Q).
Definition grid := list (list cells).
Definition cell (g : grid) (c r : nat) : cells := nth r (nth c g []) None.
Definition n_rows (g : grid) : nat := match g with [] => O | col :: _ => length col end.

(** optimizer.py:2798-2811 [_create_grids], spend part, with the incremental outcome of channel c at
    spend v given by [outcome c v] (optimizer.py:2630-2729).  [np.arange(l, u + step, step)] has
    ceil((u + step - l) / step) elements; writing more elements than there are rows is an error. *)
Definition arange (l u step : Z) : list Z :=
  map (fun i => l + Z.of_nat i * step)%Z (seq 0 (Z.to_nat ((u + step - l + (step - 1)) / step))).
Fixpoint zmax (n : nat) (f : nat -> Z) : Z :=
  match n with O => 0%Z | S O => f O | S m => Z.max (zmax m f) (f m) end.
Definition grid_column (rows : nat) (outcome : Z -> Q) (vs : list Z) : list cells :=
  map (fun v => Some (v, outcome v)) vs ++ repeat None (rows - length vs).
Definition create_grids (n : nat) (lower upper : nat -> Z) (step : Z) (outcome : nat -> Z -> Q) : result grid :=
  let rows := Z.to_nat (zmax n (fun i => upper i - lower i)%Z / step + 1) in
  raise_if (Nat.eqb n 0) ValueError (
  raise_if (existsb (fun i => Nat.ltb rows (length (arange (lower i) (upper i) step))) (seq 0 n)) ValueError (
  Ok (map (fun i => grid_column rows (outcome i) (arange (lower i) (upper i) step)) (seq 0 n)))).

(** optimizer.py:338-376 [check_optimization_bounds]: [np.min]/[np.max] of a DataArray skip NaN; a
    column without any value has NaN extremes and passes. *)
Definition spends (col : list cells) : list Z := flat_map (fun x => match x with Some (s, _) => [s] | None => [] end) col.
Definition below_grid (lo : Z) (col : list cells) : bool :=
  match spends col with [] => false | _ => forallb (fun s => Z.ltb lo s) (spends col) end.
Definition above_grid (hi : Z) (col : list cells) : bool :=
  match spends col with [] => false | _ => forallb (fun s => Z.ltb s hi) (spends col) end.
Definition check_optimization_bounds (g : grid) (lower upper : nat -> Z) : result unit :=
  raise_if (existsb (fun i => below_grid (lower i) (nth i g []) || above_grid (upper i) (nth i g [])) (seq 0 (length g)))
    ValueError (Ok tt).

(** optimizer.py:307-328: one channel of [trim_grids]. *)
Definition in_bounds (lo hi : Z) (x : cells) : bool :=
  match x with Some (s, _) => Z.leb lo s && Z.leb s hi | None => false end.
Definition valid_indices (lo hi : Z) (col : list cells) : list nat :=
  filter (fun r => in_bounds lo hi (nth r col None)) (seq 0 (length col)).
Definition roll (i : nat) (l : list cells) : list cells := skipn i l ++ firstn i l.
Definition trim_column (lo hi : Z) (col : list cells) : result (list cells) :=
  match valid_indices lo hi col with
  | [] => Err IndexError
  | first :: r =>
    let lst := last (first :: r) first in
    let m := (lst - first + 1)%nat in
    Ok (firstn m (roll first col) ++ repeat None (length col - m))
  end.
Fixpoint trim_columns (i : nat) (lower upper : nat -> Z) (g : grid) : result grid :=
  match g with
  | [] => Ok []
  | col :: r => rbind (trim_column (lower i) (upper i) col) (fun col' =>
                rbind (trim_columns (S i) lower upper r) (fun r' => Ok (col' :: r')))
  end.
(** [dropna(dim=grid_spend_index, how='all')]. *)
Definition kept_rows (g : grid) : list nat :=
  filter (fun r => existsb (fun col => match nth r col None with Some _ => true | None => false end) g) (seq 0 (n_rows g)).
Definition dropna (g : grid) : grid := map (fun col => map (fun r => nth r col None) (kept_rows g)) g.

(** optimizer.py:281-336 [trim_grids]. *)
Definition trim_grids (g : grid) (lower upper : nat -> Z) : result grid :=
  rbind (check_optimization_bounds g lower upper) (fun _ =>
  rbind (trim_columns 0 lower upper g) (fun g' => Ok (dropna g'))).

(** optimizer.py:58-94: the scenarios, with the budget already rounded to an integer for the search. *)
Inductive scenario := FixedBudget (b : Z) | TargetROI (t : Q) | TargetMROI (t : Q).

(** optimizer.py:3168-3206 [_exceeds_optimization_constraints].  A total spend of zero makes the
    current ROI infinite or NaN in the code and neither comparison then holds together. *)
Definition exceeds (n : nat) (spend : nat -> Z) (outc : nat -> Q) (roi : Q) (sc : scenario) : bool :=
  match sc with
  | FixedBudget b => Z.ltb b (zsum n spend)
  | TargetROI t =>
    if Z.eqb (zsum n spend) 0 then false
    else let cur := (qsum n outc / inject_Z (zsum n spend))%Q in Qlt_bool cur t && Qlt_bool roi cur
  | TargetMROI t => Qlt_bool roi t
  end.

(** [np.round(x, decimals=8)]. *)
Definition round8 (x : Q) : Q := (inject_Z (rint (x * inject_Z 100000000)) / inject_Z 100000000)%Q.

(** optimizer.py:411-420, 444-462: rounded ROI of moving from point [p] to a cell; 0 where the spend
    does not change, NaN for a NaN cell. *)
Definition roi_between (p : Z * Q) (x : cells) : option Q :=
  match x with
  | None => None
  | Some (s, o) => Some (round8 (if Z.eqb (s - fst p) 0 then 0 else (o - snd p) / inject_Z (s - fst p)))
  end.

(** [np.nanargmax] of the (rows 1.., channels) array in row-major order: the first largest entry. *)
Definition positions (rows n : nat) : list (nat * nat) :=
  flat_map (fun r => map (fun c => (r, c)) (seq 0 n)) (seq 1 (rows - 1)).
Definition better (roi : nat -> nat -> option Q) (acc : option (nat * nat * Q)) (rc : nat * nat) : option (nat * nat * Q) :=
  match roi (snd rc) (fst rc) with
  | None => acc
  | Some v => match acc with
              | None => Some (rc, v)
              | Some (_, w) => if Qlt_bool w v then Some (rc, v) else acc
              end
  end.
Definition nanargmax (rows n : nat) (roi : nat -> nat -> option Q) : option (nat * nat * Q) :=
  fold_left (better roi) (positions rows n) None.

(** optimizer.py:422-463: the [while True] loop of [_grid_search]; [roi c r] is [iterative_roi_grid].
    [None] means that the fuel ran out (never happens, see C26). *)
Definition qset (f : nat -> Q) (c : nat) (v : Q) : nat -> Q := fun i => if Nat.eqb i c then v else f i.
Fixpoint search_loop (fuel : nat) (g : grid) (sc : scenario) (spend : nat -> Z) (outc : nat -> Q) (roi : nat -> nat -> option Q)
  : option (nat -> Z) :=
  match fuel with
  | O => None
  | S f =>
    match nanargmax (n_rows g) (length g) roi with
    | None => Some spend
    | Some ((r, c), v) =>
      match cell g c r with
      | None => Some spend
      | Some (s, o) =>
        let spend' := zset spend c s in
        let outc' := qset outc c o in
        if exceeds (length g) spend' outc' v sc then Some spend
        else search_loop f g sc spend' outc'
               (fun c' r' => if Nat.eqb c' c
                             then (if Nat.leb r' r then None else roi_between (s, o) (cell g c r'))
                             else roi c' r')
      end
    end
  end.

(** optimizer.py:378-421 [_grid_search]: the search starts from the first row, which has no NaN. *)
Definition first_point (g : grid) (c : nat) : Z * Q := match cell g c 0 with Some p => p | None => (0%Z, 0%Q) end.
Definition grid_search (g : grid) (sc : scenario) : result (nat -> Z) :=
  raise_if (Nat.eqb (n_rows g) 0) IndexError (
  match search_loop (n_rows g * length g + 1) g sc (fun c => fst (first_point g c)) (fun c => snd (first_point g c))
          (fun c r => roi_between (first_point g c) (cell g c r)) with
  | Some spend => Ok spend
  | None => Err RuntimeError
  end).

(** optimizer.py:58-94: user-level scenarios and their validation. *)
Inductive user_scenario := Fixed (total_budget : option Q) | Flexible_ROI (t : Q) | Flexible_MROI (t : Q).
Definition make_scenario (s : user_scenario) : result user_scenario :=
  match s with
  | Fixed (Some b) => raise_if (Qlt_bool b 0) ValueError (Ok s)
  | Fixed None => Ok s
  | Flexible_ROI t | Flexible_MROI t => raise_if (Qlt_bool t 0) ValueError (Ok s)
  end.

(** optimizer.py:176-279 [OptimizationGrid.optimize]; the grid was built with round factor -k. *)
Definition optimize (g : grid) (k : nat) (gtol : Q) (hist : nat -> Q) (s : user_scenario)
    (pct : option (list Q)) (lo hi : option constraint) : result ((nat -> Z) * (nat -> Z)) :=
  let n := length g in
  let budget := match s with
                | Fixed (Some b) => if Qeq_bool b 0 then qsum n hist else b
                | _ => qsum n hist
                end in
  rbind (validate_pct_of_spend n hist pct) (fun p =>
  let spend := fun i => (budget * p i)%Q in
  let dflt := match s with Fixed _ => Scalar (3 # 10) | _ => Scalar 1 end in
  let lo := match lo with Some c => c | None => dflt end in
  let hi := match hi with Some c => c | None => dflt end in
  rbind (get_optimization_bounds n spend k lo hi) (fun b =>
  rbind (get_round_factor budget gtol) (fun _ =>
  rbind (trim_grids g (fst b) (snd b)) (fun g' =>
  let rounded := fun i => round_to k (spend i) in
  let sc := match s with
            | Fixed _ => FixedBudget (zsum n rounded)
            | Flexible_ROI t => TargetROI t
            | Flexible_MROI t => TargetMROI t
            end in
  rbind (grid_search g' sc) (fun opt => Ok (opt, rounded)))))).
