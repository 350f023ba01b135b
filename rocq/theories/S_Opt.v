(** Specification vocabulary for the budget optimizer. *)
From Coq Require Import ZArith QArith List.
From Verif Require Import Lib_QSum M_Opt.
Import ListNotations.

(** An allocation chooses one grid row per channel. *)
Definition alloc := nat -> nat.
Definition spend_at (g : grid) (x : alloc) (c : nat) : Z := match cell g c (x c) with Some (s, _) => s | None => 0%Z end.
Definition outcome_at (g : grid) (x : alloc) (c : nat) : Q := match cell g c (x c) with Some (_, o) => o | None => 0%Q end.
Definition total_spend (g : grid) (x : alloc) : Z := zsum (length g) (spend_at g x).
Definition total_outcome (g : grid) (x : alloc) : Q := qsum (length g) (outcome_at g x).
(** Every chosen row exists for its channel. *)
Definition feasible (g : grid) (x : alloc) : Prop := forall c, (c < length g)%nat -> cell g c (x c) <> None.

(** Moving channel [c] to row [r]. *)
Definition moved (x : alloc) (c r : nat) : alloc := fun c' => if Nat.eqb c' c then r else x c'.
Definition can_move (g : grid) (x : alloc) (c r : nat) : Prop :=
  (c < length g)%nat /\ (x c < r)%nat /\ (r < n_rows g)%nat /\ cell g c r <> None.
(** Exact return on the money added by the move. *)
Definition move_roi (g : grid) (x : alloc) (c r : nat) : Q :=
  ((outcome_at g (moved x c r) c - outcome_at g x c) / inject_Z (spend_at g (moved x c r) c - spend_at g x c))%Q.
Definition roi_of (g : grid) (x : alloc) : Q := (total_outcome g x / inject_Z (total_spend g x))%Q.

(** [y] is reached from [x] by upward moves that all satisfy [ok]. *)
Inductive reached (g : grid) (ok : alloc -> nat -> nat -> Prop) : alloc -> alloc -> Prop :=
| reached_here : forall x, reached g ok x x
| reached_move : forall x y c r, can_move g x c r -> ok x c r -> reached g ok (moved x c r) y -> reached g ok x y.

(** A well-formed grid: columns of equal length, a first row without gaps, spend increasing down each
    column. *)
Definition well_formed (g : grid) : Prop :=
  (forall col, In col g -> length col = n_rows g) /\
  (forall c, (c < length g)%nat -> cell g c 0 <> None) /\
  (forall c r r' s o s' o', (r < r')%nat -> cell g c r = Some (s, o) -> cell g c r' = Some (s', o') -> (s < s')%Z).

(** Half a unit in the eighth decimal place. *)
Definition half8 : Q := 5 # 1000000000.
(** A whole number of units in the eighth decimal place. *)
Definition exact8 (x : Q) : Prop := exists z, (x == inject_Z z / inject_Z 100000000)%Q.

(** Grids with equal steps: channel [c] has rows 0..m c, row i at spend [lower c + i * step] with outcome
    [f c i], padded with NaN. *)
Definition uniform_column (rows : nat) (lower step : Z) (m : nat) (f : nat -> Q) : list cells :=
  map (fun i => Some (lower + Z.of_nat i * step, f i)%Z) (seq 0 (S m)) ++ repeat None (rows - S m).
Definition uniform_grid (n rows : nat) (lower : nat -> Z) (step : Z) (m : nat -> nat) (f : nat -> nat -> Q) : grid :=
  map (fun c => uniform_column rows (lower c) step (m c) (f c)) (seq 0 n).
(** Diminishing returns. *)
Definition concave (m : nat) (f : nat -> Q) : Prop :=
  forall i, (S (S i) <= m)%nat -> (f (S (S i)) - f (S i) <= f (S i) - f i)%Q.
Definition nondecreasing (m : nat) (f : nat -> Q) : Prop := forall i, (S i <= m)%nat -> (f i <= f (S i))%Q.
Fixpoint nsum (n : nat) (f : nat -> nat) : nat := match n with O => O | S m => (nsum m f + f m)%nat end.

(** A constraint applies to every channel or names one value per channel. *)
Definition constraint_at (c : constraint) (i : nat) : Q :=
  match c with Scalar x => x | PerChannel [x] => x | PerChannel l => nth i l 0%Q end.
Definition constraint_length_ok (n : nat) (c : constraint) : Prop :=
  match c with Scalar _ => True | PerChannel l => length l = 1%nat \/ length l = n end.
Definition constraint_all (P : Q -> Prop) (c : constraint) : Prop :=
  match c with Scalar x => P x | PerChannel l => Forall P l end.
Definition constraints_valid (n : nat) (lo hi : constraint) : Prop :=
  constraint_length_ok n lo /\ constraint_length_ok n hi /\
  constraint_all (fun x => 0 <= x /\ x <= 1)%Q lo /\ constraint_all (fun x => 0 <= x)%Q hi.

(** Grids given by the points of each channel. *)
Definition column_of (rows : nat) (pts : list (Z * Q)) : list cells := map Some pts ++ repeat None (rows - length pts).
Definition grid_of (n rows : nat) (ps : nat -> list (Z * Q)) : grid := map (fun c => column_of rows (ps c)) (seq 0 n).
Fixpoint increasing (pts : list (Z * Q)) : Prop :=
  match pts with
  | p :: ((q :: _) as r) => (fst p < fst q)%Z /\ increasing r
  | _ => True
  end.
Definition kept (lo hi : Z) (pts : list (Z * Q)) : list (Z * Q) :=
  filter (fun p => Z.leb lo (fst p) && Z.leb (fst p) hi)%bool pts.
Fixpoint longest (n : nat) (ps : nat -> list (Z * Q)) : nat :=
  match n with O => O | S m => Nat.max (longest m ps) (length (ps m)) end.

(** [z] is within half a step of [x]; the step is 10^k. *)
Definition near (k : nat) (z : Z) (x : Q) : Prop := (inject_Z z - x <= inject_Z (pow10 k) * (1 # 2) /\ x - inject_Z z <= inject_Z (pow10 k) * (1 # 2))%Q.

(** The grid of a channel lies strictly above the lower bound or strictly below the upper bound. *)
Definition outside (lo hi : Z) (pts : list (Z * Q)) : Prop :=
  pts <> [] /\ (Forall (fun p => (lo < fst p)%Z) pts \/ Forall (fun p => (fst p < hi)%Z) pts).

(** The budget and split behind a call. *)
Definition budget_of (n : nat) (hist : nat -> Q) (s : user_scenario) : Q :=
  match s with Fixed (Some b) => if Qeq_bool b 0 then qsum n hist else b | _ => qsum n hist end.
Definition default_constraint (s : user_scenario) : constraint := match s with Fixed _ => Scalar (3 # 10) | _ => Scalar 1 end.
Definition or_default (s : user_scenario) (c : option constraint) : constraint := match c with Some c => c | None => default_constraint s end.
Definition search_scenario (s : user_scenario) (b : Z) : scenario :=
  match s with Fixed _ => FixedBudget b | Flexible_ROI t => TargetROI t | Flexible_MROI t => TargetMROI t end.
(** The share of each channel in the budget. *)
Definition is_share (n : nat) (hist : nat -> Q) (pct : option (list Q)) (share : nat -> Q) : Prop :=
  match pct with
  | Some l => length l = n /\ forall c, share c = nth c l 0%Q
  | None => forall c, (share c * qsum n hist == hist c)%Q
  end.
