(** Specification of the documented adstock, independent of the model's kernels, padding,
    truncation and index reversal. *)
From Coq Require Import Reals ZArith Arith List.
From Verif Require Import Lib_Sum Lib_Pow M_Base M_AdstockHill.
Import ListNotations.
Local Open Scope R_scope.

(** Decay at lag [l] for a window of [W] periods:
    geometric [alpha^l]; binomial [(1 - l/W)^(1/alpha - 1)], read as "no carry-over" at
    [alpha = 0]. *)
Definition documented_decay (d : decay) (alpha : R) (W l : nat) : R :=
  match d with
  | Geometric => alpha ^ l
  | Binomial =>
      if Req_EM_T alpha 0 then (if Nat.eqb l 0 then 1 else 0)
      else rpow (1 - INR l / INR W) (1 / alpha - 1)
  | OtherDecay => 0
  end.

(** Decay normalised to total one over the window. *)
Definition documented_weight (d : decay) (alpha : R) (W l : nat) : R :=
  documented_decay d alpha W l / rsum W (documented_decay d alpha W).

(** Media [l] periods before period [t]; zero before the first period. *)
Definition past (x : nat -> R) (t l : nat) : R :=
  if Nat.leb l t then x (t - l)%nat else 0.

(** Weighted average of the last [W] periods up to [t]. *)
Definition lagged_average (W : nat) (w : nat -> R) (x : nat -> R) (t : nat) : R :=
  rsum W (fun l => w l * past x t l).

(** The decay function the user assigned to channel [c] of [n]: a single name is for every
    channel, a list has one name per channel (or one name for all). *)
Definition assigned_decay (df : decay_arg) (n c : nat) : option decay :=
  match df with
  | DOne d => Some d
  | DSeq ds =>
      if Nat.eqb (length ds) n then nth_error ds c
      else match ds with [d] => Some d | _ => None end
  end.

Definition recognised (d : decay) : Prop := d = Geometric \/ d = Binomial.

(** Every channel has a recognised decay function. *)
Definition decay_ok (df : decay_arg) (n : nat) : Prop :=
  match df with
  | DOne d => recognised d
  | DSeq ds => (length ds = n \/ length ds = 1%nat) /\ Forall recognised ds
  end.

(** Number of periods entering one adstock average. *)
Definition window (media : T3) (max_lag : Z) : nat :=
  Nat.min (Z.to_nat max_lag + 1) (times media).

(** Equal dimensions. *)
Definition same_shape (a b : T3) : Prop :=
  geos a = geos b /\ times a = times b /\ chans a = chans b.

(** Everything needed to run adstock on [media]. *)
Definition adstock_args_ok (media : T3) (alpha : nat -> R) (max_lag n_out : Z) (df : decay_arg) : Prop :=
  (0 <= max_lag)%Z /\ (1 <= n_out <= Z.of_nat (times media))%Z /\
  decay_ok df (chans media) /\ (forall c, (c < chans media)%nat -> 0 <= alpha c <= 1).

