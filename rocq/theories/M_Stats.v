(** Model of the summaries of posterior draws in meridian/analysis/analyzer.py
    ([get_central_tendency_and_ci], R-squared and the MAPEs).  The chain and draw dimensions are
    flattened into one list of values; floats are exact reals. *)
From Coq Require Import Reals ZArith List Bool Arith.
From Verif Require Import Lib_Sum M_Base M_Transformers.
Import ListNotations.
Local Open Scope R_scope.

(** [np.quantile(data, q)] (method "linear"): interpolation between order statistics at the
    virtual index [(n - 1) * q].  A [q] outside [0, 1] raises ValueError, no data IndexError. *)
Definition interpolate (s : list R) (h : R) : R :=
  let i := Z.to_nat (Int_part h) in
  let lower := nth i s 0 in
  let upper := nth (Nat.min (S i) (length s - 1)) s 0 in
  lower + (upper - lower) * (h - IZR (Int_part h)).
Definition quantile (l : list R) (q : R) : result R :=
  let b {A B} (d : {A} + {B}) := if d then true else false in
  raise_if (b (Rlt_dec q 0) || b (Rlt_dec 1 q)) ValueError (
  raise_if (match l with [] => true | _ => false end) IndexError (
  Ok (interpolate (sort_values l) (INR (length l - 1) * q)))).

(** [np.mean] and [np.median] of a non-empty list. *)
Definition mean (l : list R) : R := lsum l / INR (length l).
Definition median (l : list R) : R := match nanmedian l with Some m => m | None => 0 end.

Record stats := mkStats { st_mean : R; st_median : R; st_lo : R; st_hi : R }.

(** analyzer.py:48-76 [get_central_tendency_and_ci] (with [include_median=True]). *)
Definition central_tendency_and_ci (confidence_level : R) (l : list R) : result stats :=
  rbind (quantile l ((1 - confidence_level) / 2)) (fun lo =>
  rbind (quantile l ((1 + confidence_level) / 2)) (fun hi =>
  Ok (mkStats (mean l) (median l) lo hi))).
