(** Model of the log-normal prior helpers of meridian/model/prior_distribution.py.  Arrays are
    handled elementwise (numpy broadcasting); one element is modelled, except for the [.all()]
    validations. *)
From Coq Require Import Reals List Bool.
From Verif Require Import Lib_Sum M_Base.
Import ListNotations.
Local Open Scope R_scope.

(** The (loc, scale) parameters of a LogNormal distribution. *)
Record lognormal := mkLN { ln_mu : R; ln_sigma : R }.

(** prior_distribution.py:1287-1311 [lognormal_dist_from_mean_std]. *)
Definition lognormal_dist_from_mean_std (mean std : R) : lognormal :=
  mkLN (ln mean - 1 / 2 * ln ((std / mean) ^ 2 + 1)) (sqrt (ln ((std / mean) ^ 2 + 1))).

Definition Rltb (x y : R) : bool := if Rlt_dec x y then true else false.

(** prior_distribution.py:1314-1368 [lognormal_dist_from_range] for aligned arrays of
    (low, high, mass_percent); [quantile] is the standard normal quantile function. *)
Definition lognormal_dist_from_range (quantile : R -> R) (args : list (R * R * R)) : result (list lognormal) :=
  raise_if (negb (forallb (fun a => let '(low, high, _) := a in Rltb 0 low) args &&
                  forallb (fun a => let '(low, high, _) := a in Rltb low high) args)) ValueError (
  raise_if (negb (forallb (fun a => let '(_, _, mass) := a in Rltb 0 mass) args &&
                  forallb (fun a => let '(_, _, mass) := a in Rltb mass 1) args)) ValueError (
  Ok (map (fun a => let '(low, high, mass) := a in
        let mass_lower := 1 / 2 - mass / 2 in
        let mass_upper := 1 / 2 + mass / 2 in
        let sigma := ln (high / low) / (quantile mass_upper - quantile mass_lower) in
        let mu := ln high - quantile mass_upper * sigma in
        mkLN mu sigma) args))).

(** constants.py:604-606 [P_MEAN], [P_SD]. *)
Definition P_MEAN : R := 4 / 10.
Definition P_SD : R := 2 / 10.

(** prior_distribution.py:1404-1434 [_get_total_media_contribution_prior]. *)
Definition total_media_contribution_prior (kpi : R) (total_spend : list R) (p_mean p_sd : R) : lognormal :=
  let roi_mean := p_mean * kpi / lsum total_spend in
  let roi_sd := p_sd * kpi / sqrt (lsum (map (fun s => s ^ 2) total_spend)) in
  let sigma := sqrt (ln (roi_sd ^ 2 / roi_mean ^ 2 + 1)) in
  mkLN (ln (roi_mean * exp (- sigma ^ 2 / 2))) sigma.
