(** Specification vocabulary: moments and distribution function of a log-normal variable
    exp(mu + sigma Z) with Z standard normal (textbook closed forms). *)
From Coq Require Import Reals List.
From Verif Require Import Lib_Sum M_PriorDist.
Import ListNotations.
Local Open Scope R_scope.

(** E[X^k] = exp(k mu + k^2 sigma^2 / 2). *)
Definition moment (k : R) (d : lognormal) : R :=
  exp (k * ln_mu d + k ^ 2 * ln_sigma d ^ 2 / 2).
Definition dist_mean (d : lognormal) : R := moment 1 d.
Definition dist_variance (d : lognormal) : R := moment 2 d - moment 1 d ^ 2.
Definition dist_sd (d : lognormal) : R := sqrt (dist_variance d).

(** P(X <= x) = Phi((ln x - mu) / sigma) for x > 0, with Phi the normal distribution function. *)
Definition lognormal_cdf (Phi : R -> R) (d : lognormal) (x : R) : R :=
  Phi ((ln x - ln_mu d) / ln_sigma d).

(** [quantile] inverts the (strictly increasing) distribution function [Phi] on (0, 1). *)
Definition quantile_of (Phi quantile : R -> R) : Prop :=
  (forall x y, x < y -> Phi x < Phi y) /\ (forall p, 0 < p < 1 -> Phi (quantile p) = p).

(** Mean and standard deviation of the total contribution, as a fraction of the KPI, when the
    ROI of every channel independently follows [d]. *)
Definition total_contribution_mean (d : lognormal) (spend : list R) (kpi : R) : R :=
  lsum (map (fun s => s * dist_mean d) spend) / kpi.
Definition total_contribution_sd (d : lognormal) (spend : list R) (kpi : R) : R :=
  sqrt (lsum (map (fun s => s ^ 2 * dist_variance d) spend)) / kpi.
