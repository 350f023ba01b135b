(** Specification for C110: what a row of the health card says of a check. *)
From Coq Require Import String List Bool Arith.
From Verif Require Import M_Base M_Review M_HealthCard.
Import ListNotations.
Local Open Scope string_scope.
Local Open Scope list_scope.

(** The names users read. *)
Inductive readable : string -> string -> Prop :=
| R1 : readable "ConvergenceCheckResult" "Convergence"
| R2 : readable "BaselineCheckResult" "Baseline"
| R3 : readable "GoodnessOfFitCheckResult" "Goodness of fit"
| R4 : readable "BayesianPPPCheckResult" "Bayesian p-value"
| R5 : readable "PriorPosteriorShiftCheckResult" "Prior-posterior shift"
| R6 : readable "ROIConsistencyCheckResult" "ROI consistency"
| R7 : readable "ImplausibleROICheckResult" "Implausible ROI"
| R8 : readable "HighVarianceCheckResult" "High-variance ROI"
| R9 : readable "PotentialBiasCheckResult" "Potential bias".

(** The two checks that count channels. *)
Definition counts_channels (r : checked) : Prop :=
  ck_class r = "PriorPosteriorShiftCheckResult" \/ ck_class r = "ROIConsistencyCheckResult".

Lemma status_eq_dec : forall a b : status, {a = b} + {a <> b}.
Proof. decide equality. Defined.

(** A row says of a check its name and its recommendation.  Of the two checks that count channels it says whether it passed,
    and how many channels passed out of how many; of another its status, and no counts. *)
Definition says (r : checked) (row : check_data) : Prop :=
  readable (ck_class r) (cd_name row) /\ cd_text row = ck_text r /\
  (counts_channels r -> (cd_status row = PASS <-> ck_status r = PASS) /\ (ck_status r <> PASS -> cd_status row = REVIEW) /\
     cd_counts row = Some (count_occ status_eq_dec (ck_channels r) PASS, length (ck_channels r))) /\
  (~ counts_channels r -> cd_status row = ck_status r /\ cd_counts row = None).

(** The last result of a class among results. *)
Definition last_of (rs : list checked) (c : string) (s : status) : Prop :=
  exists before r after, rs = before ++ r :: after /\ ck_class r = c /\ ck_status r = s /\
    forall r', In r' after -> ck_class r' <> c.
