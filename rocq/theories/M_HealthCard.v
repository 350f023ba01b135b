(** Model of the summary of a model's review: meridian/analysis/review/results.py [ReviewSummary] and the table of
    meridian/templates/model_health_summary_card.html.jinja.

    The checks are modelled in M_Review; here a result is the name of its class, its status, its recommendation and the
    statuses of its channels (none if the class has no channel results).  A class is identified with its name: subclasses
    of the classes of results.py are not modelled.  HTML, the score's drawing and the message are not modelled. *)
From Coq Require Import String List Bool Arith.
From Verif Require Import M_Base M_Review.
Import ListNotations.
Local Open Scope string_scope.
Local Open Scope nat_scope.
Local Open Scope list_scope.

Record checked := mkChecked { ck_class : string; ck_status : status; ck_text : string; ck_channels : list status }.
(** results.py:1015-1033 the mapping [check_data]; the counts are (passed, total). *)
Record check_data := mkData { cd_name : string; cd_status : status; cd_text : string; cd_counts : option (nat * nat) }.

(** review/constants.py:60-70 [CHECK_RESULT_NAME_MAP]. *)
Definition name_map : list (string * string) :=
  [("ConvergenceCheckResult", "Convergence"); ("BaselineCheckResult", "Baseline");
   ("GoodnessOfFitCheckResult", "Goodness of fit"); ("BayesianPPPCheckResult", "Bayesian p-value");
   ("PriorPosteriorShiftCheckResult", "Prior-posterior shift"); ("ROIConsistencyCheckResult", "ROI consistency");
   ("ImplausibleROICheckResult", "Implausible ROI"); ("HighVarianceCheckResult", "High-variance ROI");
   ("PotentialBiasCheckResult", "Potential bias")].
(** results.py:1035-1042 [_get_check_name]. *)
Fixpoint find_name (l : list (string * string)) (c : string) : result string :=
  match l with
  | [] => Err ValueError
  | (k, v) :: l' => if String.eqb k c then Ok v else find_name l' c
  end.
Definition check_name (c : string) : result string := find_name name_map c.

(** [isinstance(result, (PriorPosteriorShiftCheckResult, ROIConsistencyCheckResult))]. *)
Definition by_channel (r : checked) : bool :=
  String.eqb (ck_class r) "PriorPosteriorShiftCheckResult" || String.eqb (ck_class r) "ROIConsistencyCheckResult".
Definition passed (s : status) : bool := match s with PASS => true | _ => false end.

(** results.py:1015-1033 [_get_check_data]. *)
Definition get_check_data (r : checked) : result check_data :=
  rbind (check_name (ck_class r)) (fun n =>
  Ok (mkData n (ck_status r) (ck_text r)
        (if by_channel r then Some (length (filter passed (ck_channels r)), length (ck_channels r)) else None))).

(** results.py:984-1003: the loop of [_create_health_card_html]. *)
Fixpoint card_checks (rs : list checked) (model channel : list check_data)
    : result (list check_data * list check_data) :=
  match rs with
  | [] => Ok (model, channel)
  | r :: rs' => rbind (get_check_data r) (fun d =>
      if by_channel r then card_checks rs' model (channel ++ [d]) else card_checks rs' (model ++ [d]) channel)
  end.

(** model_health_summary_card.html.jinja:62-83: the rows of the table.  The chip of an advanced check is Pass or Review. *)
Definition metric_row (d : check_data) : check_data := mkData (cd_name d) (cd_status d) (cd_text d) None.
Definition advanced_row (d : check_data) : check_data :=
  mkData (cd_name d) (if passed (cd_status d) then PASS else REVIEW) (cd_text d) (cd_counts d).
Definition health_card (rs : list checked) : result (list check_data) :=
  rbind (card_checks rs [] []) (fun p => Ok (map metric_row (fst p) ++ map advanced_row (snd p))).
(** model_health_summary_card.html.jinja:43-53: whether the banner is that of a failure. *)
Definition fail_banner (s : status) : bool := match s with FAIL => true | _ => false end.

(** results.py:954-960 [checks_status]: a dict comprehension; a later value replaces an earlier one in its place. *)
Fixpoint dict_put (d : list (string * status)) (k : string) (v : status) : list (string * status) :=
  match d with
  | [] => [(k, v)]
  | (k', v') :: d' => if String.eqb k' k then (k, v) :: d' else (k', v') :: dict_put d' k v
  end.
Definition checks_status (rs : list checked) : list (string * status) :=
  fold_left (fun d r => dict_put d (ck_class r) (ck_status r)) rs [].
