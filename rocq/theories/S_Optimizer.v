(** Specification vocabulary for C76: which requests are well-formed, and when a grid fits a request. *)
From Coq Require Import ZArith QArith String List Permutation.
From Verif Require Import Lib_QSum M_Base M_Opt M_Optimizer S_Opt.
Import ListNotations.
Local Open Scope string_scope.
Local Open Scope list_scope.

Section S.
Variables Data Frequency : Type.
Variable channels : list string.
Variables first_date last_date : Data -> Z.

(** A fixed budget comes without targets and is positive; a flexible budget comes with exactly one target. *)
Definition budget_arguments (a : request Data) : Prop :=
  if a_fixed a then a_target_roi a = None /\ a_target_mroi a = None /\ (forall b, a_budget a = Some b -> 0 < b)%Q
  else a_budget a = None /\ ((exists t, a_target_roi a = Some t) /\ a_target_mroi a = None \/ a_target_roi a = None /\ exists t, a_target_mroi a = Some t).
(** The target, if there is one, is usable. *)
Definition usable_target (a : request Data) : Prop :=
  (forall t, a_target_roi a = Some t -> (0 < t)%Q) /\ (forall t, a_target_mroi a = Some t -> (0 <= t)%Q).

(** The scenario that a well-formed request stands for. *)
Definition wanted (a : request Data) (s : user_scenario) : Prop :=
  if a_fixed a then s = Fixed (a_budget a)
  else (exists t, a_target_roi a = Some t /\ s = Flexible_ROI t) \/ (a_target_roi a = None /\ exists t, a_target_mroi a = Some t /\ s = Flexible_MROI t).

(** The date that an open end of the period stands for. *)
Definition resolved (o : option Z) (d : Z) : Z := match o with Some x => x | None => d end.
Definition listed (o : option (list string)) : list string := match o with Some l => l | None => [] end.
Definition same_bound (x y : option Q) : Prop := match x, y with Some a, Some b => (a == b)%Q | None, None => True | _, _ => False end.

(** The grid was made for the same distribution, outcome, frequency choice, period, channels and geos. *)
Definition fits (a : request Data) (g : ogrid Frequency) : Prop :=
  g_posterior g = a_posterior a /\ g_kpi g = a_kpi a /\ g_optimal_frequency g = a_optimal_frequency a /\
  same_bound (a_max_frequency a) (g_max_frequency g) /\
  resolved (g_start g) (first_date (a_data a)) = resolved (a_start a) (first_date (a_data a)) /\
  resolved (g_end g) (last_date (a_data a)) = resolved (a_end a) (last_date (a_data a)) /\
  g_channels g = channels /\ Permutation (listed (g_geos g)) (listed (a_geos a)).

(** Two requests that differ at most in budget, split, targets and constraints. *)
Definition alike (a b : request Data) : Prop :=
  a_data a = a_data b /\ a_posterior a = a_posterior b /\ a_geos a = a_geos b /\ a_start a = a_start b /\ a_end a = a_end b /\
  a_gtol a = a_gtol b /\ a_optimal_frequency a = a_optimal_frequency b /\ a_max_frequency a = a_max_frequency b /\ a_kpi a = a_kpi b.

(** The constraint of a request, 0.3 for a fixed budget and 1 for a flexible one unless given. *)
Definition lower_of (a : request Data) : constraint := match a_lower a with Some c => c | None => if a_fixed a then Scalar (3 # 10) else Scalar 1 end.
Definition upper_of (a : request Data) : constraint := match a_upper a with Some c => c | None => if a_fixed a then Scalar (3 # 10) else Scalar 1 end.
(** The budget of a request: the given one, or the total spend. *)
Definition budget_for (a : request Data) (total : Q) : Q := match a_budget a with Some b => b | None => total end.
(** The split, when given, has one nonnegative share per channel, adding up to 1 within 0.001. *)
Definition split_ok (n : nat) (a : request Data) : Prop :=
  match a_pct a with
  | None => True
  | Some l => length l = n /\ Forall (fun x => 0 <= x)%Q l /\ (- (1 # 1000) <= fold_left Qplus l 0 - 1)%Q /\ (fold_left Qplus l 0 - 1 <= 1 # 1000)%Q
  end.
(** The step of the grid: one unit, or the smallest power of ten above budget * gtol. *)
Definition step_for (budget gtol : Q) (k : nat) : Prop :=
  (budget * gtol < 1)%Q /\ k = 0%nat \/
  (1 <= budget * gtol)%Q /\ (inject_Z (pow10 k) <= 10 * (budget * gtol))%Q /\ (budget * gtol < inject_Z (pow10 k))%Q.
End S.
Arguments budget_arguments {Data}. Arguments usable_target {Data}. Arguments wanted {Data}. Arguments fits {Data Frequency}. Arguments alike {Data}.
Arguments lower_of {Data}. Arguments upper_of {Data}. Arguments budget_for {Data}. Arguments split_ok {Data}.
