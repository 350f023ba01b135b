(** Specification vocabulary for the tables of [MediaSummary]. *)
From Coq Require Import Reals ZArith String List Bool Arith Permutation Sorted.
From Verif Require Import Lib_Sum M_Base M_AdstockHill M_Equations M_Transformers M_Aggregate
  S_Aggregate S_Adstock S_Media S_Analyzer M_Analyzer S_Predictor S_Paid M_Stats S_Stats M_Summary S_Roi
  S_Summary M_MediaSummary.
Import ListNotations.
Local Open Scope R_scope.
Local Open Scope string_scope.
Local Open Scope list_scope.

Definition dates (g : settings) : option time_sel := option_map TDates (g_times g).

(** An object whose two summaries have admissible arguments, and channel names that do not repeat. *)
Record media_request (f : fitted) (g : settings) (at' : bool) : Prop := {
  mr_paid : summary_request f no_new None (dates g) (g_level g) 100;
  mr_all : contribution_request f (g_baseline g) None (dates g) at' (g_level g) 100;
  mr_names : NoDup (f_paid_names f ++ f_other_names f ++ ["All Channels"]);
  (* InputData sets the revenue per KPI of a revenue KPI to one (input_data.py:584-602) *)
  mr_units : x_kpi_is_revenue (f_x f) = true -> d_revenue_per_kpi (x_data (f_x f)) <> None
}.
(** The channels a table shows: those selected, or all. *)
Definition rows_shown (names : list string) (selected : option (list string)) : list string :=
  match selected with Some (a :: l) => a :: l | _ => names end.

(** The order of the rows: by period, then by decreasing outcome; numbers that are not defined
    come last. *)
Definition outcome_before (a b : crow) : Prop :=
  match c_outcome a, c_outcome b with
  | Some u, Some v => v <= u
  | Some _, None => True
  | None, Some _ => False
  | None, None => True
  end.
Definition precedes (a b : crow) : Prop :=
  match c_time a, c_time b with
  | Some t, Some u => String.compare t u = Lt \/ t = u /\ outcome_before a b
  | _, _ => outcome_before a b
  end.

Section Spec.
Variables (f : fitted) (g : settings) (at' : bool).
Let x := f_x f.
(** Periods of the table: one in all when times are aggregated. *)
Definition n_periods : nat := if at' then 1%nat else length (chosen_times x (dates g)).
Definition period_label (j : nat) : option string :=
  if at' then None else Some (nth j (period_names x (dates g)) "").
(** Posterior mean of the outcome the model expects in a period. *)
Definition expected (j : nat) : R := mean_outcome f no_new None (dates g) true at' (g_use_kpi g) true 0 j.
(** Posterior mean of what a paid channel adds (of all of them: [None]). *)
Definition posterior_mean (F : draw -> R) : R :=
  lsum (map F (f_posterior f)) / INR (length (f_posterior f)).
Definition mean_gain (r : option channel) (j : nat) : R :=
  posterior_mean (fun w => row_gain f no_new None (dates g) true at' (g_use_kpi g) true 0 1 w r 0 j).

(** The table with the rows [names]: for every period a row for the baseline and one for each
    name.  [out j a]: what channel [a] adds in period [j]. *)
Record contribution_table (names : list string) (out : nat -> string -> R) (T : list crow) : Prop := {
  ct_sorted : StronglySorted precedes T;
  ct_rows : exists (base : nat -> crow) (chan : nat -> string -> crow),
    Permutation T (flat_map (fun j => base j :: map (chan j) names) (seq 0 n_periods)) /\
    forall j, (j < n_periods)%nat ->
      c_time (base j) = period_label j /\ c_channel (base j) = "baseline" /\
      (forall a, In a names -> c_time (chan j a) = period_label j /\ c_channel (chan j a) = a /\
         c_outcome (chan j a) = Some (out j a)) /\
      (expected j <> 0 ->
         c_pct (base j) = Some (1 - out j "All Channels" / expected j) /\
         forall a, In a names -> c_pct (chan j a) = Some (out j a / expected j)) /\
      (expected j <> 0 -> out j "All Channels" <> 0 ->
         c_outcome (base j) = Some (expected j - out j "All Channels")) /\
      (* 0 / 0: the outcome of the baseline is lost *)
      (expected j <> 0 -> out j "All Channels" = 0 -> c_outcome (base j) = None)
}.
End Spec.

(** The rows of a period, and their columns. *)
Definition rows_of (t : option string) (T : list crow) : list crow :=
  filter (fun r => match t, c_time r with
                   | Some a, Some b => if string_dec a b then true else false
                   | None, None => true
                   | _, _ => false
                   end) T.
Definition number (v : option R) : R := match v with Some r => r | None => 0 end.

(** Histories: object [o] is the [o]-th one that is created. *)
Definition creations (l : list action) : nat :=
  length (filter (fun a => match a with ANew _ _ => true | _ => false end) l).
Definition updates (o : nat) (a : action) : Prop :=
  match a with AUpdate p _ _ _ _ => p = o | _ => False end.
(** It was created with these settings, which were not changed since. *)
Definition unchanged_object (l : list action) (o : nat) (f : fitted) (g : settings) : Prop :=
  exists l1 l2, l = l1 ++ ANew f g :: l2 /\ o = creations l1 /\ Forall (fun a => ~ updates o a) l2.

(** The largest of some numbers. *)
Definition is_largest (v : R) (l : list R) : Prop := In v l /\ forall u, In u l -> u <= v.
