(** Vocabulary of property C98: the spend of a channel between two dates, from the input data. *)
From Coq Require Import Reals ZArith String List Bool.
From Verif Require Import Lib_Sum M_Base M_Time S_Time M_InputData S_InputData.
Import ListNotations.
Local Open Scope string_scope.
Local Open Scope nat_scope.
Local Open Scope list_scope.

(** From the first date on, and before the second. *)
Definition between (s e t : date) : Prop := ~ before t s /\ before t e.
Definition tells (s e : date) (inside : date -> bool) : Prop := forall t, inside t = true <-> between s e t.

Definition number (x : option R) : R := match x with Some a => a | None => 0%R end.
(** Spend by geo, period and channel: added up over the geos and over the periods inside.  Spend by channel
    only: all of it if the first media period is inside, and nothing otherwise. *)
Definition spent (sp : spend) (first : date) (inside : date -> bool) (k : nat) : R :=
  match sp with
  | SpendPanel p =>
      lsum (map (fun i => lsum (map (fun jt => if inside (snd jt) then number (p_at p i (fst jt) k) else 0%R)
                                    (combine (seq 0 (length (p_times p))) (p_times p))))
                (seq 0 (length (p_geos p))))
  | SpendTotal _ a => if inside first then number (a k) else 0%R
  end.
(** A channel without spend data has spent nothing. *)
Definition spent_by (names : list string) (sp : option spend) (first : date) (inside : date -> bool) (c : string) (x : R) : Prop :=
  exists k, nth_error names k = Some c /\ x = match sp with Some sp => spent sp first inside k | None => 0%R end.

Definition names_of (o : option panel) : list string := match o with Some p => p_names p | None => [] end.
