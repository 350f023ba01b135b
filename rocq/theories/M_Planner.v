(** Model of scenarioplanner/converters/mmm.py: the wrapper of the [MarketingData] message that the scenario
    planner's tables read, and what it says was spent.

    A date interval is a pair of dates: [normalize_date_interval] (time_coordinates.py:72-104) turns strings and
    timestamps into them.  A dict is the list of its items in order.  A number that is not set in the message
    reads as 0.0.  [None] is NaN.  Names are compared byte by byte, which for UTF-8 is Python's order. *)
From Coq Require Import Reals ZArith String List Bool.
From Verif Require Import M_Base M_Time M_InputData M_Marketing Lib_Sort.
Import ListNotations.
Local Open Scope string_scope.
Local Open Scope nat_scope.
Local Open Scope list_scope.

Definition interval := (date * date)%type.
(** mmm.py:96-98 [DateInterval.__contains__]. *)
Definition contains (i : interval) (t : date) : bool := date_leb (fst i) t && date_ltb t (snd i).

(** [set], then [sorted]. *)
Definition name_leb (a b : string) : bool := match String.compare a b with Gt => false | _ => true end.
Definition sorted_names (l : list string) : list string := isort name_leb (first_seen String.eqb l).
(** 594-601 [media_channels], 603-610 [rf_channels]: the names of all variables, organic ones too. *)
Definition media_channels (m : marketing) : list string := sorted_names (flat_map (fun p => map mv_name (dp_media p)) (mk_points m)).
Definition rf_channels (m : marketing) : list string := sorted_names (flat_map (fun p => map rv_name (dp_rf p)) (mk_points m)).

(** Dicts of numbers. *)
Definition dict := list (string * option R).
Fixpoint get (d : dict) (c : string) : option (option R) :=
  match d with [] => None | (n, x) :: r => if String.eqb n c then Some x else get r c end.
Fixpoint put (d : dict) (c : string) (x : option R) : dict :=
  match d with [] => [(c, x)] | (n, y) :: r => if String.eqb n c then (n, x) :: r else (n, y) :: put r c x end.
Definition plus (a b : option R) : option R := match a, b with Some x, Some y => Some (x + y)%R | _, _ => None end.
Definition or_zero (o : option (option R)) : option R := match o with Some x => x | None => Some 0%R end.

(** [channel_spends[name] = channel_spends[name] + spend]; KeyError for an unknown name. *)
Definition add_spend (d : result dict) (v : string * option R) : result dict :=
  rbind d (fun d => match get d (fst v) with Some x => Ok (put d (fst v) (plus x (snd v))) | None => Err KeyError end).
Definition spends_by (channels : list string) (variables : point -> list (string * option R)) (i : interval) (points : list point) : result dict :=
  fold_left (fun d p => if contains i (dp_start p) then fold_left add_spend (variables p) d else d) points
    (Ok (map (fun c => (c, Some 0%R)) channels)).
Definition media_entries (p : point) : list (string * option R) := map (fun v => (mv_name v, or_zero (mv_spend v))) (dp_media p).
Definition rf_entries (p : point) : list (string * option R) := map (fun v => (rv_name v, or_zero (rv_spend v))) (dp_rf p).
(** 619-646 [media_channel_spends]. *)
Definition media_channel_spends (m : marketing) (i : interval) : result dict := spends_by (media_channels m) media_entries i (mk_points m).
(** 648-675 [rf_channel_spends]. *)
Definition rf_channel_spends (m : marketing) (i : interval) : result dict := spends_by (rf_channels m) rf_entries i (mk_points m).
(** 677-696 [all_channel_spends]: [dict.update]. *)
Definition all_channel_spends (m : marketing) (i : interval) : result dict :=
  rbind (rf_channel_spends m i) (fun rf => rbind (media_channel_spends m i) (fun media =>
  Ok (fold_left (fun d e => put d (fst e) (snd e)) media rf))).
