(** Specification vocabulary for dates: calendar validity, order, contiguous selections, buckets. *)
From Coq Require Import ZArith List Sorted.
From Verif Require Import M_Time.
Import ListNotations.
Open Scope Z_scope.

(** A date of the Gregorian calendar. *)
Definition leap (y : Z) : Prop := (4 | y) /\ (~ (100 | y) \/ (400 | y)).
Definition month_has (y m n : Z) : Prop :=
  (In m [1; 3; 5; 7; 8; 10; 12] /\ n = 31) \/ (In m [4; 6; 9; 11] /\ n = 30) \/
  (m = 2 /\ leap y /\ n = 29) \/ (m = 2 /\ ~ leap y /\ n = 28).
Definition valid_date (d : date) : Prop := exists n, month_has (year d) (month d) n /\ 1 <= day d <= n.

(** [b] is the day after [a]. *)
Definition next_day (a b : date) : Prop :=
  exists n, month_has (year a) (month a) n /\
  ((day a < n /\ b = mkDate (year a) (month a) (day a + 1)) \/
   (day a = n /\ month a < 12 /\ b = mkDate (year a) (month a + 1) 1) \/
   (day a = n /\ month a = 12 /\ b = mkDate (year a + 1) 1 1)).

(** Calendar order. *)
Definition before (a b : date) : Prop :=
  year a < year b \/ (year a = year b /\ (month a < month b \/ (month a = month b /\ day a < day b))).
Definition increasing (l : list date) : Prop := StronglySorted before l.
Definition not_decreasing (l : list date) : Prop := StronglySorted (fun a b => ~ before b a) l.

(** [sel] is the stretch of [all] from [s] to [e], both included. *)
Definition selection (all : list date) (s e : date) (sel : list date) : Prop :=
  exists pre post, all = pre ++ sel ++ post /\
    (exists r, sel = s :: r) /\ (exists r, sel = r ++ [e]) /\
    (forall d, In d pre -> before d s) /\ (forall d, In d post -> before e d).

(** The date [k] calendar months after [d], for days that exist in every month. *)
Definition months_later (d : date) (k : Z) (e : date) : Prop :=
  12 * year e + month e = 12 * year d + month d + k /\ 1 <= month e <= 12 /\ day e = day d.

(** Calendar buckets, numbered consecutively. *)
Definition month_no (d : date) : Z := 12 * year d + month d - 1.
Definition quarter_no (d : date) : Z := month_no d / 3.
Definition year_no (d : date) : Z := year d.

(** [(s, e)]: [s] is the first available date of its bucket, [e] the first available date after the
    bucket, and the dates in between are exactly those of the bucket. *)
Definition bucket_interval (key : date -> Z) (l : list date) (s e : date) : Prop :=
  In s l /\ In e l /\ before s e /\ key s <> key e /\
  (forall d, In d l -> (key d = key s <-> (~ before d s /\ before d e))).

(** Neighbouring dates are at most [n] days apart. *)
Definition gaps_at_most (n : Z) (l : list date) : Prop :=
  forall i a b, nth_error l i = Some a -> nth_error l (S i) = Some b -> ordinal b - ordinal a <= n.

(** Intervals are listed in order and do not overlap. *)
Definition in_order (l : list (date * date)) : Prop :=
  StronglySorted (fun p q => ~ before (fst q) (snd p)) l.
