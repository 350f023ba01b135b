(** Specification of the summary of results. *)
From Coq Require Import QArith ZArith String List Bool Permutation Sorted.
From Verif Require Import M_Base M_Time S_Time M_Summarizer.
Import ListNotations.

(** The date asked for, or the first (last) of the data. *)
Definition from_date (all : list date) (s : option date) (s0 : date) : Prop :=
  match s with Some d => s0 = d | None => In s0 all /\ forall d, In d all -> ~ before d s0 end.
Definition to_date (all : list date) (e : option date) (e0 : date) : Prop :=
  match e with Some d => e0 = d | None => In e0 all /\ forall d, In d all -> ~ before e0 d end.
(** [l] are the periods of the data between two dates, in order. *)
Fixpoint between (s e : date) (all l : list date) : Prop :=
  match all with
  | [] => l = []
  | d :: r => (~ before d s /\ ~ before e d /\ exists l', l = d :: l' /\ between s e r l') \/
              ((before d s \/ before e d) /\ between s e r l)
  end.

(** One value is at least as good as another: larger, or smaller where small is good; no value is the worst. *)
Definition as_good (small : bool) (v w : option Q) : Prop :=
  match w with None => True | Some y => exists x, v = Some x /\ if small then (x <= y)%Q else (y <= x)%Q end.
(** [named] are the best [n] of the channels, in order, leaving out the row of all channels. *)
Definition best_channels (small : bool) (n : nat) (rows named : list (string * option Q)) : Prop :=
  exists rest, Permutation (named ++ rest) (filter (fun a => negb (String.eqb (fst a) "All Channels")) rows) /\
    (length named = n \/ ((length named < n)%nat /\ rest = [])) /\
    StronglySorted (fun a b => as_good small (snd a) (snd b)) named /\
    forall a b, In a named -> In b rest -> as_good small (snd a) (snd b).
