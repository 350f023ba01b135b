(** Vocabulary of property C40. *)
From Coq Require Import Reals List Arith.
From Verif Require Import M_Base M_Tensors.
Import ListNotations.
Local Open Scope nat_scope.

(** The number of periods the model has for a field. *)
Definition periods (x : context) (f : field) : nat :=
  match f with
  | Media | Reach | Frequency | RfImpressions | OrganicMedia | OrganicReach | OrganicFrequency => x_n_media_times x
  | _ => x_n_times x
  end.
(** What the validation of the input data guarantees. *)
Definition well_formed (x : context) : Prop :=
  (forall f o, x_input x f = Some o -> In (ndim o) (ranks f) /\
     (ndim o > 1 -> nth 0 (sh o) 0 = x_n_geos x /\ nth 1 (sh o) 0 = periods x f)) /\
  (exists t, x_input x Time = Some t /\ sh t = [x_n_times x]) /\
  (x_input x Reach = None <-> x_n_rf_channels x = 0) /\
  (x_input x Frequency = None <-> x_n_rf_channels x = 0) /\
  x_input x RfImpressions = None.
(** Data as the constructor accepts them. *)
Definition ranked (d : data) : Prop := forall f n, d f = Some n -> In (ndim n) (ranks f).

(** A given tensor is one the model has, with the model's geos and channels. *)
Definition well_shaped (x : context) (d : data) (f : field) : Prop :=
  forall n, d f = Some n -> exists o, own x f = Some o /\
    (ndim n > 1 -> nth 0 (sh n) 0 = x_n_geos x) /\
    (f <> RevenuePerKpi -> f <> Time -> last (sh n) 0 = last (sh o) 0).
(** A given tensor does not change the number of periods. *)
Definition unchanged (x : context) (d : data) (f : field) : Prop :=
  forall n o, d f = Some n -> own x f = Some o -> ndim n > 1 -> ndim o > 1 -> nth 1 (sh n) 0 = nth 1 (sh o) 0.
(** [t] is the number of periods of the first tensor, in the order of the fields, that changes it. *)
Definition first_change (x : context) (d : data) (t : nat) : Prop :=
  exists l f l', fields = l ++ f :: l' /\ (forall g, In g l -> unchanged x d g) /\
    exists n o, d f = Some n /\ own x f = Some o /\ ndim n > 1 /\ ndim o > 1 /\
      nth 1 (sh n) 0 <> nth 1 (sh o) 0 /\ t = nth 1 (sh n) 0.
(** The field is given, with [t] periods. *)
Definition covers (d : data) (f : field) (t : nat) : Prop :=
  exists n, d f = Some n /\ (f = Time -> sh n = [t]) /\ (f <> Time -> ndim n > 1 /\ nth 1 (sh n) 0 = t).
Definition given_or_own (x : context) (d : data) (f : field) : option tensor :=
  match d f with Some n => Some n | None => own x f end.
(** The strict rule: the number of periods of the model. *)
Definition keeps_periods (x : context) (d : data) (f : field) : Prop :=
  forall n, d f = Some n -> exists o, own x f = Some o /\
    (f = Time -> sh n = sh o) /\ (ndim n > 1 -> ndim o > 1 /\ nth 1 (sh n) 0 = nth 1 (sh o) 0).

(** The frequency meant for channel [c], and whether there is one for each of [n] channels. *)
Definition freq_at (q : freq) (c : nat) : option R :=
  match q with FScalar v => Some v | FVector l => nth_error l c end.
Definition fits (q : freq) (n : nat) : Prop := match q with FScalar _ => True | FVector l => length l = n end.
Definition index_of (i s : list nat) : Prop := Forall2 lt i s.
