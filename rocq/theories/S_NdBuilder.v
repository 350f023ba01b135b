(** Specification for property C94: what the calls of a history give. *)
From Coq Require Import List Bool.
From Verif Require Import M_Base M_Time Lib_Sort M_Builder S_Builder M_NdBuilder.
Import ListNotations.
Local Open Scope nat_scope.
Local Open Scope list_scope.

Section Spec.
Context {G T C V : Type}.
Notation call := (M_NdBuilder.call G T C V).
Notation nd := (M_NdBuilder.nd V).

(** The arrays that a call gives, with the names along their last axis. *)
Definition supplies (k : call) : list (component * nd * option (list C)) :=
  match k with
  | Geos _ | Times _ | MediaTimes _ => []
  | WithKpi x => [(Kpi, x, None)]
  | WithControls x n => [(Controls, x, Some n)]
  | WithPopulation x => [(Population, x, None)]
  | WithRevenuePerKpi x => [(RevenuePerKpi, x, None)]
  | WithMedia m ms n => [(Media, m, Some n); (MediaSpend, ms, Some n)]
  | WithReach r f rfs n => [(Reach, r, Some n); (Frequency, f, Some n); (RfSpend, rfs, Some n)]
  | WithOrganicMedia x n => [(OrganicMedia, x, Some n)]
  | WithOrganicReach r f n => [(OrganicReach, r, Some n); (OrganicFrequency, f, Some n)]
  | WithNonMedia x n => [(NonMediaTreatments, x, Some n)]
  end.
Definition name_list (n : option (list C)) : list C := match n with Some l => l | None => [] end.

(** The documented shape: geos, then periods, then names. *)
Definition shaped (c : component) (x : nd) (n : option (list C)) (gs : list G) (ts : list T) : Prop :=
  nd_shape x = length gs :: match dim_of c with
                            | WithoutTime => []
                            | _ => length ts :: match n with Some l => [length l] | None => [] end
                            end.

(** [accepts pre k]: after the calls [pre], the call [k] does not raise. *)
Variable accepts : list call -> call -> Prop.
(** [l] was given by the last call of a kind that did not raise. *)
Definition last_given {A} (kind : list A -> call) (hist : list call) (l : list A) : Prop :=
  exists pre post, hist = pre ++ kind l :: post /\ accepts pre (kind l) /\
    forall p q l', post = p ++ kind l' :: q -> ~ accepts (pre ++ kind l :: p) (kind l').
Definition never_given {A} (kind : list A -> call) (hist : list call) : Prop :=
  forall pre post l, hist = pre ++ kind l :: post -> ~ accepts pre (kind l).
(** The geos in force: the last ones given, or the national one. *)
Definition geos_in_force (national : G) (hist : list call) (gs : list G) : Prop :=
  last_given Geos hist gs \/ (never_given Geos hist /\ gs = [national]).
Definition times_in_force (c : component) (hist : list call) (ts : list T) : Prop :=
  match dim_of c with
  | WithTime => last_given Times hist ts
  | WithMediaTime => last_given MediaTimes hist ts
  | WithoutTime => ts = []
  end.
End Spec.
