(** Specification for property C105: what a dataset says, and which datasets can be loaded. *)
From Coq Require Import String List Bool.
From Verif Require Import M_Base M_Time Lib_Sort M_Builder S_Builder M_XrLoader.
Import ListNotations.
Local Open Scope nat_scope.
Local Open Scope list_scope.

Section Spec.
Context {V : Type}.
Variables (tle : string -> string -> bool) (parse : string -> option date) (national : string).
Notation dataset := (dataset V).

Definition present (d : dataset) (c : component) : Prop := ds_array d c <> None.
(** The array of [c] has a value for every geo and channel at the [j]-th time. *)
Definition complete_at (d : dataset) (c : component) (j : nat) : Prop :=
  forall a i k, ds_array d c = Some a -> i < List.length (ds_geos d) -> k < n_chans d c -> a i j k <> None.
(** The times of the KPI, the controls, the non-media treatments, the revenue per KPI and the
    spends: those of the dataset; in a dataset that does not tell media times apart, those at which
    none of these arrays misses a value. *)
Definition own_time (d : dataset) (t : string) : Prop :=
  exists j, nth_error (ds_times d) j = Some t /\
    (ds_media_times d = None -> forall c, In c [Kpi; Controls; NonMediaTreatments; RevenuePerKpi; MediaSpend; RfSpend] -> complete_at d c j).
(** The times of the media. *)
Definition all_times (d : dataset) : list string := match ds_media_times d with Some m => m | None => ds_times d end.
(** A single geo has the national name, whatever it is called in the dataset. *)
Definition geo_names (d : dataset) : list string := match ds_geos d with [_] => [national] | l => l end.
(** The labels of the time axis of an array in the dataset. *)
Definition axis (d : dataset) (c : component) : list string := match dim_of c with WithMediaTime => all_times d | _ => ds_times d end.

(** What can be loaded. *)
Record loadable (d : dataset) : Prop := {
  (* a KPI; media with spend, reach with frequency and spend, organic reach with frequency; paid media *)
  l_kpi : present d Kpi;
  l_media : present d Media <-> present d MediaSpend;
  l_reach : present d Reach <-> present d Frequency;
  l_rf : present d Reach <-> present d RfSpend;
  l_organic : present d OrganicReach <-> present d OrganicFrequency;
  l_paid : present d Media \/ present d Reach;
  (* geos are told apart, and there is a population unless there is one geo only *)
  l_geos : NoDup (geo_names d);
  l_population : List.length (ds_geos d) = 1 \/ present d Population;
  (* all times are readable dates, told apart and regularly spaced *)
  l_times : (forall t, In t (all_times d) -> parse t <> None) /\ NoDup (all_times d) /\ regular tle parse (all_times d);
  (* the times with data are the last ones, and regularly spaced *)
  l_own : exists ts, (forall t, In t ts <-> own_time d t) /\ NoDup ts /\ (forall t, In t ts -> parse t <> None) /\ regular tle parse ts /\
            last_part tle ts (all_times d);
  (* in a dataset with media times each time is there once *)
  l_once : ds_media_times d <> None -> NoDup (ds_times d);
  (* media never miss a value, the other arrays only where this says that the times have no data *)
  l_media_values : forall c, dim_of c = WithMediaTime -> forall j, j < List.length (all_times d) -> complete_at d c j;
  l_values : ds_media_times d <> None -> forall c, dim_of c = WithTime -> forall j, j < List.length (ds_times d) -> complete_at d c j;
  l_population_values : List.length (ds_geos d) <> 1 -> complete_at d Population 0
}.
End Spec.
