(** Specification of the chart of expected and actual outcomes. *)
From Coq Require Import Reals QArith ZArith String List Bool Arith.
From Verif Require Import Lib_Sum M_Base M_AdstockHill M_Equations M_Transformers M_Aggregate
  S_Aggregate S_Adstock S_Media S_Analyzer M_Analyzer S_Predictor M_Stats S_Stats M_Accuracy S_Accuracy M_FitTable S_FitTable M_FitChart.
Import ListNotations.
Local Open Scope R_scope.

(** What a name has to satisfy to be shown: no selection, or the empty one, is everything. *)
Definition asked (l : option (list string)) (a : string) : Prop :=
  match l with None | Some [] => True | Some l => In a l end.
(** The positions of the names shown. *)
Definition shown (all : list string) (l : option (list string)) (p : list nat) : Prop :=
  NoDup p /\ forall i, In i p <-> (i < length all)%nat /\ asked l (nth i all ""%string).

(** The columns of a row. *)
Definition col (r : row) (m : stat) : option R := match m with Mean => w_mean r | CiLo => w_lo r | CiHi => w_hi r end.

(** The value of a line for some geos in a period: the observed outcome of the geos together, or a statistic, over the
    draws, of their outcome together, as observed or without media. *)
Definition value_of (x : model) (use_kpi : bool) (level : R) (draws : list draw) (b : nat -> R) (l : line) (gl : list nat) (t : nat)
    (m : stat) (a : R) : Prop :=
  match l with
  | Actual => a = total gl (fun g => actual_outcome x use_kpi g t)
  | Expected => is_stat level (map (cell_outcome x no_data use_kpi gl [t]) draws) m a
  | Baseline => is_stat level (map (cell_outcome x (no_media_scenario x b) use_kpi gl [t]) draws) m a
  end.

(** A request that can be met. *)
Definition request_ok (x : model) (times geos : option (list string)) (n : option Z) (by_geo : bool) : Prop :=
  let names l := match l with Some l => l | None => [] end in
  let number := match n with Some k => k | None => 0%Z end in
  (forall t, In t (names times) -> In t (x_time x)) /\ NoDup (names times) /\
  (forall g, In g (names geos) -> In g (x_geo x)) /\ NoDup (names geos) /\
  (by_geo = true -> names geos <> [] \/ number <> 0%Z) /\ (names geos = [] \/ number = 0%Z) /\
  (number <= Z.of_nat (x_n_geos x))%Z.
