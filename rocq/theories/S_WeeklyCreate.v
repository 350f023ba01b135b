(** Specification of the weekly optimization grid. *)
From Coq Require Import Reals ZArith String List Bool Arith.
From Verif Require Import Lib_Sum M_Base M_AdstockHill M_Equations M_Transformers M_Aggregate
  S_Aggregate S_Adstock S_Media S_Analyzer M_Analyzer S_Predictor S_Paid M_Stats M_Summary S_Roi S_Summary M_Spend S_Spend
  M_WeeklyCreate.
Import ListNotations.
Local Open Scope R_scope.

(** The revenue per KPI of an analysis: the user's, else the historical one. *)
Definition revenue_used (x : model) (nd : data) : option T2 :=
  match d_revenue_per_kpi nd with Some r => Some r | None => d_revenue_per_kpi (x_data x) end.

(** The data with every channel with reach and frequency at a constant frequency [q c] and its
    impressions unchanged. *)
Definition at_frequency (x : model) (nd : data) (optimum : option (nat -> R)) : data :=
  match optimum, given d_reach nd x, given d_frequency nd x with
  | Some q, Some r, Some f =>
      mkData (d_media nd)
        (Some (mkT3 (geos r) (times r) (chans r) (fun g t c => val r g t c * val f g t c / q c)))
        (Some (mkT3 (geos f) (times f) (chans f) (fun _ _ c => q c)))
        None None None None None (d_revenue_per_kpi nd)
  | _, _, _ => nd
  end.

(** KPI, or revenue, of one unit of the linear predictor. *)
Definition weekly_unit (x : model) (nd : data) (use_kpi : bool) (g t : nat) : R :=
  k_stdev (kpi_tr x) * x_population x g
  * (if use_kpi then 1 else match revenue_used x nd with Some r => val2 r g t | None => 1 end).

(** What a draw expects of channel [ch] in week [t], over all geos, when its media (its reach) are
    multiplied by [m] in every period, against none. *)
Definition weekly_change (x : model) (nd : data) (use_kpi : bool) (ch : channel) (m : R) (t : nat) (w : draw) : R :=
  total (seq 0 (x_n_geos x)) (fun g =>
    weekly_unit x nd use_kpi g t * (paid_term x nd w ch m None true g t - paid_term x nd w ch 0 None true g t)).

Definition average (l : list R) : R := lsum l / INR (length l).

(** A call of [create] with admissible arguments. *)
Record create_request (f : fitted) (flat_media flat_rf : bool) (nd : new_tensors) (use_posterior : bool)
    (optimum : option (nat -> R)) (selected : option (list string)) (multipliers : list R) : Prop := {
  cq_spend : spend_request f flat_media flat_rf nd None None;
  cq_draws : Forall (draw_ok (f_x f)) (f_draws f use_posterior);
  cq_some : f_draws f use_posterior <> [];
  cq_nonneg : paid_nonneg (f_x f) (nt_data nd);
  cq_transformers : transformers_ok (f_x f);
  cq_weeks : NoDup (x_time (f_x f));
  cq_channels : (0 < n_paid (f_x f))%nat;
  cq_selected : forall l, selected = Some l -> l <> [] /\ Forall (fun t => In t (x_time (f_x f))) l;
  cq_optimum : forall q, optimum = Some q -> forall c, 0 < q c;
  cq_multipliers : multipliers <> [] /\ Forall (fun m => 0 <= m) multipliers
}.
