(** Specification vocabulary for spend-based metrics. *)
From Coq Require Import Reals ZArith String List Bool Arith.
From Verif Require Import Lib_Sum M_Base M_AdstockHill M_Equations M_Transformers M_Aggregate
  S_Aggregate S_Adstock S_Media S_Analyzer M_Analyzer S_Predictor S_Paid M_Summary.
Import ListNotations.
Local Open Scope R_scope.

(** Spend of one kind of channel: one number per channel ([flat]), or one per geo, period and
    channel; present when the model has channels of this kind ([y0]: their media). *)
Definition spend_fits (flat : bool) (s : option spend) (y0 : option T3) (n_geos n_times : nat) : Prop :=
  match s, y0 with
  | Some (Spend3 y), Some m => flat = false /\ geos y = n_geos /\ times y = n_times /\ chans y = chans m
  | Some (Spend1 n _), Some m => flat = true /\ n = chans m
  | None, None => True
  | _, _ => False
  end.
Definition given_spend (a b : option spend) : option spend := match a with Some _ => a | None => b end.

(** The spend an analysis runs on: the user's, else the historical one. *)
Definition spend_used (f : fitted) (ns : spend_data) : spend_data :=
  mkSpend (given_spend (s_media ns) (s_media (f_spend f))) (given_spend (s_rf ns) (s_rf (f_spend f))).
Definition spend_ok (flat : bool) (f : fitted) (s : spend_data) : Prop :=
  let x := f_x f in
  spend_fits flat (s_media s) (d_media (x_data x)) (x_n_geos x) (x_n_times x) /\
  spend_fits flat (s_rf s) (d_reach (x_data x)) (x_n_geos x) (x_n_times x).

(** What was spent on a channel in the given geos and periods. *)
Definition kind_spend (s : option spend) (c : nat) (gl tl : list nat) : R :=
  match s with
  | Some (Spend3 y) => total gl (fun g => total tl (fun t => val y g t c))
  | Some (Spend1 _ u) => u c
  | None => 0
  end.
Definition channel_spend (s : spend_data) (ch : channel) (gl tl : list nat) : R :=
  match ch with
  | ChMedia c => kind_spend (s_media s) c gl tl
  | ChRf c => kind_spend (s_rf s) c gl tl
  | _ => 0
  end.

(** A call of the spend-based metrics with admissible arguments: historical spend per channel
    ([flat_history]) allows no selection and no results per geo; neither does the spend used for
    results per geo. *)
Record roi_request (f : fitted) (use_posterior flat_history flat : bool) (nd : new_tensors)
    (gs : option (list string)) (ts : option time_sel) (aggregate_geos : bool) (batch_size : Z) : Prop := {
  rr_model : well_formed (f_x f);
  rr_transformers : transformers_ok (f_x f);
  rr_draws : Forall (draw_ok (f_x f)) (f_draws f use_posterior);
  rr_some : f_draws f use_posterior <> [];
  rr_batch : (0 < batch_size)%Z;
  rr_data : paid_data_ok (f_x f) (nt_data nd);
  rr_nonneg : paid_nonneg (f_x f) (nt_data nd);
  rr_spend : spend_ok flat_history f (f_spend f);
  rr_used : spend_ok flat f (spend_used f (nt_spend nd));
  rr_geos : geos_ok (f_x f) gs;
  rr_times : times_ok (f_x f) ts;
  rr_history : flat_history = true -> gs = None /\ ts = None /\ aggregate_geos = true;
  rr_flat : flat = true -> aggregate_geos = true
}.

(** Incremental outcome of a channel in one draw: the outcome at [f1] times the media minus the
    outcome at [f0] times the media. *)
Definition outcome_change (x : model) (nd : data) (w : draw) (ch : channel) (use_kpi by_reach : bool)
    (f0 f1 : R) (gl tl : list nat) : R :=
  total gl (fun g => total tl (fun t =>
    outcome_per_unit (paid_model x nd) true use_kpi g t
    * (paid_term x nd w ch f1 None by_reach g t - paid_term x nd w ch f0 None by_reach g t))).

(** [v] is the quotient [a / b]: undefined exactly when [b] is zero. *)
Definition is_quotient (v : option R) (a b : R) : Prop :=
  (b = 0 -> v = None) /\ (b <> 0 -> exists r, v = Some r /\ r * b = a).
