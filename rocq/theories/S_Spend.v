(** Specification of the aggregated spend table. *)
From Coq Require Import Reals ZArith String List Bool Arith.
From Verif Require Import Lib_Sum M_Base M_AdstockHill M_Equations M_Transformers M_Aggregate
  S_Aggregate S_Adstock S_Media S_Analyzer M_Analyzer S_Predictor S_Paid M_Stats M_Summary S_Roi S_Summary M_Spend.
Import ListNotations.
Local Open Scope R_scope.

(** The spend of the channels of one kind, per channel or per geo, period and channel. *)
Definition spend_of (s : spend_data) (ch : channel) : option spend :=
  match ch with ChMedia _ => s_media s | ChRf _ => s_rf s | _ => None end.

(** [v] is what was spent on [ch] in the given geos and periods.  Spend known per channel only is
    spread over geos and periods in proportion to the impressions; this is undefined for a channel
    without impressions. *)
Definition is_spent (x : model) (nd : data) (s : spend_data) (ch : channel) (gl tl : list nat)
    (v : option R) : Prop :=
  match spend_of s ch with
  | Some (Spend3 _) => v = Some (channel_spend s ch gl tl)
  | Some (Spend1 _ _) =>
      is_quotient v (channel_spend s ch gl tl * channel_impressions x nd ch gl tl)
        (channel_impressions x nd ch (chosen_geos x None) (chosen_times x None))
  | None => False
  end.

(** Which paid channels are asked for, and the column of each. *)
Definition included (include_media include_rf : bool) (ch : channel) : Prop :=
  match ch with ChMedia _ => include_media = true | ChRf _ => include_rf = true | _ => False end.
Definition column (x : model) (include_media : bool) (ch : channel) : nat :=
  match ch with
  | ChMedia c => c
  | ChRf c => ((if include_media then n_chans (d_media (x_data x)) else 0) + c)%nat
  | _ => 0%nat
  end.
Definition names_included (f : fitted) (include_media include_rf : bool) : list string :=
  let n := n_chans (d_media (x_data (f_x f))) in
  (if include_media then firstn n (f_paid_names f) else [])
  ++ (if include_rf then skipn n (f_paid_names f) else []).

(** An admissible call; each kind of spend may be flat or not. *)
Record spend_request (f : fitted) (flat_media flat_rf : bool) (nd : new_tensors)
    (gs : option (list string)) (ts : option time_sel) : Prop := {
  sq_model : well_formed (f_x f);
  sq_names : length (f_paid_names f) = n_paid (f_x f);
  sq_data : paid_data_ok (f_x f) (nt_data nd);
  sq_media : s_media (f_spend f) <> None <-> d_media (x_data (f_x f)) <> None;
  sq_rf : s_rf (f_spend f) <> None <-> d_reach (x_data (f_x f)) <> None;
  sq_media_used : spend_fits flat_media (s_media (spend_used f (nt_spend nd))) (d_media (x_data (f_x f)))
                    (x_n_geos (f_x f)) (x_n_times (f_x f));
  sq_rf_used : spend_fits flat_rf (s_rf (spend_used f (nt_spend nd))) (d_reach (x_data (f_x f)))
                 (x_n_geos (f_x f)) (x_n_times (f_x f));
  sq_geos : geos_ok (f_x f) gs;
  sq_times : times_ok (f_x f) ts
}.
