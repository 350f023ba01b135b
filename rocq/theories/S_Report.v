(** Specification for C85: the report of a budget optimization. *)
From Coq Require Import Reals ZArith String List Bool Arith.
From Verif Require Import Lib_Sum M_Base M_AdstockHill M_Equations M_Transformers M_Aggregate
  S_Aggregate S_Adstock S_Media S_Analyzer M_Analyzer S_Predictor S_Paid M_Stats S_Stats M_Summary S_Roi S_Summary M_Report.
Import ListNotations.
Local Open Scope R_scope.

(** [y'] is what [spend] buys of media that cost [hist] in [y]; nothing where nothing was spent. *)
Definition bought (spend hist : nat -> R) (y y' : T3) : Prop :=
  same_shape y' y /\
  forall g t c, (hist c <> 0 -> val y' g t c * hist c = spend c * val y g t c) /\ (hist c = 0 -> val y' g t c = 0).

(** The same for reach and frequency: impressions are bought; the frequency is the optimal one if
    there is one, else the historical one, wherever somebody is reached. *)
Definition bought_rf (spend hist : nat -> R) (opt : option (nat -> R)) (r q r' q' : T3) : Prop :=
  same_shape r' r /\ same_shape q' r /\
  forall g t c,
    (hist c <> 0 -> val r' g t c * val q' g t c * hist c = spend c * (val r g t c * val q g t c)) /\
    (hist c = 0 -> val r' g t c = 0) /\
    (val r' g t c <> 0 -> val q' g t c = match opt with Some o => o c | None => val q g t c end).

(** The data bought: media channels first, reach and frequency channels after them. *)
Definition data_bought (x : model) (hist spend : nat -> R) (nd : data) (opt : option (nat -> R)) (d : data) : Prop :=
  let m := n_chans (d_media (x_data x)) in
  match given d_media nd x, d_media d with
  | Some y, Some y' => bought spend hist y y'
  | None, None => True
  | _, _ => False
  end /\
  match given d_reach nd x, given d_frequency nd x, d_reach d, d_frequency d with
  | Some r, Some q, Some r', Some q' => bought_rf (fun c => spend (m + c)%nat) (fun c => hist (m + c)%nat) opt r q r' q'
  | None, None, None, None => True
  | _, _, _, _ => False
  end /\
  d_revenue_per_kpi d = match d_revenue_per_kpi nd with Some r => Some r | None => d_revenue_per_kpi (x_data x) end.

(** An optimization with admissible arguments. *)
Record report_request (f : fitted) (hist spend : nat -> R) (nd : data) (post : bool) (gs : option (list string))
    (ts : option time_sel) (opt : option (nat -> R)) (level : R) (batch_size : Z) : Prop := {
  rq_model : well_formed (f_x f);
  rq_transformers : transformers_ok (f_x f);
  rq_draws : Forall (draw_ok (f_x f)) (f_draws f post);
  rq_some : f_draws f post <> [];
  rq_batch : (0 < batch_size)%Z;
  rq_data : paid_data_ok (f_x f) nd;
  rq_nonneg : paid_nonneg (f_x f) nd;
  rq_channels : forall y, (given d_media nd (f_x f) = Some y \/ given d_reach nd (f_x f) = Some y) -> (0 < chans y)%nat;
  rq_spend : forall c, 0 <= spend c;
  rq_hist : forall c, 0 <= hist c;
  rq_frequency : match opt with Some o => forall c, 0 < o c | None => True end;
  rq_geos : geos_ok (f_x f) gs;
  rq_times : times_ok (f_x f) ts;
  rq_level : -1 <= level <= 1
}.

(** What the report must say, for the data [d] bought. *)
Section Report.
Variables (f : fitted) (spend : nat -> R) (d : data) (post use_kpi : bool) (gs : option (list string))
  (ts : option time_sel) (level : R).
Let x := f_x f.
Let draws := f_draws f post.
(** Outcome of a channel in a draw: with its media minus without; at one percent more minus as is. *)
Definition gain (w : draw) (ch : channel) : R :=
  outcome_change x d w ch use_kpi true 0 1 (chosen_geos x gs) (chosen_times x ts).
Definition extra (w : draw) (ch : channel) : R :=
  outcome_change x d w ch use_kpi true 1 (1 + 1 / 100) (chosen_geos x gs) (chosen_times x ts).
Definition impressions (ch : channel) : R := channel_impressions x d ch (chosen_geos x gs) (chosen_times x ts).
Definition spent (ch : channel) : R := spend (channel_index x ch).
(** Totals over the paid channels. *)
Definition all_spent : R := in_row x None spent.
Definition all_gain (w : draw) : R := in_row x None (gain w).

Record report_ok (r : report) : Prop := {
  ro_spend : forall ch, is_paid x ch -> rp_spend r (channel_index x ch) = spent ch;
  ro_pct : forall ch, is_paid x ch -> rp_pct_of_spend r (channel_index x ch) * all_spent = spent ch;
  ro_incremental : forall ch, is_paid x ch ->
    reports (rp_incremental r (channel_index x ch)) level (map (fun w => gain w ch) draws);
  ro_effectiveness : forall ch, is_paid x ch -> impressions ch <> 0 ->
    reports (rp_effectiveness r (channel_index x ch)) level (map (fun w => gain w ch / impressions ch) draws);
  ro_roi : forall ch, is_paid x ch -> spent ch <> 0 ->
    reports (rp_roi r (channel_index x ch)) level (map (fun w => gain w ch / spent ch) draws);
  ro_mroi : forall ch, is_paid x ch -> spent ch <> 0 ->
    reports (rp_mroi r (channel_index x ch)) level (map (fun w => extra w ch / (spent ch / 100)) draws);
  ro_cpik : forall ch, is_paid x ch -> (forall w, In w draws -> gain w ch <> 0) ->
    reports (rp_cpik r (channel_index x ch)) level (map (fun w => spent ch / gain w ch) draws);
  ro_undefined : forall ch, is_paid x ch -> spent ch = 0 ->
    rp_roi r (channel_index x ch) = None /\ rp_mroi r (channel_index x ch) = None;
  ro_budget : rp_budget r = all_spent;
  (* the mean, over the draws, of the outcome of all channels *)
  ro_total : INR (length draws) * rp_total_incremental r = lsum (map all_gain draws);
  ro_profit : rp_profit r = rp_total_incremental r - all_spent;
  ro_total_roi : is_quotient (rp_total_roi r) (rp_total_incremental r) all_spent;
  (* the mean, over the draws, of the budget over the outcome *)
  ro_total_cpik : (forall w, In w draws -> all_gain w <> 0) ->
    exists v, rp_total_cpik r = Some v /\ INR (length draws) * v = lsum (map (fun w => all_spent / all_gain w) draws)
}.
End Report.

(** Rows in the order of the delta charts: losses first, the largest loss on top; then gains, the
    largest gain on top. *)
Definition row_before (a b : string * R) : Prop :=
  (snd a < 0 /\ 0 <= snd b) \/ (snd b < 0 /\ snd a <= snd b) \/ (0 <= snd b /\ snd b <= snd a).

(** Bars of a waterfall chart: every bar starts where the one before it ended. *)
Inductive steps : R -> list (string * R) -> list (string * R * R) -> R -> Prop :=
| steps_nil : forall s, steps s [] [] s
| steps_cons : forall s name v rows bars e,
    steps (s + v) rows bars e -> steps s ((name, v) :: rows) ((name, s, s + v) :: bars) e.

(** The bound on the spend of a channel: one number for all channels, or one per channel. *)
Definition bound_for (bounds : list R) (c : nat) (b : R) : Prop :=
  bounds = [b] \/ (length bounds <> 1%nat /\ nth_error bounds c = Some b).
