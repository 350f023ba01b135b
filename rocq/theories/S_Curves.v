(** Specification vocabulary for response curves and optimal frequencies. *)
From Coq Require Import Reals ZArith String List Bool Arith.
From Verif Require Import Lib_Sum M_Base M_AdstockHill M_Equations M_Transformers M_Aggregate
  S_Aggregate S_Adstock S_Media S_Analyzer M_Analyzer S_Predictor S_Paid M_Stats S_Stats M_Summary S_Roi
  S_Summary M_Curves.
Import ListNotations.
Local Open Scope R_scope.

(** A point of a curve summarises draws: their mean and the ends of their interval. *)
Definition is_point (level : R) (draws : list R) (p : point) : Prop :=
  INR (length draws) * pt_mean p = lsum draws /\
  is_quantile draws ((1 - level) / 2) (pt_lo p) /\ is_quantile draws ((1 + level) / 2) (pt_hi p).
Definition point_le (p p' : point) : Prop :=
  pt_mean p <= pt_mean p' /\ pt_lo p <= pt_lo p' /\ pt_hi p <= pt_hi p'.

(** A call of [response_curves] with admissible arguments; spend per channel ([flat]) or per geo
    and period. *)
Record curve_request (f : fitted) (use_posterior flat : bool) (nd : new_tensors) (gs : option (list string))
    (ts : option time_sel) (multipliers : list R) (level : R) (batch_size : Z) : Prop := {
  vr_model : well_formed (f_x f);
  vr_transformers : transformers_ok (f_x f);
  vr_draws : Forall (draw_ok (f_x f)) (f_draws f use_posterior);
  vr_some : f_draws f use_posterior <> [];
  vr_batch : (0 < batch_size)%Z;
  vr_data : paid_data_ok (f_x f) (nt_data nd);
  vr_nonneg : paid_nonneg (f_x f) (nt_data nd);
  vr_spend : spend_ok flat f (spend_used f (nt_spend nd));
  vr_geos : geos_ok (f_x f) gs;
  vr_times : times_ok (f_x f) ts;
  vr_multipliers : Forall (fun m => 0 <= m) multipliers;
  vr_level : -1 <= level <= 1
}.

(** What the curves must contain for data [d] of the paid channels: at multiplier [m] the spend
    is [m] times the spend of the selection, and the outcome that of [m] times the media against
    none. *)
Definition curves_of (f : fitted) (d : data) (s : spend_data) (use_posterior : bool) (gs : option (list string))
    (ts : option time_sel) (by_reach use_kpi : bool) (level : R) (ms : list R) (cv : curves) : Prop :=
  let x := f_x f in
  cv_multipliers cv = ms /\ cv_channels cv = f_paid_names f /\
  length (cv_spend cv) = length ms /\ length (cv_outcome cv) = length ms /\
  forall i ch, (i < length ms)%nat -> is_paid x ch ->
    nth i (cv_spend cv) (fun _ => 0) (channel_index x ch)
    = nth i ms 0 * channel_spend s ch (chosen_geos x gs) (chosen_times x ts) /\
    exists p, nth i (cv_outcome cv) (fun _ => None) (channel_index x ch) = Some p /\
      is_point level
        (map (fun w => outcome_change x d w ch use_kpi by_reach 0 (nth i ms 0) (chosen_geos x gs) (chosen_times x ts))
           (f_draws f use_posterior)) p.

(** Reach and frequency data with the same impressions [imp] at frequency [q c]. *)
Definition rf_at (imp : T3) (q : nat -> R) : data :=
  mkData None (Some (mkT3 (geos imp) (times imp) (chans imp) (fun g t c => val imp g t c / q c)))
    (Some (mkT3 (geos imp) (times imp) (chans imp) (fun _ _ c => q c))) None None None None None None.

(** The impressions an analysis runs on: the user's, else historical reach times frequency. *)
Definition impressions_used (x : model) (given_imp : option T3) (imp : T3) : Prop :=
  match given_imp with
  | Some y => imp = y
  | None => exists r q, d_reach (x_data x) = Some r /\ d_frequency (x_data x) = Some q /\
              geos imp = geos r /\ times imp = times r /\ chans imp = chans r /\
              forall g t c, val imp g t c = val r g t c * val q g t c
  end.

(** A call of [optimal_freq] with admissible arguments. *)
Record frequency_request (f : fitted) (nd : rf_tensors) (imp : T3) (grid : list R) (gs : option (list string))
    (ts : option time_sel) (level : R) : Prop := {
  fr_model : well_formed (f_x f);
  fr_transformers : transformers_ok (f_x f);
  fr_draws : forall p, Forall (draw_ok (f_x f)) (f_draws f p);
  fr_some : forall p, f_draws f p <> [];
  fr_rf : (0 < n_chans (d_reach (x_data (f_x f))))%nat;
  fr_impressions : impressions_used (f_x f) (rn_impressions nd) imp;
  fr_shape : fits (Some imp) (d_reach (x_data (f_x f)));
  fr_nonneg : nonneg (Some imp);
  fr_media : nonneg (d_media (x_data (f_x f)));
  fr_revenue : rn_revenue nd = None \/ rn_revenue nd = d_revenue_per_kpi (x_data (f_x f));
  fr_organic : nonneg (d_organic_media (x_data (f_x f))) /\ nonneg (d_organic_frequency (x_data (f_x f)));
  fr_history : spend_ok false f (f_spend f);
  fr_spend : spend_ok false f (spend_used f (mkSpend None (rn_spend nd)));
  fr_names : length (f_paid_names f) = n_paid (f_x f);
  fr_geos : geos_ok (f_x f) gs;
  fr_times : times_ok (f_x f) ts;
  fr_geo_names : NoDup (x_geo (f_x f));
  fr_distinct : forall l, gs = Some l -> NoDup l;
  fr_level : -1 <= level <= 1;
  fr_grid : grid <> [] /\ Forall (fun q => 0 < q) grid;
  fr_spent : forall c, (c < n_chans (d_reach (x_data (f_x f))))%nat ->
    channel_spend (spend_used f (mkSpend None (rn_spend nd))) (ChRf c) (chosen_geos (f_x f) gs)
      (chosen_times (f_x f) ts) <> 0
}.

Section Optimal.
Variables (f : fitted) (nd : rf_tensors) (imp : T3) (grid : list R) (use_posterior use_kpi : bool)
  (gs : option (list string)) (ts : option time_sel) (level : R).
Let x := f_x f.
Let gl := chosen_geos x gs.
Let tl := chosen_times x ts.
Let n_rf := n_chans (d_reach (x_data x)).

(** Outcome and ROI of an RF channel at the frequencies [q]; what it costs; its impressions in
    the periods of the KPI. *)
Definition rf_gain (q : nat -> R) (uk by_reach : bool) (f0 f1 : R) (c : nat) (w : draw) : R :=
  outcome_change x (rf_at imp q) w (ChRf c) uk by_reach f0 f1 gl tl.
Definition rf_cost (c : nat) : R := channel_spend (spend_used f (mkSpend None (rn_spend nd))) (ChRf c) gl tl.
Definition rf_seen (c : nat) : R :=
  total gl (fun g => total tl (fun t => val imp g (x_n_media_times x - x_n_times x + t)%nat c)).
Definition rf_roi (q : R) (c : nat) (w : draw) : R := rf_gain (fun _ => q) use_kpi true 0 1 c w / rf_cost c.
Definition mean_roi (q : R) (c : nat) : R :=
  lsum (map (rf_roi q c) (f_draws f use_posterior)) / INR (length (f_draws f use_posterior)).

Record optimal_frequencies (o : optimal) : Prop := {
  oq_grid : of_grid o = grid;
  oq_lengths : length (of_roi o) = length grid /\ length (of_frequency o) = n_rf;
  (* the ROI at every frequency of the grid *)
  oq_roi : forall i c, (i < length grid)%nat -> (c < n_rf)%nat ->
    reports (nth i (of_roi o) (fun _ => None) c) level (map (rf_roi (nth i grid 0) c) (f_draws f use_posterior));
  (* the first frequency with the largest mean ROI *)
  oq_best : forall c, (c < n_rf)%nat -> exists i, (i < length grid)%nat /\
    nth c (of_frequency o) 0 = nth i grid 0 /\
    (forall j, (j < length grid)%nat -> mean_roi (nth j grid 0) c <= mean_roi (nth i grid 0) c) /\
    (forall j, (j < i)%nat -> mean_roi (nth j grid 0) c < mean_roi (nth i grid 0) c);
  (* the metrics at the optimal frequencies *)
  oq_outcome : forall c, (c < n_rf)%nat ->
    reports (of_outcome o c) default_level
      (map (rf_gain (fun k => nth k (of_frequency o) 0) use_kpi true 0 1 c) (f_draws f use_posterior));
  oq_optimized_roi : forall c, (c < n_rf)%nat ->
    reports (of_optimized_roi o c) default_level
      (map (rf_roi (nth c (of_frequency o) 0) c) (f_draws f use_posterior));
  oq_effectiveness : forall c, (c < n_rf)%nat -> rf_seen c <> 0 ->
    reports (of_effectiveness o c) default_level
      (map (fun w => rf_gain (fun k => nth k (of_frequency o) 0) use_kpi true 0 1 c w / rf_seen c)
         (f_draws f use_posterior));
  oq_mroi_by_reach : forall c, (c < n_rf)%nat ->
    reports (of_mroi_by_reach o c) default_level
      (map (fun w => rf_gain (fun k => nth k (of_frequency o) 0) use_kpi true 1 (1 + default_increase) c w
                     / (rf_cost c * default_increase)) (f_draws f use_posterior));
  oq_mroi_by_frequency : forall c, (c < n_rf)%nat ->
    reports (of_mroi_by_frequency o c) default_level
      (map (fun w => rf_gain (fun k => nth k (of_frequency o) 0) use_kpi false 1 (1 + default_increase) c w
                     / (rf_cost c * default_increase)) (f_draws f use_posterior));
  oq_cpik : forall c, (c < n_rf)%nat ->
    (forall w, In w (f_draws f use_posterior) ->
       rf_gain (fun k => nth k (of_frequency o) 0) true true 0 1 c w <> 0) ->
    reports (of_cpik o c) default_level
      (map (fun w => rf_cost c / rf_gain (fun k => nth k (of_frequency o) 0) true true 0 1 c w)
         (f_draws f use_posterior))
}.
End Optimal.

(** The impressions behind response curves at the optimal frequency: the reach times the
    frequency of the user, each historical where not given. *)
Definition impressions_curve (x : model) (d : data) (imp : T3) : Prop :=
  exists r q, orelse (d_reach d) (d_reach (x_data x)) = Some r /\
    orelse (d_frequency d) (d_frequency (x_data x)) = Some q /\
    geos imp = geos r /\ times imp = times r /\ chans imp = chans r /\
    forall g t c, val imp g t c = val r g t c * val q g t c.

(** The data [d] with the impressions [imp] at the frequencies [q]. *)
Definition with_frequency (d : data) (imp : T3) (q : nat -> R) : data :=
  mkData (d_media d) (d_reach (rf_at imp q)) (d_frequency (rf_at imp q)) None None None None None
    (d_revenue_per_kpi d).

(** The multipliers of the curves; 0 to 2 in steps of 0.2 when none are given. *)
Definition multipliers_used (o : option (list R)) : list R :=
  match o with
  | Some l => l
  | None => [0; 1/5; 2/5; 3/5; 4/5; 1; 6/5; 7/5; 8/5; 9/5; 2]
  end.
