(** Specification vocabulary for the summary tables of the analyzer. *)
From Coq Require Import Reals ZArith String List Bool Arith.
From Verif Require Import Lib_Sum M_Base M_AdstockHill M_Equations M_Transformers M_Aggregate
  S_Aggregate S_Adstock S_Media S_Analyzer M_Analyzer S_Predictor S_Paid M_Stats S_Stats M_Summary S_Roi.
Import ListNotations.
Local Open Scope R_scope.

(** The reported summary of draws: mean, median and the two ends of the interval (C59). *)
Definition is_summary (level : R) (draws : list R) (s : stats) : Prop :=
  INR (length draws) * st_mean s = lsum draws /\ is_quantile draws (1 / 2) (st_median s) /\
  is_quantile draws ((1 - level) / 2) (st_lo s) /\ is_quantile draws ((1 + level) / 2) (st_hi s).
Definition reports (v : option stats) (level : R) (draws : list R) : Prop :=
  exists s, v = Some s /\ is_summary level draws s.

(** A row of the table: a paid channel, or the last row "All Channels". *)
Definition is_row (x : model) (r : option channel) : Prop :=
  match r with Some ch => is_paid x ch | None => True end.
Definition row (x : model) (r : option channel) : nat :=
  match r with Some ch => channel_index x ch | None => n_paid x end.
Definition in_row (x : model) (r : option channel) (F : channel -> R) : R :=
  match r with
  | Some ch => F ch
  | None => rsum (n_chans (d_media (x_data x))) (fun c => F (ChMedia c))
            + rsum (n_chans (d_reach (x_data x))) (fun c => F (ChRf c))
  end.

(** Impressions of a channel in a period of the KPI: media units, or reach times frequency. *)
Definition impressions_at (x : model) (nd : data) (ch : channel) (g t : nat) : R :=
  let u := (x_n_media_times x - x_n_times x + t)%nat in
  match ch with
  | ChMedia c => match given d_media nd x with Some y => val y g u c | None => 0 end
  | ChRf c => match given d_reach nd x, given d_frequency nd x with
              | Some r, Some f => val r g u c * val f g u c
              | _, _ => 0
              end
  | _ => 0
  end.
Definition channel_impressions (x : model) (nd : data) (ch : channel) (gl tl : list nat) : R :=
  total gl (fun g => total tl (fun t => impressions_at x nd ch g t)).

(** The expected outcome of a draw. *)
Definition outcome_total (x : model) (nd : data) (w : draw) (use_kpi : bool) (gl tl : list nat) : R :=
  total gl (fun g => total tl (fun t => outcome_in_units x true use_kpi g t (predictor x nd w g t))).

(** A call of the summaries with admissible arguments; new data and spend of the historical
    shape for the paid channels. *)
Record summary_request (f : fitted) (nd : new_tensors) (gs : option (list string)) (ts : option time_sel)
    (level : R) (batch_size : Z) : Prop := {
  sr_model : well_formed (f_x f);
  sr_transformers : transformers_ok (f_x f);
  sr_draws : forall p, Forall (draw_ok (f_x f)) (f_draws f p);
  sr_some : forall p, f_draws f p <> [];
  sr_batch : (0 < batch_size)%Z;
  sr_data : paid_data_ok (f_x f) (nt_data nd);
  sr_revenue : d_revenue_per_kpi (nt_data nd) = None;
  sr_nonneg : paid_nonneg (f_x f) (nt_data nd);
  sr_organic : nonneg (d_organic_media (x_data (f_x f))) /\ nonneg (d_organic_frequency (x_data (f_x f)));
  sr_spend : spend_ok false f (spend_used f (nt_spend nd));
  sr_names : length (f_paid_names f) = n_paid (f_x f);
  sr_geos : geos_ok (f_x f) gs;
  sr_times : times_ok (f_x f) ts;
  sr_geo_names : NoDup (x_geo (f_x f));
  sr_distinct : forall l, gs = Some l -> NoDup l;
  sr_level : -1 <= level <= 1
}.

(** Names of the geos and periods a table is about, in the order of the data. *)
Definition geo_names (x : model) (gs : option (list string)) : list string :=
  map (fun g => nth g (x_geo x) ""%string) (chosen_geos x gs).
Definition period_names (x : model) (ts : option time_sel) : list string :=
  map (fun t => nth t (x_time x) ""%string) (chosen_times x ts).

(** What the summary table of the paid channels must contain, cell by cell: one row per channel
    and a last row for all of them; per prior ([p = false]) or posterior. *)
Section Table.
Variables (f : fitted) (nd : new_tensors) (mroi_by_reach : bool) (increase : R)
  (gs : option (list string)) (ts : option time_sel) (ag at' use_kpi : bool) (level : R).
Let x := f_x f.
Definition in_table (r : option channel) (i j : nat) : Prop :=
  is_row x r /\ (ag = false -> (i < length (chosen_geos x gs))%nat) /\
  (at' = false -> (j < length (chosen_times x ts))%nat).
Definition at_cell (r : option channel) (i j : nat) : list nat :=
  position ag i ++ position at' j ++ [row x r].
Definition cell_geos (i : nat) : list nat := members (chosen_geos x gs) ag i.
Definition cell_times (j : nat) : list nat := members (chosen_times x ts) at' j.
Definition row_spend (r : option channel) (i j : nat) : R :=
  in_row x r (fun ch => channel_spend (spend_used f (nt_spend nd)) ch (cell_geos i) (cell_times j)).
Definition row_impressions (r : option channel) (i j : nat) : R :=
  in_row x r (fun ch => channel_impressions x (nt_data nd) ch (cell_geos i) (cell_times j)).
Definition row_gain (uk by_reach : bool) (f0 f1 : R) (w : draw) (r : option channel) (i j : nat) : R :=
  in_row x r (fun ch => outcome_change x (nt_data nd) w ch uk by_reach f0 f1 (cell_geos i) (cell_times j)).
Definition mean_outcome (p : bool) (i j : nat) : R :=
  lsum (map (fun w => outcome_total x (nt_data nd) w use_kpi (cell_geos i) (cell_times j)) (f_draws f p))
  / INR (length (f_draws f p)).
Definition is_single (r : option channel) : Prop := r <> None.

Record summary_table (s : summary) : Prop := {
  st_shape : sm_shape s = (if ag then [] else [length (chosen_geos x gs)])
               ++ (if at' then [] else [length (chosen_times x ts)]) ++ [S (n_paid x)];
  st_channels : sm_channel s = f_paid_names f ++ ["All Channels"%string];
  st_times : sm_time s = if at' then None else Some (period_names x ts);
  (* incremental outcome: with the media minus without *)
  st_incremental : forall p r i j, in_table r i j ->
    reports (sm_incremental s p (at_cell r i j)) level
      (map (fun w => row_gain use_kpi true 0 1 w r i j) (f_draws f p));
  (* percentage of the mean expected outcome *)
  st_contribution : exists v, sm_contribution s = Some v /\
    forall p r i j, in_table r i j -> mean_outcome p i j <> 0 ->
      reports (v p (at_cell r i j)) level
        (map (fun w => row_gain use_kpi true 0 1 w r i j / mean_outcome p i j * 100) (f_draws f p));
  st_impressions : exists t, sm_impressions s = Some t /\
    forall r i j, in_table r i j -> at_ t (at_cell r i j) = row_impressions r i j;
  st_spend : exists t, sm_spend s = Some t /\
    forall r i j, in_table r i j -> at_ t (at_cell r i j) = row_spend r i j;
  st_pct_of_impressions : exists v, sm_pct_of_impressions s = Some v /\
    forall r i j, in_table r i j ->
      is_quotient (v (at_cell r i j)) (100 * row_impressions r i j) (row_impressions None i j);
  st_pct_of_spend : exists v, sm_pct_of_spend s = Some v /\
    forall r i j, in_table r i j ->
      is_quotient (v (at_cell r i j)) (100 * row_spend r i j) (row_spend None i j);
  st_cpm : exists v, sm_cpm s = Some v /\
    forall r i j, in_table r i j ->
      is_quotient (v (at_cell r i j)) (1000 * row_spend r i j) (row_impressions r i j);
  (* per unit of spend, for aggregated times only *)
  st_aggregated_only : at' = false ->
    sm_roi s = None /\ sm_mroi s = None /\ sm_cpik s = None /\ sm_effectiveness s = None;
  st_roi : at' = true -> exists v, sm_roi s = Some v /\
    forall p r i j, in_table r i j -> row_spend r i j <> 0 ->
      reports (v p (at_cell r i j)) level
        (map (fun w => row_gain use_kpi true 0 1 w r i j / row_spend r i j) (f_draws f p));
  st_cpik : at' = true -> exists v, sm_cpik s = Some v /\
    forall p r i j, in_table r i j ->
      (forall w, In w (f_draws f p) -> row_gain true true 0 1 w r i j <> 0) ->
      reports (v p (at_cell r i j)) level
        (map (fun w => row_spend r i j / row_gain true true 0 1 w r i j) (f_draws f p));
  (* not reported for all channels together *)
  st_mroi : at' = true -> exists v, sm_mroi s = Some v /\
    forall p r i j, in_table r i j -> (r = None -> v p (at_cell r i j) = None) /\
      (is_single r -> row_spend r i j <> 0 ->
      reports (v p (at_cell r i j)) level
        (map (fun w => row_gain use_kpi mroi_by_reach 1 (1 + increase) w r i j / (row_spend r i j * increase))
           (f_draws f p)));
  st_effectiveness : at' = true -> exists v, sm_effectiveness s = Some v /\
    forall p r i j, in_table r i j -> (r = None -> v p (at_cell r i j) = None) /\
      (is_single r -> row_impressions r i j <> 0 ->
      reports (v p (at_cell r i j)) level
        (map (fun w => row_gain use_kpi true 0 1 w r i j / row_impressions r i j) (f_draws f p)))
}.
End Table.

Definition n_treatments (x : model) : nat :=
  let d := x_data x in
  (n_chans (d_media d) + n_chans (d_reach d) + n_chans (d_organic_media d) + n_chans (d_organic_reach d)
   + n_chans (d_non_media d))%nat.

(** A call of the two tables of contributions on the historical data: all channels, and the
    baseline. *)
Record contribution_request (f : fitted) (baseline : option (list baseline_value))
    (gs : option (list string)) (ts : option time_sel) (at' : bool) (level : R) (batch_size : Z) : Prop := {
  cr_model : well_formed (f_x f);
  cr_transformers : transformers_ok (f_x f);
  cr_draws : forall p, Forall (draw_ok (f_x f)) (f_draws f p);
  cr_some : forall p, f_draws f p <> [];
  cr_batch : (0 < batch_size)%Z;
  cr_nonneg : paid_nonneg (f_x f) no_data;
  cr_organic : nonneg (d_organic_media (x_data (f_x f))) /\ nonneg (d_organic_frequency (x_data (f_x f)));
  cr_baseline : baseline_ok (f_x f) baseline;
  cr_names : length (f_paid_names f ++ f_other_names f) = n_treatments (f_x f);
  cr_geos : geos_ok (f_x f) gs;
  cr_times : times_ok (f_x f) ts;
  cr_geo_names : NoDup (x_geo (f_x f));
  cr_time_names : NoDup (x_time (f_x f));
  cr_distinct : forall l, gs = Some l -> NoDup l;
  cr_dates : match ts with
             | Some (TDates l) => NoDup l
             | Some (TBools _) => at' = true     (* else the baseline table has the wrong labels *)
             | None => True
             end;
  cr_level : -1 <= level <= 1
}.

(** A list that keeps the order of another one. *)
Inductive subsequence : list string -> list string -> Prop :=
| sub_nil : subsequence [] []
| sub_skip : forall a l m, subsequence l m -> subsequence l (a :: m)
| sub_keep : forall a l m, subsequence l m -> subsequence (a :: l) (a :: m).
Definition in_data_order (x : model) (gs : option (list string)) : Prop :=
  match gs with Some l => subsequence l (x_geo x) | None => True end.
