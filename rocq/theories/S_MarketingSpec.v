(** What the marketing processor and the planner's tables of it promise, without reference to how they compute it. *)
From Coq Require Import ZArith QArith String List Bool Arith Sorted.
From Verif Require Import M_Base M_BudgetSpec M_MarketingSpec.
Import ListNotations.
Local Open Scope string_scope.
Local Open Scope list_scope.

(** Time periods of a data set: ascending start dates and a positive length. *)
Definition calendar (c : coords) : Prop := tc_dates c <> [] /\ StronglySorted Z.lt (tc_dates c) /\ (0 < tc_days c)%Z.

(** The periods that lie within [start, end). *)
Definition within (c : coords) (s e : option Z) (d : Z) : Prop :=
  In d (tc_dates c) /\ (forall a, s = Some a -> (a <= d)%Z) /\ (forall b, e = Some b -> (d + tc_days c <= b)%Z).
(** [l] lists, in order, exactly the periods within [start, end). *)
Definition periods (c : coords) (s e : option Z) (l : list Z) : Prop :=
  StronglySorted Z.lt l /\ forall d, In d l <-> within c s e d.
(** start and end lie on the calendar: start is the start of a period, end the end of one no earlier. *)
Definition on_calendar (c : coords) (s e : option Z) : Prop :=
  (forall a, s = Some a -> In a (tc_dates c)) /\
  (forall b, e = Some b -> In (b - tc_days c)%Z (tc_dates c)) /\
  (forall a b, s = Some a -> e = Some b -> (a + tc_days c <= b)%Z).

(** The intervals reported for periods [l]: one over all of them, or one for each. *)
Definition reported (c : coords) (aggregate : bool) (tag : string) (l : list Z) (is : list interval) : Prop :=
  if aggregate
  then exists a b, hd_error l = Some a /\ hd_error (rev l) = Some b /\ is = [mkInterval a (b + tc_days c)%Z tag]
  else is = map (fun d => mkInterval d (d + tc_days c)%Z tag) l.

(** The cell of a table for a channel and (in a table by period) a period. *)
Definition cell_at (d : table) (name : string) (t : Z) (c : cell) : Prop :=
  exists row, In (name, row) (d_rows d) /\
  match d_times d with
  | None => row = [c]
  | Some ts => exists i, nth_error ts i = Some t /\ nth_error row i = Some c
  end.

(** An estimate reports a value with the interval at the level asked for. *)
Definition estimates (level value lo hi : Q) (e : est) : Prop :=
  e_value e = value /\ e_level e = level /\ e_lo e = lo /\ e_hi e = hi.
Definition absent_or {A B} (P : A -> B -> Prop) (x : option A) (y : option B) : Prop :=
  match x, y with None, None => True | Some a, Some b => P a b | _, _ => False end.
Definition by_mean (level : Q) (x : stat4) (e : est) : Prop := estimates level (st_mean x) (st_lo x) (st_hi x) e.
Definition by_median (level : Q) (x : stat4) (e : est) : Prop := estimates level (st_median x) (st_lo x) (st_hi x) e.
(** percentages are reported as fractions. *)
Definition as_fraction (level : Q) (x : stat4) (e : est) : Prop :=
  estimates level (st_mean x / 100) (st_lo x / 100) (st_hi x / 100) e.
Definition shows (level : Q) (revenue : bool) (name : string) (c : cell) (o : out_pb) : Prop :=
  o_revenue o = revenue /\
  by_mean level (ce_outcome c) (o_value o) /\
  absent_or (as_fraction level) (ce_pct c) (o_share o) /\
  absent_or (by_mean level) (ce_roi c) (o_roi o) /\
  absent_or (by_median level) (ce_cpik c) (o_cost o) /\
  (if String.eqb name "All Channels" then o_effectiveness o = None /\ o_mroi o = None
   else absent_or (by_mean level) (ce_effectiveness c) (o_effectiveness o) /\ absent_or (by_mean level) (ce_mroi c) (o_mroi o)).

(** A channel's outcomes: from the first table and, if there is one, from the second, which is about the KPI. *)
Definition outcomes_shown (level : Q) (revenue : bool) (name : string) (t : Z) (d : table) (second : option table) (outs : list out_pb) : Prop :=
  exists c o, cell_at d name t c /\ shows level revenue name c o /\
  match second with
  | None => outs = [o]
  | Some d2 => exists c2 o2, cell_at d2 name t c2 /\ shows level false name c2 o2 /\ outs = [o; o2]
  end.
Definition spend_shown (d : table) (name : string) (t : Z) (sp : option (Q * Q)) : Prop :=
  exists c, cell_at d name t c /\ absent_or (fun x y => fst y = fst x /\ snd y = (snd x / 100)%Q) (ce_spend c) sp.
Definition baseline_shown (level : Q) (revenue : bool) (t : Z) (b : table) (p : non_pb) : Prop :=
  n_name p = "baseline" /\ exists c pct o, cell_at b "baseline" t c /\ ce_pct c = Some pct /\ n_outcomes p = [o] /\
  o_revenue o = revenue /\ by_mean level (ce_outcome c) (o_value o) /\
  (exists e, o_share o = Some e /\ as_fraction level pct e) /\
  o_effectiveness o = None /\ o_cost o = None /\ o_roi o = None /\ o_mroi o = None.

(** An analysis of an interval: a media analysis for each of [media], a non-media analysis for each of [others], and the
    baseline last. *)
Definition analysis_shown (level : Q) (revenue : bool) (d : table) (second : option table) (media : list string)
    (dn : option table) (second_n : option table) (others : list string) (base : option table)
    (curves : option (list (string * list (Q * Q)))) (i : interval) (a : analysis) : Prop :=
  an_interval a = i /\
  map c_name (an_media a) = media /\
  (forall m, In m (an_media a) ->
     outcomes_shown level revenue (c_name m) (i_start i) d second (c_outcomes m) /\
     spend_shown d (c_name m) (i_start i) (c_spend m) /\
     match curves with
     | None => c_curve m = None
     | Some cs => match c_curve m with Some pts => In (c_name m, pts) cs | None => ~ In (c_name m) (map fst cs) end
     end) /\
  exists ns bs, an_non_media a = ns ++ bs /\ map n_name ns = others /\
  (forall n, In n ns -> exists t, dn = Some t /\ outcomes_shown level revenue (n_name n) (i_start i) t second_n (n_outcomes n)) /\
  match base with None => bs = [] | Some b => exists p, bs = [p] /\ baseline_shown level revenue (i_start i) b p end.

(** What the processor relies on from the analyzer: the channels and periods of its tables. *)
Section Analyzer.
Variables (New : Type) (paid others : list string) (model_days : list Z) (days_of : New -> list Z).
Definition shape (times : option (list Z)) (names : list string) (d : table) : Prop :=
  d_times d = times /\ map fst (d_rows d) = names /\
  forall name row, In (name, row) (d_rows d) -> length row = match times with Some ts => length ts | None => 1%nat end.
Definition all_days (n : option New) : list Z := match n with Some x => days_of x | None => model_days end.
Definition times_of (aggregate : bool) (times : option (list Z)) (n : option New) : option (list Z) :=
  if aggregate then None else Some (match times with Some l => l | None => all_days n end).
Definition summary_shape (f : summary_request New -> result table) : Prop :=
  forall r d, f r = Ok d ->
    shape (times_of (r_aggregate _ r) (r_times _ r) (r_new _ r))
      ((if r_non_paid _ r then paid ++ others else paid) ++ ["All Channels"]) d.
Definition baseline_shape (f : Q -> bool -> option (list Z) -> result table) : Prop :=
  forall level agg times d, f level agg times = Ok d ->
    shape (times_of agg times None) ["baseline"] d /\
    (forall name row c, In (name, row) (d_rows d) -> In c row -> ce_pct c <> None) /\
    (forall ts, times = Some ts -> incl ts model_days).
End Analyzer.

(** The planner's tables, read off an analysis: the first outcome of a channel is the primary one. *)
Definition primary (outs : list out_pb) (o : out_pb) : Prop := exists r, outs = o :: r.
Definition zero_if_absent (e : option est) : Q := match e with Some x => e_value x | None => 0 end.
Definition outcome_of_channel (name : string) (outs : list out_pb) (i : interval) (r : outcome_row) : Prop :=
  exists o, primary outs o /\ r = mkOutcomeRow (if String.eqb name "baseline" then 0 else if String.eqb name "All Channels" then 1 else 2) name
    (Some (e_value (o_value o))) (Some (zero_if_absent (o_share o))) i.
Definition channel_lists (a : analysis) : list (string * list out_pb) :=
  map (fun m => (c_name m, c_outcomes m)) (an_media a) ++ map (fun m => (n_name m, n_outcomes m)) (an_non_media a).
Definition real (l : list chan_pb) : list chan_pb := filter (fun m => negb (String.eqb (c_name m) "All Channels")) l.

(** What the processor answers to a spec. *)
Section Processor.
Variable New : Type.
Variable dated : New -> bool.
Variable coords_of : New -> result coords.
Variables paid others : list string.
Variable model_coords : coords.
Variables kpi_only revenue_type : bool.
Variable summary_metrics : summary_request New -> result table.
Variable baseline_metrics : Q -> bool -> option (list Z) -> result table.
Variable curves_of : Q -> option (list Z) -> bool -> bool -> result (list (string * list (Q * Q))).
Variable incremental_of : option New -> option (list bool) -> option (list bool) -> bool -> bool -> bool -> Q -> result (list (list stat4)).

(** The periods a spec is about are those of its new data, if that is dated, and otherwise the model's. *)
Definition calendar_of (n : option New) (c : coords) : Prop :=
  match n with Some x => if dated x then coords_of x = Ok c else c = model_coords | None => c = model_coords end.
(** A selection of the periods [l]: by their dates, or none when they are all. *)
Definition selects (c : coords) (l : list Z) (times : option (list Z)) : Prop :=
  (times = None /\ l = tc_dates c) \/ times = Some l.
Definition flags (c : coords) (l : list Z) (fl : option (list bool)) : Prop :=
  (fl = None /\ l = tc_dates c) \/
  exists bs, fl = Some bs /\ length bs = length (tc_dates c) /\
  forall k d b, nth_error (tc_dates c) k = Some d -> nth_error bs k = Some b -> (b = true <-> In d l).
(** The summary tables behind an analysis: of the paid channels and, if wanted, of all channels. *)
Definition asked (m : media_spec New) (times : option (list Z)) (level : Q) (kpi : bool) (d : table) (dn : option table) : Prop :=
  let ask := fun non_paid => summary_metrics (mkSummaryRequest New (m_by_reach _ m) times (m_aggregate _ m) (m_new _ m) level kpi non_paid) in
  ask false = Ok d /\ if m_non_paid _ m then exists t, dn = Some t /\ ask true = Ok t else dn = None.
(** A model of a non-revenue KPI with a revenue per KPI gets a second outcome, in terms of the KPI. *)
Definition two_outcomes : bool := negb revenue_type && negb kpi_only.

Definition media_described (s : mspec New) (m : media_spec New) (g : list analysis) : Prop :=
  exists c l times is d dn second second_n base curves,
    calendar_of (m_new _ m) c /\ periods c (s_start _ s) (s_end _ s) l /\ l <> [] /\ selects c l times /\
    reported c (m_aggregate _ m) (s_tag _ s) l is /\
    asked m times (s_level _ s) kpi_only d dn /\
    (if two_outcomes then exists d2, second = Some d2 /\ asked m times (s_level _ s) true d2 second_n else second = None /\ second_n = None) /\
    baseline_metrics (s_level _ s) (m_aggregate _ m) times = Ok base /\
    (if m_aggregate _ m then exists cs, curves = Some cs /\ curves_of (s_level _ s) times kpi_only (s_curve_reach _ s) = Ok cs else curves = None) /\
    Forall2 (analysis_shown (s_level _ s) (negb kpi_only) d second (if m_non_paid _ m then paid else paid ++ ["All Channels"])
               dn second_n (if m_non_paid _ m then others ++ ["All Channels"] else []) (Some base) curves) is g.

(** The table of incremental outcomes: a number for each channel and period, and nothing else. *)
Definition incremental_table_of (rows : list (list stat4)) (times : option (list Z)) (d : table) : Prop :=
  shape times (paid ++ ["All Channels"]) d /\
  forall j name row, nth_error (paid ++ ["All Channels"]) j = Some name -> nth_error rows j = Some row ->
    In (name, map (fun x => mkCell x None None None None None None) row) (d_rows d).
Definition incremental_asked (s : mspec New) (i : inc_spec New) (fl : option (list bool)) (times : option (list Z)) (kpi : bool) (d : table) : Prop :=
  exists rows, incremental_of (i_new _ i) (i_media_times _ i) fl (i_aggregate _ i) kpi false (s_level _ s) = Ok rows /\ incremental_table_of rows times d.
Definition inc_described (s : mspec New) (i : inc_spec New) (g : list analysis) : Prop :=
  exists c l fl is d second,
    calendar_of (i_new _ i) c /\ periods c (s_start _ s) (s_end _ s) l /\ l <> [] /\ flags c l fl /\
    reported c (i_aggregate _ i) (s_tag _ s) l is /\
    incremental_asked s i fl (if i_aggregate _ i then None else Some l) kpi_only d /\
    (if two_outcomes then exists d2, second = Some d2 /\ incremental_asked s i fl (if i_aggregate _ i then None else Some l) true d2 else second = None) /\
    Forall2 (analysis_shown (s_level _ s) (negb kpi_only) d second (paid ++ ["All Channels"]) None None [] None None) is g.
Definition described (s : mspec New) (g : list analysis) : Prop :=
  (exists m, s_media _ s = Some m /\ s_inc _ s = None /\ media_described s m g) \/
  (exists i, s_media _ s = None /\ s_inc _ s = Some i /\ inc_described s i g).
End Processor.

(** The rows of the planner's tables for an analysis. *)
Definition outcome_block (a : analysis) (rows : list outcome_row) : Prop :=
  exists front b, channel_lists a = front ++ [("baseline", b)] /\
  Forall2 (fun e r => outcome_of_channel (fst e) (snd e) (an_interval a) r) (("baseline", b) :: front) rows.
Definition qsum_list (l : list Q) : Q := fold_right Qplus 0 l.
Definition primary_share (m : chan_pb) (q : Q) : Prop := exists o, primary (c_outcomes m) o /\ q = zero_if_absent (o_share o).
(** The shares of the paid channels, [shares], and their total. *)
Definition outcome_shares (a : analysis) (shares : list Q) : Prop := Forall2 primary_share (real (an_media a)) shares.
(** Two rows for each paid channel: its share of spend, and its share of the paid channels' outcome. *)
Definition spend_block (revenue : bool) (a : analysis) (rows : list spend_row) : Prop :=
  exists shares parts, outcome_shares a shares /\
  Forall2 (fun x y => (y * qsum_list shares == x)%Q) shares parts /\
  (real (an_media a) <> [] -> (qsum_list parts == 1)%Q) /\
  rows = flat_map (fun mp => [ mkSpendRow (c_name (fst mp)) (Some (match c_spend (fst mp) with Some x => snd x | None => 0 end)) "Spend Share" (an_interval a);
                               mkSpendRow (c_name (fst mp)) (Some (snd mp)) (if revenue then "Revenue Share" else "KPI Share") (an_interval a) ])
           (combine (real (an_media a)) parts).
Definition roi_block (revenue : bool) (a : analysis) (rows : list roi_row) : Prop :=
  Forall2 (fun m r => exists o, primary (c_outcomes m) o /\
    r = mkRoiRow (c_name m) (match c_spend m with Some x => fst x | None => 0 end) (zero_if_absent (o_effectiveness o)) (zero_if_absent (o_roi o))
          (option_map e_lo (o_roi o)) (option_map e_hi (o_roi o)) (zero_if_absent (o_mroi o)) revenue (an_interval a))
    (real (an_media a)) rows.

(** An analyzer that answers every request about periods of the model, with tables of the right size. *)
Section Answers.
Variables (New : Type) (paid : list string) (model_days : list Z) (days_of : New -> list Z).
Definition summary_answers (f : summary_request New -> result table) : Prop := forall r, exists d, f r = Ok d.
Definition baseline_answers (f : Q -> bool -> option (list Z) -> result table) : Prop :=
  forall level agg times, (forall ts, times = Some ts -> incl ts model_days) -> exists d, f level agg times = Ok d.
Definition curves_answer (f : Q -> option (list Z) -> bool -> bool -> result (list (string * list (Q * Q)))) : Prop :=
  forall level times kpi reach, exists cs, f level times kpi reach = Ok cs.
Definition incremental_answers (f : option New -> option (list bool) -> option (list bool) -> bool -> bool -> bool -> Q -> result (list (list stat4))) : Prop :=
  forall n mt fl agg kpi level, exists rows, f n mt fl agg kpi false level = Ok rows /\ length rows = S (length paid) /\
    forall row, In row rows -> length row = if agg then 1%nat else match fl with Some bs => length (filter (fun b => b) bs) | None => length (all_days New model_days days_of n) end.
End Answers.
