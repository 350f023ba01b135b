(** Model of the marketing processor (meridian/schema/processors/marketing_processor.py), of the resolution of the
    dates of a spec (model_processor.py), and of the tables the scenario planner makes of its output
    (scenarioplanner/converters/mmm.py, scenarioplanner/converters/dataframe/marketing_analyses_converters.py).
    Dates are day numbers; the analyzer is a parameter (its tables are those of C26, C31, C36, C41, C46, C64);
    numbers are rationals (no NaN in the analyzer's tables).  The unit of effectiveness and the name of the input of a
    response curve, which are constants, are left out.  Only the posterior is selected, so only it appears. *)
From Coq Require Import ZArith QArith String List Bool Arith.
From Verif Require Import M_Base M_Opt M_BudgetSpec.
Import ListNotations.
Local Open Scope string_scope.
Local Open Scope list_scope.

(** time_coordinates.py:113-185: [all_dates] and [interval_days]. *)
Record coords := mkCoords { tc_dates : list Z; tc_days : Z }.

(** time_coordinates.py:283-342 [expand_selected_time_dims] (as M_Time, on day numbers). *)
Definition min_day (a : Z) (r : list Z) : Z := fold_left Z.min r a.
Definition max_day (a : Z) (r : list Z) : Z := fold_left Z.max r a.
Definition day_in (d : Z) (l : list Z) : bool := existsb (Z.eqb d) l.
Definition expand_days (all : list Z) (s e : option Z) : result (option (list Z)) :=
  match all with
  | [] => match s, e with None, None => Ok None | _, _ => Err ValueError end
  | a :: r =>
    match s, e with
    | None, None => Ok None
    | _, _ =>
      rbind (match s with
             | None => Ok (min_day a r)
             | Some d => raise_if (negb (day_in d all)) ValueError (Ok d)
             end) (fun s' =>
      rbind (match e with
             | None => Ok (max_day a r)
             | Some d => raise_if (negb (day_in d all)) ValueError (Ok d)
             end) (fun e' =>
      raise_if (Z.ltb e' s') ValueError (
      if Z.eqb s' (min_day a r) && Z.eqb e' (max_day a r) then Ok None
      else Ok (Some (filter (fun d => Z.leb s' d && Z.leb d e') all)))))
    end
  end.

(** model_processor.py:163-184 [to_closed_date_interval_tuple]. *)
Definition closed_interval (c : coords) (s e : option Z) : option Z * option Z :=
  (s, option_map (fun d => Z.sub d (tc_days c)) e).

(** model_processor.py:186-200 [resolve_to_enumerated_selected_times]. *)
Definition enumerated (c : coords) (s e : option Z) : result (option (list Z)) :=
  let (a, b) := closed_interval c s e in expand_days (tc_dates c) a b.

(** model_processor.py:202-214 [resolve_to_bool_selected_times]. *)
Definition selected_flags (c : coords) (s e : option Z) : result (option (list bool)) :=
  rbind (enumerated c s e) (fun x => Ok (option_map (fun l => map (fun t => day_in t l) (tc_dates c)) x)).

Record interval := mkInterval { i_start : Z; i_end : Z; i_tag : string }.
(** model_processor.py:216-246 [collapse_to_date_interval_proto]. *)
Definition collapse (c : coords) (s e : option Z) (tag : string) : result interval :=
  rbind (enumerated c s e) (fun x =>
  let l := match x with None => tc_dates c | Some l => l end in
  match l with
  | [] => Err IndexError
  | a :: r => Ok (mkInterval a (Z.add (last l a) (tc_days c)) tag)
  end).
(** model_processor.py:248-281 [transform_to_date_interval_protos]. *)
Definition each_interval (c : coords) (s e : option Z) (tag : string) : result (list interval) :=
  rbind (enumerated c s e) (fun x =>
  Ok (map (fun d => mkInterval d (Z.add d (tc_days c)) tag) (match x with None => tc_dates c | Some l => l end))).
(** marketing_processor.py:553-576 [_build_time_intervals]. *)
Definition build_intervals (c : coords) (aggregate : bool) (s e : option Z) (tag : string) : result (list interval) :=
  if aggregate then rbind (collapse c s e tag) (fun i => Ok [i]) else each_interval c s e tag.

(** The analyzer's tables: mean, median and interval of a metric; the metrics of a channel in a period (those that the
    table has); the rows of a table by channel, each with one cell per period ([d_times]) or a single cell. *)
Record stat4 := mkStat { st_mean : Q; st_median : Q; st_lo : Q; st_hi : Q }.
Record cell := mkCell { ce_outcome : stat4; ce_pct : option stat4; ce_effectiveness : option stat4; ce_roi : option stat4;
  ce_mroi : option stat4; ce_cpik : option stat4; ce_spend : option (Q * Q) }.
Record table := mkTable { d_times : option (list Z); d_rows : list (string * list cell) }.

Fixpoint day_index (t : Z) (l : list Z) : option nat :=
  match l with [] => None | x :: r => if Z.eqb x t then Some 0%nat else option_map S (day_index t r) end.
(** xarray [sel] by channel and, if given, by date: a label that is not there raises KeyError; a table by period read
    without a date gives an array where a number is wanted (ValueError of [item]). *)
Definition sel (d : table) (name : string) (t : option Z) : result cell :=
  match dget (d_rows d) name with
  | None => Err KeyError
  | Some row =>
    match d_times d, t with
    | None, None => match row with [c] => Ok c | _ => Err ValueError end
    | Some ts, Some t => match day_index t ts with
                         | Some i => match nth_error row i with Some c => Ok c | None => Err ValueError end
                         | None => Err KeyError
                         end
    | None, Some _ => Err KeyError
    | Some _, None => Err ValueError
    end
  end.

(** Messages of mmm.v1 (estimates with their one uncertainty). *)
Record est := mkEst { e_value : Q; e_level : Q; e_lo : Q; e_hi : Q }.
Record out_pb := mkOut { o_revenue : bool; o_value : est; o_share : option est; o_effectiveness : option est;
  o_cost : option est; o_roi : option est; o_mroi : option est }.
Record chan_pb := mkChan { c_name : string; c_outcomes : list out_pb; c_spend : option (Q * Q); c_curve : option (list (Q * Q)) }.
Record non_pb := mkNon { n_name : string; n_outcomes : list out_pb }.
Record analysis := mkAnalysis { an_interval : interval; an_media : list chan_pb; an_non_media : list non_pb }.

Section Marketing.
Variable New : Type.
Variable dated : New -> bool.
Variable coords_of : New -> result coords.
Variable paid : list string.
Variable model_coords : coords.
(** [revenue_per_kpi is None]; [kpi_type == "revenue"]. *)
Variables kpi_only revenue_type : bool.
Record summary_request := mkSummaryRequest { r_by_reach : bool; r_times : option (list Z); r_aggregate : bool; r_new : option New;
  r_level : Q; r_kpi : bool; r_non_paid : bool }.
Variable summary_metrics : summary_request -> result table.
Variable baseline_metrics : Q -> bool -> option (list Z) -> result table.
Variable curves_of : Q -> option (list Z) -> bool -> bool -> result (list (string * list (Q * Q))).
(** new data, media times, selected times, aggregate, use_kpi, include_non_paid, level: by channel, by period. *)
Variable incremental_of : option New -> option (list bool) -> option (list bool) -> bool -> bool -> bool -> Q -> result (list (list stat4)).

(** marketing_processor.py:139-223: the specs. *)
Record media_spec := mkMediaSpec { m_aggregate : bool; m_by_reach : bool; m_non_paid : bool; m_new : option New; m_media_times : option (list bool) }.
Record inc_spec := mkIncSpec { i_aggregate : bool; i_new : option New; i_media_times : option (list bool); i_non_paid : bool }.
Record mspec := mkMSpec { s_start : option Z; s_end : option Z; s_tag : string; s_media : option media_spec; s_inc : option inc_spec;
  s_curve_reach : bool; s_level : Q }.

(** marketing_processor.py:225-229 [IncrementalOutcomeSpec.validate], model_processor.py:134-142 and
    marketing_processor.py:277-299 [MarketingAnalysisSpec.validate], run by the constructors. *)
Definition validate_inc (i : inc_spec) : result unit :=
  raise_if (match i_new i with Some n => negb (dated n) | None => false end) ValueError (Ok tt).
Definition validate_spec (s : mspec) : result unit :=
  rbind (match s_inc s with Some i => validate_inc i | None => Ok tt end) (fun _ =>
  raise_if (match s_start s, s_end s with Some a, Some b => Z.ltb b a | _, _ => false end) ValueError (
  raise_if (Qle_bool (s_level s) 0 || Qle_bool 1 (s_level s)) ValueError (
  raise_if (match s_media s, s_inc s with None, None => true | _, _ => false end) ValueError (
  raise_if (match s_media s, s_inc s with Some _, Some _ => true | _, _ => false end) ValueError (Ok tt))))).

(** processors/common.py:46-63 [to_estimate], by the mean or the median. *)
Definition to_est (level : Q) (x : stat4) : est := mkEst (st_mean x) level (st_lo x) (st_hi x).
Definition to_est_median (level : Q) (x : stat4) : est := mkEst (st_median x) level (st_lo x) (st_hi x).
Definition hundredth (x : stat4) : stat4 := mkStat (st_mean x / 100) (st_median x / 100) (st_lo x / 100) (st_hi x / 100).

(** marketing_processor.py:879-964 [_compute_outcome]. *)
Definition compute_outcome (level : Q) (revenue all_channels : bool) (c : cell) : out_pb :=
  mkOut revenue (to_est level (ce_outcome c)) (option_map (fun x => to_est level (hundredth x)) (ce_pct c))
    (if all_channels then None else option_map (to_est level) (ce_effectiveness c))
    (option_map (to_est_median level) (ce_cpik c)) (option_map (to_est level) (ce_roi c))
    (if all_channels then None else option_map (to_est level) (ce_mroi c)).
(** marketing_processor.py:1120-1139 [_compute_spend]. *)
Definition compute_spend (c : cell) : option (Q * Q) := option_map (fun x => (fst x, snd x / 100)%Q) (ce_spend c).

(** marketing_processor.py:697-736, 738-826 [_get_channel_metrics], [_channel_metrics_to_proto]: the outcomes of a
    channel. *)
Definition when (d : table) (t : Z) : option Z := match d_times d with Some _ => Some t | None => None end.
Definition channel_outcomes (level : Q) (name : string) (t : Z) (d : table) (second : option table) : result (list out_pb * cell) :=
  rbind (sel d name (when d t)) (fun c =>
  rbind (match second with Some d2 => rbind (sel d2 name (when d t)) (fun c2 => Ok (Some c2)) | None => Ok None end) (fun c2 =>
  let all := String.eqb name "All Channels" in
  Ok (compute_outcome level (negb kpi_only) all c ::
      match c2 with Some x => [compute_outcome level false all x] | None => [] end, c))).
Definition media_pb_of (level : Q) (t : Z) (d : table) (second : option table) (curves : option (list (string * list (Q * Q))))
    (name : string) : result chan_pb :=
  rbind (channel_outcomes level name t d second) (fun oc =>
  Ok (mkChan name (fst oc) (compute_spend (snd oc)) (match curves with Some cs => dget cs name | None => None end))).
Definition non_pb_of (level : Q) (t : Z) (d : table) (second : option table) (name : string) : result non_pb :=
  rbind (channel_outcomes level name t d second) (fun oc => Ok (mkNon name (fst oc))).

(** marketing_processor.py:828-877 [_get_baseline_metrics]; the table has the one channel "baseline" and the share. *)
Definition baseline_pb (level : Q) (t : Z) (b : table) : result non_pb :=
  rbind (sel b "baseline" (when b t)) (fun c =>
  match ce_pct c with
  | None => Err KeyError
  | Some p => Ok (mkNon "baseline" [mkOut (negb kpi_only) (to_est level (ce_outcome c)) (Some (to_est level (hundredth p))) None None None None])
  end).

(** marketing_processor.py:578-695 [_marketing_metrics_to_protos]; a channel in both tables counts as paid. *)
Definition names_of (d : table) : list string := map fst (d_rows d).
Definition one_analysis (level : Q) (d : table) (non second second_non base : option table)
    (curves : option (list (string * list (Q * Q)))) (i : interval) : result analysis :=
  let t := i_start i in
  let others := match non with Some dn => names_of dn | None => [] end in
  rbind (mapR (media_pb_of level t d second curves) (names_of d ++ filter (fun x => mem x (names_of d)) others)) (fun ms =>
  rbind (match non with
         | Some dn => mapR (non_pb_of level t dn second_non) (filter (fun x => negb (mem x (names_of d))) others)
         | None => Ok []
         end) (fun ns =>
  rbind (match base with Some b => rbind (baseline_pb level t b) (fun p => Ok [p]) | None => Ok [] end) (fun bs =>
  Ok (mkAnalysis i ms (ns ++ bs))))).

(** [drop_sel]: a label that is not there raises KeyError. *)
Definition drop_channels (names : list string) (d : table) : result table :=
  raise_if (negb (forallb (fun x => mem x (names_of d)) names)) KeyError (
  Ok (mkTable (d_times d) (filter (fun r => negb (mem (fst r) names)) (d_rows d)))).

(** marketing_processor.py:466-503 [_generate_media_and_non_media_summary_metrics]. *)
Definition media_tables (m : media_spec) (times : option (list Z)) (level : Q) (kpi : bool) : result (table * option table) :=
  let ask non_paid := summary_metrics (mkSummaryRequest (m_by_reach m) times (m_aggregate m) (m_new m) level kpi non_paid) in
  rbind (ask false) (fun d =>
  if m_non_paid m then
    rbind (drop_channels ["All Channels"] d) (fun d' =>
    rbind (ask true) (fun dn => rbind (drop_channels (names_of d') dn) (fun dn' => Ok (d', Some dn'))))
  else Ok (d, None)).

(** marketing_processor.py:400-464 [_generate_marketing_analyses_for_media_summary_spec]. *)
Definition from_media (s : mspec) (m : media_spec) (c : coords) : result (list analysis) :=
  rbind (enumerated c (s_start s) (s_end s)) (fun times =>
  rbind (media_tables m times (s_level s) kpi_only) (fun ds =>
  rbind (if negb revenue_type && negb kpi_only
         then rbind (media_tables m times (s_level s) true) (fun ds2 => Ok (Some (fst ds2), snd ds2))
         else Ok (None, None)) (fun second =>
  rbind (baseline_metrics (s_level s) (m_aggregate m) times) (fun base =>
  rbind (if m_aggregate m then rbind (curves_of (s_level s) times kpi_only (s_curve_reach s)) (fun x => Ok (Some x)) else Ok None) (fun curves =>
  rbind (build_intervals c (m_aggregate m) (s_start s) (s_end s) (s_tag s)) (fun is =>
  mapR (one_analysis (s_level s) (fst ds) (snd ds) (fst second) (snd second) (Some base) curves) is)))))).

(** marketing_processor.py:1008-1117 [_incremental_outcome_dataset]; sizes that disagree with the coordinates raise. *)
Definition outcome_cell (x : stat4) : cell := mkCell x None None None None None None.
Definition incremental_table (i : inc_spec) (s : mspec) (c : coords) (kpi : bool) : result table :=
  rbind (selected_flags c (s_start s) (s_end s)) (fun flags =>
  rbind (incremental_of (i_new i) (i_media_times i) flags (i_aggregate i) kpi false (s_level s)) (fun rows =>
  let names := paid ++ ["All Channels"] in
  rbind (if i_aggregate i then Ok None
         else rbind (enumerated c (s_start s) (s_end s)) (fun x => Ok (Some (match x with Some l => l | None => tc_dates c end)))) (fun times =>
  let n := match times with Some ts => length ts | None => 1%nat end in
  raise_if (negb (Nat.eqb (length rows) (length names) && forallb (fun r => Nat.eqb (length r) n) rows)) ValueError (
  Ok (mkTable times (combine names (map (map outcome_cell) rows))))))).

(** marketing_processor.py:505-551 [_generate_marketing_analyses_for_incremental_outcome_spec]. *)
Definition from_inc (s : mspec) (i : inc_spec) (c : coords) : result (list analysis) :=
  rbind (incremental_table i s c kpi_only) (fun d =>
  rbind (if negb revenue_type && negb kpi_only then rbind (incremental_table i s c true) (fun x => Ok (Some x)) else Ok None) (fun second =>
  rbind (build_intervals c (i_aggregate i) (s_start s) (s_end s) (s_tag s)) (fun is =>
  mapR (one_analysis (s_level s) d None second None None None) is))).

(** marketing_processor.py:368-398 [execute]. *)
Definition new_of (s : mspec) : option New :=
  match s_inc s with Some i => i_new i | None => match s_media s with Some m => m_new m | None => None end end.
Definition coords_for (s : mspec) : result coords :=
  match new_of s with Some n => if dated n then coords_of n else Ok model_coords | None => Ok model_coords end.
Definition analyses_for (s : mspec) : result (list analysis) :=
  rbind (coords_for s) (fun c =>
  rbind (match s_media s with Some m => from_media s m c | None => Ok [] end) (fun a =>
  rbind (match s_inc s with Some i => from_inc s i c | None => Ok [] end) (fun b => Ok (a ++ b)))).
Definition execute (specs : list mspec) : result (list analysis) :=
  rbind (mapR analyses_for specs) (fun l => Ok (concat l)).
End Marketing.

(** mmm.py:166-210 [maybe_revenue_outcome], [revenue_outcome] and their counterparts. *)
Definition maybe_outcome (revenue : bool) (l : list out_pb) : option out_pb := find (fun o => Bool.eqb (o_revenue o) revenue) l.
Definition typed_outcome (revenue : bool) (l : list out_pb) : result out_pb :=
  match maybe_outcome revenue l with Some o => Ok o | None => Err ValueError end.
(** mmm.py:306-322 [baseline_analysis]. *)
Definition baseline_analysis (a : analysis) : result non_pb :=
  match find (fun n => String.eqb (n_name n) "baseline") (an_non_media a) with Some n => Ok n | None => Err ValueError end.
(** mmm.py:725-730 [tagged_marketing_analyses]: the last analysis with a tag. *)
Definition tagged (l : list analysis) : list (string * analysis) := to_dict (map (fun a => (i_tag (an_interval a), a)) l).
(** marketing_analyses_converters.py:163-185 [_is_revenue_kpi]. *)
Definition is_revenue_kpi (l : list analysis) : result bool :=
  match dget (tagged l) "ALL" with
  | None => Err KeyError
  | Some a => rbind (baseline_analysis a) (fun b => Ok (match maybe_outcome true (n_outcomes b) with Some _ => true | None => false end))
  end.
(** mmm.py:290-304: media and non-media analyses as dicts. *)
Definition media_dict (a : analysis) : list (string * chan_pb) := to_dict (map (fun m => (c_name m, m)) (an_media a)).
Definition non_media_dict (a : analysis) : list (string * non_pb) := to_dict (map (fun m => (n_name m, m)) (an_non_media a)).

(** An unset message reads as zero. *)
Definition value_or_zero (e : option est) : Q := match e with Some x => e_value x | None => 0 end.

Record outcome_row := mkOutcomeRow { or_index : nat; or_channel : string; or_outcome : option Q; or_share : option Q; or_interval : interval }.
(** marketing_analyses_converters.py:223-302 [MediaOutcomeConverter]; the index constants are 0, 1, 2. *)
Definition outcome_row_of (revenue : bool) (i : interval) (name : string) (outs : list out_pb) : outcome_row :=
  let index := if String.eqb name "All Channels" then 1%nat else 2%nat in
  match maybe_outcome revenue outs with
  | Some o => mkOutcomeRow index name (Some (e_value (o_value o))) (Some (value_or_zero (o_share o))) i
  | None => mkOutcomeRow index name None None i
  end.
Definition outcome_rows (revenue : result bool) (a : analysis) : result (list outcome_row) :=
  rbind revenue (fun r =>
  rbind (baseline_analysis a) (fun b =>
  rbind (typed_outcome r (n_outcomes b)) (fun o =>
  Ok (mkOutcomeRow 0 "baseline" (Some (e_value (o_value o))) (Some (value_or_zero (o_share o))) (an_interval a) ::
      map (fun m => outcome_row_of r (an_interval a) (fst m) (c_outcomes (snd m))) (media_dict a) ++
      map (fun m => outcome_row_of r (an_interval a) (fst m) (n_outcomes (snd m)))
        (filter (fun m => negb (String.eqb (fst m) "baseline")) (non_media_dict a)))))).
Definition media_outcome (l : list analysis) : result (list outcome_row) :=
  rbind (mapR (outcome_rows (is_revenue_kpi l)) l) (fun x => Ok (concat x)).

(** marketing_analyses_converters.py:326-419 [MediaSpendConverter].  [_is_revenue_kpi] is only read for a channel. *)
Record spend_row := mkSpendRow { sr_channel : string; sr_value : option Q; sr_label : string; sr_interval : interval }.
Definition real_channels (a : analysis) : list (string * chan_pb) :=
  filter (fun m => negb (String.eqb (fst m) "All Channels")) (media_dict a).
Definition share_of (r : bool) (m : string * chan_pb) : option Q :=
  option_map (fun o => value_or_zero (o_share o)) (maybe_outcome r (c_outcomes (snd m))).
Definition spend_share_of (m : chan_pb) : Q := match c_spend m with Some x => snd x | None => 0 end.
Definition norm_term (r : bool) (l : list (string * chan_pb)) : Q :=
  fold_left (fun acc m => match share_of r m with Some x => acc + x | None => acc end)%Q l 0%Q.
Definition spend_rows (revenue : result bool) (a : analysis) : result (list spend_row) :=
  match real_channels a with
  | [] => Ok []
  | l =>
    rbind revenue (fun r =>
    let norm := norm_term r l in
    raise_if (Qeq_bool norm 0) ZeroDivisionError (
    Ok (flat_map (fun m =>
      [ mkSpendRow (fst m) (Some (spend_share_of (snd m))) "Spend Share" (an_interval a);
        mkSpendRow (fst m) (option_map (fun x => x / norm)%Q (share_of r m)) (if r then "Revenue Share" else "KPI Share") (an_interval a) ]) l)))
  end.
Definition media_spend (l : list analysis) : result (list spend_row) :=
  rbind (mapR (spend_rows (is_revenue_kpi l)) l) (fun x => Ok (concat x)).

(** marketing_analyses_converters.py:447-515 [MediaRoiConverter]. *)
Record roi_row := mkRoiRow { rr_channel : string; rr_spend : Q; rr_effectiveness : Q; rr_roi : Q; rr_lo : option Q; rr_hi : option Q;
  rr_mroi : Q; rr_revenue : bool; rr_interval : interval }.
Definition roi_rows (revenue : result bool) (a : analysis) : result (list roi_row) :=
  mapR (fun m =>
    rbind revenue (fun r =>
    rbind (typed_outcome r (c_outcomes (snd m))) (fun o =>
    Ok (mkRoiRow (fst m) (match c_spend (snd m) with Some x => fst x | None => 0 end) (value_or_zero (o_effectiveness o))
          (value_or_zero (o_roi o)) (option_map e_lo (o_roi o)) (option_map e_hi (o_roi o)) (value_or_zero (o_mroi o))
          (o_revenue o) (an_interval a))))) (real_channels a).
Definition media_roi (l : list analysis) : result (list roi_row) :=
  rbind (mapR (roi_rows (is_revenue_kpi l)) l) (fun x => Ok (concat x)).
