(** Model of meridian/analysis/summarizer.py: the period a summary of results is about, and what its sentences name.

    The metrics are computed in M_Summary and M_Curves and are given here, as rational numbers; NaN
    is [None].  The charts of the summary are modelled in M_MediaSummary, M_FitChart and M_CurveCharts.  The HTML, and
    the rounding of numbers in the sentences, are not modelled. *)
From Coq Require Import QArith ZArith String Ascii List Bool Arith.
From Verif Require Import M_Base Lib_Sort M_Time.
Import ListNotations.
Local Open Scope Z_scope.
Local Open Scope string_scope.
Local Open Scope nat_scope.
Local Open Scope list_scope.

(** summarizer.py:97-146 [_gen_model_results_summary]: the first day shown, the day number of the last day shown, the periods
    selected (none: all of them), and (288-297) whether the contributions are by quarter: 52 is
    constants.py:813 [QUARTERLY_SUMMARY_THRESHOLD_WEEKS].  The dates have been normalized. *)
Record summary_period := mkPeriod { sp_from : date; sp_to : Z; sp_times : option (list date); sp_quarterly : bool }.
Definition report_period (all : list date) (interval : Z) (s e : option date) : result summary_period :=
  match all with
  | [] => Err ValueError
  | a :: r =>
      let s' := match s with Some d => d | None => min_date a r end in
      let e' := match e with Some d => d | None => max_date a r end in
      raise_if (negb (date_in s' all)) ValueError (
      raise_if (negb (date_in e' all)) ValueError (
      raise_if (date_ltb e' s') ValueError (
      rbind (expand_selected_time_dims all (Some s') (Some e')) (fun sel =>
      let n := match sel with None => length all | Some l => length l end in
      Ok (mkPeriod s' (ordinal e' + interval)%Z sel (negb (Nat.ltb n 52)))))))
  end.

(** Python's [str.title], for ASCII letters: a letter is a capital if there is no letter before it. *)
Definition is_lower (c : ascii) : bool := Nat.leb 97 (nat_of_ascii c) && Nat.leb (nat_of_ascii c) 122.
Definition is_upper (c : ascii) : bool := Nat.leb 65 (nat_of_ascii c) && Nat.leb (nat_of_ascii c) 90.
Definition to_upper (c : ascii) : ascii := if is_lower c then ascii_of_nat (nat_of_ascii c - 32) else c.
Definition to_lower (c : ascii) : ascii := if is_upper c then ascii_of_nat (nat_of_ascii c + 32) else c.
Fixpoint title_from (after_letter : bool) (s : string) : string :=
  match s with
  | EmptyString => EmptyString
  | String c r => String (if after_letter then to_lower c else to_upper c) (title_from (is_lower c || is_upper c) r)
  end.
Definition title (s : string) : string := title_from false s.

(** summarizer.py:356-394 [_get_sorted_posterior_mean_metrics_df], [_get_sorted_posterior_median_metrics_df]: a metric of
    the channels, without the row of all channels, sorted, NaN last.  pandas leaves the order of equal values open. *)
Definition ALL_CHANNELS : string := "All Channels".
Definition metric_leb (ascending : bool) (a b : string * option Q) : bool :=
  match snd a, snd b with
  | _, None => true
  | None, Some _ => false
  | Some x, Some y => if ascending then Qle_bool x y else Qle_bool y x
  end.
Definition sorted_metrics (ascending : bool) (rows : list (string * option Q)) : list (string * option Q) :=
  isort (metric_leb ascending) (filter (fun a => negb (String.eqb (fst a) ALL_CHANNELS)) rows).
(** summarizer.py:323-326: the channels that drove the outcome. *)
Definition lead_channels (outcome : list (string * option Q)) : list string :=
  map title (firstn 2 (map fst (sorted_metrics false outcome))).
(** The first row. *)
Definition lead (ascending : bool) (rows : list (string * option Q)) : result (string * option Q) :=
  match sorted_metrics ascending rows with [] => Err KeyError | (n, v) :: _ => Ok (title n, v) end.
(** summarizer.py:421-439: what the sentences on performance name; CPIK is the median, the others are means. *)
Record insights := mkInsights { i_roi : string * option Q; i_effectiveness : string; i_mroi : string * option Q; i_cpik : string * option Q }.
Definition performance (roi effectiveness mroi cpik : list (string * option Q)) : result insights :=
  rbind (lead false roi) (fun a => rbind (lead false effectiveness) (fun b =>
  rbind (lead false mroi) (fun c => rbind (lead true cpik) (fun d => Ok (mkInsights a (fst b) c d))))).

(** summarizer.py:511-541 [_select_optimal_rf_data]: the RF channel of most spend (the first of them, [idxmax]) and its
    optimal frequency. *)
Fixpoint idxmax (best : string * Q) (l : list (string * Q)) : string * Q :=
  match l with
  | [] => best
  | a :: r => idxmax (if Qle_bool (snd a) (snd best) then best else a) r
  end.
Fixpoint lookup (spend : list (string * Q)) (c : string) : option Q :=
  match spend with [] => None | (n, v) :: r => if String.eqb n c then Some v else lookup r c end.
Fixpoint select (spend : list (string * Q)) (channels : list string) : result (list (string * Q)) :=
  match channels with
  | [] => Ok []
  | c :: r => match lookup spend c with None => Err KeyError | Some v => rbind (select spend r) (fun l => Ok ((c, v) :: l)) end
  end.
Definition rf_insight (spend : list (string * Q)) (optimal : list (string * Q)) : result (string * Q) :=
  rbind (select spend (map fst optimal)) (fun l =>
  match l with
  | [] => Err ValueError
  | a :: r => let c := fst (idxmax a r) in match lookup optimal c with None => Err KeyError | Some f => Ok (c, f) end
  end).
