(** Model of [MediaSummary] in meridian/analysis/visualizer.py: the tables behind the charts of
    contributions, and the caches in front of the two summaries.
    A number that is NaN or infinite is [None].  Results are values: a caller who modifies a
    returned data set in place, and a change of the fitted model behind the object, are not
    modelled. *)
From Coq Require Import Reals ZArith String List Bool Arith.
From Verif Require Import Lib_Sort M_Base M_Transformers M_Aggregate M_Analyzer M_Stats M_Summary.
Import ListNotations.
Local Open Scope R_scope.
Local Open Scope string_scope.
Local Open Scope list_scope.

(** ** Look-up by label (xarray [sel] and [drop_sel]).  Labels that repeat are refused; pandas
    raises [InvalidIndexError], written [ValueError] here. *)
Fixpoint index_of (a : string) (l : list string) : option nat :=
  match l with
  | [] => None
  | b :: r => if String.eqb a b then Some 0%nat else option_map S (index_of a r)
  end.
Fixpoint distinct (l : list string) : bool :=
  match l with
  | [] => true
  | a :: r => negb (existsb (String.eqb a) r) && distinct r
  end.
Definition loc (l : list string) (a : string) : result nat :=
  match index_of a l with Some k => Ok k | None => Err KeyError end.
Definition locs (l labels : list string) : result (list nat) :=
  raise_if (negb (distinct l)) ValueError (mapM (loc l) labels).

(** constants.py:624, 728. *)
Definition BASELINE : string := "baseline".
Definition ALL_CHANNELS : string := "All Channels".

(** A row of the table of contributions; no time when times are aggregated. *)
Record crow := mkCrow {
  c_time : option string;
  c_channel : string;
  c_outcome : option R;
  c_pct : option R
}.

Definition mean_at (v : variable) (idx : list nat) : option R := option_map st_mean (v idx).
Definition divide (a b : option R) : option R :=
  match a, b with Some u, Some v => fdiv u v | _, _ => None end.
Definition multiply (a b : option R) : option R :=
  match a, b with Some u, Some v => Some (u * v) | _, _ => None end.

(** Labels and positions of the periods of a summary. *)
Definition periods (s : summary) : list (option string * list nat) :=
  match sm_time s with
  | None => [(None, [])]
  | Some l => combine (map Some l) (map (fun i => [i]) (seq 0 (length l)))
  end.

(** visualizer.py:2718-2749 [_summary_metrics_to_mean_df]: the channels shown, without "All
    Channels" unless it is asked for.  An empty selection means all channels. *)
Definition shown (s : summary) (selected : option (list string)) : result (list nat) :=
  match selected with
  | Some (a :: l) => locs (sm_channel s) (a :: l)
  | _ => rbind (locs (sm_channel s) [ALL_CHANNELS]) (fun _ =>
         Ok (filter (fun k => negb (String.eqb (nth k (sm_channel s) "") ALL_CHANNELS))
               (seq 0 (length (sm_channel s)))))
  end.

(** visualizer.py:2570-2604 [_calculate_contribution_dataframe]. *)
Definition channel_rows (s : summary) (selected : option (list string)) : result (list crow) :=
  rbind (match sm_contribution s with Some v => Ok v | None => Err KeyError end) (fun pct =>
  rbind (shown s selected) (fun ks =>
  Ok (flat_map (fun p : option string * list nat => map (fun k =>
        mkCrow (fst p) (nth k (sm_channel s) "")
          (mean_at (sm_incremental s true) (snd p ++ [k]))
          (option_map (fun v => v / 100) (mean_at (pct true) (snd p ++ [k])))) ks) (periods s)))).

(** visualizer.py:2606-2663 [_calculate_baseline_contribution_dataframe], one period. *)
Definition baseline_cell (s : summary) (pct : bool -> variable) (all : nat) (label : option string)
    (pos : list nat) : crow :=
  let media := mean_at (sm_incremental s true) (pos ++ [all]) in
  let media_pct := option_map (fun v => v / 100) (mean_at (pct true) (pos ++ [all])) in
  let total := divide media media_pct in
  let baseline_pct := option_map (fun v => 1 - v) media_pct in
  mkCrow label BASELINE (multiply total baseline_pct) baseline_pct.
(** The periods [times] are looked up in the summary and [labels] put beside the values. *)
Definition baseline_rows (s : summary) (times labels : option (list string)) : result (list crow) :=
  rbind (match sm_contribution s with Some v => Ok v | None => Err KeyError end) (fun pct =>
  rbind (loc (sm_channel s) ALL_CHANNELS) (fun all =>
  match times, labels with
  | Some ts, Some ls =>
      rbind (match sm_time s with Some l => locs l ts | None => Err KeyError end) (fun is_ =>
      raise_if (negb (Nat.eqb (length ls) (length is_))) ValueError (
      Ok (map (fun p : string * nat => baseline_cell s pct all (Some (fst p)) [snd p]) (combine ls is_))))
  | _, _ => Ok [baseline_cell s pct all None []]
  end)).

(** [sort_values] (visualizer.py:2557-2567): largest outcome first, NaN last; by time first when
    times are not aggregated.  Pandas may order ties of the first sort differently. *)
Definition larger_first (a b : crow) : bool :=
  match c_outcome a, c_outcome b with
  | Some u, Some v => if Rle_dec v u then true else false
  | _, None => true
  | None, Some _ => false
  end.
Definition time_of (r : crow) : string := match c_time r with Some t => t | None => "" end.
Definition by_time (a b : crow) : bool :=
  match String.compare (time_of a) (time_of b) with Lt => true | Gt => false | Eq => larger_first a b end.
Definition sort_rows (aggregate_times : bool) (l : list crow) : list crow :=
  isort (if aggregate_times then larger_first else by_time) l.

(** visualizer.py:1506-1545 [MediaSummary.__init__]. *)
Record settings := mkSettings {
  g_level : R;
  g_times : option (list string);
  g_by_reach : bool;
  g_baseline : option (list baseline_value);
  g_use_kpi : bool
}.
Record media_summary := mkMedia { ms_model : fitted; ms_settings : settings }.
Definition new_media_summary (f : fitted) (g : settings) : media_summary :=
  mkMedia f (mkSettings (g_level g) (g_times g) (g_by_reach g) (g_baseline g)
               (resolve_use_kpi (f_x f) (g_use_kpi g))).

(** visualizer.py:1557-1581 and 1594-1615: the bodies of [get_paid_summary_metrics] and
    [get_all_summary_metrics]. *)
Definition compute_paid (m : media_summary) (aggregate_times : bool) : result summary :=
  let g := ms_settings m in
  summary_metrics (ms_model m) no_new (g_by_reach g) (1 / 100) None (option_map TDates (g_times g)) true
    aggregate_times None (g_use_kpi g) (g_level g) 100 false None.
Definition compute_all (m : media_summary) (aggregate_times : bool) : result summary :=
  let g := ms_settings m in
  summary_metrics (ms_model m) no_new true (1 / 100) None (option_map TDates (g_times g)) true
    aggregate_times None (g_use_kpi g) (g_level g) 100 true (g_baseline g).
Definition compute (include_non_paid : bool) : media_summary -> bool -> result summary :=
  if include_non_paid then compute_all else compute_paid.

(** visualizer.py:1748-1777 [update_summary_metrics]; [confidence_level or self._confidence_level]. *)
Definition update (m : media_summary) (level : option R) (times : option (list string)) (by_reach : bool)
    (baseline : option (list baseline_value)) : media_summary :=
  let g := ms_settings m in
  let level' := match level with Some v => if Req_EM_T v 0 then g_level g else v | None => g_level g end in
  mkMedia (ms_model m) (mkSettings level' times by_reach baseline (g_use_kpi g)).

(** ** The caches: [functools.lru_cache(maxsize=128)] on the two methods (visualizer.py:1556,
    1593), shared by all objects.  The key is the object and the way the argument is passed. *)
Inductive form := Default | Positional (aggregate_times : bool) | Keyword (aggregate_times : bool).
Definition aggregated (a : form) : bool :=
  match a with Default => true | Positional b => b | Keyword b => b end.
Definition key := (nat * form)%type.
Definition form_eqb (a b : form) : bool :=
  match a, b with
  | Default, Default => true
  | Positional x, Positional y => Bool.eqb x y
  | Keyword x, Keyword y => Bool.eqb x y
  | _, _ => false
  end.
Definition key_eqb (a b : key) : bool := Nat.eqb (fst a) (fst b) && form_eqb (snd a) (snd b).
Definition cache := list (key * summary).          (* most recently used first *)
Definition MAXSIZE : nat := 128.
Fixpoint lookup (k : key) (c : cache) : option summary :=
  match c with
  | [] => None
  | (k', s) :: r => if key_eqb k k' then Some s else lookup k r
  end.
Definition remove_key (k : key) (c : cache) : cache :=
  filter (fun e => negb (key_eqb k (fst e))) c.
(** A call that raises is not stored. *)
Definition cached (k : key) (c : cache) (body : result summary) : result summary * cache :=
  match lookup k c with
  | Some s => (Ok s, (k, s) :: remove_key k c)
  | None => match body with
            | Ok s => (Ok s, firstn MAXSIZE ((k, s) :: c))
            | Err e => (Err e, c)
            end
  end.

Record state := mkState { w_objects : list media_summary; w_paid : cache; w_all : cache }.
Definition start : state := mkState [] [] [].

Definition get (include_non_paid : bool) (w : state) (o : nat) (m : media_summary) (a : form)
    : result summary * state :=
  if include_non_paid then
    let '(r, c) := cached (o, a) (w_all w) (compute_all m (aggregated a)) in
    (r, mkState (w_objects w) (w_paid w) c)
  else
    let '(r, c) := cached (o, a) (w_paid w) (compute_paid m (aggregated a)) in
    (r, mkState (w_objects w) c (w_all w)).

(** [self._selected_times or ...]: an empty selection counts as none. *)
Definition chosen_labels (m : media_summary) : option (list string) :=
  match g_times (ms_settings m) with Some (a :: l) => Some (a :: l) | _ => None end.
Definition times_or_none (s : summary) : result (list string) :=
  match sm_time s with Some l => Ok l | None => Err AttributeError end.

(** visualizer.py:2515-2568 [contribution_metrics] (and 2634-2641, 2658: the periods of the
    baseline come from the settings, or else from the summary of all channels). *)
Definition contribution_metrics (w : state) (o : nat) (m : media_summary) (selected : option (list string))
    (include_non_paid aggregate_times : bool) : result (list crow) * state :=
  let '(r, w1) := get include_non_paid w o m (Keyword aggregate_times) in
  match r with
  | Err e => (Err e, w1)
  | Ok s =>
      match channel_rows s selected with
      | Err e => (Err e, w1)
      | Ok rows =>
          let finish b := rbind b (fun base => Ok (sort_rows aggregate_times (base ++ rows))) in
          if aggregate_times then (finish (baseline_rows s None None), w1)
          else match chosen_labels m with
               | Some l => (finish (baseline_rows s (Some l) (Some l)), w1)
               | None =>
                   let '(r2, w2) := get true w1 o m (Keyword false) in
                   (finish (rbind r2 (fun a => rbind (times_or_none a) (fun ts =>
                            rbind (times_or_none s) (fun ls => baseline_rows s (Some ts) (Some ls))))), w2)
               end
      end
  end.

(** What a user does. *)
Inductive action :=
| ANew (f : fitted) (g : settings)
| AUpdate (o : nat) (level : option R) (times : option (list string)) (by_reach : bool)
    (baseline : option (list baseline_value))
| AGet (include_non_paid : bool) (o : nat) (a : form)
| AContribution (o : nat) (selected : option (list string)) (include_non_paid aggregate_times : bool).
Inductive reply :=
| RNone
| RSummary (r : result summary)
| RTable (r : result (list crow)).

Fixpoint set_nth {A} (l : list A) (i : nat) (a : A) : list A :=
  match l, i with
  | [], _ => []
  | _ :: r, O => a :: r
  | b :: r, S j => b :: set_nth r j a
  end.
Definition perform (w : state) (a : action) : reply * state :=
  match a with
  | ANew f g => (RNone, mkState (w_objects w ++ [new_media_summary f g]) (w_paid w) (w_all w))
  | AUpdate o level times br bl =>
      match nth_error (w_objects w) o with
      | None => (RNone, w)
      | Some m => (RNone, mkState (set_nth (w_objects w) o (update m level times br bl)) (w_paid w) (w_all w))
      end
  | AGet np o a =>
      match nth_error (w_objects w) o with
      | None => (RNone, w)
      | Some m => let '(r, w') := get np w o m a in (RSummary r, w')
      end
  | AContribution o sel np at' =>
      match nth_error (w_objects w) o with
      | None => (RNone, w)
      | Some m => let '(r, w') := contribution_metrics w o m sel np at' in (RTable r, w')
      end
  end.
Definition after (l : list action) : state := fold_left (fun w a => snd (perform w a)) l start.
Definition answer (l : list action) (a : action) : reply := fst (perform (after l) a).

(** ** The table behind the chart of spend and contribution (visualizer.py:2665-2716
    [_transform_contribution_spend_metrics]). *)
Record srow := mkSrow {
  v_channel : string;
  v_label : string;
  v_pct : option R;
  v_roi : option R;
  v_roi_scaled : option R
}.
(** [Series.max]: the largest number that is not NaN. *)
Definition max_of (l : list (option R)) : option R :=
  fold_right (fun a acc => match a, acc with
                           | Some u, Some v => Some (Rmax u v)
                           | Some u, None => Some u
                           | None, _ => acc
                           end) None l.
Definition spend_table (m : media_summary) (s : summary) : result (list srow) :=
  let name k := nth k (sm_channel s) "" in
  rbind (shown s None) (fun ks =>
  rbind (loc (sm_channel s) ALL_CHANNELS) (fun all =>
  rbind (match sm_pct_of_spend s with Some v => Ok v | None => Err KeyError end) (fun spend =>
  rbind (match sm_roi s with Some v => Ok v | None => Err KeyError end) (fun roi =>
  let outcome := ("% " ++ (if g_use_kpi (ms_settings m) then "KPI" else "Revenue"))%string in
  let total := mean_at (sm_incremental s true) [all] in
  let parts := map (fun k => (k, outcome, divide (mean_at (sm_incremental s true) [k]) total)) ks
            ++ map (fun k => (k, "% Spend", option_map (fun v => v / 100) (spend [k]))) ks in
  let roi_of k := mean_at (roi true) [k] in
  let scale := divide (max_of (map snd parts)) (max_of (map (fun p => roi_of (fst (fst p))) parts)) in
  Ok (map (fun p : nat * string * option R =>
             mkSrow (name (fst (fst p))) (snd (fst p)) (snd p) (roi_of (fst (fst p)))
               (multiply (roi_of (fst (fst p))) scale)) parts))))).
