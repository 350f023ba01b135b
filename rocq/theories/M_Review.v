(** Model of the model quality checks: meridian/analysis/review/checks.py, configs.py, results.py
    and reviewer.py, and of the R-hat table of meridian/analysis/analyzer.py.  Floats are exact
    reals, NaN is [None]; messages and HTML are not modelled.  What the libraries compute (R-hat
    values, prior quantiles, highest density intervals, random column choices) is an input. *)
From Coq Require Import Reals ZArith String List Bool Arith.
From Verif Require Import Lib_Sum M_Base M_AdstockHill M_Equations M_Transformers M_Aggregate M_Analyzer
  M_Stats M_Summary M_Accuracy.
Import ListNotations.
Local Open Scope R_scope.

Definition rltb (a b : R) : bool := if Rlt_dec a b then true else false.
Definition rleb (a b : R) : bool := if Rle_dec a b then true else false.
(** Comparisons with NaN are false. *)
Definition olt (a b : option R) : bool :=
  match a, b with Some x, Some y => rltb x y | _, _ => false end.
Definition ole (a b : option R) : bool :=
  match a, b with Some x, Some y => rleb x y | _, _ => false end.

(** ** R-hat *)
(** The R-hat values of one parameter: shape, and values in row-major order. *)
Record rhat_array := mkRhat { rh_shape : list nat; rh_values : list (option R) }.
Definition rhats := list (string * rhat_array).

(** [np.asarray(spec) == "none"], or one string for all channels. *)
Definition is_none (s : sat) : bool := match s with NoSat => true | _ => false end.
Definition linear_mask (n : nat) (spec : sat_arg) : list bool :=
  match spec with SOne s => repeat (is_none s) n | SSeq l => map is_none l end.

(** analyzer.py:3434-3488 [_mask_hill_parameters_for_linear_channels]; [specs]: for each kind of
    media the number of channels, its saturation and the names of its two Hill parameters. *)
Definition hill_spec := (nat * option sat_arg * list string)%type.
Definition mask_of (specs : list hill_spec) (k : string) : option (list bool) :=
  fold_left (fun acc p => let '(n, spec, params) := p in
               match spec with
               | Some a => if negb (Nat.eqb n 0) && existsb (String.eqb k) params
                           then Some (linear_mask n a) else acc
               | None => acc
               end) specs None.
(** [where(mask, nan, v)] for masks and values of the same length. *)
Definition where_nan (mask : list bool) (v : list (option R)) : result (list (option R)) :=
  if Nat.eqb (length mask) (length v)
  then Ok (map (fun p : bool * option R => if fst p then None else snd p) (combine mask v)) else Err ValueError.
(** The four kinds with a Hill curve, in the order of the code. *)
Record hill_kinds := mkHill {
  hk_n_media : nat; hk_media : option sat_arg; hk_n_rf : nat; hk_rf : option sat_arg;
  hk_n_organic_media : nat; hk_organic_media : option sat_arg;
  hk_n_organic_rf : nat; hk_organic_rf : option sat_arg }.
Definition hill_specs (k : hill_kinds) : list hill_spec :=
  [(hk_n_media k, hk_media k, ["ec_m"; "slope_m"]%string);
   (hk_n_rf k, hk_rf k, ["ec_rf"; "slope_rf"]%string);
   (hk_n_organic_media k, hk_organic_media k, ["ec_om"; "slope_om"]%string);
   (hk_n_organic_rf k, hk_organic_rf k, ["ec_orf"; "slope_orf"]%string)].
Definition mask_hill (specs : list hill_spec) (r : rhats) : result rhats :=
  mapM (fun p => match mask_of specs (fst p) with
                 | Some m => rbind (where_nan m (rh_values (snd p))) (fun v =>
                             Ok (fst p, mkRhat (rh_shape (snd p)) v))
                 | None => Ok p
                 end) r.

(** [np.nanmean]; [np.nanmax] ([None] when all values are NaN; an empty array raises). *)
Definition max_seen (acc v : option R) : option R :=
  match acc, v with
  | Some a, Some b => Some (Rmax a b)
  | Some a, None => Some a
  | None, _ => v
  end.
Definition nanmax (l : list (option R)) : result (option R) :=
  match l with [] => Err ValueError | _ => Ok (fold_left max_seen l None) end.

Record rhat_row := mkRow {
  rr_param : string; rr_n : nat; rr_avg : option R; rr_max : option R; rr_bad : R;
  rr_rows : list nat; rr_cols : list nat
}.
(** analyzer.py:3490-3569 [rhat_summary]; [deterministic]: [has_deterministic_param]. *)
Definition bad_positions (threshold : R) (v : list (option R)) : list nat :=
  positions (fun o => olt (Some threshold) o) v.
Definition tau_g_name (p : string) : string :=
  if String.eqb p "tau_g" then "tau_g_excl_baseline"%string else p.
Definition rhat_row_of (threshold : R) (name : string) (a : rhat_array) : result rhat_row :=
  let v := rh_values a in
  let bad := bad_positions threshold v in
  rbind (match rh_shape a with
         | [_; n] => Ok (map (fun i => (i / n)%nat) bad, map (fun i => (i mod n)%nat) bad)
         | [_] => Ok (bad, [])
         | [] => Ok ([], [])
         | _ => Err ValueError
         end) (fun idx =>
  rbind (nanmax v) (fun mx =>
  Ok (mkRow name (fold_right Nat.mul 1%nat (rh_shape a)) (nanmean v) mx
        (INR (length bad) / INR (length v)) (fst idx) (snd idx)))).
Definition rhat_summary (deterministic : string -> bool) (threshold : R) (r : rhats) : result (list rhat_row) :=
  mapM (fun p => rhat_row_of threshold (fst p) (snd p))
    (filter (fun p => negb (deterministic (tau_g_name (fst p)))) r).

(** ** Cases and results *)
Inductive status := PASS | REVIEW | FAIL.
Inductive convergence_case := Converged | NotFullyConverged | NotConverged.
Record convergence_config := mkConv { cv_threshold : R; cv_not_fully : R }.
Record convergence_result := mkConvResult {
  cv_case : convergence_case; cv_max : option R; cv_param : option string }.

(** [max(items, key=...)]: the first item stays unless a later one is greater. *)
Definition max_item (l : list (string * option R)) : option (string * option R) :=
  match l with
  | [] => None
  | p :: r => Some (fold_left (fun acc q => if olt (snd acc) (snd q) then q else acc) r p)
  end.
(** checks.py:134-174 [ConvergenceCheck.run]. *)
Definition convergence_check (c : convergence_config) (r : rhats) : result convergence_result :=
  rbind (mapM (fun p => rbind (nanmax (rh_values (snd p))) (fun m => Ok (fst p, m))) r) (fun mx =>
  match filter (fun p => match snd p with Some _ => true | None => false end) mx, max_item mx with
  | _ :: _, Some (name, m) =>
      let case := if olt m (Some (cv_threshold c)) then Converged
                  else if ole (Some (cv_threshold c)) m && olt m (Some (cv_not_fully c))
                  then NotFullyConverged else NotConverged in
      Ok (mkConvResult case m (Some name))
  | _, _ => Ok (mkConvResult Converged None None)
  end).

(** configs.py:47-126 [ChannelCheckConfig]. *)
Record tolerance := mkTolerance { tl_count : option Z; tl_ratio : option R }.
Definition make_tolerance (count : option Z) (ratio : option R) : result tolerance :=
  raise_if (match count with Some k => Z.ltb k 0 | None => false end) ValueError (
  raise_if (match ratio with Some r => negb (rleb 0 r && rleb r 1) | None => false end) ValueError (
  Ok (mkTolerance count ratio))).
Definition within_tolerance (t : tolerance) (n_failing n_total : nat) : bool :=
  if Nat.eqb n_failing 0 then true
  else if Nat.eqb n_total 0 then false
  else let a := option_map (fun k => Z.leb (Z.of_nat n_failing) k) (tl_count t) in
       let r := option_map (fun q => rleb (INR n_failing / INR n_total) q) (tl_ratio t) in
       match a, r with
       | Some a, Some r => a || r
       | Some a, None => a
       | None, Some r => r
       | None, None => false
       end.

(** checks.py:185-209 [BaselineCheck.run]. *)
Record baseline_config := mkBaseline { bl_review : R; bl_fail : R }.
Definition baseline_case (c : baseline_config) (p : R) : status :=
  if rltb (bl_fail c) p then FAIL else if rleb (bl_review c) p then REVIEW else PASS.

(** checks.py:246-258 [BayesianPPPCheck.run]: the share of draws at least as far from the mean. *)
Definition ppp_value (expected : list R) (actual : R) : R :=
  let m := mean expected in
  mean (map (fun e => if rleb (Rabs (actual - m)) (Rabs (e - m)) then 1 else 0) expected).
Definition ppp_case (threshold p : R) : status := if rleb threshold p then PASS else FAIL.

(** checks.py:270-406 [GoodnessOfFitCheck.run]: the national metrics of the evaluation sets. *)
Record gof_metrics := mkGof { gf_r2 : option R; gf_mape : option R; gf_wmape : option R }.
Record gof_result := mkGofResult {
  gr_case : status; gr_all : gof_metrics; gr_train : option gof_metrics; gr_test : option gof_metrics }.
Fixpoint index_of {A} (p : A -> bool) (l : list A) : result nat :=
  match l with [] => Err KeyError | a :: r => if p a then Ok 0%nat else rbind (index_of p r) (fun i => Ok (S i)) end.
Definition is_national_row (g : granularity) : bool := match g with National => true | Geo => false end.
Definition same_metric (a b : metric) : bool :=
  match a, b with RSquared, RSquared | Mape, Mape | WMape, WMape => true | _, _ => false end.
Definition same_set (a b : evaluation_set) : bool :=
  match a, b with Train, Train | Test, Test | AllData, AllData => true | _, _ => false end.
(** [gof_df.pivot(...).loc[NATIONAL][metric]], after selecting an evaluation set. *)
Definition gof_value (d : dataset) (k : nat) (m : metric) : result (option R) :=
  rbind (index_of (same_metric m) (ds_metric d)) (fun i =>
  rbind (index_of is_national_row (ds_granularity d)) (fun j =>
  Ok (nth k (nth j (nth i (ds_value d) []) []) None))).
Definition gof_set (d : dataset) (k : nat) : result gof_metrics :=
  rbind (gof_value d k RSquared) (fun a => rbind (gof_value d k Mape) (fun b =>
  rbind (gof_value d k WMape) (fun c => Ok (mkGof a b c)))).
Definition gof_check (threshold : R) (d : dataset) : result gof_result :=
  let low m := ole (gf_r2 m) (Some threshold) in
  match ds_set d with
  | Some sets =>
      let at_set s := rbind (index_of (same_set s) sets) (gof_set d) in
      rbind (at_set AllData) (fun a => rbind (at_set Train) (fun b => rbind (at_set Test) (fun c =>
      Ok (mkGofResult (if low a || low b || low c then REVIEW else PASS) a (Some b) (Some c)))))
  | None =>
      rbind (gof_set d 0) (fun a => Ok (mkGofResult (if low a then REVIEW else PASS) a None None))
  end.

(** ** Checks of the channels *)
(** A quantile of a prior: a real or infinite number. *)
Inductive ext := Fin (r : R) | PosInf | NegInf.
Definition is_inf (a : ext) : bool := match a with Fin _ => false | _ => true end.
Definition ext_lt (a b : ext) : bool :=
  match a, b with
  | Fin x, Fin y => rltb x y
  | NegInf, NegInf => false | NegInf, _ => true
  | PosInf, _ => false
  | Fin _, PosInf => true | Fin _, NegInf => false
  end.
(** [np.broadcast_to(a, (n,))]. *)
Definition broadcast_to {A} (n : nat) (l : list A) : result (list A) :=
  match l with
  | [a] => Ok (repeat a n)
  | _ => if Nat.eqb (length l) n then Ok l else Err ValueError
  end.
(** One kind of channels in the ROI checks: names, posterior draws of the ROI by channel, quantiles
    of the prior ([None]: [quantile] is not implemented). *)
Record roi_kind := mkKind {
  rk_names : list string;
  rk_draws : list (list R);
  rk_prior : R -> option (list ext)
}.
Inductive roi_case := RoiPass | RoiLow | RoiHigh | QuantileInf | QuantileNotDefined.
Record roi_channel := mkRoiChannel { rc_case : roi_case; rc_name : string }.
Record roi_result := mkRoiResult { ro_case : status; ro_channels : list roi_channel }.

(** checks.py:480-564 [_get_roi_consistency_channel_data]. *)
Record roi_data := mkRoiData {
  rd_lo : list ext; rd_hi : list ext; rd_means : list R; rd_names : list string;
  rd_undefined : list string; rd_undefined_params : nat }.
Definition roi_data_step (lo hi : R) (acc : result roi_data) (k : roi_kind) : result roi_data :=
  rbind acc (fun d =>
  let n := length (rk_names k) in
  match rk_prior k lo, rk_prior k hi with
  | Some a, Some b =>
      rbind (broadcast_to n a) (fun a => rbind (broadcast_to n b) (fun b =>
      Ok (mkRoiData (rd_lo d ++ a) (rd_hi d ++ b) (rd_means d ++ map mean (rk_draws k))
            (rd_names d ++ rk_names k) (rd_undefined d) (rd_undefined_params d))))
  | _, _ => Ok (mkRoiData (rd_lo d) (rd_hi d) (rd_means d) (rd_names d)
                  (rd_undefined d ++ rk_names k) (S (rd_undefined_params d)))
  end).
Definition get_roi_data (lo hi : R) (ks : list roi_kind) : result roi_data :=
  fold_left (roi_data_step lo hi) ks (Ok (mkRoiData [] [] [] [] [] 0)).
(** [names[mask]]. *)
Definition select {A} (mask : list bool) (l : list A) : list A :=
  map snd (filter fst (combine mask l)).
Definition inf_channels (d : roi_data) : list string :=
  select (map (fun p => is_inf (fst p) || is_inf (snd p)) (combine (rd_lo d) (rd_hi d))) (rd_names d).
Definition low_channels (d : roi_data) : list string :=
  select (map (fun p => ext_lt (Fin (fst p)) (snd p)) (combine (rd_means d) (rd_lo d))) (rd_names d).
Definition high_channels (d : roi_data) : list string :=
  select (map (fun p => ext_lt (snd p) (Fin (fst p))) (combine (rd_means d) (rd_hi d))) (rd_names d).
(** checks.py:567-602 [_compute_channel_results]. *)
Definition roi_case_of (d : roi_data) (name : string) : roi_case :=
  if mem name (inf_channels d) then QuantileInf
  else if mem name (low_channels d) then RoiLow
  else if mem name (high_channels d) then RoiHigh else RoiPass.
Definition roi_channel_results (d : roi_data) : list roi_channel :=
  map (mkRoiChannel QuantileNotDefined) (rd_undefined d)
  ++ map (fun name => mkRoiChannel (roi_case_of d name) name) (rd_names d).
(** checks.py:605-671 [_compute_aggregate_result]. *)
Definition roi_consistency_check (t : tolerance) (lo hi : R) (ks : list roi_kind) : result roi_result :=
  rbind (get_roi_data lo hi ks) (fun d =>
  let failing := (length (low_channels d) + length (high_channels d))%nat in
  let case := if negb (Nat.eqb (rd_undefined_params d) 0) || negb (Nat.eqb (length (inf_channels d)) 0) then REVIEW
              else if Nat.eqb failing 0 then PASS
              else if within_tolerance t failing (length (rd_names d)) then PASS else REVIEW in
  Ok (mkRoiResult case (roi_channel_results d))).

(** checks.py:747-798 [_bootstrap], [_calculate_new_statistics_from_samples] and
    [_get_shifted_mask].  [columns]: the columns chosen at random, one list per bootstrap. *)
Record prior_stats := mkPriorStats {
  ps_mean : option (list ext); ps_median : option (list ext); ps_q1 : option (list ext);
  ps_q3 : option (list ext) }.
Definition resample (columns : list nat) (draws : list R) : list R := map (fun i => nth i draws 0) columns.
Definition shares_shift (alpha : R) (stats : list R) (prior : ext) : bool :=
  match stats with
  | [] => false                            (* the mean of no number is NaN *)
  | _ => rltb (mean (map (fun s => if ext_lt prior (Fin s) then 1 else 0) stats)) alpha
         || rltb (mean (map (fun s => if ext_lt (Fin s) prior then 1 else 0) stats)) alpha
  end.
(** One statistic: shift of each channel. *)
Definition stat_shift (alpha : R) (boots : list (list nat)) (stat : list R -> result R)
    (prior : option (list ext)) (draws : list (list R)) : result (list bool) :=
  match prior with
  | None => Ok (repeat false (length draws))
  | Some p => rbind (broadcast_to (length draws) p) (fun p =>
              mapM (fun q : ext * list R =>
                rbind (mapM (fun cols => stat (resample cols (snd q))) boots) (fun stats =>
                Ok (shares_shift alpha stats (fst q)))) (combine p draws))
  end.
Definition any_shift (alpha : R) (boots : list (list nat)) (p : prior_stats) (draws : list (list R))
    : result (list bool) :=
  rbind (stat_shift alpha boots (fun l => Ok (mean l)) (ps_mean p) draws) (fun a =>
  rbind (stat_shift alpha boots (fun l => quantile l (1 / 2)) (ps_median p) draws) (fun b =>
  rbind (stat_shift alpha boots (fun l => quantile l (1 / 4)) (ps_q1 p) draws) (fun c =>
  rbind (stat_shift alpha boots (fun l => quantile l (3 / 4)) (ps_q3 p) draws) (fun d =>
  Ok (map (fun i => nth i a false || nth i b false || nth i c false || nth i d false) (seq 0 (length draws))))))).

(** checks.py:815-916 [PriorPosteriorShiftCheck]; one entry per kind of channels in the posterior.
    [None] for the draws: the posterior has no ROI parameter for this kind. *)
Record shift_kind := mkShift {
  sk_names : list string; sk_draws : option (list (list R)); sk_prior : prior_stats; sk_boots : list (list nat) }.
Record shift_result := mkShiftResult {
  sh_case : status; sh_channels : list (string * bool); sh_no_shift : list string }.
Definition shift_kind_results (alpha : R) (k : shift_kind) : result (list (string * bool)) :=
  match sk_draws k with
  | None => Err KeyError
  | Some draws => rbind (any_shift alpha (sk_boots k) (sk_prior k) draws) (fun s =>
                  Ok (combine (sk_names k) s))
  end.
Definition prior_posterior_shift_check (t : tolerance) (alpha : R) (ks : list shift_kind) : result shift_result :=
  rbind (mapM (shift_kind_results alpha) ks) (fun l =>
  let channels := concat l in
  let no_shift := map fst (filter (fun p => negb (snd p)) channels) in
  let case := if within_tolerance t (length no_shift) (length channels) then PASS else REVIEW in
  Ok (mkShiftResult case channels no_shift)).

(** checks.py:922-944 [_calculate_spend_share]. *)
Definition spend_share (spend : list R) : list R :=
  let total := lsum spend in
  if rltb 0 total then map (fun s => s / total) spend else map (fun _ => 0) spend.
Inductive channel_flag := FlagPass | FlagHigh | FlagLow.
(** checks.py:955-1045 [ImplausibleROICheck.run]. *)
Definition implausible_flag (upper lower mean share : R) : channel_flag :=
  if rltb upper (mean * share) then FlagHigh
  else if olt (fdiv mean share) (Some lower) then FlagLow else FlagPass.
Definition implausible_check (upper lower : R) (spend : list R) (draws : list (list R))
    : status * list channel_flag :=
  let flags := map (fun p => implausible_flag upper lower (fst p) (snd p))
                 (combine (map mean draws) (spend_share spend)) in
  (if forallb (fun f => match f with FlagPass => true | _ => false end) flags then PASS else REVIEW, flags).

(** checks.py:1057-1126 [HighVarianceCheck.run]; [hdi]: [az.hdi] of the draws of a channel. *)
Definition relative_width (hdi : R * R) (median : R) : R :=
  match fdiv (snd hdi - fst hdi) (Rabs median) with Some w => w | None => 0 end.
Definition high_variance_check (threshold prior_width : R) (hdi : list R -> R * R) (spend : list R)
    (draws : list (list R)) : status * list bool :=
  let flags := map (fun p : list R * R =>
      let w := relative_width (hdi (fst p)) (median (fst p)) in
      let ratio := match fdiv w prior_width with Some r => r | None => 0 end in
      rltb threshold (ratio * snd p)) (combine draws (spend_share spend)) in
  (if existsb (fun b => b) flags then REVIEW else PASS, flags).

(** [scipy.stats.pearsonr(a, b).statistic]: NaN when one of the series is constant. *)
Definition pearson (a b : list R) : option R :=
  let da := map (fun v => v - mean a) a in
  let db := map (fun v => v - mean b) b in
  let sa := lsum (map (fun v => v * v) da) in
  let sb := lsum (map (fun v => v * v) db) in
  fdiv (lsum (map (fun p : R * R => fst p * snd p) (combine da db))) (sqrt sa * sqrt sb).
(** checks.py:1138-1229 [PotentialBiasCheck.run]: [media]: series by channel and geo, aligned with
    the periods of the KPI; [controls]: series by control and geo. *)
Definition max_abs_correlation (media : list (list R)) (controls : list (list (list R))) : option R :=
  fold_left max_seen
    (flat_map (fun c => map (fun p : list R * list R => option_map Rabs (pearson (fst p) (snd p)))
                          (combine media c)) controls) None.
Definition potential_bias_check (threshold : R) (media : list (list (list R)))
    (controls : list (list (list R))) : status * list bool :=
  match controls with
  | [] => (REVIEW, [])
  | _ => let flags := map (fun m => olt (max_abs_correlation m controls) (Some threshold)) media in
         (if existsb (fun b => b) flags then REVIEW else PASS, flags)
  end.

(** ** The reviewer *)
Inductive check_result :=
| ConvergenceR (r : convergence_result)
| BaselineR (c : baseline_config) (p : R)
| PppR (threshold p : R)
| GofR (r : gof_result)
| ShiftR (r : shift_result)
| RoiR (r : roi_result)
| OtherR (s : status).                    (* the remaining checks, which have no score *)
(** results.py: the status of each case. *)
Definition convergence_status (c : convergence_case) : status :=
  match c with Converged => PASS | NotFullyConverged => FAIL | NotConverged => FAIL end.
Definition status_of (r : check_result) : status :=
  match r with
  | ConvergenceR r => convergence_status (cv_case r)
  | BaselineR c p => baseline_case c p
  | PppR t p => ppp_case t p
  | GofR r => gr_case r
  | ShiftR r => sh_case r
  | RoiR r => ro_case r
  | OtherR s => s
  end.

(** reviewer.py:49-139: scores ([None]: NaN). *)
Definition clip01 (r : R) : R := Rmax 0 (Rmin 1 r).
Definition power04 (r : R) : R := if rleb r 0 then 0 else Rpower r (4 / 10).
(** [np.clip(a / 0, 0, 1)]: infinities are clipped, [0 / 0] is NaN. *)
Definition clipped_ratio (a b : R) : option R :=
  if Req_EM_T b 0 then if rltb 0 a then Some 1 else if rltb a 0 then Some 0 else None
  else Some (clip01 (a / b)).
Definition baseline_score (c : baseline_config) (p : R) : option R :=
  option_map (fun r => 100 * (1 - r)) (clipped_ratio (p - bl_review c) (bl_fail c - bl_review c)).
Definition ppp_score (threshold p : R) : R := if rltb threshold p then 100 else 0.
Definition gof_score (r2 : option R) : option R :=
  option_map (fun r => 100 / (1 + exp (- 15 * (r - 1 / 2)))) r2.
Definition fail_ratio_score (failing total : nat) : R :=
  if Nat.eqb total 0 then 100
  else 100 * power04 (1 - clip01 (INR failing / INR total)).
Definition shift_score (r : shift_result) : R :=
  fail_ratio_score (length (sh_no_shift r)) (length (sh_channels r)).
Definition roi_passes (c : roi_channel) : bool := match rc_case c with RoiPass => true | _ => false end.
Definition roi_score (r : roi_result) : R :=
  fail_ratio_score (length (filter (fun c => negb (roi_passes c)) (ro_channels r))) (length (ro_channels r)).

(** Score and weight of a check, if it has one (reviewer.py:164-200). *)
Definition score_and_weight (r : check_result) : option (option R * R) :=
  match r with
  | BaselineR c p => Some (baseline_score c p, 3 / 10)
  | PppR t p => Some (Some (ppp_score t p), 3 / 10)
  | GofR g => Some (gof_score (gf_r2 (gr_all g)), 1 / 10)
  | ShiftR s => Some (Some (shift_score s), 15 / 100)
  | RoiR s => Some (Some (roi_score s), 15 / 100)
  | ConvergenceR _ | OtherR _ => None
  end.
Definition is_baseline r := match r with BaselineR _ _ => true | _ => false end.
Definition is_ppp r := match r with PppR _ _ => true | _ => false end.
Definition is_gof r := match r with GofR _ => true | _ => false end.
(** reviewer.py:315-349 [_compute_health_score].  The total weight is not zero when the required
    results are there. *)
Definition health_score (rs : list check_result) : result (option R) :=
  raise_if (negb (existsb is_baseline rs && existsb is_ppp rs && existsb is_gof rs)) ValueError (
  let sw := flat_map (fun r => match score_and_weight r with Some p => [p] | None => [] end) rs in
  let total := fold_right (fun (p : option R * R) acc =>
                 match fst p, acc with Some s, Some a => Some (s * snd p + a) | _, _ => None end) (Some 0) sw in
  let weight := lsum (map snd sw) in
  Ok (option_map (fun t => t / weight) total)).

Inductive message := DidNotConverge | FailedAndReviews | Failed | PassedWithReviews | Passed.
Record summary := mkReview {
  rv_status : status; rv_message : message; rv_results : list check_result; rv_score : option R }.

(** What a check needs of the fitted model; a check of the battery is a relevance test and a run
    (reviewer.py:258-288). *)
Record check := mkCheck { ck_relevant : bool; ck_run : result check_result }.
Definition has_status (s : status) (r : check_result) : bool :=
  match s, status_of r with PASS, PASS | REVIEW, REVIEW | FAIL, FAIL => true | _, _ => false end.
(** reviewer.py:351-423 [run].  The checks of a battery are pairwise different. *)
Definition review (convergence : result convergence_result) (battery : list check) : result summary :=
  rbind convergence (fun c =>
  match cv_case c with
  | NotConverged => Ok (mkReview FAIL DidNotConverge [ConvergenceR c] (Some 0))
  | _ =>
      rbind (mapM ck_run (filter ck_relevant battery)) (fun l =>
      let rs := ConvergenceR c :: l in
      let fails := existsb (has_status FAIL) rs in
      let reviews := existsb (has_status REVIEW) rs in
      let s := if fails then FAIL else PASS in
      let m := if fails && reviews then FailedAndReviews else if fails then Failed
               else if reviews then PassedWithReviews else Passed in
      rbind (health_score rs) (fun h => Ok (mkReview s m rs h)))
  end).

(** ** The default battery (reviewer.py:40-46) on a fitted model *)
Inductive prior_type := PriorRoi | PriorMroi | PriorCoefficient | PriorContribution.
Definition is_roi (p : prior_type) : bool := match p with PriorRoi => true | _ => false end.
(** The ROI side of a fitted model: kinds of channels with their prior type, names, posterior draws
    of the ROI parameter ([None] unless the prior type is ROI, posterior_sampler.py:322-330), prior
    quantiles and statistics, whether the prior is the default one, bootstrap columns. *)
Record paid_kind := mkPaid {
  pk_type : prior_type; pk_names : list string; pk_draws : list (list R);
  pk_quantile : R -> option (list ext); pk_stats : prior_stats; pk_custom : bool;
  pk_boots : list (list nat) }.
Definition pk_posterior (k : paid_kind) : option (list (list R)) :=
  if is_roi (pk_type k) then Some (pk_draws k) else None.
Definition shift_kind_of (k : paid_kind) : shift_kind :=
  mkShift (pk_names k) (pk_posterior k) (pk_stats k) (pk_boots k).
(** checks.py:103-113, 682-704: relevance.  [ks]: the kinds (media, reach and frequency) that have channels. *)
Definition uses_roi_priors (ks : list paid_kind) : bool := existsb (fun k => is_roi (pk_type k)) ks.
Definition has_custom_roi_priors (ks : list paid_kind) : bool :=
  existsb (fun k => is_roi (pk_type k) && pk_custom k) ks.
Definition roi_kinds_of (ks : list paid_kind) : result (list roi_kind) :=
  mapM (fun k => match pk_posterior k with
                 | Some d => Ok (mkKind (pk_names k) d (pk_quantile k))
                 | None => Err AttributeError
                 end) ks.

Record review_config := mkConfig {
  rg_baseline : baseline_config; rg_ppp : R; rg_gof : R;
  rg_shift : tolerance; rg_alpha : R; rg_roi : tolerance; rg_lower : R; rg_upper : R }.

Section Battery.
Variables (x : model) (holdout : option (matrix bool)) (draws : list draw) (batch_size : Z)
  (ks : list paid_kind) (g : review_config) (gs : option (list string)) (ts : option time_sel).
Definition baseline_check : result check_result :=
  rbind (negative_baseline_probability x None gs ts false batch_size draws) (fun p =>
  Ok (BaselineR (rg_baseline g) p)).
(** The observed outcome: KPI times revenue per KPI if there is one. *)
Definition observed_outcome : tensor :=
  of2 (match d_revenue_per_kpi (x_data x) with
       | Some r => mkT2 (geos2 (x_kpi x)) (times2 (x_kpi x)) (fun i t => val2 (x_kpi x) i t * val2 r i t)
       | None => x_kpi x
       end).
Definition sum_all (a : matrix R) : R := rsum (m_rows a) (fun i => rsum (m_cols a) (fun j => m_at a i j)).
Definition bayesian_ppp_check : result check_result :=
  rbind (package x (x_data x) gs ts None []) (fun i =>
  rbind (filter_and_aggregate (counts x) (x_n_geos x) (x_n_times x) observed_outcome (i_geo i) (i_time i)
           false false false false) (fun a =>
  rbind (expected_outcome x no_data gs ts true true true false batch_size draws) (fun E =>
  Ok (PppR (rg_ppp g) (ppp_value (map (fun t : tensor => at_ t []) E) (sum_all (matrix_of a))))))).
Definition goodness_of_fit_check : result check_result :=
  rbind (predictive_accuracy x holdout gs ts false batch_size draws) (fun d =>
  rbind (gof_check (rg_gof g) d) (fun r => Ok (GofR r))).
Definition shift_check : result check_result :=
  rbind (prior_posterior_shift_check (rg_shift g) (rg_alpha g) (map shift_kind_of ks)) (fun r => Ok (ShiftR r)).
Definition roi_check : result check_result :=
  rbind (roi_kinds_of ks) (fun l =>
  rbind (roi_consistency_check (rg_roi g) (rg_lower g) (rg_upper g) l) (fun r => Ok (RoiR r))).
Definition default_battery : list check :=
  [mkCheck true baseline_check; mkCheck true bayesian_ppp_check; mkCheck true goodness_of_fit_check;
   mkCheck (uses_roi_priors ks) shift_check;
   mkCheck (uses_roi_priors ks && has_custom_roi_priors ks) roi_check].
End Battery.
