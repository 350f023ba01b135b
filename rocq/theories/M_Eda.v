(** Model of the critical data checks of meridian/model/eda/eda_engine.py and of the guardrail of
    [Meridian.sample_posterior] (meridian/model/model.py).

    Numbers are exact reals.  A variable observed [n] times is a function on [0 .. n-1]. *)
From Coq Require Import Reals ZArith List Bool Arith.
From Verif Require Import Lib_Sum M_Base M_Guard.
Import ListNotations.
Local Open Scope R_scope.
Local Open Scope nat_scope.
Local Open Scope list_scope.

Definition vec := nat -> R.
Definition dot (n : nat) (a b : vec) : R := rsum n (fun i => a i * b i)%R.
Definition mean (n : nat) (a : vec) : R := (rsum n a / INR n)%R.
Definition deviation (n : nat) (a : vec) : vec := fun i => (a i - mean n a)%R.
(** [np.std] and [DataArray.std] with [ddof=0]. *)
Definition std (n : nat) (a : vec) : R := sqrt (dot n (deviation n a) (deviation n a) / INR n)%R.
Definition covariance (n : nat) (a b : vec) : R := (dot n (deviation n a) (deviation n b) / INR n)%R.
Definition lt_bool (a b : R) : bool := if Rlt_dec a b then true else false.
Definition le_bool (a b : R) : bool := if Rle_dec a b then true else false.

(** eda_engine.py:201-222 [_compute_correlation_matrix], one entry: [xr.corr] divides the
    covariance by the product of the standard deviations; 0/0 is NaN, here [None]. *)
Definition corr (n : nat) (a b : vec) : option R :=
  if Req_EM_T (std n a * std n b) 0 then None else Some (covariance n a b / (std n a * std n b))%R.

(** eda_engine.py:225-252 [get_triangle_corr_mat] with [lower=False]: the entries above the diagonal. *)
Definition upper (n_vars : nat) : list (nat * nat) :=
  filter (fun p => fst p <? snd p) (list_prod (seq 0 n_vars) (seq 0 n_vars)).
(** eda_engine.py:255-277 [_find_extreme_corr_pairs].  Variables are named by their position.
    Simplified: the pairs are left in index order, the code sorts them by correlation. *)
Definition extreme (n : nat) (threshold : R) (a b : vec) : bool :=
  match corr n a b with Some c => lt_bool threshold (Rabs c) | None => false end.
Definition extreme_pairs (n n_vars : nat) (x : nat -> vec) (threshold : R) : list (nat * nat) :=
  filter (fun p => extreme n threshold (x (fst p)) (x (snd p))) (upper n_vars).

(** Least squares: what is left of [y] after its orthogonal projection on the span of [vs]
    ([sm.OLS(...).fit().resid], computed by the code with a pseudo-inverse, here by Gram-Schmidt). *)
Fixpoint residual (n : nat) (vs : list vec) (y : vec) : vec :=
  match vs with
  | [] => y
  | v :: rest =>
      let r := residual n rest y in
      let u := residual n rest v in
      if Req_EM_T (dot n u u) 0 then r else fun i => (r i - dot n r u / dot n u u * u i)%R
  end.
(** A variance inflation factor: NaN, infinite or a number. *)
Inductive factor := Nan | Infinite | Number (r : R).
(** statsmodels [variance_inflation_factor]: 1/(1 - r2) with r2 = 1 - ssr/centered_tss of the
    regression of a column on the others, among which there is a constant. *)
Definition inflation (n : nat) (others : list vec) (y : vec) : factor :=
  let r := residual n ((fun _ => 1%R) :: others) y in
  let ssr := dot n r r in
  let tss := dot n (deviation n y) (deviation n y) in
  if Req_EM_T tss 0 then Nan else
  if Req_EM_T ssr 0 then Infinite else Number (1 / (1 - (1 - ssr / tss)))%R.
(** eda_engine.py:360-400 [_calculate_vif]. *)
Definition is_constant (n : nat) (std_threshold : R) (a : vec) : bool := lt_bool (std n a) std_threshold.
Definition calculate_vif (n n_vars : nat) (x : nat -> vec) (std_threshold : R) (v : nat) : factor :=
  if is_constant n std_threshold (x v) then Nan else
  inflation n (map x (filter (fun w => negb (is_constant n std_threshold (x w)) && negb (w =? v)) (seq 0 n_vars))) (x v).
Definition above (f : factor) (threshold : R) : bool :=
  match f with Nan => false | Infinite => true | Number r => lt_bool threshold r end.
Definition extreme_vifs (n n_vars : nat) (x : nat -> vec) (std_threshold threshold : R) : list nat :=
  filter (fun v => above (calculate_vif n n_vars x std_threshold v) threshold) (seq 0 n_vars).

(** eda_spec.py:51-109: the thresholds. *)
Record thresholds := mkThresholds {
  th_kpi : R;
  th_corr_overall : R; th_corr_geo : R; th_corr_national : R;
  th_vif_overall : R; th_vif_geo : R; th_vif_national : R; th_vif_std : R
}.
(** The data of the engine (eda_engine.py:1025-1044, 1061-1080, 1114-1147): the scaled KPI and the
    scaled treatments and controls, stacked; a variable per geo and period.  In a national model
    there is one geo. *)
Record engine := mkEngine {
  en_national : bool; en_geos : nat; en_times : nat;
  en_kpi : nat -> nat -> R;
  en_vars : nat; en_data : nat -> nat -> nat -> R
}.
(** [reshape(-1, num_vars)]: all geos and periods of a variable. *)
Definition flattened (times : nat) (f : nat -> nat -> R) : vec := fun i => f (i / times) (i mod times).
Definition all_cells (e : engine) (v : nat) : vec := flattened (en_times e) (en_data e v).
Definition geo_cells (e : engine) (g v : nat) : vec := en_data e v g.
(** eda_engine.py:1115-1147 for a national model: [squeeze(GEO)]. *)
Definition national_cells (e : engine) (v : nat) : vec := en_data e v 0.

(** eda_outcome.py:43-79. *)
Inductive severity := Info | Attention | Error.
Inductive cause := NoCause | Multicollinearity | Variability | Failure.
(** What a finding or an artifact is about: a pair of variables, or a variable. *)
Inductive subject := Pair (i j : nat) | Var (v : nat).
(** An outcome: findings, and the subjects in the artifacts: at the top level (overall or national),
    and per geo. *)
Record outcome := mkOutcome { o_findings : list (severity * cause); o_top : list subject; o_geo : list (nat * subject) }.

Definition pairs (l : list (nat * nat)) : list subject := map (fun p => Pair (fst p) (snd p)) l.
Definition empty {A} (l : list A) : bool := match l with [] => true | _ => false end.
(** [if not findings: append INFO]. *)
Definition or_info (l : list (severity * cause)) : list (severity * cause) :=
  if empty l then [(Info, NoCause)] else l.
Definition when (b : bool) (f : severity * cause) : list (severity * cause) := if b then [f] else [].
Definition same_pair (p q : nat * nat) : bool := (fst p =? fst q) && (snd p =? snd q).

(** eda_engine.py:1591-1691 [check_geo_pairwise_corr].  [GeoLevelCheckOnNationalModelError] is
    written [ValueError]. *)
Definition check_geo_corr (e : engine) (s : thresholds) : result outcome :=
  raise_if (en_national e) ValueError (
  let overall := extreme_pairs (en_geos e * en_times e) (en_vars e) (all_cells e) (th_corr_overall s) in
  let geo := flat_map (fun g => map (fun p => (g, p)) (extreme_pairs (en_times e) (en_vars e) (geo_cells e g) (th_corr_geo s))) (seq 0 (en_geos e)) in
  let attention := filter (fun gp => negb (existsb (same_pair (snd gp)) overall)) geo in
  Ok (mkOutcome (or_info (when (negb (empty overall)) (Error, Multicollinearity) ++ when (negb (empty attention)) (Attention, Multicollinearity)))
        (pairs overall) (map (fun gp => (fst gp, Pair (fst (snd gp)) (snd (snd gp)))) geo))).
(** eda_engine.py:1693-1746 [check_national_pairwise_corr] of a national model. *)
Definition check_national_corr (e : engine) (s : thresholds) : result outcome :=
  let found := extreme_pairs (en_times e) (en_vars e) (national_cells e) (th_corr_national s) in
  Ok (mkOutcome (if negb (empty found) then [(Error, Multicollinearity)] else [(Info, NoCause)]) (pairs found) []).
(** eda_engine.py:1748-1759 [check_pairwise_corr]. *)
Definition check_corr (e : engine) (s : thresholds) : result outcome :=
  if en_national e then check_national_corr e s else check_geo_corr e s.

(** eda_engine.py:2021-2135 [check_geo_vif]. *)
Definition check_geo_vif (e : engine) (s : thresholds) : result outcome :=
  raise_if (en_national e) ValueError (
  let overall := extreme_vifs (en_geos e * en_times e) (en_vars e) (all_cells e) (th_vif_std s) (th_vif_overall s) in
  let geo := flat_map (fun g => map (fun v => (g, v)) (extreme_vifs (en_times e) (en_vars e) (geo_cells e g) (th_vif_std s) (th_vif_geo s))) (seq 0 (en_geos e)) in
  let attention := filter (fun gv => negb (existsb (Nat.eqb (snd gv)) overall)) geo in
  Ok (mkOutcome (or_info (when (negb (empty overall)) (Error, Multicollinearity) ++ when (negb (empty attention)) (Attention, Multicollinearity)))
        (map Var overall) (map (fun gv => (fst gv, Var (snd gv))) geo))).
(** eda_engine.py:2137-2203 [check_national_vif] of a national model. *)
Definition check_national_vif (e : engine) (s : thresholds) : result outcome :=
  let found := extreme_vifs (en_times e) (en_vars e) (national_cells e) (th_vif_std s) (th_vif_national s) in
  Ok (mkOutcome (if negb (empty found) then [(Error, Multicollinearity)] else [(Info, NoCause)]) (map Var found) []).
(** eda_engine.py:2205-2217 [check_vif]. *)
Definition check_vif (e : engine) (s : thresholds) : result outcome :=
  if en_national e then check_national_vif e s else check_geo_vif e s.

(** eda_engine.py:1036-1044, 2219-2258 [kpi_has_variability], [check_overall_kpi_invariability];
    a NaN standard deviation is not >= the threshold. *)
Definition kpi_values (e : engine) : list R :=
  flat_map (fun g => map (fun t => en_kpi e g t) (seq 0 (en_times e))) (seq 0 (en_geos e)).
Definition kpi_varies (e : engine) (s : thresholds) : bool :=
  match std_ddof1 (kpi_values e) with Some d => le_bool (th_kpi s) d | None => false end.
Definition check_kpi (e : engine) (s : thresholds) : result outcome :=
  Ok (mkOutcome (if negb (kpi_varies e s) then [(Error, Variability)] else [(Info, NoCause)]) [] []).

(** eda_engine.py:2314-2347 [run_all_critical_checks]: an exception of a check becomes a finding. *)
Definition guarded (r : result outcome) : outcome :=
  match r with Ok o => o | Err _ => mkOutcome [(Error, Failure)] [] [] end.
Record outcomes := mkOutcomes { kpi_invariability : outcome; multicollinearity : outcome; pairwise_correlation : outcome }.
Definition run_checks (kpi vif corr : result outcome) : outcomes := mkOutcomes (guarded kpi) (guarded vif) (guarded corr).
Definition run_all_critical_checks (e : engine) (s : thresholds) : outcomes :=
  run_checks (check_kpi e s) (check_vif e s) (check_corr e s).

(** model.py:1041-1070 [_run_model_fitting_guardrail]; [ModelFittingError] is written [RuntimeError]. *)
Definition is_error (f : severity * cause) : bool := match fst f with Error => true | _ => false end.
Definition guardrail (o : outcomes) : result unit :=
  let errors := flat_map (fun c => filter is_error (o_findings c)) [kpi_invariability o; multicollinearity o; pairwise_correlation o] in
  if negb (empty errors) then Err RuntimeError else Ok tt.
(** model.py:1073-1173 [sample_posterior]: the posterior held by the model before and after. *)
Definition sample_posterior {A} (o : outcomes) (sampler : result A) (held : option A) : result unit * option A :=
  match guardrail o with
  | Err x => (Err x, held)
  | Ok _ => match sampler with Ok draws => (Ok tt, Some draws) | Err x => (Err x, held) end
  end.
