(** Specification of the model review: R-hat table and convergence, overall outcome, health score
    and the rules of the checks. *)
From Coq Require Import Reals ZArith String List Bool Arith.
From Verif Require Import Lib_Sum M_Base M_AdstockHill M_Equations M_Transformers M_Aggregate
  S_Aggregate S_Adstock S_Media S_Analyzer M_Analyzer S_Predictor M_Stats S_Stats M_Accuracy S_Accuracy M_Review.
Import ListNotations.
Local Open Scope R_scope.

(** ** R-hat *)
Inductive curve_kind := KMedia | KRf | KOrganicMedia | KOrganicRf.
Definition hill_names (k : curve_kind) : list string :=
  match k with
  | KMedia => ["ec_m"; "slope_m"] | KRf => ["ec_rf"; "slope_rf"]
  | KOrganicMedia => ["ec_om"; "slope_om"] | KOrganicRf => ["ec_orf"; "slope_orf"]
  end%string.
Definition kind_count (h : hill_kinds) (k : curve_kind) : nat :=
  match k with
  | KMedia => hk_n_media h | KRf => hk_n_rf h
  | KOrganicMedia => hk_n_organic_media h | KOrganicRf => hk_n_organic_rf h
  end.
Definition kind_saturation (h : hill_kinds) (k : curve_kind) : option sat_arg :=
  match k with
  | KMedia => hk_media h | KRf => hk_rf h
  | KOrganicMedia => hk_organic_media h | KOrganicRf => hk_organic_rf h
  end.
(** Channel [c] of this kind has no saturation curve. *)
Definition no_saturation (spec : option sat_arg) (c : nat) : Prop :=
  match spec with
  | Some (SOne s) => s = NoSat
  | Some (SSeq l) => nth_error l c = Some NoSat
  | None => False
  end.
(** Entry [c] of parameter [name] is a Hill parameter of a channel without saturation curve. *)
Definition unused (h : hill_kinds) (name : string) (c : nat) : Prop :=
  exists k, In name (hill_names k) /\ no_saturation (kind_saturation h k) c.
Definition masked_entry (h : hill_kinds) (p q : string * rhat_array) : Prop :=
  fst q = fst p /\ rh_shape (snd q) = rh_shape (snd p) /\
  length (rh_values (snd q)) = length (rh_values (snd p)) /\
  forall c v, nth_error (rh_values (snd p)) c = Some v ->
    (unused h (fst p) c -> nth_error (rh_values (snd q)) c = Some None) /\
    (~ unused h (fst p) c -> nth_error (rh_values (snd q)) c = Some v).
(** Hill parameters have one value per channel, and lists of curves one entry per channel. *)
Record hill_ok (h : hill_kinds) (r : rhats) : Prop := {
  ho_params : forall k name a, In (name, a) r -> In name (hill_names k) ->
      length (rh_values a) = kind_count h k /\ kind_count h k <> 0%nat;
  ho_curves : forall k l, kind_saturation h k = Some (SSeq l) -> length l = kind_count h k
}.

Definition numbers (l : list (option R)) : list R :=
  flat_map (fun o => match o with Some r => [r] | None => [] end) l.
Definition is_mean_of (l : list R) (o : option R) : Prop :=
  match o with None => l = [] | Some m => l <> [] /\ m = lsum l / INR (length l) end.
Definition is_max_of (l : list R) (o : option R) : Prop :=
  match o with None => l = [] | Some m => In m l /\ forall y, In y l -> y <= m end.
Definition rhat_ok (a : rhat_array) : Prop :=
  rh_values a <> [] /\ length (rh_values a) = fold_right Nat.mul 1%nat (rh_shape a).
Definition bad_at (threshold : R) (a : rhat_array) (i : nat) : Prop :=
  exists v, nth_error (rh_values a) i = Some (Some v) /\ threshold < v.
Definition row_ok (threshold : R) (p : string * rhat_array) (row : rhat_row) : Prop :=
  let a := snd p in
  rr_param row = fst p /\
  rr_n row = length (rh_values a) /\
  is_mean_of (numbers (rh_values a)) (rr_avg row) /\
  is_max_of (numbers (rh_values a)) (rr_max row) /\
  rr_bad row = INR (length (filter (fun v => if Rlt_dec threshold v then true else false) (numbers (rh_values a))))
               / INR (length (rh_values a)) /\
  match rh_shape a with
  | [m; n] => length (rr_rows row) = length (rr_cols row) /\
              forall i j, In (i, j) (combine (rr_rows row) (rr_cols row)) <->
                (i < m)%nat /\ (j < n)%nat /\ bad_at threshold a (i * n + j)
  | [m] => rr_cols row = [] /\ forall i, In i (rr_rows row) <-> (i < m)%nat /\ bad_at threshold a i
  | _ => rr_rows row = [] /\ rr_cols row = []
  end.
(** The prior's name of a parameter. *)
Definition prior_name (p : string) : string :=
  if string_dec p "tau_g" then "tau_g_excl_baseline"%string else p.

(** [v] is one of the R-hat values. *)
Definition is_rhat (r : rhats) (v : R) : Prop := exists name a, In (name, a) r /\ In (Some v) (rh_values a).
Definition all_nan (a : rhat_array) : Prop := forall v, In v (rh_values a) -> v = None.

(** ** Health score *)
(** Points between 0 and 100 of a result, and its weight. *)
Definition is_share_points (passing total : nat) (v : R) : Prop :=
  (total = 0%nat -> v = 100) /\
  (total <> 0%nat -> passing = 0%nat -> v = 0) /\
  (total <> 0%nat -> passing <> 0%nat -> v = 100 * Rpower (INR passing / INR total) (4 / 10)).
Definition channel_passes (c : roi_channel) : bool :=
  match rc_case c with RoiPass => true | _ => false end.
Definition is_points (r : check_result) (v : R) : Prop :=
  match r with
  | BaselineR c p =>
      bl_review c < bl_fail c /\
      (p <= bl_review c -> v = 100) /\ (bl_fail c <= p -> v = 0) /\
      (bl_review c <= p <= bl_fail c -> v = 100 * ((bl_fail c - p) / (bl_fail c - bl_review c)))
  | PppR t p => (t < p -> v = 100) /\ (p <= t -> v = 0)
  | GofR g => exists r2, gf_r2 (gr_all g) = Some r2 /\ v = 100 / (1 + exp (15 * (1 / 2 - r2)))
  | ShiftR s => is_share_points (length (sh_channels s) - length (sh_no_shift s)) (length (sh_channels s)) v
  | RoiR s => is_share_points (length (filter channel_passes (ro_channels s))) (length (ro_channels s)) v
  | ConvergenceR _ | OtherR _ => v = 0
  end.
Definition weight_of (r : check_result) : R :=
  match r with
  | BaselineR _ _ => 30 / 100 | PppR _ _ => 30 / 100 | GofR _ => 10 / 100
  | ShiftR _ => 15 / 100 | RoiR _ => 15 / 100
  | ConvergenceR _ | OtherR _ => 0
  end.
Definition has_required (rs : list check_result) : Prop :=
  (exists c p, In (BaselineR c p) rs) /\ (exists t p, In (PppR t p) rs) /\ (exists g, In (GofR g) rs).
(** Not more channels without shift than channels. *)
Definition result_ok (r : check_result) : Prop :=
  match r with
  | BaselineR c _ => bl_review c < bl_fail c
  | GofR g => gf_r2 (gr_all g) <> None
  | ShiftR s => (length (sh_no_shift s) <= length (sh_channels s))%nat
  | _ => True
  end.
(** The second result is at least as good as the first. *)
Definition at_least_as_good (r r' : check_result) : Prop :=
  match r, r' with
  | ConvergenceR _, ConvergenceR _ => True
  | OtherR _, OtherR _ => True
  | BaselineR c p, BaselineR c' p' => c' = c /\ p' <= p
  | PppR t p, PppR t' p' => t' = t /\ p <= p'
  | GofR g, GofR g' => exists a b, gf_r2 (gr_all g) = Some a /\ gf_r2 (gr_all g') = Some b /\ a <= b
  | ShiftR s, ShiftR s' => length (sh_channels s') = length (sh_channels s) /\
                           (length (sh_no_shift s') <= length (sh_no_shift s))%nat
  | RoiR s, RoiR s' => length (ro_channels s') = length (ro_channels s) /\
      (length (filter channel_passes (ro_channels s)) <= length (filter channel_passes (ro_channels s')))%nat
  | _, _ => False
  end.

(** ** Rules of the checks *)
(** Share of the elements with a property. *)
Definition share {A} (P : A -> Prop) (l : list A) (p : R) : Prop :=
  exists sel : A -> bool, (forall a, In a l -> (sel a = true <-> P a)) /\
    p = INR (length (filter sel l)) / INR (length l).
(** Tolerance for failing channels. *)
Definition tolerated (t : tolerance) (failing total : nat) : Prop :=
  failing = 0%nat \/
  (total <> 0%nat /\
   ((exists k, tl_count t = Some k /\ (Z.of_nat failing <= k)%Z) \/
    (exists q, tl_ratio t = Some q /\ INR failing / INR total <= q))).

(** Observed and expected outcome summed over the selection. *)
Definition observed_total (x : model) (gl tl : list nat) : R :=
  total gl (fun g => total tl (fun t => actual_outcome x false g t)).
Definition expected_total (x : model) (gl tl : list nat) (w : draw) : R :=
  total gl (fun g => total tl (fun t => outcome_in_units x true false g t (predictor x no_data w g t))).

(** One channel in the ROI consistency check: name, posterior draws, prior quantiles. *)
Definition below (a : R) (q : ext) : Prop :=
  match q with Fin r => a < r | PosInf => True | NegInf => False end.
Definition above (a : R) (q : ext) : Prop :=
  match q with Fin r => r < a | PosInf => False | NegInf => True end.
Definition infinite (q : ext) : Prop := match q with Fin _ => False | _ => True end.
Definition average (l : list R) : R := lsum l / INR (length l).
(** Quantile of channel [i] of [n]: one value for all, or one per channel. *)
Definition of_channel {A} (l : list A) (i : nat) (q : A) : Prop :=
  (l = [q]) \/ (length l <> 1%nat /\ nth_error l i = Some q).
Definition per_channel {A} (n : nat) (l : list A) : Prop := length l = 1%nat \/ length l = n.
Definition kind_ok (lo hi : R) (k : roi_kind) : Prop :=
  length (rk_draws k) = length (rk_names k) /\
  (forall a b, rk_prior k lo = Some a -> rk_prior k hi = Some b ->
     per_channel (length (rk_names k)) a /\ per_channel (length (rk_names k)) b).
Definition undefined (lo hi : R) (k : roi_kind) : Prop := rk_prior k lo = None \/ rk_prior k hi = None.
Definition is_roi_case (lo hi : R) (k : roi_kind) (i : nat) (c : roi_case) : Prop :=
  match c with
  | QuantileNotDefined => undefined lo hi k
  | _ => exists a b l h d,
      rk_prior k lo = Some a /\ rk_prior k hi = Some b /\ of_channel a i l /\ of_channel b i h /\
      nth_error (rk_draws k) i = Some d /\
      match c with
      | QuantileInf => infinite l \/ infinite h
      | RoiLow => ~ infinite l /\ ~ infinite h /\ below (average d) l
      | RoiHigh => ~ infinite l /\ ~ infinite h /\ ~ below (average d) l /\ above (average d) h
      | RoiPass => ~ infinite l /\ ~ infinite h /\ ~ below (average d) l /\ ~ above (average d) h
      | QuantileNotDefined => False
      end
  end.

(** Shift of a channel: for one of the statistics known for the prior, fewer than a share
    [alpha] of the bootstrap samples lie above, or below, the prior's value. *)
Definition resampled (columns : list nat) (draws : list R) : list R := map (fun i => nth i draws 0) columns.
Definition prior_of (p : prior_stats) : list (option (list ext) * (list R -> R -> Prop)) :=
  [(ps_mean p, fun l v => v = average l); (ps_median p, fun l v => is_quantile l (1 / 2) v);
   (ps_q1 p, fun l v => is_quantile l (1 / 4) v); (ps_q3 p, fun l v => is_quantile l (3 / 4) v)].
Definition shifted (alpha : R) (boots : list (list nat)) (p : prior_stats) (i : nat) (draws : list R) : Prop :=
  exists l stat q (v : list nat -> R) up down,
    In (Some l, stat) (prior_of p) /\ of_channel l i q /\
    (forall cols, In cols boots -> stat (resampled cols draws) (v cols)) /\
    share (fun cols => above (v cols) q) boots up /\ share (fun cols => below (v cols) q) boots down /\
    (up < alpha \/ down < alpha).
(** The prior's quantiles are ordered: no number is below the lower and above the upper one. *)
Definition ordered (lo hi : R) (k : roi_kind) : Prop :=
  forall a b i l h r, rk_prior k lo = Some a -> rk_prior k hi = Some b -> of_channel a i l -> of_channel b i h ->
    ~ (below r l /\ above r h).
Definition in_tail (c : roi_channel) : bool := match rc_case c with RoiLow | RoiHigh => true | _ => false end.

(** The bootstrap samples are there and not empty, the prior's statistics fit the channels. *)
Record shift_ok (k : shift_kind) (draws : list (list R)) : Prop := {
  so_draws : sk_draws k = Some draws;
  so_names : length draws = length (sk_names k);
  so_stats : forall l stat, In (Some l, stat) (prior_of (sk_prior k)) -> per_channel (length (sk_names k)) l;
  so_boots : sk_boots k <> [];
  so_each : Forall (fun cols => cols <> []) (sk_boots k)
}.
Definition kind_result (alpha : R) (k : shift_kind) (l : list (string * bool)) : Prop :=
  map fst l = sk_names k /\
  forall i name b, nth_error l i = Some (name, b) ->
    exists draws d, sk_draws k = Some draws /\ nth_error draws i = Some d /\
      (b = true <-> shifted alpha (sk_boots k) (sk_prior k) i d).

(** Share of a channel in the spend; 0 when nothing was spent. *)
Definition is_spend_share (spend : list R) (i : nat) (s : R) : Prop :=
  exists v, nth_error spend i = Some v /\
    (0 < lsum spend -> s = v / lsum spend) /\ (lsum spend <= 0 -> s = 0).

(** Correlation coefficient, undefined for a constant series. *)
Definition deviations (l : list R) : list R := map (fun v => v - average l) l.
Definition dot (a b : list R) : R := lsum (map (fun p : R * R => fst p * snd p) (combine a b)).
Definition is_correlation (a b : list R) (r : R) : Prop :=
  let da := deviations a in let db := deviations b in
  0 < dot da da /\ 0 < dot db db /\ r = dot da db / (sqrt (dot da da) * sqrt (dot db db)).
(** [r] is the correlation of the channel with some control in some geo. *)
Definition correlated (media : list (list R)) (controls : list (list (list R))) (r : R) : Prop :=
  exists c geo m v, In c controls /\ nth_error media geo = Some m /\ nth_error c geo = Some v /\ is_correlation m v r.
