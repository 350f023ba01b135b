(** Model of the checks made when a model is constructed: meridian/model/context.py
    [ModelContext.__init__] and meridian/model/model.py [_validate_kpi_variability].

    Numbers are exact reals, [None] is NaN or infinite.  Warnings are left out. *)
From Coq Require Import Reals ZArith List Bool.
From Verif Require Import Lib_Sum M_Base M_Transformers.
Import ListNotations.
Local Open Scope R_scope.
Local Open Scope nat_scope.
Local Open Scope list_scope.

(** The prior types (constants.py:240-262). *)
Inductive ptype := Roi | Mroi | Contribution | Coefficient.
Definition is_roi (p : ptype) : bool := match p with Roi => true | _ => false end.
Definition is_mroi (p : ptype) : bool := match p with Mroi => true | _ => false end.
Definition is_contribution (p : ptype) : bool := match p with Contribution => true | _ => false end.
(** constants.py:258-262 [PAID_MEDIA_ROI_PRIOR_TYPES]. *)
Definition paid_roi_type (p : ptype) : bool := match p with Coefficient => false | _ => true end.

(** Spend: a total per channel, or per geo, period and channel. *)
Inductive spends := PerChannel (s : nat -> R) | PerCell (s : nat -> nat -> nat -> R).

(** The input data (input_data.py:174-287).  Media arrays have more periods than the others. *)
Record inputs := mkInputs {
  in_geos : nat; in_times : nat; in_media_times : nat;
  in_population : nat -> R;
  in_kpi : nat -> nat -> R;
  in_revenue : bool;           (* kpi_type is revenue *)
  in_rpk : bool;               (* revenue_per_kpi is given *)
  in_controls : option T3; in_non_media : option T3;
  in_media : option T3; in_media_spend : option spends;
  in_reach : option T3; in_frequency : option T3; in_rf_spend : option spends;
  in_organic_media : option T3; in_organic_reach : option T3; in_organic_frequency : option T3
}.
(** The specification (spec.py:226-256): shapes of arrays, flags, prior types, and whether a prior
    equals the default one ([distributions_are_equal]).  [sp_support] is the result of
    [_check_media_prior_support] (M_Spec), [sp_knots] that of [get_knot_info] (M_Knots). *)
Record specs := mkSpecs {
  sp_roi_period : option (list nat); sp_rf_roi_period : option (list nat); sp_holdout : option (list nat);
  sp_control_scaling : option (list nat * (nat -> bool)); sp_non_media_scaling : option (list nat * (nat -> bool));
  sp_media_type : ptype; sp_rf_type : ptype; sp_organic_media_type : ptype; sp_organic_rf_type : ptype; sp_non_media_type : ptype;
  sp_roi_m_default : bool; sp_roi_rf_default : bool; sp_mroi_m_default : bool; sp_mroi_rf_default : bool;
  sp_support : result unit;
  sp_knots : result nat
}.

(** context.py:502-551. *)
Definition n_chans (o : option T3) : nat := match o with Some x => chans x | None => 0 end.
Definition is_national (d : inputs) : bool := Nat.eqb (in_geos d) 1.

Definition shape_ok (got : option (list nat)) (want : list nat) : bool :=
  match got with Some s => if list_eq_dec Nat.eq_dec s want then true else false | None => true end.
Definition holdout_shape (d : inputs) : list nat := if is_national d then [in_times d] else [in_geos d; in_times d].
(** context.py:113-184 [_validate_data_dependent_model_spec]. *)
Definition validate_data_dependent (d : inputs) (s : specs) : result unit :=
  raise_if (negb (shape_ok (sp_roi_period s) [in_media_times d; n_chans (in_media d)])) ValueError (
  raise_if (negb (shape_ok (sp_rf_roi_period s) [in_media_times d; n_chans (in_reach d)])) ValueError (
  raise_if (negb (shape_ok (sp_holdout s) (holdout_shape d))) ValueError (
  raise_if (negb (shape_ok (option_map fst (sp_control_scaling s)) [n_chans (in_controls d)])) ValueError (
  raise_if (negb (shape_ok (option_map fst (sp_non_media_scaling s)) [n_chans (in_non_media d)])) ValueError (Ok tt))))).
(** context.py:186-232 [_validate_model_spec_shapes]: the same again, without non-media treatments. *)
Definition validate_shapes (d : inputs) (s : specs) : result unit :=
  raise_if (negb (shape_ok (sp_roi_period s) [in_media_times d; n_chans (in_media d)])) ValueError (
  raise_if (negb (shape_ok (sp_rf_roi_period s) [in_media_times d; n_chans (in_reach d)])) ValueError (
  raise_if (negb (shape_ok (sp_holdout s) (holdout_shape d))) ValueError (
  raise_if (negb (shape_ok (option_map fst (sp_control_scaling s)) [n_chans (in_controls d)])) ValueError (Ok tt)))).

(** context.py:729-765 [_validate_mroi_priors_non_revenue]. *)
Definition no_revenue (d : inputs) : bool := negb (in_revenue d) && negb (in_rpk d).
Definition validate_mroi (d : inputs) (s : specs) : result unit :=
  if no_revenue d then
    raise_if ((0 <? n_chans (in_media d)) && is_mroi (sp_media_type s) && sp_mroi_m_default s) ValueError (
    raise_if ((0 <? n_chans (in_reach d)) && is_mroi (sp_rf_type s) && sp_mroi_rf_default s) ValueError (Ok tt))
  else Ok tt.
(** context.py:767-819 [_validate_roi_priors_non_revenue]: whether the prior on the total media
    contribution is set. *)
Definition validate_roi (d : inputs) (s : specs) : result bool :=
  if no_revenue d then
    let roi_m := is_roi (sp_media_type s) && sp_roi_m_default s in
    let roi_rf := is_roi (sp_rf_type s) && sp_roi_rf_default s in
    if (roi_m && roi_rf) || (Nat.eqb (n_chans (in_media d)) 0 && roi_rf) || (Nat.eqb (n_chans (in_reach d)) 0 && roi_m)
    then Ok true
    else raise_if ((0 <? n_chans (in_media d)) && roi_m) ValueError (
         raise_if ((0 <? n_chans (in_reach d)) && roi_rf) ValueError (Ok false))
  else Ok false.

(** Scaled data: [None] where NaN or infinite. *)
Definition cells : Type := nat -> nat -> nat -> option R.
(** media.py [build_*_tensors]: the media transformer and its [forward] (transformers.py:46-107). *)
Definition media_scaled (population : nat -> R) (x : T3) : result cells :=
  rbind (media_transformer_init x population) (fun tr => Ok (fun g t m => media_forward tr g m (val x g t m))).
(** context.py:577-640: controls and non-media treatments (transformers.py:110-171).  A flagged
    channel is divided by the population; if that is zero somewhere, the mean is not finite. *)
Definition centered (G : nat) (population : nat -> R) (id : option (nat -> bool)) (x : T3) : cells :=
  fun g t m =>
    let broken := match id with
                  | Some b => b m && existsb (fun g => if Req_EM_T (population g) 0 then true else false) (seq 0 G)
                  | None => false
                  end in
    if broken then None else Some (centering_forward (centering_init x population id) true g m (val x g t m)).

(** [backend.reduce_std] of [n] numbers. *)
Fixpoint all_some (l : list (option R)) : option (list R) :=
  match l with
  | [] => Some []
  | Some x :: r => match all_some r with Some q => Some (x :: q) | None => None end
  | None :: _ => None
  end.
Definition mean_list (l : list R) : R := (lsum l / INR (length l))%R.
Definition std_list (l : list R) : R := sqrt (mean_list (map (fun x => (x - mean_list l) ^ 2)%R l)).
Definition reduce_std (n : nat) (f : nat -> option R) : option R :=
  match all_some (map f (seq 0 n)) with
  | Some [] | None => None
  | Some l => Some (std_list l)
  end.
Definition epsilon : R := (1 / 10000)%R.
Definition below (o : option R) (eps : R) : bool := match o with Some s => if Rlt_dec s eps then true else false | None => false end.
(** The channels counted [n] times: [unique_with_counts] only lists channels that occur. *)
Definition all_below (n : nat) (low : nat -> bool) : bool :=
  let count := length (filter low (seq 0 n)) in negb (Nat.eqb count 0) && Nat.eqb count n.
(** context.py:282-313 [_check_if_no_geo_variation]: the number of knots is only looked at if there
    is such a channel. *)
Definition check_geo (d : inputs) (s : specs) (x : T3) (c : cells) : result unit :=
  let bad := existsb (fun m => all_below (times x) (fun t => below (reduce_std (geos x) (fun g => c g t m)) epsilon)) (seq 0 (chans x)) in
  if bad then rbind (sp_knots s) (fun k => raise_if (Nat.eqb k (in_times d)) ValueError (Ok tt)) else Ok tt.
(** context.py:395-431 [_check_if_no_time_variation]; counts are compared with [n_geos]. *)
Definition check_time (d : inputs) (x : T3) (c : cells) : result unit :=
  let low m g := below (reduce_std (times x) (fun t => c g t m)) epsilon in
  let bad := existsb (fun m => let count := length (filter (low m) (seq 0 (geos x))) in
                               negb (Nat.eqb count 0) && Nat.eqb count (in_geos d)) (seq 0 (chans x)) in
  raise_if bad ValueError (Ok tt).

Definition optional (o : option T3) (f : T3 -> result unit) : result unit :=
  match o with Some x => f x | None => Ok tt end.
(** context.py:234-280 [_validate_geo_invariants], 315-354 [_validate_time_invariants]: [chk] is one of
    the two checks. *)
Definition validate_variation (d : inputs) (s : specs) (chk : T3 -> cells -> result unit) : result unit :=
  let by_media x := rbind (media_scaled (in_population d) x) (chk x) in
  rbind (optional (in_controls d) (fun x => chk x (centered (in_geos d) (in_population d) (option_map snd (sp_control_scaling s)) x))) (fun _ =>
  rbind (optional (in_non_media d) (fun x => chk x (centered (in_geos d) (in_population d) (option_map snd (sp_non_media_scaling s)) x))) (fun _ =>
  rbind (optional (in_media d) by_media) (fun _ =>
  rbind (optional (in_reach d) by_media) (fun _ =>
  rbind (optional (in_organic_media d) by_media) (fun _ => optional (in_organic_reach d) by_media))))).

(** input_data.py:391-422, 1113-1126 and context.py:356-393 [_validate_spend_for_paid_channels]: total
    spend by channel.  A total per channel is allocated by the units of the last periods.  Without
    any units there the proportions are NaN, which xarray leaves out of the sum; if units cancel, they
    are infinite. *)
Definition total_spend (d : inputs) (units : T3) (sp : spends) (m : nat) : option R :=
  match sp with
  | PerCell s => Some (rsum (in_geos d) (fun g => rsum (in_times d) (fun t => s g t m)))
  | PerChannel s =>
      let off := times units - in_times d in
      let total := rsum (geos units) (fun g => rsum (in_times d) (fun t => val units g (off + t) m)) in
      if Req_EM_T total 0 then
        if Req_EM_T (s m) 0 then Some 0%R
        else if forallb (fun g => forallb (fun t => if Req_EM_T (val units g (off + t) m) 0 then true else false) (seq 0 (in_times d))) (seq 0 (geos units))
        then Some 0%R else None
      else Some (rsum (geos units) (fun g => rsum (in_times d) (fun t => (s m * (val units g (off + t) m / total))%R)))
  end.
Definition is_zero (o : option R) : bool := match o with Some r => if Req_EM_T r 0 then true else false | None => false end.
Definition validate_spend (d : inputs) (units : option T3) (sp : option spends) : result unit :=
  match units, sp with
  | Some u, Some s => raise_if (existsb (fun m => is_zero (total_spend d u s m)) (seq 0 (chans u))) ValueError (Ok tt)
  | _, _ => Ok tt
  end.
(** input_data.py:403: the units of reach and frequency. *)
Definition times_freq (reach frequency : option T3) : option T3 :=
  match reach, frequency with
  | Some r, Some f => Some (mkT3 (geos r) (times r) (chans r) (fun g t m => (val r g t m * val f g t m)%R))
  | _, _ => None
  end.

(** context.py:92-111 [ModelContext.__init__]. *)
Definition context_init (d : inputs) (s : specs) : result bool :=
  rbind (validate_data_dependent d s) (fun _ =>
  rbind (validate_shapes d s) (fun _ =>
  rbind (validate_mroi d s) (fun _ =>
  rbind (validate_roi d s) (fun flag =>
  rbind (sp_support s) (fun _ =>
  rbind (if is_national d then Ok tt else validate_variation d s (check_geo d s)) (fun _ =>
  rbind (validate_variation d s (check_time d)) (fun _ =>
  rbind (validate_spend d (in_media d) (in_media_spend d)) (fun _ =>
  rbind (validate_spend d (times_freq (in_reach d) (in_frequency d)) (in_rf_spend d)) (fun _ => Ok flag))))))))).

(** eda_engine.py:1026-1044, 2220-2225 [kpi_has_variability]: standard deviation of the scaled KPI
    with [ddof=1], NaN for a single value. *)
Definition kpi_scaled (d : inputs) (g t : nat) : R :=
  kpi_forward (kpi_init (in_geos d) (in_times d) (in_kpi d) (in_population d)) g (in_kpi d g t).
Definition kpi_cells (d : inputs) : list R := flat_map (fun g => map (fun t => kpi_scaled d g t) (seq 0 (in_times d))) (seq 0 (in_geos d)).
Definition std_ddof1 (l : list R) : option R :=
  match length l with
  | 0 | 1 => None
  | n => Some (sqrt (lsum (map (fun x => (x - mean_list l) ^ 2)%R l) / INR (n - 1)))
  end.
Definition kpi_has_variability (threshold : R) (d : inputs) : bool :=
  match std_ddof1 (kpi_cells d) with Some v => if Rle_dec threshold v then true else false | None => false end.
(** model.py:671-720 [_validate_kpi_variability]. *)
Definition validate_kpi (threshold : R) (d : inputs) (s : specs) : result unit :=
  if kpi_has_variability threshold d then Ok tt else
  raise_if ((0 <? n_chans (in_media d)) && paid_roi_type (sp_media_type s)) ValueError (
  raise_if ((0 <? n_chans (in_reach d)) && paid_roi_type (sp_rf_type s)) ValueError (
  raise_if ((0 <? n_chans (in_organic_media d)) && is_contribution (sp_organic_media_type s)) ValueError (
  raise_if ((0 <? n_chans (in_organic_reach d)) && is_contribution (sp_organic_rf_type s)) ValueError (
  raise_if ((0 <? n_chans (in_non_media d)) && is_contribution (sp_non_media_type s)) ValueError (Ok tt))))).

(** model.py:197-231 [Meridian.__init__], without injected inference data. *)
Definition construct (threshold : R) (d : inputs) (s : specs) : result bool :=
  rbind (context_init d s) (fun flag => rbind (validate_kpi threshold d s) (fun _ => Ok flag)).
