(** Model of the outcome calculations of meridian/analysis/analyzer.py ([expected_outcome],
    [incremental_outcome]) and of the data they run on (meridian/analysis/tensors.py
    [DataTensorsBuilder]).  Everything is per posterior draw: the leading (chain, draw)
    dimensions are handled by [run_batched].  Floats are exact reals. *)
From Coq Require Import Reals ZArith String List Bool Arith.
From Verif Require Import Lib_Sum M_Base M_AdstockHill M_Equations M_Transformers M_Aggregate.
Import ListNotations.
Local Open Scope R_scope.

(** A tensor of shape (n_geos, n_times). *)
Record T2 := mkT2 { geos2 : nat; times2 : nat; val2 : nat -> nat -> R }.

(** tensors.py:245-340 [DataTensors] (without spend, [rf_impressions] and [time]). *)
Record data := mkData {
  d_media : option T3;
  d_reach : option T3;
  d_frequency : option T3;
  d_organic_media : option T3;
  d_organic_reach : option T3;
  d_organic_frequency : option T3;
  d_non_media : option T3;
  d_controls : option T3;
  d_revenue_per_kpi : option T2
}.

(** One entry of [non_media_baseline_values]: a number, "min" or "max"; anything else. *)
Inductive baseline_value := BMin | BMax | BNum (x : R) | BOther.

(** The part of [ModelContext] the analyzer reads. [x_data] is the historical data in original
    units. *)
Record model := mkModel {
  x_cx : ctx;
  x_geo : list string;
  x_time : list string;
  x_population : nat -> R;
  x_kpi : T2;
  x_data : data;
  x_decay_media : decay_arg; x_decay_rf : decay_arg;
  x_decay_organic_media : decay_arg; x_decay_organic_rf : decay_arg;
  x_sat_media : sat_arg; x_sat_rf : sat_arg;
  x_sat_organic_media : sat_arg; x_sat_organic_rf : sat_arg;
  x_media_transformer : option media_transformer;
  x_reach_transformer : option media_transformer;
  x_organic_media_transformer : option media_transformer;
  x_organic_reach_transformer : option media_transformer;
  x_control_scaling_id : option (nat -> bool);
  x_non_media_scaling_id : option (nat -> bool);
  x_non_media_baseline_values : option (list baseline_value);  (* ModelSpec *)
  x_kpi_is_revenue : bool
}.

Definition x_n_geos (x : model) : nat := length (x_geo x).
Definition x_n_times (x : model) : nat := ctx_n_times (x_cx x).
Definition x_n_media_times (x : model) : nat := ctx_n_media_times (x_cx x).

(** context.py:577-620: the cached transformers of controls, non-media treatments and KPI. *)
Definition controls_transformer (x : model) : option centering_transformer :=
  option_map (fun c => centering_init c (x_population x) (x_control_scaling_id x))
    (d_controls (x_data x)).
Definition non_media_transformer (x : model) : option centering_transformer :=
  option_map (fun n => centering_init n (x_population x) (x_non_media_scaling_id x))
    (d_non_media (x_data x)).
Definition kpi_tr (x : model) : kpi_transformer :=
  kpi_init (geos2 (x_kpi x)) (times2 (x_kpi x)) (val2 (x_kpi x)) (x_population x).

Definition n_chans (o : option T3) : nat := match o with Some y => chans y | None => 0%nat end.
Definition counts (x : model) : channel_counts :=
  let d := x_data x in
  mkCounts (n_chans (d_media d)) (n_chans (d_reach d)) (n_chans (d_non_media d))
           (n_chans (d_organic_media d)) (n_chans (d_organic_reach d)).

(** analyzer.py [DistributionTensors], one draw. *)
Record draw := mkDraw {
  w_tau_g : nat -> R;
  w_mu_t : nat -> R;
  w_media : chan_params; w_rf : chan_params;
  w_organic_media : chan_params; w_organic_rf : chan_params;
  w_beta_gm : nat -> nat -> R; w_beta_grf : nat -> nat -> R;
  w_beta_gom : nat -> nat -> R; w_beta_gorf : nat -> nat -> R;
  w_gamma_gc : nat -> nat -> R;
  w_gamma_gn : nat -> nat -> R
}.

(** Transformed media of one kind with its coefficients: (media, number of coefficients,
    coefficients by geo and channel). *)
Definition part := (T3 * (nat * (nat -> nat -> R)))%type.

(** [backend.concatenate([a, b], axis=-1)]: the other dimensions must agree. *)
Definition append3 (a b : T3) : result T3 :=
  if Nat.eqb (geos a) (geos b) && Nat.eqb (times a) (times b) then
    Ok (mkT3 (geos a) (times a) (chans a + chans b)
         (fun g t c => if (c <? chans a)%nat then val a g t c else val b g t (c - chans a)%nat))
  else Err ValueError.
Definition append_beta (a b : nat * (nat -> nat -> R)) : nat * (nat -> nat -> R) :=
  ((fst a + fst b)%nat,
   fun g c => if (c <? fst a)%nat then snd a g c else snd b g (c - fst a)%nat).

(** [concatenate] of a list of parts; concatenating nothing raises. *)
Fixpoint concat_parts (l : list part) : result part :=
  match l with
  | [] => Err ValueError
  | [p] => Ok p
  | p :: r =>
      rbind (concat_parts r) (fun q =>
      rbind (append3 (fst p) (fst q)) (fun m =>
      Ok (m, append_beta (snd p) (snd q))))
  end.

(** An RF kind needs both tensors ([None] would raise in the frequency Hill). *)
Definition rf_part (reach frequency : option T3) (f : T3 -> T3 -> result T3)
    (b : nat * (nat -> nat -> R)) : result (list part) :=
  match reach, frequency with
  | None, _ => Ok []
  | Some _, None => Err AttributeError
  | Some r, Some q => rbind (f r q) (fun m => Ok [(m, b)])
  end.
Definition media_part (media : option T3) (f : T3 -> result T3)
    (b : nat * (nat -> nat -> R)) : result (list part) :=
  match media with None => Ok [] | Some r => rbind (f r) (fun m => Ok [(m, b)]) end.

(** analyzer.py:510-593 [_get_transformed_media_and_beta]. *)
Definition transformed_media_and_beta (x : model) (d : data) (w : draw) (n_times_output : option Z)
    : result part :=
  rbind (media_part (d_media d)
           (fun m => adstock_hill_media (x_cx x) m (w_media w) (x_decay_media x) (x_sat_media x)
                       n_times_output) (n_par (w_media w), w_beta_gm w)) (fun l1 =>
  rbind (rf_part (d_reach d) (d_frequency d)
           (fun r f => adstock_hill_rf (x_cx x) r f (w_rf w) (x_decay_rf x) (x_sat_rf x)
                       n_times_output) (n_par (w_rf w), w_beta_grf w)) (fun l2 =>
  rbind (media_part (d_organic_media d)
           (fun m => adstock_hill_media (x_cx x) m (w_organic_media w) (x_decay_organic_media x)
                       (x_sat_organic_media x) n_times_output)
           (n_par (w_organic_media w), w_beta_gom w)) (fun l3 =>
  rbind (rf_part (d_organic_reach d) (d_organic_frequency d)
           (fun r f => adstock_hill_rf (x_cx x) r f (w_organic_rf w) (x_decay_organic_rf x)
                       (x_sat_organic_rf x) n_times_output)
           (n_par (w_organic_rf w), w_beta_gorf w)) (fun l4 =>
  rbind (concat_parts (l1 ++ l2 ++ l3 ++ l4)) (fun p =>
  (* the einsum of media and beta: channel counts must agree *)
  if Nat.eqb (chans (fst p)) (fst (snd p)) then Ok p else Err ValueError))))).

(** Einsum "gtm,gm->gt" at one cell. *)
Definition contract (y : T3) (b : nat -> nat -> R) (g t : nat) : R :=
  rsum (chans y) (fun c => val y g t c * b g c).

Definition check_dims (y : T3) (n_geos n_times : nat) : bool :=
  Nat.eqb (geos y) n_geos && Nat.eqb (times y) n_times.

(** analyzer.py:261-308 [_get_kpi_means].  Terms of different (geo, time) shapes raise (the
    broadcasting of a size-one dimension is not modelled). *)
Definition kpi_means (x : model) (d : data) (w : draw) : result T2 :=
  let G := x_n_geos x in
  let T := x_n_times x in
  rbind (transformed_media_and_beta x d w None) (fun p =>
  raise_if (negb (check_dims (fst p) G T)) ValueError (
  rbind (match d_controls (x_data x) with
         | None => Ok (fun _ _ => 0)
         | Some _ =>
             match d_controls d with
             | None => Err ValueError
             | Some c => raise_if (negb (check_dims c G T)) ValueError
                           (Ok (contract c (w_gamma_gc w)))
             end
         end) (fun controls =>
  rbind (match d_non_media d with
         | None => Ok (fun _ _ => 0)
         | Some n => raise_if (negb (check_dims n G T)) ValueError
                       (Ok (contract n (w_gamma_gn w)))
         end) (fun non_media =>
  Ok (mkT2 G T (fun g t =>
        w_tau_g w g + w_mu_t w t + contract (fst p) (snd (snd p)) g t
        + controls g t + non_media g t)))))).

(** analyzer.py:959-1026 [get_incremental_kpi]. *)
Definition get_incremental_kpi (x : model) (d : data) (w : draw)
    (baseline_normalized : option (nat -> R)) : result T3 :=
  rbind (match d_non_media d, baseline_normalized with
         | Some _, None => Err ValueError
         | _, _ => Ok tt
         end) (fun _ =>
  rbind (match d_media d, d_reach d with
         | Some m, _ => Ok (times m)
         | None, Some r => Ok (times r)
         | None, None => Err ValueError
         end) (fun n_times =>
  let n_times_output := if Nat.eqb n_times (x_n_media_times x) then None
                        else Some (Z.of_nat n_times) in
  rbind (transformed_media_and_beta x d w n_times_output) (fun p =>
  let y := fst p in
  let media_kpi := mkT3 (geos y) (times y) (chans y)
                     (fun g t c => val y g t c * snd (snd p) g c) in
  match d_non_media d, baseline_normalized with
  | Some n, Some b =>
      append3 media_kpi
        (mkT3 (geos n) (times n) (chans n)
           (fun g t c => (val n g t c - b c) * w_gamma_gn w g c))
  | _, _ => Ok media_kpi
  end))).

(** analyzer.py:319-349 [_use_kpi]. *)
Definition resolve_use_kpi (x : model) (use_kpi : bool) : bool :=
  if use_kpi && x_kpi_is_revenue x then false
  else use_kpi || negb (match d_revenue_per_kpi (x_data x) with Some _ => true | None => false end).

(** analyzer.py:935-957 [_check_kpi_transformation]. *)
Definition check_kpi_transformation (inverse use_kpi : bool) : result unit :=
  raise_if (negb inverse && negb use_kpi) ValueError (Ok tt).

(** analyzer.py:1028-1066 [inverse_outcome]. *)
Definition inverse_outcome (x : model) (y : T3) (use_kpi : bool) (rpk : option T2) : result T3 :=
  let use_kpi := resolve_use_kpi x use_kpi in
  let rpk := match rpk with Some r => Some r | None => d_revenue_per_kpi (x_data x) end in
  let kpi := fun g t c => kpi_inverse (kpi_tr x) g (val y g t c) - kpi_inverse (kpi_tr x) g 0 in
  if use_kpi then Ok (mkT3 (geos y) (times y) (chans y) kpi)
  else match rpk with
       | None => Err ValueError
       | Some r =>
           if Nat.eqb (geos2 r) (geos y) && Nat.eqb (times2 r) (times y)
           then Ok (mkT3 (geos y) (times y) (chans y) (fun g t c => val2 r g t * kpi g t c))
           else Err ValueError
       end.

(** Tensors of rank three and two as tensors of any rank. *)
Definition of3 (y : T3) : tensor :=
  mkTensor [geos y; times y; chans y]
    (fun idx => match idx with [g; t; c] => val y g t c | _ => 0 end).
Definition of2 (y : T2) : tensor :=
  mkTensor [geos2 y; times2 y] (fun idx => match idx with [g; t] => val2 y g t | _ => 0 end).

(** tensors.py:551-600 [_scale_tensors_by_multiplier]; [mult t] multiplies period [t]. *)
Definition scale3 (mult : nat -> R) (y : T3) : T3 :=
  mkT3 (geos y) (times y) (chans y) (fun g t c => val y g t c * mult t).
Definition scale_tensors_by_multiplier (d : data) (mult : nat -> R) (by_reach : bool) : data :=
  let sc := option_map (scale3 mult) in
  let both (a b : option T3) := match a, b with Some _, Some _ => true | _, _ => false end in
  let rf := both (d_reach d) (d_frequency d) in
  let orf := both (d_organic_reach d) (d_organic_frequency d) in
  mkData (sc (d_media d))
    (if rf && by_reach then sc (d_reach d) else d_reach d)
    (if rf && negb by_reach then sc (d_frequency d) else d_frequency d)
    (sc (d_organic_media d))
    (if orf && by_reach then sc (d_organic_reach d) else d_organic_reach d)
    (if orf && negb by_reach then sc (d_organic_frequency d) else d_organic_frequency d)
    (d_non_media d) (d_controls d) (d_revenue_per_kpi d).

(** tensors.py:1460-1505 [_transform].  The inf/NaN of a zero scale factor is read as 0 here
    (the factors are non-zero for populations that are: C07). *)
Definition map3 (f : nat -> nat -> R -> R) (y : T3) : T3 :=
  mkT3 (geos y) (times y) (chans y) (fun g t c => f g c (val y g t c)).
Definition media_fwd (tr : media_transformer) (g c : nat) (v : R) : R :=
  match media_forward tr g c v with Some r => r | None => 0 end.
Definition transform_media (y : option T3) (tr : option media_transformer) : option T3 :=
  match y, tr with Some v, Some t => Some (map3 (media_fwd t) v) | _, _ => y end.
Definition transform_centered (y : option T3) (tr : option centering_transformer) : option T3 :=
  match y, tr with Some v, Some t => Some (map3 (centering_forward t true) v) | _, _ => y end.

(** tensors.py:1445-1514 [_scale_data_tensors]. *)
Definition scale_data_tensors (x : model) (d : data) (include_non_paid : bool) : data :=
  mkData (transform_media (d_media d) (x_media_transformer x))
    (transform_media (d_reach d) (x_reach_transformer x))
    (d_frequency d)
    (if include_non_paid
     then transform_media (d_organic_media d) (x_organic_media_transformer x) else None)
    (if include_non_paid
     then transform_media (d_organic_reach d) (x_organic_reach_transformer x) else None)
    (if include_non_paid then d_organic_frequency d else None)
    (if include_non_paid then transform_centered (d_non_media d) (non_media_transformer x) else None)
    (transform_centered (d_controls d) (controls_transformer x))
    (d_revenue_per_kpi d).

(** tensors.py:862-916 [_fill_default_values], restricted to the required tensors
    ([PAID_DATA], then [NON_PAID_DATA] and [CONTROLS] as asked for).  The validation of the
    given tensors against the model is in M_Tensors. *)
Definition orelse {A} (a b : option A) : option A := match a with Some _ => a | None => b end.
Definition fill_missing (x : model) (d : data) (include_non_paid include_controls : bool) : data :=
  let o := x_data x in
  let np {A} (a b : option A) := if include_non_paid then orelse a b else None in
  mkData (orelse (d_media d) (d_media o)) (orelse (d_reach d) (d_reach o))
    (orelse (d_frequency d) (d_frequency o))
    (np (d_organic_media d) (d_organic_media o))
    (np (d_organic_reach d) (d_organic_reach o))
    (np (d_organic_frequency d) (d_organic_frequency o))
    (np (d_non_media d) (d_non_media o))
    (if include_controls then orelse (d_controls d) (d_controls o) else None)
    (orelse (d_revenue_per_kpi d) (d_revenue_per_kpi o)).

Definition no_data : data := mkData None None None None None None None None None.

(** tensors.py:632-665 [get_modified_times], in the field order of [DataTensors]. *)
Definition modified3 (a b : option T3) : option nat :=
  match a, b with
  | Some u, Some v => if Nat.eqb (times u) (times v) then None else Some (times u)
  | _, _ => None
  end.
Definition modified2 (a b : option T2) : option nat :=
  match a, b with
  | Some u, Some v => if Nat.eqb (times2 u) (times2 v) then None else Some (times2 u)
  | _, _ => None
  end.
Definition get_modified_times (x : model) (d : data) : option nat :=
  let o := x_data x in
  orelse (modified3 (d_media d) (d_media o)) (
  orelse (modified3 (d_reach d) (d_reach o)) (
  orelse (modified3 (d_frequency d) (d_frequency o)) (
  orelse (modified3 (d_organic_media d) (d_organic_media o)) (
  orelse (modified3 (d_organic_reach d) (d_organic_reach o)) (
  orelse (modified3 (d_organic_frequency d) (d_organic_frequency o)) (
  orelse (modified3 (d_non_media d) (d_non_media o)) (
  orelse (modified3 (d_controls d) (d_controls o)) (
  modified2 (d_revenue_per_kpi d) (d_revenue_per_kpi o))))))))).

(** equations.py:210-296 [compute_non_media_treatments_baseline]. *)
Definition list_min (l : list R) : R := match l with [] => 0 | a :: r => fold_left Rmin r a end.
Definition list_max (l : list R) : R := match l with [] => 0 | a :: r => fold_left Rmax r a end.
Definition non_media_factor (x : model) (g c : nat) : R :=
  match x_non_media_scaling_id x with
  | Some id => scaling_factors (x_population x) id g c
  | None => 1
  end.
Definition compute_non_media_baseline (x : model) (values : option (list baseline_value))
    : result (nat -> R) :=
  match d_non_media (x_data x) with
  | None => Err AttributeError
  | Some n =>
      let scaled := mkT3 (geos n) (times n) (chans n)
                      (fun g t c => divide_no_nan (val n g t c) (non_media_factor x g c)) in
      let values1 := orelse values (x_non_media_baseline_values x) in
      let filled := match values1 with Some l => l | None => repeat BMin (chans n) end in
      raise_if (negb (Nat.eqb (chans n) (length filled))) ValueError (
      raise_if (existsb (fun b => match b with BOther => true | _ => false end) filled) ValueError (
      Ok (fun c => match nth c filled BOther with
                   | BMin => list_min (channel_values scaled c)
                   | BMax => list_max (channel_values scaled c)
                   | BNum v => v
                   | BOther => 0
                   end)))
  end.

(** tensors.py:65-78 [_validate_non_media_baseline_values_numbers]. *)
Definition validate_baseline_numbers (values : option (list baseline_value)) : result unit :=
  match values with
  | None => Ok tt
  | Some l => raise_if (existsb (fun b => match b with BNum _ => false | _ => true end) l)
                ValueError (Ok tt)
  end.

(** tensors.py:602-616 [CounterfactualInputs]. *)
Record inputs := mkInputs {
  i_data : data;
  i_geo : option (list nat);
  i_time : option (list nat);
  i_baseline : option (nat -> R);
  i_mask : list bool
}.

(** tensors.py:984-1008 [_package_inputs] (dates are those of the input data: [time] is not
    part of the new data here). *)
Definition package (x : model) (d : data) (geos : option (list string)) (times : option time_sel)
    (baseline : option (nat -> R)) (mask : list bool) : result inputs :=
  let n_times := match get_modified_times x d with
                 | Some (S n) => S n | _ => x_n_times x end in
  rbind (resolve_geo_indices (x_geo x) geos) (fun gi =>
  rbind (resolve_time_indices (x_time x) n_times times) (fun ti =>
  Ok (mkInputs d gi ti baseline mask))).

(** Arguments of [incremental_outcome] (analyzer.py:1176-1194); [media_selected_times] as a
    boolean list. *)
Record options := mkOptions {
  o_scaling_factor0 : R;
  o_scaling_factor1 : R;
  o_selected_geos : option (list string);
  o_selected_times : option time_sel;
  o_media_selected_times : option (list bool);
  o_aggregate_geos : bool;
  o_aggregate_times : bool;
  o_inverse : bool;
  o_use_kpi : bool;
  o_by_reach : bool;
  o_include_non_paid : bool;
  o_baseline_values : option (list baseline_value)
}.

(** tensors.py:1183-1236 [_resolve_and_validate_counterfactual_inputs], on new data without
    [time]: booleans of the right length, or dates of the input data when no time dimension is
    modified. *)
Definition validate_times (x : model) (o : options) (modified : option nat) : result unit :=
  match modified with
  | None =>
      rbind (match o_selected_times o with
             | Some s => validate_selected_times s (x_time x) (x_n_times x) | None => Ok tt end)
      (fun _ => match o_media_selected_times o with
                | Some l => validate_selected_times (TBools l) [] (x_n_media_times x)
                | None => Ok tt end)
  | Some n =>
      rbind (match o_selected_times o with
             | Some (TDates (_ :: _)) => Err ValueError
             | Some (TBools ((_ :: _) as l)) =>
                 raise_if (negb (Nat.eqb (length l) n)) ValueError (Ok tt)
             | _ => Ok tt end)
      (fun _ => match o_media_selected_times o with
                | Some ((_ :: _) as l) => raise_if (negb (Nat.eqb (length l) n)) ValueError (Ok tt)
                | _ => Ok tt end)
  end.

(** tensors.py:1238-1369 [build_counterfactual_inputs].  An empty [media_selected_times] passes
    validation and then fails to broadcast against the media (unless it has no periods). *)
Definition build_counterfactual_inputs (x : model) (new_data : data) (o : options)
    (scaling_factor : R) (is_baseline : bool) : result inputs :=
  rbind (validate_baseline_numbers (o_baseline_values o)) (fun _ =>
  let modified0 := match get_modified_times x new_data with Some _ => true | None => false end in
  let base := fill_missing x new_data (o_include_non_paid o) (negb modified0) in
  let modified := get_modified_times x base in
  rbind (validate_times x o modified) (fun _ =>
  let n_media_times := match modified with Some n => n | None => x_n_media_times x end in
  let mask := match o_media_selected_times o with
              | None => repeat true n_media_times | Some l => l end in
  raise_if (negb (Nat.eqb (length mask) n_media_times)) ValueError (
  let mult := fun t => 1 + (scaling_factor - 1) * (if nth t mask true then 1 else 0) in
  rbind (match d_non_media base with
         | None => Ok None
         | Some _ =>
             match non_media_transformer x with
             | None => Err ValueError
             | Some tr =>
                 rbind (compute_non_media_baseline x (o_baseline_values o)) (fun b =>
                 Ok (Some (fun c => centering_forward tr false 0%nat c (b c))))
             end
         end) (fun baseline =>
  let scaled := scale_data_tensors x (scale_tensors_by_multiplier base mult (o_by_reach o))
                  (o_include_non_paid o) in
  let scaled1 :=
    match is_baseline, d_non_media base, baseline with
    | true, Some n, Some b =>
        mkData (d_media scaled) (d_reach scaled) (d_frequency scaled) (d_organic_media scaled)
          (d_organic_reach scaled) (d_organic_frequency scaled)
          (Some (mkT3 (geos n) (times n) (chans n) (fun _ _ c => b c)))
          (d_controls scaled) (d_revenue_per_kpi scaled)
    | _, _, _ => scaled
    end in
  package x scaled1 (o_selected_geos o) (o_selected_times o) baseline mask)))).

(** analyzer.py:1076-1168 [_incremental_outcome_impl]: before aggregation, then aggregated with
    [flexible_time_dim=True] and [has_media_dim=True]. *)
Definition incremental_values (x : model) (o : options) (i : inputs) (w : draw) : result T3 :=
  let use_kpi := resolve_use_kpi x (resolve_use_kpi x (o_use_kpi o)) in
  rbind (get_incremental_kpi x (i_data i) w (i_baseline i)) (fun y =>
  if o_inverse o then inverse_outcome x y use_kpi (d_revenue_per_kpi (i_data i)) else Ok y).
Definition incremental_outcome_impl (x : model) (o : options) (i : inputs)
    (geo_indices time_indices : option (list nat)) (w : draw) : result tensor :=
  rbind (incremental_values x o i w) (fun y =>
  filter_and_aggregate (counts x) (x_n_geos x) (x_n_times x) (of3 y) geo_indices time_indices
    (o_aggregate_geos o) (o_aggregate_times o) true true).

(** [a - b] of equally shaped tensors. *)
Definition sub_tensor (a b : tensor) : result tensor := M_Budget.zip_tensor Rminus a b.

(** analyzer.py:1356-1365: the scaling factor checks. *)
Definition validate_scaling (o : options) : result unit :=
  let b {A B} (d : {A} + {B}) := if d then true else false in
  raise_if (b (Rlt_dec (o_scaling_factor1 o) 0)) ValueError (
  raise_if (b (Rlt_dec (o_scaling_factor0 o) 0)) ValueError (
  raise_if (b (Rle_dec (o_scaling_factor1 o) (o_scaling_factor0 o))) ValueError (Ok tt))).

(** analyzer.py:1176-1441 [incremental_outcome] (the model is fitted; the national warning has
    no effect on the result).  One result per draw. *)
Definition incremental_outcome (x : model) (new_data : data) (o : options) (batch_size : Z)
    (draws : list draw) : result (list tensor) :=
  let use_kpi := resolve_use_kpi x (o_use_kpi o) in
  rbind (check_kpi_transformation (o_inverse o) use_kpi) (fun _ =>
  rbind (validate_scaling o) (fun _ =>
  rbind (build_counterfactual_inputs x new_data o (o_scaling_factor1 o) false) (fun i1 =>
  rbind (if (negb (if Req_EM_T (o_scaling_factor0 o) 0 then true else false))
            || negb (forallb (fun b => b) (i_mask i1))
         then rbind (build_counterfactual_inputs x new_data o (o_scaling_factor0 o) true)
                (fun i0 => Ok (Some i0))
         else Ok None) (fun i0 =>
  let one (w : draw) :=
    rbind (incremental_outcome_impl x o i1 (i_geo i1) (i_time i1) w) (fun a =>
    match i0 with
    | None => Ok a
    | Some i0 => rbind (incremental_outcome_impl x o i0 (i_geo i1) (i_time i1) w) (sub_tensor a)
    end) in
  run_batched batch_size (mapM one) draws)))).

(** analyzer.py:771-933 [expected_outcome].  [selected_times] etc. as for the incremental
    outcome. *)
Definition expected_outcome (x : model) (new_data : data) (geos : option (list string))
    (times : option time_sel) (aggregate_geos aggregate_times inverse use_kpi : bool)
    (batch_size : Z) (draws : list draw) : result (list tensor) :=
  let use_kpi := resolve_use_kpi x use_kpi in
  rbind (check_kpi_transformation inverse use_kpi) (fun _ =>
  raise_if (match get_modified_times x new_data with Some _ => true | None => false end) ValueError (
  let d := scale_data_tensors x (fill_missing x new_data true true) true in
  rbind (package x d geos times None []) (fun i =>
  rbind (run_batched batch_size (mapM (kpi_means x d)) draws) (fun means =>
  mapM (fun m =>
    rbind (if inverse then
             let k := mkT2 (geos2 m) (times2 m) (fun g t => kpi_inverse (kpi_tr x) g (val2 m g t)) in
             if use_kpi then Ok k
             else match d_revenue_per_kpi d with
                  | Some r =>
                      if Nat.eqb (geos2 r) (geos2 k) && Nat.eqb (times2 r) (times2 k)
                      then Ok (mkT2 (geos2 k) (times2 k) (fun g t => val2 k g t * val2 r g t))
                      else Err ValueError
                  | None => Err ValueError
                  end
           else Ok m) (fun m' =>
    filter_and_aggregate (counts x) (x_n_geos x) (x_n_times x) (of2 m') (i_geo i) (i_time i)
      aggregate_geos aggregate_times false false)) means)))).

(** tensors.py:1371-1443 [build_baseline_inputs]. *)
Definition zeros_like (y : T3) : T3 := mkT3 (geos y) (times y) (chans y) (fun _ _ _ => 0).
Definition build_baseline_data (x : model) (values : option (list baseline_value)) : result data :=
  rbind (validate_baseline_numbers values) (fun _ =>
  let o := x_data x in
  let z := option_map zeros_like in
  rbind (match d_non_media o with
         | None => Ok None
         | Some n =>
             rbind (compute_non_media_baseline x values) (fun b =>
             Ok (Some (mkT3 (geos n) (times n) (chans n)
                         (fun g _ c => b c * non_media_factor x g c))))
         end) (fun nm =>
  Ok (mkData (z (d_media o)) (z (d_reach o)) None (z (d_organic_media o)) (z (d_organic_reach o))
        None nm (d_controls o) None))).

(** analyzer.py:2185-2227 [_calculate_baseline_expected_outcome]. *)
Definition baseline_expected_outcome (x : model) (values : option (list baseline_value))
    (geos : option (list string)) (times : option time_sel)
    (aggregate_geos aggregate_times inverse use_kpi : bool) (batch_size : Z) (draws : list draw)
    : result (list tensor) :=
  rbind (build_baseline_data x values) (fun d =>
  expected_outcome x d geos times aggregate_geos aggregate_times inverse use_kpi batch_size draws).

(** analyzer.py:2229-2295 [compute_incremental_outcome_aggregate]: a last channel holding the
    total of the others.  The code resolves [use_kpi] once more first; [incremental_outcome]
    resolves it again and resolving is idempotent, so it is left out. *)
Definition with_total (y : tensor) : result tensor :=
  match rev (shape y) with
  | [] => Err ValueError
  | n :: lead =>
      Ok (mkTensor (rev lead ++ [S n])
           (fun idx => let c := last idx 0%nat in
                       if (c <? n)%nat then at_ y idx
                       else rsum n (fun c' => at_ y (removelast idx ++ [c']))))
  end.
Definition incremental_outcome_aggregate (x : model) (new_data : data) (o : options)
    (batch_size : Z) (draws : list draw) : result (list tensor) :=
  rbind (incremental_outcome x new_data o batch_size draws) (mapM with_total).
