(** Model of how the budget optimizer turns budgets into media data: flighting tensors
    ([create_optimization_tensors]), the media data behind a spend ([_get_incremental_outcome_tensors],
    [_update_incremental_outcome_grid]) of meridian/analysis/optimizer.py, and the reach/frequency
    stabilisation of meridian/backend/__init__.py. *)
From Coq Require Import Reals QArith List Bool Arith.
From Verif Require Import Lib_Sum M_Base.
Import ListNotations.
Local Open Scope R_scope.

(** A tensor of any rank; [at_ x idx] is meaningful for [idx] within [shape x]. *)
Record tensor := mkTensor { shape : list nat; at_ : list nat -> R }.

Definition ndim (x : tensor) : nat := length (shape x).

Definition shape_eqb (a b : list nat) : bool :=
  if list_eq_dec Nat.eq_dec a b then true else false.

(** [backend.divide_no_nan]: 0 where the denominator is 0. *)
Definition divide_no_nan (x y : R) : R := if Req_EM_T y 0 then 0 else x / y.

(** Entrywise operation on two tensors of the same shape; other shapes raise (the calls below
    always combine two tensors of shape (n_geos, n_times, n_channels), or raise). *)
Definition zip_tensor (f : R -> R -> R) (x y : tensor) : result tensor :=
  if shape_eqb (shape x) (shape y)
  then Ok (mkTensor (shape x) (fun idx => f (at_ x idx) (at_ y idx)))
  else Err ValueError.

(** optimizer.py:3239-3262 [_expand_tensor]. *)
Definition expand_tensor (x : tensor) (required : list nat) : result tensor :=
  if shape_eqb (shape x) required then Ok x
  else if Nat.eqb (ndim x) 0 then Ok (mkTensor required (fun _ => at_ x []))
  else
    let n_tile := (length required - ndim x)%nat in
    if Nat.leb (ndim x) (length required) && shape_eqb (shape x) (skipn n_tile required)
    then Ok (mkTensor required (fun idx => at_ x (skipn n_tile idx)))
    else Err ValueError.

(** optimizer.py:2947-2979 [_allocate_tensor_by_population]; [n_geos] and [population] are the
    input data's.  A zero total population (float division by zero) is not modelled: the
    theorems assume a positive total. *)
Definition allocate_by_population (n_geos : nat) (population : nat -> R)
    (required_ndim : nat) (x : tensor) : result tensor :=
  if Nat.eqb (ndim x) required_ndim then Ok x
  else if negb (Nat.eqb (S (ndim x)) required_ndim) then Err ValueError
  else Ok (mkTensor (n_geos :: shape x)
         (fun idx => match idx with
                     | g :: rest => at_ x rest * (population g / rsum n_geos population)
                     | [] => 0
                     end)).

(** The arguments of [create_optimization_tensors] (optimizer.py:1813-1828), without [time],
    of which only the length matters. *)
Record flight_args := mkFlight {
  a_cpmu : option tensor;
  a_cprf : option tensor;
  a_media : option tensor;
  a_rf_impressions : option tensor;
  a_frequency : option tensor;
  a_media_spend : option tensor;
  a_rf_spend : option tensor;
  a_revenue_per_kpi : option tensor;
  a_use_optimal_frequency : bool
}.

Definition given {A} (x : option A) : bool := match x with Some _ => true | None => false end.

(** optimizer.py:2907-2933: geo and time sizes read off the given tensors. *)
Definition geo_sizes (x : option tensor) : list nat :=
  match x with
  | Some t => match shape t with [g; _; _] => [g] | _ => [] end
  | None => []
  end.
Definition time_sizes (x : option tensor) : list nat :=
  match x with
  | Some t => match shape t with [_; n; _] => [n] | [n; _] => [n] | _ => [] end
  | None => []
  end.
Definition rpk_geo_sizes (x : option tensor) : list nat :=
  match x with Some t => match shape t with [g; _] => [g] | _ => [] end | None => [] end.
Definition rpk_time_sizes (x : option tensor) : list nat :=
  match x with
  | Some t => match shape t with [_; n] => [n] | [n] => [n] | _ => [] end
  | None => []
  end.

(** optimizer.py:2855-2945 [_validate_optimization_tensors] (every failure is a ValueError). *)
Definition validate_optimization_tensors (n_geos n_times : nat) (a : flight_args) : result unit :=
  raise_if ((given (a_media a) || given (a_media_spend a)) && negb (given (a_cpmu a))) ValueError (
  raise_if (negb (given (a_media a)) && negb (given (a_media_spend a)) && given (a_cpmu a)) ValueError (
  raise_if ((given (a_rf_impressions a) || given (a_rf_spend a)) && negb (given (a_cprf a))) ValueError (
  raise_if (negb (given (a_rf_impressions a)) && negb (given (a_rf_spend a)) && given (a_cprf a)) ValueError (
  raise_if (given (a_media a) && given (a_media_spend a)) ValueError (
  raise_if (given (a_rf_impressions a) && given (a_rf_spend a)) ValueError (
  raise_if (a_use_optimal_frequency a && given (a_frequency a)) ValueError (
  raise_if (negb (a_use_optimal_frequency a) && negb (given (a_frequency a))
            && (given (a_rf_impressions a) || given (a_rf_spend a))) ValueError (
  let ts := [a_cpmu a; a_cprf a; a_media a; a_rf_impressions a; a_frequency a;
             a_media_spend a; a_rf_spend a] in
  raise_if (existsb (fun n => negb (Nat.eqb n n_geos))
              (flat_map geo_sizes ts ++ rpk_geo_sizes (a_revenue_per_kpi a))) ValueError (
  raise_if (existsb (fun n => negb (Nat.eqb n n_times))
              (flat_map time_sizes ts ++ rpk_time_sizes (a_revenue_per_kpi a))) ValueError (
  Ok tt)))))))))).

(** The [DataTensors] returned by [create_optimization_tensors] (optimizer.py:1908-1948). *)
Record flight := mkFlightOut {
  f_media : option tensor;
  f_media_spend : option tensor;
  f_reach : option tensor;
  f_frequency : option tensor;
  f_rf_spend : option tensor;
  f_revenue_per_kpi : option tensor
}.

(** [tensor.shape[-1]]. *)
Definition last_dim (x : tensor) : result nat :=
  match rev (shape x) with n :: _ => Ok n | [] => Err IndexError end.

(** An argument that validation has shown to be present ([None.shape] would raise). *)
Definition require {A} (x : option A) : result A :=
  match x with Some a => Ok a | None => Err AttributeError end.

Section Create.
  Variables (n_geos n_times : nat) (population : nat -> R).

  Let alloc := allocate_by_population n_geos population 3.

  (** optimizer.py:1909-1912, units given: spend = units * cost per unit. *)
  Definition media_from_units (cpmu : option tensor) (media : tensor) : result (tensor * tensor) :=
    rbind (require cpmu) (fun cpmu =>
    rbind (last_dim media) (fun n =>
    rbind (expand_tensor cpmu [n_geos; n_times; n]) (fun cpm =>
    rbind (alloc media) (fun m =>
    rbind (zip_tensor Rmult m cpm) (fun s => Ok (m, s)))))).

  (** optimizer.py:1913-1918, spend given: units = spend / cost per unit.  A plain division: a
      zero cost gives inf or NaN, which is not modelled (the theorems assume non-zero costs). *)
  Definition media_from_spend (cpmu : option tensor) (spend : tensor) : result (tensor * tensor) :=
    rbind (require cpmu) (fun cpmu =>
    rbind (last_dim spend) (fun n =>
    rbind (expand_tensor cpmu [n_geos; n_times; n]) (fun cpm =>
    rbind (alloc spend) (fun s =>
    rbind (zip_tensor Rdiv s cpm) (fun m => Ok (m, s)))))).

  (** optimizer.py:1926-1928 / 1937-1939: frequency one, or the expanded argument. *)
  Definition flight_frequency (use_opt : bool) (frequency : option tensor) (impressions : tensor)
      (required : list nat) : result tensor :=
    rbind (if use_opt then Ok (mkTensor (shape impressions) (fun _ => 1)) else require frequency)
      (fun f => expand_tensor f required).

  (** optimizer.py:1919-1931: (reach, frequency, rf_spend) from impressions. *)
  Definition rf_from_impressions (cprf frequency : option tensor) (use_opt : bool) (impr : tensor)
      : result (tensor * tensor * tensor) :=
    rbind (require cprf) (fun cprf =>
    rbind (last_dim impr) (fun n =>
    rbind (expand_tensor cprf [n_geos; n_times; n]) (fun cpr =>
    rbind (alloc impr) (fun i =>
    rbind (zip_tensor Rmult i cpr) (fun s =>
    rbind (flight_frequency use_opt frequency i [n_geos; n_times; n]) (fun f =>
    rbind (zip_tensor divide_no_nan i f) (fun r => Ok (r, f, s)))))))).

  (** optimizer.py:1932-1942: the same from spend. *)
  Definition rf_from_spend (cprf frequency : option tensor) (use_opt : bool) (spend : tensor)
      : result (tensor * tensor * tensor) :=
    rbind (require cprf) (fun cprf =>
    rbind (last_dim spend) (fun n =>
    rbind (expand_tensor cprf [n_geos; n_times; n]) (fun cpr =>
    rbind (alloc spend) (fun s =>
    rbind (zip_tensor divide_no_nan s cpr) (fun i =>
    rbind (flight_frequency use_opt frequency i [n_geos; n_times; n]) (fun f =>
    rbind (zip_tensor divide_no_nan i f) (fun r => Ok (r, f, s)))))))).

  (** optimizer.py:1813-1948 [create_optimization_tensors].  [media] and [media_spend] (and
      [rf_impressions] and [rf_spend]) exclude each other after validation, so that the
      successive [if]s of the code are a case distinction. *)
  Definition create_optimization_tensors (a : flight_args) : result flight :=
    rbind (validate_optimization_tensors n_geos n_times a) (fun _ =>
    rbind (match a_media a, a_media_spend a with
           | Some m, _ => rbind (media_from_units (a_cpmu a) m) (fun p => Ok (Some p))
           | None, Some s => rbind (media_from_spend (a_cpmu a) s) (fun p => Ok (Some p))
           | None, None => Ok None
           end) (fun med =>
    rbind (match a_rf_impressions a, a_rf_spend a with
           | Some i, _ => rbind (rf_from_impressions (a_cprf a) (a_frequency a)
                                   (a_use_optimal_frequency a) i) (fun p => Ok (Some p))
           | None, Some s => rbind (rf_from_spend (a_cprf a) (a_frequency a)
                                   (a_use_optimal_frequency a) s) (fun p => Ok (Some p))
           | None, None => Ok None
           end) (fun rf =>
    rbind (match a_revenue_per_kpi a with
           | Some r => rbind (expand_tensor r [n_geos; n_times]) (fun p => Ok (Some p))
           | None => Ok None
           end) (fun rpk =>
    Ok (mkFlightOut (option_map fst med) (option_map snd med)
          (option_map (fun p => fst (fst p)) rf) (option_map (fun p => snd (fst p)) rf)
          (option_map snd rf) rpk))))).
End Create.

(** optimizer.py:2418-2425: [divide_no_nan(spend, hist_spend) * media], per channel. *)
Definition scaled_media (spend hist : nat -> R) (media : T3) : T3 :=
  mkT3 (geos media) (times media) (chans media)
    (fun g t c => divide_no_nan (spend c) (hist c) * val media g t c).

(** optimizer.py:2428-2443 (reach, frequency) of the reported budget data, with [spend] and
    [hist] already cut to the reach/frequency channels. [opt] is the optimal frequency. *)
Definition dataset_rf (spend hist : nat -> R) (opt : option (nat -> R)) (reach frequency : T3)
    : T3 * T3 :=
  let impr g t c := divide_no_nan (spend c) (hist c) * (val reach g t c * val frequency g t c) in
  let freq g t c := match opt with Some o => o c | None => val frequency g t c end in
  let new_reach g t c := divide_no_nan (impr g t c) (freq g t c) in
  (mkT3 (geos reach) (times reach) (chans reach) new_reach,
   mkT3 (geos reach) (times reach) (chans reach)
     (fun g t c => divide_no_nan (impr g t c) (new_reach g t c))).

(** optimizer.py:2687-2705 (reach, frequency) of one row of the optimization grid; the
    multiplier is [divide_no_nan(spend_grid, spend)] (2810-2815), for a row whose spend is not
    NaN. *)
Definition grid_rf (spend hist : nat -> R) (opt : option (nat -> R)) (reach frequency : T3)
    : T3 * T3 :=
  let mult c := divide_no_nan (spend c) (hist c) in
  match opt with
  | Some o =>
      (mkT3 (geos reach) (times reach) (chans reach)
         (fun g t c => divide_no_nan (mult c * val reach g t c * val frequency g t c) (1 * o c)),
       mkT3 (geos frequency) (times frequency) (chans frequency) (fun _ _ c => 1 * o c))
  | None =>
      (mkT3 (geos reach) (times reach) (chans reach) (fun g t c => mult c * val reach g t c),
       frequency)
  end.

(** Number entries of a column that are not NaN. *)
Fixpoint valid_count (l : list (option Q)) : nat :=
  match l with
  | [] => O
  | Some _ :: r => S (valid_count r)
  | None :: r => valid_count r
  end.

(** NumPy arithmetic on values that may be NaN. *)
Definition nmul (a b : option Q) : option Q :=
  match a, b with Some x, Some y => Some (x * y)%Q | _, _ => None end.

(** [np.divide(o, s, out=zeros, where=(s != 0))]; NaN differs from 0. *)
Definition safe_ratio (o s : option Q) : option Q :=
  match s with
  | Some y => if Qeq_bool y 0 then Some 0%Q
              else match o with Some x => Some (x / y)%Q | None => None end
  | None => None
  end.

(** [np.nanmax] of one column (NaN for an all-NaN column). *)
Fixpoint nanmax (l : list (option Q)) : option Q :=
  match l with
  | [] => None
  | None :: r => nanmax r
  | Some x :: r =>
      match nanmax r with
      | None => Some x
      | Some m => if Qle_bool m x then Some x else Some m
      end
  end.

(** Entry [valid_count - 1] of a column; index -1 (no valid entry) is its last entry. *)
Definition ref_index (l : list (option Q)) : nat :=
  match valid_count l with O => (length l - 1)%nat | S k => k end.

(** backend/__init__.py:138-163 [_jax_stabilize_rf_roi_grid], one reach/frequency column. *)
Definition jax_stabilize (spend outcome : list (option Q)) : list (option Q) :=
  let i := ref_index spend in
  let roi := safe_ratio (nth i outcome None) (nth i spend None) in
  map (nmul roi) spend.

(** backend/__init__.py:166-185 [_tf_stabilize_rf_roi_grid], one reach/frequency column. *)
Definition tf_stabilize (spend outcome : list (option Q)) : list (option Q) :=
  map (nmul (safe_ratio (nanmax outcome) (nanmax spend))) spend.
