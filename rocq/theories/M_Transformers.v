(** Model of meridian/model/transformers.py. *)
From Coq Require Import Reals ZArith List Bool.
From Verif Require Import Lib_Sum M_Base.
Import ListNotations.
Local Open Scope R_scope.

(** backend/__init__.py:240-244 [_jax_divide_no_nan] (same contract as tf.math.divide_no_nan):
    0 when the divisor is 0. *)
Definition divide_no_nan (x y : R) : R := if Req_EM_T y 0 then 0 else x / y.

(** Plain float division; [None] stands for the inf/NaN of a zero divisor. *)
Definition fdiv (x y : R) : option R := if Req_EM_T y 0 then None else Some (x / y).

(** Entries of channel [m], all geos and times ([axis=(0, 1)]). *)
Definition channel_values (x : T3) (m : nat) : list R :=
  flat_map (fun g => map (fun t => val x g t m) (seq 0 (times x))) (seq 0 (geos x)).

(** Ascending sort used by np.nanmedian / jnp.nanmedian. *)
Fixpoint insert_sorted (x : R) (l : list R) : list R :=
  match l with
  | [] => [x]
  | y :: r => if Rle_dec x y then x :: l else y :: insert_sorted x r
  end.
Definition sort_values (l : list R) : list R := fold_right insert_sorted [] l.

(** backend/__init__.py:300-313: [nanmedian] of the non-NaN entries: mean of the two middle
    order statistics; NaN ([None]) when there is no entry. *)
Definition nanmedian (l : list R) : option R :=
  match l with
  | [] => None
  | _ => let s := sort_values l in
         let n := length l in
         Some ((nth ((n - 1) / 2) s 0 + nth (n / 2) s 0) / 2)
  end.

Definition nonzero (x : R) : bool := if Req_EM_T x 0 then false else true.

(** transformers.py:46-107 [MediaTransformer]: the stored scale factors. *)
Record media_transformer := mkMediaTr {
  population_scaled_median_m : nat -> R;
  scale_factors_gm : nat -> nat -> R
}.

(** transformers.py:66-69: media divided by population, geo by geo. *)
Definition population_scaled (x : T3) (population : nat -> R) : T3 :=
  mkT3 (geos x) (times x) (chans x)
    (fun g t m => divide_no_nan (val x g t m) (population g)).

(** transformers.py:70-79: the median over the non-zero entries of one channel (zeros are
    replaced by NaN, which nanmedian skips). *)
Definition channel_median (x : T3) (population : nat -> R) (m : nat) : option R :=
  nanmedian (filter nonzero (channel_values (population_scaled x population) m)).

(** transformers.py:53-89 [MediaTransformer.__init__]. *)
Definition media_transformer_init (media : T3) (population : nat -> R) : result media_transformer :=
  if forallb (fun m => match channel_median media population m with None => false | _ => true end)
       (seq 0 (chans media))
  then let med m := match channel_median media population m with Some v => v | None => 0 end in
       Ok (mkMediaTr med (fun g m => population g * med m))
  else Err ValueError.

(** transformers.py:99-107 [forward] and [inverse], entry (g, t, m). *)
Definition media_forward (tr : media_transformer) (g m : nat) (x : R) : option R :=
  fdiv x (scale_factors_gm tr g m).
Definition media_inverse (tr : media_transformer) (g m : nat) (y : R) : R :=
  y * scale_factors_gm tr g m.

(** [reduce_mean] and [reduce_std] (population standard deviation) over geos and times. *)
Definition mean_gt (G T : nat) (x : nat -> nat -> R) : R :=
  rsum G (fun g => rsum T (fun t => x g t)) / (INR G * INR T).
Definition std_gt (G T : nat) (x : nat -> nat -> R) : R :=
  sqrt (mean_gt G T (fun g t => (x g t - mean_gt G T x) ^ 2)).

(** transformers.py:110-181 [CenteringAndScalingTransformer]. *)
Record centering_transformer := mkCentTr {
  c_means : nat -> R;
  c_stdevs : nat -> R;
  c_factors : option (nat -> nat -> R)  (* population_scaling_factors, (geo, channel) *)
}.

(** transformers.py:137-142: population for the flagged channels, one for the others. *)
Definition scaling_factors (population : nat -> R) (id : nat -> bool) (g m : nat) : R :=
  if id m then population g else 1.

(** transformers.py:119-150 [__init__]. The division by a zero population is not modelled
    here ([Rdiv]); the theorems assume non-zero populations for flagged channels. *)
Definition centering_init (x : T3) (population : nat -> R) (id : option (nat -> bool))
    : centering_transformer :=
  match id with
  | Some b =>
      let f := scaling_factors population b in
      let sc m g t := val x g t m / f g m in
      mkCentTr (fun m => mean_gt (geos x) (times x) (sc m))
               (fun m => std_gt (geos x) (times x) (sc m)) (Some f)
  | None =>
      let v m g t := val x g t m in
      mkCentTr (fun m => mean_gt (geos x) (times x) (v m))
               (fun m => std_gt (geos x) (times x) (v m)) None
  end.

(** transformers.py:152-171 [forward], entry (g, t, m). *)
Definition centering_forward (tr : centering_transformer) (apply_population_scaling : bool)
    (g m : nat) (x : R) : R :=
  let x1 := match c_factors tr with
            | Some f => if apply_population_scaling then x / f g m else x
            | None => x
            end in
  divide_no_nan (x1 - c_means tr m) (c_stdevs tr m).

(** transformers.py:173-181 [inverse], entry (g, t, m). *)
Definition centering_inverse (tr : centering_transformer) (g m : nat) (y : R) : R :=
  let s := y * c_stdevs tr m + c_means tr m in
  match c_factors tr with Some f => s * f g m | None => s end.

(** transformers.py:184-241 [KpiTransformer]. *)
Record kpi_transformer := mkKpiTr {
  k_population : nat -> R;
  k_mean : R;
  k_stdev : R
}.

(** transformers.py:191-213 [__init__]. *)
Definition kpi_init (G T : nat) (kpi : nat -> nat -> R) (population : nat -> R) : kpi_transformer :=
  let scaled g t := divide_no_nan (kpi g t) (population g) in
  mkKpiTr population (mean_gt G T scaled) (std_gt G T scaled).

(** transformers.py:227-241 [forward] and [inverse], entry (g, t). *)
Definition kpi_forward (tr : kpi_transformer) (g : nat) (x : R) : R :=
  divide_no_nan (divide_no_nan x (k_population tr g) - k_mean tr) (k_stdev tr).
Definition kpi_inverse (tr : kpi_transformer) (g : nat) (y : R) : R :=
  (y * k_stdev tr + k_mean tr) * k_population tr g.
