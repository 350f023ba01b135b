(** Model of meridian/model/adstock_hill.py and of the adstock kernels of
    meridian/backend/__init__.py.

    A tensor carries one MCMC draw: the optional leading batch dimensions of [media] and
    [alpha] are dropped (the code is pointwise in them).  Floats are exact reals. *)
From Coq Require Import Reals ZArith Lia List Bool.
From Verif Require Import Lib_Sum Lib_Pow M_Base.
Import ListNotations.
Local Open Scope R_scope.

(** constants.py:589-592: decay function names; [OtherDecay] is any other string. *)
Inductive decay := Geometric | Binomial | OtherDecay.

(** The [decay_functions: str | Sequence[str]] argument. *)
Inductive decay_arg := DOne (d : decay) | DSeq (ds : list decay).

Definition is_binomial (d : decay) : bool :=
  match d with Binomial => true | _ => false end.

(** adstock_hill.py:77-90 [AdstockDecaySpec.__post_init__] / [_validate_adstock_decay_function]
    (93-99): every named decay function must be known. *)
Definition known_decay (d : decay) : bool :=
  match d with OtherDecay => false | _ => true end.

Definition validate_decay_arg (a : decay_arg) : result unit :=
  match a with
  | DOne d => if known_decay d then Ok tt else Err ValueError
  | DSeq ds => if forallb known_decay ds then Ok tt else Err ValueError
  end.

(** adstock_hill.py:297-301 [_map_alpha_for_binomial_decay]: [1/x - 1]; at [x = 0] the
    float result is +inf, which is represented by [None]. *)
Definition map_alpha_for_binomial_decay (x : R) : option R :=
  if Req_EM_T x 0 then None else Some (1 / x - 1).

(** [base ** e] for [base] in [0,1] and an exponent that may be +inf:
    [1 ** inf = 1], [b ** inf = 0] for [0 <= b < 1]. *)
Definition pow_ext (base : R) (e : option R) : R :=
  match e with
  | Some s => rpow base s
  | None => if Req_EM_T base 1 then 1 else 0
  end.

(** adstock_hill.py:167-205 [_compute_single_decay_function_weights] with [normalize=False],
    for one channel; [l] is one entry of [l_range]. [OtherDecay] raises before this point
    (handled in [single_weights]). *)
Definition raw_weight (d : decay) (alpha : R) (window_size : nat) (l : nat) : R :=
  match d with
  | Geometric => rpow alpha (INR l)
  | Binomial =>
      pow_ext (1 - INR l / INR window_size) (map_alpha_for_binomial_decay alpha)
  | OtherDecay => 0
  end.

(** adstock_hill.py:284 [l_range = arange(window_size - 1, -1, -1)]: entry [i]. *)
Definition l_range (window_size i : nat) : nat := (window_size - 1 - i)%nat.

(** adstock_hill.py:167-205 with [normalize=True]: weight at position [i] of [l_range] for
    one channel. *)
Definition single_weight (d : decay) (alpha : R) (window_size i : nat) : R :=
  raw_weight d alpha window_size (l_range window_size i) /
  rsum window_size (fun j => raw_weight d alpha window_size (l_range window_size j)).

(** adstock_hill.py:102-164 [compute_decay_weights] (normalize=True): a (channel, lag
    position) matrix.  A sequence of length [n_alpha] is applied channelwise; a sequence of
    length one broadcasts (the mask is reshaped to (-1, 1)); other lengths raise. Note that
    in a sequence every name that is not 'binomial' selects the geometric weights. *)
Definition compute_decay_weights (n_alpha : nat) (alpha : nat -> R) (window_size : nat)
    (df : decay_arg) : result (nat -> nat -> R) :=
  match df with
  | DOne d =>
      match d with
      | OtherDecay => Err ValueError
      | _ => Ok (fun c i => single_weight d (alpha c) window_size i)
      end
  | DSeq ds =>
      let w := fun (mask : nat -> bool) c i =>
        if mask c then single_weight Binomial (alpha c) window_size i
        else single_weight Geometric (alpha c) window_size i in
      if Nat.eqb (length ds) n_alpha
      then Ok (w (fun c => is_binomial (nth c ds OtherDecay)))
      else match ds with
           | [d] => Ok (w (fun _ => is_binomial d))
           | _ => Err ValueError
           end
  end.

(** [media[..., -n:, :]] for [n <= times]. *)
Definition take_last (n : nat) (x : T3) : T3 :=
  mkT3 (geos x) n (chans x) (fun g t c => val x g (times x - n + t)%nat c).

(** [concatenate([zeros(..., p, ...), media], axis=-2)]. *)
Definition pad_left (p : nat) (x : T3) : T3 :=
  mkT3 (geos x) (p + times x) (chans x)
    (fun g t c => if Nat.ltb t p then 0 else val x g (t - p)%nat c).

(** backend/__init__.py:1217-1250 [_tf_adstock_process] (and the textually equal
    [_jax_adstock_process_cpu], 1021-1045): stack of [window_size] slices
    [media[..., i : i + n_times_output, :]] contracted with the weights. Stacking fails if a
    slice is shorter than the others, i.e. if the media is too short. *)
Definition adstock_process_window (media : T3) (window_size : nat)
    (weights : nat -> nat -> R) (n_times_output : nat) : result T3 :=
  if Nat.leb (window_size - 1 + n_times_output) (times media) then
    Ok (mkT3 (geos media) n_times_output (chans media)
         (fun g t c =>
            rsum window_size (fun w => weights c w * val media g (w + t)%nat c)))
  else Err ValueError.

(** backend/__init__.py:949-1019 [_jax_adstock_process_conv]: (geo, channel) pairs are
    flattened to [geo * n_channels + channel] conv channels, each convolved (VALID
    cross-correlation, one feature group per channel) with its own kernel; the output is cut
    to the first [n_times_output] periods. *)
Definition conv_flat_media (media : T3) (ch t : nat) : R :=
  val media (ch / chans media) t (ch mod chans media).
Definition conv_flat_kernel (media : T3) (weights : nat -> nat -> R) (ch w : nat) : R :=
  weights (ch mod chans media) w.
Definition conv_valid (media : T3) (window_size : nat) (weights : nat -> nat -> R)
    (ch t : nat) : R :=
  rsum window_size (fun w => conv_flat_media media ch (t + w)%nat * conv_flat_kernel media weights ch w).
Definition adstock_process_conv (media : T3) (window_size : nat)
    (weights : nat -> nat -> R) (n_times_output : nat) : result T3 :=
  if Nat.leb window_size (times media) then
    let t_out := (times media - window_size + 1)%nat in
    Ok (mkT3 (geos media) (Nat.min n_times_output t_out) (chans media)
         (fun g t c => conv_valid media window_size weights (g * chans media + c)%nat t))
  else Err ValueError.

(** adstock_hill.py:208-234 [_validate_arguments] (batch-dimension check dropped). *)
Definition validate_arguments (media : T3) (n_alpha : nat) (max_lag n_times_output : Z)
    : bool :=
  negb (Z.gtb n_times_output (Z.of_nat (times media)))
  && Nat.eqb (chans media) n_alpha
  && negb (Z.leb n_times_output 0)
  && negb (Z.ltb max_lag 0).

(** [backend.adstock_process]: bound per backend, backend/__init__.py (TF: 1217-1250; JAX:
    [_jax_adstock_process], 1047-1054, CPU windowed kernel or convolution). *)
Definition kernel := T3 -> nat -> (nat -> nat -> R) -> nat -> result T3.

(** adstock_hill.py:237-294 [_adstock], for a given backend kernel. *)
Definition adstock_with (adstock_process : kernel) (media : T3) (n_alpha : nat) (alpha : nat -> R)
    (max_lag n_times_output : Z) (df : decay_arg) : result T3 :=
  if validate_arguments media n_alpha max_lag n_times_output then
    let n_media_times := times media in
    let n_out := Z.to_nat n_times_output in
    let window_size := Nat.min (Z.to_nat max_lag + 1) n_media_times in
    let required := (n_out + window_size - 1)%nat in
    let media1 := if Nat.ltb required n_media_times
                  then take_last required media else media in
    let media2 := if Nat.ltb n_media_times required
                  then pad_left (required - n_media_times) media1 else media1 in
    rbind (compute_decay_weights n_alpha alpha window_size df) (fun weights =>
    adstock_process media2 window_size weights n_out)
  else Err ValueError.

(** [_adstock] with the windowed kernel (TensorFlow, JAX on CPU). *)
Definition adstock := adstock_with adstock_process_window.

(** adstock_hill.py:304-328 [_hill]: [t1 / (t1 + t2)], [t1 = media ** slope],
    [t2 = ec ** slope]; one entry. *)
Definition hill (ec slope x : R) : R :=
  rpow x slope / (rpow x slope + rpow ec slope).

(** adstock_hill.py:304-328 on a tensor, with the channel-count checks ([ec] and [slope] of
    equal length, equal to the number of media channels). *)
Definition hill_forward (media : T3) (n_ec : nat) (ec : nat -> R) (n_slope : nat)
    (slope : nat -> R) : result T3 :=
  if negb (Nat.eqb n_slope n_ec) then Err ValueError
  else if negb (Nat.eqb (chans media) n_slope) then Err ValueError
  else Ok (mkT3 (geos media) (times media) (chans media)
            (fun g t c => hill (ec c) (slope c) (val media g t c))).

(** adstock_hill.py:442-483 [transform_non_negative_reals_distribution]: the bijector
    Chain([Reciprocal, Shift(1)]) applied to a sample. *)
Definition unit_interval_map (x : R) : R := 1 / (1 + x).
