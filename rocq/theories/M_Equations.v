(** Model of the media transformations of meridian/model/equations.py ([ModelEquations]). *)
From Coq Require Import Reals ZArith List Bool.
From Verif Require Import Lib_Sum Lib_Pow M_Base M_AdstockHill.
Import ListNotations.
Local Open Scope R_scope.

(** Saturation function names ('hill', 'none', anything else). *)
Inductive sat := Hill | NoSat | OtherSat.

(** [saturation_spec: str | Sequence[str]]. *)
Inductive sat_arg := SOne (s : sat) | SSeq (ss : list sat).

Definition valid_sat (s : sat) : bool :=
  match s with OtherSat => false | _ => true end.
Definition is_hill (s : sat) : bool :=
  match s with Hill => true | _ => false end.

(** The part of [ModelContext] read by the media transformations. *)
Record ctx := mkCtx {
  ctx_n_media_times : nat;
  ctx_n_times : nat;
  ctx_max_lag : Z;
  ctx_hill_before_adstock : bool
}.

(** equations.py:75-83 and 161-169: default of [n_times_output]. *)
Definition resolve_n_times_output (cx : ctx) (n_in : nat) (n_out : option Z) : result Z :=
  match n_out with
  | Some n => Ok n
  | None => if Nat.eqb n_in (ctx_n_media_times cx)
            then Ok (Z.of_nat (ctx_n_times cx)) else Err ValueError
  end.

(** A one-dimensional boolean tensor. *)
Record bmask := mkMask { m_len : nat; m_at : nat -> bool }.

(** equations.py:96-116 and 183-203: the boolean Hill mask over channels.  A name gives a mask
    with one entry per channel, a sequence one entry per name. *)
Definition saturation_mask (n_chan : nat) (s : sat_arg) : result bmask :=
  match s with
  | SOne x => if valid_sat x then Ok (mkMask n_chan (fun _ => is_hill x)) else Err ValueError
  | SSeq ss =>
      if forallb valid_sat ss
      then Ok (mkMask (length ss) (fun c => is_hill (nth c ss OtherSat)))
      else Err ValueError
  end.

(** [backend.where(mask, a, b)] for equally shaped [a] and [b], broadcasting [mask] against
    their last axis: an axis of length one is stretched, any other mismatch raises. *)
Definition where_chan (mask : bmask) (a b : T3) : result T3 :=
  let n := chans a in
  let pick (mc vc : nat -> nat) g t c :=
    if m_at mask (mc c) then val a g t (vc c) else val b g t (vc c) in
  if Nat.eqb (m_len mask) n then
    Ok (mkT3 (geos a) (times a) n (pick (fun c => c) (fun c => c)))
  else if Nat.eqb (m_len mask) 1 then
    Ok (mkT3 (geos a) (times a) n (pick (fun _ => 0%nat) (fun c => c)))
  else if Nat.eqb n 1 then
    Ok (mkT3 (geos a) (times a) (m_len mask) (pick (fun c => c) (fun _ => 0%nat)))
  else Err ValueError.

(** Channel parameter vectors ([alpha], [ec], [slope]) with their length. *)
Record chan_params := mkParams {
  n_par : nat;
  p_alpha : nat -> R;
  p_ec : nat -> R;
  p_slope : nat -> R
}.

(** equations.py:42-125 [adstock_hill_media]. *)
Definition adstock_hill_media (cx : ctx) (media : T3) (p : chan_params)
    (df : decay_arg) (s : sat_arg) (n_times_output : option Z) : result T3 :=
  rbind (resolve_n_times_output cx (times media) n_times_output) (fun n_out =>
  rbind (saturation_mask (chans media) s) (fun mask =>
  if ctx_hill_before_adstock cx then
    rbind (hill_forward media (n_par p) (p_ec p) (n_par p) (p_slope p)) (fun hill_out =>
    rbind (where_chan mask hill_out media) (fun selected_media =>
    adstock selected_media (n_par p) (p_alpha p) (ctx_max_lag cx) n_out df))
  else
    rbind (adstock media (n_par p) (p_alpha p) (ctx_max_lag cx) n_out df) (fun adstock_out =>
    rbind (hill_forward adstock_out (n_par p) (p_ec p) (n_par p) (p_slope p)) (fun hill_out =>
    where_chan mask hill_out adstock_out)))).

(** [reach * selected_frequency] (equally shaped tensors). *)
Definition mul3 (a b : T3) : T3 :=
  mkT3 (geos a) (times a) (chans a) (fun g t c => val a g t c * val b g t c).

(** equations.py:127-208 [adstock_hill_rf]: Hill acts on frequency only, adstock on
    reach times the saturated frequency.  The shapes of reach and frequency must agree
    (the product would raise or broadcast otherwise). *)
Definition adstock_hill_rf (cx : ctx) (reach frequency : T3) (p : chan_params)
    (df : decay_arg) (s : sat_arg) (n_times_output : option Z) : result T3 :=
  rbind (resolve_n_times_output cx (times reach) n_times_output) (fun n_out =>
  rbind (hill_forward frequency (n_par p) (p_ec p) (n_par p) (p_slope p)) (fun adj_frequency =>
  rbind (saturation_mask (chans frequency) s) (fun mask =>
  rbind (where_chan mask adj_frequency frequency) (fun selected_frequency =>
  adstock (mul3 reach selected_frequency) (n_par p) (p_alpha p) (ctx_max_lag cx) n_out df)))).
