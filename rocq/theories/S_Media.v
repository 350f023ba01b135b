(** Specification of the documented media transformation of one channel. *)
From Coq Require Import Reals ZArith Arith List.
From Verif Require Import Lib_Sum Lib_Pow M_Base M_AdstockHill M_Equations S_Adstock.
Import ListNotations.
Local Open Scope R_scope.

(** Hill curve of the Meridian documentation: [1 / (1 + (x/ec)^(-slope))], 0 at 0. *)
Definition documented_hill (ec slope x : R) : R :=
  if Req_EM_T x 0 then 0 else 1 / (1 + Rpower (x / ec) (- slope)).

(** Saturation of one value under the user's choice for the channel. *)
Definition saturate (s : sat) (ec slope x : R) : R :=
  match s with Hill => documented_hill ec slope x | _ => x end.

(** Adstock then saturation (default), or saturation then adstock. *)
Definition media_response (hill_first : bool) (s : sat) (ec slope : R)
    (W : nat) (w x : nat -> R) (t : nat) : R :=
  if hill_first
  then lagged_average W w (fun u => saturate s ec slope (x u)) t
  else saturate s ec slope (lagged_average W w x t).

(** The saturation function the user assigned to channel [c] of [n]. *)
Definition assigned_sat (sa : sat_arg) (n c : nat) : option sat :=
  match sa with
  | SOne s => Some s
  | SSeq ss =>
      if Nat.eqb (length ss) n then nth_error ss c
      else match ss with [s] => Some s | _ => None end
  end.

Definition sat_ok (sa : sat_arg) (n : nat) : Prop :=
  match sa with
  | SOne s => s <> OtherSat
  | SSeq ss => (length ss = n \/ length ss = 1%nat) /\ Forall (fun s => s <> OtherSat) ss
  end.

(** Parameters in their documented domains. *)
Definition params_ok (p : chan_params) : Prop :=
  forall c, (c < n_par p)%nat ->
    0 <= p_alpha p c <= 1 /\ 0 < p_ec p c /\ 0 < p_slope p c.

(** Valid arguments for the transformation of non-negative media, and of reach/frequency. *)
Definition media_args_ok (cx : ctx) (media : T3) (p : chan_params) (df : decay_arg)
    (sa : sat_arg) (n_out : Z) : Prop :=
  (0 <= ctx_max_lag cx)%Z /\ (1 <= n_out <= Z.of_nat (times media))%Z /\
  n_par p = chans media /\ params_ok p /\ decay_ok df (chans media) /\ sat_ok sa (chans media) /\
  (forall g t c, (t < times media)%nat -> (c < chans media)%nat -> 0 <= val media g t c).

Definition rf_args_ok (cx : ctx) (reach freq : T3) (p : chan_params) (df : decay_arg)
    (sa : sat_arg) (n_out : Z) : Prop :=
  (0 <= ctx_max_lag cx)%Z /\ (1 <= n_out <= Z.of_nat (times reach))%Z /\
  same_shape freq reach /\
  n_par p = chans reach /\ params_ok p /\ decay_ok df (chans reach) /\ sat_ok sa (chans reach) /\
  (forall g t c, (t < times reach)%nat -> (c < chans reach)%nat -> 0 <= val freq g t c).

