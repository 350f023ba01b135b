(** Model of meridian/model/model.py [posterior_thinning] and [restore_full_posterior], with what
    [sample_posterior] and [review] do to the state they share. *)
From Coq Require Import Reals ZArith String List Bool Arith.
From Verif Require Import M_Base.
Import ListNotations.
Local Open Scope R_scope.
Local Open Scope list_scope.

(** [np.floor] and [np.ceil]. *)
Definition floorR (r : R) : Z := Int_part r.
Definition ceilR (r : R) : Z := (- Int_part (- r))%Z.

(** model.py:110-121 [_systematic_draw_indices].  [u] is what the generator returns for this
    chain, as a fraction of the step: [rng.uniform(0, step)] is [u * step].  Floats are exact
    reals. *)
Definition systematic_draw_indices (n_original n_selected : nat) (u : R) : list nat :=
  let step := INR n_original / INR n_selected in
  let offset := u * step in
  map (fun i => Z.to_nat (Z.min (floorR (offset + step * INR i)) (Z.of_nat n_original - 1)))
    (seq 0 n_selected).

Inductive seed := SInt (z : Z) | SSeq (l : list Z).

(** The attributes of a dataset: those thinning sets, and the others. *)
Record attrs := mkAttrs {
  a_is_thinned : bool;
  a_rate : option R;
  a_chain_count : option nat;
  a_draw_count : option nat;
  a_selected_count : option nat;
  a_seed : option seed;
  a_other : list (string * string)
}.

(** A dataset of draws: sizes of the dimensions chain and draw ([None]: no such dimension), the
    labels of the draws, and the value of a variable in a chain, at a draw, at a position of its
    other dimensions. *)
Record dataset := mkDs {
  ds_chains : option nat;
  ds_draws : option nat;
  ds_labels : list nat;
  ds_val : string -> nat -> nat -> list nat -> R;
  ds_attrs : attrs
}.

(** The state of a model: [inference_data.posterior], [_full_posterior], and the posterior
    [health_summary] is about. *)
Record state := mkState {
  s_posterior : option dataset;
  s_full : option dataset;
  s_health : option dataset
}.

Inductive method := Systematic | OtherMethod.
Record thin_args := mkThin {
  t_rate : option R;
  t_n_draws : option Z;
  t_method : method;
  t_seed : option seed;
  t_preserve : bool
}.

Inductive outcome (A : Type) := Done (a : A) | NotFitted | Refused.
Arguments Done {A}. Arguments NotFitted {A}. Arguments Refused {A}.

Definition b_of {A B : Prop} (d : {A} + {B}) : bool := if d then true else false.

(** model.py:1314-1324: the number of draws to keep in each chain ([None]: ValueError). *)
Definition n_selected_draws (n_original : nat) (rate : option R) (n_draws : option Z) : option nat :=
  match rate with
  | Some r =>
      if b_of (Rle_dec r 0) || b_of (Rlt_dec 1 r) then None
      else Some (Z.to_nat (Z.max 1 (ceilR (INR n_original * r))))
  | None =>
      match n_draws with
      | Some n => if (n <? 1)%Z || (Z.of_nat n_original <? n)%Z then None else Some (Z.to_nat n)
      | None => None
      end
  end.

(** model.py:1343-1348: [posterior.isel(draw=indexer).assign_coords(draw=np.arange(n))]: the
    indexer has the dimensions chain and draw, so every chain is indexed with its own row. *)
Definition thinned_values (p : dataset) (index : nat -> list nat) (n : nat) (a : attrs) : dataset :=
  mkDs (ds_chains p) (Some n) (seq 0 n)
    (fun v c k rest => ds_val p v c (nth k (index c) 0%nat) rest) a.

(** model.py:1250-1370 [posterior_thinning].  [u c] is what the generator made from the seed
    returns for chain [c], as a fraction of the step. *)
Definition posterior_thinning (s : state) (t : thin_args) (u : nat -> R) : outcome (dataset * state) :=
  match s_posterior s with
  | None => NotFitted
  | Some p =>
      if Bool.eqb (match t_rate t with None => true | _ => false end)
                  (match t_n_draws t with None => true | _ => false end) then Refused
      else match t_method t with
      | OtherMethod => Refused
      | Systematic =>
          if a_is_thinned (ds_attrs p) then Refused
          else match ds_chains p, ds_draws p with
          | Some n_chains, Some n_original =>
              match n_selected_draws n_original (t_rate t) (t_n_draws t) with
              | None => Refused
              | Some n =>
                  if Nat.eqb n n_original then Done (p, s)
                  else
                    let full := match s_full s with
                                | None => if t_preserve t then Some p else None
                                | f => f
                                end in
                    let index := fun c => systematic_draw_indices n_original n (u c) in
                    let a := mkAttrs true
                               (Some (match t_rate t with Some r => r | None => INR n / INR n_original end))
                               (Some n_chains) (Some n_original) (Some n)
                               (match t_seed t with Some z => Some z | None => a_seed (ds_attrs p) end)
                               (a_other (ds_attrs p)) in
                    let p' := thinned_values p index n a in
                    Done (p', mkState (Some p') full (s_health s))
              end
          | _, _ => Refused
          end
      end
  end.

(** model.py:1372-1381 [restore_full_posterior]. *)
Definition restore_full_posterior (s : state) : outcome (dataset * state) :=
  match s_full s with
  | None => Refused
  | Some p => Done (p, mkState (Some p) None (s_health s))
  end.

(** model.py:1073-1173 [sample_posterior], what it does to this state: the new posterior
    replaces the old ([extend] with [join="right"]); nothing else is touched. *)
Definition sample_posterior (s : state) (p : dataset) : state :=
  mkState (Some p) (s_full s) (s_health s).
(** model.py:1175-1206 [review], what it does to this state. *)
Definition review (s : state) : outcome state :=
  match s_posterior s with
  | None => NotFitted
  | Some p => Done (mkState (Some p) (s_full s) (Some p))
  end.

(** A call, and what becomes of the state: a refused call leaves it alone. *)
Inductive call := CThin (t : thin_args) (u : nat -> R) | CRestore | CSample (p : dataset) | CReview.
Definition run (s : state) (c : call) : state :=
  match c with
  | CThin t u => match posterior_thinning s t u with Done (_, s') => s' | _ => s end
  | CRestore => match restore_full_posterior s with Done (_, s') => s' | _ => s end
  | CSample p => sample_posterior s p
  | CReview => match review s with Done s' => s' | _ => s end
  end.
