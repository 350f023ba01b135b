(** Model of meridian/model/prior_distribution.py [IndependentMultivariateDistribution]: one
    distribution made of several.

    A component is a TFP distribution with a scalar event, given by its functions on the elements of
    its batch.  Its draws are a function of the seed: the handlers of random state
    (backend/__init__.py:1423-1560) give stateless seeds.  One draw is modelled, not [n] of them. *)
From Coq Require Import Reals List Bool Arith.
From Verif Require Import Lib_Sum M_Base.
Import ListNotations.
Local Open Scope R_scope.
Local Open Scope nat_scope.
Local Open Scope list_scope.

Section Independent.
Variable seed : Type.

Record comp := mkComp {
  c_deterministic : bool;              (* isinstance(dist, Deterministic) *)
  c_shape : list nat;                  (* batch shape *)
  c_dtype : nat;
  c_sample : seed -> nat -> R;         (* element of a draw *)
  c_quantile : nat -> R -> R;
  c_log_prob : nat -> R -> R;
  c_log_cdf : nat -> R -> R;
  c_forward : nat -> R -> R;           (* the default bijector to the event space *)
  c_mean : nat -> R;
  c_variance : nat -> R }.

(** An [IndependentMultivariateDistribution]: [_distributions], [_distribution_batch_shapes], dtype. *)
Record independent := mkInd { d_comps : list comp; d_sizes : list nat; d_dtype : nat }.

(** prior_distribution.py:1057-1062 and 1204-1221 [_get_distribution_batch_shapes]: scalar
    distributions become batches of one; more than one dimension is an error. *)
Fixpoint batch_sizes (l : list comp) : result (list nat) :=
  match l with
  | [] => Ok []
  | c :: l' =>
      match c_shape c with
      | [] => rbind (batch_sizes l') (fun r => Ok (1 :: r))
      | [n] => rbind (batch_sizes l') (fun r => Ok (n :: r))
      | _ => Err ValueError
      end
  end.

(** prior_distribution.py:1105-1112 [_verify_dtypes]. *)
Definition verify_dtypes (l : list comp) : result nat :=
  match l with
  | [] => Err ValueError
  | c :: l' => raise_if (negb (forallb (fun c' => c_dtype c' =? c_dtype c) l')) ValueError (Ok (c_dtype c))
  end.

(** prior_distribution.py:1020-1082 [__init__], 1088-1103 [_verify_distributions].  (Without any
    distributions the concatenation of shapes fails; the error is taken to be a ValueError.) *)
Definition new (l : list comp) : result independent :=
  raise_if (existsb c_deterministic l) ValueError (
  rbind (batch_sizes l) (fun sizes =>
  rbind (verify_dtypes l) (fun dtype => Ok (mkInd l sizes dtype)))).

(** prior_distribution.py:1114-1125 [_event_shape] (scalar), [_batch_shape]. *)
Definition total (d : independent) : nat := fold_right plus 0 (d_sizes d).

(** Values passed to the methods: numbers or vectors. *)
Inductive arg := Scalar (x : R) | Vector (l : list R).

(** prior_distribution.py:1197-1202 [_broadcast_value] to the batch shape [total d]. *)
Definition broadcast_value (d : independent) (v : arg) : result (list R) :=
  match v with
  | Scalar x => Ok (repeat x (total d))
  | Vector l =>
      if length l =? total d then Ok l
      else match l with
           | [x] => Ok (repeat x (total d))
           | _ => if total d =? 1 then Ok l else Err ValueError
           end
  end.

(** [backend.split(value, sizes, axis=-1)]. *)
Fixpoint split (sizes : list nat) (l : list R) : result (list (list R)) :=
  match sizes with
  | [] => match l with [] => Ok [] | _ => Err ValueError end
  | n :: sizes' =>
      raise_if (length l <? n) ValueError (
      rbind (split sizes' (skipn n l)) (fun r => Ok (firstn n l :: r)))
  end.

(** A method of a component on a vector: elementwise. *)
Fixpoint elementwise (f : nat -> R -> R) (i : nat) (l : list R) : list R :=
  match l with [] => [] | x :: l' => f i x :: elementwise f (S i) l' end.

(** prior_distribution.py:1140-1166 [_quantile], [_log_prob], [_log_cdf]: the value is split, each
    part goes to its distribution, and the results are concatenated. *)
Definition blockwise (f : comp -> nat -> R -> R) (d : independent) (v : arg) : result (list R) :=
  rbind (broadcast_value d v) (fun l =>
  rbind (split (d_sizes d) l) (fun parts =>
  Ok (concat (map (fun cp => elementwise (f (fst cp)) 0 (snd cp)) (combine (d_comps d) parts))))).

Definition quantile := blockwise c_quantile.
Definition log_prob := blockwise c_log_prob.
Definition log_cdf := blockwise c_log_cdf.
(** prior_distribution.py:1178-1195 [_default_event_space_bijector]. *)
Definition forward := blockwise c_forward.

(** prior_distribution.py:1135-1138 [_sample_n]: every component gets the same seed. *)
Definition sample (d : independent) (s : seed) : list R :=
  concat (map (fun cn => map (c_sample (fst cn) s) (seq 0 (snd cn))) (combine (d_comps d) (d_sizes d))).

(** prior_distribution.py:1168-1176 [_mean], [_variance]. *)
Definition mean (d : independent) : list R :=
  concat (map (fun cn => map (c_mean (fst cn)) (seq 0 (snd cn))) (combine (d_comps d) (d_sizes d))).
Definition variance (d : independent) : list R :=
  concat (map (fun cn => map (c_variance (fst cn)) (seq 0 (snd cn))) (combine (d_comps d) (d_sizes d))).

End Independent.
Arguments mkComp {seed}. Arguments c_deterministic {seed}. Arguments c_shape {seed}. Arguments c_dtype {seed}.
Arguments c_sample {seed}. Arguments c_quantile {seed}. Arguments c_log_prob {seed}. Arguments c_log_cdf {seed}.
Arguments c_forward {seed}. Arguments c_mean {seed}. Arguments c_variance {seed}.
Arguments mkInd {seed}. Arguments d_comps {seed}. Arguments d_sizes {seed}. Arguments d_dtype {seed}.
Arguments batch_sizes {seed}. Arguments verify_dtypes {seed}. Arguments new {seed}. Arguments total {seed}.
Arguments broadcast_value {seed}. Arguments blockwise {seed}. Arguments quantile {seed}. Arguments log_prob {seed}.
Arguments log_cdf {seed}. Arguments forward {seed}. Arguments sample {seed}. Arguments mean {seed}. Arguments variance {seed}.
