(** Model of meridian/model/posterior_sampler.py (likelihood, geo effects, combination of the
    chain batches, reconstruction of the deterministic parameters) and of
    [ModelContext.baseline_geo_idx]. *)
From Coq Require Import Reals ZArith String List Bool Arith.
From Verif Require Import Lib_Sum Lib_Dict M_Base M_Transformers.
Import ListNotations.

(** posterior_sampler.py:156-183 [_compute_tau_g] and prior_sampler.py:37-64 [_get_tau_g], on
    the last axis: insert a zero at [baseline_geo_idx]. *)
Definition compute_tau_g (tau_g_excl_baseline : list R) (baseline_geo_idx : nat) : list R :=
  firstn baseline_geo_idx tau_g_excl_baseline ++ [0%R] ++ skipn baseline_geo_idx tau_g_excl_baseline.

(** [baseline_geo] option of the model spec; [BgOther] covers None and every other type (also
    numpy integers). *)
Inductive baseline_geo_arg := BgInt (i : Z) | BgStr (s : string) | BgOther.

(** [np.where(geo == name)[0]]. *)
Fixpoint first_index (name : string) (geo : list string) : option nat :=
  match geo with
  | [] => None
  | g :: r => if String.eqb g name then Some 0%nat
              else option_map S (first_index name r)
  end.

(** [backend.argmax]: position of the first maximum. *)
Fixpoint argmax_from (best : R) (best_i i : nat) (l : list R) : nat :=
  match l with
  | [] => best_i
  | x :: r => if Rlt_dec best x then argmax_from x i (S i) r else argmax_from best best_i (S i) r
  end.
Definition argmax (l : list R) : nat :=
  match l with [] => 0%nat | x :: r => argmax_from x 0 1 r end.

(** context.py:667-690 [baseline_geo_idx]. *)
Definition baseline_geo_idx (b : baseline_geo_arg) (geo : list string) (population : list R) : result nat :=
  match b with
  | BgInt i => raise_if (Z.ltb i 0 || Z.leb (Z.of_nat (length geo)) i) ValueError (Ok (Z.to_nat i))
  | BgStr s => match first_index s geo with None => Err ValueError | Some i => Ok i end
  | BgOther => Ok (argmax population)
  end.

(** [tfd.Normal(loc, scale).log_prob(x)]. *)
Definition normal_logpdf (x loc scale : R) : R :=
  (- (1 / 2) * (x / scale - loc / scale) ^ 2 - (ln (2 * PI) / 2 + ln scale))%R.

(** posterior_sampler.py:606 [sigma_gt]: sigma has one entry, or one per geo. *)
Definition sigma_gt (sigma : list R) (g : nat) : R :=
  if Nat.eqb (length sigma) 1 then nth 0 sigma 0%R else nth g sigma 0%R.

(** posterior_sampler.py:606-624 (likelihood node) and 722-735 [_pin_dist]: log density of the
    pinned likelihood node, summed over the geo-by-time cells. *)
Definition likelihood_logprob (G T : nat) (holdout : option (nat -> nat -> bool))
    (y_pred kpi_scaled : nat -> nat -> R) (sigma : list R) : R :=
  rsum G (fun g => rsum T (fun t =>
    match holdout with
    | Some h =>
        normal_logpdf (if h g t then 0%R else kpi_scaled g t)
                      (if h g t then 0%R else y_pred g t)
                      (if h g t then (1 / sqrt (2 * PI))%R else sigma_gt sigma g)
    | None => normal_logpdf (kpi_scaled g t) (y_pred g t) (sigma_gt sigma g)
    end)).

(** The same from the raw KPI: context.py [kpi_scaled] is [KpiTransformer.forward(kpi)]. *)
Definition likelihood_of_data (G T : nat) (holdout : option (nat -> nat -> bool))
    (y_pred kpi : nat -> nat -> R) (population : nat -> R) (sigma : list R) : R :=
  likelihood_logprob G T holdout y_pred
    (fun g t => kpi_forward (kpi_init G T kpi population) g (kpi g t)) sigma.

Section Reconstruction.
Context {V : Type}.

(** A latent of shape [n_chains, n_draws, ...]: chain -> draw -> value. *)
Definition chains := list (list V).

(** [backend.reshape(value, (n, ...))] of a flat buffer: fails when the sizes differ. *)
Definition reshape_check {A} (n : nat) (l : list A) : result (list A) :=
  raise_if (negb (Nat.eqb (length l) n)) ValueError (Ok l).

Fixpoint flatten_all (n : nat) (d : list (string * chains)) : result (list (string * list V)) :=
  match d with
  | [] => Ok []
  | (k, v) :: r => rbind (reshape_check n (concat v)) (fun f =>
                   rbind (flatten_all n r) (fun fr => Ok ((k, f) :: fr)))
  end.

(** posterior_sampler.py:52-81 [_flatten_chain_and_draw_dims]. *)
Definition flatten_chain_and_draw_dims (latents : list (string * chains))
    : result (list (string * list V) * nat * nat) :=
  match latents with
  | [] => Err ValueError
  | (_, reference) :: _ =>
      let n_chains := length reference in
      let n_draws := match reference with [] => 0%nat | c :: _ => length c end in
      rbind (flatten_all (n_chains * n_draws) latents) (fun f => Ok (f, n_chains, n_draws))
  end.

(** [value[start:stop]]. *)
Definition slice {A} (start stop : nat) (l : list A) : list A := firstn (stop - start) (skipn start l).

(** The values of all latents at one row. *)
Definition row_env (i : nat) (d : list (string * list V)) : list (string * option V) :=
  map (fun e => (fst e, nth_error (snd e) i)) d.

(** posterior_sampler.py:84-124 and 825-833: one forward pass over a batch of [k] draws.  Node
    values: the latent itself, the pinned KPI [y], or the deterministic function [det node] of
    the latents of the same draw (TFP evaluates batches draw-wise). *)
Definition sample_batch (nodes : list string) (det : string -> list (string * option V) -> V) (y : V)
    (chunk : list (string * list V)) (k : nat) : list (string * list V) :=
  map (fun node => (node,
         match dget node chunk with
         | Some rows => rows
         | None => if String.eqb node "y" then repeat y k
                   else map (fun i => det node (row_env i chunk)) (seq 0 k)
         end)) nodes.

(** posterior_sampler.py:138-145 [_HostResultAccumulator.write]; cells of an [np.empty] buffer
    that were never written are [None]. *)
Definition acc_write (total : nat) (name : string) (chunk : list V) (start : nat)
    (bufs : list (string * list (option V))) : result (list (string * list (option V))) :=
  let buf := match dget name bufs with Some b => b | None => repeat None total end in
  let stop := (start + length chunk)%nat in
  raise_if (negb (Nat.leb stop total)) ValueError
    (Ok (dset name (firstn start buf ++ map Some chunk ++ skipn stop buf) bufs)).

(** posterior_sampler.py:839-842: write every deterministic node of the batch. *)
Fixpoint write_all (total : nat) (flat : list (string * list V)) (sampled : list (string * list V))
    (start : nat) (bufs : list (string * list (option V))) : result (list (string * list (option V))) :=
  match sampled with
  | [] => Ok bufs
  | (name, tensor) :: r =>
      if dmem name flat || String.eqb name "y" then write_all total flat r start bufs
      else rbind (acc_write total name tensor start bufs) (write_all total flat r start)
  end.

(** [range(0, n, b)] for b >= 1. *)
Definition range_step (n b : nat) : list nat := map (fun i => (i * b)%nat) (seq 0 ((n + b - 1) / b)).

Fixpoint batch_loop (nodes : list string) det (y : V) (flat : list (string * list V)) (total b : nat)
    (starts : list nat) (bufs : list (string * list (option V))) : result (list (string * list (option V))) :=
  match starts with
  | [] => Ok bufs
  | start :: r =>
      let stop := Nat.min (start + b) total in
      let chunk := map (fun e => (fst e, slice start stop (snd e))) flat in
      rbind (write_all total flat (sample_batch nodes det y chunk (stop - start)) start bufs)
            (batch_loop nodes det y flat total b r)
  end.

(** [buffer.reshape((n_chains, n_draws))]. *)
Definition unflatten {A} (n_chains n_draws : nat) (l : list A) : list (list A) :=
  map (fun c => slice (c * n_draws) (c * n_draws + n_draws) l) (seq 0 n_chains).

(** posterior_sampler.py:782-851 [_reconstruct_posteriors]; [nodes] are the names of the joint
    distribution's nodes. *)
Definition reconstruct_posteriors (nodes : list string) (det : string -> list (string * option V) -> V) (y : V)
    (latents : list (string * chains)) (batch_size : Z) : result (list (string * list (list (option V)))) :=
  raise_if (Z.ltb batch_size 1) ValueError (
  rbind (flatten_chain_and_draw_dims latents) (fun '(flat, n_chains, n_draws) =>
  let total := (n_chains * n_draws)%nat in
  let b := Z.to_nat batch_size in
  rbind (batch_loop nodes det y flat total b (range_step total b) []) (fun bufs =>
  Ok (map (fun e => (fst e, unflatten n_chains n_draws (snd e))) bufs)))).

(** constants.py:471-480 [UNSAVED_PARAMETERS]. *)
Definition unsaved : list string :=
  ["beta_gm_dev"; "beta_grf_dev"; "beta_gom_dev"; "beta_gorf_dev"; "gamma_gc_dev"; "gamma_gn_dev";
   "tau_g_excl_baseline"; "y"]%string.
Definition is_unsaved (k : string) : bool := existsb (String.eqb k) unsaved.

(** posterior_sampler.py:853-887 [_prepare_mcmc_states]. *)
Definition prepare_mcmc_states {A} (latents reconstructed : list (string * A)) : list (string * A) :=
  let kept := fold_left (fun d e => if is_unsaved (fst e) then d else dset (fst e) (snd e) d) latents [] in
  fold_left (fun d e => if is_unsaved (fst e) || String.eqb (fst e) "y" || dmem (fst e) d then d
                        else dset (fst e) (snd e) d) reconstructed kept.

(** One parameter's states of one NUTS call: draw -> chain -> value. *)
Definition states := list (list V).

(** [backend.concatenate(parts, axis=1)] of tables with the same number of rows. *)
Definition concat_axis1 (parts : list states) : states :=
  match parts with
  | [] => []
  | p :: _ => map (fun i => flat_map (fun q => nth i q []) parts) (seq 0 (length p))
  end.

(** [einsum("ij...->ji...")] of a table with [m] columns. *)
Definition transpose (m : nat) (l : list (list V)) : list (list (option V)) :=
  map (fun j => map (fun row => nth_error row j) l) (seq 0 m).

Definition width (l : list (list V)) : nat := match l with [] => 0%nat | r :: _ => length r end.

(** posterior_sampler.py:1020-1029 [all_latents], one parameter: concatenate the chain batches,
    drop the burn-in draws, transpose to (chain, draw). *)
Definition combine_latents (parts : list states) (n_burnin : nat) : list (list (option V)) :=
  let kept := skipn n_burnin (concat_axis1 parts) in
  transpose (width kept) kept.

(** A trace metric of one NUTS call: one value per draw (step size), or per draw and chain. *)
Inductive trace := TraceDraw (l : list V) | TraceDrawChain (l : list (list V)).

(** posterior_sampler.py:1061-1074: drop burn-in, transpose and broadcast one call's metric to
    (n_chains, n_keep). *)
Definition trace_block (t : trace) (n_burnin n_chains : nat) : list (list (option V)) :=
  match t with
  | TraceDraw l => repeat (map Some (skipn n_burnin l)) n_chains
  | TraceDrawChain l => transpose n_chains (skipn n_burnin l)
  end.

(** The same, concatenated over the calls (axis 0). *)
Definition combine_trace (ts : list (trace * nat)) (n_burnin : nat) : list (list (option V)) :=
  flat_map (fun e => trace_block (fst e) n_burnin (snd e)) ts.
End Reconstruction.
