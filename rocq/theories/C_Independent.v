(** C83: a distribution made of several has their elements in order, but its draws are not
    independent. *)
From Coq Require Import Reals List Bool Arith Lia Lra.
From Verif Require Import Lib_Sum M_Base M_Independent S_Independent P_Independent.
Import ListNotations.
Local Open Scope R_scope.
Local Open Scope nat_scope.
Local Open Scope list_scope.

(** Distributions can be put together exactly when there are some, none is [Deterministic], all have
    at most one dimension and all have the same type of numbers; otherwise there is a ValueError. *)
Theorem C83_accepted : forall seed (l : list (comp seed)),
  ((exists d, new l = Ok d) <-> admissible l) /\
  (forall e, new l = Err e -> e = ValueError) /\
  (forall d, new l = Ok d -> total d = widths l).
Proof.
  intros seed l. split; [exact (new_iff seed l)|]. split; [exact (new_err seed l) | exact (total_widths seed l)].
Qed.
Print Assumptions C83_accepted.

(** Every function of the whole has, at each place, that of the element whose place it is: draws,
    densities, quantiles, distribution functions, bijectors, means and variances agree on the order
    of elements. *)
Theorem C83_order : forall seed (l : list (comp seed)) d v, new l = Ok d -> length v = widths l ->
  (exists r, log_prob d (Vector v) = Ok r /\ in_order l (fun c i j => c_log_prob c i (nth j v 0%R)) r) /\
  (exists r, quantile d (Vector v) = Ok r /\ in_order l (fun c i j => c_quantile c i (nth j v 0%R)) r) /\
  (exists r, log_cdf d (Vector v) = Ok r /\ in_order l (fun c i j => c_log_cdf c i (nth j v 0%R)) r) /\
  (exists r, forward d (Vector v) = Ok r /\ in_order l (fun c i j => c_forward c i (nth j v 0%R)) r) /\
  (forall s, in_order l (fun c i _ => c_sample c s i) (sample d s)) /\
  in_order l (fun c i _ => c_mean c i) (mean d) /\ in_order l (fun c i _ => c_variance c i) (variance d).
Proof.
  intros seed l d v N L.
  split; [|split; [|split; [|split]]];
    try (eexists; split; [exact (blockwise_vector seed _ l d v N L) | exact (blocks_order seed _ l v L)]).
  split; [|split].
  - intros s. rewrite (sample_spread seed l d s N). exact (spread_order seed _ l).
  - rewrite (mean_spread seed l d N). exact (spread_order seed _ l).
  - rewrite (variance_spread seed l d N). exact (spread_order seed _ l).
Qed.
Print Assumptions C83_order.

(** Which is all there is to say about a result. *)
Theorem C83_order_unique : forall seed (l : list (comp seed)) f r r', in_order l f r -> in_order l f r' -> r = r'.
Proof. exact in_order_eq. Qed.
Print Assumptions C83_order_unique.

(** A number, or a vector of one number, is used for all elements; other lengths are refused. *)
Theorem C83_arguments : forall seed (l : list (comp seed)) d, new l = Ok d ->
  (forall x, log_prob d (Scalar x) = log_prob d (Vector (repeat x (widths l))) /\
             log_prob d (Vector [x]) = log_prob d (Scalar x)) /\
  (forall v, length v <> widths l -> length v <> 1 ->
     log_prob d (Vector v) = Err ValueError /\ quantile d (Vector v) = Err ValueError /\
     log_cdf d (Vector v) = Err ValueError).
Proof.
  intros seed l d N. split.
  - intros x. split; [|exact (blockwise_one seed c_log_prob l d x N)].
    unfold log_prob. rewrite (blockwise_scalar seed c_log_prob l d x N).
    rewrite (blockwise_vector seed c_log_prob l d _ N (repeat_length _ _)). reflexivity.
  - intros v L L1. split; [|split]; apply blockwise_bad with (l := l); assumption.
Qed.
Print Assumptions C83_arguments.

(** The joint density is that of independent parts: log densities add up. *)
Theorem C83_density : forall seed (l l' : list (comp seed)) d d' d2 v v' r r',
  new l = Ok d -> new l' = Ok d' -> new (l ++ l') = Ok d2 ->
  length v = widths l -> length v' = widths l' ->
  log_prob d (Vector v) = Ok r -> log_prob d' (Vector v') = Ok r' ->
  exists r2, log_prob d2 (Vector (v ++ v')) = Ok r2 /\ lsum r2 = (lsum r + lsum r')%R.
Proof. exact density_app. Qed.
Print Assumptions C83_density.

(** It does not matter whether distributions are put together in steps or at once. *)
Theorem C83_nested : forall seed (l l' : list (comp seed)) d d' d2,
  new l = Ok d -> new l' = Ok d' -> new (l ++ l') = Ok d2 ->
  exists dn, new [as_component d; as_component d'] = Ok dn /\
    (forall a, quantile dn a = quantile d2 a) /\ (forall a, log_prob dn a = log_prob d2 a) /\
    (forall a, log_cdf dn a = log_cdf d2 a) /\ (forall a, forward dn a = forward d2 a) /\
    (forall s, sample dn s = sample d2 s) /\ mean dn = mean d2 /\ variance dn = variance d2.
Proof. exact nested. Qed.
Print Assumptions C83_nested.

(** "The elements are independent": two equal distributions give the same number in every draw,
    whatever the seed, so that no two different numbers are ever drawn. *)
Theorem C83_independent_refuted : forall seed (c : comp seed) d, c_shape c = [] -> new [c; c] = Ok d ->
  (forall s, sample d s = [c_sample c s 0; c_sample c s 0]) /\
  (forall s x y, x <> y -> sample d s <> [x; y]).
Proof.
  intros seed c d S N.
  assert (E : forall s, sample d s = [c_sample c s 0; c_sample c s 0]).
  { intros s. rewrite (sample_spread seed [c; c] d s N). unfold spread. cbn [map combine concat fst snd]. unfold width. rewrite S. reflexivity. }
  split; [exact E|]. intros s x y XY H. rewrite E in H. apply XY. congruence.
Qed.
Print Assumptions C83_independent_refuted.

(** ** Concrete cases *)

(** A scalar distribution whose draw is the seed, and a pair shifted by its place. *)
Definition scalar_comp : comp nat :=
  mkComp false [] 0 (fun s _ => INR s) (fun _ q => q) (fun _ x => (- x)%R) (fun _ x => x) (fun _ x => x)
    (fun _ => 0%R) (fun _ => 1%R).
Definition pair_comp : comp nat :=
  mkComp false [2] 0 (fun s i => INR (s + i)) (fun i q => (q + INR i)%R) (fun i x => (INR i - x)%R) (fun _ x => x)
    (fun _ x => x) (fun i => INR i) (fun _ => 2%R).

Example C83_three : exists d, new [scalar_comp; pair_comp] = Ok d /\ total d = 3 /\
  sample d 5 = [INR 5; INR 5; INR 6] /\ mean d = [0%R; INR 0; INR 1] /\
  log_prob d (Vector [7%R; 8%R; 9%R]) = Ok [(- 7)%R; (INR 0 - 8)%R; (INR 1 - 9)%R].
Proof. eexists. split; [reflexivity|]. repeat split; reflexivity. Qed.

(** Draws differ between seeds, but not between equal elements. *)
Example C83_same : exists d, new [scalar_comp; scalar_comp] = Ok d /\
  sample d 1 = [INR 1; INR 1] /\ sample d 2 = [INR 2; INR 2] /\ INR 1 <> INR 2 /\
  log_prob d (Vector [1%R; 2%R]) = Ok [(- (1))%R; (- 2)%R].
Proof. eexists. split; [reflexivity|]. repeat split; try reflexivity. cbn. lra. Qed.
