(** C15 (holdout), C16 (geo effects), C17 (batched reconstruction), C48 (kept draws). *)
From Coq Require Import Reals ZArith String List Bool Arith Lia Lra.
From Verif Require Import Lib_Sum Lib_Dict M_Base M_Transformers P_Transformers M_Sampler S_Sampler P_Sampler.
Import ListNotations.

(** C15. With a holdout mask the log likelihood is the sum of the normal log densities of the
    observed cells only. *)
Theorem C15_holdout_likelihood : forall G T h y_pred y sigma sd,
  (forall g, (g < G)%nat -> geo_sigma sigma g (sd g) /\ (0 < sd g)%R) ->
  likelihood_logprob G T (Some h) y_pred y sigma =
  lsum (map (fun c => normal_log_density (y (fst c) (snd c)) (y_pred (fst c) (snd c)) (sd (fst c)))
            (observed_cells G T h)).
Proof. exact holdout_likelihood_lemma. Qed.
Print Assumptions C15_holdout_likelihood.

(** C15. Without a mask it is the sum over all cells. *)
Theorem C15_full_likelihood : forall G T y_pred y sigma sd,
  (forall g, (g < G)%nat -> geo_sigma sigma g (sd g) /\ (0 < sd g)%R) ->
  likelihood_logprob G T None y_pred y sigma =
  lsum (map (fun c => normal_log_density (y (fst c) (snd c)) (y_pred (fst c) (snd c)) (sd (fst c)))
            (list_prod (seq 0 G) (seq 0 T))).
Proof. exact full_likelihood_lemma. Qed.
Print Assumptions C15_full_likelihood.

(** C15. Hence the scaled KPI and the predictions of held-out cells are irrelevant. *)
Theorem C15_heldout_scaled_values_irrelevant : forall G T h y_pred y_pred' y y' sigma,
  (forall g t, (g < G)%nat -> (t < T)%nat -> h g t = false -> y g t = y' g t /\ y_pred g t = y_pred' g t) ->
  likelihood_logprob G T (Some h) y_pred y sigma = likelihood_logprob G T (Some h) y_pred' y' sigma.
Proof.
  intros G T h y_pred y_pred' y y' sigma H. unfold likelihood_logprob.
  apply rsum_ext. intros g Hg. apply rsum_ext. intros t Ht.
  destruct (h g t) eqn:E; auto. destruct (H g t Hg Ht E) as [-> ->]. reflexivity.
Qed.
Print Assumptions C15_heldout_scaled_values_irrelevant.

(** One geo, three periods, the last one held out. *)
Definition ho_kpi (last : R) (g t : nat) : R := match t with 0%nat => 0%R | 1%nat => 2%R | _ => last end.
Definition ho_mask (g t : nat) : bool := Nat.eqb t 2.

Lemma ho_value : forall last, (last <> 0)%R ->
  likelihood_of_data 1 3 (Some ho_mask) (fun _ _ => 0%R) (ho_kpi last) (fun _ => 1%R) [1%R] =
  (- (1 / 2) * ((((2 + last) / 3) ^ 2 + (2 - (2 + last) / 3) ^ 2) /
     ((((2 + last) / 3) ^ 2 + (2 - (2 + last) / 3) ^ 2 + (last - (2 + last) / 3) ^ 2) / 3)) - ln (2 * PI))%R.
Proof.
  intros last Hl. unfold likelihood_of_data, likelihood_logprob. simpl rsum.
  unfold kpi_forward. set (tr := kpi_init 1 3 (ho_kpi last) (fun _ => 1%R)).
  assert (Em : k_mean tr = ((2 + last) / 3)%R).
  { unfold tr, kpi_init. simpl k_mean. unfold mean_gt. simpl. rewrite !divide_no_nan_nz by lra.
    field. }
  assert (Es : (k_stdev tr ^ 2 = (((2 + last) / 3) ^ 2 + (2 - (2 + last) / 3) ^ 2 + (last - (2 + last) / 3) ^ 2) / 3)%R).
  { unfold tr, kpi_init. simpl k_stdev. rewrite std_sq by lia.
    change (mean_gt 1 3 (fun g t => divide_no_nan (ho_kpi last g t) 1)) with (k_mean tr). rewrite Em.
    unfold mean_gt. simpl. rewrite !divide_no_nan_nz by lra. field. }
  assert (Hpos : (0 < ((2 + last) / 3) ^ 2 + (2 - (2 + last) / 3) ^ 2 + (last - (2 + last) / 3) ^ 2)%R).
  { pose proof (pow2_ge_0 ((2 + last) / 3)). pose proof (pow2_ge_0 (2 - (2 + last) / 3)).
    pose proof (pow2_ge_0 (last - (2 + last) / 3)).
    assert (((2 + last) / 3) ^ 2 + (2 - (2 + last) / 3) ^ 2 >= 2)%R by nra. lra. }
  assert (Hs : k_stdev tr <> 0%R).
  { intro E. rewrite E in Es. simpl in Es. rewrite Rmult_0_l in Es. simpl in Hpos. lra. }
  change (k_population tr 0%nat) with 1%R. cbn [ho_mask Nat.eqb].
  rewrite heldout_logpdf. rewrite !(divide_no_nan_nz _ (k_stdev tr)) by auto. rewrite !divide_no_nan_nz by lra.
  rewrite Em. unfold ho_kpi, normal_logpdf, sigma_gt. simpl length. simpl Nat.eqb. cbn [nth].
  rewrite ln_1. rewrite <- Es. field. auto.
Qed.

(** C15. The full claim is false: changing only the raw KPI of a held-out cell changes the
    likelihood, because the KPI is standardised with all cells. *)
Theorem C15_raw_heldout_kpi_refuted :
  ~ (forall G T h y_pred kpi kpi' population sigma,
       (forall g, (g < G)%nat -> (0 < population g)%R) ->
       (forall g t, (g < G)%nat -> (t < T)%nat -> h g t = false -> kpi g t = kpi' g t) ->
       likelihood_of_data G T (Some h) y_pred kpi population sigma =
       likelihood_of_data G T (Some h) y_pred kpi' population sigma).
Proof.
  intros H.
  specialize (H 1%nat 3%nat ho_mask (fun _ _ => 0%R) (ho_kpi 1) (ho_kpi 10) (fun _ => 1%R) [1%R]
    ltac:(intros; lra)
    ltac:(intros g t Hg Ht Hh; destruct t as [|[|[|t]]]; try reflexivity; try discriminate; lia)).
  rewrite !ho_value in H by lra. lra.
Qed.
Print Assumptions C15_raw_heldout_kpi_refuted.

(** A concrete non-trivial instance of C15: two cells remain. *)
Example C15_concrete : exists v, likelihood_logprob 1 3 (Some ho_mask) (fun _ _ => 1%R) (ho_kpi 7) [2%R] = v /\
  v = lsum (map (fun c => normal_log_density (ho_kpi 7 (fst c) (snd c)) 1 2) [(0, 0); (0, 1)]%nat).
Proof.
  eexists. split; [|reflexivity].
  rewrite (C15_holdout_likelihood 1 3 ho_mask (fun _ _ => 1%R) (ho_kpi 7) [2%R] (fun _ => 2%R)); [reflexivity|].
  intros g Hg. split; [|lra]. left. split; auto.
Qed.

(** C16. The geo effects have one entry per geo, zero at the baseline geo, and list the sampled
    effects of the other geos in order. *)
Theorem C16_tau_g : forall tau_excl idx, (idx <= length tau_excl)%nat ->
  length (compute_tau_g tau_excl idx) = S (length tau_excl) /\
  nth_error (compute_tau_g tau_excl idx) idx = Some 0%R /\
  (forall j, (j < idx)%nat -> nth_error (compute_tau_g tau_excl idx) j = nth_error tau_excl j) /\
  (forall j, (idx <= j)%nat -> (j < length tau_excl)%nat ->
     nth_error (compute_tau_g tau_excl idx) (S j) = nth_error tau_excl j).
Proof.
  intros l i H. split; [exact (tau_length l i)|]. split; [exact (tau_at_baseline l i H)|]. split.
  - intros j Hj. exact (tau_before l i j H Hj).
  - intros j H1 H2. exact (tau_after l i j H1 H2).
Qed.
Print Assumptions C16_tau_g.

(** C16. The baseline geo index: an integer in range, the position of the named geo, or the
    first geo of maximal population; anything else is a ValueError.  The index always lies in
    range, so C16_tau_g applies. *)
Theorem C16_baseline_geo : forall b geo population, length population = length geo -> geo <> [] ->
  match baseline_geo_idx b geo population with
  | Ok i => (i < length geo)%nat /\
      match b with
      | BgInt z => Z.of_nat i = z
      | BgStr s => nth_error geo i = Some s /\ forall j, (j < i)%nat -> nth_error geo j <> Some s
      | BgOther => exists v, nth_error population i = Some v /\
          forall j x, nth_error population j = Some x -> (x <= v)%R /\ (x = v -> (i <= j)%nat)
      end
  | Err e => e = ValueError /\
      match b with
      | BgInt z => (z < 0 \/ Z.of_nat (length geo) <= z)%Z
      | BgStr s => ~ In s geo
      | BgOther => False
      end
  end.
Proof.
  intros b geo population Hlen Hne. destruct b as [z|s|]; simpl.
  - destruct (Z.ltb z 0) eqn:E1; simpl.
    + split; auto. apply Z.ltb_lt in E1. auto.
    + apply Z.ltb_ge in E1. destruct (Z.leb (Z.of_nat (length geo)) z) eqn:E2; simpl.
      * split; auto. apply Z.leb_le in E2. auto.
      * apply Z.leb_gt in E2. split; lia.
  - destruct (first_index s geo) as [i|] eqn:E.
    + destruct (first_index_Some s geo i E) as [A B]. split; [|auto].
      apply nth_error_Some. congruence.
    + split; auto. apply first_index_None. auto.
  - assert (Hp : population <> []) by (intros ->; destruct geo; [congruence|discriminate]).
    destruct (argmax_spec population Hp) as [v [A B]].
    split; [rewrite <- Hlen; apply nth_error_Some; congruence|]. exists v. auto.
Qed.
Print Assumptions C16_baseline_geo.

Example C16_concrete : compute_tau_g [1; 2]%R 1 = [1; 0; 2]%R /\
  baseline_geo_idx (BgStr "b") ["a"; "b"; "c"]%string [1; 2; 3]%R = Ok 1%nat /\
  baseline_geo_idx (BgInt 3) ["a"; "b"; "c"]%string [1; 2; 3]%R = Err ValueError.
Proof. split; [reflexivity|]. split; reflexivity. Qed.

(** C17. Whatever the batch size, every deterministic parameter equals the draw-wise function
    of the latents at the same chain and draw; latents and the likelihood node are left out. *)
Theorem C17_reconstruction : forall V nodes (det : string -> list (string * option V) -> V) y latents nc nd batch,
  NoDup nodes -> latents <> [] -> (forall k t, In (k, t) latents -> regular nc nd t) -> (1 <= batch)%Z ->
  exists res, reconstruct_posteriors nodes det y latents batch = Ok res /\
    (forall node, In node nodes -> dmem node latents = false -> node <> "y"%string -> (0 < nc * nd)%nat ->
       dget node res = Some (map (fun c => map (fun d => Some (det node (draw_env latents c d))) (seq 0 nd)) (seq 0 nc))) /\
    (forall node, dmem node latents = true \/ node = "y"%string \/ ~ In node nodes -> dget node res = None).
Proof. exact (@reconstruct_lemma). Qed.
Print Assumptions C17_reconstruction.

(** C17. Two valid batch sizes give the same arrays. *)
Theorem C17_batch_size_irrelevant : forall V nodes (det : string -> list (string * option V) -> V) y latents nc nd b1 b2 r1 r2,
  NoDup nodes -> latents <> [] -> (forall k t, In (k, t) latents -> regular nc nd t) -> (0 < nc * nd)%nat ->
  reconstruct_posteriors nodes det y latents b1 = Ok r1 ->
  reconstruct_posteriors nodes det y latents b2 = Ok r2 ->
  forall node, dget node r1 = dget node r2.
Proof.
  intros V nodes det y latents nc nd b1 b2 r1 r2 HN Hne Hreg Hpos H1 H2 node.
  destruct (Z.lt_ge_cases b1 1) as [L1|L1].
  { rewrite reconstruct_rejects in H1 by auto. discriminate. }
  destruct (Z.lt_ge_cases b2 1) as [L2|L2].
  { rewrite reconstruct_rejects in H2 by auto. discriminate. }
  destruct (reconstruct_lemma nodes det y latents nc nd b1 HN Hne Hreg L1) as [s1 [E1 [A1 B1]]].
  destruct (reconstruct_lemma nodes det y latents nc nd b2 HN Hne Hreg L2) as [s2 [E2 [A2 B2]]].
  rewrite H1 in E1. inversion E1; subst s1. rewrite H2 in E2. inversion E2; subst s2.
  destruct (dmem node latents) eqn:Em; [rewrite B1, B2; auto|].
  destruct (string_dec node "y") as [Ey|Ey]; [rewrite B1, B2; auto|].
  destruct (in_dec string_dec node nodes) as [Hi|Hi]; [rewrite A1, A2; auto|rewrite B1, B2; auto].
Qed.
Print Assumptions C17_batch_size_irrelevant.

(** C17. Batch sizes below one are rejected. *)
Theorem C17_batch_size_rejected : forall V nodes (det : string -> list (string * option V) -> V) y latents batch,
  (batch < 1)%Z -> reconstruct_posteriors nodes det y latents batch = Err ValueError.
Proof. exact (@reconstruct_rejects). Qed.
Print Assumptions C17_batch_size_rejected.

(** C17. The saved posterior holds each latent and each reconstructed parameter under its name,
    latents taking precedence, and none of the unsaved ones. *)
Theorem C17_saved_parameters : forall A (latents reconstructed : list (string * A)) k,
  NoDup (dkeys latents) -> NoDup (dkeys reconstructed) ->
  dget k (prepare_mcmc_states latents reconstructed) =
  if in_dec string_dec k ["beta_gm_dev"; "beta_grf_dev"; "beta_gom_dev"; "beta_gorf_dev"; "gamma_gc_dev";
                          "gamma_gn_dev"; "tau_g_excl_baseline"; "y"]%string
  then None
  else match dget k latents with Some v => Some v | None => dget k reconstructed end.
Proof.
  intros A latents reconstructed k H1 H2. rewrite mcmc_states_lemma by auto.
  destruct (in_dec string_dec k _) as [Hi|Hi].
  - assert (E : is_unsaved k = true); [|rewrite E; auto]. apply existsb_exists. exists k.
    split; [exact Hi|apply String.eqb_refl].
  - destruct (is_unsaved k) eqn:E; auto. exfalso. apply Hi. apply existsb_exists in E.
    destruct E as [x [Hx Hk]]. apply String.eqb_eq in Hk. subst x. exact Hx.
Qed.
Print Assumptions C17_saved_parameters.

(** Concrete: two chains of three draws reconstructed in batches of 4. *)
Example C17_concrete :
  let det (_ : string) (e : list (string * option nat)) :=
    match e with [(_, Some a); (_, Some b)] => (10 * a + b)%nat | _ => 0%nat end in
  reconstruct_posteriors ["a"; "s"; "b"; "y"]%string det 0%nat
    [("a"%string, [[1; 2; 3]; [4; 5; 6]]); ("b"%string, [[1; 1; 1]; [2; 2; 2]])] 4%Z =
  Ok [("s"%string, [[Some 11; Some 21; Some 31]; [Some 42; Some 52; Some 62]])].
Proof. reflexivity. Qed.

(** C48. Posterior draw [d] of chain [c] of sampler call [b] is the state after [n_burnin + d]
    kept transitions of that chain; chains are stored in the order of the calls. *)
Theorem C48_kept_draws : forall V (parts : list (list (list V) * nat)) n_burnin n_keep b p m c d,
  (forall q k, In (q, k) parts -> regular (n_burnin + n_keep) k q) ->
  nth_error parts b = Some (p, m) -> (c < m)%nat -> (d < n_keep)%nat ->
  cell (combine_latents (map fst parts) n_burnin) (chains_before parts b + c) d =
    Some (cell p (n_burnin + d) c) /\ cell p (n_burnin + d) c <> None.
Proof. exact (@combine_latents_lemma). Qed.
Print Assumptions C48_kept_draws.

Theorem C48_posterior_shape : forall V (parts : list (list (list V) * nat)) n_burnin n_keep,
  parts <> [] -> (forall q k, In (q, k) parts -> regular (n_burnin + n_keep) k q) -> (1 <= n_keep)%nat ->
  regular (fold_right Nat.add 0%nat (map snd parts)) n_keep (combine_latents (map fst parts) n_burnin).
Proof. exact (@combine_latents_shape). Qed.
Print Assumptions C48_posterior_shape.

(** C48. The sampling statistics are those of the same transitions: they are laid out like the
    draws, per-draw metrics being repeated for the chains of their call. *)
Theorem C48_trace_aligned : forall V (ts : list (trace (V := V) * nat)) n_burnin n_keep b t m c d,
  (forall l k, In (TraceDrawChain l, k) ts -> regular (n_burnin + n_keep) k l) ->
  (forall l k, In (TraceDraw l, k) ts -> length l = (n_burnin + n_keep)%nat) ->
  nth_error ts b = Some (t, m) -> (c < m)%nat -> (d < n_keep)%nat ->
  cell (combine_trace ts n_burnin) (chains_before ts b + c) d =
    Some (match t with
          | TraceDraw l => nth_error l (n_burnin + d)
          | TraceDrawChain l => cell l (n_burnin + d) c
          end).
Proof. exact (@trace_lemma). Qed.
Print Assumptions C48_trace_aligned.

(** Concrete: calls with 2 and 1 chains, one burn-in draw, two kept draws. *)
Example C48_concrete :
  combine_latents [[[1; 2]; [3; 4]; [5; 6]]; [[7]; [8]; [9]]] 1 =
    [[Some 3; Some 5]; [Some 4; Some 6]; [Some 8; Some 9]] /\
  combine_trace [(TraceDrawChain [[1; 2]; [3; 4]; [5; 6]], 2%nat); (TraceDraw [7; 8; 9], 1%nat)] 1 =
    [[Some 3; Some 5]; [Some 4; Some 6]; [Some 8; Some 9]].
Proof. split; reflexivity. Qed.
