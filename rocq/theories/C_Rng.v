(** Property C42: seeded random streams. *)
From Coq Require Import ZArith Lia List Bool.
From Verif Require Import M_Base M_Rng.
Import ListNotations.
Local Open Scope list_scope.

(** *** Specification *)
(** The requests a program addresses to the handler [i]. *)
Inductive own := OKernel | ONext | OAdvance.
Definition own_request (i : nat) (r : request) : list own :=
  match r with
  | New _ => []
  | Kernel j => if Nat.eqb i j then [OKernel] else []
  | Next j => if Nat.eqb i j then [ONext] else []
  | Advance j => if Nat.eqb i j then [OAdvance] else []
  end.
Definition own_requests (i : nat) (rs : list request) : list own := flat_map (own_request i) rs.
Definition seeded (r : request) : Prop := match r with New SNone => False | _ => True end.
Definition usable (s : seed) : Prop :=
  match s with SNone => True | SInt _ => True | SSeq l => length l = 2 end.

(** What a handler answers when it is used alone. *)
Section Solo.
Variables (H K N : Type) (kernel : H -> K) (next : H -> N * H) (advance : H -> H * H).
Fixpoint solo (h : H) (l : list own) : list (event H K N) :=
  match l with
  | [] => []
  | OKernel :: r => EKernel (kernel h) :: solo h r
  | ONext :: r => ENext (fst (next h)) :: solo (snd (next h)) r
  | OAdvance :: r => EChild (fst (advance h)) :: solo (snd (advance h)) r
  end.
End Solo.

(** *** The program machine *)
Section Machine.
Variables (H K N G : Type) (make : seed -> G -> result H * G) (kernel : H -> K) (next : H -> N * H)
  (advance : H -> G -> result H * H * G).
Notation run := (run H K N G make kernel next advance).
Notation step := (step H K N G make kernel next advance).

Lemma nth_set_same : forall A (l : list A) i v, i < length l -> nth_error (set_nth i v l) i = Some v.
Proof. induction l as [|a l IH]; intros [|i] v Hi; cbn in *; try lia; [reflexivity|apply IH; lia]. Qed.
Lemma nth_set_other : forall A (l : list A) i j v, i <> j -> nth_error (set_nth i v l) j = nth_error l j.
Proof. induction l as [|a l IH]; intros [|i] [|j] v Hij; cbn; auto; try congruence. Qed.
Lemma set_length : forall A (l : list A) i v, length (set_nth i v l) = length l.
Proof. induction l as [|a l IH]; intros [|i] v; cbn; auto. Qed.
Lemma nth_app_some : forall A (l m : list A) i v, nth_error l i = Some v -> nth_error (l ++ m) i = Some v.
Proof. intros A l m i v H0. rewrite nth_error_app1; [exact H0|]. apply nth_error_Some. congruence. Qed.

(** The methods of the handlers in use do not touch the global state and do not fail, and this
    is preserved. *)
Variable (good : H -> Prop) (adv : H -> H * H).
Hypothesis pure : forall h g, good h -> advance h g = (Ok (fst (adv h)), snd (adv h), g).
Hypothesis good_next : forall h, good h -> good (snd (next h)).
Hypothesis good_adv : forall h, good h -> good (fst (adv h)) /\ good (snd (adv h)).
Hypothesis good_make : forall s g h g', make s g = (Ok h, g') -> good h.

Definition events_of (i : nat) (l : list (nat * event H K N)) : list (event H K N) :=
  flat_map (fun e => if Nat.eqb i (fst e) then [snd e] else []) l.

Lemma run_isolated : forall rs w i h, nth_error (w_handlers _ _ w) i = Some h -> Forall good (w_handlers _ _ w) ->
  events_of i (run w rs) = solo H K N kernel next adv h (own_requests i rs).
Proof.
  induction rs as [|r rs IH]; intros w i h Hi Hg; [reflexivity|].
  assert (Li : i < length (w_handlers _ _ w)) by (apply nth_error_Some; congruence).
  rewrite Forall_forall in Hg.
  cbn [M_Rng.run]. destruct r as [s|j|j|j]; cbn [M_Rng.step].
  - destruct (make s (w_global _ _ w)) as [[h'|e] g] eqn:M.
    + cbn [events_of flat_map fst snd]. replace (Nat.eqb i (length (w_handlers _ _ w))) with false by (symmetry; apply Nat.eqb_neq; lia).
      cbn [app]. cbn [own_requests flat_map own_request app]. apply IH; cbn [w_handlers].
      * apply nth_app_some. exact Hi.
      * apply Forall_forall. intros a Ha. apply in_app_iff in Ha. destruct Ha as [Ha|[<-|[]]]; [auto|]. eapply good_make. exact M.
    + cbn [events_of flat_map fst snd]. replace (Nat.eqb i (length (w_handlers _ _ w))) with false by (symmetry; apply Nat.eqb_neq; lia).
      cbn [app own_requests flat_map own_request]. apply IH; cbn [w_handlers]; [exact Hi|]. apply Forall_forall. auto.
  - destruct (nth_error (w_handlers _ _ w) j) as [h'|] eqn:Ej.
    + cbn [events_of flat_map fst snd own_requests own_request]. destruct (Nat.eqb_spec i j) as [->|Nij].
      * assert (h' = h) by congruence. subst h'. cbn [app solo]. f_equal. apply IH; [exact Hi|apply Forall_forall; auto].
      * cbn [app]. apply IH; [exact Hi|apply Forall_forall; auto].
    + cbn [own_requests flat_map own_request]. destruct (Nat.eqb_spec i j) as [->|Nij]; [congruence|].
      cbn [app]. apply IH; [exact Hi|apply Forall_forall; auto].
  - destruct (nth_error (w_handlers _ _ w) j) as [h'|] eqn:Ej.
    + assert (Gh : good h') by (apply Hg; eapply nth_error_In; exact Ej).
      assert (F : Forall good (set_nth j (snd (next h')) (w_handlers _ _ w))).
      { apply Forall_forall. intros a Ha. apply In_nth_error in Ha. destruct Ha as (k & Hk).
        destruct (Nat.eq_dec j k) as [<-|Njk].
        - rewrite nth_set_same in Hk by (apply nth_error_Some; congruence). assert (a = snd (next h')) by congruence. subst. auto.
        - rewrite nth_set_other in Hk by exact Njk. apply Hg. eapply nth_error_In. exact Hk. }
      cbn [events_of flat_map fst snd own_requests own_request]. destruct (Nat.eqb_spec i j) as [->|Nij].
      * assert (h' = h) by congruence. subst h'. cbn [app solo]. f_equal. apply IH; cbn [w_handlers]; [|exact F].
        apply nth_set_same. exact Li.
      * cbn [app]. apply IH; cbn [w_handlers]; [|exact F]. rewrite nth_set_other by auto. exact Hi.
    + cbn [own_requests flat_map own_request]. destruct (Nat.eqb_spec i j) as [->|Nij]; [congruence|].
      cbn [app]. apply IH; [exact Hi|apply Forall_forall; auto].
  - destruct (nth_error (w_handlers _ _ w) j) as [h'|] eqn:Ej.
    + assert (Gh : good h') by (apply Hg; eapply nth_error_In; exact Ej).
      rewrite (pure h' _ Gh). destruct (good_adv h' Gh) as [G1 G2].
      assert (F : Forall good (set_nth j (snd (adv h')) (w_handlers _ _ w) ++ [fst (adv h')])).
      { apply Forall_forall. intros a Ha. apply in_app_iff in Ha. destruct Ha as [Ha|[<-|[]]]; [|exact G1].
        apply In_nth_error in Ha. destruct Ha as (k & Hk).
        destruct (Nat.eq_dec j k) as [<-|Njk].
        - rewrite nth_set_same in Hk by (apply nth_error_Some; congruence). assert (a = snd (adv h')) by congruence. subst. auto.
        - rewrite nth_set_other in Hk by exact Njk. apply Hg. eapply nth_error_In. exact Hk. }
      cbn [events_of flat_map fst snd own_requests own_request]. destruct (Nat.eqb_spec i j) as [->|Nij].
      * assert (h' = h) by congruence. subst h'. cbn [app solo]. f_equal. apply IH; cbn [w_handlers]; [|exact F].
        apply nth_app_some. apply nth_set_same. exact Li.
      * cbn [app]. apply IH; cbn [w_handlers]; [|exact F]. apply nth_app_some. rewrite nth_set_other by auto. exact Hi.
    + cbn [own_requests flat_map own_request]. destruct (Nat.eqb_spec i j) as [->|Nij]; [congruence|].
      cbn [app]. apply IH; [exact Hi|apply Forall_forall; auto].
Qed.

(** The global state does not matter to a program all of whose handlers are seeded. *)
Hypothesis make_seeded : forall s g g', s <> SNone -> fst (make s g) = fst (make s g').
Lemma run_reproducible : forall rs hs g g', Forall seeded rs -> Forall good hs ->
  run (mkWorld hs g) rs = run (mkWorld hs g') rs.
Proof.
  induction rs as [|r rs IH]; intros hs g g' Hs Hg; [reflexivity|].
  inversion Hs as [|? ? Hr Hrs]; subst. pose proof Hg as Hg'. rewrite Forall_forall in Hg.
  cbn [M_Rng.run]. destruct r as [s|j|j|j]; cbn [M_Rng.step w_global w_handlers].
  - assert (Ns : s <> SNone) by (intros ->; exact Hr).
    pose proof (make_seeded s g g' Ns) as E. destruct (make s g) as [q g1] eqn:M. destruct (make s g') as [q' g1'].
    cbn [fst] in E. subst q'. destruct q as [h|e]; f_equal; apply IH; auto.
    apply Forall_app. split; [exact Hg'|]. repeat constructor. eapply good_make. exact M.
  - destruct (nth_error hs j); [f_equal|]; apply IH; auto.
  - destruct (nth_error hs j) as [h|] eqn:Ej; [f_equal|]; apply IH; auto.
    apply Forall_forall. intros a Ha. apply In_nth_error in Ha. destruct Ha as (k & Hk).
    destruct (Nat.eq_dec j k) as [<-|Njk].
    + rewrite nth_set_same in Hk by (apply nth_error_Some; congruence). assert (a = snd (next h)) by congruence. subst.
      apply good_next. apply Hg. eapply nth_error_In. exact Ej.
    + rewrite nth_set_other in Hk by exact Njk. apply Hg. eapply nth_error_In. exact Hk.
  - destruct (nth_error hs j) as [h|] eqn:Ej; [|apply IH; auto].
    assert (Gh : good h) by (apply Hg; eapply nth_error_In; exact Ej). destruct (good_adv h Gh) as [G1 G2].
    rewrite !(pure h _ Gh). f_equal. apply IH; auto. apply Forall_app. split; [|repeat constructor; exact G1].
    apply Forall_forall. intros a Ha. apply In_nth_error in Ha. destruct Ha as (k & Hk).
    destruct (Nat.eq_dec j k) as [<-|Njk].
    + rewrite nth_set_same in Hk by (apply nth_error_Some; congruence). assert (a = snd (adv h)) by congruence. subst. exact G2.
    + rewrite nth_set_other in Hk by exact Njk. apply Hg. eapply nth_error_In. exact Hk.
Qed.
End Machine.
Arguments events_of {H K N} _ _.

Section Kernels.
Variables (H K N : Type) (kernel : H -> K) (next : H -> N * H) (advance : H -> H * H).
Definition not_kernel (o : own) : bool := match o with OKernel => false | _ => true end.
Definition not_kernel_event (e : event H K N) : bool := match e with EKernel _ => false | _ => true end.
Lemma kernel_pure : forall l h,
  filter not_kernel_event (solo H K N kernel next advance h l)
  = solo H K N kernel next advance h (filter not_kernel l).
Proof.
  induction l as [|o l IH]; intros h; [reflexivity|]. destruct o; cbn; [apply IH|f_equal; apply IH|f_equal; apply IH].
Qed.
End Kernels.

(** *** The two backends *)
Section Jax.
Variables (key ambient : Type) (split : key -> key * key) (randint : key -> Z -> Z -> Z)
  (prng_key : Z -> key) (pair_key : Z -> Z -> key) (np_randint : Z -> ambient -> Z * ambient).
Notation H := (jax_handler key).
Definition jmake := jax_new key ambient prng_key pair_key np_randint.
Definition jkernel := jax_kernel key split randint.
Definition jnext := jax_next key split.
Definition jadvance := jax_advance key ambient split randint prng_key pair_key np_randint.
Definition jadv (h : H) : H * H :=
  match j_key h with
  | Some k => (mkJax (Some (prng_key (randint (snd (split k)) 0%Z max_int32))), mkJax (Some (fst (split k))))
  | None => (h, h)
  end.
Definition jgood (h : H) : Prop := j_key h <> None.
Lemma jpure : forall h g, jgood h -> jadvance h g = (Ok (fst (jadv h)), snd (jadv h), g).
Proof. intros [[k|]] g G; [reflexivity|]. exfalso. apply G. reflexivity. Qed.
Lemma jgood_next : forall h, jgood h -> jgood (snd (jnext h)).
Proof. intros [[k|]] G; [discriminate|]. exfalso. apply G. reflexivity. Qed.
Lemma jgood_adv : forall h, jgood h -> jgood (fst (jadv h)) /\ jgood (snd (jadv h)).
Proof. intros [[k|]] G; [split; discriminate|]. exfalso. apply G. reflexivity. Qed.
Lemma jgood_make : forall s g h g', jmake s g = (Ok h, g') -> jgood h.
Proof.
  intros [|z|l] g h g' E; cbn in E.
  - destruct (np_randint max_int32 g) as [z a]. assert (h = jax_from_int key prng_key z) by congruence. subst. discriminate.
  - assert (h = jax_from_int key prng_key z) by congruence. subst. discriminate.
  - destruct l as [|x [|y [|w l]]]; try discriminate. assert (h = mkJax (Some (pair_key x y))) by congruence. subst. discriminate.
Qed.
Lemma jmake_seeded : forall s g g', s <> SNone -> fst (jmake s g) = fst (jmake s g').
Proof. intros [|z|[|x [|y [|w l]]]] g g' N; try reflexivity. congruence. Qed.
End Jax.

Section Tf.
Variables (state ambient : Type) (sanitize : Z -> Z -> state) (split : state -> state * state)
  (of_state : state -> state).
Notation H := (tf_handler state).
Definition tmake (s : seed) (g : ambient) : result H * ambient := (tf_new state sanitize s, g).
Definition tkernel := tf_kernel state.
Definition tnext := tf_next state split.
Definition tadv := tf_advance state split of_state.
Definition tadvance (h : H) (g : ambient) : result H * H * ambient := (Ok (fst (tadv h)), snd (tadv h), g).
End Tf.

(** *** C42 *)
(** With the same seeds a program gets the same answers whatever the state of the global random
    generator, for every sequence of requests to any number of handlers. *)
Theorem C42_reproducible_jax : forall key ambient split randint prng_key pair_key np_randint (a a' : ambient) rs,
  Forall seeded rs ->
  run _ _ _ _ (jmake key ambient prng_key pair_key np_randint) (jkernel key split randint) (jnext key split)
    (jadvance key ambient split randint prng_key pair_key np_randint) (mkWorld [] a) rs
  = run _ _ _ _ (jmake key ambient prng_key pair_key np_randint) (jkernel key split randint) (jnext key split)
    (jadvance key ambient split randint prng_key pair_key np_randint) (mkWorld [] a') rs.
Proof.
  intros. apply run_reproducible with (good := jgood key) (adv := jadv key split randint prng_key); auto.
  - apply jpure.
  - apply jgood_next.
  - apply jgood_adv.
  - apply jgood_make.
  - apply jmake_seeded.
Qed.
Print Assumptions C42_reproducible_jax.
(** TensorFlow handlers never use it, seeded or not. *)
Theorem C42_reproducible_tf : forall state ambient sanitize split of_state (a a' : ambient) rs,
  run _ _ _ _ (tmake state ambient sanitize) (tkernel state) (tnext state split)
    (tadvance state ambient split of_state) (mkWorld [] a) rs
  = run _ _ _ _ (tmake state ambient sanitize) (tkernel state) (tnext state split)
    (tadvance state ambient split of_state) (mkWorld [] a') rs.
Proof.
  intros state ambient sanitize split of_state a a' rs. generalize (@nil (tf_handler state)) as hs. revert a a'.
  induction rs as [|r rs IH]; intros a a' hs; [reflexivity|]. cbn [M_Rng.run].
  destruct r as [s|j|j|j]; cbn [M_Rng.step w_global w_handlers tmake tadvance].
  - destruct (tf_new state sanitize s); cbn [fst]; f_equal; apply IH.
  - destruct (nth_error hs j); [f_equal|]; apply IH.
  - destruct (nth_error hs j); [f_equal|]; apply IH.
  - destruct (nth_error hs j); [f_equal|]; apply IH.
Qed.
Print Assumptions C42_reproducible_tf.

(** What a handler answers, and the handlers derived from it, depend on its own requests only:
    in every program and for every interleaving with requests to other handlers - derived ones
    included - it answers as if it were used alone. *)
Theorem C42_isolated_jax : forall key ambient split randint prng_key pair_key np_randint hs (a : ambient) rs i h,
  Forall (fun h : jax_handler key => j_key h <> None) hs -> nth_error hs i = Some h ->
  events_of i (run _ _ _ _ (jmake key ambient prng_key pair_key np_randint) (jkernel key split randint) (jnext key split)
    (jadvance key ambient split randint prng_key pair_key np_randint) (mkWorld hs a) rs)
  = solo _ _ _ (jkernel key split randint) (jnext key split) (jadv key split randint prng_key) h (own_requests i rs).
Proof.
  intros key ambient split randint prng_key pair_key np_randint hs a rs i h G Hi.
  apply run_isolated with (good := jgood key); auto.
  - apply jpure.
  - apply jgood_next.
  - apply jgood_adv.
  - apply jgood_make.
Qed.
Print Assumptions C42_isolated_jax.
Theorem C42_isolated_tf : forall state ambient sanitize split of_state hs (a : ambient) rs i h,
  nth_error hs i = Some h ->
  events_of i (run _ _ _ _ (tmake state ambient sanitize) (tkernel state) (tnext state split)
    (tadvance state ambient split of_state) (mkWorld hs a) rs)
  = solo _ _ _ (tkernel state) (tnext state split) (tadv state split of_state) h (own_requests i rs).
Proof.
  intros state ambient sanitize split of_state hs a rs i h Hi.
  apply run_isolated with (good := fun _ => True); auto. apply Forall_forall. auto.
Qed.
Print Assumptions C42_isolated_tf.
(** Every handler a JAX program creates has a key: the hypothesis above holds of all of them. *)
Theorem C42_always_keyed : forall key ambient prng_key pair_key np_randint s (a : ambient) h a',
  jmake key ambient prng_key pair_key np_randint s a = (Ok h, a') -> j_key h <> None.
Proof. intros. eapply jgood_make. eassumption. Qed.
Print Assumptions C42_always_keyed.

(** Asking for a kernel seed does not advance a handler: leaving these requests out changes no
    other answer. *)
Theorem C42_kernel_seed_does_not_advance : forall H K N (kernel : H -> K) (next : H -> N * H) advance l h,
  filter (not_kernel_event H K N) (solo H K N kernel next advance h l)
  = solo H K N kernel next advance h (filter not_kernel l).
Proof. intros. apply kernel_pure. Qed.
Print Assumptions C42_kernel_seed_does_not_advance.

(** Successive requests use successive states: the answer to request number [n] is the fresh half
    of the split of the state after [n] splits. *)
Fixpoint iterate {A} (n : nat) (f : A -> A) (a : A) : A := match n with O => a | S n => iterate n f (f a) end.
Theorem C42_successive_jax : forall key split randint prng_key k n m, n < m ->
  nth_error (solo _ _ _ (jkernel key split randint) (jnext key split) (jadv key split randint prng_key)
               (mkJax (Some k)) (repeat ONext m)) n
  = Some (ENext (Some (snd (split (iterate n (fun k => fst (split k)) k))))).
Proof.
  intros key split randint prng_key k n m. revert k m. induction n as [|n IH]; intros k [|m] Hm; try lia; [reflexivity|].
  cbn [repeat solo nth_error jnext jax_next j_key snd iterate]. apply IH. lia.
Qed.
Print Assumptions C42_successive_jax.
Theorem C42_successive_tf : forall state split of_state s n m, n < m ->
  nth_error (solo _ _ _ (tkernel state) (tnext state split) (tadv state split of_state)
               (mkTf (Some s)) (repeat ONext m)) n
  = Some (ENext (Some (fst (split (iterate n (fun k => snd (split k)) s))))).
Proof.
  intros state split of_state s n m. revert s m. induction n as [|n IH]; intros s [|m] Hm; try lia; [reflexivity|].
  cbn [repeat solo nth_error tnext tf_next t_state snd iterate]. apply IH. lia.
Qed.
Print Assumptions C42_successive_tf.

(** Which seeds are accepted, by both backends: none, an integer, a pair. *)
Theorem C42_accepted : forall key ambient prng_key pair_key np_randint state sanitize s (a : ambient),
  (usable s <-> exists h, fst (jmake key ambient prng_key pair_key np_randint s a) = Ok h) /\
  (usable s <-> exists h, tf_new state sanitize s = Ok h) /\
  (~ usable s -> fst (jmake key ambient prng_key pair_key np_randint s a) = Err ValueError /\
                 tf_new state sanitize s = Err ValueError).
Proof.
  intros key ambient prng_key pair_key np_randint state sanitize [|z|[|x [|y [|w l]]]] a; cbn;
    try (destruct (np_randint max_int32 a)); cbn; repeat split; intros; try lia; eauto;
    match goal with Hx : exists _, _ |- _ => destruct Hx; discriminate end.
Qed.
Print Assumptions C42_accepted.

(** An integer is the pair of itself for TensorFlow; without seed all answers are empty. *)
Theorem C42_integer_is_pair_tf : forall state sanitize z,
  tf_new state sanitize (SInt z) = tf_new state sanitize (SSeq [z; z]).
Proof. reflexivity. Qed.
Print Assumptions C42_integer_is_pair_tf.
Theorem C42_unseeded_tf : forall state sanitize split of_state l h,
  tf_new state sanitize SNone = Ok h ->
  Forall (fun e => match e with EKernel k => k = None | ENext n => n = None | EChild h => t_state h = None | ERaised => False end)
    (solo _ _ _ (tkernel state) (tnext state split) (tadv state split of_state) h l).
Proof.
  intros state sanitize split of_state l h Hh. assert (h = mkTf None) by (cbn in Hh; congruence). subst h.
  induction l as [|[| |] l IH]; cbn; constructor; auto.
Qed.
Print Assumptions C42_unseeded_tf.

(** The kernel seeds of the batches of chains: the first ones do not depend on how many follow. *)
Theorem C42_batches_prefix : forall H K (kernel : H -> K) advance n m h, n <= m ->
  batch_seeds H K kernel advance n h = firstn n (batch_seeds H K kernel advance m h).
Proof.
  intros H K kernel advance n. induction n as [|n IH]; intros [|m] h Hm; try lia; try reflexivity.
  cbn [batch_seeds firstn]. f_equal. apply IH. lia.
Qed.
Print Assumptions C42_batches_prefix.

(** Refuted: [advance_handler] returns a handler independent of what was handed out before.  For
    JAX it is the handler of the very integer that was handed out as kernel seed. *)
Theorem C42_advance_independent_refuted : forall key ambient split randint prng_key pair_key np_randint (h : jax_handler key) z (a : ambient),
  jkernel key split randint h = Some z ->
  exists h2 h3 a', jadvance key ambient split randint prng_key pair_key np_randint h a = (Ok h2, h3, a') /\
    jmake key ambient prng_key pair_key np_randint (SInt z) a = (Ok h2, a').
Proof.
  intros key ambient split randint prng_key pair_key np_randint [[k|]] z a E; [|discriminate].
  assert (z = randint (snd (split k)) 0%Z (2 ^ 31 - 1)%Z) by (unfold jkernel, jax_kernel in E; cbn [j_key] in E; congruence). subst z.
  eexists _, _, _. split; [reflexivity|]. reflexivity.
Qed.
Print Assumptions C42_advance_independent_refuted.

(** *** A concrete program, with counters for generators: two handlers, interleaved. *)
Definition ex_split (k : Z) : Z * Z := (2 * k, 2 * k + 1)%Z.
Definition ex_program : list request := [New (SInt 3); Next 0; Advance 0; Kernel 1; Next 1; Next 0; New (SSeq [1; 2; 3]%Z)].
Definition ex_run (a : Z) := run _ _ _ _ (jmake Z Z (fun z => z) (fun x y => (x + y)%Z) (fun n a => (a, a + 1)%Z))
  (jkernel Z ex_split (fun k _ _ => k)) (jnext Z ex_split)
  (jadvance Z Z ex_split (fun k _ _ => k) (fun z => z) (fun x y => (x + y)%Z) (fun n a => (a, a + 1)%Z))
  (mkWorld [] a) ex_program.
Example C42_example :
  Forall seeded ex_program /\
  ex_run 5 = ex_run 9 /\
  map snd (ex_run 5) = [EChild (mkJax (Some 3)); ENext (Some 7); EChild (mkJax (Some 13)); EKernel (Some 27);
                        ENext (Some 27); ENext (Some 25); ERaised]%Z /\
  own_requests 0 ex_program = [ONext; OAdvance; ONext].
Proof. repeat split; try reflexivity. repeat constructor. Qed.
(** A program that is not seeded depends on the global state. *)
Example C42_unseeded_example :
  run _ _ _ _ (jmake Z Z (fun z => z) (fun x y => (x + y)%Z) (fun n a => (a, a + 1)%Z))
    (jkernel Z ex_split (fun k _ _ => k)) (jnext Z ex_split)
    (jadvance Z Z ex_split (fun k _ _ => k) (fun z => z) (fun x y => (x + y)%Z) (fun n a => (a, a + 1)%Z))
    (mkWorld [] 5%Z) [New SNone; Next 0]
  <> run _ _ _ _ (jmake Z Z (fun z => z) (fun x y => (x + y)%Z) (fun n a => (a, a + 1)%Z))
    (jkernel Z ex_split (fun k _ _ => k)) (jnext Z ex_split)
    (jadvance Z Z ex_split (fun k _ _ => k) (fun z => z) (fun x y => (x + y)%Z) (fun n a => (a, a + 1)%Z))
    (mkWorld [] 6%Z) [New SNone; Next 0].
Proof. discriminate. Qed.
