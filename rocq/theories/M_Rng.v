(** Model of the random state of meridian/backend/__init__.py: [_JaxRNGHandler] and
    [_TFRNGHandler], and of the way the samplers use it.  The generators themselves (JAX key
    splitting, TensorFlow stateless splitting) are parameters of the model: all theorems hold
    for every choice of them. *)
From Coq Require Import ZArith List Bool.
From Verif Require Import M_Base.
Import ListNotations.
Local Open Scope list_scope.

(** Seeds a caller may pass: [None], a Python integer, a sequence of integers.  (Scalar arrays
    and existing keys are not modelled.) *)
Inductive seed := SNone | SInt (z : Z) | SSeq (l : list Z).

(** backend/__init__.py:46. *)
Definition max_int32 : Z := 2147483647.

(** Requests to the handlers of a program; handlers are numbered in the order of creation. *)
Inductive request := New (s : seed) | Kernel (h : nat) | Next (h : nat) | Advance (h : nat).

Section Jax.
Variables (key ambient : Type) (split : key -> key * key) (randint : key -> Z -> Z -> Z)
  (prng_key : Z -> key) (pair_key : Z -> Z -> key)
  (* [np.random.randint(n)]: a number and the new state of the global NumPy generator *)
  (np_randint : Z -> ambient -> Z * ambient).

(** backend/__init__.py:1426-1468 [__init__]; [np.asarray] of a sequence of two integers has
    shape (2,) and integer dtype, other sequences have no integer value. *)
Record jax_handler := mkJax { j_key : option key }.
Definition jax_from_int (z : Z) : jax_handler := mkJax (Some (prng_key z)).
Definition jax_new (s : seed) (a : ambient) : result jax_handler * ambient :=
  match s with
  | SNone => let (z, a') := np_randint max_int32 a in (Ok (jax_from_int z), a')
  | SInt z => (Ok (jax_from_int z), a)
  | SSeq [x; y] => (Ok (mkJax (Some (pair_key x y))), a)
  | SSeq _ => (Err ValueError, a)
  end.

(** backend/__init__.py:1470-1474 [get_kernel_seed]. *)
Definition jax_kernel (h : jax_handler) : option Z :=
  match j_key h with None => None | Some k => Some (randint (snd (split k)) 0 (2 ^ 31 - 1)%Z) end.
(** backend/__init__.py:1476-1480 [get_next_seed]. *)
Definition jax_next (h : jax_handler) : option key * jax_handler :=
  match j_key h with
  | None => (None, h)
  | Some k => (Some (snd (split k)), mkJax (Some (fst (split k))))
  end.
(** backend/__init__.py:1482-1494 [advance_handler]: the new handler, the old one and the global
    state after the call. *)
Definition jax_advance (h : jax_handler) (a : ambient) : result jax_handler * jax_handler * ambient :=
  match j_key h with
  | None => let (r, a') := jax_new SNone a in (r, h, a')
  | Some k =>
      let (r, a') := jax_new (SInt (randint (snd (split k)) 0 max_int32)) a in
      (r, mkJax (Some (fst (split k))), a')
  end.
End Jax.
Arguments mkJax {key} _.
Arguments j_key {key} _.

Section Tf.
Variables (state : Type) (sanitize : Z -> Z -> state) (split : state -> state * state)
  (of_state : state -> state).   (* [sanitize_seed] of a stateless seed *)

(** backend/__init__.py:1503-1530 [__init__]. *)
Record tf_handler := mkTf { t_state : option state }.
Definition tf_new (s : seed) : result tf_handler :=
  match s with
  | SNone => Ok (mkTf None)
  | SInt z => Ok (mkTf (Some (sanitize z z)))
  | SSeq [x; y] => Ok (mkTf (Some (sanitize x y)))
  | SSeq _ => Err ValueError
  end.
(** backend/__init__.py:1532-1550. *)
Definition tf_kernel (h : tf_handler) : option state := t_state h.
Definition tf_next (h : tf_handler) : option state * tf_handler :=
  match t_state h with
  | None => (None, h)
  | Some s => (Some (fst (split s)), mkTf (Some (snd (split s))))
  end.
Definition tf_advance (h : tf_handler) : tf_handler * tf_handler :=
  match t_state h with
  | None => (mkTf None, h)
  | Some s => (mkTf (Some (of_state (fst (split s)))), mkTf (Some (snd (split s))))
  end.
End Tf.
Arguments mkTf {state} _.
Arguments t_state {state} _.

(** A program holding several handlers, for either backend: [kernel], [next] and [advance] are
    the methods, [make] the constructor; [G] is the global state they may use.  Every request is
    logged with the handler it was addressed to. *)
Section Program.
Variables (H K N G : Type) (make : seed -> G -> result H * G) (kernel : H -> K) (next : H -> N * H)
  (advance : H -> G -> result H * H * G).

Inductive event := EKernel (k : K) | ENext (n : N) | EChild (h : H) | ERaised.
Record world := mkWorld { w_handlers : list H; w_global : G }.

Fixpoint set_nth {A} (n : nat) (v : A) (l : list A) : list A :=
  match l, n with
  | [], _ => []
  | _ :: r, O => v :: r
  | a :: r, S n => a :: set_nth n v r
  end.

(** One request: what is logged (for which handler) and the world afterwards.  Requests to
    handlers that do not exist are ignored. *)
Definition step (w : world) (r : request) : option (nat * event) * world :=
  match r with
  | New s =>
      match make s (w_global w) with
      | (Ok h, g) => (Some (length (w_handlers w), EChild h), mkWorld (w_handlers w ++ [h]) g)
      | (Err _, g) => (Some (length (w_handlers w), ERaised), mkWorld (w_handlers w) g)
      end
  | Kernel i =>
      match nth_error (w_handlers w) i with
      | Some h => (Some (i, EKernel (kernel h)), w)
      | None => (None, w)
      end
  | Next i =>
      match nth_error (w_handlers w) i with
      | Some h => (Some (i, ENext (fst (next h))), mkWorld (set_nth i (snd (next h)) (w_handlers w)) (w_global w))
      | None => (None, w)
      end
  | Advance i =>
      match nth_error (w_handlers w) i with
      | Some h =>
          match advance h (w_global w) with
          | (Ok h', h, g) => (Some (i, EChild h'), mkWorld (set_nth i h (w_handlers w) ++ [h']) g)
          | (Err _, h, g) => (Some (i, ERaised), mkWorld (set_nth i h (w_handlers w)) g)
          end
      | None => (None, w)
      end
  end.
Fixpoint run (w : world) (rs : list request) : list (nat * event) :=
  match rs with
  | [] => []
  | r :: rest =>
      let (e, w') := step w r in
      match e with Some e => e :: run w' rest | None => run w' rest end
  end.
End Program.
Arguments EKernel {H K N}. Arguments ENext {H K N}. Arguments EChild {H K N}. Arguments ERaised {H K N}.
Arguments mkWorld {H G}.

(** posterior_sampler.py:982-1018 [__call__]: the seed of each batch of chains is the kernel seed
    of the current handler, which is then replaced by the one [advance_handler] returns. *)
Section Batches.
Variables (H K : Type) (kernel : H -> K) (advance : H -> H).
Fixpoint batch_seeds (n : nat) (h : H) : list K :=
  match n with O => [] | S n => kernel h :: batch_seeds n (advance h) end.
End Batches.
