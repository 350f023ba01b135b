(** Vocabulary of property C71: what a reloaded prior has to agree on. *)
From Coq Require Import Reals ZArith String List Bool.
From Verif Require Import M_Base M_Hyper M_DistSerde.
Import ListNotations.
Local Open Scope string_scope.
Local Open Scope list_scope.

(** A reloaded value: same structure, same classes, same parameters; numbers rounded to single
    precision and then to the backend's type, arrays of numbers to the backend's type, a Python bool
    as the int it equals, and functions related by [same_function]. *)
Inductive reloaded (f32 fbk : R -> R) (same_function : nat -> nat -> Prop) : value -> value -> Prop :=
  | R_float : forall x, reloaded f32 fbk same_function (VFloat x) (VFloat (fbk (f32 x)))
  | R_int : forall z, reloaded f32 fbk same_function (VInt z) (VInt z)
  | R_bool : forall b, reloaded f32 fbk same_function (VBool b) (VInt (if b then 1 else 0))
  | R_str : forall s, reloaded f32 fbk same_function (VStr s) (VStr s)
  | R_none : reloaded f32 fbk same_function VNone VNone
  | R_list : forall l l', Forall2 (reloaded f32 fbk same_function) l l' ->
      reloaded f32 fbk same_function (VList l) (VList l')
  | R_dict : forall l l',
      Forall2 (fun e e' => fst e = fst e' /\ reloaded f32 fbk same_function (snd e) (snd e')) l l' ->
      reloaded f32 fbk same_function (VDict l) (VDict l')
  | R_dist : forall c l l',
      Forall2 (fun e e' => fst e = fst e' /\ reloaded f32 fbk same_function (snd e) (snd e')) l l' ->
      reloaded f32 fbk same_function (VDist c l) (VDist c l')
  | R_bij : forall c l l',
      Forall2 (fun e e' => fst e = fst e' /\ reloaded f32 fbk same_function (snd e) (snd e')) l l' ->
      reloaded f32 fbk same_function (VBij c l) (VBij c l')
  | R_reparam : forall b, reloaded f32 fbk same_function (VReparam b) (VReparam b)
  | R_fun : forall f f', same_function f f' -> reloaded f32 fbk same_function (VFun f) (VFun f')
  | R_tensor : forall fl s l,
      reloaded f32 fbk same_function (VOther (Some (mkTensor fl s l)))
        (VOther (Some (mkTensor fl s (if fl then map fbk l else l)))).
Definition reloaded_prior f32 fbk same_function (prior prior' : list (string * value)) : Prop :=
  Forall2 (fun e e' => fst e = fst e' /\ reloaded f32 fbk same_function (snd e) (snd e')) prior prior'.

(** What can be saved and loaded: known classes, 32-bit integers, arrays, and functions that are
    registered or the default of the parameter they are passed for - for a function inside a dict, also
    the default of the parameter named by its key ([name']). *)
Section Savable.
Variable known_dist known_bij : string -> bool.
Variable default_of : bool -> string -> string -> option (option nat).
Variable reg : registry.
Inductive savable (bij : bool) (cls name name' : string) : value -> Prop :=
  | SV_float : forall x, savable bij cls name name' (VFloat x)
  | SV_int : forall z, (-2147483648 <= z <= 2147483647)%Z -> savable bij cls name name' (VInt z)
  | SV_bool : forall b, savable bij cls name name' (VBool b)
  | SV_str : forall s, savable bij cls name name' (VStr s)
  | SV_none : savable bij cls name name' VNone
  | SV_list : forall l, Forall (savable bij cls name name') l -> savable bij cls name name' (VList l)
  | SV_dict : forall l, Forall (fun e => savable bij cls name (fst e) (snd e)) l -> savable bij cls name name' (VDict l)
  | SV_dist : forall c l, c = "IndependentMultivariateDistribution" \/ known_dist c = true ->
      Forall (fun e => savable false c (fst e) (fst e) (snd e)) l -> savable bij cls name name' (VDist c l)
  | SV_bij : forall c l, known_bij c = true ->
      Forall (fun e => savable true c (fst e) (fst e) (snd e)) l -> savable bij cls name name' (VBij c l)
  | SV_reparam : forall b, savable bij cls name name' (VReparam b)
  | SV_default : forall f, default_of bij cls name = Some (Some f) -> default_of bij cls name' = Some (Some f) ->
      savable bij cls name name' (VFun f)
  | SV_registered : forall f d, default_of bij cls name = Some d -> d <> Some f -> In f (map snd reg) ->
      savable bij cls name name' (VFun f)
  | SV_tensor : forall a, savable bij cls name name' (VOther (Some a)).
End Savable.

(** No function inside a dict. *)
Inductive plain_dicts : bool -> value -> Prop :=
  | PD_float : forall d x, plain_dicts d (VFloat x) | PD_int : forall d z, plain_dicts d (VInt z)
  | PD_bool : forall d b, plain_dicts d (VBool b) | PD_str : forall d s, plain_dicts d (VStr s)
  | PD_none : forall d, plain_dicts d VNone | PD_reparam : forall d b, plain_dicts d (VReparam b)
  | PD_other : forall d a, plain_dicts d (VOther a)
  | PD_fun : forall f, plain_dicts false (VFun f)
  | PD_list : forall d l, Forall (plain_dicts d) l -> plain_dicts d (VList l)
  | PD_dict : forall d l, Forall (fun e => plain_dicts true (snd e)) l -> plain_dicts d (VDict l)
  | PD_dist : forall d c l, Forall (fun e => plain_dicts false (snd e)) l -> plain_dicts d (VDist c l)
  | PD_bij : forall d c l, Forall (fun e => plain_dicts false (snd e)) l -> plain_dicts d (VBij c l).

(** A function occurs in a value. *)
Inductive occurs (f : nat) : value -> Prop :=
  | O_fun : occurs f (VFun f)
  | O_list : forall l v, In v l -> occurs f v -> occurs f (VList l)
  | O_dict : forall l k v, In (k, v) l -> occurs f v -> occurs f (VDict l)
  | O_dist : forall c l k v, In (k, v) l -> occurs f v -> occurs f (VDist c l)
  | O_bij : forall c l k v, In (k, v) l -> occurs f v -> occurs f (VBij c l).
