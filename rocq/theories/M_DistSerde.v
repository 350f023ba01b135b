(** Model of meridian/schema/serde/distribution.py (the [PriorTfpDistributions] message) and of
    meridian/schema/serde/function_registry.py: how prior distributions are written and read.

    A distribution or bijector is its class name and its constructor parameters ([dist.parameters]);
    building it again from a name and parameters gives an object with that name and those parameters.
    The checks of the constructor of [PriorDistribution] (bounds of the supports) are not modelled, nor
    are the legacy enumerated messages. *)
From Coq Require Import Reals ZArith String List Bool.
From Verif Require Import M_Base M_Hyper.
Import ListNotations.
Local Open Scope string_scope.
Local Open Scope list_scope.

(** An array: whether its type is a floating one, its shape and its entries.  The conversion of arrays
    to messages is the subject of M_TensorProto. *)
Record tensor := mkTensor { t_floating : bool; t_shape : list nat; t_entries : list R }.

(** The values of constructor parameters.  A function is represented by its identity.  [VOther] is
    everything that is not matched before, as [np.asarray] sees it: an array, or nothing that can be
    stored ([None]: a TypeError). *)
Inductive value :=
  | VFloat (x : R) | VInt (z : Z) | VBool (b : bool) | VStr (s : string) | VNone
  | VList (l : list value) | VDict (l : list (string * value))
  | VDist (cls : string) (params : list (string * value))
  | VBij (cls : string) (params : list (string * value))
  | VReparam (fully : bool)
  | VFun (f : nat)
  | VOther (a : option tensor).

(** meridian_model.proto:646-725 [TfpDistribution], [TfpParameterValue], [TfpBijector]. *)
Inductive pvalue :=
  | PUnset
  | PScalar (x : R) | PInt (z : Z) | PBool (b : bool) | PStr (s : string) | PNone
  | PList (l : list pvalue) | PDict (l : list (string * pvalue))
  | PDist (cls : string) (params : list (string * pvalue))
  | PBij (cls : string) (params : list (string * pvalue))
  | PReparam (fully : bool)
  | PFunKey (k : string) | PFunDefault | PFunUnset
  | PTensor (a : tensor).

(** A registry of custom functions; its keys are distinct as it is a dict. *)
Definition registry := list (string * nat).

Section Serde.
(** Rounding of a number stored in a single precision field, and to the backend's type. *)
Variables f32 fbk : R -> R.
(** What [tfd] and [bijectors] know: the classes, and the parameters of their constructors - [None]:
    no such parameter; [Some None]: no default, or one that is not a function. *)
Variable known_dist known_bij : string -> bool.
Variable default_of : bool -> string -> string -> option (option nat).
(** [inspect.getsource]; [None] when the source cannot be retrieved. *)
Variable source : nat -> option string.
Variable hash : string -> string.

(** function_registry.py:138-143 [get_function_key]. *)
Definition get_function_key (reg : registry) (f : nat) : option string :=
  option_map fst (find (fun e => Nat.eqb (snd e) f) reg).

Definition custom (cls : string) : bool := String.eqb cls "IndependentMultivariateDistribution".

(** distribution.py:160-277 [_to_distribution_proto], [_to_bijector_proto] and
    [_to_parameter_value_proto]; [bij], [cls]: the class whose parameter [name] is being written.
    A Python bool is matched by [int()] (204) before [bool()] (208). *)
Fixpoint to_pvalue (reg : registry) (bij : bool) (cls name : string) (v : value) : result pvalue :=
  match v with
  | VFloat x => Ok (PScalar (f32 x))
  | VInt z => rbind (int32 z) (fun z => Ok (PInt z))
  | VBool b => Ok (PInt (if b then 1 else 0))
  | VStr s => Ok (PStr s)
  | VNone => Ok PNone
  | VList l =>
      rbind ((fix go l := match l with [] => Ok []
               | x :: r => rbind (to_pvalue reg bij cls name x) (fun y => rbind (go r) (fun ys => Ok (y :: ys))) end) l)
        (fun ys => Ok (PList ys))
  | VDict l =>
      rbind ((fix go l := match l with [] => Ok []
               | (k, x) :: r => rbind (to_pvalue reg bij cls name x) (fun y => rbind (go r) (fun ys => Ok ((k, y) :: ys))) end) l)
        (fun ys => Ok (PDict ys))
  | VDist c ps =>
      raise_if (negb (custom c || known_dist c)) AttributeError
      (rbind ((fix go l := match l with [] => Ok []
               | (k, x) :: r => rbind (to_pvalue reg false c k x) (fun y => rbind (go r) (fun ys => Ok ((k, y) :: ys))) end) ps)
        (fun ys => Ok (PDist c ys)))
  | VBij c ps =>
      raise_if (negb (known_bij c)) AttributeError
      (rbind ((fix go l := match l with [] => Ok []
               | (k, x) :: r => rbind (to_pvalue reg true c k x) (fun y => rbind (go r) (fun ys => Ok ((k, y) :: ys))) end) ps)
        (fun ys => Ok (PBij c ys)))
  | VReparam b => Ok (PReparam b)
  | VFun f =>
      match default_of bij cls name with
      | None => Err KeyError
      | Some d =>
          if match d with Some g => Nat.eqb g f | None => false end then Ok PFunDefault
          else match get_function_key reg f with Some k => Ok (PFunKey k) | None => Err ValueError end
      end
  | VOther (Some a) => Ok (PTensor a)
  | VOther None => Err TypeError
  end.

(** distribution.py:279-380 [_from_distribution_proto], [_from_bijector_proto] and
    [_unpack_tfp_parameters].  Inside a dict the key takes the place of the parameter's name. *)
Fixpoint of_pvalue (reg : registry) (bij : bool) (cls name : string) (p : pvalue) : result value :=
  match p with
  | PUnset => Err ValueError
  | PScalar x => Ok (VFloat (fbk x))
  | PInt z => Ok (VInt z)
  | PBool b => Ok (VBool b)
  | PStr s => Ok (VStr s)
  | PNone => Ok VNone
  | PList l =>
      rbind ((fix go l := match l with [] => Ok []
               | x :: r => rbind (of_pvalue reg bij cls name x) (fun y => rbind (go r) (fun ys => Ok (y :: ys))) end) l)
        (fun ys => Ok (VList ys))
  | PDict l =>
      rbind ((fix go l := match l with [] => Ok []
               | (k, x) :: r => rbind (of_pvalue reg bij cls k x) (fun y => rbind (go r) (fun ys => Ok ((k, y) :: ys))) end) l)
        (fun ys => Ok (VDict ys))
  | PDist c ps =>
      raise_if (negb (custom c || known_dist c)) AttributeError
      (rbind ((fix go l := match l with [] => Ok []
               | (k, x) :: r => rbind (of_pvalue reg false c k x) (fun y => rbind (go r) (fun ys => Ok ((k, y) :: ys))) end) ps)
        (fun ys => Ok (VDist c ys)))
  | PBij c ps =>
      raise_if (negb (known_bij c)) AttributeError
      (rbind ((fix go l := match l with [] => Ok []
               | (k, x) :: r => rbind (of_pvalue reg true c k x) (fun y => rbind (go r) (fun ys => Ok ((k, y) :: ys))) end) ps)
        (fun ys => Ok (VBij c ys)))
  | PReparam b => Ok (VReparam b)
  | PFunKey k => match lookup k reg with Some f => Ok (VFun f) | None => Err ValueError end
  | PFunDefault => match default_of bij cls name with
                   | None => Err KeyError
                   | Some (Some f) => Ok (VFun f)
                   | Some None => Ok (VOther None)     (* whatever the default is, not a function *)
                   end
  | PFunUnset => Err ValueError
  | PTensor a => Ok (VOther (Some (if t_floating a then mkTensor true (t_shape a) (map fbk (t_entries a)) else a)))
  end.

(** function_registry.py:91-97 [hashed_registry]; the error is a SourceCodeRetrievalError. *)
Definition hashed_registry (reg : registry) : result (list (string * string)) :=
  all_ok (fun e => match source (snd e) with Some s => Ok (fst e, hash s) | None => Err RuntimeError end) reg.

(** function_registry.py:99-136 [validate]. *)
Fixpoint validate_entries (reg : registry) (stored : list (string * string)) : result unit :=
  match stored with
  | [] => Ok tt
  | (k, h) :: r =>
      match lookup k reg with
      | None => Err ValueError
      | Some f => match source f with
                  | None => Err ValueError
                  | Some s => if String.eqb h (hash s) then validate_entries reg r else Err ValueError
                  end
      end
  end.
Definition validate (reg : registry) (stored : list (string * string)) : result unit :=
  match stored, reg with
  | [], _ :: _ => Ok tt     (* warning: custom functions will be ignored *)
  | _, _ => validate_entries reg stored
  end.

(** A [PriorDistribution]: its parameters (constants.py:458-469 lists all of them) with their
    distributions; the message has the parameters that are set and the hashed registry. *)
Record prior_proto := mkPriorProto { pp_params : list (string * pvalue); pp_registry : list (string * string) }.

(** distribution.py:72-84 [serialize]. *)
Definition serialize_prior (reg : registry) (prior : list (string * value)) : result prior_proto :=
  rbind (all_ok (fun e => rbind (to_pvalue reg false "" "" (snd e)) (fun p => Ok (fst e, p))) prior) (fun ps =>
  rbind (hashed_registry reg) (fun h => Ok (mkPriorProto ps h))).

(** distribution.py:86-158 [deserialize]. *)
Definition deserialize_prior (reg : registry) (force : bool) (p : prior_proto) : result (list (string * value)) :=
  all_ok (fun e => rbind (if force then Ok tt else validate reg (pp_registry p)) (fun _ =>
                   rbind (of_pvalue reg false "" "" (snd e)) (fun v => Ok (fst e, v)))) (pp_params p).
End Serde.
