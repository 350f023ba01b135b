(** Model of meridian/data/arg_builder.py: [OrderedListArgumentBuilder], and of the methods of
    meridian/data/input_data.py that create such builders. *)
From Coq Require Import String List Bool.
From Verif Require Import M_Base.
Import ListNotations.
Local Open Scope list_scope.

Section Builder.
Context {A : Type}.

(** Keyword arguments of a call: names with values; a value may be [None].  Python keeps the names
    distinct.  (arg_builder.py:92) *)
Definition kwargs := list (string * option A).

(** [kwargs.get(c, default)]. *)
Fixpoint lookup (c : string) (kw : kwargs) : option (option A) :=
  match kw with
  | [] => None
  | (n, v) :: r => if string_dec n c then Some v else lookup c r
  end.
Definition get (c : string) (default : option A) (kw : kwargs) : option A :=
  match lookup c kw with Some v => v | None => default end.

(** [set(a) == set(b)]. *)
Definition mem (s : string) (l : list string) : bool := if in_dec string_dec s l then true else false.
Definition same_set (a b : list string) : bool :=
  forallb (fun s => mem s b) a && forallb (fun s => mem s a) b.

(** arg_builder.py:69-71 [__init__]: the state of a builder. *)
Record builder := mkBuilder { b_coords : list string; b_default : option A }.
Definition new_builder (coords : list string) : builder := mkBuilder coords None.

(** arg_builder.py:73-90 [with_default_value]: mutates the builder and returns it. *)
Definition with_default_value (v : option A) (b : builder) : builder := mkBuilder (b_coords b) v.

(** arg_builder.py:92-110 [__call__].  The result may contain [None]s, as in Python. *)
Definition call (b : builder) (kw : kwargs) : result (list (option A)) :=
  raise_if (match b_default b with None => true | Some _ => false end
            && negb (same_set (map fst kw) (b_coords b))) ValueError
    (Ok (map (fun c => get c (b_default b) kw) (b_coords b))).
End Builder.
Arguments kwargs A : clear implicits.
Arguments builder A : clear implicits.

(** The channel names of the input data (input_data.py, the [..._channel] attributes). *)
Record channel_names := mkNames {
  cn_media : option (list string);
  cn_rf : option (list string);
  cn_organic_media : option (list string);
  cn_organic_rf : option (list string)
}.

(** input_data.py:956-978 [get_all_paid_channels]. *)
Definition all_paid (d : channel_names) : result (list string) :=
  match cn_media d, cn_rf d with
  | Some a, Some b => Ok (a ++ b)
  | None, Some b => Ok b
  | Some a, None => Ok a
  | None, None => Err ValueError
  end.

(** input_data.py:1007-1047: the five [get_..._argument_builder] methods. *)
Inductive builder_kind := KPaid | KMedia | KRf | KOrganicMedia | KOrganicRf.
Definition need (o : option (list string)) : result (list string) :=
  match o with Some l => Ok l | None => Err ValueError end.
Definition argument_builder (A : Type) (d : channel_names) (k : builder_kind) : result (builder A) :=
  rbind (match k with
         | KPaid => all_paid d
         | KMedia => need (cn_media d)
         | KRf => need (cn_rf d)
         | KOrganicMedia => need (cn_organic_media d)
         | KOrganicRf => need (cn_organic_rf d)
         end) (fun l => Ok (new_builder l)).
