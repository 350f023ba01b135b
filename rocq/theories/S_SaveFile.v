(** Vocabulary of property C75: when a model file can be written. *)
From Coq Require Import NArith String List Bool.
From Verif Require Import M_SaveFile.
Import ListNotations.
Local Open Scope string_scope.
Local Open Scope nat_scope.
Local Open Scope list_scope.

Definition binary (path : string) : Prop := exists name, path = String.append name ".binpb".
Definition text (path : string) : Prop := exists name, path = String.append name ".txtpb" \/ path = String.append name ".textproto".

(** A file or directory of that name. *)
Definition is_there (s : fs) (p : string) : Prop := is_dir s p = true \/ contents s p <> None.
(** A directory that is not there and can be made, with those it is in. *)
Inductive creatable (s : fs) : string -> Prop :=
  | in_directory : forall d, d <> "" -> ~ is_there s d -> dirname d = "" \/ is_dir s (dirname d) = true -> creatable s d
  | in_creatable : forall d, d <> "" -> ~ is_there s d -> creatable s (dirname d) -> creatable s d.

(** What the exception or the model of a call is. *)
Definition outcome_of {A} (r : M_Base.result A) : A + file_error :=
  match r with M_Base.Ok a => inl a | M_Base.Err e => inr (PyError e) end.

(** The two messages of a model are read as they were written, in both formats. *)
Definition readable (Marketing Model Object : Type) (encode_marketing : Marketing -> bytes) (decode_marketing : bytes -> option Marketing)
    (encode_model : Model -> bytes) (decode_model : bytes -> option Model) (print_text : Marketing * option Model -> bytes)
    (parse_text : bytes -> option (Marketing * option Model)) (serialize : Object -> M_Base.result (Marketing * option Model)) (m : Object) : Prop :=
  forall mk md, serialize m = M_Base.Ok (mk, Some md) ->
    decode_marketing (encode_marketing mk) = Some mk /\ decode_model (encode_model md) = Some md /\
    parse_text (print_text (mk, Some md)) = Some (mk, Some md).
