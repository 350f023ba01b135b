(** Model of meridian/backend/__init__.py: [_jax_make_tensor_proto] and [_jax_make_ndarray], the
    conversion between arrays and TensorProto messages used under the JAX backend.

    An element of an array is represented by its bytes (for strings: the UTF-8 bytes without
    trailing NULs, which NumPy does not keep); an array by its elements in row-major order. *)
From Coq Require Import ZArith List Bool.
From Verif Require Import M_Base.
Import ListNotations.
Local Open Scope list_scope.

Inductive dtype := F16 | F32 | F64 | I8 | I16 | I32 | I64 | U8 | U16 | U32 | U64 | C64 | C128 | BOOL
  | STR      (* NumPy kinds S and U *)
  | OTHER.   (* everything else: object, datetime64, ... *)
Definition dtype_eqb (a b : dtype) : bool :=
  match a, b with
  | F16, F16 | F32, F32 | F64, F64 | I8, I8 | I16, I16 | I32, I32 | I64, I64 | U8, U8 | U16, U16
  | U32, U32 | U64, U64 | C64, C64 | C128, C128 | BOOL, BOOL | STR, STR | OTHER, OTHER => true
  | _, _ => false
  end.

Definition byte := Z.
Definition element := list byte.
(** Bytes per element (NumPy's itemsize). *)
Definition itemsize (d : dtype) : nat :=
  match d with
  | I8 | U8 | BOOL => 1 | F16 | I16 | U16 => 2 | F32 | I32 | U32 => 4 | F64 | I64 | U64 | C64 => 8
  | C128 => 16 | STR | OTHER => 1
  end.

Record array := mkArray { a_dtype : dtype; a_shape : list nat; a_elements : list element }.
Definition prod (l : list nat) : nat := fold_right Nat.mul 1 l.
Definition size (a : array) : nat := prod (a_shape a).

(** The fields of a TensorProto that are used. *)
Record proto := mkProto {
  p_dtype : dtype; p_shape : list nat; p_content : list byte;
  p_float : list element; p_double : list element; p_int : list element; p_int64 : list element;
  p_bool : list element; p_uint32 : list element; p_uint64 : list element; p_string : list element
}.
Definition empty_proto (d : dtype) (s : list nat) : proto := mkProto d s [] [] [] [] [] [] [] [] [].

(** backend/__init__.py:322-400.  (The [dtype] argument, a conversion before the encoding, is not
    modelled.) *)
Definition make_tensor_proto (a : array) : result proto :=
  let d := a_dtype a in let s := a_shape a in let flat := a_elements a in
  raise_if (dtype_eqb d OTHER) TypeError
  (Ok (if negb (dtype_eqb d STR) && Nat.ltb 1 (size a)
       then mkProto d s (concat flat) [] [] [] [] [] [] [] []
       else match d with
            | F32 => mkProto d s [] flat [] [] [] [] [] [] []
            | F64 => mkProto d s [] [] flat [] [] [] [] [] []
            | I32 => mkProto d s [] [] [] flat [] [] [] [] []
            | I64 => mkProto d s [] [] [] [] flat [] [] [] []
            | BOOL => mkProto d s [] [] [] [] [] flat [] [] []
            | U32 => mkProto d s [] [] [] [] [] [] flat [] []
            | U64 => mkProto d s [] [] [] [] [] [] [] flat []
            | STR => mkProto d s [] [] [] [] [] [] [] [] flat
            | _ => mkProto d s (concat flat) [] [] [] [] [] [] [] []
            end)).

(** [np.frombuffer(content, dtype)]: consecutive chunks; the length must be a multiple. *)
Fixpoint chunks (fuel w : nat) (l : list byte) : list element :=
  match fuel with
  | O => []
  | S f => match l with [] => [] | _ => firstn w l :: chunks f w (skipn w l) end
  end.
Definition frombuffer (w : nat) (l : list byte) : result (list element) :=
  raise_if (Nat.eqb w 0) ValueError
  (raise_if (negb (Nat.eqb (length l mod w) 0)) ValueError (Ok (chunks (length l) w l))).
(** [np.array(...).reshape(shape)]. *)
Definition reshape (d : dtype) (s : list nat) (l : list element) : result array :=
  raise_if (negb (Nat.eqb (length l) (prod s))) ValueError (Ok (mkArray d s l)).
(** NumPy bytes strings lose their trailing NULs. *)
Fixpoint strip (e : element) : element :=
  match e with
  | [] => []
  | b :: r => match strip r with [] => if Z.eqb b 0 then [] else [b] | r' => b :: r' end
  end.

(** backend/__init__.py:403-473. *)
Definition make_ndarray (p : proto) : result array :=
  let d := p_dtype p in let s := p_shape p in
  raise_if (dtype_eqb d OTHER) TypeError
  (match p_content p with
   | _ :: _ =>
       let num := match s with [] => 0 | _ => prod s end in
       if dtype_eqb d STR && Nat.ltb 0 num then
         let w := length (p_content p) / num in
         raise_if (negb (Nat.eqb (w * num) (length (p_content p)))) ValueError
           (rbind (frombuffer w (p_content p)) (fun l => reshape d s (map strip l)))
       else if dtype_eqb d STR then Err ValueError   (* np.bytes_ has itemsize 0 *)
       else rbind (frombuffer (itemsize d) (p_content p)) (fun l => reshape d s l)
   | [] =>
       match d with
       | F32 => reshape d s (p_float p)
       | F64 => reshape d s (p_double p)
       | I32 => reshape d s (p_int p)
       | I64 => reshape d s (p_int64 p)
       | BOOL => reshape d s (p_bool p)
       | _ =>
           match p_string p with
           | _ :: _ => reshape STR s (map strip (p_string p))
           | [] => if forallb (fun n => Nat.eqb n 0) s then reshape d s [] else Err TypeError
           end
       end
   end).
