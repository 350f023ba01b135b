(** Model of [save_meridian] and [load_meridian] (meridian/schema/serde/meridian_serde.py:414-503): the files
    that are written and read, step by step, and the outer layer of the protobuf wire format.

    Simplifications: a path is a string that names one file (no links, no two names of a file); what the system
    writes of a file appears in order, so that a crash leaves a beginning of it; permissions and full disks are
    not modelled other than as such a crash.  The bytes of the two messages inside a kernel, and its text
    format, are parameters. *)
From Coq Require Import NArith String Ascii List Bool.
From Verif Require M_Base.
Import ListNotations.
Local Open Scope string_scope.
Local Open Scope nat_scope.
Local Open Scope list_scope.

(** *** Paths *)
(** [str.endswith]. *)
Definition ends_with (suffix s : string) : bool :=
  Nat.leb (String.length suffix) (String.length s) &&
  String.eqb (String.substring (String.length s - String.length suffix) (String.length suffix) s) suffix.
(** [os.path.dirname] (posixpath): what is before the last slash, without the slashes at its end unless there is
    nothing else. *)
Definition slash : ascii := "/"%char.
Fixpoint strip_slashes (l : list ascii) : list ascii :=
  match l with c :: r => if Ascii.eqb c slash then strip_slashes r else l | [] => [] end.
Fixpoint drop_name (l : list ascii) : list ascii :=
  match l with c :: r => if Ascii.eqb c slash then l else drop_name r | [] => [] end.
Definition dirname (path : string) : string :=
  let head := drop_name (rev (list_ascii_of_string path)) in
  string_of_list_ascii (rev (match strip_slashes head with [] => head | l => l end)).

(** *** Files *)
Definition bytes := list N.
Record fs := mkFs { is_dir : string -> bool; contents : string -> option bytes }.
(** [os.path.exists]; the empty path does not exist. *)
Definition exists_ (s : fs) (p : string) : bool :=
  negb (String.eqb p "") && (is_dir s p || match contents s p with Some _ => true | None => false end).
Definition write (s : fs) (p : string) (b : bytes) : fs :=
  mkFs (is_dir s) (fun q => if String.eqb q p then Some b else contents s q).
Definition add_dir (s : fs) (p : string) : fs := mkFs (fun q => String.eqb q p || is_dir s q) (contents s).
(** A directory in which files can be created; the empty name is the current directory. *)
Definition inside (s : fs) (d : string) : bool := String.eqb d "" || is_dir s d.

(** Exceptions: of the operating system, of the protobuf library, and of the code ([PyError]). *)
Inductive file_error := OSError | DecodeError | EncodeError | PyError (A : M_Base.exn).

(** [os.mkdir]; [None] is an OSError (FileNotFoundError, FileExistsError, NotADirectoryError). *)
Definition mkdir (s : fs) (d : string) : option fs :=
  if String.eqb d "" || exists_ s d || negb (inside s (dirname d)) then None else Some (add_dir s d).
(** [os.makedirs]: the states after each directory, and whether it succeeded. *)
Fixpoint makedirs (fuel : nat) (s : fs) (d : string) : list fs * bool :=
  match fuel with
  | O => ([], false)
  | S fuel =>
      let head := dirname d in
      let '(before, ok) := if negb (String.eqb head "") && negb (exists_ s head) then makedirs fuel s head else ([], true) in
      let here := last before s in
      if ok then match mkdir here d with Some s' => (before ++ [s'], true) | None => (before, false) end
      else (before, false)
  end.

(** *** The wire format *)
(** A varint: seven bits per byte, least significant first; at most ten bytes. *)
Fixpoint varint (fuel : nat) (n : N) : bytes :=
  match fuel with
  | O => []
  | S f => if (n <? 128)%N then [n] else (128 + n mod 128)%N :: varint f (n / 128)
  end.
Fixpoint read_varint (fuel : nat) (l : bytes) : option (N * bytes) :=
  match fuel, l with
  | S f, b :: r => if (b <? 128)%N then Some (b, r)
                   else match read_varint f r with Some (n, r') => Some ((b - 128) + 128 * n, r')%N | None => None end
  | _, _ => None
  end.
(** A length-delimited field. *)
Definition field (number : N) (payload : bytes) : bytes :=
  varint 10 (8 * number + 2) ++ varint 10 (N.of_nat (length payload)) ++ payload.
(** The fields of a message: the payloads of the length-delimited ones; others are skipped.  [None]: the bytes
    are not those of a message.  Groups (wire types 3 and 4) are taken for errors. *)
Fixpoint fields (fuel : nat) (l : bytes) : option (list (N * bytes)) :=
  match fuel, l with
  | _, [] => Some []
  | O, _ => None
  | S f, _ =>
      match read_varint 10 l with
      | None => None
      | Some (tag, r) =>
          if (tag / 8 =? 0)%N then None else
          match (tag mod 8)%N with
          | 0%N => match read_varint 10 r with Some (_, r') => fields f r' | None => None end
          | 1%N => if Nat.leb 8 (length r) then fields f (skipn 8 r) else None
          | 5%N => if Nat.leb 4 (length r) then fields f (skipn 4 r) else None
          | 2%N => match read_varint 10 r with
                   | Some (n, r') =>
                       if (n <=? N.of_nat (length r'))%N then
                         match fields f (skipn (N.to_nat n) r') with
                         | Some fs => Some ((tag / 8, firstn (N.to_nat n) r') :: fs)%N
                         | None => None
                         end
                       else None
                   | None => None
                   end
          | _ => None
          end
      end
  end.
(** The payload of a message field: occurrences are merged, which is parsing them one after the other; [None] if
    it is not there. *)
Definition payload (number : N) (l : list (N * bytes)) : option bytes :=
  match filter (fun e => N.eqb (fst e) number) l with [] => None | ps => Some (flat_map snd ps) end.

Section Files.
(** [Marketing] and [Model] are the types of the two messages of a kernel (mmm_kernel.proto), [Object] is that of
    models. *)
Variables Marketing Model Object : Type.
Variable encode_marketing : Marketing -> bytes.
Variable decode_marketing : bytes -> option Marketing.
Variable no_marketing : Marketing.
Variable encode_model : Model -> bytes.
Variable decode_model : bytes -> option Model.
(** [None] for the model: the field is not set. *)
Definition message := (Marketing * option Model)%type.
Variable print_text : message -> bytes.
Variable parse_text : bytes -> option message.
(** Whether the library writes the marketing data first. *)
Variable data_first : bool.

(** [SerializeToString]: messages of 2 GB and more are refused. *)
Definition limit : N := 2147483648.
Definition encode (m : message) : option bytes :=
  let data := field 1 (encode_marketing (fst m)) in
  let model := match snd m with Some x => field 2 (encode_model x) | None => [] end in
  let all := if data_first then data ++ model else model ++ data in
  if (N.of_nat (length all) <? limit)%N then Some all else None.
(** [MmmKernel.FromString]. *)
Definition decode (b : bytes) : option message :=
  match fields (length b) b with
  | None => None
  | Some fs =>
      match match payload 1 fs with None => Some no_marketing | Some p => decode_marketing p end,
            match payload 2 fs with None => Some None | Some p => option_map Some (decode_model p) end with
      | Some mk, Some md => Some (mk, md)
      | _, _ => None
      end
  end.

(** [MeridianSerde().serialize] and [.deserialize] with the registries that were given. *)
Variable serialize : Object -> M_Base.result message.
Variable deserialize : message -> M_Base.result Object.

(** meridian_serde.py:441-455, after the directory exists: the states that follow and the exception. *)
Definition save_open (s : fs) (path : string) (m : Object) : list fs * option file_error :=
  if is_dir s path || negb (inside s (dirname path)) then ([], Some OSError) else
  let opened := write s path [] in
  match serialize m with
  | M_Base.Err e => ([opened], Some (PyError e))
  | M_Base.Ok k =>
      let all b := map (fun n => write s path (firstn n b)) (seq 0 (S (length b))) in
      if ends_with ".binpb" path then
        match encode k with Some b => (all b, None) | None => ([opened], Some EncodeError) end
      else if ends_with ".textproto" path || ends_with ".txtpb" path then (all (print_text k), None)
      else ([opened], Some (PyError M_Base.ValueError))
  end.
(** meridian_serde.py:414-455 [save_meridian]. *)
Definition save (s : fs) (path : string) (m : Object) : list fs * option file_error :=
  let d := dirname path in
  if exists_ s d then save_open s path m
  else let '(states, ok) := makedirs (String.length d) s d in
       if ok then let '(more, e) := save_open (last states s) path m in (states ++ more, e)
       else (states, Some OSError).

(** meridian_serde.py:458-503 [load_meridian]. *)
Definition load (s : fs) (path : string) : Object + file_error :=
  match contents s path with
  | None => inr OSError
  | Some b =>
      let parsed := if ends_with ".binpb" path then Some (decode b)
                    else if ends_with ".textproto" path || ends_with ".txtpb" path then Some (parse_text b) else None in
      match parsed with
      | None => inr (PyError M_Base.ValueError)
      | Some None => inr DecodeError
      | Some (Some k) => match deserialize k with M_Base.Ok m => inl m | M_Base.Err e => inr (PyError e) end
      end
  end.

(** What happens to the files: saves, each of which runs to its end ([None]) or is interrupted after some steps. *)
Record event := mkEvent { ev_path : string; ev_model : Object; ev_crash : option nat }.
Definition after (s : fs) (e : event) : fs :=
  let states := s :: fst (save s (ev_path e) (ev_model e)) in
  match ev_crash e with
  | None => last states s
  | Some n => nth n states (last states s)
  end.
Definition history (s : fs) (l : list event) : fs := fold_left after l s.
End Files.
