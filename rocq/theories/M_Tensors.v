(** Model of [DataTensors] and of the validation and filling in of counterfactual data
    (meridian/analysis/tensors.py, [DataTensorsBuilder]).  Elements are real numbers; the dates of
    the [time] tensor are represented by numbers too.  Casts to the float type are the identity. *)
From Coq Require Import Reals List Arith Bool.
From Verif Require Import M_Base.
Import ListNotations.
Local Open Scope nat_scope.
Local Open Scope list_scope.

(** tensors.py:280-292: the fields of [DataTensors], in the order of the data class. *)
Inductive field := Media | MediaSpend | Reach | Frequency | RfImpressions | RfSpend | OrganicMedia
  | OrganicReach | OrganicFrequency | NonMediaTreatments | Controls | RevenuePerKpi | Time.
Definition field_eq_dec (a b : field) : {a = b} + {a <> b}.
Proof. decide equality. Defined.
Definition fields : list field :=
  [Media; MediaSpend; Reach; Frequency; RfImpressions; RfSpend; OrganicMedia; OrganicReach;
   OrganicFrequency; NonMediaTreatments; Controls; RevenuePerKpi; Time].
Definition is (a b : field) : bool := if field_eq_dec a b then true else false.
Definition among (f : field) (l : list field) : bool := existsb (is f) l.

(** A tensor: its shape and its elements, by index. *)
Record tensor := mkTensor { sh : list nat; el : list nat -> R }.
Definition ndim (x : tensor) : nat := length (sh x).
(** [x.shape[i]] and [x.shape[-1]]: an error when there is no such dimension. *)
Definition dim (i : nat) (x : tensor) : result nat :=
  match nth_error (sh x) i with Some n => Ok n | None => Err IndexError end.
Definition last_dim (x : tensor) : result nat :=
  match rev (sh x) with n :: _ => Ok n | [] => Err IndexError end.

Definition data := field -> option tensor.
Definition no_data : data := fun _ => None.

(** tensors.py:505-522 [_validate_n_dims] (with 79-85 [_check_n_dims]). *)
Definition ranks (f : field) : list nat :=
  match f with
  | RevenuePerKpi => [2]
  | MediaSpend | RfSpend => [1; 3]
  | Time => [1]
  | _ => [3]
  end.
Fixpoint validate_n_dims (d : data) (l : list field) : result unit :=
  match l with
  | [] => Ok tt
  | f :: l =>
      match d f with
      | None => validate_n_dims d l
      | Some x => raise_if (negb (existsb (Nat.eqb (ndim x)) (ranks f))) ValueError (validate_n_dims d l)
      end
  end.
(** tensors.py:294-372: the constructor. *)
Definition data_tensors (d : data) : result data := rbind (validate_n_dims d fields) (fun _ => Ok d).

(** The model context, as far as it is used here: the arrays of the input data and the sizes.
    media.py:109-110, 262-268: the tensors of the model are the arrays of the input data. *)
Record context := mkContext {
  x_input : field -> option tensor;  (* no entry for [RfImpressions] *)
  x_n_geos : nat; x_n_times : nat; x_n_media_times : nat;
  x_n_media_channels : nat; x_n_rf_channels : nat; x_n_organic_rf_channels : nat
}.
Definition mul (a b : tensor) : tensor := mkTensor (sh a) (fun i => (el a i * el b i)%R).
(** The model's own tensor of a field: [model_context.rf_tensors.rf_impressions] (media.py:264-267),
    the array of the input data for all other fields. *)
Definition own (x : context) (f : field) : option tensor :=
  match f with
  | RfImpressions =>
      match x_input x Reach, x_input x Frequency with
      | Some r, Some q => Some (mul r q)
      | _, _ => None
      end
  | _ => x_input x f
  end.

(** tensors.py:632-665 [get_modified_times]. *)
Definition modified (new old : option tensor) : option nat :=
  match new, old with
  | Some n, Some o =>
      if (1 <? ndim n) && (1 <? ndim o) && negb (nth 1 (sh n) 0 =? nth 1 (sh o) 0)
      then Some (nth 1 (sh n) 0) else None
  | _, _ => None
  end.
Fixpoint first_some {A B} (f : A -> option B) (l : list A) : option B :=
  match l with
  | [] => None
  | a :: l => match f a with Some b => Some b | None => first_some f l end
  end.
Definition get_modified_times (x : context) (d : data) : option nat :=
  first_some (fun f => modified (d f) (own x f)) fields.

(** tensors.py:702-730 [_validate_correct_variables_filled]; the warnings are the result. *)
Fixpoint validate_variables (x : context) (d : data) (required : list field) (l : list field) : result (list field) :=
  match l with
  | [] => Ok []
  | f :: l =>
      match d f with
      | None => validate_variables x d required l
      | Some _ =>
          if is f Time then validate_variables x d required l
          else if among f required then
            raise_if (if is f RfImpressions then x_n_rf_channels x =? 0
                      else match x_input x f with None => true | Some _ => false end) ValueError
              (validate_variables x d required l)
          else rbind (validate_variables x d required l) (fun w => Ok (f :: w))
      end
  end.

(** tensors.py:732-750 [_validate_geo_dims]. *)
Fixpoint validate_geo_dims (x : context) (d : data) (l : list field) : result unit :=
  match l with
  | [] => Ok tt
  | f :: l =>
      match d f with
      | None => validate_geo_dims x d l
      | Some n =>
          rbind (dim 0 n) (fun g =>
            raise_if (negb (g =? x_n_geos x) && negb (ndim n =? 1)) ValueError (validate_geo_dims x d l))
      end
  end.

(** tensors.py:752-772 [_validate_channel_dims]; the failing assertion is a [RuntimeError]. *)
Fixpoint validate_channel_dims (x : context) (d : data) (l : list field) : result unit :=
  match l with
  | [] => Ok tt
  | f :: l =>
      if is f RevenuePerKpi || is f Time then validate_channel_dims x d l
      else
        match d f with
        | None => validate_channel_dims x d l
        | Some n =>
            match own x f with
            | None => Err RuntimeError
            | Some o =>
                rbind (last_dim n) (fun a => rbind (last_dim o) (fun b =>
                  raise_if (negb (a =? b)) ValueError (validate_channel_dims x d l)))
            end
        end
  end.

Definition is_spend (f : field) : bool := is f MediaSpend || is f RfSpend.

(** tensors.py:774-809 [_validate_time_dims]. *)
Fixpoint validate_time_dims (x : context) (d : data) (l : list field) : result unit :=
  match l with
  | [] => Ok tt
  | f :: l =>
      match d f with
      | None => validate_time_dims x d l
      | Some n =>
          if is_spend f && (ndim n =? 1) then validate_time_dims x d l
          else
            match own x f with
            | None => Err RuntimeError
            | Some o =>
                rbind (if is f Time
                       then rbind (dim 0 n) (fun a => rbind (dim 0 o) (fun b => Ok (negb (a =? b))))
                       else Ok false) (fun wrong =>
                if wrong then Err ValueError
                else if 1 <? ndim n
                then rbind (dim 1 n) (fun a => rbind (dim 1 o) (fun b =>
                       raise_if (negb (a =? b)) ValueError (validate_time_dims x d l)))
                else validate_time_dims x d l)
            end
      end
  end.

(** tensors.py:811-867 [_validate_time_dims_flexible_times]; the result is the list of missing
    tensors.  The message of the error for [time] (line 839) indexes the shape out of range. *)
Fixpoint validate_flexible (x : context) (d : data) (t : nat) (l : list field) : result (list field) :=
  match l with
  | [] => Ok []
  | f :: l =>
      match own x f with
      | None => validate_flexible x d t l
      | Some _ =>
          match d f with
          | None => rbind (validate_flexible x d t l) (fun m => Ok (f :: m))
          | Some n =>
              rbind (if is f Time then rbind (dim 0 n) (fun a => Ok (negb (a =? t))) else Ok false) (fun wrong_time =>
              if wrong_time then rbind (dim 1 n) (fun _ => Err ValueError)
              else raise_if (is_spend f && (ndim n =? 1)) ValueError
                (if 1 <? ndim n
                 then rbind (dim 1 n) (fun a => raise_if (negb (a =? t)) ValueError (validate_flexible x d t l))
                 else validate_flexible x d t l))
          end
      end
  end.
Definition validate_time_dims_flexible (x : context) (d : data) (required : list field) : result unit :=
  match get_modified_times x d with
  | None => Ok tt
  | Some t =>
      rbind (validate_flexible x d t required) (fun missing =>
        match missing with [] => Ok tt | _ => Err ValueError end)
  end.

(** tensors.py:869-909 [_fill_default_values].  All fields but these have a default: line 904 is
    never reached. *)
Definition fill_default_values (x : context) (d : data) (required : list field) : result data :=
  data_tensors (fun f =>
    match f, d Time with
    | Time, Some t => Some t
    | _, _ =>
        if among f required then match d f with Some n => Some n | None => own x f end
        else None
    end).

(** tensors.py:667-700 [_validate_and_fill_missing_data] (455-502 [validate_and_fill_missing_data]);
    also returns the fields warned about. *)
Definition validate_and_fill (x : context) (d : data) (required : list field) (allow_modified_times : bool)
    : result (data * list field) :=
  rbind (validate_variables x d required fields) (fun warned =>
  rbind (validate_geo_dims x d required) (fun _ =>
  rbind (validate_channel_dims x d required) (fun _ =>
  rbind (if allow_modified_times then validate_time_dims_flexible x d required
         else validate_time_dims x d required) (fun _ =>
  rbind (fill_default_values x d required) (fun out => Ok (out, warned)))))).

(** *** Adjustments: tensors.py:1009-1109 [_build_unscaled_data_tensors] *)
(** The optimal frequency: a number, or one number per channel. *)
Inductive freq := FScalar (q : R) | FVector (l : list R).
(** [backend.ones_like(x) * f] for a tensor of rank 3: broadcasting along the last axis.  A single
    element spreads over the channels, and a single channel over the elements. *)
Definition ones_times (x : tensor) (f : freq) : result tensor :=
  match f with
  | FScalar q => Ok (mkTensor (sh x) (fun _ => q))
  | FVector l =>
      rbind (last_dim x) (fun c =>
        if length l =? c then Ok (mkTensor (sh x) (fun i => nth (last i 0) l 0%R))
        else if length l =? 1 then Ok (mkTensor (sh x) (fun _ => nth 0 l 0%R))
        else if c =? 1 then Ok (mkTensor (removelast (sh x) ++ [length l]) (fun i => nth (last i 0) l 0%R))
        else Err ValueError)
  end.
(** [a / b], where [b] is as large as [a] or larger in the last axis; a quotient by zero is not a
    number in the code and has no meaning here. *)
Definition div (a b : tensor) : tensor :=
  mkTensor (sh b) (fun i =>
    (el a (if match rev (sh a) with 1%nat :: _ => true | _ => false end then removelast i ++ [0%nat] else i) / el b i)%R).
(** [dataclasses.replace]; the ranks it checks again do not change here. *)
Definition put (f : field) (v : option tensor) (d : data) : data := fun g => if field_eq_dec g f then v else d g.

Definition adjust_frequency (x : context) (d : data) (q : freq) : result data :=
  rbind (if 0 <? x_n_rf_channels x then
           match (match d RfImpressions with
                  | Some i => Some i
                  | None => match d Reach, d Frequency with Some r, Some f => Some (mul r f) | _, _ => None end
                  end) with
           | Some imp => rbind (ones_times imp q) (fun nf => Ok (Some (div imp nf), Some nf))
           | None => Ok (d Reach, d Frequency)
           end
         else Ok (d Reach, d Frequency)) (fun rf =>
  rbind (if 0 <? x_n_organic_rf_channels x then
           match d OrganicFrequency, d OrganicReach with
           | Some f, Some r => rbind (ones_times f q) (fun nf => Ok (Some (div (mul r f) nf), Some nf))
           | _, _ => Ok (d OrganicReach, d OrganicFrequency)
           end
         else Ok (d OrganicReach, d OrganicFrequency)) (fun orf =>
  Ok (put Reach (fst rf) (put Frequency (snd rf) (put OrganicReach (fst orf) (put OrganicFrequency (snd orf) d)))))).

Definition ones (s : list nat) : tensor := mkTensor s (fun _ => 1%R).
(** [a or b] for an optional number: zero counts as missing. *)
Definition or_else (a : option nat) (b : nat) : nat :=
  match a with Some (S n) => S n | _ => b end.
Definition insert_dummy (x : context) (d : data) : data :=
  let t := get_modified_times x d in
  put Media (Some (ones [x_n_geos x; or_else t (x_n_media_times x); x_n_media_channels x]))
    (put MediaSpend (Some (ones [x_n_geos x; or_else t (x_n_times x); x_n_media_channels x])) d).

Definition build_unscaled (x : context) (new_data : option data) (required : option (list field))
    (optimal_frequency : option freq) (insert_dummy_media : bool) : result data :=
  let d := match new_data with Some d => d | None => no_data end in
  rbind (match required with
         | Some r => rbind (validate_and_fill x d r true) (fun o => Ok (fst o))
         | None => Ok d
         end) (fun d =>
  rbind (match optimal_frequency with Some q => adjust_frequency x d q | None => Ok d end) (fun d =>
  let d := if insert_dummy_media && (0 <? x_n_media_channels x) then insert_dummy x d else d in
  Ok (put RfImpressions None d))).
