(** Model of what meridian/model/context.py finds by channel name: the decay and saturation
    functions of [ModelSpec] spread over the channels, [get_channel_parameters],
    [get_channel_parameter_tensor] and [get_media_scaling_factor]. *)
From Coq Require Import String Reals List Bool Arith.
From Verif Require Import M_Base M_AdstockHill M_Equations M_Transformers M_ArgBuilder.
Import ListNotations.
Local Open Scope string_scope.
Local Open Scope list_scope.

(** The four kinds of channels with adstock and Hill transformations. *)
Inductive adstock_kind := AMedia | ARf | AOrganicMedia | AOrganicRf.
Definition all_kinds : list adstock_kind := [AMedia; ARf; AOrganicMedia; AOrganicRf].

(** The names in the input data that the methods read. *)
Record name_data := mkNameData {
  nd_channels : channel_names;
  nd_non_media : option (list string);
  nd_controls : option (list string)
}.
Definition names_of (d : name_data) (k : adstock_kind) : option (list string) :=
  match k with
  | AMedia => cn_media (nd_channels d) | ARf => cn_rf (nd_channels d)
  | AOrganicMedia => cn_organic_media (nd_channels d) | AOrganicRf => cn_organic_rf (nd_channels d)
  end.
Definition listed (o : option (list string)) : list string := match o with Some l => l | None => [] end.

(** input_data.py:981-1005 [get_all_adstock_hill_channels]. *)
Definition all_adstock_hill_channels (d : name_data) : result (list string) :=
  raise_if (forallb (fun k => match names_of d k with None => true | Some _ => false end) all_kinds) ValueError
    (Ok (flat_map (fun k => listed (names_of d k)) all_kinds)).

(** spec.py: [adstock_decay_spec] and [saturation_spec]: a name for all channels, or a mapping
    from channel names to names of functions (keys are distinct). *)
Inductive function_spec := SpecName (s : string) | SpecMap (m : list (string * string)).

(** A member of [AdstockDecaySpec] or [SaturationSpec]: one name or one name by channel. *)
Inductive functions := FOne (s : string) | FList (l : list string).

(** arg_builder.py:92: the mapping is given as keyword arguments to a method whose first parameter
    is called "self"; a key "self" meets that bound argument. *)
Definition call_with_map (b : builder string) (m : list (string * string)) : result (list string) :=
  raise_if (mem "self" (map fst m)) TypeError
    (rbind (call b (map (fun p => (fst p, Some (snd p))) m)) (fun l =>
     Ok (map (fun o => match o with Some s => s | None => "" end) l))).

(** context.py:959-962 and 1037-1040: unknown keys. *)
Definition check_keys (d : name_data) (m : list (string * string)) : result unit :=
  match m with
  | [] => Ok tt
  | _ => rbind (all_adstock_hill_channels d) (fun l =>
           raise_if (negb (forallb (fun p => mem (fst p) l) m)) KeyError (Ok tt))
  end.

(** context.py:964-998 and 1042-1073: the members from a mapping, kind by kind. *)
Definition builder_of (k : adstock_kind) : builder_kind :=
  match k with
  | AMedia => M_ArgBuilder.KMedia | ARf => M_ArgBuilder.KRf
  | AOrganicMedia => M_ArgBuilder.KOrganicMedia | AOrganicRf => M_ArgBuilder.KOrganicRf
  end.
Definition functions_from_map (d : name_data) (default : string) (m : list (string * string)) (k : adstock_kind)
    : result functions :=
  match names_of d k with
  | None => Ok (FOne default)
  | Some _ =>
      rbind (argument_builder string (nd_channels d) (builder_of k)) (fun b =>
      rbind (call_with_map (with_default_value (Some default) b) m) (fun l => Ok (FList l)))
  end.

(** [AdstockDecaySpec] or [SaturationSpec]. *)
Record channel_functions := mkFunctions {
  cf_media : functions; cf_rf : functions; cf_organic_media : functions; cf_organic_rf : functions
}.
Definition cf_of (fs : channel_functions) (k : adstock_kind) : functions :=
  match k with
  | AMedia => cf_media fs | ARf => cf_rf fs
  | AOrganicMedia => cf_organic_media fs | AOrganicRf => cf_organic_rf fs
  end.
Definition create_from_map (d : name_data) (default : string) (m : list (string * string))
    : result channel_functions :=
  rbind (check_keys d m) (fun _ =>
  rbind (functions_from_map d default m AMedia) (fun a =>
  rbind (functions_from_map d default m ARf) (fun b =>
  rbind (functions_from_map d default m AOrganicMedia) (fun c =>
  rbind (functions_from_map d default m AOrganicRf) (fun e =>
  Ok (mkFunctions a b c e)))))).

(** adstock_hill.py:77-99 [__post_init__], constants.py:589-592. *)
Definition ADSTOCK_DECAY_FUNCTIONS : list string := ["geometric"; "binomial"].
Definition known_functions (f : functions) : bool :=
  match f with
  | FOne s => mem s ADSTOCK_DECAY_FUNCTIONS
  | FList l => forallb (fun s => mem s ADSTOCK_DECAY_FUNCTIONS) l
  end.
Definition validate_decay_spec (fs : channel_functions) : result channel_functions :=
  raise_if (negb (forallb (fun k => known_functions (cf_of fs k)) all_kinds)) ValueError (Ok fs).

(** [try: ... except KeyError as e: raise ValueError(...)]. *)
Definition key_error_to_value_error {A} (r : result A) : result A :=
  match r with Err KeyError => Err ValueError | _ => r end.

(** context.py:936-1007 [adstock_decay_spec]. *)
Definition adstock_decay_spec (d : name_data) (s : function_spec) : result channel_functions :=
  match s with
  | SpecName f => validate_decay_spec (mkFunctions (FOne f) (FOne f) (FOne f) (FOne f))
  | SpecMap m => key_error_to_value_error (rbind (create_from_map d "geometric" m) validate_decay_spec)
  end.

(** context.py:1009-1080 [saturation_spec]; [ModelSpec] has checked the names of the functions. *)
Definition saturation_spec (d : name_data) (s : function_spec) : result channel_functions :=
  match s with
  | SpecName f => Ok (mkFunctions (FOne f) (FOne f) (FOne f) (FOne f))
  | SpecMap m => key_error_to_value_error (create_from_map d "hill" m)
  end.

(** The arguments the transformations of equations.py get (M_AdstockHill, M_Equations). *)
Definition to_decay (s : string) : decay :=
  if String.eqb s "geometric" then Geometric else if String.eqb s "binomial" then Binomial else OtherDecay.
Definition to_decay_arg (f : functions) : decay_arg :=
  match f with FOne s => DOne (to_decay s) | FList l => DSeq (map to_decay l) end.
Definition to_sat (s : string) : sat :=
  if String.eqb s "hill" then Hill else if String.eqb s "none" then NoSat else OtherSat.
Definition to_sat_arg (f : functions) : sat_arg :=
  match f with FOne s => SOne (to_sat s) | FList l => SSeq (map to_sat l) end.

(** [list.index]. *)
Fixpoint index_of (s : string) (l : list string) : option nat :=
  match l with
  | [] => None
  | a :: r => if String.eqb a s then Some 0%nat else option_map S (index_of s r)
  end.

(** The first kind, in the order of the [configs] lists, that has the name. *)
Fixpoint find_kind (d : name_data) (name : string) (ks : list adstock_kind) : option (adstock_kind * nat) :=
  match ks with
  | [] => None
  | k :: r => match index_of name (listed (names_of d k)) with
              | Some i => Some (k, i)
              | None => find_kind d name r
              end
  end.

(** context.py:42-61 [ChannelParameters] and [_get_decay]. *)
Record channel_parameters := mkChannelParameters {
  cp_index : nat; cp_prefix : string; cp_decay : string; cp_is_rf : bool
}.
Definition prefix_of (k : adstock_kind) : string :=
  match k with AMedia => "m" | ARf => "rf" | AOrganicMedia => "om" | AOrganicRf => "orf" end.
Definition kind_is_rf (k : adstock_kind) : bool :=
  match k with ARf | AOrganicRf => true | _ => false end.
Definition get_decay (f : functions) (i : nat) : result string :=
  match f with
  | FOne s => Ok s
  | FList l => match nth_error l i with Some s => Ok s | None => Err IndexError end
  end.

(** context.py:1273-1312 [get_channel_parameters]. *)
Definition get_channel_parameters (d : name_data) (s : function_spec) (name : string) : result channel_parameters :=
  rbind (adstock_decay_spec d s) (fun fs =>
  match find_kind d name all_kinds with
  | None => Err ValueError
  | Some (k, i) => rbind (get_decay (cf_of fs k) i) (fun f =>
      Ok (mkChannelParameters i (prefix_of k) f (kind_is_rf k)))
  end).

(** context.py:1197-1271 [get_media_scaling_factor]: the factor by geo; [tr] are the transformers
    of the model (reach for channels with reach and frequency). *)
Definition get_media_scaling_factor (d : name_data) (tr : adstock_kind -> option media_transformer) (name : string)
    : result (nat -> R) :=
  if mem name (listed (nd_non_media d)) then Err ValueError
  else if mem name (listed (nd_controls d)) then Err ValueError
  else match find_kind d name all_kinds with
       | None => Err ValueError
       | Some (k, i) => match tr k with
                        | None => Err ValueError
                        | Some t => Ok (fun g => scale_factors_gm t g i)
                        end
       end.

(** tensors.py:526-548 [DistributionTensors]: its attributes; the ones that are set hold a list of
    slices by channel (the last axis). *)
Definition DIST_FIELDS : list string :=
  ["alpha_m"; "alpha_rf"; "alpha_om"; "alpha_orf"; "ec_m"; "ec_rf"; "ec_om"; "ec_orf";
   "slope_m"; "slope_rf"; "slope_om"; "slope_orf"; "beta_gm"; "beta_grf"; "beta_gom"; "beta_gorf";
   "mu_t"; "tau_g"; "gamma_gc"; "gamma_gn"].
(** [getattr]: [None] if there is no such attribute, [Some None] if it is [None]. *)
Definition dist_attr {A} (t : string -> option (list A)) (name : string) : option (option (list A)) :=
  if mem name DIST_FIELDS then Some (t name) else None.

(** context.py:1314-1349 [get_channel_parameter_tensor]. *)
Definition full_param_name (base prefix : string) : string :=
  if String.eqb base "beta_g" then String.append base prefix
  else String.append base (String.append "_" prefix).
Definition get_channel_parameter_tensor {A} (d : name_data) (s : function_spec)
    (t : string -> option (list A)) (base name : string) : result A :=
  rbind (get_channel_parameters d s name) (fun p =>
  match dist_attr t (full_param_name base (cp_prefix p)) with
  | None => Err ValueError
  | Some None => Err TypeError
  | Some (Some l) => match nth_error l (cp_index p) with Some a => Ok a | None => Err IndexError end
  end).
