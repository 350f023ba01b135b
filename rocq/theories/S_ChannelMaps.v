(** Specification of what is found by channel name. *)
From Coq Require Import String Reals List Bool Arith.
From Verif Require Import M_Base M_AdstockHill M_Equations M_Transformers M_ArgBuilder M_ChannelMaps.
Import ListNotations.
Local Open Scope string_scope.
Local Open Scope list_scope.

(** Channel number [i] of kind [k] is called [name]. *)
Definition channel_at (d : name_data) (k : adstock_kind) (i : nat) (name : string) : Prop :=
  exists l, names_of d k = Some l /\ nth_error l i = Some name.
Definition a_channel (d : name_data) (name : string) : Prop := exists k i, channel_at d k i name.

(** Channel names are distinct, as [InputData] checks. *)
Definition distinct_names (d : name_data) : Prop :=
  NoDup (flat_map (fun k => listed (names_of d k)) all_kinds ++ listed (nd_non_media d)).

(** A Python mapping has each key once. *)
Definition proper_map (m : list (string * string)) : Prop := NoDup (map fst m).

(** The function the user chose for a channel: the one of the mapping, or the default. *)
Definition chosen (s : function_spec) (default name f : string) : Prop :=
  match s with
  | SpecName g => f = g
  | SpecMap m => In (name, f) m \/ (~ In name (map fst m) /\ f = default)
  end.

(** The function channel [i] of kind [k] gets. *)
Definition gets (fs : channel_functions) (k : adstock_kind) (i : nat) (f : string) : Prop :=
  match cf_of fs k with FOne g => f = g | FList l => nth_error l i = Some f end.

(** Which parameters a channel has. *)
Definition by_channel (base : string) : Prop :=
  base = "alpha" \/ base = "ec" \/ base = "slope" \/ base = "beta_g".
Definition tensor_name (base : string) (k : adstock_kind) : string :=
  if string_dec base "beta_g"
  then match k with AMedia => "beta_gm" | ARf => "beta_grf" | AOrganicMedia => "beta_gom" | AOrganicRf => "beta_gorf" end
  else if string_dec base "alpha"
  then match k with AMedia => "alpha_m" | ARf => "alpha_rf" | AOrganicMedia => "alpha_om" | AOrganicRf => "alpha_orf" end
  else if string_dec base "ec"
  then match k with AMedia => "ec_m" | ARf => "ec_rf" | AOrganicMedia => "ec_om" | AOrganicRf => "ec_orf" end
  else match k with AMedia => "slope_m" | ARf => "slope_rf" | AOrganicMedia => "slope_om" | AOrganicRf => "slope_orf" end.
