(** Specification of labelled incremental outcomes. *)
From Coq Require Import String Reals List Bool Arith.
From Verif Require Import M_Base M_Aggregate M_Analyzer S_Analyzer.
From Verif Require Import M_ArgBuilder M_ChannelMaps.
Import ListNotations.
Local Open Scope list_scope.

(** The names of the channels belong to the data: one list of names per kind of data. *)
Definition fits_names (l : option (list string)) (y : option T3) : Prop :=
  match l, y with
  | Some l, Some y => length l = chans y
  | None, None => True
  | _, _ => False
  end.
Definition names_ok (x : model) (d : name_data) : Prop :=
  fits_names (cn_media (nd_channels d)) (d_media (x_data x)) /\
  fits_names (cn_rf (nd_channels d)) (d_reach (x_data x)) /\
  fits_names (cn_organic_media (nd_channels d)) (d_organic_media (x_data x)) /\
  fits_names (cn_organic_rf (nd_channels d)) (d_organic_reach (x_data x)) /\
  fits_names (nd_non_media d) (d_non_media (x_data x)).

(** The name of a channel. *)
Definition channel_name (d : name_data) (ch : channel) : option string :=
  match ch with
  | ChMedia c => nth_error (listed (cn_media (nd_channels d))) c
  | ChRf c => nth_error (listed (cn_rf (nd_channels d))) c
  | ChOrganicMedia c => nth_error (listed (cn_organic_media (nd_channels d))) c
  | ChOrganicRf c => nth_error (listed (cn_organic_rf (nd_channels d))) c
  | ChNonMedia c => nth_error (listed (nd_non_media d)) c
  end.
