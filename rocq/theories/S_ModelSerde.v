(** Vocabulary of property C74: which models can be saved, and what a loaded model has to agree on. *)
From Coq Require Import Reals ZArith String List Bool.
From Verif Require Import M_Base M_Hyper S_Hyper M_DistSerde M_InputData S_Marketing M_ModelSerde.
Import ListNotations.
Local Open Scope string_scope.
Local Open Scope nat_scope.
Local Open Scope list_scope.

(** A group of samples comes back with the same coordinates and variables, and the same attributes but for the
    time of creation. *)
Definition group_after (g g' : dataset) : Prop :=
  ds_coords g' = ds_coords g /\ ds_vars g' = ds_vars g /\
  (forall a, In a (ds_attrs g') <-> In a (ds_attrs g) /\ fst a <> "created_at").
Definition samples_after (s s' : samples) : Prop :=
  both group_after (s_prior s) (s_prior s') /\ both group_after (s_posterior s) (s_posterior s') /\
  Forall2 (fun g g' => fst g' = fst g /\ group_after (snd g) (snd g')) (s_aux s) (s_aux s').

(** Whole numbers in the samples fit 32 bits. *)
Definition in_group (g : dataset) (a : nc_array) : Prop := (exists n, In (n, a) (ds_coords g)) \/ (exists n dims, In (n, (dims, a)) (ds_vars g)).
Definition in_samples (s : samples) (g : dataset) : Prop := s_prior s = Some g \/ s_posterior s = Some g \/ exists n, In (n, g) (s_aux s).
Definition integers_fit (s : samples) : Prop := forall g l z, in_samples s g -> in_group g (NcInts l) -> In z l -> fits32 z.

(** Samples of the parameters of a model with the given data and number of knots: every coordinate has as many
    labels as the model has geos, controls, ...; a coordinate the model does not have may be absent. *)
Definition labelled (g : dataset) (coord : string) (n : nat) : Prop :=
  (exists a, lookup coord (ds_coords g) = Some a /\ nc_size a = n) \/ (lookup coord (ds_coords g) = None /\ n = 0).
Definition number (o : option panel) (n : nat) : Prop := match o with Some p => length (p_names p) = n | None => n = 0 end.
Definition group_fits (d : input) (knots : nat) (g : dataset) : Prop :=
  labelled g "geo" (length (m_geos (i_kpi d))) /\ labelled g "time" (length (m_times (i_kpi d))) /\ labelled g "knots" knots /\
  (exists n, number (i_controls d) n /\ labelled g "control_variable" n) /\
  (exists n, number (i_media d) n /\ labelled g "media_channel" n) /\
  (exists n, number (i_reach d) n /\ labelled g "rf_channel" n) /\
  (exists n, number (i_organic_media d) n /\ labelled g "organic_media_channel" n) /\
  (exists n, number (i_organic_reach d) n /\ labelled g "organic_rf_channel" n) /\
  (exists n, number (i_non_media d) n /\ labelled g "non_media_channel" n).
Definition samples_fit (d : input) (knots : nat) (s : samples) : Prop :=
  forall g, s_prior s = Some g \/ s_posterior s = Some g -> group_fits d knots g.

(** The functions of the data checks are registered; no key is empty. *)
Definition eda_registered (reg : registry) (e : eda) : Prop :=
  ~ In "" (map fst reg) /\ forall n f, In (n, f) (e_controls e ++ e_non_media e) -> In f (map snd reg).

(** [v] is an earlier version than [w]. *)
Definition earlier (v w : version) : Prop :=
  match v, w with (v1, v2, v3), (w1, w2, w3) => (v1 < w1 \/ (v1 = w1 /\ (v2 < w2 \/ (v2 = w2 /\ v3 < w3))))%Z end.
