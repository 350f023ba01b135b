(** Specification of stored draws and of what a model accepts back. *)
From Coq Require Import String Reals List Bool Arith Permutation.
From Verif Require Import M_Base M_Analyzer M_Joint M_Restore.
From Verif Require M_Review M_PriorDraws.
Import ListNotations.
Local Open Scope string_scope.
Local Open Scope nat_scope.
Local Open Scope list_scope.

(** Each kind of data comes with one name per channel or variable. *)
Definition named (o : option (list string)) (t : option T3) : Prop :=
  match o, t with Some l, Some y => length l = chans y | None, None => True | _, _ => False end.
Definition names_ok (x : M_Analyzer.model) (nm : names) : Prop :=
  let d := x_data x in
  named (nm_controls nm) (d_controls d) /\ named (nm_non_media nm) (d_non_media d) /\
  named (nm_media nm) (d_media d) /\ named (nm_rf nm) (d_reach d) /\
  named (nm_organic_media nm) (d_organic_media d) /\ named (nm_organic_rf nm) (d_organic_reach d).
(** The noise: one parameter for each geo, or a single one. *)
Definition noise_ok (x : M_Analyzer.model) (s : spec) (unique : bool) : Prop :=
  j_sigmas s = if unique then x_n_geos x else 1.

(** The kinds of media: suffix of the parameters, names of the channels. *)
Inductive media_kind := Media | Rf | OrganicMedia | OrganicRf.
Definition suffix (k : media_kind) : string :=
  match k with Media => "m" | Rf => "rf" | OrganicMedia => "om" | OrganicRf => "orf" end.
Definition channels_of (nm : names) (k : media_kind) : list label :=
  of_names (match k with Media => nm_media nm | Rf => nm_rf nm | OrganicMedia => nm_organic_media nm
                       | OrganicRf => nm_organic_rf nm end).
Definition channel_parameters : list string :=
  ["alpha_"; "ec_"; "eta_"; "slope_"; "beta_"; "roi_"; "mroi_"; "contribution_"].

(** What the entries of one draw of a parameter stand for, axis by axis. *)
Inductive stands_for (x : M_Analyzer.model) (nm : names) (s : spec) (unique : bool) : string -> list (list label) -> Prop :=
| sf_channel : forall k p, In p channel_parameters -> stands_for x nm s unique (String.append p (suffix k)) [channels_of nm k]
| sf_geo_channel : forall k,
    stands_for x nm s unique (String.append "beta_g" (suffix k)) [map LName (x_geo x); channels_of nm k]
| sf_knots : stands_for x nm s unique "knot_values" [map LIndex (seq 0 (j_knots s))]
| sf_tau : stands_for x nm s unique "tau_g" [map LName (x_geo x)]
| sf_mu : stands_for x nm s unique "mu_t" [map LName (x_time x)]
| sf_sigma : stands_for x nm s unique "sigma" (if unique then [map LName (x_geo x)] else [])
| sf_control : forall p, In p ["gamma_c"; "xi_c"] -> stands_for x nm s unique p [of_names (nm_controls nm)]
| sf_geo_control : stands_for x nm s unique "gamma_gc" [map LName (x_geo x); of_names (nm_controls nm)]
| sf_non_media : forall p, In p ["gamma_n"; "xi_n"; "contribution_n"] ->
    stands_for x nm s unique p [of_names (nm_non_media nm)]
| sf_geo_non_media : stands_for x nm s unique "gamma_gn" [map LName (x_geo x); of_names (nm_non_media nm)].

(** Labels of a dimension of a group. *)
Definition labelled_by (g : group) (d : string) (l : list label) : Prop :=
  In (d, l) (gr_coords g) /\ forall l', In (d, l') (gr_coords g) -> l' = l.

(** A group holds exactly the saved parameters, each labelled by chain, draw and what its entries
    stand for. *)
Definition stored_well (x : M_Analyzer.model) (nm : names) (s : spec) (unique : bool) (n_chains n_draws : nat)
    (l : list node) (g : group) : Prop :=
  map fst (gr_vars g) = map fst (M_PriorDraws.saved l) /\
  forall name dims, In (name, dims) (gr_vars g) -> exists ds ls, dims = "chain" :: "draw" :: ds /\
    stands_for x nm s unique name ls /\ Forall2 (labelled_by g) ds ls /\
    labelled_by g "chain" (map LIndex (seq 0 n_chains)) /\ labelled_by g "draw" (map LIndex (seq 0 n_draws)).

(** The number of labels of a dimension, zero if it is not there. *)
Definition has_size (g : group) (d : string) (n : nat) : Prop :=
  (exists l, In (d, l) (gr_coords g) /\ length l = n) \/ (n = 0 /\ forall l, ~ In (d, l) (gr_coords g)).
(** Labels of a dimension are unambiguous. *)
Definition one_labelling (g : group) : Prop :=
  forall d l l', In (d, l) (gr_coords g) -> In (d, l') (gr_coords g) -> l = l'.
Definition sizes_agree (x : M_Analyzer.model) (n_knots : nat) (g : group) : Prop :=
  let d := x_data x in
  has_size g "geo" (length (x_geo x)) /\ has_size g "time" (x_n_times x) /\ has_size g "knots" n_knots /\
  has_size g "control_variable" (n_chans (d_controls d)) /\ has_size g "non_media_channel" (n_chans (d_non_media d)) /\
  has_size g "media_channel" (n_chans (d_media d)) /\ has_size g "rf_channel" (n_chans (d_reach d)) /\
  has_size g "organic_media_channel" (n_chans (d_organic_media d)) /\
  has_size g "organic_rf_channel" (n_chans (d_organic_reach d)).

(** A health summary that a model of [n] paid channels accepts: a failed convergence check alone, or
    one result of each of the checks of the model, optionally with the shift check, and then
    optionally with the ROI check, the last two with one entry per paid channel. *)
Definition entries_per_channel (n : nat) (r : M_Review.check_result) : Prop :=
  match r with
  | M_Review.ShiftR c => length (M_Review.sh_channels c) = n
  | M_Review.RoiR c => length (M_Review.ro_channels c) = n
  | _ => True
  end.
Definition acceptable (n : nat) (rs : list M_Review.check_result) : Prop :=
  (exists c, rs = [M_Review.ConvergenceR c] /\ M_Review.cv_case c = M_Review.NotConverged) \/
  (exists c b p q t gof rest,
     Permutation rs (M_Review.ConvergenceR c :: M_Review.BaselineR b p :: M_Review.PppR q t :: M_Review.GofR gof :: rest) /\
     (rest = [] \/ (exists sh, rest = [M_Review.ShiftR sh]) \/
      (exists sh roi, rest = [M_Review.ShiftR sh; M_Review.RoiR roi]))) /\
  Forall (entries_per_channel n) rs.
