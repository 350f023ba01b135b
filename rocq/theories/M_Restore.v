(** Model of how draws are stored with labels (meridian/model/context.py, constants.py, the
    conversion by ArviZ) and of the checks on stored draws and health summaries handed to a new
    model (meridian/model/model.py). *)
From Coq Require Import String Reals ZArith List Bool Arith.
From Verif Require Import M_Base M_Aggregate M_Analyzer M_Joint.
From Verif Require M_PriorDraws M_Review.
Import ListNotations.
Local Open Scope string_scope.
Local Open Scope nat_scope.
Local Open Scope list_scope.

(** ** Labels *)
(** A label of a dimension: a name, or a number ([np.arange]). *)
Inductive label := LName (s : string) | LIndex (i : nat).

(** The names in the input data (input_data.py, [None]: not there). *)
Record names := mkNames {
  nm_media_time : list string;
  nm_controls : option (list string);
  nm_non_media : option (list string);
  nm_media : option (list string);
  nm_rf : option (list string);
  nm_organic_media : option (list string);
  nm_organic_rf : option (list string)
}.

Definition of_names (o : option (list string)) : list label :=
  match o with Some l => map LName l | None => [] end.
Definition arange (n : nat) : list label := map LIndex (seq 0 n).

Definition assoc {A} (k : string) (l : list (string * A)) : option A :=
  match find (fun p => String.eqb k (fst p)) l with Some p => Some (snd p) | None => None end.

(** context.py:1082-1129 [create_inference_data_coords]. *)
Definition create_coords (x : M_Analyzer.model) (nm : names) (n_knots n_chains n_draws : nat)
    : list (string * list label) :=
  [("chain", arange n_chains); ("draw", arange n_draws);
   ("geo", map LName (x_geo x)); ("time", map LName (x_time x));
   ("media_time", map LName (nm_media_time nm)); ("knots", arange n_knots);
   ("control_variable", of_names (nm_controls nm));
   ("non_media_channel", of_names (nm_non_media nm));
   ("media_channel", of_names (nm_media nm)); ("rf_channel", of_names (nm_rf nm));
   ("organic_media_channel", of_names (nm_organic_media nm));
   ("organic_rf_channel", of_names (nm_organic_rf nm))].

(** constants.py:393-432, 436 and 538-557 [INFERENCE_DIMS]. *)
Definition inference_dims : list (string * list string) :=
  [("mu_t", ["time"]); ("knot_values", ["knots"]); ("tau_g", ["geo"]);
   ("beta_gm", ["geo"; "media_channel"]); ("beta_grf", ["geo"; "rf_channel"]);
   ("beta_gom", ["geo"; "organic_media_channel"]); ("beta_gorf", ["geo"; "organic_rf_channel"]);
   ("gamma_gc", ["geo"; "control_variable"]); ("gamma_gn", ["geo"; "non_media_channel"])]
  ++ map (fun p => (p, ["control_variable"])) ["gamma_c"; "xi_c"]
  ++ map (fun p => (p, ["non_media_channel"])) ["contribution_n"; "gamma_n"; "xi_n"]
  ++ map (fun p => (p, ["media_channel"]))
       ["roi_m"; "mroi_m"; "contribution_m"; "beta_m"; "eta_m"; "alpha_m"; "ec_m"; "slope_m"]
  ++ map (fun p => (p, ["rf_channel"]))
       ["roi_rf"; "mroi_rf"; "contribution_rf"; "beta_rf"; "eta_rf"; "alpha_rf"; "ec_rf"; "slope_rf"]
  ++ map (fun p => (p, ["organic_media_channel"]))
       ["contribution_om"; "beta_om"; "eta_om"; "alpha_om"; "ec_om"; "slope_om"]
  ++ map (fun p => (p, ["organic_rf_channel"]))
       ["contribution_orf"; "beta_orf"; "eta_orf"; "alpha_orf"; "ec_orf"; "slope_orf"].

(** context.py:1131-1142 [create_inference_data_dims]; [unique]: one sigma for each geo. *)
Definition create_dims (unique : bool) : list (string * list string) :=
  map (fun p => (fst p, ["chain"; "draw"] ++ snd p))
    (("sigma", if unique then ["geo"] else []) :: inference_dims).

(** ** Conversion (ArviZ [convert_to_inference_data], not in the repository) *)
(** A group of the inference data: dimensions of each variable, and the labels of the dimensions.
    A dimension occurs in [gr_coords] once for each variable that has it, with the same labels. *)
Record group := mkGroup {
  gr_vars : list (string * list string);
  gr_coords : list (string * list label)
}.
(** Only the labels of the dimensions of a variable are taken; an array whose axis has not the size
    of its labels is refused; a dimension without labels is numbered.  Axes after the given
    dimensions get numbered dimensions of their own name, which nothing here reads: left out. *)
Fixpoint label_axes (coords : list (string * list label)) (dims : list string) (shp : list nat)
    : result (list (string * list label)) :=
  match dims, shp with
  | [], _ => Ok []
  | _ :: _, [] => Err ValueError
  | d :: ds, n :: ns =>
      let l := match assoc d coords with Some l => l | None => arange n end in
      if Nat.eqb (length l) n
      then rbind (label_axes coords ds ns) (fun r => Ok ((d, l) :: r))
      else Err ValueError
  end.
Definition convert (coords : list (string * list label)) (dims : list (string * list string))
    (vars : list (string * list nat)) : result group :=
  rbind (mapM (fun v : string * list nat =>
           rbind (label_axes coords (match assoc (fst v) dims with Some d => d | None => ["chain"; "draw"] end) (snd v))
             (fun r => Ok (fst v, r))) vars) (fun l =>
  Ok (mkGroup (map (fun p : string * list (string * list label) => (fst p, map fst (snd p))) l)
        (concat (map snd l)))).

(** ** What is stored *)
(** The shape of one draw of a node (M_Joint holds vectors as matrices of one row): the coefficients
    by geo are matrices (posterior_sampler.py:349-361, 417-429, 471-480, 524-533, 561-566,
    606-610), the rest are vectors, and a single sigma is a scalar (prior_distribution.py:898-902). *)
Definition by_geo (name : string) : bool :=
  existsb (String.eqb name) ["beta_gm"; "beta_grf"; "beta_gom"; "beta_gorf"; "gamma_gc"; "gamma_gn"].
Definition node_shape (unique : bool) (n : node) : list nat :=
  match nd_dist n with
  | DPrior k => if String.eqb (nd_name n) "sigma" && negb unique then [] else [k]
  | DStdNormal k m | DNormal k m _ _ => [k; m]
  | DDeterministic k m _ => if by_geo (nd_name n) then [k; m] else [m]
  end.
Definition stored_vars (unique : bool) (n_chains n_draws : nat) (l : list node) : list (string * list nat) :=
  map (fun n => (nd_name n, n_chains :: n_draws :: node_shape unique n))
    (filter (fun n => negb (M_PriorDraws.unsaved (nd_name n))) l).
(** model.py:1018-1039 [sample_prior] (one chain) and posterior_sampler.py:1053-1062: the draws
    (nodes of M_Joint or M_PriorDraws) with their labels. *)
Definition store (x : M_Analyzer.model) (nm : names) (s : spec) (unique : bool) (n_chains n_draws : nat)
    (l : list node) : result group :=
  convert (create_coords x nm (j_knots s) n_chains n_draws) (create_dims unique)
    (stored_vars unique n_chains n_draws l).

(** ** Checks of stored draws *)
(** model.py:576-603 [_validate_injected_inference_data_group_coord]. *)
Definition coord_size (g : group) (c : string) : nat :=
  match assoc c (gr_coords g) with Some l => length l | None => 0 end.
Definition validate_coord (g : group) (c : string) (expected : nat) : result unit :=
  raise_if (negb (Nat.eqb (coord_size g c) expected)) ValueError (Ok tt).
Definition x_n_controls (x : M_Analyzer.model) : nat := n_chans (d_controls (x_data x)).
(** model.py:605-669 [_validate_injected_inference_data_group]. *)
Definition validate_group (x : M_Analyzer.model) (n_knots : nat) (g : group) : result unit :=
  let d := x_data x in
  rbind (validate_coord g "geo" (x_n_geos x)) (fun _ =>
  rbind (validate_coord g "control_variable" (x_n_controls x)) (fun _ =>
  rbind (validate_coord g "knots" n_knots) (fun _ =>
  rbind (validate_coord g "time" (x_n_times x)) (fun _ =>
  rbind (validate_coord g "media_channel" (n_chans (d_media d))) (fun _ =>
  rbind (validate_coord g "rf_channel" (n_chans (d_reach d))) (fun _ =>
  rbind (validate_coord g "organic_media_channel" (n_chans (d_organic_media d))) (fun _ =>
  rbind (validate_coord g "organic_rf_channel" (n_chans (d_organic_reach d))) (fun _ =>
  validate_coord g "non_media_channel" (n_chans (d_non_media d)))))))))).
Definition validate_optional (x : M_Analyzer.model) (n_knots : nat) (o : option group) : result unit :=
  match o with Some g => validate_group x n_knots g | None => Ok tt end.
(** model.py:561-574 [_validate_injected_inference_data]; also called when a model is loaded
    (meridian/schema/serde/meridian_serde.py:404-409).  [None]: the group is not there. *)
Definition validate_inference_data (x : M_Analyzer.model) (n_knots : nat) (prior posterior : option group)
    : result unit :=
  rbind (validate_optional x n_knots prior) (fun _ => validate_optional x n_knots posterior).

(** ** Checks of a health summary *)
(** The types of the results.  The calibration checks, which no accepted summary has, share one. *)
Inductive check_kind := KConvergence | KBaseline | KPpp | KGof | KShift | KRoi | KOther.
Definition kind_of (r : M_Review.check_result) : check_kind :=
  match r with
  | M_Review.ConvergenceR _ => KConvergence
  | M_Review.BaselineR _ _ => KBaseline
  | M_Review.PppR _ _ => KPpp
  | M_Review.GofR _ => KGof
  | M_Review.ShiftR _ => KShift
  | M_Review.RoiR _ => KRoi
  | M_Review.OtherR _ => KOther
  end.
Definition kind_eqb (a b : check_kind) : bool :=
  match a, b with
  | KConvergence, KConvergence | KBaseline, KBaseline | KPpp, KPpp | KGof, KGof | KShift, KShift
  | KRoi, KRoi | KOther, KOther => true
  | _, _ => false
  end.
Definition kind_in (k : check_kind) (l : list check_kind) : bool := existsb (kind_eqb k) l.
Fixpoint distinct (l : list check_kind) : bool :=
  match l with [] => true | k :: r => negb (kind_in k r) && distinct r end.
(** Equality of the sets of their elements ([frozenset]). *)
Definition same_kinds (a b : list check_kind) : bool :=
  forallb (fun k => kind_in k b) a && forallb (fun k => kind_in k a) b.
(** results.py:888-896. *)
Definition convergence_only : list check_kind := [KConvergence].
Definition model_level : list check_kind := [KConvergence; KBaseline; KGof; KPpp].
Definition with_shift : list check_kind := model_level ++ [KShift].
Definition with_roi : list check_kind := with_shift ++ [KRoi].
(** model.py:79-97 [_is_valid_results_subset]. *)
Definition not_converged (rs : list M_Review.check_result) : bool :=
  existsb (fun r => match r with
                    | M_Review.ConvergenceR c =>
                        match M_Review.cv_case c with M_Review.NotConverged => true | _ => false end
                    | _ => false
                    end) rs.
Definition valid_subset (rs : list M_Review.check_result) : bool :=
  let ks := map kind_of rs in
  if same_kinds ks convergence_only then not_converged rs
  else same_kinds ks model_level || same_kinds ks with_shift || same_kinds ks with_roi.
(** model.py:257-273 [_validate_check_result_shape]; [n]: the number of media and reach and
    frequency channels. *)
Definition shape_matches (n : nat) (r : M_Review.check_result) : bool :=
  match r with
  | M_Review.ShiftR s => Nat.eqb (length (M_Review.sh_channels s)) n
  | M_Review.RoiR s => Nat.eqb (length (M_Review.ro_channels s)) n
  | _ => true
  end.
(** model.py:233-255 [_validate_injected_health_summary]; [None]: no summary. *)
Definition validate_health (n : nat) (o : option M_Review.summary) : result unit :=
  match o with
  | None => Ok tt
  | Some h =>
      let rs := M_Review.rv_results h in
      raise_if (negb (distinct (map kind_of rs))) ValueError (
      raise_if (negb (forallb (shape_matches n) rs)) ValueError (
      raise_if (negb (valid_subset rs)) ValueError (Ok tt)))
  end.
Definition n_paid (x : M_Analyzer.model) : nat := n_chans (d_media (x_data x)) + n_chans (d_reach (x_data x)).
