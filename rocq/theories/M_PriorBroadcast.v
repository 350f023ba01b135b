(** Model of the prior container: meridian/model/prior_distribution.py [PriorDistribution]: the
    checks made when priors are set ([__post_init__], [_validate_support]) and [broadcast], which
    gives every parameter of a model its prior.

    A distribution is a batch of laws of one number each.  Of a law the model keeps what the code
    looks at: the class of the distribution, the ends of its support and, to tell laws apart, an
    identifier of everything else.  The names of distributions and their float types are not
    modelled, and neither are the texts of warnings. *)
From Coq Require Import Reals String List Bool Arith.
From Verif Require Import Lib_Sum M_Base M_PriorDist.
Import ListNotations.
Local Open Scope string_scope.
Local Open Scope R_scope.
Local Open Scope nat_scope.
Local Open Scope list_scope.

(** Floating point numbers: reals, infinities and NaN. *)
Inductive num := Fin (x : R) | Inf | NInf | NaN.

(** [a < b]: false when one of them is NaN. *)
Definition lt_num (a b : num) : bool :=
  match a, b with
  | NaN, _ | _, NaN => false
  | Fin x, Fin y => if Rlt_dec x y then true else false
  | NInf, NInf => false
  | NInf, _ => true
  | Inf, _ => false
  | Fin _, Inf => true
  | Fin _, NInf => false
  end.

(** [a == b]: false when one of them is NaN. *)
Definition eq_num (a b : num) : bool :=
  match a, b with
  | Fin x, Fin y => if Req_EM_T x y then true else false
  | Inf, Inf | NInf, NInf => true
  | _, _ => false
  end.

(** The law of one number. *)
Inductive law :=
| Point (x : num)                               (* all its mass at one value *)
| Range (low high : num) (id : nat)             (* any other law with support from low to high *)
| LN (l : lognormal).                           (* log-normal *)

(** A TFP distribution with a scalar event: its batch shape and the law at each index of the
    batch. *)
Inductive dist :=
| Deterministic (shape : list nat) (loc : list nat -> num)
| TruncatedNormal (shape : list nat) (low high : list nat -> num) (id : list nat -> nat)
| Family (shape : list nat) (has_quantile : bool) (laws : list nat -> law)  (* any other class *)
| BatchBroadcast (d : dist) (with_shape : list nat).

(** Broadcasting of two static shapes, aligned at the last axis ([tf.broadcast_static_shape]);
    written on reversed shapes. *)
Fixpoint broadcast_rev (a b : list nat) : result (list nat) :=
  match a, b with
  | [], _ => Ok b
  | _, [] => Ok a
  | x :: a', y :: b' =>
      rbind (broadcast_rev a' b') (fun r =>
      if x =? y then Ok (x :: r)
      else if x =? 1 then Ok (y :: r)
      else if y =? 1 then Ok (x :: r)
      else Err ValueError)
  end.

Definition broadcast_shape (a b : list nat) : result (list nat) :=
  rbind (broadcast_rev (rev a) (rev b)) (fun r => Ok (rev r)).

(** [Distribution.batch_shape]; that of a [BatchBroadcast] is worked out when it is asked for. *)
Fixpoint batch_shape (d : dist) : result (list nat) :=
  match d with
  | Deterministic s _ | TruncatedNormal s _ _ _ | Family s _ _ => Ok s
  | BatchBroadcast d w => rbind (batch_shape d) (fun s => broadcast_shape s w)
  end.

(** The index into a batch of shape [s] that broadcasting takes to index [i]; on reversed lists. *)
Fixpoint source_rev (s i : list nat) : list nat :=
  match s, i with
  | x :: s', j :: i' => (if x =? 1 then 0 else j) :: source_rev s' i'
  | _, _ => []
  end.

Definition source (s i : list nat) : list nat := rev (source_rev (rev s) (rev i)).

(** The law of the element with index [i]. *)
Fixpoint law_at (d : dist) (i : list nat) : law :=
  match d with
  | Deterministic _ loc => Point (loc i)
  | TruncatedNormal _ lo hi id => Range (lo i) (hi i) (id i)
  | Family _ _ laws => laws i
  | BatchBroadcast d _ => match batch_shape d with Ok s => law_at d (source s i) | Err _ => law_at d i end
  end.

(** The indices of a batch. *)
Fixpoint indices (s : list nat) : list (list nat) :=
  match s with
  | [] => [[]]
  | n :: s' => flat_map (fun i => map (cons i) (indices s')) (seq 0 n)
  end.

(** [quantile(0)] and [quantile(1)] of a law. *)
Definition low_end (l : law) : num := match l with Point x => x | Range a _ _ => a | LN _ => Fin 0 end.
Definition high_end (l : law) : num := match l with Point x => x | Range _ b _ => b | LN _ => Inf end.

(** Whether [quantile] is implemented; [BatchBroadcast] uses that of the distribution in it. *)
Fixpoint quantile_implemented (d : dist) : bool :=
  match d with
  | Deterministic _ _ => false
  | TruncatedNormal _ _ _ _ => true
  | Family _ q _ => q
  | BatchBroadcast d _ => quantile_implemented d
  end.

(** The laws of a batch.  The laws of a [BatchBroadcast] repeat those of the distribution in it. *)
Fixpoint laws_of (d : dist) : list law :=
  match d with
  | Deterministic s _ | TruncatedNormal s _ _ _ | Family s _ _ => map (law_at d) (indices s)
  | BatchBroadcast d _ => laws_of d
  end.

(** [isinstance(d, Deterministic)]. *)
Definition is_deterministic (d : dist) : bool := match d with Deterministic _ _ => true | _ => false end.

(** prior_distribution.py:1456-1457: a [BatchBroadcast] is opened once. *)
Definition opened (d : dist) : dist := match d with BatchBroadcast d' _ => d' | _ => d end.

(** prior_distribution.py:1437-1502 [_validate_support].  [quantile] of a [TruncatedNormal] inside a
    second [BatchBroadcast] is taken to give [low] and [high]. *)
Definition validate_support (d : dist) (bounds : num * num) (prevent : bool * bool) : result unit :=
  let d := opened d in
  let outside := fun (l : law) =>
    lt_num (low_end l) (fst bounds) || lt_num (snd bounds) (high_end l) in
  if is_deterministic d then
    raise_if (fst prevent && existsb (fun l => eq_num (low_end l) (fst bounds)) (laws_of d)) ValueError (
    raise_if (snd prevent && existsb (fun l => eq_num (low_end l) (snd bounds)) (laws_of d)) ValueError (
    raise_if (existsb outside (laws_of d)) ValueError (Ok tt)))
  else if quantile_implemented d then
    raise_if (existsb outside (laws_of d)) ValueError (Ok tt)
  else Ok tt.

(** prior_distribution.py:1509-1529 [_parameter_space_bounds] and 1539-1552
    [_prevent_deterministic_prior_at_bounds]. *)
Definition parameter_space : list (string * (num * num) * (bool * bool)) :=
  let positive := (Fin 0, Inf) in
  let unit_interval := (Fin 0, Fin 1) in
  [ ("eta_m", positive, (false, false)); ("eta_rf", positive, (false, false));
    ("eta_om", positive, (false, false)); ("eta_orf", positive, (false, false));
    ("xi_c", positive, (false, false)); ("xi_n", positive, (false, false));
    ("alpha_m", unit_interval, (false, true)); ("alpha_rf", unit_interval, (false, true));
    ("alpha_om", unit_interval, (false, true)); ("alpha_orf", unit_interval, (false, true));
    ("ec_m", positive, (true, false)); ("ec_rf", positive, (true, false));
    ("ec_om", positive, (true, false)); ("ec_orf", positive, (true, false));
    ("slope_m", positive, (true, false)); ("slope_rf", positive, (true, false));
    ("slope_om", positive, (true, false)); ("slope_orf", positive, (true, false));
    ("sigma", positive, (false, false)) ].

(** prior_distribution.py:42-512: the distributions of a [PriorDistribution], by field name. *)
Definition prior := string -> dist.

(** prior_distribution.py:514-541 [__post_init__], without the check of float types. *)
Definition make_prior (p : prior) : result prior :=
  rbind (fold_right (fun entry rest =>
           let '(name, bounds, prevent) := entry in
           rbind (validate_support (p name) bounds prevent) (fun _ => rest)) (Ok tt) parameter_space)
    (fun _ => Ok p).

(** The arguments of [broadcast] (prior_distribution.py:596-611); [kpi] and [total_spend] are those
    of the data. *)
Record sizes := mkSizes {
  z_geos : nat; z_media : nat; z_rf : nat; z_om : nat; z_orf : nat; z_controls : nat;
  z_non_media : nat; z_unique_sigma : bool; z_knots : nat; z_national : bool;
  z_total_prior : bool; z_kpi : R; z_total_spend : list R }.

(** prior_distribution.py:645-762: the six [_validate_…_custom_priors]: a prior with a batch must
    have [n] as its first dimension. *)
Definition validate_custom_prior (n : nat) (d : dist) : result unit :=
  rbind (batch_shape d) (fun s =>
  match s with
  | [] => Ok tt
  | k :: _ => raise_if (negb (n =? k)) ValueError (Ok tt)
  end).

Fixpoint validate_all (n : nat) (p : prior) (names : list string) : result unit :=
  match names with
  | [] => Ok tt
  | x :: names' => rbind (validate_custom_prior n (p x)) (fun _ => validate_all n p names')
  end.

(** prior_distribution.py:1371-1401 [_convert_to_deterministic_0_distribution].  The truth value of
    [loc != 0] is an error unless there is one number (an empty batch is treated alike). *)
Definition convert_to_zero (d : dist) : result dist :=
  match d with
  | Deterministic s loc =>
      match indices s with
      | [i] => Ok (if eq_num (loc i) (Fin 0) then d else Deterministic [] (fun _ => Fin 0))
      | _ => Err ValueError
      end
  | _ => Ok (Deterministic [] (fun _ => Fin 0))
  end.

(** prior_distribution.py:768-773, 789-797, 819-822, 829-832: for national models only. *)
Definition hierarchical (z : sizes) (d : dist) : result dist :=
  if z_national z then convert_to_zero d else Ok d.

(** prior_distribution.py:904-913: the ROI priors. *)
Definition roi_converted (z : sizes) (d : dist) : dist :=
  if z_total_prior z
  then Family [] true (fun _ => LN (total_media_contribution_prior (z_kpi z) (z_total_spend z) P_MEAN P_SD))
  else d.

(** prior_distribution.py:898 [sigma_shape]. *)
Definition sigma_shape (z : sizes) : list nat :=
  if (1 <? z_geos z) && z_unique_sigma z then [z_geos z] else [].

Fixpoint find (name : string) (l : list (string * dist)) : option dist :=
  match l with
  | [] => None
  | (k, d) :: l' => if String.eqb k name then Some d else find name l'
  end.

(** prior_distribution.py:596-985 [broadcast]. *)
Definition broadcast (z : sizes) (p : prior) : result prior :=
  rbind (validate_all (z_media z) p
    ["roi_m"; "mroi_m"; "contribution_m"; "alpha_m"; "ec_m"; "slope_m"; "eta_m"; "beta_m"]) (fun _ =>
  rbind (validate_all (z_om z) p
    ["contribution_om"; "alpha_om"; "ec_om"; "slope_om"; "eta_om"; "beta_om"]) (fun _ =>
  rbind (validate_all (z_orf z) p
    ["contribution_orf"; "alpha_orf"; "ec_orf"; "slope_orf"; "eta_orf"; "beta_orf"]) (fun _ =>
  rbind (validate_all (z_rf z) p
    ["roi_rf"; "mroi_rf"; "contribution_rf"; "alpha_rf"; "ec_rf"; "slope_rf"; "eta_rf"; "beta_rf"]) (fun _ =>
  rbind (validate_all (z_controls z) p ["gamma_c"; "xi_c"]) (fun _ =>
  rbind (validate_all (z_non_media z) p ["contribution_n"; "gamma_n"; "xi_n"]) (fun _ =>
  rbind (hierarchical z (p "tau_g_excl_baseline")) (fun tau_g_converted =>
  rbind (hierarchical z (p "eta_m")) (fun eta_m_converted =>
  rbind (hierarchical z (p "eta_rf")) (fun eta_rf_converted =>
  rbind (hierarchical z (p "eta_om")) (fun eta_om_converted =>
  rbind (hierarchical z (p "eta_orf")) (fun eta_orf_converted =>
  rbind (hierarchical z (p "xi_c")) (fun xi_c_converted =>
  rbind (hierarchical z (p "xi_n")) (fun xi_n_converted =>
  let table :=
    [ ("knot_values", BatchBroadcast (p "knot_values") [z_knots z]);
      ("tau_g_excl_baseline", BatchBroadcast tau_g_converted [z_geos z - 1]);
      ("beta_m", BatchBroadcast (p "beta_m") [z_media z]);
      ("beta_rf", BatchBroadcast (p "beta_rf") [z_rf z]);
      ("beta_om", BatchBroadcast (p "beta_om") [z_om z]);
      ("beta_orf", BatchBroadcast (p "beta_orf") [z_orf z]);
      ("eta_m", BatchBroadcast eta_m_converted [z_media z]);
      ("eta_rf", BatchBroadcast eta_rf_converted [z_rf z]);
      ("eta_om", BatchBroadcast eta_om_converted [z_om z]);
      ("eta_orf", BatchBroadcast eta_orf_converted [z_orf z]);
      ("gamma_c", BatchBroadcast (p "gamma_c") [z_controls z]);
      ("xi_c", BatchBroadcast xi_c_converted [z_controls z]);
      ("gamma_n", BatchBroadcast (p "gamma_n") [z_non_media z]);
      ("xi_n", BatchBroadcast xi_n_converted [z_non_media z]);
      ("alpha_m", BatchBroadcast (p "alpha_m") [z_media z]);
      ("alpha_rf", BatchBroadcast (p "alpha_rf") [z_rf z]);
      ("alpha_om", BatchBroadcast (p "alpha_om") [z_om z]);
      ("alpha_orf", BatchBroadcast (p "alpha_orf") [z_orf z]);
      ("ec_m", BatchBroadcast (p "ec_m") [z_media z]);
      ("ec_rf", BatchBroadcast (p "ec_rf") [z_rf z]);
      ("ec_om", BatchBroadcast (p "ec_om") [z_om z]);
      ("ec_orf", BatchBroadcast (p "ec_orf") [z_orf z]);
      ("slope_m", BatchBroadcast (p "slope_m") [z_media z]);
      ("slope_rf", BatchBroadcast (p "slope_rf") [z_rf z]);
      ("slope_om", BatchBroadcast (p "slope_om") [z_om z]);
      ("slope_orf", BatchBroadcast (p "slope_orf") [z_orf z]);
      ("sigma", BatchBroadcast (p "sigma") (sigma_shape z));
      ("roi_m", BatchBroadcast (roi_converted z (p "roi_m")) [z_media z]);
      ("roi_rf", BatchBroadcast (roi_converted z (p "roi_rf")) [z_rf z]);
      ("mroi_m", BatchBroadcast (p "mroi_m") [z_media z]);
      ("mroi_rf", BatchBroadcast (p "mroi_rf") [z_rf z]);
      ("contribution_m", BatchBroadcast (p "contribution_m") [z_media z]);
      ("contribution_rf", BatchBroadcast (p "contribution_rf") [z_rf z]);
      ("contribution_om", BatchBroadcast (p "contribution_om") [z_om z]);
      ("contribution_orf", BatchBroadcast (p "contribution_orf") [z_orf z]);
      ("contribution_n", BatchBroadcast (p "contribution_n") [z_non_media z]) ] in
  make_prior (fun name => match find name table with Some d => d | None => p name end)))))))))))))).

(** prior_distribution.py:854-868 and 876-890: whether a prior of slopes gives the warning that
    curves may be convex.  (Comparing a batch of more than one dimension is not modelled.) *)
Definition slope_warning (d : dist) : bool :=
  match d with
  | Deterministic _ _ => existsb (fun l => negb (eq_num (low_end l) (Fin 1))) (laws_of d)
  | _ => true
  end.

(** prior_distribution.py:591-594 [has_deterministic_param], on a prior that was broadcast;
    [hasattr] is true for the fields of the class.  A distribution without an attribute
    [distribution] is an [AttributeError]. *)
Definition has_deterministic_param (p : prior) (name : string) : result bool :=
  match p name with
  | BatchBroadcast d _ => Ok (is_deterministic d)
  | _ => Err AttributeError
  end.

(** prior_distribution.py:277-512: the default priors.  The identifiers tell the families and their
    parameters apart: 0 [Normal(0, 5)], 1 [HalfNormal(5)], 2 [HalfNormal(1)], 3 [Uniform(0, 1)],
    4 [LogNormal(0.7, 0.4)] shifted by 0.1, 5 [Beta(1, 99)]; [TruncatedNormal]: 0 [(0.8, 0.8)],
    1 [(0, 0.1)]. *)
Definition normal : dist := Family [] true (fun _ => Range NInf Inf 0).
Definition half_normal_5 : dist := Family [] true (fun _ => Range (Fin 0) Inf 1).
Definition half_normal_1 : dist := Family [] true (fun _ => Range (Fin 0) Inf 2).
Definition uniform : dist := Family [] true (fun _ => Range (Fin 0) (Fin 1) 3).
Definition shifted : dist := Family [] true (fun _ => Range (Fin (1 / 10)) Inf 4).
Definition beta_1_99 : dist := Family [] true (fun _ => Range (Fin 0) (Fin 1) 5).
Definition ln_dist (mu sigma : R) : dist := Family [] true (fun _ => LN (mkLN mu sigma)).
Definition truncated (low high : R) (id : nat) : dist :=
  TruncatedNormal [] (fun _ => Fin low) (fun _ => Fin high) (fun _ => id).

Definition defaults : prior := fun name =>
  match find name
    [ ("knot_values", normal); ("tau_g_excl_baseline", normal);
      ("beta_m", half_normal_5); ("beta_rf", half_normal_5); ("beta_om", half_normal_5); ("beta_orf", half_normal_5);
      ("eta_m", half_normal_1); ("eta_rf", half_normal_1); ("eta_om", half_normal_1); ("eta_orf", half_normal_1);
      ("gamma_c", normal); ("gamma_n", normal); ("xi_c", half_normal_5); ("xi_n", half_normal_5);
      ("alpha_m", uniform); ("alpha_rf", uniform); ("alpha_om", uniform); ("alpha_orf", uniform);
      ("ec_m", truncated (1 / 10) 10 0); ("ec_rf", shifted); ("ec_om", truncated (1 / 10) 10 0); ("ec_orf", shifted);
      ("slope_m", Deterministic [] (fun _ => Fin 1)); ("slope_rf", ln_dist (7 / 10) (4 / 10));
      ("slope_om", Deterministic [] (fun _ => Fin 1)); ("slope_orf", ln_dist (7 / 10) (4 / 10));
      ("sigma", half_normal_5);
      ("roi_m", ln_dist (2 / 10) (9 / 10)); ("roi_rf", ln_dist (2 / 10) (9 / 10));
      ("mroi_m", ln_dist 0 (5 / 10)); ("mroi_rf", ln_dist 0 (5 / 10));
      ("contribution_m", beta_1_99); ("contribution_rf", beta_1_99);
      ("contribution_om", beta_1_99); ("contribution_orf", beta_1_99);
      ("contribution_n", truncated (- 1) 1 1) ] with
  | Some d => d
  | None => normal
  end.
