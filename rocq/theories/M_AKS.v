(** Model of automatic knot selection (meridian/model/knots.py, class [AKS]).  The weighted ridge
    regression ([_weighted_ridge_solver], modelled in M_Band.v) and the OLS refit are arguments of
    the model: [solver penalty w par] is the new parameter vector and [rss knots] is
    [np.sum(resid**2 / sigma0sq)] of the OLS fit with those knots.  The adaptive loop around them is
    modelled exactly.  Arithmetic is exact. *)
From Coq Require Import Reals ZArith String List Bool Arith.
From Verif Require Import Lib_Sum M_Base M_Spec M_PriorDist M_Knots.
Import ListNotations.

(** [np.isin(k, l)] for one element. *)
Definition isin (k : Z) (l : list Z) : bool := existsb (Z.eqb k) l.

(** knots.py:314-323: [np.unique(arg) if arg is not None and len(arg) > 0 else None]. *)
Definition unique_or_none (arg : option (list Z)) : option (list Z) :=
  match arg with
  | Some (x :: r) => Some (np_unique (x :: r))
  | _ => None
  end.

(** knots.py:436-440: the unique values of [x] strictly between its minimum and its maximum; [x]
    repeats 0 .. n_times-1 for each geo, so these are 1 .. n_times-2. *)
Definition inner_times (n_times : nat) : list Z := map Z.of_nat (seq 1 (n_times - 2)).

(** knots.py:420-457 [_calculate_initial_knots]; without excluded knots the last one is dropped. *)
Definition initial_knots (n_times : nat) (excluded : option (list Z)) : result (list Z) :=
  let knots := inner_times n_times in
  let excluded := match excluded with
                  | Some e => e
                  | None => match knots with [] => [] | _ => [last_z knots] end
                  end in
  raise_if (negb (forallb (fun k => isin k knots) excluded)) ValueError (
  Ok (filter (fun k => negb (isin k excluded)) knots)).

(** knots.py:459-503 [_calculate_and_validate_max_internal_knots]; [n_features] is the total number
    of channels and control variables. *)
Definition max_internal_knots (n_features : nat) (knots : list Z) (min_internal : Z)
    (max_internal : option Z) : result Z :=
  let m := match max_internal with
           | None => (Z.of_nat (length knots) - Z.of_nat n_features)%Z
           | Some m => m
           end in
  raise_if (Z.ltb (Z.of_nat (length knots)) min_internal) ValueError (
  raise_if (Z.ltb m min_internal) ValueError (
  Ok m)).

(** [np.diff(par, n=2)] (the degree is 1). *)
Fixpoint diff2 (par : list R) : list R :=
  match par with
  | a :: ((b :: c :: _) as r) => (c - 2 * b + a)%R :: diff2 r
  | _ => []
  end.

(** [v[is_required] = 1.0]. *)
Definition override (is_required : list bool) (v : list R) : list R :=
  map (fun e => if (fst e : bool) then 1%R else snd e) (combine is_required v).

(** [np.max(abs(a - b))] of non-empty arrays (0 is the least possible value). *)
Definition max_abs_diff (a b : list R) : R :=
  fold_right Rmax 0%R (map (fun e => Rabs (fst e - snd e)) (combine a b)).

(** [knots[sel > 0.99]]. *)
Definition select_knots (knots : list Z) (sel : list R) : list Z :=
  map fst (filter (fun e => Rltb (99 / 100) (snd e)) (combine knots sel)).

(** State of the loop of [aspline]: weights, parameters, previous selection and the results of the
    penalties already converged (knots_sel and aic); their number is [index_penalty]. *)
Record aspline_state := mkAs {
  as_w : list R;
  as_par : list R;
  as_old_sel : list R;
  as_done : list (list Z * R)
}.

Section Aspline.
  Variable solver : R -> list R -> list R -> list R.
  Variable rss : list Z -> R.
  Variable knots : list Z.
  Variable penalty : list R.
  Variable is_required : list bool.
  Variable epsilon tol : R.

  (** knots.py:571-611: one iteration of the loop body up to [index_penalty + 1].  [dim] is
      [len(knots_sel) + 2] and [aic = 2 * dim + 2 * loglik] with [loglik = rss / 2]. *)
  Definition aspline_step (pen : R) (s : aspline_state) : aspline_state :=
    let par := solver pen (as_w s) (as_par s) in
    let par_diff := diff2 par in
    let w := override is_required (map (fun d => (1 / (d * d + epsilon * epsilon))%R) par_diff) in
    let sel := override is_required (map (fun e => (fst e * (snd e * snd e))%R) (combine w par_diff)) in
    let ks := select_knots knots sel in
    let aic := (2 * (INR (length ks) + 2) + 2 * (rss ks / 2))%R in
    let done := if Rltb (max_abs_diff (as_old_sel s) sel) tol then as_done s ++ [(ks, aic)] else as_done s in
    mkAs w par sel done.

  (** knots.py:570-613: at most [fuel] iterations over all penalties; the loop stops when every
      penalty has converged. *)
  Fixpoint aspline_loop (fuel : nat) (s : aspline_state) : aspline_state :=
    match fuel with
    | O => s
    | S fuel =>
        match nth_error penalty (length (as_done s)) with
        | None => s
        | Some pen => aspline_loop fuel (aspline_step pen s)
        end
    end.
End Aspline.

(** knots.py:505-626 [aspline]: without penalties [penalty[0]] is an IndexError; without knots
    [np.max] of an empty array is a ValueError; [np.stack] of the selections fails with a ValueError
    if some penalties are left without result, and [np.round] with a TypeError if all are.  The
    selected knots and AIC values per penalty are returned (the other statistics are not used by the
    caller). *)
Definition aspline (solver : R -> list R -> list R -> list R) (rss : list Z -> R) (knots : list Z)
    (penalty : list R) (required : list Z) (max_iterations : nat) (epsilon tol : R) : result (list (list Z * R)) :=
  let is_required := map (fun k => isin k required) knots in
  let ones := repeat 1%R (length knots) in
  raise_if (match penalty with [] => true | _ => false end) IndexError (
  raise_if (match knots with [] => true | _ => false end) ValueError (
  let s := aspline_loop solver rss knots penalty is_required epsilon tol max_iterations
             (mkAs ones (repeat 1%R (length knots + 2)) ones []) in
  raise_if (Nat.eqb (length (as_done s)) 0) TypeError (
  raise_if (Nat.ltb (length (as_done s)) (length penalty)) ValueError (
  Ok (as_done s))))).

(** knots.py:376-398: the last feasible penalty among those with minimal AIC:
    [max(np.where(ic == min(ic))[0])]. *)
Fixpoint last_min (l : list (list Z * R)) : option (list Z * R) :=
  match l with
  | [] => None
  | a :: r =>
      match last_min r with
      | None => Some a
      | Some b => if Rltb (snd a) (snd b) then Some a else Some b
      end
  end.

Definition feasible (min_internal max_internal : Z) (fit : list Z * R) : bool :=
  Z.leb min_internal (Z.of_nat (length (fst fit))) && Z.leb (Z.of_nat (length (fst fit))) max_internal.

(** knots.py:258-407 [automatic_knot_selection]; [n_geos] scales the penalties.  Returns the
    selected knots (the fitted model is not modelled). *)
Definition automatic_knot_selection (solver : R -> list R -> list R -> list R) (rss : list Z -> R)
    (n_geos n_times n_features : nat) (base_penalty : list R) (min_internal : Z) (max_internal : option Z)
    (required excluded : option (list Z)) (restrict_right : bool)
    (max_iterations : nat) (epsilon tol : R) : result (list Z) :=
  let excluded_arr := unique_or_none excluded in
  let required_arr := unique_or_none required in
  raise_if (match excluded_arr, required_arr with
            | Some e, Some r => existsb (fun k => isin k r) e
            | _, _ => false
            end) ValueError (
  rbind (initial_knots n_times excluded_arr) (fun knots =>
  rbind (max_internal_knots n_features knots min_internal max_internal) (fun max_internal =>
  let penalty := map (fun p => (1 / sqrt (INR n_geos) * p)%R) base_penalty in
  rbind (match required_arr with
         | Some r =>
             raise_if (negb (forallb (fun k => isin k knots) r)) ValueError (
             raise_if (Z.ltb max_internal (Z.of_nat (length r))) ValueError (
             let knots := if restrict_right
                          then filter (fun k => isin k r || Z.ltb (last_z r) k) knots else knots in
             aspline solver rss knots penalty r max_iterations epsilon tol))
         | None =>
             raise_if restrict_right ValueError (
             aspline solver rss knots penalty [] max_iterations epsilon tol)
         end) (fun fits =>
  let ok := filter (feasible min_internal max_internal) fits in
  match last_min ok with
  | None => Err ValueError
  | Some (ks, _) =>
      match ks with
      | [] => Ok []
      | _ => Ok (np_unique (ks ++ [0%Z; (Z.of_nat n_times - 1)%Z]))
      end
  end)))).

(** knots.py:195-202: the knots used by a model with [enable_aks] (default options). *)
Definition aks_knot_info (solver : R -> list R -> list R -> list R) (rss : list Z -> R)
    (n_geos n_times n_features : nat) (base_penalty : list R) (is_national : bool) : result knot_info :=
  rbind (automatic_knot_selection solver rss n_geos n_times n_features base_penalty 1 None None None
           false 1000 (1 / 100000) (1 / 1000000)) (fun ks =>
  get_knot_info n_times (KnList ks) is_national).
