(** Model of meridian/model/prior_distribution.py [distributions_are_equal], which decides whether
    a prior is the default one (context.py:699-818, analysis/review/checks.py:682-704).

    A distribution is its class and its parameters; the parameters ["distribution"] and
    ["distributions"] hold distributions and are kept apart.  Arrays have at most one dimension.
    Parameters that are neither numbers nor distributions (names, [None]) are compared with [!=].
    Floats are exact reals, and casts between number types are left out. *)
From Coq Require Import Reals String List Bool Arith.
From Verif Require Import M_Base.
Import ListNotations.
Local Open Scope string_scope.
Local Open Scope R_scope.
Local Open Scope nat_scope.
Local Open Scope list_scope.

Inductive pvalue := Number (x : R) | Array (l : list R) | Other (id : nat).

Inductive distr := Distr (cls : string) (distribution : option distr) (distributions : option (list distr))
  (params : list (string * pvalue)).

(** [allclose] of one pair: [|a - b| <= atol + rtol * |b|] with the default tolerances 1e-8 and
    1e-5 (backend/__init__.py:1069, 1260). *)
Definition isclose (a b : R) : bool :=
  if Rle_dec (Rabs (a - b)) (/ 100000000 + / 100000 * Rabs b) then true else false.

Fixpoint all2 (f : R -> R -> bool) (a b : list R) : bool :=
  match a, b with
  | x :: a', y :: b' => f x y && all2 f a' b'
  | _, _ => true
  end.

(** [allclose] with broadcasting; arrays that do not fit are an error. *)
Definition allclose (a b : pvalue) : result bool :=
  match a, b with
  | Number x, Number y => Ok (isclose x y)
  | Number x, Array l => Ok (forallb (fun y => isclose x y) l)
  | Array l, Number y => Ok (forallb (fun x => isclose x y) l)
  | Array l, Array l' =>
      if length l =? length l' then Ok (all2 isclose l l')
      else match l, l' with
           | [x], _ => Ok (forallb (fun y => isclose x y) l')
           | _, [y] => Ok (forallb (fun x => isclose x y) l)
           | _, _ => Err ValueError
           end
  | _, _ => Ok false
  end.

(** prior_distribution.py:1271-1283: one parameter. *)
Definition values_equal (a b : pvalue) : result bool :=
  match a, b with
  | Other i, Other j => Ok (i =? j)
  | Other _, _ | _, Other _ => Ok false
  | _, _ => allclose a b
  end.

Fixpoint lookup (k : string) (l : list (string * pvalue)) : option pvalue :=
  match l with
  | [] => None
  | (k', v) :: l' => if String.eqb k k' then Some v else lookup k l'
  end.

Definition has (k : string) (l : list (string * pvalue)) : bool :=
  match lookup k l with Some _ => true | None => false end.

(** prior_distribution.py:1262-1263: the keys as sets. *)
Definition keys_equal (a b : list (string * pvalue)) : bool :=
  forallb (fun kv => has (fst kv) b) a && forallb (fun kv => has (fst kv) a) b.

(** prior_distribution.py:1271-1285: the loop over the parameters of the first distribution. *)
Fixpoint params_equal (a b : list (string * pvalue)) : result bool :=
  match a with
  | [] => Ok true
  | (k, v) :: a' =>
      match lookup k b with
      | None => Err KeyError
      | Some w => rbind (values_equal v w) (fun e => if e then params_equal a' b else Ok false)
      end
  end.

Definition present {A : Type} (o : option A) : bool := match o with Some _ => true | None => false end.

(** prior_distribution.py:1224-1285 [distributions_are_equal]. *)
Fixpoint distributions_are_equal (a b : distr) {struct a} : result bool :=
  match a, b with
  | Distr ca da dsa pa, Distr cb db dsb pb =>
      if negb (String.eqb ca cb) then Ok false else
      rbind (match da, db with
             | Some x, Some y => distributions_are_equal x y
             | _, _ => Ok true
             end) (fun e => if negb e then Ok false else
      rbind (match dsa, dsb with
             | Some la, Some lb =>
                 if negb (length la =? length lb) then Ok false else
                 (fix pairwise (la lb : list distr) : result bool :=
                    match la, lb with
                    | x :: la', y :: lb' =>
                        rbind (distributions_are_equal x y) (fun e => if e then pairwise la' lb' else Ok false)
                    | _, _ => Ok true
                    end) la lb
             | _, _ => Ok true
             end) (fun e => if negb e then Ok false else
      if negb (Bool.eqb (present da) (present db)) then Ok false else
      if negb (Bool.eqb (present dsa) (present dsb)) then Ok false else
      if negb (keys_equal pa pb) then Ok false else
      params_equal pa pb))
  end.

Inductive prior_type := Roi | Mroi | Contribution | Coefficient.

(** constants.py:481-502 [IGNORED_PRIORS_MEDIA]. *)
Definition ignored_media (t : prior_type) : list string :=
  match t with
  | Roi => ["beta_m"; "mroi_m"; "contribution_m"]
  | Mroi => ["beta_m"; "roi_m"; "contribution_m"]
  | Contribution => ["beta_m"; "roi_m"; "mroi_m"]
  | Coefficient => ["roi_m"; "mroi_m"; "contribution_m"]
  end.

(** constants.py:503-524 [IGNORED_PRIORS_RF]. *)
Definition ignored_rf (t : prior_type) : list string :=
  match t with
  | Roi => ["beta_rf"; "mroi_rf"; "contribution_rf"]
  | Mroi => ["beta_rf"; "roi_rf"; "contribution_rf"]
  | Contribution => ["beta_rf"; "roi_rf"; "mroi_rf"]
  | Coefficient => ["roi_rf"; "mroi_rf"; "contribution_rf"]
  end.

(** context.py:714-721: the priors of a list that are not the default ones. *)
Fixpoint custom (prior default : string -> distr) (names : list string) : result (list string) :=
  match names with
  | [] => Ok []
  | k :: names' =>
      rbind (distributions_are_equal (prior k) (default k)) (fun e =>
      rbind (custom prior default names') (fun r => Ok (if e then r else k :: r)))
  end.

(** context.py:699-727 [_warn_setting_ignored_priors]: the names in each of the warnings given. *)
Definition ignored_warnings (media_type rf_type : prior_type) (prior default : string -> distr) : result (list (list string)) :=
  rbind (custom prior default (ignored_media media_type)) (fun m =>
  rbind (custom prior default (ignored_rf rf_type)) (fun r =>
  Ok ((match m with [] => [] | _ => [m] end) ++ (match r with [] => [] | _ => [r] end)))).
