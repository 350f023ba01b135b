(** Model of the generation of the data of the scenario planner: the specs it derives and breaks down by period
    (scenarioplanner/mmm_ui_proto_generator.py), and the dispatch of specs to processors (meridian/schema/model_consumer.py,
    meridian/schema/mmm_proto_generator.py).
    What the generator does not read of a spec is a parameter type; numbers are rationals; warnings are not modelled;
    subclasses of the four spec classes are not considered. *)
From Coq Require Import ZArith QArith Ascii String List Bool Arith.
From Verif Require Import M_Base M_Time M_Opt M_BudgetSpec M_Format.
Import ListNotations.
Local Open Scope string_scope.
Local Open Scope Z_scope.
Local Open Scope list_scope.

(** [date + timedelta(days=n)]: day by day. *)
Definition next_date (d : date) : date :=
  if day d <? days_in_month (year d) (month d) then mkDate (year d) (month d) (day d + 1)
  else if month d <? 12 then mkDate (year d) (month d + 1) 1 else mkDate (year d + 1) 1 1.
Definition prev_date (d : date) : date :=
  if 1 <? day d then mkDate (year d) (month d) (day d - 1)
  else if 1 <? month d then mkDate (year d) (month d - 1) (days_in_month (year d) (month d - 1)) else mkDate (year d - 1) 12 31.
Definition add_days (d : date) (n : Z) : date :=
  if 0 <=? n then Nat.iter (Z.to_nat n) next_date d else Nat.iter (Z.to_nat (- n)) prev_date d.

(** time_coordinates.py:163-175 [interval_days], with its check. *)
Definition checked_interval (all : list date) : result Z :=
  raise_if (negb (is_regular all)) ValueError (Ok (interval_days all)).

(** model_processor.py:117-143 [DatedSpec]; 317-346 [OptimizationSpec] (no group: ""). *)
Record period := mkPeriod { p_start : option date; p_end : option date; p_tag : string }.
Record opt := mkOpt { o_period : period; o_name : string; o_grid : string; o_group : string; o_level : Q }.
Inductive scenario := FixedBudget (total : option Q) | FlexibleBudget (target : Q).

Inductive breakdown := Monthly | Quarterly | Yearly.

Section Specs.
Variables Fit Marketing Rest : Type.

(** The four kinds of specs.  Of reach and frequency: the minimum and the maximum frequency. *)
Inductive spec :=
| SFit (f : Fit)
| SMarketing (p : period) (m : Marketing)
| SBudget (o : opt) (s : scenario) (max_frequency : option Q) (rest : Rest)
| SRf (o : opt) (min_frequency : Q) (max_frequency : option Q).
Definition period_of (s : spec) : option period :=
  match s with SFit _ => None | SMarketing p _ => Some p | SBudget o _ _ _ => Some (o_period o) | SRf o _ _ => Some (o_period o) end.

(** mmm_ui_proto_generator.py:131-158: no dates outside the history. *)
Definition check_dates (all : list date) (p : period) : result unit :=
  match all with
  | [] => Err ValueError
  | a :: r =>
    let lo := min_date a r in
    let hi := max_date a r in
    rbind (checked_interval all) (fun n =>
    raise_if (match p_start p with Some s => date_ltb s lo || date_ltb hi s | None => false end) ValueError (
    raise_if (match p_end p with Some e => date_leb e lo || date_ltb (add_days hi n) e | None => false end) ValueError (Ok tt)))
  end.

(** 199-220 [_derive_rf_opt_spec_from_budget_opt_spec]; the constructor validates
    (reach_frequency_optimization_processor.py:164-172): the names are not blank, and dates and level were valid before. *)
Definition derive_rf (o : opt) (max_frequency : option Q) : result spec :=
  raise_if (match max_frequency with Some m => Qlt_bool m 1 | None => false end) ValueError (
  Ok (SRf (mkOpt (o_period o) (String.append "derived RF optimization from " (o_name o)) (String.append "derived_from_" (o_name o)) (o_group o) (o_level o))
        1 max_frequency)).

(** mmm_ui_proto_generator.py:124-181: the loop over the specs; [fresh k] is the k-th identifier drawn from [uuid.uuid4]. *)
Fixpoint collect (all : list date) (has_rf : bool) (fresh : nat -> string) (k : nat) (seen : list string) (specs : list spec) : result (list spec) :=
  match specs with
  | [] => Ok []
  | s :: r =>
    rbind (match s with SRf _ _ _ => Err ValueError | _ => Ok tt end) (fun _ =>
    rbind (match period_of s with Some p => check_dates all p | None => Ok tt end) (fun _ =>
    match s with
    | SBudget o sc mf rest =>
      let given := negb (String.eqb (o_group o) "") in
      raise_if (given && mem (o_group o) seen) ValueError (
      let o' := if given then o else mkOpt (o_period o) (o_name o) (o_grid o) (fresh k) (o_level o) in
      rbind (if has_rf then rbind (derive_rf o' mf) (fun d => Ok [d]) else Ok []) (fun d =>
      rbind (collect all has_rf fresh (if given then k else S k) (if given then o_group o :: seen else seen) r) (fun rest' =>
      Ok (SBudget o' sc mf rest :: d ++ rest'))))
    | _ => rbind (collect all has_rf fresh k seen r) (fun rest' => Ok (s :: rest'))
    end))
  end.

(** 222-254 [_enumerate_dates_open_end], with model_processor.py:166-202. *)
Definition enumerate_dates (all : list date) (p : period) : result (list date) :=
  rbind (match p_end p with Some e => rbind (checked_interval all) (fun n => Ok (Some (add_days e (- n)))) | None => Ok None end) (fun e =>
  rbind (expand_selected_time_dims all (p_start p) e) (fun x =>
  let l := match x with None => all | Some l => l end in
  rbind (match p_end p with
         | Some e => Ok e
         | None => match rev l with [] => Err IndexError | d :: _ => rbind (checked_interval all) (fun n => Ok (add_days d n)) end
         end) (fun e => Ok (l ++ [e])))).

(** 296-307 [create_tag]; [strftime('%b')] in the C locale. *)
Definition month_name (m : Z) : string :=
  nth (Z.to_nat (m - 1)) ["Jan"; "Feb"; "Mar"; "Apr"; "May"; "Jun"; "Jul"; "Aug"; "Sep"; "Oct"; "Nov"; "Dec"] "".
Definition create_tag (g : breakdown) (d : date) : string :=
  String.append "Y" (String.append (digits (Z.to_N (year d)))
    match g with
    | Yearly => ""
    | Quarterly => String.append " Q" (digits (Z.to_N ((month d - 1) / 3 + 1)))
    | Monthly => String.append " " (month_name (month d))
    end).
Definition date_intervals (g : breakdown) (l : list date) : result (list (date * date)) :=
  match g with Monthly => monthly l | Quarterly => quarterly l | Yearly => yearly l end.

(** [date_interval_tag.replace(" ", "_")]. *)
Fixpoint underscores (s : string) : string :=
  match s with
  | EmptyString => EmptyString
  | String c r => String (if Ascii.eqb c " "%char then "_"%char else c) (underscores r)
  end.
(** 310-321 [_normalize_optimization_spec_time_info], after the replacement of the dates and the tag. *)
Definition rename (o : opt) (p : period) (tag : string) : opt :=
  mkOpt p (String.append (o_name o) (String.append " for " tag)) (String.append (o_grid o) (String.append "_" (underscores tag)))
    (String.append (o_group o) (String.append ":" tag)) (o_level o).
(** 334-342: the spec for the whole period. *)
Definition whole_spec (s : spec) : spec :=
  let all_of p := mkPeriod (p_start p) (p_end p) "ALL" in
  match s with
  | SFit f => SFit f
  | SMarketing p m => SMarketing (all_of p) m
  | SBudget o sc mf r => SBudget (rename o (all_of (o_period o)) "ALL") sc mf r
  | SRf o mn mx => SRf (rename o (all_of (o_period o)) "ALL") mn mx
  end.
(** 344-380: the spec for a bucket.  Its dates are in order, so that the validation repeated by [replace] succeeds. *)
Definition part_spec (s : spec) (g : breakdown) (i : date * date) : spec :=
  let tag := create_tag g (fst i) in
  let p := mkPeriod (Some (fst i)) (Some (snd i)) tag in
  match s with
  | SFit f => SFit f
  | SMarketing _ m => SMarketing p m
  | SBudget o sc mf r => SBudget (rename o p tag) (match sc with FixedBudget (Some _) => FixedBudget None | _ => sc end) mf r
  | SRf o mn mx => SRf (rename o p tag) mn mx
  end.
(** 324-382 [_create_subspecs].  (The collection of generators is given in its order of iteration.) *)
Definition create_subspecs (s : spec) (dates : list date) (gens : list breakdown) : result (list spec) :=
  rbind (mapR (fun g => rbind (date_intervals g dates) (fun l => Ok (map (part_spec s g) l))) gens) (fun parts =>
  Ok (whole_spec s :: concat parts)).

(** 117-197 [MmmUiProtoGenerator.__call__]: the specs handed on. *)
Definition ui_specs (all : list date) (has_rf : bool) (fresh : nat -> string) (gens : list breakdown) (specs : list spec) : result (list spec) :=
  rbind (collect all has_rf fresh 0%nat [] specs) (fun copies =>
  rbind (mapR (fun s => match period_of s with
                        | Some p => rbind (enumerate_dates all p) (fun dates => create_subspecs s dates gens)
                        | None => Ok [s]
                        end) copies) (fun l => Ok (concat l))).

(** *** Dispatch *)
Inductive kind := KFit | KMarketing | KBudget | KRf.
Definition kind_of (s : spec) : kind :=
  match s with SFit _ => KFit | SMarketing _ _ => KMarketing | SBudget _ _ _ _ => KBudget | SRf _ _ _ => KRf end.
Definition kind_eqb (a b : kind) : bool :=
  match a, b with KFit, KFit | KMarketing, KMarketing | KBudget, KBudget | KRf, KRf => true | _, _ => false end.

Variables Kernel Msg : Type.
(** mmm.proto: the kernel, and what each processor sets. *)
Record mmm := mkMmm { mm_kernel : Kernel; mm_fit : option Msg; mm_marketing : option Msg; mm_budget : option Msg; mm_rf : option Msg }.
Definition set_field (x : mmm) (k : kind) (m : Msg) : mmm :=
  match k with
  | KFit => mkMmm (mm_kernel x) (Some m) (mm_marketing x) (mm_budget x) (mm_rf x)
  | KMarketing => mkMmm (mm_kernel x) (mm_fit x) (Some m) (mm_budget x) (mm_rf x)
  | KBudget => mkMmm (mm_kernel x) (mm_fit x) (mm_marketing x) (Some m) (mm_rf x)
  | KRf => mkMmm (mm_kernel x) (mm_fit x) (mm_marketing x) (mm_budget x) (Some m)
  end.

(** model_consumer.py:96-99: specs by class, classes in order of appearance. *)
Fixpoint add_group (d : list (kind * list spec)) (s : spec) : list (kind * list spec) :=
  match d with
  | [] => [(kind_of s, [s])]
  | (k, l) :: r => if kind_eqb k (kind_of s) then (k, l ++ [s]) :: r else (k, l) :: add_group r s
  end.
(** model_consumer.py:110-116: the processors, each on its specs. *)
Fixpoint dispatch (run : kind -> list spec -> result Msg) (groups : list (kind * list spec)) (x : mmm) : result mmm :=
  match groups with
  | [] => Ok x
  | (k, l) :: r => rbind (run k l) (fun m => dispatch run r (set_field x k m))
  end.
(** model_consumer.py:76-118 [ModelConsumer.__call__] with the four processors of mmm_proto_generator.py:39-44;
    model_processor.py:57-62: the model must be fitted. *)
Definition create_mmm_proto (fitted : bool) (kernel : result Kernel) (run : kind -> list spec -> result Msg) (specs : list spec) : result mmm :=
  raise_if (negb fitted) ValueError (
  rbind kernel (fun c => dispatch run (fold_left add_group specs []) (mkMmm c None None None None))).
End Specs.
