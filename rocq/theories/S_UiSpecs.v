(** What the generator of the data of the scenario planner promises. *)
From Coq Require Import ZArith QArith String List Sorted.
From Verif Require Import M_Base M_Time S_Time M_UiSpecs.
Import ListNotations.
Local Open Scope string_scope.
Local Open Scope Z_scope.
Local Open Scope list_scope.

(** Dates of the data: at least two calendar dates of our era in order, evenly spaced (as input data must be), no two
    neighbours more than 252 days apart. *)
Definition calendar (all : list date) : Prop :=
  (2 <= length all)%nat /\ Forall valid_date all /\ Forall (fun d => 1 <= year d) all /\ increasing all /\
  ((exists c, forall y, In y (intervals all) -> y = c) \/ (forall y, In y (intervals all) -> In y [28; 29; 30; 31]) \/
   (forall y, In y (intervals all) -> In y [90; 91; 92]) \/ (forall y, In y (intervals all) -> In y [365; 366])) /\
  gaps_at_most 252 all.

(** First date [s], last date [z] and end [e] of a period; the end is [interval_days] after the last date. *)
Definition bounds (all : list date) (p : period) (s z e : date) : Prop :=
  In s all /\ In z all /\ ~ before z s /\ valid_date e /\ ordinal e = ordinal z + interval_days all /\
  match p_start p with Some d => s = d | None => forall d, In d all -> ~ before d s end /\
  match p_end p with Some d => e = d | None => forall d, In d all -> ~ before z d end.
(** The dates of a period and its end. *)
Definition dates_of (all : list date) (p : period) (l : list date) : Prop :=
  increasing l /\ exists s z e, bounds all p s z e /\ forall d, In d l <-> (In d all /\ ~ before d s /\ ~ before z d) \/ d = e.
Definition valid_period (p : period) : Prop := forall e, p_end p = Some e -> valid_date e.

(** Buckets: their number on the calendar, and where they may start. *)
Definition bucket_no (g : breakdown) : date -> Z :=
  match g with Monthly => month_no | Quarterly => quarter_no | Yearly => year_no end.
Definition starts_bucket (g : breakdown) (d : date) : Prop :=
  1 <= day d <= 7 /\ match g with Monthly => True | Quarterly => In (month d) [1; 4; 7; 10] | Yearly => month d = 1 end.

Section Specs.
Variables Fit Marketing Rest : Type.
Notation spec := (spec Fit Marketing Rest).

(** An optimization renamed for a period. *)
Definition renamed (o o' : opt) (p : period) : Prop :=
  o_period o' = p /\ o_level o' = o_level o /\ o_name o' = String.append (o_name o) (String.append " for " (p_tag p)) /\
  o_group o' = String.append (o_group o) (String.append ":" (p_tag p)) /\
  o_grid o' = String.append (o_grid o) (String.append "_" (underscores (p_tag p))).
(** The spec for all of the period of [s]. *)
Definition is_whole (s s' : spec) : Prop :=
  let all_of p := mkPeriod (p_start p) (p_end p) "ALL" in
  match s, s' with
  | SMarketing _ _ _ p m, SMarketing _ _ _ p' m' => p' = all_of p /\ m' = m
  | SBudget _ _ _ o sc mf r, SBudget _ _ _ o' sc' mf' r' => renamed o o' (all_of (o_period o)) /\ sc' = sc /\ mf' = mf /\ r' = r
  | SRf _ _ _ o mn mx, SRf _ _ _ o' mn' mx' => renamed o o' (all_of (o_period o)) /\ mn' = mn /\ mx' = mx
  | _, _ => False
  end.
(** The spec for the bucket from [a] to before [b]; a fixed budget is that of the history. *)
Definition is_part (s : spec) (g : breakdown) (a b : date) (s' : spec) : Prop :=
  let p' := mkPeriod (Some a) (Some b) (create_tag g a) in
  match s, s' with
  | SMarketing _ _ _ _ m, SMarketing _ _ _ q m' => q = p' /\ m' = m
  | SBudget _ _ _ o sc mf r, SBudget _ _ _ o' sc' mf' r' => renamed o o' p' /\ mf' = mf /\ r' = r /\
      match sc with FixedBudget _ => sc' = FixedBudget None | FlexibleBudget t => sc' = FlexibleBudget t end
  | SRf _ _ _ o mn mx, SRf _ _ _ o' mn' mx' => renamed o o' p' /\ mn' = mn /\ mx' = mx
  | _, _ => False
  end.
(** A spec broken down: the whole, then by each way of breaking down the buckets, in order. *)
Definition broken (all : list date) (gens : list breakdown) (s : spec) (block : list spec) : Prop :=
  exists p l whole parts, period_of _ _ _ s = Some p /\ dates_of all p l /\ block = whole :: concat parts /\ is_whole s whole /\
  Forall2 (fun g ps => exists ivs, in_order ivs /\
     (forall a b, In (a, b) ivs <-> starts_bucket g a /\ bucket_interval (bucket_no g) l a b) /\
     Forall2 (fun i s' => is_part s g (fst i) (snd i) s') ivs ps) gens parts.

(** The reach and frequency optimization derived from a budget optimization. *)
Definition rf_of (o : opt) : opt :=
  mkOpt (o_period o) (String.append "derived RF optimization from " (o_name o)) (String.append "derived_from_" (o_name o)) (o_group o) (o_level o).
Definition regrouped (o o' : opt) : Prop :=
  o_period o' = o_period o /\ o_name o' = o_name o /\ o_grid o' = o_grid o /\ o_level o' = o_level o /\
  (o_group o <> "" -> o_group o' = o_group o) /\ o_group o' <> "".
(** What becomes of a spec. *)
Definition becomes (all : list date) (has_rf : bool) (gens : list breakdown) (s : spec) (piece : list spec) : Prop :=
  match s with
  | SFit _ _ _ f => piece = [SFit _ _ _ f]
  | SMarketing _ _ _ _ _ => broken all gens s piece
  | SBudget _ _ _ o sc mf r => exists o' b f, piece = b ++ f /\ regrouped o o' /\ broken all gens (SBudget _ _ _ o' sc mf r) b /\
      (if has_rf then broken all gens (SRf _ _ _ (rf_of o') 1 mf) f else f = [])
  | SRf _ _ _ _ _ _ => False
  end.
(** When a spec is accepted. *)
Definition acceptable (all : list date) (has_rf : bool) (s : spec) : Prop :=
  match s with SRf _ _ _ _ _ _ => False | _ => True end /\
  match period_of _ _ _ s with Some p => exists first last e, bounds all p first last e | None => True end /\
  match s with SBudget _ _ _ _ _ (Some m) _ => has_rf = true -> (1 <= m)%Q | _ => True end.
(** Groups of budget optimizations and of reach and frequency optimizations. *)
Definition budget_groups (l : list spec) : list string :=
  flat_map (fun s => match s with SBudget _ _ _ o _ _ _ => [o_group o] | _ => [] end) l.
Definition rf_groups (l : list spec) : list string :=
  flat_map (fun s => match s with SRf _ _ _ o _ _ => [o_group o] | _ => [] end) l.
Definition given_groups (l : list spec) : list string := filter (fun g => negb (String.eqb g "")) (budget_groups l).
(** Identifiers drawn: they differ from each other, are not empty, and are not among those given. *)
Definition unique_source (fresh : nat -> string) (l : list spec) : Prop :=
  (forall j k, fresh j = fresh k -> j = k) /\ forall k, fresh k <> "" /\ ~ In (fresh k) (given_groups l).
Definition is_kind (k : kind) (s : spec) : bool := kind_eqb k (kind_of _ _ _ s).
Definition opt_of (s : spec) : option opt := match s with SBudget _ _ _ o _ _ _ => Some o | SRf _ _ _ o _ _ => Some o | _ => None end.
End Specs.

(** What a kind of spec leaves in the message. *)
Definition field {Kernel Msg : Type} (k : kind) (x : mmm Kernel Msg) : option Msg :=
  match k with KFit => mm_fit _ _ x | KMarketing => mm_marketing _ _ x | KBudget => mm_budget _ _ x | KRf => mm_rf _ _ x end.
(** An optimization and the one derived from it: the same period, group and level. *)
Definition pair_of {Fit Marketing Rest : Type} (b r : spec Fit Marketing Rest) : Prop :=
  exists o o', opt_of _ _ _ b = Some o /\ opt_of _ _ _ r = Some o' /\ o_period o' = o_period o /\ o_group o' = o_group o /\ o_level o' = o_level o.
(** Ends of periods are calendar dates. *)
Definition valid_ends {Fit Marketing Rest : Type} (specs : list (spec Fit Marketing Rest)) : Prop :=
  Forall (fun s => forall p, period_of _ _ _ s = Some p -> valid_period p) specs.
(** How the processors resolve the dates of a spec (model_processor.py:166-202): the start, and one interval before the end, must be dates of the data. *)
Definition resolvable (all : list date) (p : period) : Prop := exists s z e, bounds all p s z e.
