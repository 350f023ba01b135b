(** C104: the specs of the scenario planner's data, and their dispatch to processors. *)
From Coq Require Import ZArith NArith QArith Ascii String List Bool Sorted Lia Arith.
From Verif Require Import M_Base M_Time S_Time P_Time P_Period M_Format M_UiSpecs S_UiSpecs P_UiSpecs P_UiSpecs2 P_UiSpecs3 P_UiSpecs4.
Import ListNotations.
Local Open Scope string_scope.
Local Open Scope Z_scope.
Local Open Scope list_scope.

(** What becomes of the specs: each in its place; a dated spec becomes the whole and the buckets of its dates. *)
Theorem C104_breakdown : forall (Fit Marketing Rest : Type) all has_rf fresh gens (specs subs : list (spec Fit Marketing Rest)),
  calendar all -> valid_ends specs -> unique_source _ _ _ fresh specs ->
  ui_specs _ _ _ all has_rf fresh gens specs = Ok subs ->
  exists pieces, subs = concat pieces /\ Forall2 (becomes _ _ _ all has_rf gens) specs pieces.
Proof. intros F M R all has_rf fresh gens specs subs C V [_ U] H. exact (ui_becomes F M R all has_rf fresh gens specs subs C V (fun j => proj1 (U j)) H). Qed.
Print Assumptions C104_breakdown.

(** When the specs are accepted. *)
Theorem C104_accepted : forall (Fit Marketing Rest : Type) all has_rf fresh gens (specs : list (spec Fit Marketing Rest)),
  calendar all -> valid_ends specs -> unique_source _ _ _ fresh specs ->
  ((exists subs, ui_specs _ _ _ all has_rf fresh gens specs = Ok subs) <->
   Forall (acceptable _ _ _ all has_rf) specs /\ NoDup (given_groups _ _ _ specs)).
Proof. intros F M R all has_rf fresh gens specs C V [_ U]. exact (ui_accepted F M R all has_rf fresh gens specs C V (fun j => proj1 (U j))). Qed.
Print Assumptions C104_accepted.

(** Groups tell the optimizations apart. *)
Theorem C104_groups : forall (Fit Marketing Rest : Type) all has_rf fresh gens (specs subs : list (spec Fit Marketing Rest)),
  calendar all -> NoDup gens -> valid_ends specs -> unique_source _ _ _ fresh specs ->
  ui_specs _ _ _ all has_rf fresh gens specs = Ok subs -> NoDup (budget_groups _ _ _ subs) /\ NoDup (rf_groups _ _ _ subs).
Proof. exact ui_groups. Qed.
Print Assumptions C104_groups.

(** With channels of reach and frequency, the two kinds of optimizations come in pairs; without, there is one kind. *)
Theorem C104_paired : forall (Fit Marketing Rest : Type) all has_rf fresh gens (specs subs : list (spec Fit Marketing Rest)),
  calendar all -> valid_ends specs -> unique_source _ _ _ fresh specs ->
  ui_specs _ _ _ all has_rf fresh gens specs = Ok subs ->
  if has_rf then Forall2 pair_of (filter (is_kind _ _ _ KBudget) subs) (filter (is_kind _ _ _ KRf) subs)
  else filter (is_kind _ _ _ KRf) subs = [].
Proof. intros F M R all has_rf fresh gens specs subs C V [_ U] H. exact (ui_paired F M R all has_rf fresh gens specs subs C V (fun j => proj1 (U j)) H). Qed.
Print Assumptions C104_paired.

(** Tags tell buckets apart. *)
Theorem C104_tags : forall g g' a b, valid_date a -> valid_date b -> 0 <= year a -> 0 <= year b ->
  (create_tag g a = create_tag g' b <-> g = g' /\ bucket_no g a = bucket_no g' b).
Proof. exact tag_spec. Qed.
Print Assumptions C104_tags.

(** The dates of a bucket are resolved by the processors exactly when one interval before its end is a date of the data ... *)
Theorem C104_resolved : forall all p l g a b t, calendar all -> dates_of all p l -> bucket_interval (bucket_no g) l a b -> valid_date b ->
  (resolvable all (mkPeriod (Some a) (Some b) t) <-> exists z, In z all /\ ~ before z a /\ ordinal b = ordinal z + interval_days all).
Proof. intros all p l g a b t C D (A & B & H & _) V. exact (resolvable_part all p l a b t C D A B H V). Qed.
Print Assumptions C104_resolved.

(** ... which is so when the dates are equally spaced. *)
Theorem C104_resolved_even : forall all p l g a b t c, calendar all -> (forall y, In y (intervals all) -> y = c) -> dates_of all p l ->
  bucket_interval (bucket_no g) l a b -> resolvable all (mkPeriod (Some a) (Some b) t).
Proof. intros all p l g a b t c C E D (A & B & H & _). exact (resolvable_even all p l a b t c C E D A B H). Qed.
Print Assumptions C104_resolved_even.

(** The dispatch: the model must be fitted and its kernel known; each kind of specs goes to its processor, in order, and leaves its message;
    a kind without specs leaves none. *)
Theorem C104_dispatch : forall (Fit Marketing Rest Kernel Msg : Type) fitted kernel run specs (out : mmm Kernel Msg),
  create_mmm_proto Fit Marketing Rest Kernel Msg fitted kernel run specs = Ok out <->
  fitted = true /\ kernel = Ok (mm_kernel _ _ out) /\
  forall k, match filter (is_kind _ _ _ k) specs with [] => field k out = None | l => exists m, run k l = Ok m /\ field k out = Some m end.
Proof. exact consumer_spec. Qed.
Print Assumptions C104_dispatch.

(** A maximum frequency below one makes a budget optimization unacceptable to models with reach and frequency only. *)
Theorem C104_frequency_refuted : forall (Fit Marketing Rest : Type) all fresh gens o sc m (r : Rest), calendar all -> valid_period (o_period o) ->
  resolvable all (o_period o) -> unique_source Fit Marketing Rest fresh [SBudget _ _ _ o sc (Some m) r] -> (m < 1)%Q ->
  (exists subs, ui_specs Fit Marketing Rest all false fresh gens [SBudget _ _ _ o sc (Some m) r] = Ok subs) /\
  ui_specs Fit Marketing Rest all true fresh gens [SBudget _ _ _ o sc (Some m) r] = Err ValueError.
Proof.
  intros F M R all fresh gens o sc m r C V Rs U Hm. assert (Vs : valid_ends [SBudget F M R o sc (Some m) r]).
  { constructor; [|constructor]. intros p Hp. inversion Hp; subst. exact V. }
  split.
  - apply (C104_accepted F M R all false fresh gens _ C Vs U). split; [|unfold given_groups; cbn; destruct (negb _); repeat constructor; intros []].
    constructor; [|constructor]. split; [exact Logic.I|]. split; [exact Rs|]. discriminate.
  - destruct Rs as (a & z & e & Bd). unfold ui_specs. cbn [collect rbind period_of]. rewrite (check_dates_ok all _ a z e C Bd). cbn [rbind]. cbv zeta.
    cbn [M_BudgetSpec.mem existsb]. rewrite andb_false_r. cbn [raise_if]. unfold derive_rf. rewrite (proj2 (P_Opt.Qlt_bool_iff m 1) Hm). reflexivity.
Qed.
Print Assumptions C104_frequency_refuted.

(** *** A quarter of weeks *)
Definition day_of (y m d : Z) : date := mkDate y m d.
Definition weeks : list date :=
  [day_of 2024 1 1; day_of 2024 1 8; day_of 2024 1 15; day_of 2024 1 22; day_of 2024 1 29; day_of 2024 2 5; day_of 2024 2 12; day_of 2024 2 19;
   day_of 2024 2 26; day_of 2024 3 4; day_of 2024 3 11; day_of 2024 3 18; day_of 2024 3 25].
Definition months_2023 : list date :=
  [day_of 2023 1 1; day_of 2023 2 1; day_of 2023 3 1; day_of 2023 4 1; day_of 2023 5 1; day_of 2023 6 1; day_of 2023 7 1; day_of 2023 8 1;
   day_of 2023 9 1; day_of 2023 10 1; day_of 2023 11 1; day_of 2023 12 1].
Definition ids (k : nat) : string := String.append "id" (digits (N.of_nat k)).
Definition whole_data : period := mkPeriod None None "".
Definition base : opt := mkOpt whole_data "base" "grid" "" (9 # 10).
Definition asked : list (spec nat nat nat) := [SFit _ _ _ 1%nat; SMarketing _ _ _ whole_data 2%nat; SBudget _ _ _ base (FixedBudget (Some 100%Q)) None 3%nat].

Lemma calendar_dec : forall l, (Nat.leb 2 (length l) && forallb (fun d => (1 <=? month d) && (month d <=? 12) && (1 <=? day d) && (day d <=? days_in_month (year d) (month d)) && (1 <=? year d)) l &&
  ascending l && is_regular l && forallb (fun x => x <=? 252) (intervals l))%bool = true -> calendar l.
Proof.
  intros l H. rewrite !andb_true_iff in H. destruct H as ((((H1 & H2) & H3) & H4) & H5). rewrite forallb_forall in H2, H5.
  assert (Each : forall d, In d l -> valid_date d /\ 1 <= year d).
  { intros d Hd. specialize (H2 d Hd). rewrite !andb_true_iff, !Z.leb_le in H2. split; [apply valid_iff; lia|lia]. }
  split; [apply Nat.leb_le; exact H1|]. split; [apply Forall_forall; intros d Hd; apply Each; exact Hd|]. split; [apply Forall_forall; intros d Hd; apply Each; exact Hd|].
  split; [apply ascending_iff; exact H3|]. split; [apply is_regular_iff; exact H4|].
  clear -H5. intros i. revert l H5. induction i as [|i IH]; intros [|x [|y l]] H5 a b Ha Hb; cbn in Ha, Hb; try discriminate; try (destruct i; discriminate).
  - inversion Ha; inversion Hb; subst. pose proof (H5 (ordinal b - ordinal a) (or_introl eq_refl)) as Q. apply Z.leb_le in Q. exact Q.
  - apply (IH (y :: l)); [|exact Ha|exact Hb]. intros v Hv. apply H5. right. exact Hv.
Qed.
Lemma weeks_calendar : calendar weeks.
Proof. apply calendar_dec. vm_compute. reflexivity. Qed.
Lemma months_calendar : calendar months_2023.
Proof. apply calendar_dec. vm_compute. reflexivity. Qed.
Lemma ids_unique : forall specs : list (spec nat nat nat), given_groups _ _ _ specs = [] -> unique_source _ _ _ ids specs.
Proof.
  intros specs E. split.
  - intros j k H. unfold ids in H. cbn in H. injection H as H. apply digits_inj in H. lia.
  - intros k. split; [discriminate|]. rewrite E. intros [].
Qed.

Definition shown (s : spec nat nat nat) : string * option (date * date) :=
  match period_of _ _ _ s with Some p => (p_tag p, match p_start p, p_end p with Some a, Some b => Some (a, b) | _, _ => None end) | None => ("fit", None) end.
Example C104_example : calendar weeks /\ valid_ends asked /\ unique_source _ _ _ ids asked /\ NoDup [Monthly; Quarterly; Yearly] /\
  exists subs, ui_specs _ _ _ weeks true ids [Monthly; Quarterly; Yearly] asked = Ok subs /\
  let block := [("ALL", None); ("Y2024 Jan", Some (day_of 2024 1 1, day_of 2024 2 5)); ("Y2024 Feb", Some (day_of 2024 2 5, day_of 2024 3 4));
                ("Y2024 Mar", Some (day_of 2024 3 4, day_of 2024 4 1)); ("Y2024 Q1", Some (day_of 2024 1 1, day_of 2024 4 1))] in
  map shown subs = ("fit", None) :: block ++ block ++ block /\
  rf_groups _ _ _ subs = ["id0:ALL"; "id0:Y2024 Jan"; "id0:Y2024 Feb"; "id0:Y2024 Mar"; "id0:Y2024 Q1"] /\
  flat_map (fun s => match s with SBudget _ _ _ _ sc _ _ => [sc] | _ => [] end) subs =
    [FixedBudget (Some 100%Q); FixedBudget None; FixedBudget None; FixedBudget None; FixedBudget None].
Proof.
  split; [exact weeks_calendar|]. split; [repeat constructor; intros p Hp; inversion Hp; subst; intros e He; discriminate|].
  split; [apply ids_unique; reflexivity|]. split; [repeat constructor; cbn; intuition discriminate|].
  eexists. split; [vm_compute; reflexivity|]. vm_compute. repeat split; reflexivity.
Qed.

(** *** Monthly data *)
(** A year of monthly data ends on December 31: its last month, its last quarter and the year itself are not broken down. *)
Theorem C104_last_month_refuted : exists subs,
  calendar months_2023 /\ ui_specs _ _ _ months_2023 false ids [Monthly; Quarterly; Yearly] [SMarketing nat nat nat whole_data 2%nat] = Ok subs /\
  map (fun s => fst (shown s)) subs =
    ["ALL"; "Y2023 Jan"; "Y2023 Feb"; "Y2023 Mar"; "Y2023 Apr"; "Y2023 May"; "Y2023 Jun"; "Y2023 Jul"; "Y2023 Aug"; "Y2023 Sep"; "Y2023 Oct"; "Y2023 Nov";
     "Y2023 Q1"; "Y2023 Q2"; "Y2023 Q3"] /\
  forall s, In s subs -> fst (shown s) <> "Y2023 Dec" /\ fst (shown s) <> "Y2023 Q4" /\ fst (shown s) <> "Y2023".
Proof.
  eexists. split; [exact months_calendar|]. split; [vm_compute; reflexivity|]. split; [vm_compute; reflexivity|].
  intros s H. cbn [In] in H. repeat (destruct H as [<-|H]; [vm_compute; repeat split; discriminate|]). contradiction.
Qed.
Print Assumptions C104_last_month_refuted.

(** And January, 31 days long in data spaced by 30 days on average, is a bucket whose dates no processor can resolve. *)
Theorem C104_monthly_refuted : exists subs p m,
  calendar months_2023 /\ ui_specs _ _ _ months_2023 false ids [Monthly; Quarterly; Yearly] [SMarketing nat nat nat whole_data 2%nat] = Ok subs /\
  In (SMarketing nat nat nat p m) subs /\ p_tag p = "Y2023 Jan" /\ p_start p = Some (day_of 2023 1 1) /\ p_end p = Some (day_of 2023 2 1) /\
  ~ resolvable months_2023 p /\
  expand_selected_time_dims months_2023 (p_start p) (option_map (fun e => add_days e (- interval_days months_2023)) (p_end p)) = Err ValueError.
Proof.
  eexists. exists (mkPeriod (Some (day_of 2023 1 1)) (Some (day_of 2023 2 1)) "Y2023 Jan"), 2%nat.
  split; [exact months_calendar|]. split; [vm_compute; reflexivity|]. split; [right; left; reflexivity|]. do 3 (split; [reflexivity|]). split; [|vm_compute; reflexivity].
  intros (s & z & e & _ & Hz & _ & _ & O & _ & He). cbn in He. subst e. assert (E : interval_days months_2023 = 30) by (vm_compute; reflexivity). rewrite E in O.
  assert (Oe : ordinal (day_of 2023 2 1) = 738552) by (vm_compute; reflexivity). rewrite Oe in O. unfold months_2023 in Hz. cbn [In] in Hz.
  repeat (destruct Hz as [<-|Hz]; [vm_compute in O; discriminate|]). contradiction.
Qed.
Print Assumptions C104_monthly_refuted.

(** The dispatch: two kinds of specs, the other two fields empty. *)
Example C104_dispatch_example : forall kernel : nat,
  create_mmm_proto nat nat nat nat (list (spec nat nat nat)) true (Ok kernel) (fun _ l => Ok l) asked =
  Ok (mkMmm _ _ kernel (Some [SFit _ _ _ 1%nat]) (Some [SMarketing _ _ _ whole_data 2%nat]) (Some [SBudget _ _ _ base (FixedBudget (Some 100%Q)) None 3%nat]) None).
Proof. intros kernel. reflexivity. Qed.
