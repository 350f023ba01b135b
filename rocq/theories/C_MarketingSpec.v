(** C101: the marketing processor and the planner's tables of its analyses. *)
From Coq Require Import ZArith QArith String List Bool Arith Sorted Lia.
From Verif Require Import M_Base M_Opt M_Time M_BudgetSpec M_MarketingSpec S_MarketingSpec P_MarketingSpec P_MarketingSpec2 P_MarketingSpec3 P_MarketingSpec4.
Import ListNotations.
Local Open Scope string_scope.
Local Open Scope list_scope.

Section Theorems.
Variable New : Type.
Variable dated : New -> bool.
Variable coords_of : New -> result coords.
Variables paid others : list string.
Variable model_coords : coords.
Variables kpi_only revenue_type : bool.
Variable summary_metrics : summary_request New -> result table.
Variable baseline_metrics : Q -> bool -> option (list Z) -> result table.
Variable curves_of : Q -> option (list Z) -> bool -> bool -> result (list (string * list (Q * Q))).
Variable incremental_of : option New -> option (list bool) -> option (list bool) -> bool -> bool -> bool -> Q -> result (list (list stat4)).
Variable days_of : New -> list Z.
Let run := execute New dated coords_of paid model_coords kpi_only revenue_type summary_metrics baseline_metrics curves_of incremental_of.

(** A spec is built exactly when start is not after end, the level is strictly between 0 and 1, exactly one kind of
    analysis is asked for and the new data of an incremental outcome is dated. *)
Theorem C101_spec : forall s : mspec New, validate_spec New dated s = Ok tt <->
  (forall a b, s_start _ s = Some a -> s_end _ s = Some b -> (a <= b)%Z) /\ (0 < s_level _ s < 1)%Q /\
  ((exists m, s_media _ s = Some m /\ s_inc _ s = None) \/
   (exists i, s_media _ s = None /\ s_inc _ s = Some i /\ forall n, i_new _ i = Some n -> dated n = true)).
Proof.
  intros s. split.
  - intros H. pose proof (valid_one New dated s H) as K. unfold validate_spec in H.
    apply rbind_inv in H. destruct H as [u [U H]]. apply raise_inv in H. destruct H as [D H]. apply raise_inv in H. destruct H as [L _].
    split; [ | split ].
    + intros a b A B. rewrite A, B in D. apply Z.ltb_ge. exact D.
    + apply orb_false_iff in L. destruct L as [L1 L2].
      split; apply Qnot_le_lt; intros X; apply Qle_bool_iff in X; congruence.
    + destruct K as [[m [M I]]|[i [M I]]]; [ left; exists m; split; assumption | right; exists i ].
      split; [ exact M | ]. split; [ exact I | ]. intros n N. rewrite I in U. unfold validate_inc in U. rewrite N in U. apply raise_inv in U. destruct U as [U _].
      apply negb_false_iff. exact U.
  - intros [D [[L1 L2] K]]. unfold validate_spec.
    replace (match s_inc New s with Some i => validate_inc New dated i | None => Ok tt end) with (@Ok unit tt).
    + cbn [rbind]. replace (match s_start New s, s_end New s with Some a, Some b => Z.ltb b a | _, _ => false end) with false.
      * replace (Qle_bool (s_level New s) 0 || Qle_bool 1 (s_level New s)) with false.
        -- destruct K as [[m [-> ->]]|[i [-> [-> _]]]]; reflexivity.
        -- symmetry. apply orb_false_iff. split; apply not_true_iff_false; intros X; apply Qle_bool_iff in X; [ exact (Qlt_not_le _ _ L1 X) | exact (Qlt_not_le _ _ L2 X) ].
      * destruct (s_start New s) as [a|]; [ | reflexivity ]. destruct (s_end New s) as [b|]; [ | reflexivity ]. symmetry. apply Z.ltb_ge. exact (D a b eq_refl eq_refl).
    + destruct K as [[m [_ ->]]|[i [_ [-> N]]]]; [ reflexivity | ]. unfold validate_inc. destruct (i_new New i) as [n|]; [ | reflexivity ]. rewrite (N n eq_refl). reflexivity.
Qed.

(** Every spec gets its analyses, in order: one over all the periods within [start, end), or one for each of them, with the
    channels, figures, intervals, curves and baseline that the analyzer reports for those periods. *)
Theorem C101_analyses : forall specs out,
  summary_shape New paid others (tc_dates model_coords) days_of summary_metrics ->
  NoDup (paid ++ others ++ ["All Channels"]) ->
  (calendar model_coords /\ forall n c, coords_of n = Ok c -> calendar c) ->
  Forall (fun s => validate_spec New dated s = Ok tt) specs -> run specs = Ok out ->
  exists groups, out = concat groups /\
  Forall2 (described New dated coords_of paid others model_coords kpi_only revenue_type summary_metrics baseline_metrics curves_of incremental_of) specs groups.
Proof.
  intros specs out Sh D K V R. exact (execute_lemma New dated coords_of paid others model_coords kpi_only revenue_type summary_metrics baseline_metrics curves_of
    incremental_of (tc_dates model_coords) days_of Sh D K specs out V R).
Qed.

(** Every list of specs whose dates lie on the calendar is answered, provided the analyzer answers and the new data of a
    media summary, if dated, covers the model's periods. *)
Theorem C101_accepted : forall specs,
  summary_shape New paid others (tc_dates model_coords) days_of summary_metrics ->
  baseline_shape New (tc_dates model_coords) days_of baseline_metrics ->
  NoDup (paid ++ others ++ ["All Channels"]) ->
  (calendar model_coords /\ forall n c, coords_of n = Ok c -> calendar c) ->
  (forall n c, calendar_of New dated coords_of model_coords (Some n) c -> days_of n = tc_dates c) ->
  summary_answers New summary_metrics -> baseline_answers (tc_dates model_coords) baseline_metrics -> curves_answer curves_of ->
  incremental_answers New paid (tc_dates model_coords) days_of incremental_of ->
  Forall (fun s => validate_spec New dated s = Ok tt /\
    exists c, calendar_of New dated coords_of model_coords (new_of _ s) c /\ on_calendar c (s_start _ s) (s_end _ s) /\ (s_media _ s <> None -> c = model_coords)) specs ->
  exists out, run specs = Ok out.
Proof.
  intros specs Sh B D K Y A1 A2 A3 A4 F. exact (accepted_lemma New dated coords_of paid others model_coords kpi_only revenue_type summary_metrics baseline_metrics
    curves_of incremental_of days_of Sh B D K Y A1 A2 A3 A4 specs F).
Qed.

(** A spec whose dates do not lie on the calendar is never answered. *)
Theorem C101_off_calendar : forall specs s c, In s specs -> calendar_of New dated coords_of model_coords (new_of _ s) c -> calendar c ->
  validate_spec New dated s = Ok tt -> ~ on_calendar c (s_start _ s) (s_end _ s) -> forall out, run specs <> Ok out.
Proof.
  intros specs s c I K C V O. apply (off_calendar_lemma New dated coords_of paid model_coords kpi_only revenue_type summary_metrics baseline_metrics curves_of incremental_of specs s c I); [ | exact C | exact O | ].
  - unfold coords_for. unfold calendar_of in K. destruct (new_of New s) as [x|]; [ | rewrite K; reflexivity ]. destruct (dated x); [ exact K | rewrite K; reflexivity ].
  - destruct (valid_one New dated s V) as [[m [-> _]]|[i [_ ->]]]; [ left | right ]; discriminate.
Qed.

(** The planner's tables of media summaries, one of which is tagged "ALL". *)
Theorem C101_planner : forall specs out,
  summary_shape New paid others (tc_dates model_coords) days_of summary_metrics ->
  NoDup (paid ++ others ++ ["All Channels"; "baseline"]) ->
  (calendar model_coords /\ forall n c, coords_of n = Ok c -> calendar c) ->
  Forall (fun s => validate_spec New dated s = Ok tt) specs -> run specs = Ok out ->
  Forall (fun s => s_inc _ s = None) specs -> (exists s, In s specs /\ s_tag _ s = "ALL") ->
  (exists bs, media_outcome out = Ok (concat bs) /\ Forall2 outcome_block out bs) /\
  (exists bs, media_roi out = Ok (concat bs) /\ Forall2 (roi_block (negb kpi_only)) out bs) /\
  ((forall a shares, In a out -> outcome_shares a shares -> real (an_media a) = [] \/ ~ (qsum_list shares == 0)%Q) ->
   exists bs, media_spend out = Ok (concat bs) /\ Forall2 (spend_block (negb kpi_only)) out bs).
Proof.
  intros specs out Sh D K V R M T.
  assert (D' : NoDup (paid ++ others ++ ["All Channels"])).
  { clear - D. rewrite app_assoc in *. change ["All Channels"; "baseline"] with (["All Channels"] ++ ["baseline"]) in D. rewrite app_assoc in D. apply NoDup_remove_1 in D. rewrite app_nil_r in D. exact D. }
  destruct (C101_analyses specs out Sh D' K V R) as [groups [-> F]].
  exact (planner_lemma New dated coords_of paid others model_coords kpi_only revenue_type summary_metrics baseline_metrics curves_of incremental_of D specs groups F M T).
Qed.

(** Incremental outcome specs get no baseline analysis, so the planner cannot make its table as soon as there is one. *)
Theorem C101_incremental_planner_refuted : forall specs out s i,
  summary_shape New paid others (tc_dates model_coords) days_of summary_metrics ->
  NoDup (paid ++ others ++ ["All Channels"]) ->
  (calendar model_coords /\ forall n c, coords_of n = Ok c -> calendar c) ->
  Forall (fun s => validate_spec New dated s = Ok tt) specs -> run specs = Ok out ->
  In s specs -> s_inc _ s = Some i -> forall rows, media_outcome out <> Ok rows.
Proof.
  intros specs out s i Sh D K V R I E. destruct (C101_analyses specs out Sh D K V R) as [groups [-> F]].
  exact (inc_planner New dated coords_of paid others model_coords kpi_only revenue_type summary_metrics baseline_metrics curves_of incremental_of specs groups s i F I E).
Qed.
(** Without a spec tagged "ALL" the planner raises KeyError. *)
Theorem C101_tag_refuted : forall specs out,
  summary_shape New paid others (tc_dates model_coords) days_of summary_metrics ->
  NoDup (paid ++ others ++ ["All Channels"]) ->
  (calendar model_coords /\ forall n c, coords_of n = Ok c -> calendar c) ->
  Forall (fun s => validate_spec New dated s = Ok tt) specs -> run specs = Ok out ->
  specs <> [] -> (forall s, In s specs -> s_tag _ s <> "ALL") -> media_outcome out = Err KeyError.
Proof.
  intros specs out Sh D K V R N T. destruct (C101_analyses specs out Sh D K V R) as [groups [-> F]].
  exact (untagged_planner New dated coords_of paid others model_coords kpi_only revenue_type summary_metrics baseline_metrics curves_of incremental_of specs groups F N T).
Qed.

(** The media times of a media summary, and whether an incremental outcome includes unpaid channels, change nothing. *)
Definition with_media_times (mt : option (list bool)) (s : mspec New) : mspec New :=
  mkMSpec New (s_start _ s) (s_end _ s) (s_tag _ s)
    (option_map (fun m => mkMediaSpec New (m_aggregate _ m) (m_by_reach _ m) (m_non_paid _ m) (m_new _ m) mt) (s_media _ s)) (s_inc _ s) (s_curve_reach _ s) (s_level _ s).
Definition with_non_paid (b : bool) (s : mspec New) : mspec New :=
  mkMSpec New (s_start _ s) (s_end _ s) (s_tag _ s) (s_media _ s)
    (option_map (fun i => mkIncSpec New (i_aggregate _ i) (i_new _ i) (i_media_times _ i) b) (s_inc _ s)) (s_curve_reach _ s) (s_level _ s).
Theorem C101_media_times_refuted : forall specs mt, run (map (with_media_times mt) specs) = run specs.
Proof.
  intros specs mt. unfold run, execute. f_equal. induction specs as [|s r IH]; cbn [map mapR]; [ reflexivity | ]. rewrite IH. f_equal.
  destruct s as [a b t [[a1 a2 a3 a4 a5]|] [i|] cr lv]; reflexivity.
Qed.
Theorem C101_non_paid_refuted : forall specs b, run (map (with_non_paid b) specs) = run specs.
Proof.
  intros specs b. unfold run, execute. f_equal. induction specs as [|s r IH]; cbn [map mapR]; [ reflexivity | ]. rewrite IH. f_equal.
  destruct s as [a b0 t [m|] [[i1 i2 i3 i4]|] cr lv]; reflexivity.
Qed.
(** A spec that starts and ends on the same day can be built and is never answered. *)
Theorem C101_empty_period_refuted : forall a tag m reach level, (0 < level < 1)%Q ->
  let s := mkMSpec New (Some a) (Some a) tag (Some m) None reach level in
  validate_spec New dated s = Ok tt /\
  (forall c, calendar_of New dated coords_of model_coords (m_new _ m) c -> calendar c -> forall out, run [s] <> Ok out).
Proof.
  intros a tag m reach level L s. assert (V : validate_spec New dated s = Ok tt).
  { apply C101_spec. cbn [s_start s_end s_level s_media s_inc s]. split; [ intros x y X Y; injection X as <-; injection Y as <-; lia | ]. split; [ exact L | ].
    left. exists m. split; reflexivity. }
  split; [ exact V | ]. intros c K C. apply (C101_off_calendar [s] s c (or_introl eq_refl) K C V).
  intros [_ [_ O]]. specialize (O a a eq_refl eq_refl). destruct C as [_ [_ P]]. lia.
Qed.
End Theorems.

Print Assumptions C101_spec.
Print Assumptions C101_analyses.
Print Assumptions C101_accepted.
Print Assumptions C101_off_calendar.
Print Assumptions C101_planner.
Print Assumptions C101_incremental_planner_refuted.
Print Assumptions C101_tag_refuted.
Print Assumptions C101_media_times_refuted.
Print Assumptions C101_non_paid_refuted.
Print Assumptions C101_empty_period_refuted.

(** The dates of a spec resolve exactly when start is the start of a period and end the end of one; the periods are then
    those within [start, end). *)
Theorem C101_resolution : forall c s e, calendar c ->
  ((exists x, enumerated c s e = Ok x) <-> on_calendar c s e) /\
  (forall v, enumerated c s e = Err v -> v = ValueError) /\
  (forall x, enumerated c s e = Ok x -> exists l, periods c s e l /\ l <> [] /\ selects c l x).
Proof.
  intros c s e K. split; [ exact (enumerated_iff c s e K) | ]. split; [ intros v; exact (enumerated_err c s e v K) | ].
  intros x X. exists (listed (tc_dates c) x). exact (proj2 (enumerated_inv c s e x K X)).
Qed.
Print Assumptions C101_resolution.

(** *** A concrete case: two paid channels, one unpaid, three weeks. *)
Definition ex_coords := mkCoords [100; 107; 114]%Z 7%Z.
Definition ex_dated (n : list Z) : bool := negb (Nat.eqb (length n) 0%nat).
Definition ex_coords_of (n : list Z) : result coords := raise_if (negb (Nat.eqb (length n) 2%nat && Z.eqb (nth 1%nat n 0%Z) (nth 0%nat n 0 + 7)%Z)) ValueError (Ok (mkCoords n 7%Z)).
Definition ex_days (n : list Z) : list Z := if ex_dated n then n else tc_dates ex_coords.
Definition stats (k : Z) : stat4 := mkStat (inject_Z k) (inject_Z (k + 1)) (inject_Z (k - 5)) (inject_Z (k + 9)).
Definition ex_cell (agg paid_table : bool) (k : Z) (t : Z) : cell :=
  mkCell (stats (k + t)) (Some (stats (10 * k))) (if agg then Some (stats (2 * k)) else None) (if agg && paid_table then Some (stats (3 * k)) else None)
    (if agg && paid_table then Some (stats (4 * k)) else None) (if agg && paid_table then Some (stats (5 * k)) else None)
    (if paid_table then Some (inject_Z (100 * k), inject_Z (20 * k)) else None).
Definition ex_table (agg paid_table : bool) (ts : list Z) (names : list (string * Z)) : table :=
  mkTable (if agg then None else Some ts) (map (fun nk : string * Z => (fst nk, if agg then [ex_cell agg paid_table (snd nk) 0] else map (ex_cell agg paid_table (snd nk)) ts)) names).
Definition ex_listed (times : option (list Z)) (d : list Z) : list Z := match times with Some l => l | None => d end.
Definition ex_summary (r : summary_request (list Z)) : result table :=
  Ok (ex_table (r_aggregate _ r) (negb (r_non_paid _ r)) (ex_listed (r_times _ r) (all_days _ (tc_dates ex_coords) ex_days (r_new _ r)))
        (if r_non_paid _ r then [("tv", 1); ("search", 2); ("email", 3); ("All Channels", 6)]%Z else [("tv", 1); ("search", 2); ("All Channels", 3)]%Z)).
Definition ex_baseline (level : Q) (agg : bool) (times : option (list Z)) : result table :=
  raise_if (negb (forallb (fun t => day_in t (tc_dates ex_coords)) (ex_listed times []))) ValueError (
  Ok (ex_table agg false (ex_listed times (tc_dates ex_coords)) [("baseline", 7%Z)])).
Definition ex_curves (level : Q) (times : option (list Z)) (kpi reach : bool) : result (list (string * list (Q * Q))) :=
  Ok [("tv", [(0, 0); (1, 2)]%Q); ("search", [(0, 0); (5, 3)]%Q)].
Definition ex_incremental (n : option (list Z)) (mt fl : option (list bool)) (agg kpi np : bool) (level : Q) : result (list (list stat4)) :=
  Ok (map (fun k => repeat (stats k) (if agg then 1%nat else match fl with Some bs => length (filter (fun b => b) bs) | None => length (all_days _ (tc_dates ex_coords) ex_days n) end)) [1; 2; 3]%Z).
Definition ex_run (kpi_only revenue_type : bool) := execute (list Z) ex_dated ex_coords_of ["tv"; "search"] ex_coords kpi_only revenue_type ex_summary ex_baseline ex_curves ex_incremental.

Lemma ex_shape : forall (agg p : bool) ts names, shape (if agg then None else Some ts) (map fst names) (ex_table agg p ts names).
Proof.
  intros agg p ts names. split; [ reflexivity | ]. split; [ cbn [ex_table d_rows]; rewrite map_map; reflexivity | ].
  cbn [ex_table d_rows]. intros name row I. apply in_map_iff in I. destruct I as [nk [E _]]. injection E as _ <-. destruct agg; [ reflexivity | apply map_length ].
Qed.
Lemma ex_summary_shape : summary_shape (list Z) ["tv"; "search"] ["email"] (tc_dates ex_coords) ex_days ex_summary.
Proof.
  intros r d E. injection E as <-. unfold times_of. destruct (r_aggregate _ r) eqn:A, (r_non_paid _ r); cbn [negb];
    (match goal with |- shape _ _ (ex_table ?a ?p ?ts ?ns) => exact (ex_shape a p ts ns) end).
Qed.
Lemma ex_baseline_shape : baseline_shape (list Z) (tc_dates ex_coords) ex_days ex_baseline.
Proof.
  intros level agg times d E. unfold ex_baseline in E. apply raise_inv in E. destruct E as [B E]. injection E as <-. split; [ | split ].
  - exact (ex_shape agg false (ex_listed times (tc_dates ex_coords)) [("baseline", 7%Z)]).
  - intros name row c I J. cbn [ex_table d_rows map fst snd] in I. destruct I as [I|[]]. injection I as _ <-.
    destruct agg; [ destruct J as [<-|[]] | apply in_map_iff in J; destruct J as [t [<- _]] ]; discriminate.
  - intros ts ->. apply negb_false_iff in B. rewrite forallb_forall in B. intros z Z. apply day_in_spec. exact (B z Z).
Qed.
Lemma ex_calendar : calendar ex_coords /\ forall n c, ex_coords_of n = Ok c -> calendar c.
Proof.
  split.
  - split; [ discriminate | ]. split; [ | reflexivity ]. repeat constructor; lia.
  - intros n c H. apply raise_inv in H. destruct H as [B H]. injection H as <-. apply negb_false_iff in B. apply andb_true_iff in B. destruct B as [L E].
    destruct n as [|a [|b [|? ?]]]; try discriminate. cbn [nth] in E. apply Z.eqb_eq in E. subst b. split; [ discriminate | ]. split; [ | reflexivity ].
    cbn [tc_dates]. repeat constructor; lia.
Qed.
Lemma ex_answers : summary_answers (list Z) ex_summary /\ baseline_answers (tc_dates ex_coords) ex_baseline /\ curves_answer ex_curves /\
  incremental_answers (list Z) ["tv"; "search"] (tc_dates ex_coords) ex_days ex_incremental /\
  forall n c, calendar_of (list Z) ex_dated ex_coords_of ex_coords (Some n) c -> ex_days n = tc_dates c.
Proof.
  split; [ intros r; eexists; reflexivity | ]. split; [ | split; [ | split ] ].
  - intros level agg times H. unfold ex_baseline. replace (forallb (fun t => day_in t (tc_dates ex_coords)) (ex_listed times [])) with true; [ eexists; reflexivity | ].
    symmetry. apply forallb_forall. intros x X. apply day_in_spec. destruct times as [ts|]; [ exact (H ts eq_refl x X) | destruct X ].
  - intros level times kpi reach. eexists; reflexivity.
  - intros n mt fl agg kpi level. eexists. split; [ reflexivity | ]. split; [ reflexivity | ]. intros row I. apply in_map_iff in I. destruct I as [k [<- _]]. rewrite repeat_length. destruct agg; reflexivity.
  - intros n c K. cbn [calendar_of] in K. unfold ex_days. destruct (ex_dated n); [ | subst c; reflexivity ]. apply raise_inv in K. destruct K as [_ K]. injection K as <-. reflexivity.
Qed.

Definition ex_media (agg np : bool) (n : option (list Z)) := mkMediaSpec (list Z) agg true np n None.
Definition ex_spec (a b : option Z) (tag : string) (m : media_spec (list Z)) := mkMSpec (list Z) a b tag (Some m) None true (9 # 10).
Definition ex_inc (agg : bool) (n : option (list Z)) := mkMSpec (list Z) None None "what if" None (Some (mkIncSpec (list Z) agg n None false)) true (9 # 10).
Definition ex_specs := [ex_spec None None "ALL" (ex_media true false None); ex_spec (Some 107%Z) (Some 121%Z) "late" (ex_media false true None)].

(** The hypotheses of the theorems hold of it, and it is answered: three analyses, of the weeks and channels asked for. *)
Example C101_example :
  summary_shape (list Z) ["tv"; "search"] ["email"] (tc_dates ex_coords) ex_days ex_summary /\
  baseline_shape (list Z) (tc_dates ex_coords) ex_days ex_baseline /\
  (calendar ex_coords /\ forall n c, ex_coords_of n = Ok c -> calendar c) /\
  Forall (fun s => validate_spec (list Z) ex_dated s = Ok tt) (ex_specs ++ [ex_inc false None]) /\
  exists out, ex_run false false (ex_specs ++ [ex_inc false (Some [200; 207]%Z)]) = Ok out /\
  map (fun a => (an_interval a, map c_name (an_media a), map n_name (an_non_media a))) out =
   [ (mkInterval 100 121 "ALL", ["tv"; "search"; "All Channels"], ["baseline"]);
     (mkInterval 107 114 "late", ["tv"; "search"], ["email"; "All Channels"; "baseline"]);
     (mkInterval 114 121 "late", ["tv"; "search"], ["email"; "All Channels"; "baseline"]);
     (mkInterval 200 207 "what if", ["tv"; "search"; "All Channels"], []);
     (mkInterval 207 214 "what if", ["tv"; "search"; "All Channels"], []) ] /\
  map (fun m => map o_revenue (c_outcomes m)) (an_media (nth 0%nat out (mkAnalysis (mkInterval 0 0 "") [] []))) = [[true; false]; [true; false]; [true; false]].
Proof.
  split; [ exact ex_summary_shape | ]. split; [ exact ex_baseline_shape | ]. split; [ exact ex_calendar | ].
  split; [ repeat (constructor; try reflexivity) | ]. eexists. split; [ vm_compute; reflexivity | ]. split; reflexivity.
Qed.

Example C101_example_accepted : (exists out, ex_run true false ex_specs = Ok out) /\ (exists out, ex_run false true [ex_inc true (Some [300; 307]%Z)] = Ok out).
Proof.
  destruct ex_answers as [A1 [A2 [A3 [A4 Y]]]].
  split; apply (C101_accepted (list Z) ex_dated ex_coords_of ["tv"; "search"] ["email"] ex_coords _ _ ex_summary ex_baseline ex_curves ex_incremental ex_days
    _ ex_summary_shape ex_baseline_shape); try exact ex_calendar; try assumption;
    try (apply (NoDup_nodup string_dec ["tv"; "search"; "email"; "All Channels"])).
  - constructor; [ | constructor; [ | constructor ] ]; (split; [ reflexivity | ]); exists ex_coords; (split; [ reflexivity | ]); (split; [ | reflexivity ]).
    + split; [ | split ]; intros; discriminate.
    + split; [ | split ]; cbn [s_start s_end ex_spec ex_coords tc_dates tc_days].
      * intros a E. injection E as <-. right. left. reflexivity.
      * intros b E. injection E as <-. right. right. left. reflexivity.
      * intros a b E F. injection E as <-. injection F as <-. lia.
  - constructor; [ | constructor ]. split; [ reflexivity | ]. exists (mkCoords [300; 307]%Z 7%Z). split; [ reflexivity | ]. split; [ | intros X; contradiction X; reflexivity ].
    split; [ | split ]; intros; discriminate.
Qed.

(** The planner's tables of the first spec. *)
Example C101_example_planner : exists out, ex_run false true [ex_spec None None "ALL" (ex_media true false None)] = Ok out /\
  media_outcome out = Ok [ mkOutcomeRow 0%nat "baseline" (Some (7 # 1)) (Some (70 / 100)%Q) (mkInterval 100 121 "ALL");
                           mkOutcomeRow 2%nat "tv" (Some (1 # 1)) (Some (10 / 100)%Q) (mkInterval 100 121 "ALL");
                           mkOutcomeRow 2%nat "search" (Some (2 # 1)) (Some (20 / 100)%Q) (mkInterval 100 121 "ALL");
                           mkOutcomeRow 1%nat "All Channels" (Some (3 # 1)) (Some (30 / 100)%Q) (mkInterval 100 121 "ALL") ] /\
  (exists rows, media_spend out = Ok rows /\ map (fun r => (sr_channel r, sr_label r, option_map Qred (sr_value r))) rows =
     [("tv", "Spend Share", Some (1 # 5)); ("tv", "Revenue Share", Some (1 # 3)); ("search", "Spend Share", Some (2 # 5)); ("search", "Revenue Share", Some (2 # 3))]) /\
  (exists rows, media_roi out = Ok rows /\ map (fun r => (rr_channel r, rr_roi r, rr_mroi r)) rows = [("tv", 3 # 1, 4 # 1); ("search", 6 # 1, 8 # 1)]%Q).
Proof.
  eexists. split; [ vm_compute; reflexivity | ]. split; [ vm_compute; reflexivity | ]. split; eexists; (split; [ vm_compute; reflexivity | vm_compute; reflexivity ]).
Qed.

(** Dashboards are told that sorting by the index puts "All Channels" last; it comes before every channel. *)
Theorem C101_all_channels_last_refuted : ~ (forall kpi_only revenue_type specs out rows r r', ex_run kpi_only revenue_type specs = Ok out -> media_outcome out = Ok rows ->
  In r rows -> In r' rows -> or_channel r = "All Channels" -> (or_index r' <= or_index r)%nat).
Proof.
  intros H. destruct C101_example_planner as [out [R [T _]]].
  specialize (H _ _ _ _ _ (mkOutcomeRow 1%nat "All Channels" (Some (3 # 1)) (Some (30 / 100)%Q) (mkInterval 100 121 "ALL"))
    (mkOutcomeRow 2%nat "tv" (Some (1 # 1)) (Some (10 / 100)%Q) (mkInterval 100 121 "ALL")) R T (or_intror (or_intror (or_intror (or_introl eq_refl)))) (or_intror (or_introl eq_refl)) eq_refl).
  cbn [or_index] in H. lia.
Qed.
Print Assumptions C101_all_channels_last_refuted.

(** Each analysis is said to hold a media analysis of "All Channels"; with unpaid channels included it does not. *)
Theorem C101_all_channels_refuted : ~ (forall specs out a, ex_run false true specs = Ok out -> In a out -> In "All Channels" (map c_name (an_media a))).
Proof.
  intros H. assert (E : exists out, ex_run false true [ex_spec None None "ALL" (ex_media true true None)] = Ok out /\ exists a, In a out /\ map c_name (an_media a) = ["tv"; "search"]).
  { eexists. split; [ vm_compute; reflexivity | ]. eexists. split; [ left; reflexivity | reflexivity ]. }
  destruct E as [out [R [a [I N]]]]. specialize (H _ _ a R I). rewrite N in H. cbn [In] in H. destruct H as [H|[H|[]]]; discriminate.
Qed.
Print Assumptions C101_all_channels_refuted.

(** With new data about later weeks, the baseline reported for those weeks is that of the model's own weeks ... *)
Theorem C101_baseline_period_refuted : exists out p, ex_run false true [ex_spec None None "later" (ex_media true false (Some [300; 307]%Z))] = Ok out /\
  map an_interval out = [mkInterval 300 314 "later"] /\ map an_non_media out = [[p]] /\
  exists out', ex_run false true [ex_spec None None "now" (ex_media true false None)] = Ok out' /\ map an_interval out' = [mkInterval 100 121 "now"] /\ map an_non_media out' = [[p]].
Proof. do 2 eexists. split; [ vm_compute; reflexivity | ]. split; [ reflexivity | ]. split; [ reflexivity | ]. eexists. split; [ vm_compute; reflexivity | ]. split; reflexivity. Qed.
Print Assumptions C101_baseline_period_refuted.
(** ... and when a part of the later weeks, or one analysis for each, is asked for, the spec is refused. *)
Theorem C101_later_weeks_refuted :
  ex_run false true [ex_spec (Some 307%Z) None "later" (ex_media true false (Some [300; 307]%Z))] = Err ValueError /\
  ex_run false true [ex_spec None None "later" (ex_media false false (Some [300; 307]%Z))] = Err KeyError.
Proof. split; vm_compute; reflexivity. Qed.
Print Assumptions C101_later_weeks_refuted.

(** Analyses by period have no ROI; the planner shows it as zero, with no interval. *)
Theorem C101_period_roi_refuted : exists out rows, ex_run false true [ex_spec None None "ALL" (ex_media false false None)] = Ok out /\ media_roi out = Ok rows /\
  (forall a m o, In a out -> In m (an_media a) -> In o (c_outcomes m) -> o_roi o = None) /\
  length rows = 6%nat /\ (forall r, In r rows -> rr_roi r = 0%Q /\ rr_lo r = None /\ (0 < rr_spend r)%Q).
Proof.
  do 2 eexists. split; [ vm_compute; reflexivity | ]. split; [ vm_compute; reflexivity | ]. split; [ | split; [ reflexivity | ] ].
  - intros a m o A M O. cbn [In] in A. destruct A as [<-|[<-|[<-|[]]]]; cbn [an_media In] in M; destruct M as [<-|[<-|[<-|[]]]]; cbn [c_outcomes In] in O; destruct O as [<-|[]]; reflexivity.
  - intros r R. cbn [In] in R. repeat (destruct R as [<-|R]; [ split; [ reflexivity | split; [ reflexivity | vm_compute; reflexivity ] ] | ]). destruct R.
Qed.
Print Assumptions C101_period_roi_refuted.

(** Outcome shares that add up to zero (here because an incremental outcome analysis has none) stop the spend table. *)
Theorem C101_zero_shares_refuted : exists out, ex_run false true [ex_spec None None "ALL" (ex_media true false None); ex_inc true None] = Ok out /\ media_spend out = Err ZeroDivisionError.
Proof. eexists. split; vm_compute; reflexivity. Qed.
Print Assumptions C101_zero_shares_refuted.

(** Monthly data: the first quarter, [2024-01-01, 2024-04-01), is refused, since the end is moved back by 30 days. *)
Definition months : list date := [mkDate 2024 1 1; mkDate 2024 2 1; mkDate 2024 3 1; mkDate 2024 4 1; mkDate 2024 5 1; mkDate 2024 6 1].
Theorem C101_monthly_refuted : is_regular months = true /\ interval_days months = 30%Z /\
  enumerated (mkCoords (map ordinal months) (interval_days months)) (Some (ordinal (mkDate 2024 1 1))) (Some (ordinal (mkDate 2024 4 1))) = Err ValueError.
Proof. split; [ vm_compute; reflexivity | ]. split; vm_compute; reflexivity. Qed.
Print Assumptions C101_monthly_refuted.
(** The dates of the module's own example, [2023-01-01, 2023-03-31), are refused on weekly data from 2023-01-01 on. *)
Definition sundays : list Z := map (fun k => (ordinal (mkDate 2023 1 1) + 7 * Z.of_nat k)%Z) (seq 0 26).
Theorem C101_documented_dates_refuted :
  enumerated (mkCoords sundays 7%Z) (Some (ordinal (mkDate 2023 1 1))) (Some (ordinal (mkDate 2023 3 31))) = Err ValueError.
Proof. vm_compute. reflexivity. Qed.
Print Assumptions C101_documented_dates_refuted.
