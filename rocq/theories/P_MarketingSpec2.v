(** Proofs for the analyses of the marketing processor. *)
From Coq Require Import ZArith QArith String List Bool Arith Sorted Lia.
From Verif Require Import M_Base M_Opt M_BudgetSpec S_BudgetSpec P_BudgetSpec M_MarketingSpec S_MarketingSpec P_MarketingSpec.
Import ListNotations.
Local Open Scope string_scope.
Local Open Scope list_scope.

Definition sub (d d' : table) : Prop := forall n t c, cell_at d n t c -> cell_at d' n t c.
Definition sub_opt (x y : option table) : Prop := match x, y with None, None => True | Some a, Some b => sub a b | _, _ => False end.
Lemma sub_refl : forall d, sub d d.
Proof. intros d n t c H. exact H. Qed.
Lemma sub_opt_refl : forall x, sub_opt x x.
Proof. intros [d|]; [ apply sub_refl | exact Logic.I ]. Qed.

Lemma outcome_shows : forall level revenue name c, shows level revenue name c (compute_outcome level revenue (String.eqb name "All Channels") c).
Proof.
  intros level revenue name c. unfold shows, compute_outcome.
  cbn [o_revenue o_value o_share o_roi o_cost o_effectiveness o_mroi].
  split; [ reflexivity | ]. split; [ repeat split | ].
  split; [ destruct (ce_pct c); cbn [option_map absent_or]; [ repeat split | exact Logic.I ] | ].
  split; [ destruct (ce_roi c); cbn [option_map absent_or]; [ repeat split | exact Logic.I ] | ].
  split; [ destruct (ce_cpik c); cbn [option_map absent_or]; [ repeat split | exact Logic.I ] | ].
  destruct (String.eqb name "All Channels"); [ split; reflexivity | ].
  split; [ destruct (ce_effectiveness c) | destruct (ce_mroi c) ]; cbn [option_map absent_or]; first [ exact Logic.I | repeat split ].
Qed.

Lemma drop_inv : forall ns d d', drop_channels ns d = Ok d' -> d_times d' = d_times d /\ sub d' d /\
  names_of d' = filter (fun x => negb (mem x ns)) (names_of d) /\ (forall r, In r (d_rows d') -> In r (d_rows d)).
Proof.
  intros ns d d' H. unfold drop_channels in H. apply raise_inv in H. destruct H as [_ H]. injection H as <-. cbn [d_times].
  split; [ reflexivity | ]. split; [ | split ].
  - intros n t c [row [I M]]. cbn [d_rows d_times] in *. apply filter_In in I. exists row. split; [ exact (proj1 I) | exact M ].
  - unfold names_of. cbn [d_rows]. induction (d_rows d) as [|[n row] r IH]; cbn [filter map fst]; [ reflexivity | ].
    destruct (negb (mem n ns)); cbn [map fst]; rewrite IH; reflexivity.
  - intros r I. cbn [d_rows] in I. apply filter_In in I. exact (proj1 I).
Qed.
Lemma drop_ok : forall ns d, (forall x, In x ns -> In x (names_of d)) -> exists d', drop_channels ns d = Ok d'.
Proof.
  intros ns d H. unfold drop_channels. replace (forallb (fun x => mem x (names_of d)) ns) with true.
  - cbn [negb raise_if]. eexists; reflexivity.
  - symmetry. apply forallb_forall. intros x I. apply mem_in. apply H. exact I.
Qed.
Lemma filter_none : forall (A : Type) (f : A -> bool) l, (forall x, In x l -> f x = false) -> filter f l = [].
Proof.
  intros A f l. induction l as [|x r IH]; intros H; cbn [filter]; [ reflexivity | ].
  rewrite (H x (or_introl eq_refl)). apply IH. intros y Y. apply H. right. exact Y.
Qed.
Lemma filter_all : forall (A : Type) (f : A -> bool) l, (forall x, In x l -> f x = true) -> filter f l = l.
Proof.
  intros A f l. induction l as [|x r IH]; intros H; cbn [filter]; [ reflexivity | ].
  rewrite (H x (or_introl eq_refl)). f_equal. apply IH. intros y Y. apply H. right. exact Y.
Qed.
Lemma not_mem : forall x l, ~ In x l -> mem x l = false.
Proof. intros x l H. destruct (mem x l) eqn:E; [ apply mem_in in E; contradiction | reflexivity ]. Qed.

Section One.
Variable kpi_only : bool.

Lemma channel_outcomes_inv : forall level name t d second D S outs c, channel_outcomes kpi_only level name t d second = Ok (outs, c) ->
  sub d D -> sub_opt second S -> outcomes_shown level (negb kpi_only) name t D S outs /\ cell_at D name t c.
Proof.
  intros level name t d second D S outs c H U V. unfold channel_outcomes in H.
  apply rbind_inv in H. destruct H as [c1 [C1 H]]. apply rbind_inv in H. destruct H as [c2 [C2 H]]. injection H as <- <-.
  apply sel_cell in C1. apply U in C1. split; [ | exact C1 ].
  exists c1, (compute_outcome level (negb kpi_only) (String.eqb name "All Channels") c1). split; [ exact C1 | ]. split; [ apply outcome_shows | ].
  destruct second as [d2|]; destruct S as [D2|]; cbn [sub_opt] in V; try contradiction.
  - apply rbind_inv in C2. destruct C2 as [x [X C2]]. injection C2 as <-. apply sel_cell in X. apply V in X.
    exists x, (compute_outcome level false (String.eqb name "All Channels") x). split; [ exact X | ]. split; [ apply outcome_shows | reflexivity ].
  - injection C2 as <-. reflexivity.
Qed.

Lemma map_names : forall (A B : Type) (f : string -> result A) (g : A -> string) l m, (forall x y, f x = Ok y -> g y = x) -> mapR f l = Ok m -> map g m = l.
Proof.
  intros A B f g l m F H. apply mapR_ok in H. induction H as [|x y l m E H IH]; cbn [map]; [ reflexivity | ]. rewrite (F x y E), IH. reflexivity.
Qed.
Lemma mapR_in : forall (A B : Type) (f : A -> result B) l m y, mapR f l = Ok m -> In y m -> exists x, In x l /\ f x = Ok y.
Proof.
  intros A B f l m y H I. apply mapR_ok in H. induction H as [|x z l m E H IH]; [ destruct I | ].
  destruct I as [<-|I]; [ exists x; split; [ left; reflexivity | exact E ] | ]. destruct (IH I) as [w [W F]]. exists w. split; [ right; exact W | exact F ].
Qed.
Lemma mapR_total : forall (A B : Type) (f : A -> result B) l, (forall x, In x l -> exists y, f x = Ok y) -> exists m, mapR f l = Ok m.
Proof.
  intros A B f l. induction l as [|x r IH]; intros H; [ exists []; reflexivity | ]. cbn [mapR].
  destruct (H x (or_introl eq_refl)) as [y ->]. destruct IH as [m E]; [ intros z Z; apply H; right; exact Z | ]. rewrite E. eexists; reflexivity.
Qed.

Lemma baseline_inv : forall level t b p, baseline_pb kpi_only level t b = Ok p -> baseline_shown level (negb kpi_only) t b p.
Proof.
  intros level t b p H. unfold baseline_pb in H. apply rbind_inv in H. destruct H as [c [C H]].
  destruct (ce_pct c) as [pct|] eqn:P; [ | discriminate ]. injection H as <-. split; [ reflexivity | ].
  exists c, pct. eexists. split; [ exact (sel_cell _ _ _ _ _ C) | ]. split; [ exact P | ]. split; [ reflexivity | ].
  cbn [o_revenue o_value o_share o_effectiveness o_cost o_roi o_mroi]. split; [ reflexivity | ]. split; [ repeat split | ].
  split; [ eexists; split; [ reflexivity | repeat split ] | ]. repeat split.
Qed.

Lemma one_inv : forall level d non second second_n base curves i a D N S SN media others,
  one_analysis kpi_only level d non second second_n base curves i = Ok a ->
  sub d D -> sub_opt non N -> sub_opt second S -> sub_opt second_n SN ->
  names_of d = media -> match non with Some dn => names_of dn | None => [] end = others -> (forall x, In x others -> ~ In x media) ->
  analysis_shown level (negb kpi_only) D S media N SN others base curves i a.
Proof.
  intros level d non second second_n base curves i a D N S SN media others H U1 U2 U3 U4 E1 E2 Disj.
  unfold one_analysis in H. cbv zeta in H. rewrite E2, E1 in H.
  rewrite (filter_none _ (fun x => mem x media) others) in H; [ | intros x X; apply not_mem; exact (Disj x X) ].
  rewrite app_nil_r in H.
  rewrite (filter_all _ (fun x => negb (mem x media)) others) in H; [ | intros x X; rewrite (not_mem x media (Disj x X)); reflexivity ].
  apply rbind_inv in H. destruct H as [ms [M H]]. apply rbind_inv in H. destruct H as [ns [B H]]. apply rbind_inv in H. destruct H as [bs [C H]].
  injection H as <-. split; [ reflexivity | ]. cbn [an_media an_non_media]. split; [ | split ].
  - eapply map_names; [ exact string | | exact M ]. intros x y Y. unfold media_pb_of in Y. apply rbind_inv in Y. destruct Y as [oc [_ Y]]. injection Y as <-. reflexivity.
  - intros m I. destruct (mapR_in _ _ _ _ _ _ M I) as [x [_ Y]]. unfold media_pb_of in Y. apply rbind_inv in Y. destruct Y as [[outs c] [OC Y]].
    injection Y as <-. cbn [c_name c_outcomes c_spend c_curve fst snd].
    destruct (channel_outcomes_inv _ _ _ _ _ _ _ _ _ OC U1 U3) as [O1 O2]. split; [ exact O1 | ]. split.
    + exists c. split; [ exact O2 | ]. unfold compute_spend. destruct (ce_spend c) as [[sp sh]|]; cbn [option_map absent_or fst snd]; [ split; reflexivity | exact Logic.I ].
    + destruct curves as [cs|]; [ | reflexivity ]. destruct (dget cs x) eqn:G; [ exact (dget_in _ _ _ _ G) | exact (dget_none _ _ _ G) ].
  - exists ns, bs. split; [ reflexivity | ]. destruct non as [dn|].
    + split; [ | split ].
      * eapply map_names; [ exact string | | exact B ]. intros x y Y. unfold non_pb_of in Y. apply rbind_inv in Y. destruct Y as [oc [_ Y]]. injection Y as <-. reflexivity.
      * intros n I. destruct N as [DN|]; cbn [sub_opt] in U2; [ | contradiction ].
        destruct (mapR_in _ _ _ _ _ _ B I) as [x [_ Y]]. unfold non_pb_of in Y. apply rbind_inv in Y. destruct Y as [[outs c] [OC Y]].
        injection Y as <-. cbn [n_name n_outcomes fst]. exists DN. split; [ reflexivity | ].
        exact (proj1 (channel_outcomes_inv _ _ _ _ _ _ _ _ _ OC U2 U4)).
      * destruct base as [b|]; [ | injection C as <-; reflexivity ]. apply rbind_inv in C. destruct C as [p [P C]]. injection C as <-.
        exists p. split; [ reflexivity | exact (baseline_inv _ _ _ _ P) ].
    + injection B as <-. split; [ rewrite <- E2; reflexivity | ]. split; [ intros n [] | ].
      destruct base as [b|]; [ | injection C as <-; reflexivity ]. apply rbind_inv in C. destruct C as [p [P C]]. injection C as <-.
      exists p. split; [ reflexivity | exact (baseline_inv _ _ _ _ P) ].
Qed.
End One.

Section Run.
Variable New : Type.
Variable dated : New -> bool.
Variable coords_of : New -> result coords.
Variables paid others : list string.
Variable model_coords : coords.
Variables kpi_only revenue_type : bool.
Variable summary_metrics : summary_request New -> result table.
Variable baseline_metrics : Q -> bool -> option (list Z) -> result table.
Variable curves_of : Q -> option (list Z) -> bool -> bool -> result (list (string * list (Q * Q))).
Variable incremental_of : option New -> option (list bool) -> option (list bool) -> bool -> bool -> bool -> Q -> result (list (list stat4)).
Variable model_days : list Z.
Variable days_of : New -> list Z.
Hypothesis Shape : summary_shape New paid others model_days days_of summary_metrics.
Hypothesis Distinct : NoDup (paid ++ others ++ ["All Channels"]).
Hypothesis Calendars : calendar model_coords /\ forall n c, coords_of n = Ok c -> calendar c.

Local Notation media_tables := (media_tables New summary_metrics).
Local Notation asked := (asked New summary_metrics).

Lemma not_all : ~ In "All Channels" paid.
Proof using Distinct.
  clear - Distinct. intros I. apply NoDup_remove_2 with (l := paid ++ others) (l' := []) (a := "All Channels").
  - rewrite <- app_assoc. exact Distinct.
  - rewrite app_nil_r. apply in_or_app. left. exact I.
Qed.
Lemma others_new : forall x, In x (others ++ ["All Channels"]) -> ~ In x paid.
Proof using Distinct.
  clear - Distinct. intros x X I. induction paid as [|p r IH]; [ destruct I | ].
  cbn [app] in Distinct. inversion Distinct as [|? ? N D]; subst. destruct I as [->|I]; [ | exact (IH D I) ].
  apply N. apply in_or_app. right. exact X.
Qed.

Lemma tables_inv : forall m times level kpi d dn, media_tables m times level kpi = Ok (d, dn) ->
  exists D DN, asked m times level kpi D DN /\ sub d D /\ sub_opt dn DN /\
  names_of d = (if m_non_paid _ m then paid else paid ++ ["All Channels"]) /\
  match dn with Some x => names_of x | None => [] end = (if m_non_paid _ m then others ++ ["All Channels"] else []).
Proof using Shape Distinct.
  intros m times level kpi d dn H. unfold M_MarketingSpec.media_tables in H. cbv zeta in H.
  apply rbind_inv in H. destruct H as [D [A H]].
  pose proof (Shape _ _ A) as [_ [ND _]]. cbn [r_non_paid] in ND. unfold S_MarketingSpec.asked.
  destruct (m_non_paid New m) eqn:NP.
  - apply rbind_inv in H. destruct H as [d' [R H]]. apply rbind_inv in H. destruct H as [T [B H]]. apply rbind_inv in H. destruct H as [t' [R2 H]].
    injection H as <- <-. exists D, (Some T). split; [ split; [ exact A | exists T; split; [ reflexivity | exact B ] ] | ].
    destruct (drop_inv _ _ _ R) as [_ [S1 [N1 _]]]. destruct (drop_inv _ _ _ R2) as [_ [S2 [N2 _]]].
    pose proof (Shape _ _ B) as [_ [NT _]]. cbn [r_non_paid] in NT.
    assert (P : names_of d' = paid).
    { rewrite N1. unfold names_of. rewrite ND. rewrite filter_app. rewrite (filter_all _ _ paid).
      - cbn [filter mem existsb]. rewrite String.eqb_refl. cbn [orb negb]. apply app_nil_r.
      - intros x X. rewrite not_mem; [ reflexivity | ]. intros [E|[]]. subst x. exact (not_all X). }
    split; [ exact S1 | ]. split; [ exact S2 | ]. split; [ exact P | ].
    rewrite N2, P. unfold names_of. rewrite NT. rewrite <- app_assoc. rewrite filter_app. rewrite (filter_none _ _ paid).
    + cbn [app]. apply filter_all. intros x X. rewrite (not_mem x paid (others_new x X)). reflexivity.
    + intros x X. rewrite (proj2 (mem_in x paid) X). reflexivity.
  - injection H as <- <-. exists D, None. split; [ split; [ exact A | reflexivity ] | ].
    split; [ apply sub_refl | ]. split; [ exact Logic.I | ]. split; [ exact ND | reflexivity ].
Qed.

Lemma media_lemma : forall s m c g, calendar_of New dated coords_of model_coords (m_new _ m) c ->
  from_media New kpi_only revenue_type summary_metrics baseline_metrics curves_of s m c = Ok g ->
  media_described New dated coords_of paid others model_coords kpi_only revenue_type summary_metrics baseline_metrics curves_of s m g.
Proof using Shape Distinct Calendars.
  intros s m c g K H. unfold from_media in H.
  apply rbind_inv in H. destruct H as [times [T H]]. apply rbind_inv in H. destruct H as [[d dn] [A H]].
  apply rbind_inv in H. destruct H as [[second second_n] [A2 H]]. apply rbind_inv in H. destruct H as [base [B H]].
  apply rbind_inv in H. destruct H as [curves [C H]]. apply rbind_inv in H. destruct H as [is [I H]].
  cbn [fst snd] in H.
  assert (CC : calendar c).
  { destruct Calendars as [C1 C2]. unfold calendar_of in K. destruct (m_new New m) as [x|]; [ | subst c; exact C1 ].
    destruct (dated x); [ exact (C2 x c K) | subst c; exact C1 ]. }
  destruct (enumerated_inv _ _ _ _ CC T) as [_ [P [NE SE]]].
  pose proof (intervals_lemma _ _ _ _ _ _ _ CC T I) as R.
  destruct (tables_inv _ _ _ _ _ _ A) as [D [DN [Ask [S1 [S2 [N1 N2]]]]]].
  assert (G : exists S SN, sub_opt second S /\ sub_opt second_n SN /\
    (if two_outcomes kpi_only revenue_type then exists d2, S = Some d2 /\ asked m times (s_level _ s) true d2 SN else S = None /\ SN = None)).
  { unfold two_outcomes. destruct (negb revenue_type && negb kpi_only).
    - apply rbind_inv in A2. destruct A2 as [[e en] [A2 E]]. injection E as <- <-. cbn [fst snd].
      destruct (tables_inv _ _ _ _ _ _ A2) as [D2 [DN2 [Ask2 [T1 [T2 _]]]]].
      exists (Some D2), DN2. split; [ exact T1 | ]. split; [ exact T2 | ]. exists D2. split; [ reflexivity | exact Ask2 ].
    - injection A2 as <- <-. exists None, None. repeat split. }
  destruct G as [S [SN [S3 [S4 Ask2]]]].
  exists c, (listed (tc_dates c) times), times, is, D, DN, S, SN, base, curves.
  split; [ exact K | ]. split; [ exact P | ]. split; [ exact NE | ]. split; [ exact SE | ]. split; [ exact R | ]. split; [ exact Ask | ].
  split; [ exact Ask2 | ]. split; [ exact B | ]. split.
  - destruct (m_aggregate New m).
    + apply rbind_inv in C. destruct C as [cs [C E]]. injection E as <-. exists cs. split; [ reflexivity | exact C ].
    + injection C as <-. reflexivity.
  - apply mapR_ok in H. clear - H S1 S2 S3 S4 N1 N2 Distinct. induction H as [|i a is g E H IH]; constructor; [ | exact IH ].
    eapply one_inv; [ exact E | exact S1 | exact S2 | exact S3 | exact S4 | exact N1 | exact N2 | ].
    intros x X. destruct (m_non_paid New m); [ exact (others_new x X) | destruct X ].
Qed.

Lemma inc_table_lemma : forall i s c kpi d x f, enumerated c (s_start _ s) (s_end _ s) = Ok x -> selected_flags c (s_start _ s) (s_end _ s) = Ok f ->
  incremental_table New paid incremental_of i s c kpi = Ok d ->
  incremental_asked New paid incremental_of s i f (if i_aggregate _ i then None else Some (listed (tc_dates c) x)) kpi d.
Proof using.
  intros i s c kpi d x f X F H. unfold incremental_table in H. rewrite F in H. cbn [rbind] in H.
  apply rbind_inv in H. destruct H as [rows [RW H]]. cbv zeta in H. apply rbind_inv in H. destruct H as [times [T H]].
  apply raise_inv in H. destruct H as [L H]. injection H as <-. apply negb_false_iff in L. apply andb_true_iff in L. destruct L as [L1 L2].
  apply Nat.eqb_eq in L1. rewrite forallb_forall in L2.
  assert (TT : times = if i_aggregate New i then None else Some (listed (tc_dates c) x)).
  { destruct (i_aggregate New i); [ injection T as <-; reflexivity | ]. rewrite X in T. cbn [rbind] in T. injection T as <-. reflexivity. }
  rewrite <- TT. exists rows. split; [ exact RW | ]. split; [ split; [ reflexivity | split ] | ].
  - cbn [d_rows]. revert L1. generalize (paid ++ ["All Channels"]). clear. induction rows as [|r rs IH]; intros [|n ns] L; cbn [length map combine fst] in *; try lia; [ reflexivity | ]. rewrite IH; [ reflexivity | lia ].
  - cbn [d_rows]. intros name row I. apply in_combine_r in I. apply in_map_iff in I. destruct I as [r [<- I]]. rewrite map_length. apply Nat.eqb_eq. exact (L2 r I).
  - cbn [d_rows]. revert L1. generalize (paid ++ ["All Channels"]). clear. induction rows as [|r rs IH]; intros ns L j name row J R; [ destruct j; discriminate | ].
    destruct ns as [|n ns]; [ destruct j; discriminate | ]. cbn [map combine]. destruct j as [|j]; cbn [nth_error] in J, R.
    + injection J as ->. injection R as ->. left. reflexivity.
    + right. eapply IH; [ cbn [length] in L; lia | exact J | exact R ].
Qed.

Lemma inc_lemma : forall s i c g, calendar_of New dated coords_of model_coords (i_new _ i) c ->
  from_inc New paid kpi_only revenue_type incremental_of s i c = Ok g ->
  inc_described New dated coords_of paid model_coords kpi_only revenue_type incremental_of s i g.
Proof using Calendars.
  intros s i c g K H. unfold from_inc in H.
  apply rbind_inv in H. destruct H as [d [A H]]. apply rbind_inv in H. destruct H as [second [A2 H]]. apply rbind_inv in H. destruct H as [is [I H]].
  assert (CC : calendar c).
  { destruct Calendars as [C1 C2]. unfold calendar_of in K. destruct (i_new New i) as [x|]; [ | subst c; exact C1 ].
    destruct (dated x); [ exact (C2 x c K) | subst c; exact C1 ]. }
  assert (E : exists x, enumerated c (s_start _ s) (s_end _ s) = Ok x).
  { unfold incremental_table, selected_flags in A. destruct (enumerated c (s_start New s) (s_end New s)); [ eexists; reflexivity | discriminate ]. }
  destruct E as [x X].
  assert (F : exists f, selected_flags c (s_start _ s) (s_end _ s) = Ok f). { unfold selected_flags. rewrite X. eexists; reflexivity. }
  destruct F as [f F].
  destruct (enumerated_inv _ _ _ _ CC X) as [_ [P [NE _]]].
  pose proof (intervals_lemma _ _ _ _ _ _ _ CC X I) as R.
  pose proof (inc_table_lemma _ _ _ _ _ _ _ X F A) as Ask.
  exists c, (listed (tc_dates c) x), f, is, d, second.
  split; [ exact K | ]. split; [ exact P | ]. split; [ exact NE | ]. split; [ exact (flags_lemma _ _ _ _ X _ F) | ]. split; [ exact R | ]. split; [ exact Ask | ].
  split.
  - unfold two_outcomes. destruct (negb revenue_type && negb kpi_only).
    + apply rbind_inv in A2. destruct A2 as [d2 [A2 E]]. injection E as <-. exists d2. split; [ reflexivity | exact (inc_table_lemma _ _ _ _ _ _ _ X F A2) ].
    + injection A2 as <-. reflexivity.
  - destruct Ask as [rows [_ [[_ [N _]] _]]]. apply mapR_ok in H. clear - H N. induction H as [|j a is g E H IH]; constructor; [ | exact IH ].
    eapply one_inv; [ exact E | apply sub_refl | exact Logic.I | apply sub_opt_refl | exact Logic.I | exact N | reflexivity | ]. intros y [].
Qed.

Local Notation execute := (execute New dated coords_of paid model_coords kpi_only revenue_type summary_metrics baseline_metrics curves_of incremental_of).
Local Notation described := (described New dated coords_of paid others model_coords kpi_only revenue_type summary_metrics baseline_metrics curves_of incremental_of).

Lemma valid_one : forall s : mspec New, validate_spec New dated s = Ok tt ->
  (exists m, s_media _ s = Some m /\ s_inc _ s = None) \/ (exists i, s_media _ s = None /\ s_inc _ s = Some i).
Proof using.
  intros s H. unfold validate_spec in H. apply rbind_inv in H. destruct H as [_ [_ H]].
  apply raise_inv in H. destruct H as [_ H]. apply raise_inv in H. destruct H as [_ H]. apply raise_inv in H. destruct H as [H1 H].
  apply raise_inv in H. destruct H as [H2 _].
  destruct (s_media New s) as [m|]; destruct (s_inc New s) as [i|]; try discriminate; [ left; exists m | right; exists i ]; split; reflexivity.
Qed.

Lemma execute_lemma : forall specs out, Forall (fun s => validate_spec New dated s = Ok tt) specs -> execute specs = Ok out ->
  exists groups, out = concat groups /\ Forall2 described specs groups.
Proof using Shape Distinct Calendars.
  intros specs out V H. unfold M_MarketingSpec.execute in H. apply rbind_inv in H. destruct H as [l [L H]]. injection H as <-.
  exists l. split; [ reflexivity | ]. apply mapR_ok in L.
  induction L as [|s g specs l E L IH]; constructor.
  - inversion V as [|? ? V1 V2]; subst. clear IH. unfold analyses_for in E.
    apply rbind_inv in E. destruct E as [c [C E]]. apply rbind_inv in E. destruct E as [a [A E]]. apply rbind_inv in E. destruct E as [b [B E]]. injection E as <-.
    assert (K : forall n, new_of New s = n -> calendar_of New dated coords_of model_coords n c).
    { intros n N. unfold coords_for in C. rewrite N in C. unfold calendar_of. destruct n as [x|]; [ | injection C as <-; reflexivity ].
      destruct (dated x); [ exact C | injection C as <-; reflexivity ]. }
    destruct (valid_one s V1) as [[m [M I]]|[i [M I]]].
    + left. exists m. split; [ exact M | ]. split; [ exact I | ]. rewrite M in A. rewrite I in B. injection B as <-. rewrite app_nil_r.
      apply (media_lemma s m c); [ apply K; unfold new_of; rewrite I, M; reflexivity | exact A ].
    + right. exists i. split; [ exact M | ]. split; [ exact I | ]. rewrite M in A. rewrite I in B. injection A as <-. cbn [app].
      apply (inc_lemma s i c); [ apply K; unfold new_of; rewrite I; reflexivity | exact B ].
  - apply IH. inversion V; assumption.
Qed.
End Run.
