(** Proofs for the marketing processor: what is accepted, and the planner's tables of what it answers. *)
From Coq Require Import ZArith QArith String List Bool Arith Sorted Lia.
From Verif Require Import M_Base M_Opt M_BudgetSpec S_BudgetSpec P_BudgetSpec M_MarketingSpec S_MarketingSpec P_MarketingSpec P_MarketingSpec2 P_MarketingSpec3.
Import ListNotations.
Local Open Scope string_scope.
Local Open Scope list_scope.

Lemma shown_complete : forall level revenue d second media dn sn others base curves i a,
  NoDup (media ++ others ++ ["baseline"]) ->
  analysis_shown level revenue d second media dn sn others (Some base) curves i a -> complete revenue a.
Proof.
  intros level revenue d second media dn sn others base curves i a N [_ [M [MM [ns [bs [E [NN [NS [p [-> B]]]]]]]]]].
  destruct B as [BN [c [pct [o [_ [_ [BO [BR _]]]]]]]].
  split; [ | split ].
  - unfold channel_lists. rewrite map_app, !map_map. cbn [fst].
    change (NoDup (map c_name (an_media a) ++ map n_name (an_non_media a))). rewrite M, E, map_app, NN. cbn [map]. rewrite BN. exact N.
  - intros n outs I. unfold channel_lists in I. apply in_app_or in I. destruct I as [I|I]; apply in_map_iff in I; destruct I as [m [Y I]]; injection Y as <- <-.
    + destruct (MM m I) as [[c1 [o1 [_ [S1 R]]]] _]. exists o1. split; [ | exact (proj1 S1) ].
      destruct second as [d2|]; [ destruct R as [c2 [o2 [_ [_ R]]]]; exists [o2]; exact R | exists []; exact R ].
    + rewrite E in I. apply in_app_or in I. destruct I as [I|[<-|[]]].
      * destruct (NS m I) as [t [_ [c1 [o1 [_ [S1 R]]]]]]. exists o1. split; [ | exact (proj1 S1) ].
        destruct sn as [d2|]; [ destruct R as [c2 [o2 [_ [_ R]]]]; exists [o2]; exact R | exists []; exact R ].
      * exists o. split; [ exists []; exact BO | exact BR ].
  - exists ns, p, o. split; [ exact E | ]. split; [ exact BN | exact BO ].
Qed.

Lemma reported_tags : forall c agg tag l is, l <> [] -> reported c agg tag l is -> is <> [] /\ forall i, In i is -> i_tag i = tag.
Proof.
  intros c [|] tag l is N R; unfold reported in R.
  - destruct R as [a [b [_ [_ ->]]]]. split; [ discriminate | ]. intros i [<-|[]]. reflexivity.
  - subst is. split; [ destruct l; [ contradiction | discriminate ] | ]. intros i I. apply in_map_iff in I. destruct I as [d [<- _]]. reflexivity.
Qed.
Lemma forall2_intervals : forall (P : interval -> analysis -> Prop) is g, (forall i a, P i a -> an_interval a = i) -> Forall2 P is g ->
  map an_interval g = is /\ forall a, In a g -> exists i, In i is /\ P i a.
Proof.
  intros P is g H F. induction F as [|i a is g E F [IH1 IH2]]; [ split; [ reflexivity | intros a [] ] | ].
  split; [ cbn [map]; rewrite (H i a E), IH1; reflexivity | ].
  intros x [<-|X]; [ exists i; split; [ left; reflexivity | exact E ] | ]. destruct (IH2 x X) as [j [J Q]]. exists j. split; [ right; exact J | exact Q ].
Qed.

Lemma shown_intervals : forall level revenue d second media dn sn others base curves is g,
  Forall2 (analysis_shown level revenue d second media dn sn others base curves) is g ->
  map an_interval g = is /\ forall a, In a g -> exists i, In i is /\ analysis_shown level revenue d second media dn sn others base curves i a.
Proof. intros. apply forall2_intervals; [ intros i a X; exact (proj1 X) | assumption ]. Qed.

Lemma forall2_left : forall (A B : Type) (P : A -> B -> Prop) l m x, Forall2 P l m -> In x l -> exists y, P x y.
Proof. intros A B P l m x H I. induction H as [|a b l m E H IH]; [ destruct I | ]. destruct I as [->|I]; [ exists b; exact E | exact (IH I) ]. Qed.

Section Tables.
Variable New : Type.
Variable dated : New -> bool.
Variable coords_of : New -> result coords.
Variables paid others : list string.
Variable model_coords : coords.
Variables kpi_only revenue_type : bool.
Variable summary_metrics : summary_request New -> result table.
Variable baseline_metrics : Q -> bool -> option (list Z) -> result table.
Variable curves_of : Q -> option (list Z) -> bool -> bool -> result (list (string * list (Q * Q))).
Variable incremental_of : option New -> option (list bool) -> option (list bool) -> bool -> bool -> bool -> Q -> result (list (list stat4)).
Local Notation described := (described New dated coords_of paid others model_coords kpi_only revenue_type summary_metrics baseline_metrics curves_of incremental_of).
Hypothesis Distinct : NoDup (paid ++ others ++ ["All Channels"; "baseline"]).

Lemma media_names_distinct : forall b : bool, NoDup ((if b then paid else paid ++ ["All Channels"]) ++ (if b then others ++ ["All Channels"] else []) ++ ["baseline"]).
Proof using Distinct.
  clear - Distinct. intros [|].
  - rewrite <- app_assoc. exact Distinct.
  - cbn [app]. rewrite <- app_assoc. cbn [app].
    assert (G : forall l, NoDup (l ++ others ++ ["All Channels"; "baseline"]) -> NoDup (l ++ ["All Channels"; "baseline"])).
    { intros l. induction l as [|x r IH]; intros N; cbn [app] in *.
      - clear - N. induction others as [|y s IH]; [ exact N | ]. apply IH. inversion N; assumption.
      - inversion N as [|? ? X Y]; subst. constructor; [ | exact (IH Y) ]. intros I. apply X. apply in_app_or in I. apply in_or_app. destruct I as [I|I]; [ left; exact I | right; apply in_or_app; right; exact I ]. }
    apply G. exact Distinct.
Qed.

Lemma described_tags : forall s g, described s g -> g <> [] /\ forall a, In a g -> i_tag (an_interval a) = s_tag _ s.
Proof using.
  intros s g [[m [_ [_ H]]]|[i [_ [_ H]]]].
  - destruct H as [c [l [times [is [d [dn [second [sn [base [curves [_ [_ [N [_ [R [_ [_ [_ [_ F]]]]]]]]]]]]]]]]]]].
    destruct (reported_tags _ _ _ _ _ N R) as [NE T]. destruct (shown_intervals _ _ _ _ _ _ _ _ _ _ _ _ F) as [E G].
    split; [ intros ->; apply NE; rewrite <- E; reflexivity | ]. intros a I. apply T. rewrite <- E. apply in_map. exact I.
  - destruct H as [c [l [fl [is [d [second [_ [_ [N [_ [R [_ [_ F]]]]]]]]]]]]].
    destruct (reported_tags _ _ _ _ _ N R) as [NE T]. destruct (shown_intervals _ _ _ _ _ _ _ _ _ _ _ _ F) as [E G].
    split; [ intros ->; apply NE; rewrite <- E; reflexivity | ]. intros a I. apply T. rewrite <- E. apply in_map. exact I.
Qed.

Lemma media_complete : forall s g a, s_inc _ s = None -> described s g -> In a g -> complete (negb kpi_only) a.
Proof using Distinct.
  intros s g a N [[m [_ [_ H]]]|[i [_ [E _]]]] I; [ | congruence ].
  destruct H as [c [l [times [is [d [dn [second [sn [base [curves [_ [_ [_ [_ [_ [_ [_ [_ [_ F]]]]]]]]]]]]]]]]]]].
  destruct (shown_intervals _ _ _ _ _ _ _ _ _ _ _ _ F) as [_ G].
  destruct (G a I) as [i [_ A]]. eapply shown_complete; [ | exact A ]. apply (media_names_distinct (m_non_paid New m)).
Qed.
Lemma inc_no_baseline : forall s i g a, s_inc _ s = Some i -> described s g -> In a g -> an_non_media a = [].
Proof using.
  intros s i g a N [[m [_ [E _]]]|[j [_ [_ H]]]] I; [ congruence | ].
  destruct H as [c [l [fl [is [d [second [_ [_ [_ [_ [_ [_ [_ F]]]]]]]]]]]]].
  destruct (shown_intervals _ _ _ _ _ _ _ _ _ _ _ _ F) as [_ G].
  destruct (G a I) as [k [_ [_ [_ [_ [ns [bs [E [NN [_ ->]]]]]]]]]]. destruct ns; [ exact E | discriminate ].
Qed.

Lemma groups_in : forall (specs : list (mspec New)) groups a, Forall2 described specs groups -> In a (concat groups) ->
  exists s g, In s specs /\ described s g /\ In a g.
Proof using.
  intros specs groups a F I. induction F as [|s g specs groups D F IH]; [ destruct I | ]. cbn [concat] in I. apply in_app_or in I. destruct I as [I|I].
  - exists s, g. split; [ left; reflexivity | split; [ exact D | exact I ] ].
  - destruct (IH I) as [s' [g' [S [D' I']]]]. exists s', g'. split; [ right; exact S | split; [ exact D' | exact I' ] ].
Qed.
Lemma groups_of : forall (specs : list (mspec New)) groups s, Forall2 described specs groups -> In s specs ->
  exists g, described s g /\ forall a, In a g -> In a (concat groups).
Proof using.
  intros specs groups s F I. induction F as [|s' g specs groups D F IH]; [ destruct I | ]. cbn [concat]. destruct I as [->|I].
  - exists g. split; [ exact D | ]. intros a A. apply in_or_app. left. exact A.
  - destruct (IH I) as [g' [D' G]]. exists g'. split; [ exact D' | ]. intros a A. apply in_or_app. right. exact (G a A).
Qed.
Lemma tags_lemma : forall (specs : list (mspec New)) groups tag, Forall2 described specs groups ->
  (In tag (map (fun a => i_tag (an_interval a)) (concat groups)) <-> exists s, In s specs /\ s_tag _ s = tag).
Proof using.
  intros specs groups tag F. split.
  - intros I. apply in_map_iff in I. destruct I as [a [T I]]. destruct (groups_in _ _ _ F I) as [s [g [S [D A]]]].
    exists s. split; [ exact S | ]. rewrite <- T. symmetry. exact (proj2 (described_tags s g D) a A).
  - intros [s [S T]]. destruct (groups_of _ _ _ F S) as [g [D G]]. destruct (described_tags s g D) as [N TT].
    destruct g as [|a r]; [ contradiction | ]. apply in_map_iff. exists a. split; [ rewrite (TT a (or_introl eq_refl)); exact T | apply G; left; reflexivity ].
Qed.

Lemma planner_lemma : forall specs groups, Forall2 described specs groups -> Forall (fun s => s_inc _ s = None) specs ->
  (exists s, In s specs /\ s_tag _ s = "ALL") ->
  (exists bs, media_outcome (concat groups) = Ok (concat bs) /\ Forall2 outcome_block (concat groups) bs) /\
  (exists bs, media_roi (concat groups) = Ok (concat bs) /\ Forall2 (roi_block (negb kpi_only)) (concat groups) bs) /\
  ((forall a shares, In a (concat groups) -> outcome_shares a shares -> real (an_media a) = [] \/ ~ (qsum_list shares == 0)%Q) ->
   exists bs, media_spend (concat groups) = Ok (concat bs) /\ Forall2 (spend_block (negb kpi_only)) (concat groups) bs).
Proof using Distinct.
  intros specs groups F M T. apply (tags_lemma specs groups "ALL" F) in T.
  assert (C : forall a, In a (concat groups) -> complete (negb kpi_only) a).
  { intros a I. destruct (groups_in _ _ _ F I) as [s [g [S [D A]]]]. rewrite Forall_forall in M. exact (media_complete s g a (M s S) D A). }
  assert (R : is_revenue_kpi (concat groups) = Ok (negb kpi_only)) by (apply revenue_lemma; [ apply Forall_forall; exact C | exact T ]).
  split; [ | split ].
  - unfold media_outcome. rewrite R. apply concat_blocks. intros a I. apply outcome_block_lemma. exact (C a I).
  - unfold media_roi. rewrite R. apply concat_blocks. intros a I. apply roi_block_lemma. exact (C a I).
  - intros Z. unfold media_spend. rewrite R. apply concat_blocks. intros a I. apply spend_block_lemma; [ exact (C a I) | ]. intros shares. exact (Z a shares I).
Qed.

Lemma untagged_planner : forall specs groups, Forall2 described specs groups -> specs <> [] -> (forall s, In s specs -> s_tag _ s <> "ALL") ->
  media_outcome (concat groups) = Err KeyError.
Proof using.
  intros specs groups F N T.
  assert (U : is_revenue_kpi (concat groups) = Err KeyError).
  { apply untagged_lemma. intros I. apply (tags_lemma specs groups "ALL" F) in I. destruct I as [s [S E]]. exact (T s S E). }
  unfold media_outcome. rewrite U. destruct F as [|s g specs groups D F]; [ contradiction | ].
  destruct (described_tags s g D) as [NE _]. destruct g as [|a r]; [ contradiction | ]. reflexivity.
Qed.
Lemma inc_planner : forall specs groups s i, Forall2 described specs groups -> In s specs -> s_inc _ s = Some i -> forall rows, media_outcome (concat groups) <> Ok rows.
Proof using.
  intros specs groups s i F S I rows H. destruct (groups_of _ _ _ F S) as [g [D G]]. destruct (described_tags s g D) as [N _].
  destruct g as [|a r]; [ contradiction | ]. pose proof (inc_no_baseline s i _ a I D (or_introl eq_refl)) as E.
  specialize (G a (or_introl eq_refl)). unfold media_outcome in H. apply rbind_inv in H. destruct H as [bs [H _]]. apply mapR_ok in H.
  destruct (forall2_left _ _ _ _ _ _ H G) as [y X].
  unfold outcome_rows in X. apply rbind_inv in X. destruct X as [rv [_ X]]. unfold baseline_analysis in X. rewrite E in X. discriminate.
Qed.
End Tables.

(** *** Acceptance *)
Section Accepts.
Variable kpi_only : bool.
Lemma channel_total : forall level name t d second times names, shape times names d -> In name names -> (forall ts, times = Some ts -> In t ts) ->
  match second with Some d2 => shape times names d2 | None => True end -> exists r, channel_outcomes kpi_only level name t d second = Ok r.
Proof.
  intros level name t d second times names S I T S2. unfold channel_outcomes.
  destruct (sel_total d d names times name t S (proj1 S) I T) as [c ->]. cbn [rbind].
  destruct second as [d2|]; cbn [rbind]; [ | eexists; reflexivity ].
  destruct (sel_total d2 d names times name t S2 (proj1 S) I T) as [c2 ->]. cbn [rbind]. eexists; reflexivity.
Qed.
Lemma one_total : forall level d non second sn base curves i times media others,
  shape times media d -> (forall ts, times = Some ts -> In (i_start i) ts) ->
  match second with Some d2 => shape times media d2 | None => True end ->
  match non with Some dn => shape times others dn | None => True end ->
  match sn with Some dn => shape times others dn | None => True end ->
  (forall x, In x others -> ~ In x media) ->
  match base with Some b => shape times ["baseline"] b /\ (forall name row c, In (name, row) (d_rows b) -> In c row -> ce_pct c <> None) | None => True end ->
  exists a, one_analysis kpi_only level d non second sn base curves i = Ok a.
Proof.
  intros level d non second sn base curves i times media others S T S2 SN SN2 Disj B. unfold one_analysis. cbv zeta.
  assert (ND : names_of d = media) by exact (proj1 (proj2 S)).
  assert (NO : forall x, In x (match non with Some dn => names_of dn | None => [] end) -> In x others).
  { intros x X. destruct non as [dn|]; [ | destruct X ]. unfold names_of in X. rewrite (proj1 (proj2 SN)) in X. exact X. }
  rewrite ND. rewrite (filter_none _ (fun x => mem x media)); [ | intros x X; apply not_mem; apply Disj; apply NO; exact X ]. rewrite app_nil_r.
  assert (E1 : exists ms, mapR (media_pb_of kpi_only level (i_start i) d second curves) media = Ok ms).
  { apply mapR_total; try exact true. intros x X. unfold media_pb_of. destruct (channel_total level x (i_start i) d second times media S X T S2) as [r ->]. cbn [rbind]. eexists; reflexivity. }
  destruct E1 as [ms ->]. cbn [rbind].
  assert (E2 : exists ns, match non with
         | Some dn => mapR (non_pb_of kpi_only level (i_start i) dn sn) (filter (fun x => negb (mem x media)) (match non with Some dn => names_of dn | None => [] end))
         | None => Ok [] end = Ok ns).
  { destruct non as [dn|]; [ | eexists; reflexivity ]. apply mapR_total; try exact true. intros x X. apply filter_In in X. destruct X as [X _].
    unfold non_pb_of. destruct (channel_total level x (i_start i) dn sn times others SN (NO x X) T SN2) as [r ->]. cbn [rbind]. eexists; reflexivity. }
  destruct E2 as [ns ->]. cbn [rbind].
  destruct base as [b|]; cbn [rbind]; [ | eexists; reflexivity ]. destruct B as [B P]. unfold baseline_pb.
  destruct (sel_total b b ["baseline"] times "baseline" (i_start i) B (proj1 B) (or_introl eq_refl) T) as [c C]. rewrite C. cbn [rbind].
  apply sel_cell in C. destruct C as [row [I R]]. assert (J : In c row).
  { destruct (d_times b); [ destruct R as [k [_ R]]; exact (nth_error_In _ _ R) | subst row; left; reflexivity ]. }
  specialize (P _ _ _ I J). destruct (ce_pct c); [ | contradiction ]. cbn [rbind]. eexists; reflexivity.
Qed.
Lemma drop_shape : forall ns times names d d', shape times names d -> drop_channels ns d = Ok d' -> shape times (filter (fun x => negb (mem x ns)) names) d'.
Proof.
  intros ns times names d d' [T [N R]] D. destruct (drop_inv _ _ _ D) as [T' [_ [N' I]]]. split; [ rewrite T'; exact T | ]. split.
  - change (names_of d' = filter (fun x => negb (mem x ns)) names). rewrite N'. unfold names_of. rewrite N. reflexivity.
  - intros name row H. exact (R name row (I _ H)).
Qed.
End Accepts.

Section Accepted.
Variable New : Type.
Variable dated : New -> bool.
Variable coords_of : New -> result coords.
Variables paid others : list string.
Variable model_coords : coords.
Variables kpi_only revenue_type : bool.
Variable summary_metrics : summary_request New -> result table.
Variable baseline_metrics : Q -> bool -> option (list Z) -> result table.
Variable curves_of : Q -> option (list Z) -> bool -> bool -> result (list (string * list (Q * Q))).
Variable incremental_of : option New -> option (list bool) -> option (list bool) -> bool -> bool -> bool -> Q -> result (list (list stat4)).
Variable days_of : New -> list Z.
Hypothesis Shape : summary_shape New paid others (tc_dates model_coords) days_of summary_metrics.
Hypothesis BShape : baseline_shape New (tc_dates model_coords) days_of baseline_metrics.
Hypothesis Distinct : NoDup (paid ++ others ++ ["All Channels"]).
Hypothesis Calendars : calendar model_coords /\ forall n c, coords_of n = Ok c -> calendar c.
Hypothesis Days : forall n c, calendar_of New dated coords_of model_coords (Some n) c -> days_of n = tc_dates c.
Hypothesis A1 : summary_answers New summary_metrics.
Hypothesis A2 : baseline_answers (tc_dates model_coords) baseline_metrics.
Hypothesis A3 : curves_answer curves_of.
Hypothesis A4 : incremental_answers New paid (tc_dates model_coords) days_of incremental_of.

Lemma all_days_of : forall n c, calendar_of New dated coords_of model_coords n c -> all_days New (tc_dates model_coords) days_of n = tc_dates c.
Proof using Days. clear - Days. intros [n|] c K; cbn [all_days]; [ exact (Days n c K) | cbn [calendar_of] in K; subst c; reflexivity ]. Qed.

Lemma tables_ok : forall m times level kpi, exists d dn, media_tables New summary_metrics m times level kpi = Ok (d, dn) /\
  let T := times_of New (tc_dates model_coords) days_of (m_aggregate _ m) times (m_new _ m) in
  shape T (if m_non_paid _ m then paid else paid ++ ["All Channels"]) d /\
  match dn with Some x => shape T (if m_non_paid _ m then others ++ ["All Channels"] else []) x | None => True end.
Proof using Shape Distinct A1.
  intros m times level kpi.
  assert (E : exists d dn, media_tables New summary_metrics m times level kpi = Ok (d, dn)).
  { unfold media_tables. cbv zeta. match goal with |- context [summary_metrics ?q] => destruct (A1 q) as [d D] end. rewrite D. cbn [rbind].
    destruct (m_non_paid New m); [ | do 2 eexists; reflexivity ].
    pose proof (Shape _ _ D) as [_ [N _]]. cbn [r_non_paid] in N.
    destruct (drop_ok ["All Channels"] d) as [d' D']. { intros x [<-|[]]. unfold names_of. rewrite N. apply in_or_app. right. left. reflexivity. }
    rewrite D'. cbn [rbind].
    match goal with |- context [summary_metrics ?q] => destruct (A1 q) as [t T] end. rewrite T. cbn [rbind].
    pose proof (Shape _ _ T) as [_ [N2 _]]. cbn [r_non_paid] in N2.
    destruct (drop_ok (names_of d') t) as [t' T'].
    { intros x X. destruct (drop_inv _ _ _ D') as [_ [_ [ND _]]]. rewrite ND in X. apply filter_In in X. destruct X as [X _]. unfold names_of in X. rewrite N in X.
      unfold names_of. rewrite N2. apply in_app_or in X. apply in_or_app. destruct X as [X|X]; [ left; apply in_or_app; left; exact X | right; exact X ]. }
    rewrite T'. cbn [rbind]. do 2 eexists; reflexivity. }
  destruct E as [d [dn E]]. exists d, dn. split; [ exact E | ]. cbv zeta.
  destruct (tables_inv New paid others summary_metrics (tc_dates model_coords) days_of Shape Distinct _ _ _ _ _ _ E) as [_ [_ [_ [_ [_ [N1 N2]]]]]].
  unfold media_tables in E. cbv zeta in E. apply rbind_inv in E. destruct E as [D [B E]]. pose proof (Shape _ _ B) as SD. cbn [r_non_paid r_aggregate r_times r_new] in SD.
  destruct (m_non_paid New m).
  - apply rbind_inv in E. destruct E as [d' [R E]]. apply rbind_inv in E. destruct E as [T [C E]]. apply rbind_inv in E. destruct E as [t' [R2 E]]. injection E as <- <-.
    pose proof (Shape _ _ C) as ST. cbn [r_non_paid r_aggregate r_times r_new] in ST.
    destruct (drop_shape _ _ _ _ _ SD R) as [X1 [X2 X3]]. destruct (drop_shape _ _ _ _ _ ST R2) as [Y1 [Y2 Y3]].
    split; [ split; [ exact X1 | split; [ exact N1 | exact X3 ] ] | split; [ exact Y1 | split; [ exact N2 | exact Y3 ] ] ].
  - injection E as <- <-. split; [ exact SD | exact Logic.I ].
Qed.

Lemma media_ok : forall s m, calendar_of New dated coords_of model_coords (m_new _ m) model_coords -> on_calendar model_coords (s_start _ s) (s_end _ s) ->
  exists g, from_media New kpi_only revenue_type summary_metrics baseline_metrics curves_of s m model_coords = Ok g.
Proof using Shape BShape Distinct Calendars Days A1 A2 A3.
  intros s m K O. unfold from_media. destruct (enumerated_ok _ _ _ O) as [times T]. rewrite T. cbn [rbind].
  destruct (enumerated_inv _ _ _ _ (proj1 Calendars) T) as [_ [P [NE SE]]].
  destruct (tables_ok m times (s_level _ s) kpi_only) as [d [dn [E [S1 S2]]]]. rewrite E. cbn [rbind fst snd].
  assert (G : exists second sn, (if negb revenue_type && negb kpi_only then rbind (media_tables New summary_metrics m times (s_level _ s) true) (fun ds2 => Ok (Some (fst ds2), snd ds2)) else Ok (None, None)) = Ok (second, sn) /\
    match second with Some x => shape (times_of New (tc_dates model_coords) days_of (m_aggregate _ m) times (m_new _ m)) (if m_non_paid _ m then paid else paid ++ ["All Channels"]) x | None => True end /\
    match sn with Some x => shape (times_of New (tc_dates model_coords) days_of (m_aggregate _ m) times (m_new _ m)) (if m_non_paid _ m then others ++ ["All Channels"] else []) x | None => True end).
  { destruct (negb revenue_type && negb kpi_only); [ | exists None, None; repeat split ].
    destruct (tables_ok m times (s_level _ s) true) as [d2 [dn2 [E2 [U1 U2]]]]. rewrite E2. cbn [rbind fst snd]. exists (Some d2), dn2. split; [ reflexivity | split; [ exact U1 | exact U2 ] ]. }
  destruct G as [second [sn [EG [U1 U2]]]]. rewrite EG. cbn [rbind fst snd].
  destruct (A2 (s_level _ s) (m_aggregate _ m) times) as [b B].
  { intros ts ->. cbn [listed] in P. intros z Z. apply (proj2 P) in Z. exact (proj1 Z). }
  rewrite B. cbn [rbind]. destruct (BShape _ _ _ _ B) as [SB [PB _]].
  assert (C : exists cv, (if m_aggregate _ m then rbind (curves_of (s_level _ s) times kpi_only (s_curve_reach _ s)) (fun x => Ok (Some x)) else Ok None) = Ok cv).
  { destruct (m_aggregate New m); [ | eexists; reflexivity ]. destruct (A3 (s_level New s) times kpi_only (s_curve_reach New s)) as [cs ->]. eexists; reflexivity. }
  destruct C as [cv ->]. cbn [rbind].
  destruct (intervals_ok _ (m_aggregate _ m) _ _ (s_tag _ s) _ (proj1 Calendars) T) as [is I]. rewrite I. cbn [rbind].
  pose proof (intervals_lemma _ _ _ _ _ _ _ (proj1 Calendars) T I) as R.
  apply mapR_total; try exact true. intros i J.
  assert (TT : times_of New (tc_dates model_coords) days_of (m_aggregate _ m) times None = times_of New (tc_dates model_coords) days_of (m_aggregate _ m) times (m_new _ m)).
  { unfold times_of. rewrite (all_days_of _ _ K). reflexivity. }
  eapply one_total with (times := times_of New (tc_dates model_coords) days_of (m_aggregate _ m) times (m_new _ m)).
  - exact S1.
  - intros ts X. unfold times_of in X. destruct (m_aggregate New m); [ discriminate | ]. injection X as <-.
    rewrite (all_days_of _ _ K). exact (interval_starts _ _ _ _ _ _ R J).
  - exact U1.
  - exact S2.
  - exact U2.
  - intros x X. destruct (m_non_paid New m); [ exact (others_new paid others Distinct x X) | destruct X ].
  - split; [ rewrite <- TT; exact SB | exact PB ].
Qed.

Lemma count_listed : forall c s e x, calendar c -> enumerated c s e = Ok (Some x) -> length (filter (fun b => b) (map (fun t => day_in t x) (tc_dates c))) = length x.
Proof using.
  intros c s e x K X. destruct (enumerated_inv _ _ _ _ K X) as [_ [[S P] _]]. cbn [listed] in *. destruct K as [_ [S0 _]].
  assert (ND : forall l, StronglySorted Z.lt l -> NoDup l).
  { clear. intros l H. induction H as [|a l H IH F]; constructor; [ | exact IH ]. intros I. rewrite Forall_forall in F. specialize (F a I). lia. }
  assert (L : length (filter (fun b => b) (map (fun t => day_in t x) (tc_dates c))) = length (filter (fun t => day_in t x) (tc_dates c))).
  { clear. induction (tc_dates c) as [|t r IH]; cbn [map filter]; [ reflexivity | ]. destruct (day_in t x); cbn [length]; rewrite IH; reflexivity. }
  rewrite L. apply Nat.le_antisymm.
  - apply NoDup_incl_length; [ apply ND; apply sorted_filter; exact S0 | ]. intros z Z. apply filter_In in Z. apply day_in_spec. exact (proj2 Z).
  - apply NoDup_incl_length; [ apply ND; exact S | ]. intros z Z. apply filter_In. split; [ apply P in Z; exact (proj1 Z) | apply day_in_spec; exact Z ].
Qed.

Lemma inc_table_ok : forall s i c kpi x, calendar c -> calendar_of New dated coords_of model_coords (i_new _ i) c -> enumerated c (s_start _ s) (s_end _ s) = Ok x ->
  exists d, incremental_table New paid incremental_of i s c kpi = Ok d.
Proof using Days A4.
  intros s i c kpi x C K X. unfold incremental_table, selected_flags. rewrite X. cbn [rbind].
  destruct (A4 (i_new _ i) (i_media_times _ i) (option_map (fun l => map (fun t => day_in t l) (tc_dates c)) x) (i_aggregate _ i) kpi (s_level _ s)) as [rows [R [L W]]].
  rewrite R. cbn [rbind]. cbv zeta.
  destruct (i_aggregate New i); cbn [rbind].
  - replace (Nat.eqb (length rows) (length (paid ++ ["All Channels"]))) with true; [ | symmetry; apply Nat.eqb_eq; rewrite app_length; cbn [length]; lia ].
    replace (forallb (fun r => Nat.eqb (length r) 1) rows) with true; [ cbn [andb negb raise_if]; eexists; reflexivity | ].
    symmetry. apply forallb_forall. intros r I. apply Nat.eqb_eq. exact (W r I).
  - fold (listed (tc_dates c) x).
    replace (Nat.eqb (length rows) (length (paid ++ ["All Channels"]))) with true; [ | symmetry; apply Nat.eqb_eq; rewrite app_length; cbn [length]; lia ].
    replace (forallb (fun r => Nat.eqb (length r) (length (listed (tc_dates c) x))) rows) with true; [ cbn [andb negb raise_if]; eexists; reflexivity | ].
    symmetry. apply forallb_forall. intros r I. apply Nat.eqb_eq. rewrite (W r I). destruct x as [l|]; cbn [option_map listed].
    + exact (count_listed _ _ _ _ C X).
    + rewrite (all_days_of _ _ K). reflexivity.
Qed.

Lemma inc_ok : forall s i c, calendar c -> calendar_of New dated coords_of model_coords (i_new _ i) c -> on_calendar c (s_start _ s) (s_end _ s) ->
  exists g, from_inc New paid kpi_only revenue_type incremental_of s i c = Ok g.
Proof using Days A4 Calendars.
  intros s i c C K O. destruct (enumerated_ok _ _ _ O) as [x X]. unfold from_inc.
  destruct (inc_table_ok s i c kpi_only x C K X) as [d D]. rewrite D. cbn [rbind].
  assert (F : exists f, selected_flags c (s_start _ s) (s_end _ s) = Ok f). { unfold selected_flags. rewrite X. eexists; reflexivity. }
  destruct F as [f F]. destruct (inc_table_lemma New paid incremental_of _ _ _ _ _ _ _ X F D) as [rows [_ [SD _]]].
  assert (G : exists second, (if negb revenue_type && negb kpi_only then rbind (incremental_table New paid incremental_of i s c true) (fun x => Ok (Some x)) else Ok None) = Ok second /\
    match second with Some y => shape (if i_aggregate _ i then None else Some (listed (tc_dates c) x)) (paid ++ ["All Channels"]) y | None => True end).
  { destruct (negb revenue_type && negb kpi_only); [ | exists None; split; [ reflexivity | exact Logic.I ] ].
    destruct (inc_table_ok s i c true x C K X) as [d2 D2]. rewrite D2. cbn [rbind]. exists (Some d2). split; [ reflexivity | ].
    destruct (inc_table_lemma New paid incremental_of _ _ _ _ _ _ _ X F D2) as [rows2 [_ [SD2 _]]]. exact SD2. }
  destruct G as [second [EG U]]. rewrite EG. cbn [rbind].
  destruct (intervals_ok _ (i_aggregate _ i) _ _ (s_tag _ s) _ C X) as [is I]. rewrite I. cbn [rbind].
  pose proof (intervals_lemma _ _ _ _ _ _ _ C X I) as R.
  apply mapR_total; try exact true. intros j J.
  eapply one_total with (times := if i_aggregate _ i then None else Some (listed (tc_dates c) x)) (others := []).
  - exact SD.
  - intros ts T. destruct (i_aggregate New i); [ discriminate | ]. injection T as <-. exact (interval_starts _ _ _ _ _ _ R J).
  - exact U.
  - exact Logic.I.
  - exact Logic.I.
  - intros y [].
  - exact Logic.I.
Qed.

Lemma accepted_lemma : forall specs,
  Forall (fun s => validate_spec New dated s = Ok tt /\
    exists c, calendar_of New dated coords_of model_coords (new_of _ s) c /\ on_calendar c (s_start _ s) (s_end _ s) /\ (s_media _ s <> None -> c = model_coords)) specs ->
  exists out, execute New dated coords_of paid model_coords kpi_only revenue_type summary_metrics baseline_metrics curves_of incremental_of specs = Ok out.
Proof using Shape BShape Distinct Calendars Days A1 A2 A3 A4.
  intros specs F. unfold execute.
  assert (E : exists l, mapR (analyses_for New dated coords_of paid model_coords kpi_only revenue_type summary_metrics baseline_metrics curves_of incremental_of) specs = Ok l).
  { apply mapR_total; try exact true. intros s I. rewrite Forall_forall in F. destruct (F s I) as [V [c [K [O MC]]]]. unfold analyses_for.
    assert (CF : coords_for New dated coords_of model_coords s = Ok c).
    { unfold coords_for. unfold calendar_of in K. destruct (new_of New s) as [x|]; [ | subst c; reflexivity ]. destruct (dated x); [ exact K | subst c; reflexivity ]. }
    rewrite CF. cbn [rbind].
    assert (CC : calendar c).
    { destruct Calendars as [C1 C2]. unfold calendar_of in K. destruct (new_of New s) as [x|]; [ | subst c; exact C1 ]. destruct (dated x); [ exact (C2 x c K) | subst c; exact C1 ]. }
    destruct (valid_one New dated s V) as [[m [M N]]|[i [M N]]]; unfold new_of in K; rewrite N in K; rewrite M, N in *.
    - assert (c = model_coords) by (apply MC; discriminate). subst c.
      destruct (media_ok s m K O) as [g ->]. cbn [rbind]. eexists; reflexivity.
    - cbn [rbind]. destruct (inc_ok s i c CC K O) as [g ->]. cbn [rbind]. eexists; reflexivity. }
  destruct E as [l ->]. cbn [rbind]. eexists; reflexivity.
Qed.

Lemma off_calendar_lemma : forall specs s c, In s specs -> coords_for New dated coords_of model_coords s = Ok c -> calendar c -> ~ on_calendar c (s_start _ s) (s_end _ s) ->
  s_media _ s <> None \/ s_inc _ s <> None ->
  forall out, execute New dated coords_of paid model_coords kpi_only revenue_type summary_metrics baseline_metrics curves_of incremental_of specs <> Ok out.
Proof using.
  intros specs s c I CF CC O M out H. unfold execute in H. apply rbind_inv in H. destruct H as [l [H _]]. apply mapR_ok in H.
  induction H as [|x y specs l X H IH]; [ destruct I | ]. destruct I as [->|I]; [ | exact (IH I) ].
  unfold analyses_for in X. rewrite CF in X. cbn [rbind] in X.
  assert (E : forall v, enumerated c (s_start New s) (s_end New s) <> Ok v). { intros v V. apply O. exact (proj1 (enumerated_inv _ _ _ _ CC V)). }
  apply rbind_inv in X. destruct X as [a [A X]]. apply rbind_inv in X. destruct X as [b [B _]].
  destruct (s_media New s) as [m|].
  - unfold from_media in A. apply rbind_inv in A. destruct A as [v [V _]]. exact (E v V).
  - destruct (s_inc New s) as [i|]; [ | destruct M as [M|M]; apply M; reflexivity ].
    unfold from_inc in B. apply rbind_inv in B. destruct B as [v [V _]]. unfold incremental_table, selected_flags in V.
    destruct (enumerated c (s_start New s) (s_end New s)) as [w|]; [ exact (E w eq_refl) | discriminate ].
Qed.
End Accepted.
