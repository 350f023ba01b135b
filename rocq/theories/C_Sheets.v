(** C107: the upload of the scenario planner's tables, and the URL of the report on them. *)
From Coq Require Import ZArith NArith QArith String Ascii Lia List Bool Arith.
From Verif Require Import M_Base M_Format M_Sheets S_Sheets P_Sheets.
Import ListNotations.
Local Open Scope string_scope.
Local Open Scope nat_scope.
Local Open Scope list_scope.

(** The spreadsheet has exactly the tables, in order, each under its name and with its columns and rows, the numbers
    that are infinite or missing left blank; the ids returned are those of the tabs. *)
Theorem C107_upload : forall default_title new_id url id data,
  (forall st, ~ In (new_id st) (map sh_id st)) -> NoDup (map fst data) -> data <> [] -> ~ In default_title (map fst data) ->
  exists st sp, upload default_title new_id url id data = (st, Ok sp) /\ s_url sp = url /\ s_id sp = id /\
    map sh_title st = map fst data /\ NoDup (map sh_id st) /\ s_tabs sp = map (fun s => (sh_title s, sh_id s)) st /\
    Forall2 (fun d s => holds_table s (snd d)) data st.
Proof. exact upload_lemma. Qed.
Print Assumptions C107_upload.

(** Not for every set of tables: without tables, or with one of the name of the tab a new spreadsheet has, the upload
    fails, and leaves an empty spreadsheet behind. *)
Theorem C107_leftover_refuted : forall default_title new_id url id data,
  (forall st, ~ In (new_id st) (map sh_id st)) -> (data = [] \/ In default_title (map fst data)) ->
  upload default_title new_id url id data = ([mkSheet 0 default_title []], Err RuntimeError).
Proof. exact upload_refused. Qed.
Print Assumptions C107_leftover_refuted.

(** Any string put into a URL is read back as it was, and has none of the characters that divide a URL. *)
Theorem C107_quote : forall s, decode (quote_plus s) = s /\
  forall c, In c ["&"; "="; "#"; "?"]%char -> cut c (quote_plus s) = (quote_plus s, None).
Proof.
  intros s. split; [apply decode_quote|]. intros c I. apply cut_none. apply quoted_free; [exact I|apply quote_quoted].
Qed.
Print Assumptions C107_quote.

Definition source_params (sp : spreadsheet) (key tab : string) : list (string * string) :=
  match tab_id (s_tabs sp) tab with Some i => [(key, digits i)] | None => [] end.
Definition raw (sp : spreadsheet) : list (string * string) :=
  [("c.reportId", "fbd3aeff-fc00-45fd-83f7-1ec5f21c9f56"); ("r.measurementId", "G-R6C81BNHJ4")] ++
  (if has_tab (s_tabs sp) "budget_opt_specs"
   then [("ds.dscc.connector", "community");
         ("ds.dscc.connectorId", "AKfycbx-HSSApXV7VTvYCgzvifyQ-bRlB3Oo_uAAvRKBkwUG1nOVIO_dTlpTmVASYM7oeN0D");
         ("ds.dscc.spreadsheetUrl", quote_plus (s_url sp))] else []) ++
  [("ds.*.refreshFields", "false"); ("ds.*.keepDatasourceName", "true"); ("ds.*.connector", "googleSheets");
   ("ds.*.spreadsheetId", s_id sp)] ++
  source_params sp "ds.ds_model_fit.worksheetId" "ModelFit" ++ source_params sp "ds.ds_model_diag.worksheetId" "ModelDiagnostics" ++
  source_params sp "ds.ds_outcome.worksheetId" "MediaOutcome" ++ source_params sp "ds.ds_spend.worksheetId" "MediaSpend" ++
  source_params sp "ds.ds_roi.worksheetId" "MediaROI".
Lemma worksheet_param : forall sp tab source,
  fst (worksheet sp tab source) = map param (source_params sp ("ds." ++ source ++ ".worksheetId")%string tab).
Proof.
  intros sp tab source. unfold worksheet, source_params. destruct (tab_id (s_tabs sp) tab) as [i|]; [|reflexivity]. cbn [fst map]. f_equal. unfold param. cbn [fst snd].
  assert (A : forall a b c, ((a ++ b) ++ c)%string = (a ++ (b ++ c))%string) by (induction a as [|x a IH]; intros; [reflexivity|cbn [append]; now rewrite IH]).
  rewrite !A. reflexivity.
Qed.
Lemma url_raw : forall sp, fst (create_report_url sp)
  = ("https://lookerstudio.google.com/reporting/create" ++ String "?" (String.concat "&" (map param (raw sp))))%string.
Proof.
  intros sp. unfold create_report_url. cbv zeta. cbn [fst]. rewrite !worksheet_param. unfold raw. rewrite !map_app.
  unfold OPTIMIZATION_SPECS. destruct (has_tab (s_tabs sp) "budget_opt_specs"); reflexivity.
Qed.
Lemma source_read : forall sp key tab, all_chars plain key = true ->
  map (fun p => (decode (fst p), decode (snd p))) (source_params sp key tab) = source_params sp key tab.
Proof.
  intros sp key tab K. unfold source_params. destruct (tab_id (s_tabs sp) tab) as [i|]; [|reflexivity]. cbn [map fst snd].
  rewrite (decode_plain key K), (decode_plain _ (digits_plain i)). reflexivity.
Qed.
Lemma source_quoted : forall sp key tab, all_chars quoted key = true ->
  Forall (fun p => all_chars quoted (fst p) = true /\ all_chars quoted (snd p) = true) (source_params sp key tab).
Proof.
  intros sp key tab K. unfold source_params. destruct (tab_id (s_tabs sp) tab) as [i|]; [|constructor]. constructor; [|constructor]. cbn [fst snd].
  split; [exact K|]. exact (all_impl _ _ _ plain_quoted (digits_plain i)).
Qed.
Definition read_raw (sp : spreadsheet) : list (string * string) :=
  [("c.reportId", "fbd3aeff-fc00-45fd-83f7-1ec5f21c9f56"); ("r.measurementId", "G-R6C81BNHJ4")] ++
  (if has_tab (s_tabs sp) "budget_opt_specs"
   then [("ds.dscc.connector", "community");
         ("ds.dscc.connectorId", "AKfycbx-HSSApXV7VTvYCgzvifyQ-bRlB3Oo_uAAvRKBkwUG1nOVIO_dTlpTmVASYM7oeN0D");
         ("ds.dscc.spreadsheetUrl", s_url sp)] else []) ++
  [("ds.*.refreshFields", "false"); ("ds.*.keepDatasourceName", "true"); ("ds.*.connector", "googleSheets");
   ("ds.*.spreadsheetId", s_id sp)] ++
  source_params sp "ds.ds_model_fit.worksheetId" "ModelFit" ++ source_params sp "ds.ds_model_diag.worksheetId" "ModelDiagnostics" ++
  source_params sp "ds.ds_outcome.worksheetId" "MediaOutcome" ++ source_params sp "ds.ds_spend.worksheetId" "MediaSpend" ++
  source_params sp "ds.ds_roi.worksheetId" "MediaROI".
Lemma read_report : forall sp, all_chars always_safe (s_id sp) = true ->
  read_url (fst (create_report_url sp)) = ("https://lookerstudio.google.com/reporting/create", read_raw sp).
Proof.
  intros sp S. rewrite url_raw. assert (P : all_chars plain (s_id sp) = true) by exact (all_impl _ _ _ safe_plain S).
  assert (Q : all_chars quoted (s_id sp) = true) by exact (all_impl _ _ _ plain_quoted P).
  rewrite read_lemma; [f_equal|reflexivity|discriminate|].
  - unfold raw, read_raw. rewrite !map_app, !source_read by reflexivity. cbn [map fst snd]. rewrite (decode_plain _ P).
    destruct (has_tab (s_tabs sp) "budget_opt_specs"); [|reflexivity]. cbn [map fst snd]. rewrite decode_quote. reflexivity.
  - unfold raw. repeat (apply Forall_app; split); try (apply source_quoted; reflexivity).
    + repeat constructor.
    + destruct (has_tab (s_tabs sp) "budget_opt_specs"); [|constructor].
      constructor; [split; reflexivity|]. constructor; [split; reflexivity|]. constructor; [|constructor]. split; [reflexivity|apply quote_quoted].
    + do 3 (constructor; [split; reflexivity|]). constructor; [|constructor]. split; [reflexivity|exact Q].
Qed.
Lemma tab_id_in : forall l t i, NoDup (map fst l) -> (tab_id l t = Some i <-> In (t, i) l).
Proof. intros l t i N. rewrite <- (assoc_in BinNums.N t i l N). clear N. induction l as [|[u j] r IH]; [reflexivity|]. cbn [tab_id assoc]. destruct (String.eqb t u); [reflexivity|exact IH]. Qed.
Lemma has_tab_in : forall l t, NoDup (map fst l) -> (has_tab l t = true <-> exists i, In (t, i) l).
Proof.
  intros l t N. unfold has_tab. destruct (tab_id l t) as [i|] eqn:E.
  - split; [intros _; exists i; apply tab_id_in; assumption|reflexivity].
  - split; [discriminate|]. intros [i H]. apply tab_id_in in H; [congruence|exact N].
Qed.
Lemma source_in : forall sp key tab k v, NoDup (map fst (s_tabs sp)) ->
  (In (k, v) (source_params sp key tab) <-> k = key /\ exists i, holds sp tab i /\ v = digits i).
Proof.
  intros sp key tab k v N. unfold source_params, holds. destruct (tab_id (s_tabs sp) tab) as [i|] eqn:E.
  - pose proof (proj1 (tab_id_in _ _ _ N) E) as I. cbn [In]. split.
    + intros [H|[]]. injection H as <- <-. split; [reflexivity|]. exists i. auto.
    + intros (-> & j & J & ->). apply (tab_id_in _ _ _ N) in J. left. congruence.
  - cbn [In]. split; [tauto|]. intros (_ & j & J & _). apply (tab_id_in _ _ _ N) in J. congruence.
Qed.

(** The URL, when read, has exactly the parameters of the report, each once. *)
Theorem C107_url : forall sp, NoDup (map fst (s_tabs sp)) -> all_chars always_safe (s_id sp) = true ->
  exists params, read_url (fst (create_report_url sp)) = ("https://lookerstudio.google.com/reporting/create", params) /\
    NoDup (map fst params) /\ forall k v, In (k, v) params <-> param_of sp k v.
Proof.
  intros sp N S. exists (read_raw sp). split; [exact (read_report sp S)|]. split.
  - unfold read_raw, source_params. generalize (s_tabs sp). intros tabs. unfold has_tab.
    destruct (tab_id tabs "budget_opt_specs"), (tab_id tabs "ModelFit"), (tab_id tabs "ModelDiagnostics"), (tab_id tabs "MediaOutcome"),
      (tab_id tabs "MediaSpend"), (tab_id tabs "MediaROI"); cbn [app map fst];
      match goal with |- NoDup ?l => let E := fresh in assert (E : nodup string_dec l = l) by (vm_compute; reflexivity); rewrite <- E; apply NoDup_nodup end.
  - intros k v. unfold read_raw, param_of. rewrite !in_app_iff, !(source_in sp) by exact N.
    assert (B : In (k, v) (if has_tab (s_tabs sp) "budget_opt_specs"
       then [("ds.dscc.connector", "community"); ("ds.dscc.connectorId", "AKfycbx-HSSApXV7VTvYCgzvifyQ-bRlB3Oo_uAAvRKBkwUG1nOVIO_dTlpTmVASYM7oeN0D");
             ("ds.dscc.spreadsheetUrl", s_url sp)] else []) <->
      ((exists i, holds sp "budget_opt_specs" i) /\ ((k = "ds.dscc.connector" /\ v = "community") \/
        (k = "ds.dscc.connectorId" /\ v = "AKfycbx-HSSApXV7VTvYCgzvifyQ-bRlB3Oo_uAAvRKBkwUG1nOVIO_dTlpTmVASYM7oeN0D") \/
        (k = "ds.dscc.spreadsheetUrl" /\ v = s_url sp)))).
    { unfold holds. rewrite <- (has_tab_in _ _ N). destruct (has_tab (s_tabs sp) "budget_opt_specs"); cbn [In]; rewrite ?pair_equal_spec; intuition congruence. }
    rewrite B. clear B. set (BB := (exists i, holds sp "budget_opt_specs" i) /\ _). clearbody BB.
    assert (C : (exists tab i, In (k, tab) sources /\ holds sp tab i /\ v = digits i) <->
      (k = "ds.ds_model_fit.worksheetId" /\ (exists i, holds sp "ModelFit" i /\ v = digits i)) \/
      (k = "ds.ds_model_diag.worksheetId" /\ (exists i, holds sp "ModelDiagnostics" i /\ v = digits i)) \/
      (k = "ds.ds_outcome.worksheetId" /\ (exists i, holds sp "MediaOutcome" i /\ v = digits i)) \/
      (k = "ds.ds_spend.worksheetId" /\ (exists i, holds sp "MediaSpend" i /\ v = digits i)) \/
      (k = "ds.ds_roi.worksheetId" /\ (exists i, holds sp "MediaROI" i /\ v = digits i))).
    { unfold sources. cbn [In]. split.
      - intros (tab & i & I & H & E). destruct I as [I|[I|[I|[I|[I|[]]]]]]; injection I as <- <-; eauto 9.
      - intros [(-> & i & H)|[(-> & i & H)|[(-> & i & H)|[(-> & i & H)|(-> & i & H)]]]]; eexists; exists i; (split; [|exact H]); tauto. }
    rewrite C. clear C. cbn [In]. rewrite !pair_equal_spec.
    assert (Y : forall a b : string, a = b <-> b = a) by (intros a b; split; congruence).
    rewrite (Y k "c.reportId"), (Y k "r.measurementId"), (Y k "ds.*.refreshFields"), (Y k "ds.*.keepDatasourceName"), (Y k "ds.*.connector"), (Y k "ds.*.spreadsheetId").
    rewrite (Y v "fbd3aeff-fc00-45fd-83f7-1ec5f21c9f56"), (Y v "G-R6C81BNHJ4"), (Y v "false"), (Y v "true"), (Y v "googleSheets"), (Y v (s_id sp)).
    tauto.
Qed.
Print Assumptions C107_url.

(** A warning for each table the report looks for that is not there, and no other. *)
Theorem C107_warnings : forall sp, NoDup (map fst (s_tabs sp)) ->
  NoDup (snd (create_report_url sp)) /\
  forall t, In t (snd (create_report_url sp)) <-> In t wanted /\ ~ exists i, holds sp t i.
Proof.
  intros sp N. assert (E : snd (create_report_url sp) = filter (fun t => negb (has_tab (s_tabs sp) t)) wanted).
  { unfold create_report_url, worksheet, has_tab, wanted, sources, OPTIMIZATION_SPECS, MODEL_FIT, MODEL_DIAGNOSTICS, MEDIA_OUTCOME, MEDIA_SPEND, MEDIA_ROI. cbv zeta. cbn [map snd filter].
    destruct (tab_id (s_tabs sp) "budget_opt_specs"), (tab_id (s_tabs sp) "ModelFit"), (tab_id (s_tabs sp) "ModelDiagnostics"), (tab_id (s_tabs sp) "MediaOutcome"),
      (tab_id (s_tabs sp) "MediaSpend"), (tab_id (s_tabs sp) "MediaROI"); reflexivity. }
  rewrite E. split.
  - apply NoDup_filter. assert (W : nodup string_dec wanted = wanted) by (vm_compute; reflexivity). rewrite <- W. apply NoDup_nodup.
  - intros t. rewrite filter_In, negb_true_iff. unfold holds. rewrite <- (has_tab_in _ _ N), not_true_iff_false. reflexivity.
Qed.
Print Assumptions C107_warnings.

(** From the tables to the report: a source shows the tab that holds its table. *)
Theorem C107_report : forall default_title new_id url id data st sp,
  (forall st, ~ In (new_id st) (map sh_id st)) -> NoDup (map fst data) -> all_chars always_safe id = true ->
  upload default_title new_id url id data = (st, Ok sp) ->
  let params := snd (read_url (fst (create_report_url sp))) in
  (forall key tab f, In (key, tab) sources -> In (tab, f) data ->
     exists s, In s st /\ sh_title s = tab /\ holds_table s f /\ In (key, digits (sh_id s)) params) /\
  (In "budget_opt_specs" (map fst data) <-> In ("ds.dscc.spreadsheetUrl", url) params) /\
  In ("ds.*.spreadsheetId", id) params.
Proof.
  intros dt new_id url id data st sp Fr N S U params.
  assert (NE : data <> [] /\ ~ In dt (map fst data)).
  { split; intros C; rewrite (upload_refused dt new_id url id data Fr) in U; try discriminate; auto. }
  destruct (C107_upload dt new_id url id data Fr N (proj1 NE) (proj2 NE)) as (st' & sp' & E & Eu & Ei & Et & Ni & Es & F).
  rewrite E in U. injection U as -> ->.
  assert (Nt : NoDup (map fst (s_tabs sp))) by (rewrite Es, map_map; change (NoDup (map sh_title st)); rewrite Et; exact N).
  assert (Sid : all_chars always_safe (s_id sp) = true) by (rewrite Ei; exact S).
  destruct (C107_url sp Nt Sid) as (ps & R & _ & P). unfold params. rewrite R. cbn [snd].
  assert (T : forall t, In t (map fst data) <-> exists i, holds sp t i).
  { intros t. unfold holds. rewrite Es, <- Et. rewrite in_map_iff. split.
    - intros (s & A & I). exists (sh_id s). apply in_map_iff. exists s. split; [congruence|exact I].
    - intros (i & I). apply in_map_iff in I. destruct I as (s & A & I). exists s. split; [congruence|exact I]. }
  split; [|split].
  - intros key tab f K D.
    assert (G : exists s, In s st /\ sh_title s = tab /\ holds_table s f).
    { clear - F Et D. revert st F Et. induction data as [|d data IH]; intros st F Et; [destruct D|].
      inversion F as [|? s ? st' Hs Fs]; subst. cbn [map] in Et. injection Et as E1 E2. destruct D as [->|D].
      - exists s. split; [left; reflexivity|]. split; [exact E1|exact Hs].
      - destruct (IH D st' Fs E2) as (s' & I & Q). exists s'. split; [right; exact I|exact Q]. }
    destruct G as (s & I & Ts & H). exists s. split; [exact I|]. split; [exact Ts|]. split; [exact H|]. apply P.
    do 6 right. left. exists tab, (sh_id s). split; [exact K|]. split; [|reflexivity]. unfold holds. rewrite Es. apply in_map_iff. exists s. split; [congruence|exact I].
  - rewrite T, P. unfold param_of. rewrite Eu. split.
    + intros H. do 7 right. split; [exact H|]. do 2 right. auto.
    + intros [C|[C|[C|[C|[C|[C|[C|C]]]]]]]; try (destruct C as [C _]; discriminate C); [|exact (proj1 C)].
      destruct C as (tab & i & C & _). unfold sources in C. cbn [In] in C. intuition discriminate.
  - apply P. do 5 right. left. auto.
Qed.
Print Assumptions C107_report.

(** Tables the report does not look for change nothing: with the tables of an optimization of reach and frequency, and
    none of a budget, the report has no source of scenarios, and the warning says there are no optimization specs. *)
Theorem C107_frequency_refuted : forall url id tabs extra,
  ~ In "budget_opt_specs" (map fst tabs) -> (forall t, In t (map fst extra) -> ~ In t wanted) ->
  let sp := mkSpreadsheet url id (tabs ++ extra) in
  create_report_url sp = create_report_url (mkSpreadsheet url id tabs) /\ In "budget_opt_specs" (snd (create_report_url sp)).
Proof.
  intros url id tabs extra NB X sp.
  assert (L : forall t, In t wanted -> tab_id (tabs ++ extra) t = tab_id tabs t).
  { intros t W. clear NB sp. induction tabs as [|[u i] r IH]; cbn [app tab_id].
    - induction extra as [|[u i] e IHe]; [reflexivity|]. cbn [tab_id]. destruct (String.eqb t u) eqn:E.
      + apply String.eqb_eq in E. subst u. exfalso. apply (X t); [left; reflexivity|exact W].
      + apply IHe. intros v Hv. apply X. right. exact Hv.
    - destruct (String.eqb t u); [reflexivity|exact IH]. }
  assert (E : create_report_url sp = create_report_url (mkSpreadsheet url id tabs)).
  { unfold create_report_url, worksheet, has_tab, sp. cbn [s_tabs s_url s_id].
    rewrite !L by (cbn; tauto). reflexivity. }
  split; [exact E|]. rewrite E. unfold create_report_url. cbv zeta. cbn [snd s_tabs].
  assert (H : has_tab tabs OPTIMIZATION_SPECS = false).
  { unfold has_tab, OPTIMIZATION_SPECS. destruct (tab_id tabs "budget_opt_specs") as [i|] eqn:T; [|reflexivity]. exfalso. apply NB.
    clear - T. induction tabs as [|[u j] r IH]; [discriminate|]. cbn [tab_id] in T. cbn [map fst]. destruct (String.eqb "budget_opt_specs" u) eqn:Q; [left; apply String.eqb_eq in Q; congruence|right; auto]. }
  rewrite H. cbn [snd app In]. left. reflexivity.
Qed.
Print Assumptions C107_frequency_refuted.

(** Two tables, one with an infinite and a missing number; the report's URL, and one with characters to be quoted. *)
Definition ex_id (st : list sheet) : N := N.succ (fold_right N.max 0%N (map sh_id st)).
Definition ex_data : list (string * frame) :=
  [("ModelFit", mkFrame ["Time"; "Actual"] [[Text "2024-01-01"; Num 3]; [Text "2024-01-08"; NaN]]);
   ("rf_opt_specs", mkFrame ["Group ID"] [[PlusInf]])].
Example C107_example :
  (forall st, ~ In (ex_id st) (map sh_id st)) /\ NoDup (map fst ex_data) /\ ~ In "Sheet1" (map fst ex_data) /\
  all_chars always_safe "1aB-_z" = true /\
  upload "Sheet1" ex_id "https://docs.google.com/d/1aB-_z/edit?usp=a b&c" "1aB-_z" ex_data =
    ([mkSheet 1 "ModelFit" [[Word "Time"; Word "Actual"]; [Word "2024-01-01"; Number 3]; [Word "2024-01-08"; Blank]];
      mkSheet 2 "rf_opt_specs" [[Word "Group ID"]; [Blank]]],
     Ok (mkSpreadsheet "https://docs.google.com/d/1aB-_z/edit?usp=a b&c" "1aB-_z" [("ModelFit", 1%N); ("rf_opt_specs", 2%N)])) /\
  quote_plus "https://docs.google.com/d/1aB-_z/edit?usp=a b&c" = "https%3A%2F%2Fdocs.google.com%2Fd%2F1aB-_z%2Fedit%3Fusp%3Da+b%26c" /\
  ~ In "rf_opt_specs" wanted.
Proof.
  split.
  { intros st I. assert (B : forall l i, In i l -> (i <= fold_right N.max 0 l)%N).
    { induction l as [|j l IH]; intros i Hi; [destruct Hi|]. cbn [fold_right]. destruct Hi as [->|Hi]; [lia|]. specialize (IH i Hi). lia. }
    specialize (B _ _ I). unfold ex_id in B. lia. }
  split; [cbn; constructor; [cbn; intuition discriminate|constructor; [intros []|constructor]]|]. split; [cbn; intuition discriminate|].
  split; [reflexivity|]. split; [reflexivity|]. split; [reflexivity|]. cbn. intuition discriminate.
Qed.
