(** Model of the upload of the scenario planner's tables (scenarioplanner/converters/sheets.py) and of the URL of the
    report on them (scenarioplanner/linkingapi/url_generator.py).

    Strings are strings of bytes (UTF-8).  The spreadsheet service is outside the repository: what is assumed of it is
    in the section [Service].  Credentials are not modelled, numbers are rationals. *)
From Coq Require Import ZArith NArith QArith String Ascii List Bool Arith.
From Verif Require Import M_Base M_Format.
Import ListNotations.
Local Open Scope string_scope.
Local Open Scope nat_scope.
Local Open Scope list_scope.

(** A cell of a data frame, and what is sent of it. *)
Inductive cell := Num (q : Q) | PlusInf | MinusInf | NaN | Text (s : string).
Inductive entry := Blank | Number (q : Q) | Word (s : string).
Record frame := mkFrame { columns : list string; cells : list (list cell) }.

(** sheets.py:107-109: infinities and NaN become [None]. *)
Definition sent (c : cell) : entry :=
  match c with Num q => Number q | Text s => Word s | PlusInf | MinusInf | NaN => Blank end.

Inductive request := AddSheet (title : string) | DeleteSheet (id : N).
Inductive reply := Added (title : string) (id : N) | Empty.
Record sheet := mkSheet { sh_id : N; sh_title : string; sh_values : list (list entry) }.

(** sheets.py:61-75 [Spreadsheet]. *)
Record spreadsheet := mkSpreadsheet { s_url : string; s_id : string; s_tabs : list (string * N) }.

Section Service.
(** The service: a new spreadsheet has one tab, of id 0 and this title; a new tab gets an id; a title that is taken, the
    removal of the last tab, and values for a tab that is not there are refused ([HttpError]); a batch is done as a
    whole or not at all. *)
Variables (default_title : string) (new_id : list sheet -> N).
Definition new_spreadsheet : list sheet := [mkSheet 0 default_title []].
Definition has_title (t : string) (st : list sheet) : bool := existsb (fun s => String.eqb t (sh_title s)) st.
Definition do_request (st : list sheet) (r : request) : result (list sheet * reply) :=
  match r with
  | AddSheet t =>
      raise_if (has_title t st) RuntimeError (let i := new_id st in Ok (st ++ [mkSheet i t []], Added t i))
  | DeleteSheet i =>
      let rest := filter (fun s => negb (N.eqb i (sh_id s))) st in
      raise_if (Nat.eqb (length rest) (length st) || Nat.eqb (length rest) 0) RuntimeError (Ok (rest, Empty))
  end.
Fixpoint do_requests (st : list sheet) (l : list request) : result (list sheet * list reply) :=
  match l with
  | [] => Ok (st, [])
  | r :: l => rbind (do_request st r) (fun p => rbind (do_requests (fst p) l) (fun q => Ok (fst q, snd p :: snd q)))
  end.
Fixpoint fill (st : list sheet) (l : list (string * list (list entry))) : result (list sheet) :=
  match l with
  | [] => Ok st
  | (t, v) :: l =>
      raise_if (negb (has_title t st)) RuntimeError
        (fill (map (fun s => if String.eqb t (sh_title s) then mkSheet (sh_id s) (sh_title s) v else s) st) l)
  end.

(** sheets.py:78-156 [upload_to_gsheet]: what the spreadsheet is afterwards, and what is returned or raised.  [url] and
    [id] are those the service gave it. *)
Definition requests (data : list (string * frame)) : list request :=
  map (fun d => AddSheet (fst d)) data ++ [DeleteSheet 0].
Definition values_of (f : frame) : list (list entry) := map Word (columns f) :: map (map sent) (cells f).
Definition values (data : list (string * frame)) : list (string * list (list entry)) :=
  map (fun d => (fst d, values_of (snd d))) data.
Fixpoint set_tab (t : string) (i : N) (l : list (string * N)) : list (string * N) :=
  match l with [] => [(t, i)] | (u, j) :: r => if String.eqb t u then (u, i) :: r else (u, j) :: set_tab t i r end.
Fixpoint tab_ids (l : list reply) (acc : list (string * N)) : list (string * N) :=
  match l with [] => acc | Added t i :: r => tab_ids r (set_tab t i acc) | Empty :: r => tab_ids r acc end.
Definition upload (url id : string) (data : list (string * frame)) : list sheet * result spreadsheet :=
  match do_requests new_spreadsheet (requests data) with
  | Err e => (new_spreadsheet, Err e)
  | Ok (st, replies) =>
      match fill st (values data) with
      | Err e => (st, Err e)
      | Ok st' => (st', Ok (mkSpreadsheet url id (tab_ids replies [])))
      end
  end.
End Service.

(** [urllib.parse.quote_plus] of the standard library. *)
Definition in_range (a b : nat) (c : ascii) : bool := Nat.leb a (nat_of_ascii c) && Nat.leb (nat_of_ascii c) b.
Definition always_safe (c : ascii) : bool :=
  in_range 48 57 c || in_range 65 90 c || in_range 97 122 c || existsb (Ascii.eqb c) ["_"; "."; "-"; "~"]%char.
Definition hex_digit (n : nat) : ascii := ascii_of_nat (if Nat.ltb n 10 then 48 + n else 55 + n).
Definition quote_char (c : ascii) : string :=
  if always_safe c then String c ""
  else if Ascii.eqb c " "%char then "+"
  else String "%" (String (hex_digit (nat_of_ascii c / 16)) (String (hex_digit (nat_of_ascii c mod 16)) "")).
Fixpoint quote_plus (s : string) : string :=
  match s with "" => "" | String c r => (quote_char c ++ quote_plus r)%string end.

(** scenarioplanner/linkingapi/constants.py:21-28. *)
Definition REPORT_TEMPLATE_ID := "fbd3aeff-fc00-45fd-83f7-1ec5f21c9f56".
Definition COMMUNITY_CONNECTOR_NAME := "community".
Definition COMMUNITY_CONNECTOR_ID := "AKfycbx-HSSApXV7VTvYCgzvifyQ-bRlB3Oo_uAAvRKBkwUG1nOVIO_dTlpTmVASYM7oeN0D".
Definition SHEETS_CONNECTOR_NAME := "googleSheets".
Definition GA4_MEASUREMENT_ID := "G-R6C81BNHJ4".
(** scenarioplanner/converters/dataframe/constants.py:23-96. *)
Definition MODEL_FIT := "ModelFit".
Definition MODEL_DIAGNOSTICS := "ModelDiagnostics".
Definition MEDIA_OUTCOME := "MediaOutcome".
Definition MEDIA_SPEND := "MediaSpend".
Definition MEDIA_ROI := "MediaROI".
Definition OPTIMIZATION_SPECS := "budget_opt_specs".

Fixpoint tab_id (l : list (string * N)) (t : string) : option N :=
  match l with [] => None | (u, i) :: r => if String.eqb t u then Some i else tab_id r t end.
Definition has_tab (l : list (string * N)) (t : string) : bool := match tab_id l t with Some _ => true | None => false end.

(** One [if] of url_generator.py:80-125: the parameter, or a warning. *)
Definition worksheet (sp : spreadsheet) (tab source : string) : list string * list string :=
  match tab_id (s_tabs sp) tab with
  | Some i => ([("ds." ++ source ++ ".worksheetId=" ++ digits i)%string], [])
  | None => ([], [tab])
  end.
(** url_generator.py:46-131 [create_report_url]; a warning is told by the tab it is about. *)
Definition create_report_url (sp : spreadsheet) : string * list string :=
  let encoded := quote_plus (s_url sp) in
  let opt := if has_tab (s_tabs sp) OPTIMIZATION_SPECS
    then ([("ds.dscc.connector=" ++ COMMUNITY_CONNECTOR_NAME)%string;
           ("ds.dscc.connectorId=" ++ COMMUNITY_CONNECTOR_ID)%string;
           ("ds.dscc.spreadsheetUrl=" ++ encoded)%string], [])
    else ([], [OPTIMIZATION_SPECS]) in
  let fit := worksheet sp MODEL_FIT "ds_model_fit" in
  let diag := worksheet sp MODEL_DIAGNOSTICS "ds_model_diag" in
  let outcome := worksheet sp MEDIA_OUTCOME "ds_outcome" in
  let spend := worksheet sp MEDIA_SPEND "ds_spend" in
  let roi := worksheet sp MEDIA_ROI "ds_roi" in
  let params :=
    [("c.reportId=" ++ REPORT_TEMPLATE_ID)%string; ("r.measurementId=" ++ GA4_MEASUREMENT_ID)%string] ++ fst opt ++
    ["ds.*.refreshFields=false"; "ds.*.keepDatasourceName=true";
     ("ds.*.connector=" ++ SHEETS_CONNECTOR_NAME)%string; ("ds.*.spreadsheetId=" ++ s_id sp)%string] ++
    fst fit ++ fst diag ++ fst outcome ++ fst spend ++ fst roi in
  (("https://lookerstudio.google.com/reporting/create?" ++ String.concat "&" params)%string,
   snd opt ++ snd fit ++ snd diag ++ snd outcome ++ snd spend ++ snd roi).
