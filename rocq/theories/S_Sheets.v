(** Specification of the upload and of the report's URL: how a URL is read. *)
From Coq Require Import ZArith NArith QArith String Ascii List Bool Arith.
From Verif Require Import M_Base M_Format M_Sheets.
Import ListNotations.
Local Open Scope string_scope.
Local Open Scope nat_scope.
Local Open Scope list_scope.

(** The part before the first [c], and the part after it. *)
Fixpoint cut (c : ascii) (s : string) : string * option string :=
  match s with
  | "" => ("", None)
  | String a r => if Ascii.eqb a c then ("", Some r) else (String a (fst (cut c r)), snd (cut c r))
  end.
(** The parts between the [c]s. *)
Fixpoint split_on (c : ascii) (s : string) : list string :=
  match s with
  | "" => [""]
  | String a r =>
      if Ascii.eqb a c then "" :: split_on c r
      else match split_on c r with p :: l => String a p :: l | [] => [String a ""] end
  end.
(** Decoding of form values: a plus is a space, a percent sign and two digits are a byte. *)
Definition hex_value (c : ascii) : option nat :=
  if in_range 48 57 c then Some (nat_of_ascii c - 48)
  else if in_range 65 70 c then Some (nat_of_ascii c - 55)
  else if in_range 97 102 c then Some (nat_of_ascii c - 87) else None.
Fixpoint decode (s : string) : string :=
  match s with
  | "" => ""
  | String c r =>
      if Ascii.eqb c "+"%char then String " " (decode r)
      else if Ascii.eqb c "%"%char then
        match r with
        | String a (String b t) =>
            match hex_value a, hex_value b with
            | Some x, Some y => String (ascii_of_nat (16 * x + y)) (decode t)
            | _, _ => String c (decode r)
            end
        | _ => String c (decode r)
        end
      else String c (decode r)
  end.
(** The address and the parameters of a URL. *)
Definition read_param (p : string) : string * string :=
  match cut "=" p with (k, Some v) => (decode k, decode v) | (k, None) => (decode k, "") end.
Definition read_url (u : string) : string * list (string * string) :=
  match cut "?" (fst (cut "#" u)) with
  | (address, Some q) => (address, map read_param (split_on "&" q))
  | (address, None) => (address, [])
  end.

Fixpoint all_chars (p : ascii -> bool) (s : string) : bool :=
  match s with "" => true | String c r => p c && all_chars p r end.

(** The sources of the report and the tables they show. *)
Definition sources : list (string * string) :=
  [("ds.ds_model_fit.worksheetId", "ModelFit"); ("ds.ds_model_diag.worksheetId", "ModelDiagnostics");
   ("ds.ds_outcome.worksheetId", "MediaOutcome"); ("ds.ds_spend.worksheetId", "MediaSpend"); ("ds.ds_roi.worksheetId", "MediaROI")].
Definition holds (sp : spreadsheet) (tab : string) (i : N) : Prop := In (tab, i) (s_tabs sp).
(** The parameters of the report. *)
Definition param_of (sp : spreadsheet) (k v : string) : Prop :=
  (k = "c.reportId" /\ v = "fbd3aeff-fc00-45fd-83f7-1ec5f21c9f56") \/ (k = "r.measurementId" /\ v = "G-R6C81BNHJ4") \/
  (k = "ds.*.refreshFields" /\ v = "false") \/ (k = "ds.*.keepDatasourceName" /\ v = "true") \/
  (k = "ds.*.connector" /\ v = "googleSheets") \/ (k = "ds.*.spreadsheetId" /\ v = s_id sp) \/
  (exists tab i, In (k, tab) sources /\ holds sp tab i /\ v = digits i) \/
  ((exists i, holds sp "budget_opt_specs" i) /\
   ((k = "ds.dscc.connector" /\ v = "community") \/
    (k = "ds.dscc.connectorId" /\ v = "AKfycbx-HSSApXV7VTvYCgzvifyQ-bRlB3Oo_uAAvRKBkwUG1nOVIO_dTlpTmVASYM7oeN0D") \/
    (k = "ds.dscc.spreadsheetUrl" /\ v = s_url sp))).
(** Tables the report looks for. *)
Definition wanted : list string := "budget_opt_specs" :: map snd sources.

(** What a cell becomes. *)
Definition shown_as (c : cell) (e : entry) : Prop :=
  match c with Num q => e = Number q | Text s => e = Word s | PlusInf | MinusInf | NaN => e = Blank end.
(** A sheet that holds a table: the names of the columns, then the rows. *)
Definition holds_table (s : sheet) (f : frame) : Prop :=
  exists body, sh_values s = map Word (columns f) :: body /\ Forall2 (Forall2 shown_as) (cells f) body.
