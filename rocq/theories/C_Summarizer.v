(** Property C109: the summary of a model's results. *)
From Coq Require Import QArith ZArith Lia String Ascii List Bool Arith Permutation Sorted.
From Verif Require Import M_Base Lib_Sort M_Time S_Time P_Time M_Summarizer S_Summarizer P_Summarizer.
Import ListNotations.
Local Open Scope nat_scope.
Local Open Scope list_scope.

(** ** The period.  It runs from the first date asked for (or the first there is) to one interval after the last; the
    results are of exactly the periods between the two dates, both included; they are by quarter if these are 52 or more.
    Dates that are not of the data, or in the wrong order, are refused. *)
Theorem C109_period : forall all interval s e s0 e0, from_date all s s0 -> to_date all e e0 ->
  (In s0 all /\ In e0 all /\ ~ before e0 s0 ->
    exists p periods, report_period all interval s e = Ok p /\ sp_from p = s0 /\ sp_to p = (ordinal e0 + interval)%Z /\
      between s0 e0 all periods /\ match sp_times p with None => periods = all | Some l => periods = l end /\
      (sp_quarterly p = true <-> 52 <= length periods)) /\
  (~ (In s0 all /\ In e0 all /\ ~ before e0 s0) -> report_period all interval s e = Err ValueError).
Proof. exact period_lemma. Qed.
Print Assumptions C109_period.
Definition ex_days : list date :=
  map (fun i => mkDate 2024 1 (Z.of_nat i)) (seq 1 31) ++ map (fun i => mkDate 2024 2 (Z.of_nat i)) (seq 1 29).
Example C109_period_example : from_date ex_days (Some (mkDate 2024 1 30)) (mkDate 2024 1 30) /\
  report_period ex_days 1 (Some (mkDate 2024 1 30)) (Some (mkDate 2024 2 2)) =
    Ok (mkPeriod (mkDate 2024 1 30) (ordinal (mkDate 2024 2 3)) (Some [mkDate 2024 1 30; mkDate 2024 1 31; mkDate 2024 2 1; mkDate 2024 2 2]) false) /\
  report_period ex_days 1 (Some (mkDate 2024 2 2)) (Some (mkDate 2024 1 30)) = Err ValueError /\
  report_period ex_days 1 (Some (mkDate 2023 2 2)) None = Err ValueError.
Proof. split; [reflexivity|]. split; [vm_compute; reflexivity|]. split; vm_compute; reflexivity. Qed.
(** Refuted: results of less than a year are not by quarter.  Two months of daily data are. *)
Theorem C109_quarter_refuted : exists all p, time_coordinates all = Ok all /\
  report_period all 1 None None = Ok p /\ sp_quarterly p = true /\ (sp_to p - ordinal (sp_from p) = 60)%Z.
Proof. exists ex_days. eexists. split; [vm_compute; reflexivity|]. split; [vm_compute; reflexivity|]. split; reflexivity. Qed.
Print Assumptions C109_quarter_refuted.

(** ** The sentences.  Those said to have driven the outcome are the two channels of most incremental outcome. *)
Theorem C109_drivers : forall outcome, exists named,
  lead_channels outcome = map title (map fst named) /\ best_channels false 2 outcome named.
Proof.
  intros outcome. exists (firstn 2 (sorted_metrics false outcome)). split; [unfold lead_channels; rewrite firstn_map; reflexivity|apply best_lemma].
Qed.
Print Assumptions C109_drivers.
(** The channels of the highest ROI, effectiveness and marginal ROI, and of the lowest CPIK, are such, and the numbers are theirs. *)
Theorem C109_performance : forall roi effectiveness mroi cpik,
  (forall rows, In rows [roi; effectiveness; mroi; cpik] -> exists a, In a rows /\ fst a <> "All Channels"%string) ->
  exists a b c d v w x y,
    performance roi effectiveness mroi cpik = Ok (mkInsights (title a, v) (title b) (title c, x) (title d, y)) /\
    best_channels false 1 roi [(a, v)] /\ best_channels false 1 effectiveness [(b, w)] /\
    best_channels false 1 mroi [(c, x)] /\ best_channels true 1 cpik [(d, y)].
Proof.
  intros roi eff mroi cpik H.
  destruct (lead_lemma false roi) as (a & v & E1 & B1); [apply H; left; reflexivity|].
  destruct (lead_lemma false eff) as (b & w & E2 & B2); [apply H; right; left; reflexivity|].
  destruct (lead_lemma false mroi) as (c & x & E3 & B3); [apply H; do 2 right; left; reflexivity|].
  destruct (lead_lemma true cpik) as (d & y & E4 & B4); [apply H; do 3 right; left; reflexivity|].
  exists a, b, c, d, v, w, x, y. unfold performance. rewrite E1, E2, E3, E4. cbn [rbind fst].
  split; [reflexivity|]. split; [exact B1|]. split; [exact B2|]. split; [exact B3|exact B4].
Qed.
Print Assumptions C109_performance.
Definition ex_rows : list (string * option Q) := [("tv", Some 2%Q); ("radio_b", None); ("web", Some 3%Q); ("All Channels", Some 9%Q)]%string.
Example C109_sentences_example :
  (exists a, In a ex_rows /\ fst a <> "All Channels"%string) /\ lead_channels ex_rows = ["Web"; "Tv"]%string /\
  lead true ex_rows = Ok ("Tv"%string, Some 2%Q) /\ title "radio_b 2nd" = "Radio_B 2Nd"%string.
Proof.
  split; [exists ("tv"%string, Some 2%Q); split; [left; reflexivity|discriminate]|]. split; [reflexivity|]. split; reflexivity.
Qed.
(** Refuted: the sentences tell the channels apart.  Two channels may get one name. *)
Theorem C109_names_refuted : exists outcome, NoDup (map fst outcome) /\ lead_channels outcome = ["Tv"; "Tv"]%string.
Proof.
  exists [("TV"%string, Some 2%Q); ("tv"%string, Some 1%Q)]. split; [|reflexivity].
  constructor; [intros [H|[]]; discriminate|]. constructor; [intros []|constructor].
Qed.
Print Assumptions C109_names_refuted.
(** Refuted: the channel of the lowest CPIK gains KPI for its spend.  One that loses has a CPIK below zero, and is named. *)
Theorem C109_cpik_refuted : exists (spend outcome : string -> Q) cpik,
  (forall a v, In (a, v) cpik -> v = Some (spend a / outcome a)%Q) /\ (forall a, 0 < spend a)%Q /\
  (0 < outcome "tv"%string)%Q /\ (outcome "web"%string < 0)%Q /\ map fst cpik = ["tv"; "web"]%string /\
  exists v, lead true cpik = Ok ("Web"%string, v).
Proof.
  exists (fun _ => 10%Q), (fun a => if String.eqb a "web" then -(5 # 1) else 5 # 1)%Q.
  exists [("tv"%string, Some (10 / (5 # 1))%Q); ("web"%string, Some (10 / (-(5 # 1)))%Q)].
  split; [intros a v [H|[H|[]]]; injection H as <- <-; reflexivity|]. split; [reflexivity|]. split; [reflexivity|]. split; [reflexivity|].
  split; [reflexivity|]. eexists. vm_compute. reflexivity.
Qed.
Print Assumptions C109_cpik_refuted.

(** The optimal frequency named is that of a reach and frequency channel on which most is spent. *)
Theorem C109_frequency : forall spend optimal, NoDup (map fst spend) -> NoDup (map fst optimal) -> optimal <> [] ->
  (forall c, In c (map fst optimal) -> exists v, In (c, v) spend) ->
  exists c f v, rf_insight spend optimal = Ok (c, f) /\ In (c, f) optimal /\ In (c, v) spend /\
    forall d w, In d (map fst optimal) -> In (d, w) spend -> (w <= v)%Q.
Proof. exact rf_lemma. Qed.
Print Assumptions C109_frequency.
Example C109_frequency_example :
  rf_insight [("tv", 9%Q); ("a", 2%Q); ("b", 3%Q)]%string [("a", 4%Q); ("b", 5%Q)]%string = Ok ("b"%string, 5%Q).
Proof. reflexivity. Qed.
