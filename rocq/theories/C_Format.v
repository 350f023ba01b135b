(** C100: the numbers of a report say what was computed, to the digits they show. *)
From Coq Require Import ZArith NArith QArith Qround Qabs String Ascii List Bool Arith Lia Lqa DecimalString Permutation Sorted.
From Verif Require Import Lib_QSum M_Base M_Opt P_Opt M_Format S_Format P_Format P_Format2 P_Format3.
Import ListNotations.
Local Open Scope string_scope.
Local Open Scope list_scope.
Local Infix "+++" := String.append (at level 60, right associativity).

(** Every number in compact form reads back within half of its last digit, in the unit that suits it,
    with a minus sign exactly when it is negative and the currency after the sign. *)
Theorem C100_compact : forall cur p n, compact_of cur p n (compact_number n p cur).
Proof. exact compact_lemma. Qed.
Print Assumptions C100_compact.

(** What is read never puts two numbers in the wrong order, and the sign changes nothing else. *)
Theorem C100_compact_order : forall p, exists f : Q -> Q,
  (forall n cur, exists neg k, reads cur p neg k (compact_number n p cur) (f n)) /\
  (forall n m, (n <= m)%Q -> (f n <= f m)%Q) /\ (forall n, (f (- n) == - f n)%Q).
Proof. exact order_lemma. Qed.
Print Assumptions C100_compact_order.

(** Amounts of money are written within 5% of the amount. *)
Theorem C100_money : forall cur n, money_of cur n (format_monetary_num n cur).
Proof. exact money_lemma. Qed.
Print Assumptions C100_money.

(** Percentages from 1% on are whole numbers within half a point; smaller positive ones have one
    significant digit and are within a third of the value. *)
Theorem C100_percent : forall x,
  (((1 # 100) <= x)%Q -> exists i, format_percent x = (numeral i +++ "%") /\ (Qabs (inject_Z (Z.of_N i) - 100 * x) <= 1 # 2)%Q) /\
  ((0 < x)%Q -> (x < 1 # 100)%Q -> exists s v, format_percent x = (s +++ "%") /\ significant s v /\ (Qabs (v - 100 * x) <= 100 * x / 3)%Q).
Proof. intros x. split; [apply big_percent|apply small_percent]. Qed.
Print Assumptions C100_percent.

(** A percentage with the amount behind it. *)
Theorem C100_number_text : forall pv av, exists s t, format_number_text pv av = (s +++ "% (" +++ t +++ ")") /\
  plain_of 1 (pv * 100) s /\ compact_of "" 0 av t.
Proof. intros pv av. exists (fixed 1 (pv * 100)), (compact_number av 0 ""). split; [reflexivity|]. split; [apply fixed_plain|apply compact_lemma]. Qed.
Print Assumptions C100_number_text.

(** Column headings: underscores become spaces, the first letter of every word a capital, nothing else
    changes. *)
Theorem C100_headings : forall names, Forall2 heading names (format_col_names names).
Proof. exact heading_lemma. Qed.
Print Assumptions C100_headings.

(** The six figures of the scenario plan for a revenue outcome. *)
Theorem C100_scenario_revenue : forall cur non opt, exists b1 b2 b3 r1 r2 r3 i1 i2 i3 pb pr pi,
  scenario_stats true cur non opt = Ok
    [mkStat "Non-optimized budget" b1 None; mkStat "Optimized budget" b2 (Some (pb +++ b3));
     mkStat "Non-optimized ROI" r1 None; mkStat "Optimized ROI" r2 (Some (pr +++ r3));
     mkStat "Non-optimized incremental revenue" i1 None; mkStat "Optimized incremental revenue" i2 (Some (pi +++ i3))] /\
  money_of cur (t_budget non) b1 /\ money_of cur (t_budget opt) b2 /\ money_of cur (t_budget opt - t_budget non) b3 /\
  plain_of 1 (t_roi non) r1 /\ plain_of 1 (t_roi opt) r2 /\ plain_of 1 (t_roi opt - t_roi non) r3 /\
  compact_of cur 0 (t_incremental non) i1 /\ compact_of cur 0 (t_incremental opt) i2 /\
  compact_of cur 0 (t_incremental opt - t_incremental non) i3 /\
  ((pb = "+" <-> 0 < t_budget opt - t_budget non) /\ (pb = "" <-> t_budget opt - t_budget non <= 0))%Q /\
  ((pr = "+" \/ pr = "") /\ (pr = "+" -> 0 < t_roi opt - t_roi non) /\ (1 # 20 < t_roi opt - t_roi non -> pr = "+"))%Q /\
  ((pi = "+" <-> 0 < t_incremental opt - t_incremental non) /\ (pi = "" <-> t_incremental opt - t_incremental non <= 0))%Q.
Proof.
  intros cur non opt.
  exists (format_monetary_num (t_budget non) cur), (format_monetary_num (t_budget opt) cur), (format_monetary_num (t_budget opt - t_budget non) cur),
    (fixed 1 (t_roi non)), (fixed 1 (t_roi opt)), (fixed 1 (t_roi opt - t_roi non)),
    (compact_number (t_incremental non) 0 cur), (compact_number (t_incremental opt) 0 cur), (compact_number (t_incremental opt - t_incremental non) 0 cur),
    (if Qlt_bool 0 (t_budget opt - t_budget non) then "+" else ""), (if Z.ltb 0 (rint ((t_roi opt - t_roi non) * 10)) then "+" else ""),
    (if Qlt_bool 0 (t_incremental opt - t_incremental non) then "+" else "").
  split; [unfold scenario_stats; destruct (Z.ltb 0 (rint ((t_roi opt - t_roi non) * 10))); reflexivity|].
  do 3 (split; [apply money_lemma|]). do 3 (split; [apply fixed_plain|]). do 3 (split; [apply compact_lemma|]).
  split; [apply plus_sign|]. split; [apply roi_sign|apply plus_sign].
Qed.
Print Assumptions C100_scenario_revenue.

(** And for any other KPI, where the cost per incremental unit takes the place of the ROI and outcomes
    are not money. *)
Theorem C100_scenario_kpi : forall cur non opt a b, t_cpik non = Some a -> t_cpik opt = Some b -> exists b1 b2 b3 r1 r2 r3 i1 i2 i3 pb pi,
  scenario_stats false cur non opt = Ok
    [mkStat "Non-optimized budget" b1 None; mkStat "Optimized budget" b2 (Some (pb +++ b3));
     mkStat "Non-optimized CPIK" (cur +++ r1) None; mkStat "Optimized CPIK" (cur +++ r2) (Some r3);
     mkStat "Non-optimized incremental KPI" i1 None; mkStat "Optimized incremental KPI" i2 (Some (pi +++ i3))] /\
  money_of cur (t_budget non) b1 /\ money_of cur (t_budget opt) b2 /\ money_of cur (t_budget opt - t_budget non) b3 /\
  plain_of 2 a r1 /\ plain_of 2 b r2 /\ compact_of cur 2 (b - a) r3 /\
  compact_of "" 0 (t_incremental non) i1 /\ compact_of "" 0 (t_incremental opt) i2 /\
  compact_of "" 0 (t_incremental opt - t_incremental non) i3 /\
  ((pb = "+" <-> 0 < t_budget opt - t_budget non) /\ (pb = "" <-> t_budget opt - t_budget non <= 0))%Q /\
  ((pi = "+" <-> 0 < t_incremental opt - t_incremental non) /\ (pi = "" <-> t_incremental opt - t_incremental non <= 0))%Q.
Proof.
  intros cur non opt a b Ha Hb.
  exists (format_monetary_num (t_budget non) cur), (format_monetary_num (t_budget opt) cur), (format_monetary_num (t_budget opt - t_budget non) cur),
    (fixed 2 a), (fixed 2 b), (compact_number (b - a) 2 cur),
    (compact_number (t_incremental non) 0 ""), (compact_number (t_incremental opt) 0 ""), (compact_number (t_incremental opt - t_incremental non) 0 ""),
    (if Qlt_bool 0 (t_budget opt - t_budget non) then "+" else ""),
    (if Qlt_bool 0 (t_incremental opt - t_incremental non) then "+" else "").
  split; [unfold scenario_stats; rewrite Ha, Hb; reflexivity|].
  do 3 (split; [apply money_lemma|]). do 2 (split; [apply fixed_plain|]). do 4 (split; [apply compact_lemma|]).
  split; apply plus_sign.
Qed.
Print Assumptions C100_scenario_kpi.

(** The sentence about the spend constraint: with one constraint for all channels it names the whole
    percentages below the two constraints; with constraints by channel it names none. *)
Theorem C100_constraint_sentence : forall n fb hist s e,
  (forall lo hi b, get_spend_bounds n (Scalar lo) (Scalar hi) = Ok b ->
    exists L U, scenario_insight fb hist b s e = Ok (mkInsight (if fb then "fixed" else "Flexible") (Some (L, U)) hist s e) /\
      (inject_Z L <= 100 * lo /\ 100 * lo < inject_Z L + 1)%Q /\ (inject_Z U <= 100 * hi /\ 100 * hi < inject_Z U + 1)%Q) /\
  (forall lo hi b, get_spend_bounds n lo hi = Ok b -> (1 < List.length (const_array lo) \/ 1 < List.length (const_array hi))%nat ->
    scenario_insight fb hist b s e = Ok (mkInsight (if fb then "fixed" else "Flexible") None hist s e)).
Proof.
  intros n fb hist s e. split; [intros lo hi b H; exact (uniform_lemma n lo hi fb hist s e b H)|intros lo hi b H K; exact (varied_lemma n lo hi fb hist s e b H K)].
Qed.
Print Assumptions C100_constraint_sentence.

(** The allocation table: every channel once, with its share before and after the optimization as whole
    percentages within half a point, the channels with the largest optimized share first. *)
Theorem C100_allocation_table : forall non opt, NoDup (map fst non) -> NoDup (map fst opt) -> Permutation (map fst non) (map fst opt) ->
  (forall c a, In (c, a) non -> 0 <= a)%Q -> (forall c b, In (c, b) opt -> 0 <= b)%Q ->
  exists rows, Permutation (map fst rows) (map fst non) /\
    (forall c a b, In (c, (a, b)) rows <-> In (c, a) non /\ In (c, b) opt) /\
    StronglySorted (fun r r' : string * (Q * Q) => snd (snd r') <= snd (snd r))%Q rows /\
    Forall2 (fun r o => fst o = fst r /\ whole (fst (snd r)) (fst (snd o)) /\ whole (snd (snd r)) (snd (snd o))) rows (allocation_table non opt).
Proof. exact table_rows. Qed.
Print Assumptions C100_allocation_table.

(** * Concrete cases *)
Example C100_example_numbers :
  map (fun n => compact_number n 1 "$") [0; 12 # 10; 1234567; -(25000); 1234567890123456]%Q
    = ["$0.0"; "$1.2"; "$1.2M"; "-$25.0k"; "$1234.6T"] /\
  map (fun n => format_monetary_num n "$") [1; 12; 999; 1499; 15000; -(1234)]%Q = ["$1.0"; "$12"; "$999"; "$1.5k"; "$15k"; "-$1.2k"] /\
  map format_percent [1 # 2; 1 # 100; 55 # 10000; 1 # 10000000]%Q = ["50%"; "1%"; "0.6%"; "1e-05%"] /\
  format_number_text (402 # 1000) 15000000 = "40.2% (15M)" /\
  format_col_names ["time_to_market"; "b2b sales"] = ["Time To Market"; "B2b Sales"].
Proof. vm_compute. repeat split. Qed.

Definition ex_non := mkTotals 100000 (12 # 10) (Some (4 # 3)%Q) 120000.
Definition ex_opt := mkTotals 130000 (15 # 10) (Some (3 # 2)%Q) 195000.
Example C100_example_report :
  scenario_stats true "$" ex_non ex_opt = Ok
    [mkStat "Non-optimized budget" "$100k" None; mkStat "Optimized budget" "$130k" (Some "+$30k");
     mkStat "Non-optimized ROI" "1.2" None; mkStat "Optimized ROI" "1.5" (Some "+0.3");
     mkStat "Non-optimized incremental revenue" "$120k" None; mkStat "Optimized incremental revenue" "$195k" (Some "+$75k")] /\
  (exists b, get_spend_bounds 2 (Scalar (3 # 10)) (Scalar (1 # 2)) = Ok b /\
     scenario_insight true true b "2024-01-01" "2024-02-01" = Ok (mkInsight "fixed" (Some (30, 50)%Z) true "2024-01-01" "2024-02-01")) /\
  allocation_table [("tv", 6 # 10); ("radio", 4 # 10)]%Q [("tv", 45 # 100); ("radio", 55 # 100)]%Q
    = [("radio", ("40%", "55%")); ("tv", ("60%", "45%"))].
Proof. split; [vm_compute; reflexivity|]. split; [eexists; split; vm_compute; reflexivity|vm_compute; reflexivity]. Qed.

(** * Refuted *)

(** The digits in front of the unit are not always below a thousand: 999999 is written "1000k". *)
Theorem C100_below_thousand_refuted : ~ (forall n p cur k v, (0 <= n)%Q -> (n < 1000000000000)%Q ->
  reads cur p false k (compact_number n p cur) v -> (v < 1000 * thousand k)%Q).
Proof.
  intros H. specialize (H 999999%Q 0%nat "" 1%nat 1000000%Q ltac:(apply Qle_bool_iff; reflexivity) ltac:(reflexivity)).
  assert (R : reads "" 0 false 1 (compact_number 999999 0 "") 1000000).
  { exists "1000", "k", 1000%Q. split; [vm_compute; reflexivity|]. split; [right; left; split; reflexivity|]. split; [|vm_compute; reflexivity].
    exists 1000%N. split; vm_compute; reflexivity. }
  specialize (H R). vm_compute in H. discriminate.
Qed.
Print Assumptions C100_below_thousand_refuted.

(** A minus sign does not mean that something negative is shown: a small loss is written "-$0". *)
Theorem C100_negative_zero_refuted : ~ (forall n p cur k v, reads cur p true k (compact_number n p cur) v -> (v < 0)%Q).
Proof.
  intros H. specialize (H (-(4 # 10))%Q 0%nat "$" 0%nat 0%Q).
  assert (R : reads "$" 0 true 0 (compact_number (-(4 # 10)) 0 "$") 0).
  { exists "0", "", 0%Q. split; [vm_compute; reflexivity|]. split; [left; split; reflexivity|]. split; [|vm_compute; reflexivity].
    exists 0%N. split; vm_compute; reflexivity. }
  specialize (H R). vm_compute in H. discriminate.
Qed.
Print Assumptions C100_negative_zero_refuted.

(** Amounts below 1 are not within 5%: 5 cents are written "$0". *)
Theorem C100_cents_refuted : ~ (forall n cur p neg k v, (0 < n)%Q -> reads cur p neg k (format_monetary_num n cur) v -> (Qabs (v - n) <= Qabs n / 20)%Q).
Proof.
  intros H. specialize (H (1 # 20)%Q "$" 0%nat false 0%nat 0%Q ltac:(reflexivity)).
  assert (R : reads "$" 0 false 0 (format_monetary_num (1 # 20) "$") 0).
  { exists "0", "", 0%Q. split; [vm_compute; reflexivity|]. split; [left; split; reflexivity|]. split; [|vm_compute; reflexivity].
    exists 0%N. split; vm_compute; reflexivity. }
  specialize (H R). apply Qle_bool_iff in H. vm_compute in H. discriminate.
Qed.
Print Assumptions C100_cents_refuted.

(** Percentages between 0 and 1 are not written with one decimal place, as documented: 0.055% is
    written "0.06%". *)
Theorem C100_one_decimal_refuted : ~ (forall x, (0 < x)%Q -> (x < 1 # 100)%Q -> exists i b, format_percent x = (numeral i +++ "." +++ b +++ "%") /\ String.length b = 1%nat).
Proof.
  intros H. destruct (H (55 # 100000)%Q ltac:(reflexivity) ltac:(reflexivity)) as [i [b [E L]]].
  assert (V : format_percent (55 # 100000) = "0.06%") by (vm_compute; reflexivity). rewrite V in E.
  change "0.06%" with (("0.0" +++ "6") +++ "%") in E. rewrite <- !append_assoc in E. apply append_last in E.
  destruct b as [|c [|c2 b]]; try discriminate L.
  assert (N : "0." = numeral i).
  { pose proof (f_equal String.length E) as Q1. rewrite !append_length in Q1. cbn in Q1.
    destruct (numeral i) as [|x [|y [|z t]]]; cbn in Q1; try (exfalso; lia). cbn in E. injection E as <- <- _ _. reflexivity. }
  exact (not_numeral "0." i eq_refl N).
Qed.
Print Assumptions C100_one_decimal_refuted.

(** Negative percentages are not whole numbers: -55% is written "-6e+01%". *)
Theorem C100_negative_percent_refuted : ~ (forall x, (x <= -(1 # 100))%Q -> exists i, format_percent x = ("-" +++ numeral i +++ "%")).
Proof.
  intros H. destruct (H (-(55 # 100))%Q ltac:(apply Qle_bool_iff; reflexivity)) as [i E].
  assert (V : format_percent (-(55 # 100)) = "-6e+01%") by (vm_compute; reflexivity). rewrite V in E. cbn [String.append] in E. injection E as E.
  change "6e+01%" with ("6e+01" +++ "%") in E. apply append_last in E. exact (not_numeral "6e+01" i eq_refl E).
Qed.
Print Assumptions C100_negative_percent_refuted.

(** The change shown under the optimized ROI is not always the difference of the two ROIs shown. *)
Theorem C100_roi_change_refuted : exists non opt b1 b2 b3 i1 i2 i3, scenario_stats true "$" non opt = Ok
  [mkStat "Non-optimized budget" b1 None; mkStat "Optimized budget" b2 b3;
   mkStat "Non-optimized ROI" "1.0" None; mkStat "Optimized ROI" "1.1" (Some "0.0");
   mkStat "Non-optimized incremental revenue" i1 None; mkStat "Optimized incremental revenue" i2 i3].
Proof. exists (mkTotals 1000 (104 # 100) None 1040), (mkTotals 1000 (106 # 100) None 1060). do 6 eexists. vm_compute. reflexivity. Qed.
Print Assumptions C100_roi_change_refuted.

(** An increase of the cost per incremental unit carries no plus sign, unlike the other changes, and a
    negative cost has its sign behind the currency. *)
Theorem C100_cpik_sign_refuted : exists non opt b1 b2 b3 i1 i2 i3, scenario_stats false "$" non opt = Ok
  [mkStat "Non-optimized budget" b1 None; mkStat "Optimized budget" b2 b3;
   mkStat "Non-optimized CPIK" "$-2.00" None; mkStat "Optimized CPIK" "$1.00" (Some "$3.00");
   mkStat "Non-optimized incremental KPI" i1 None; mkStat "Optimized incremental KPI" i2 i3].
Proof. exists (mkTotals 1000 1 (Some (-(2))%Q) (-(500))), (mkTotals 1000 1 (Some 1%Q) 1000). do 6 eexists. vm_compute. reflexivity. Qed.
Print Assumptions C100_cpik_sign_refuted.

(** No report at all when a cost per incremental unit is not finite, as after an incremental KPI of 0. *)
Theorem C100_infinite_cost_refuted : forall cur non opt, t_cpik non = None \/ t_cpik opt = None -> scenario_stats false cur non opt = Err ValueError.
Proof. intros cur non opt [H|H]; unfold scenario_stats; rewrite H; [reflexivity|]. destruct (t_cpik non); reflexivity. Qed.
Print Assumptions C100_infinite_cost_refuted.

(** Spend may lie outside the range the sentence names: a constraint of 29.5% is announced as 29%. *)
Theorem C100_range_refuted : ~ (forall n lo hi b L U, get_spend_bounds n (Scalar lo) (Scalar hi) = Ok b ->
  scenario_insight true true b "" "" = Ok (mkInsight "fixed" (Some (L, U)) true "" "") ->
  forall x, In x (fst b) -> (1 - inject_Z L / 100 <= x)%Q).
Proof.
  intros H. specialize (H 2%nat (295 # 1000)%Q (295 # 1000)%Q _ 29%Z 29%Z eq_refl eq_refl _ (or_introl eq_refl)). apply Qle_bool_iff in H. vm_compute in H. discriminate.
Qed.
Print Assumptions C100_range_refuted.

(** The whole percentages of the table need not add up to 100. *)
Theorem C100_shares_total_refuted : exists non opt, (fold_right (fun r t => snd r + t) 0 opt == 1)%Q /\
  map (fun r => snd (snd r)) (allocation_table non opt) = ["33%"; "33%"; "33%"].
Proof. exists [("a", 1 # 3); ("b", 1 # 3); ("c", 1 # 3)]%Q, [("a", 1 # 3); ("b", 1 # 3); ("c", 1 # 3)]%Q. split; vm_compute; reflexivity. Qed.
Print Assumptions C100_shares_total_refuted.

(** A letter after an apostrophe counts as the start of a word. *)
Theorem C100_apostrophe_refuted : format_col_names ["driver's_age"] = ["Driver'S Age"].
Proof. vm_compute. reflexivity. Qed.
Print Assumptions C100_apostrophe_refuted.
