(** Property C96, continued: changing the settings of a [MediaSummary] before it is asked. *)
From Coq Require Import Reals ZArith Lia Lra String List Bool Arith.
From Verif Require Import Lib_Sum M_Base M_Transformers M_Aggregate M_Analyzer M_Stats M_Summary M_MediaSummary S_MediaSummary
  P_MediaCalls P_MediaTables P_MediaUpdate C_MediaSummary.
Import ListNotations.
Local Open Scope R_scope.
Local Open Scope string_scope.
Local Open Scope list_scope.

(** An object that was never asked for a table answers by the settings of its last update, whatever else is done to it
    and to other objects: the given level (unless it is 0 or not given), periods, kind of marginal ROI and baseline
    values.  Without a given level the one it was created with stays. *)
Theorem C96_updated : forall before f g between level times by_reach baseline later, let o := creations before in
  (x_kpi_is_revenue (f_x f) = true -> d_revenue_per_kpi (x_data (f_x f)) <> None) ->
  Forall (fun a => ~ asks o a) between -> Forall (fun a => ~ asks o a /\ ~ updates o a) later ->
  exists v, (forall x, level = Some x -> x <> 0 -> v = x) /\
    ((forall x, level = Some x -> x = 0) -> Forall (fun a => ~ updates o a) between -> v = g_level g) /\
    forall include_non_paid a,
      answer ((before ++ ANew f g :: between) ++ AUpdate o level times by_reach baseline :: later) (AGet include_non_paid o a) =
      RSummary (summary_metrics f no_new (if include_non_paid then true else by_reach) (1 / 100) None (option_map TDates times) true
        (aggregated a) None (g_use_kpi g) v 100 include_non_paid (if include_non_paid then baseline else None)).
Proof.
  intros l1 f g l2 level times br bl l3 o Un N2 N3. destruct (updated_lemma l1 f g l2 level times br bl l3 N2 N3) as (v & V1 & V2 & A).
  exists v. split; [exact V1|]. split; [exact V2|]. intros np a. unfold o. rewrite A. f_equal. unfold compute, compute_all, compute_paid.
  destruct np; cbn [ms_model ms_settings g_by_reach g_use_kpi g_times g_level g_baseline]; apply summary_units; apply resolve_twice; exact Un.
Qed.
Print Assumptions C96_updated.

(** A history of this kind: a level of 4/5 and one week, given before the first table. *)
Example C96_updated_example :
  let l := [ANew ex_now (ex_settings None); AUpdate 0 (Some (4 / 5)) (Some ["2024-01-08"]) true None; ANew ex_now (ex_settings None)] in
  media_request ex_now (ex_settings (Some ["2024-01-08"])) false /\
  answer l (AGet false 0 (Keyword false)) =
    RSummary (summary_metrics ex_now no_new true (1 / 100) None (Some (TDates ["2024-01-08"])) true false None
                (g_use_kpi (ex_settings None)) (4 / 5) 100 false None).
Proof.
  cbn zeta. split; [exact (proj2 (ex_request_now false))|].
  destruct (C96_updated [] ex_now (ex_settings None) [] (Some (4 / 5)) (Some ["2024-01-08"]) true None [ANew ex_now (ex_settings None)])
    as (v & V1 & _ & A).
  - intros H. cbn in H. discriminate.
  - constructor.
  - constructor; [split; intros []|constructor].
  - assert (Ev : v = 4 / 5) by (apply V1; [reflexivity|lra]). specialize (A false (Keyword false)). rewrite Ev in A. exact A.
Qed.
