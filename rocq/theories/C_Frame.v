(** Property C79: loading from data frames. *)
From Coq Require Import Reals ZArith Lia String List Bool Permutation.
From Verif Require Import M_Base M_Time Lib_Sort M_Builder S_Builder C_Builder M_Frame S_Frame P_Frame3 P_Frame4 P_Frame5.
Import ListNotations.
Local Open Scope string_scope.
Local Open Scope R_scope.
Local Open Scope nat_scope.
Local Open Scope list_scope.

(** *** Every cell of every array is a cell of the frame, in the right place *)
Theorem C79_cells : forall G T geq teq gord tle gle parse (national : G) valid (lo : loader G T) out c y i j k,
  strict_order tle -> named_columns lo ->
  load geq teq gord tle gle parse national valid lo = Ok out -> In (c, y) out -> c <> Population ->
  i < length (d_geos y) -> j < n_times_of c y -> k < n_chans_of c y ->
  exists r col ch v, In r (rows lo) /\ In (col, ch) (columns_of lo c) /\ position national lo c y i j k r ch /\
    cell lo c r col = Some v /\ d_val y i j k = Some v.
Proof. intros. eapply cells_lemma; eassumption. Qed.
Print Assumptions C79_cells.

(** *** No value of a column that is read is lost *)
Theorem C79_complete : forall G T geq teq gord tle gle parse (national : G) valid (lo : loader G T) out c r col ch v,
  strict_order tle -> named_columns lo ->
  load geq teq gord tle gle parse national valid lo = Ok out -> c <> Population ->
  In r (rows lo) -> In (col, ch) (columns_of lo c) -> cell lo c r col = Some v ->
  exists y i j k, In (c, y) out /\ i < length (d_geos y) /\ j < n_times_of c y /\ k < n_chans_of c y /\
    position national lo c y i j k r ch /\ d_val y i j k = Some v.
Proof. intros. eapply complete_lemma; eassumption. Qed.
Print Assumptions C79_complete.

(** *** Channels keep the order of the columns; a channel is there iff its column has a value *)
Theorem C79_channels : forall G T geq teq gord tle gle parse (national : G) valid (lo : loader G T) out c y,
  strict_order tle -> named_columns lo ->
  load geq teq gord tle gle parse national valid lo = Ok out -> In (c, y) out -> c <> Population -> ~ without_channels c ->
  exists keep : string -> bool, d_chans y = filter keep (map snd (columns_of lo c)) /\
    forall ch, keep ch = true <-> exists r col, In r (rows lo) /\ In (col, ch) (columns_of lo c) /\ cell lo c r col <> None.
Proof. intros. eapply chans_lemma; eassumption. Qed.
Print Assumptions C79_channels.

(** *** Each geo and period has one row, and all geos have the same periods *)
Theorem C79_balanced : forall G T geq teq gord tle gle parse (national : G) valid (lo : loader G T) out,
  strict_order tle -> named_columns lo ->
  load geq teq gord tle gle parse national valid lo = Ok out ->
  NoDup (map (fun r => (geo_of_row national lo r, time_of_row lo r)) (rows lo)) /\
  forall r1 r2, In r1 (rows lo) -> In r2 (rows lo) ->
    exists r, In r (rows lo) /\ geo_of_row national lo r = geo_of_row national lo r1 /\ time_of_row lo r = time_of_row lo r2.
Proof. intros. eapply balanced_lemma; eassumption. Qed.
Print Assumptions C79_balanced.

(** *** The population of a geo is the mean of its rows; one in a national model *)
Theorem C79_population : forall G T geq teq gord tle gle parse (national : G) valid (lo : loader G T) out y i,
  strict_order tle -> total_order gle -> named_columns lo ->
  load geq teq gord tle gle parse national valid lo = Ok out -> In (Population, y) out -> i < length (d_geos y) ->
  (length (d_geos y) = 1 -> d_val y i 0 0 = Some 1%R) /\
  (length (d_geos y) <> 1 ->
   exists col g v, In (col, "") (columns_of lo Population) /\ nth_error (d_geos y) i = Some g /\ d_val y i 0 0 = Some v /\
     average (map (fun r => r_num r col) (filter (fun r => if geq (geo_of_row national lo r) g then true else false) (rows lo))) v).
Proof. intros. eapply population_lemma; eassumption. Qed.
Print Assumptions C79_population.

(** *** The order of the rows does not matter *)
Theorem C79_row_order : forall G T geq teq gord tle gle parse (national : G) valid (lo : loader G T) rs,
  strict_order tle -> strict_order gord -> Permutation (rows lo) rs ->
  load geq teq gord tle gle parse national valid
    (mkLoader (mkFrame (f_columns (lo_frame lo)) rs) (lo_coord lo) (lo_revenue lo) (lo_media lo) (lo_media_spend lo)
              (lo_reach lo) (lo_frequency lo) (lo_rf_spend lo) (lo_organic_reach lo) (lo_organic_frequency lo))
  = load geq teq gord tle gle parse national valid lo.
Proof. intros. eapply row_order_lemma; eassumption. Qed.
Print Assumptions C79_row_order.

(** *** The documented layout is accepted *)
Theorem C79_documented : forall G T geq teq gord tle gle parse (national : G) (lo : loader G T) gs pre ts,
  strict_order tle ->
  coord_init (lo_coord lo) = Ok tt -> loader_init lo = Ok tt -> proper_columns lo ->
  documented national tle parse lo gs pre ts ->
  (lo_revenue lo = true -> co_rpk (lo_coord lo) = None \/ pre = []) ->
  exists out, forall valid, load geq teq gord tle gle parse national valid lo = if valid out then Ok out else Err ValueError.
Proof. intros. eapply documented_lemma; eassumption. Qed.
Print Assumptions C79_documented.

(** *** Example: two geos, three weeks and one more week of media *)
Definition f_day : nat -> option date := ex_day.
Definition f_num (g t : nat) (col : string) : option R :=
  if String.eqb col "kpi" then if 8 <=? t then Some (INR (100 * g + t)) else None
  else if String.eqb col "spend" then if 8 <=? t then Some (INR (g + t)) else None
  else if String.eqb col "temp" then if 8 <=? t then Some (INR t) else None
  else if String.eqb col "people" then Some (INR (1000 * g))
  else if String.eqb col "clicks" then Some (INR (10 * g + t))
  else None.
Definition f_row (num : nat -> nat -> string -> option R) (gt : nat * nat) : row nat nat :=
  mkRow (fun _ => fst gt) (fun _ => snd gt) (num (fst gt) (snd gt)).
Definition f_coord : coord_to_columns :=
  mkCoord "week" "region" "kpi" (Some ["temp"]) None "people" (Some ["clicks"]) (Some ["spend"]) None None None None None None None.
Definition f_loader : loader nat nat :=
  mkLoader (mkFrame ["week"; "region"; "kpi"; "temp"; "people"; "clicks"; "spend"] (map (f_row f_num) [(2, 22); (2, 1); (1, 15); (1, 1); (2, 8); (1, 22); (1, 8); (2, 15)]))
    f_coord false (Some [("clicks", "search")]) (Some [("spend", "search")]) None None None None None.
Definition f_load := load Nat.eq_dec Nat.eq_dec Nat.leb Nat.leb Nat.leb f_day 0 (fun _ => true).

Lemma f_proper : proper_columns f_loader.
Proof.
  split.
  - cbv. repeat split; discriminate.
  - cbn. split; [tauto|discriminate].
  - intros c col ch I. destruct c; cbn in I; repeat (destruct I as [I|I]); try contradiction; injection I as <- <-; cbn; intuition discriminate.
  - intros c. destruct c; cbn; split; repeat constructor; cbn; intuition discriminate.
  - cbn. split; constructor.
  - cbn. repeat split; discriminate.
Qed.
Lemma f_documented : documented 0 Nat.leb f_day f_loader [1; 2] [1] [8; 15; 22].
Proof.
  split.
  - apply NoDup_Permutation.
    + cbv. repeat constructor; cbn; intuition discriminate.
    + cbv. repeat constructor; cbn; intuition discriminate.
    + intros p. cbv. tauto.
  - split; [repeat constructor; cbn; intuition discriminate|discriminate].
  - split; [repeat constructor; cbn; intuition discriminate|]. repeat constructor.
  - intros t _. discriminate.
  - split; eexists; (split; [vm_compute; reflexivity|vm_compute; reflexivity]).
  - intros c col ch r Ic Ir.
    destruct c; cbn in Ic; repeat (destruct Ic as [Ic|Ic]); try contradiction; try injection Ic as <- <-; cbn [dim_of];
      try exact Logic.I; cbn in Ir; repeat (destruct Ir as [Ir|Ir]); try contradiction; subst r; cbn; intuition discriminate.
  - intros _. exists "people". split; [left; reflexivity|]. intros g [<-|[<-|[]]].
    + exists (f_row f_num (1, 1)). cbn. intuition discriminate.
    + exists (f_row f_num (2, 1)). cbn. intuition discriminate.
Qed.
Example C79_example : exists out, f_load f_loader = Ok out /\
  map (fun cy => (fst cy, d_geos (snd cy), d_times (snd cy), d_chans (snd cy))) out
  = [(Kpi, [1; 2], [8; 15; 22], []); (Population, [1; 2], [], []); (Controls, [1; 2], [8; 15; 22], ["temp"]);
     (Media, [1; 2], [1; 8; 15; 22], ["search"]); (MediaSpend, [1; 2], [8; 15; 22], ["search"])] /\
  map (fun cy => d_val (snd cy) 1 2 0) (filter (fun cy => match fst cy with Population => false | _ => true end) out)
  = [Some (INR 222); Some (INR 22); Some (INR 35); Some (INR 24)].
Proof.
  destruct (f_load f_loader) as [out|e] eqn:E.
  2:{ exfalso. destruct (C79_documented nat nat Nat.eq_dec Nat.eq_dec Nat.leb Nat.leb Nat.leb f_day 0 f_loader [1; 2] [1] [8; 15; 22] leb_order
        eq_refl eq_refl f_proper f_documented) as (out & H); [discriminate|]. unfold f_load in E. rewrite H in E. discriminate. }
  exists out. split; [reflexivity|].
  set (view := fun r : result (list (component * da nat nat string R)) => match r with Ok out =>
       (map (fun cy => (fst cy, d_geos (snd cy), d_times (snd cy), d_chans (snd cy))) out,
        map (fun cy => d_val (snd cy) 1 2 0) (filter (fun cy => match fst cy with Population => false | _ => true end) out)) | Err _ => ([], []) end).
  assert (V : view (f_load f_loader) =
    ([(Kpi, [1; 2], [8; 15; 22], []); (Population, [1; 2], [], []); (Controls, [1; 2], [8; 15; 22], ["temp"]);
      (Media, [1; 2], [1; 8; 15; 22], ["search"]); (MediaSpend, [1; 2], [8; 15; 22], ["search"])],
     [Some (INR 222); Some (INR 22); Some (INR 35); Some (INR 24)])) by (lazy -[INR IZR Rplus Rdiv]; reflexivity).
  rewrite E in V. cbn [view] in V. injection V as V1 V2. split; [exact V1|exact V2].
Qed.

(** *** Refuted: a column without any value is reported.  It is dropped silently. *)
Theorem C79_empty_column_dropped_refuted : exists lo out y,
  columns_of lo Controls = [("temp", "temp"); ("rain", "rain")] /\ f_load lo = Ok out /\ In (Controls, y) out /\ d_chans y = ["temp"].
Proof.
  exists (mkLoader (mkFrame ["week"; "region"; "kpi"; "temp"; "rain"; "people"; "clicks"; "spend"] (map (f_row f_num) [(1, 8); (1, 15); (2, 8); (2, 15)]))
    (mkCoord "week" "region" "kpi" (Some ["temp"; "rain"]) None "people" (Some ["clicks"]) (Some ["spend"]) None None None None None None None)
    false (Some [("clicks", "search")]) (Some [("spend", "search")]) None None None None None).
  eexists. eexists. split; [reflexivity|]. split; [lazy -[INR IZR Rplus Rdiv]; reflexivity|]. split; [right; right; left; reflexivity|reflexivity].
Qed.
Print Assumptions C79_empty_column_dropped_refuted.

(** *** Refuted: the documented layout is always accepted.  With a revenue KPI, a column of revenue
    per KPI and more periods of media, it is refused. *)
Theorem C79_revenue_lag_refuted : exists (lo : loader nat nat) gs pre ts,
  coord_init (lo_coord lo) = Ok tt /\ loader_init lo = Ok tt /\ proper_columns lo /\ documented 0 Nat.leb f_day lo gs pre ts /\
  lo_revenue lo = true /\
  forall valid, load Nat.eq_dec Nat.eq_dec Nat.leb Nat.leb Nat.leb f_day 0 valid lo = Err ValueError.
Proof.
  exists (mkLoader (mkFrame ["week"; "region"; "kpi"; "temp"; "people"; "clicks"; "spend"] (map (f_row f_num) [(2, 22); (2, 1); (1, 15); (1, 1); (2, 8); (1, 22); (1, 8); (2, 15)]))
    (mkCoord "week" "region" "kpi" None (Some "temp") "people" (Some ["clicks"]) (Some ["spend"]) None None None None None None None)
    true (Some [("clicks", "search")]) (Some [("spend", "search")]) None None None None None).
  exists [1; 2], [1], [8; 15; 22]. split; [reflexivity|]. split; [reflexivity|]. split; [|split].
  - split.
    + cbv. repeat split; discriminate.
    + cbn. split; [tauto|discriminate].
    + intros c col ch I. destruct c; cbn in I; repeat (destruct I as [I|I]); try contradiction; injection I as <- <-; cbn; intuition discriminate.
    + intros c. destruct c; cbn; split; repeat constructor; cbn; intuition discriminate.
    + cbn. split; constructor.
    + cbn. repeat split; discriminate.
  - destruct f_documented as [D1 D2 D3 D4 D5 D6 D7]. split; auto.
    intros c col ch r Ic Ir.
    destruct c; cbn in Ic; repeat (destruct Ic as [Ic|Ic]); try contradiction; try injection Ic as <- <-; cbn [dim_of];
      try exact Logic.I; cbn in Ir; repeat (destruct Ir as [Ir|Ir]); try contradiction; subst r; cbn; intuition discriminate.
  - split; [reflexivity|]. intros valid. lazy -[INR IZR Rplus Rdiv]. reflexivity.
Qed.
Print Assumptions C79_revenue_lag_refuted.

(** *** Refuted: media columns that are given are used.  Without spend columns they are ignored, if
    there are reach and frequency. *)
Theorem C79_media_ignored_refuted : exists lo out,
  co_media (lo_coord lo) = Some ["clicks"] /\ lo_media lo = Some [("clicks", "search")] /\
  f_load lo = Ok out /\ ~ In Media (map fst out).
Proof.
  exists (mkLoader (mkFrame ["week"; "region"; "kpi"; "people"; "clicks"; "spend"; "r"; "f"]
      (map (f_row (fun g t col => if String.eqb col "r" || String.eqb col "f" then Some (INR g) else f_num g t col)) [(1, 8); (1, 15); (2, 8); (2, 15)]))
    (mkCoord "week" "region" "kpi" None None "people" (Some ["clicks"]) None (Some ["r"]) (Some ["f"]) (Some ["spend"]) None None None None)
    false (Some [("clicks", "search")]) None (Some [("r", "tv")]) (Some [("f", "tv")]) (Some [("spend", "tv")]) None None).
  eexists. split; [reflexivity|]. split; [reflexivity|]. split; [lazy -[INR IZR Rplus Rdiv]; reflexivity|].
  cbn. intuition discriminate.
Qed.
Print Assumptions C79_media_ignored_refuted.

(** *** Refuted: rows of different geos are never mixed.  A KPI with values in one geo only and media
    with values in another one only are loaded as a national model. *)
Theorem C79_geos_mixed_refuted : exists lo out y z,
  f_load lo = Ok out /\ In (Kpi, y) out /\ In (Media, z) out /\ d_geos y = d_geos z /\
  d_val y 0 0 0 = Some (INR 108) /\ d_val z 0 0 0 = Some (INR 28) /\
  (forall r, In r (rows lo) -> cell lo Kpi r "kpi" <> None -> geo_of_row 0 lo r = 1) /\
  (forall r, In r (rows lo) -> cell lo Media r "clicks" <> None -> geo_of_row 0 lo r = 2).
Proof.
  exists (mkLoader (mkFrame ["week"; "region"; "kpi"; "clicks"; "spend"]
      (map (f_row (fun g t col => if Bool.eqb (Nat.eqb g 1) (String.eqb col "kpi") then f_num g t col else None)) [(1, 8); (1, 15); (2, 8); (2, 15)]))
    (mkCoord "week" "region" "kpi" None None "people" (Some ["clicks"]) (Some ["spend"]) None None None None None None None)
    false (Some [("clicks", "search")]) (Some [("spend", "search")]) None None None None None).
  eexists. eexists. eexists. split; [lazy -[INR IZR Rplus Rdiv]; reflexivity|].
  split; [left; reflexivity|]. split; [right; right; left; reflexivity|]. split; [reflexivity|]. split; [reflexivity|]. split; [reflexivity|].
  split; intros r I N; cbn in I; repeat (destruct I as [I|I]); try contradiction; subst r; cbn in *; congruence.
Qed.
Print Assumptions C79_geos_mixed_refuted.
