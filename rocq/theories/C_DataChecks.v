(** C86: outliers, series that do not vary, and costs per media unit are reported as documented. *)
From Coq Require Import Reals ZArith List Bool Arith Lia Lra Permutation Sorted.
From Verif Require Import Lib_Sum M_Base M_Transformers M_Stats S_Stats M_DataChecks S_DataChecks P_DataChecks.
From Verif Require M_Eda.
Import ListNotations.
Local Open Scope R_scope.

(** The table of outliers lists every outlier once, the largest in absolute value first. *)
Theorem C86_outliers : forall x,
  NoDup (calculate_outliers x) /\ StronglySorted larger (calculate_outliers x) /\
  forall a, In a (calculate_outliers x) <-> outlier_cell x a.
Proof. exact outliers_lemma. Qed.
Print Assumptions C86_outliers.

(** The check asks for attention exactly when a series hardly varies or holds an outlier; otherwise
    its only finding is that there is nothing to report.  A national model is checked on its
    national data, another on its geos, and the check of the geos refuses a national model. *)
Theorem C86_std : forall national geo nat_data geo_th nat_th, well_formed geo -> well_formed nat_data ->
  exists found, check_std national geo nat_data geo_th nat_th = Ok found /\
  (let d := if national then nat_data else geo in
   let th := if national then nat_th else geo_th in
   (In (M_Eda.Attention, Variability) found <-> exists l, checked d l /\ hardly_varies th l) /\
   (In (M_Eda.Attention, Outlier) found <-> exists l r, checked d l /\ In r l /\ outlying l r) /\
   (found = [(M_Eda.Info, NoCause)] \/
    (found <> [] /\ forall f, In f found -> f = (M_Eda.Attention, Variability) \/ f = (M_Eda.Attention, Outlier)))) /\
  (check_geo_std national geo geo_th = if national then Err ValueError else Ok found).
Proof.
  intros national geo nat_data geo_th nat_th Wg Wn.
  exists (std_checks (if national then nat_data else geo) (if national then nat_th else geo_th)).
  destruct national.
  - split; [reflexivity|]. split; [exact (std_lemma nat_data nat_th Wn)|reflexivity].
  - split; [reflexivity|]. split; [exact (std_lemma geo geo_th Wg)|reflexivity].
Qed.
Print Assumptions C86_std.

(** At most half of the values of a series, a quarter on each side, are outliers. *)
Theorem C86_number : forall x g v periods, NoDup periods ->
  (forall t, In t periods -> (t < cu_times x)%nat /\
     exists r, cu_at x g t v = Some r /\ outlying (series x g v) r) ->
  (length periods <= 2 * (length (series x g v) / 4))%nat.
Proof. exact number_lemma. Qed.
Print Assumptions C86_number.

(** Among fewer than four values none is an outlier, whatever they are. *)
Theorem C86_too_few : forall l x, (length l < 4)%nat -> In x l -> ~ outlying l x.
Proof. exact too_few_lemma. Qed.
Print Assumptions C86_too_few.

(** A series that takes one value in more than three quarters of its periods is reported as not
    varying, for every positive threshold, and all its other values are reported as outliers. *)
Theorem C86_mostly_constant : forall x th g v c, (g < cu_geos x)%nat -> (v < cu_vars x)%nat ->
  (2 <= length (series x g v))%nat -> 0 < th ->
  (3 * length (series x g v) < 4 * count_occ Req_EM_T (series x g v) c)%nat ->
  In (M_Eda.Attention, Variability) (check_std_of x th) /\
  forall t r, In (mkCell g t v r) (calculate_outliers x) <->
    (t < cu_times x)%nat /\ cu_at x g t v = Some r /\ r <> c.
Proof.
  intros x th g v c Hg Hv Hn Ht Hc. split.
  - apply (proj1 (check_of_spec x th)). exists (series x g v). split; [exists g, v; auto|].
    exact (mostly_hardly (series x g v) c th Hc Hn Ht).
  - intros t r. destruct (outliers_lemma x) as (_ & _ & O). rewrite O. unfold outlier_cell.
    cbn [ce_geo ce_time ce_var ce_value]. rewrite (mostly_outlying (series x g v) c Hc r). tauto.
Qed.
Print Assumptions C86_mostly_constant.

(** The outliers do not depend on the units, or the origin, in which each variable is measured. *)
Theorem C86_units : forall a b x y, (forall v, 0 < a v) -> in_units a b x y ->
  forall g t v, (exists r, In (mkCell g t v r) (calculate_outliers y)) <->
                (exists r, In (mkCell g t v r) (calculate_outliers x)).
Proof. exact units_lemma. Qed.
Print Assumptions C86_units.

(** The check of the costs lists exactly the cells with units without cost or cost without units,
    and exactly the cells whose unit cost is an outlier, with their cost and units; it asks for
    attention exactly when a table has a row. *)
Theorem C86_costs : forall c, let o := check_cost_per_media_unit c in
  (NoDup (cp_inconsistent o) /\ forall p, In p (cp_inconsistent o) <-> inconsistent c p) /\
  (NoDup (map fst (cp_outliers o)) /\ StronglySorted larger (map fst (cp_outliers o)) /\
   (forall a, In a (map fst (cp_outliers o)) <->
     (ce_geo a < co_geos c)%nat /\ (ce_time a < co_times c)%nat /\ (ce_var a < co_channels c)%nat /\
     unit_cost c (ce_geo a) (ce_time a) (ce_var a) (ce_value a) /\
     outlying (series (cp_cost_per_unit o) (ce_geo a) (ce_var a)) (ce_value a)) /\
   (forall a s u, In (a, (s, u)) (cp_outliers o) ->
     s = co_spend c (ce_geo a) (ce_time a) (ce_var a) /\ u = co_units c (ce_geo a) (ce_time a) (ce_var a))) /\
  (forall g v q, In q (series (cp_cost_per_unit o) g v) <-> exists t, (t < co_times c)%nat /\ unit_cost c g t v q) /\
  (In (M_Eda.Attention, InconsistentData) (cp_findings o) <-> exists p, inconsistent c p) /\
  (In (M_Eda.Attention, Outlier) (cp_findings o) <-> exists r, In r (cp_outliers o)) /\
  (cp_findings o = [(M_Eda.Info, NoCause)] <-> (forall p, ~ inconsistent c p) /\ cp_outliers o = []).
Proof. exact cost_lemma. Qed.
Print Assumptions C86_costs.

(** Units bought at one price per geo and channel raise nothing. *)
Theorem C86_one_price : forall c (price : nat -> nat -> R),
  (forall g v, 0 < price g v) ->
  (forall g t v, (g < co_geos c)%nat -> (t < co_times c)%nat -> (v < co_channels c)%nat ->
     co_spend c g t v = price g v * co_units c g t v) ->
  cp_findings (check_cost_per_media_unit c) = [(M_Eda.Info, NoCause)].
Proof. exact price_lemma. Qed.
Print Assumptions C86_one_price.

(** Not every series without variation is reported: a series known in one period only is not. *)
Definition single : cube := mkCube 1 1 1 (fun _ _ _ => Some 3).
Theorem C86_constant_refuted : ~ (forall x th g v c, (g < cu_geos x)%nat -> (v < cu_vars x)%nat ->
  series x g v <> [] -> 0 < th -> (forall r, In r (series x g v) -> r = c) ->
  In (M_Eda.Attention, Variability) (check_std_of x th)).
Proof.
  intros H. specialize (H single 1 0%nat 0%nat 3).
  cbn [single cu_geos cu_vars series known cu_times cu_at app] in H.
  specialize (H ltac:(lia) ltac:(lia) ltac:(discriminate) ltac:(lra)).
  assert (A : forall r, In r [3] -> r = 3) by (intros r [<-|[]]; reflexivity). specialize (H A).
  apply (proj1 (check_of_spec single 1)) in H. destruct H as (l & (g & v & _ & _ & ->) & (l' & s & K & S & _)).
  change (series single g v) with [3] in K. destruct S as [S _].
  inversion K as [|x m m' Hp K'|x m m' Hp K']; subst; inversion K'; subst; cbn in S; lia.
Qed.
Print Assumptions C86_constant_refuted.

(** Not every jump of the price is reported: with three periods on air, one in which a unit costs
    a thousand times as much raises nothing. *)
Definition jump : costs := mkCosts 1 3 1 (fun _ t _ => if (t =? 2)%nat then 1000 else 1) (fun _ _ _ => 1).
Theorem C86_price_jump_refuted : ~ (forall c g t v, (g < co_geos c)%nat -> (t < co_times c)%nat -> (v < co_channels c)%nat ->
  (exists q, unit_cost c g t v q /\ forall t' q', (t' < co_times c)%nat -> t' <> t -> unit_cost c g t' v q' -> 1000 * q' <= q) ->
  In (M_Eda.Attention, Outlier) (cp_findings (check_cost_per_media_unit c))).
Proof.
  intros H. specialize (H jump 0%nat 2%nat 0%nat). cbn [jump co_geos co_times co_channels] in H.
  specialize (H ltac:(lia) ltac:(lia) ltac:(lia)).
  assert (A : exists q, unit_cost jump 0 2 0 q /\
     forall t' q', (t' < 3)%nat -> t' <> 2%nat -> unit_cost jump 0 t' 0 q' -> 1000 * q' <= q).
  { exists 1000. unfold unit_cost. cbn. split; [lra|]. intros t' q' Ht N [_ E].
    destruct (Nat.eqb_spec t' 2); [contradiction|]. lra. }
  specialize (H A). pose proof (cost_lemma jump) as L. cbv zeta in L. destruct L as (_ & (_ & _ & O & _) & S & _ & F & _).
  apply F in H. destruct H as ([a su] & H).
  assert (Ha : In a (map fst (cp_outliers (check_cost_per_media_unit jump)))) by (apply in_map_iff; exists (a, su); auto).
  apply O in Ha. destruct Ha as (Hg & Ht & Hv & U & Out).
  apply (too_few_lemma (series (cp_cost_per_unit (check_cost_per_media_unit jump)) (ce_geo a) (ce_var a)) (ce_value a)).
  - unfold series. cbn [check_cost_per_media_unit cp_cost_per_unit cost_per_media_unit jump cu_times cu_at co_times co_units co_spend known].
    destruct (Req_EM_T 1 0); [lra|]. cbn. lia.
  - apply S. exists (ce_time a). auto.
  - exact Out.
Qed.
Print Assumptions C86_price_jump_refuted.

(** Example: a channel on air in one of five weeks. *)
Definition burst : cube := mkCube 1 5 1 (fun _ t _ => Some (if (t =? 3)%nat then 9 else 0)).
Example C86_example :
  In (M_Eda.Attention, Variability) (check_std_of burst (1 / 10000)) /\
  (forall t r, In (mkCell 0 t 0 r) (calculate_outliers burst) <-> t = 3%nat /\ r = 9) /\
  cp_findings (check_cost_per_media_unit (mkCosts 1 3 1 (fun _ t _ => INR t) (fun _ t _ => 2 * INR t))) = [(M_Eda.Info, NoCause)].
Proof.
  assert (S : series burst 0 0 = [0; 0; 0; 9; 0]) by reflexivity.
  assert (N : count_occ Req_EM_T (series burst 0 0) 0 = 4%nat).
  { rewrite S. cbn [count_occ]. destruct (Req_EM_T 0 0); [|congruence]. destruct (Req_EM_T 9 0); [lra|]. reflexivity. }
  destruct (C86_mostly_constant burst (1/10000) 0 0 0) as [A B]; try (cbn; lia); try lra.
  { rewrite N, S. cbn. lia. }
  split; [exact A|]. split.
  - intros t r. rewrite B. cbn [burst cu_times cu_at]. split.
    + intros (Ht & E & R). destruct (Nat.eqb_spec t 3) as [->|Z]; injection E as <-; [auto|congruence].
    + intros [-> ->]. cbn. repeat split; try lia. lra.
  - apply (C86_one_price _ (fun _ _ => 1/2)); [intros; lra|]. intros g t v _ _ _. cbn. lra.
Qed.
