(** Property C94: data built from arrays without labels. *)
From Coq Require Import ZArith Lia List Bool Permutation.
From Verif Require Import M_Base M_Time Lib_Sort M_Builder S_Builder P_Builder C_Builder M_NdBuilder S_NdBuilder P_NdBuilder.
Import ListNotations.
Local Open Scope nat_scope.
Local Open Scope list_scope.

(** After the calls [pre], the call [k] does not raise. *)
Definition runs {G T C V} geq teq ceq tle parse (national : G) (one : V) (revenue : bool)
    (pre : list (M_NdBuilder.call G T C V)) (k : M_NdBuilder.call G T C V) : Prop :=
  fst (perform geq teq ceq tle parse national one revenue k (after geq teq ceq tle parse national one revenue pre)) = Ok tt.

(** *** Every cell is the one given for its labels, for every history of calls - failing ones
    included: the entry comes from one call, the only one with this array that may not have raised;
    its axes are the coordinates in force at that call, sorted; its cell at (geo, period, name) is
    the array's cell at their positions in these coordinates. *)
Theorem C94_cells : forall G T C V geq teq ceq tle gle parse (national : G) (one : V) revenue valid hist out c (y : da G T C V),
  let accepts := runs geq teq ceq tle parse national one revenue in
  total_order gle ->
  nd_build geq teq gle parse one valid (after geq teq ceq tle parse national one revenue hist) = Ok out ->
  In (c, y) out -> (c = Population -> length (d_geos y) <> 1) ->
  exists pre k post x names gs ts,
    hist = pre ++ k :: post /\ In (c, x, names) (supplies k) /\
    (forall p k' q x' n', hist = p ++ k' :: q -> In (c, x', n') (supplies k') -> accepts p k' -> p = pre /\ k' = k) /\
    geos_in_force accepts national pre gs /\ times_in_force accepts c pre ts /\ shaped c x names gs ts /\
    d_chans y = name_list names /\
    Permutation gs (d_geos y) /\ le_sorted gle (d_geos y) /\
    (dim_of c <> WithoutTime -> Permutation ts (d_times y) /\ le_sorted (date_label_leb parse) (d_times y)) /\
    forall i j l, i < length (d_geos y) -> j < n_times_of c y -> l < n_chans_of c y ->
      exists i0 j0 g v, nth_error (d_geos y) i = Some g /\ nth_error gs i0 = Some g /\
        (dim_of c <> WithoutTime -> exists t, nth_error (d_times y) j = Some t /\ nth_error ts j0 = Some t) /\
        d_val y i j l = Some v /\
        (if match c with RevenuePerKpi => revenue | _ => false end then v = one else
         nd_val x i0 (match dim_of c with WithoutTime => j | _ => j0 end) l = Some v).
Proof. intros G T C V geq teq ceq tle gle parse national one revenue valid hist out c y. exact (cells_lemma geq teq ceq tle gle parse national one revenue valid hist out c y). Qed.
Print Assumptions C94_cells.

(** Nothing accepted is dropped. *)
Theorem C94_kept : forall G T C V geq teq ceq tle gle parse (national : G) (one : V) revenue valid
    (hist : list (M_NdBuilder.call G T C V)) out pre k post c x n,
  nd_build geq teq gle parse one valid (after geq teq ceq tle parse national one revenue hist) = Ok out ->
  hist = pre ++ k :: post -> runs geq teq ceq tle parse national one revenue pre k -> In (c, x, n) (supplies k) -> c <> Population ->
  exists y, In (c, y) out.
Proof. intros G T C V geq teq ceq tle gle parse national one revenue. exact (kept_lemma geq teq ceq tle gle parse national one revenue). Qed.
Print Assumptions C94_kept.

(** *** Which calls are accepted: exactly those with the documented shape for the coordinates given
    before, with names without repetition, for arrays not yet given - unless there is a single geo
    that was given under a name of its own.  All others raise ValueError. *)
Theorem C94_accepted : forall G T C V geq teq ceq tle parse (national : G) (one : V) revenue
    (pre : list (M_NdBuilder.call G T C V)) k,
  let accepts := runs geq teq ceq tle parse national one revenue in
  supplies k <> [] ->
  (accepts pre k <-> exists gs, geos_in_force accepts national pre gs /\ (forall g, gs = [g] -> g = national) /\
     forall c x n, In (c, x, n) (supplies k) -> exists ts, times_in_force accepts c pre ts /\ shaped c x n gs ts /\
       NoDup (name_list n) /\
       ~ exists p k' q x' n', pre = p ++ k' :: q /\ In (c, x', n') (supplies k') /\ accepts p k') /\
  (~ accepts pre k ->
   fst (perform geq teq ceq tle parse national one revenue k (after geq teq ceq tle parse national one revenue pre)) = Err ValueError).
Proof.
  intros G T C V geq teq ceq tle parse national one revenue pre k accepts Ne. split.
  - exact (accepted_lemma geq teq ceq tle (fun _ _ => true) parse national one revenue pre k Ne).
  - intros N. destruct (value_error geq teq ceq tle (fun _ _ => true) parse national one revenue pre k Ne) as [H|H]; [contradiction|exact H].
Qed.
Print Assumptions C94_accepted.

(** Accepted geos are distinct, and the geos in force ever after are a reordering of them. *)
Theorem C94_geos : forall G T C V geq teq ceq tle parse (national : G) (one : V) revenue (pre : list (M_NdBuilder.call G T C V)) l,
  runs geq teq ceq tle parse national one revenue pre (Geos l) ->
  NoDup l /\ forall gs post, geos_in_force (runs geq teq ceq tle parse national one revenue) national (pre ++ Geos l :: post) gs -> Permutation l gs.
Proof.
  intros G T C V geq teq ceq tle parse national one revenue pre l Ac. unfold runs in Ac.
  destruct (step_geos geq teq ceq tle parse national one revenue l _ (inv_after geq teq ceq tle (fun _ _ => true) parse national one revenue pre)) as [(E & N & _)|(E & _)];
    [|rewrite E in Ac; discriminate].
  split; [exact N|]. intros gs post H. apply (geos_determined geq teq ceq tle (fun _ _ => true)) in H. rewrite geos_located in H.
  destruct (keeps_after geq teq ceq tle (fun _ _ => true) parse national one revenue (pre ++ [Geos l]) post) as [K _ _ _].
  rewrite <- app_assoc in K. cbn [app] in K. rewrite after_snoc, E in K. destruct (K l eq_refl) as (l' & E' & P).
  rewrite E' in H. subst gs. exact P.
Qed.
Print Assumptions C94_geos.

(** *** Findings *)
(** Data with organic reach and frequency can never be built. *)
Theorem C94_organic_rf_refuted : forall G T C V geq teq ceq tle gle parse (national : G) (one : V) revenue valid
    (hist : list (M_NdBuilder.call G T C V)),
  (exists pre k post r f n, hist = pre ++ k :: post /\ k = WithOrganicReach r f n /\ runs geq teq ceq tle parse national one revenue pre k) ->
  forall out, nd_build geq teq gle parse one valid (after geq teq ceq tle parse national one revenue hist) <> Ok out.
Proof. intros G T C V geq teq ceq tle gle parse national one revenue. exact (organic_never geq teq ceq tle gle parse national one revenue). Qed.
Print Assumptions C94_organic_rf_refuted.
(** The shapes (n_time,) of KPI and (n_time, n) of controls documented for national models are
    refused after every history. *)
Theorem C94_national_shape_refuted : forall G T C V geq teq ceq tle parse (national : G) (one : V) revenue
    (pre : list (M_NdBuilder.call G T C V)) n x names m,
  (nd_shape x = [n] -> ~ runs geq teq ceq tle parse national one revenue pre (WithKpi x)) /\
  (nd_shape x = [n; m] -> ~ runs geq teq ceq tle parse national one revenue pre (WithControls x names)).
Proof.
  intros G T C V geq teq ceq tle parse national one revenue pre n x names m. split; intros Sh Ac.
  - apply (accepted_lemma geq teq ceq tle (fun _ _ => true) parse national one revenue pre (WithKpi x) ltac:(discriminate)) in Ac.
    destruct Ac as (gs & _ & _ & H). destruct (H Kpi x None (or_introl eq_refl)) as (ts & _ & S & _). unfold shaped in S. cbn in S. congruence.
  - apply (accepted_lemma geq teq ceq tle (fun _ _ => true) parse national one revenue pre (WithControls x names) ltac:(discriminate)) in Ac.
    destruct Ac as (gs & _ & _ & H). destruct (H Controls x (Some names) (or_introl eq_refl)) as (ts & _ & S & _). unfold shaped in S. cbn in S. congruence.
Qed.
Print Assumptions C94_national_shape_refuted.
(** A single geo given under its own name: every array is refused. *)
Theorem C94_one_geo_refuted : forall G T C V geq teq ceq tle parse (national : G) (one : V) revenue
    (pre : list (M_NdBuilder.call G T C V)) g,
  geos_in_force (runs geq teq ceq tle parse national one revenue) national pre [g] -> g <> national ->
  forall k, supplies k <> [] -> ~ runs geq teq ceq tle parse national one revenue pre k.
Proof.
  intros G T C V geq teq ceq tle parse national one revenue pre g Hg D k Ne Ac.
  apply (accepted_lemma geq teq ceq tle (fun _ _ => true) parse national one revenue pre k Ne) in Ac.
  destruct Ac as (gs & Hg' & Hn & _). apply D. apply Hn.
  apply (geos_determined geq teq ceq tle (fun _ _ => true)) in Hg, Hg'. congruence.
Qed.
Print Assumptions C94_one_geo_refuted.

(** *** A concrete history *)
Definition ex_nd (shape : list nat) (f : nat -> nat -> nat -> nat) : M_NdBuilder.nd nat := mkNd shape (fun i j k => Some (f i j k)).
Definition ex_hist : list (M_NdBuilder.call nat nat nat nat) :=
  [Geos [7; 5]; WithKpi (ex_nd [2; 2] (fun _ _ _ => 0)); MediaTimes [1; 8; 15]; Times [15; 8];
   WithKpi (ex_nd [2; 2] (fun i j _ => 10 * i + j));
   WithMedia (ex_nd [2; 3; 1] (fun i j _ => 100 + 10 * i + j)) (ex_nd [2; 2; 1] (fun i j _ => 200 + 10 * i + j)) [3];
   Geos [5; 7]; WithPopulation (ex_nd [2] (fun i _ _ => 50 + i)); WithRevenuePerKpi (ex_nd [2; 2] (fun _ _ _ => 4))].
Notation ex_after := (after Nat.eq_dec Nat.eq_dec Nat.eq_dec Nat.leb ex_day 0 1 false).
Notation ex_runs := (runs Nat.eq_dec Nat.eq_dec Nat.eq_dec Nat.leb ex_day 0 1 false).
Definition ex_out := nd_build Nat.eq_dec Nat.eq_dec Nat.leb ex_day 1 (fun _ => true) (ex_after ex_hist).
Example C94_example : exists out y pop,
  ex_out = Ok out /\ In (Kpi, y) out /\ In (Population, pop) out /\ total_order Nat.leb /\
  d_geos y = [5; 7] /\ d_times y = [8; 15] /\
  (* geo 5 was second and day 8 second when the KPI was given *)
  d_val y 0 0 0 = Some 11 /\ d_val y 1 1 0 = Some 0 /\
  (* the population was given after the geos had been given in another order *)
  d_val pop 0 0 0 = Some 50 /\
  (* the first KPI was refused: the periods were not known *)
  ~ ex_runs [Geos [7; 5]] (WithKpi (ex_nd [2; 2] (fun _ _ _ => 0))).
Proof.
  destruct ex_out as [out|e] eqn:E; [|vm_compute in E; discriminate]. vm_compute in E. injection E as <-.
  do 3 eexists. split; [reflexivity|]. split; [left; reflexivity|]. split; [right; left; reflexivity|].
  split; [exact (proj1 leb_order)|].
  repeat split; try reflexivity. intros H. vm_compute in H. discriminate.
Qed.
Example C94_organic_example :
  let pre := [Geos [7; 5]; MediaTimes [1; 8; 15]; Times [15; 8]] in
  ex_runs pre (WithOrganicReach (ex_nd [2; 3; 1] (fun _ _ _ => 1)) (ex_nd [2; 3; 1] (fun _ _ _ => 1)) [9]) /\
  (* a single geo under its own name *)
  ~ ex_runs [Geos [7]; Times [1; 8]] (WithKpi (ex_nd [1; 2] (fun _ _ _ => 1))) /\
  geos_in_force ex_runs 0 [Geos [7]; Times [1; 8]] [7].
Proof.
  cbv zeta. split; [vm_compute; reflexivity|]. split; [intros H; vm_compute in H; discriminate|].
  apply (geos_determined Nat.eq_dec Nat.eq_dec Nat.eq_dec Nat.leb Nat.leb). vm_compute. reflexivity.
Qed.

(** A call that raises changes nothing: false.  Geos given after an array that was refused are
    refused as well, although no geos were given before. *)
Theorem C94_failed_call_refuted : exists (pre : list (M_NdBuilder.call nat nat nat nat)) k l,
  never_given ex_runs Geos (pre ++ [k]) /\ ~ ex_runs pre k /\ ex_runs pre (Geos l) /\ ~ ex_runs (pre ++ [k]) (Geos l).
Proof.
  exists [Times [1; 8]], (WithKpi (ex_nd [2; 2] (fun _ _ _ => 1))), [5; 7]. split.
  - intros p q l E. destruct p as [|a [|b p]]; [discriminate|discriminate|]. destruct p; discriminate.
  - split; [intros H; vm_compute in H; discriminate|]. split; [vm_compute; reflexivity|]. intros H; vm_compute in H; discriminate.
Qed.
Print Assumptions C94_failed_call_refuted.
