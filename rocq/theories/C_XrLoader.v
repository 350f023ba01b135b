(** Property C105: the xarray data loader. *)
From Coq Require Import String Ascii ZArith Lia List Bool Permutation Sorted.
From Verif Require Import M_Base M_Time Lib_Sort M_Builder S_Builder P_Builder P_BuilderOrder C_Builder P_BuilderFull M_XrLoader S_XrLoader P_XrLoader P_XrLoader2 P_XrLoader3.
Import ListNotations.
Local Open Scope string_scope.
Local Open Scope nat_scope.
Local Open Scope list_scope.

(** *** What is loaded, and what is refused *)
(** A dataset can be loaded exactly when it is loadable: the times without data come first, media
    never miss a value, and so on (S_XrLoader).  [valid] are the other checks of the input data. *)
Theorem C105_accepted : forall V tle gle parse national (one : V) (d : dataset V), strict_order tle -> total_order gle ->
  (loadable tle parse national d <-> exists valid out, load_dataset tle gle parse national one valid d = Ok out) /\
  (loadable tle parse national d ->
   exists out, forall valid, load_dataset tle gle parse national one valid d = if valid out then Ok out else Err ValueError).
Proof.
  intros V tle gle parse national one d So Go. pose proof (loads_lemma tle gle parse national one So d) as L. split; [|exact L]. split.
  - intros H. destruct (L H) as (out & E). exists (fun _ => true), out. rewrite (E (fun _ => true)). reflexivity.
  - intros (valid & out & E). exact (only_loadable tle gle parse national one So valid d out Go E).
Qed.
Print Assumptions C105_accepted.
(** If there is a KPI, what cannot be loaded is refused with a [ValueError]. *)
Theorem C105_refused : forall V tle gle parse national (one : V) valid (d : dataset V) e, strict_order tle ->
  present d Kpi -> load_dataset tle gle parse national one valid d = Err e -> e = ValueError.
Proof. intros V tle gle parse national one valid d e So P E. exact (load_errors tle gle parse national one So valid d e P E). Qed.
Print Assumptions C105_refused.

(** The loaded arrays are those of the dataset: all of them, on one list of geos, of times and of
    media times, each in order; the times are the times with data, which are the last of the media
    times; every cell holds the value the dataset has for its labels. *)
Theorem C105_loaded : forall V tle gle parse national (one : V) valid (d : dataset V) out, strict_order tle -> total_order gle ->
  load_dataset tle gle parse national one valid d = Ok out ->
  exists gs ts ms,
    Permutation gs (geo_names national d) /\ le_sorted gle gs /\
    (forall t, In t ts <-> own_time d t) /\ NoDup ts /\ le_sorted (date_label_leb parse) ts /\
    Permutation ms (all_times d) /\ NoDup ms /\ le_sorted (date_label_leb parse) ms /\
    ((forall a b, In a (all_times d) -> In b (all_times d) -> parse a = parse b -> a = b) -> exists pre, ms = pre ++ ts) /\
    (forall c y, In (c, y) out -> d_geos y = gs /\ (dim_of c = WithTime -> d_times y = ts) /\ (dim_of c = WithMediaTime -> d_times y = ms)) /\
    (forall c, present d c -> exists y, In (c, y) out) /\
    (forall c y, In (c, y) out -> c <> Population \/ List.length (ds_geos d) <> 1 ->
       exists a, ds_array d c = Some a /\ d_chans y = ds_chans d c /\
         forall i j k, i < List.length gs -> j < n_times_of c y -> k < n_chans d c ->
           exists i0 j0 v g, nth_error gs i = Some g /\ nth_error (geo_names national d) i0 = Some g /\
             (dim_of c = WithoutTime -> j0 = j) /\
             (dim_of c <> WithoutTime -> exists t, nth_error (d_times y) j = Some t /\ nth_error (S_XrLoader.axis d c) j0 = Some t) /\
             d_val y i j k = Some v /\ a i0 j0 k = Some v) /\
    (List.length (ds_geos d) = 1 -> forall y, In (Population, y) out -> d_val y 0 0 0 = Some one).
Proof.
  intros V tle gle parse national one valid d out So Go E.
  destruct (loaded_lemma tle gle parse national one So valid d out Go E) as (gs & ts & ms & L & Hg & Ht & Hm & Hl & Sg & St & Sm & Pre & Pop & _).
  exists gs, ts, ms. split; [exact (lo_gs _ _ _ _ _ _ L)|]. split; [exact Sg|]. split; [exact (lo_ts _ _ _ _ _ _ L)|].
  split; [exact (lo_ts_nodup _ _ _ _ _ _ L)|]. split; [exact St|]. split; [exact (lo_ms _ _ _ _ _ _ L)|]. split; [exact (lo_ms_nodup _ _ _ _ _ _ L)|].
  split; [exact Sm|]. split; [exact Pre|]. split; [exact (lo_shape _ _ _ _ _ _ L)|]. split; [exact (lo_has _ _ _ _ _ _ L)|]. split; [|exact Pop].
  intros c y I Cp. destruct (lo_from _ _ _ _ _ _ L c y I Cp) as (a & Ea & Ech & Nn & Cell). exists a. split; [exact Ea|]. split; [exact Ech|].
  intros i j k Hi Hj Hk. destruct (lo_shape _ _ _ _ _ _ L c y I) as (Dg & Dt & Dm).
  destruct (has_nan_false _ _ _ _ c y Nn i j k) as (v & Ev); [rewrite Dg; exact Hi|exact Hj|unfold n_chans_of; unfold n_chans in Hk; rewrite Ech; destruct c; exact Hk|].
  destruct (nth_error gs i) as [g|] eqn:Eg; [|apply nth_error_None in Eg; lia].
  assert (Ig : In g (geo_names national d)) by (apply (Permutation_in _ (lo_gs _ _ _ _ _ _ L)); exact (nth_error_In _ _ Eg)).
  apply In_nth_error in Ig. destruct Ig as (i0 & Ei0).
  assert (Hj0 : exists j0, (dim_of c = WithoutTime -> j0 = j) /\
     (dim_of c <> WithoutTime -> exists t, nth_error (d_times y) j = Some t /\ nth_error (S_XrLoader.axis d c) j0 = Some t)).
  { unfold n_times_of in Hj. unfold S_XrLoader.axis. destruct (dim_of c) eqn:D.
    - destruct (nth_error (d_times y) j) as [t|] eqn:Et; [|apply nth_error_None in Et; lia].
      assert (Ot : own_time d t) by (apply (lo_ts _ _ _ _ _ _ L); rewrite <- (Dt eq_refl); exact (nth_error_In _ _ Et)).
      destruct Ot as (j0 & E0 & _). exists j0. split; [discriminate|]. intros _. exists t. auto.
    - destruct (nth_error (d_times y) j) as [t|] eqn:Et; [|apply nth_error_None in Et; lia].
      assert (It : In t (all_times d)) by (apply (Permutation_in _ (lo_ms _ _ _ _ _ _ L)); rewrite <- (Dm eq_refl); exact (nth_error_In _ _ Et)).
      apply In_nth_error in It. destruct It as (j0 & E0). exists j0. split; [discriminate|]. intros _. exists t. auto.
    - exists j. split; [reflexivity|congruence]. }
  destruct Hj0 as (j0 & W & T0). exists i0, j0, v, g. split; [reflexivity|]. split; [exact Ei0|]. split; [exact W|]. split; [exact T0|]. split; [exact Ev|].
  rewrite <- (Cell i j k i0 j0 g Eg Ei0 W T0). exact Ev.
Qed.
Print Assumptions C105_loaded.

(** *** Names *)
(** A dataset whose coordinates and arrays have other names loads, with the mapping from those names
    to the expected ones, as the dataset with the expected names does. *)
Theorem C105_names : forall V tle gle parse national (one : V) valid (r : raw V) pairs,
  NoDup (names r) -> NoDup (map fst pairs) -> NoDup (map snd pairs) ->
  (forall n, In n (map fst pairs) -> In n (names r) /\ In n possible_names) -> NoDup (names (renamed pairs r)) ->
  load tle gle parse national one valid (Some (map (fun p => (snd p, fst p)) pairs)) (renamed pairs r)
  = load tle gle parse national one valid None r.
Proof.
  intros V tle gle parse national one valid r pairs N1 N2 N3 Sub N4. unfold load at 1.
  change (map (fun p => (snd p, fst p)) pairs) with (back pairs). rewrite (rename_back V r pairs N1 N2 N3 Sub N4). reflexivity.
Qed.
Print Assumptions C105_names.
(** A mapping from a name that is not in the dataset, to a name that is not expected, or to a name
    taken by something else, is refused. *)
Theorem C105_mapping_refused : forall V tle gle parse national (one : V) valid (r : raw V) mapping,
  (exists n m, In (n, m) mapping /\ (~ In n (names r) \/ ~ In m possible_names)) \/ ~ NoDup (map (new_name mapping) (names r)) ->
  load tle gle parse national one valid (Some mapping) r = Err ValueError.
Proof.
  intros V tle gle parse national one valid r mapping H. unfold load, apply_mapping.
  destruct (existsb (fun st : string * string => negb (mem string_dec (snd st) possible_names)) mapping) eqn:X1; [reflexivity|].
  destruct (existsb (fun st : string * string => negb (mem string_dec (fst st) (names r))) mapping) eqn:X2; [reflexivity|].
  cbn [raise_if]. destruct H as [(n & m & I & [K|K])|K].
  - exfalso. rewrite <- not_true_iff_false in X2. apply X2. apply existsb_exists. exists (n, m). split; [exact I|]. apply negb_true_iff, mem_false. exact K.
  - exfalso. rewrite <- not_true_iff_false in X1. apply X1. apply existsb_exists. exists (n, m). split; [exact I|]. apply negb_true_iff, mem_false. exact K.
  - unfold rename. cbv zeta. change (mkRaw _ _) with (renamed mapping r) at 1. rewrite names_renamed.
    destruct (unique string_dec (map (new_name mapping) (names r))) eqn:U; [apply unique_iff in U; contradiction|reflexivity].
Qed.
Print Assumptions C105_mapping_refused.

(** *** Examples: two geos, four weeks; the KPI, the control and the spend start in the second week *)
Definition x_days : list (string * date) :=
  [("2024-01-01", mkDate 2024 1 1); ("2024-01-08", mkDate 2024 1 8); ("2024-01-15", mkDate 2024 1 15); ("2024-01-22", mkDate 2024 1 22)].
Definition x_parse (s : string) : option date := find s x_days.
Definition x_coords : list (string * list string) :=
  [("geo", ["b"; "a"]); ("time", map fst x_days); ("control_variable", ["temp"]); ("media_channel", ["tv"; "web"])].
Definition x_from (first : nat) (f : nat -> nat -> nat -> nat) : nat -> nat -> nat -> option nat :=
  fun i j k => if j <? first then None else Some (f i j k).
Definition x_raw (controls_from : nat) : raw nat :=
  mkRaw x_coords
    [("kpi", x_from 1 (fun i j _ => 100 * i + j)); ("controls", x_from controls_from (fun _ j _ => j));
     ("media", x_from 0 (fun i j k => 10 * j + k + i)); ("media_spend", x_from 1 (fun _ j k => j + k)); ("population", x_from 0 (fun i _ _ => 7 + i))].
Definition x_load (m : option (list (string * string))) (r : raw nat) := load String.leb String.leb x_parse "national" 1 (fun _ => true) m r.
Definition x_view (r : result (list (component * da string string string nat))) :=
  match r with
  | Ok out => Some (map (fun cy => (fst cy, d_geos (snd cy), d_times (snd cy), d_chans (snd cy), d_val (snd cy) 1 0 0)) out)
  | Err _ => None
  end.

Lemma string_compare_lt_trans : forall a b c, String.compare a b = Lt -> String.compare b c = Lt -> String.compare a c = Lt.
Proof.
  induction a as [|x a IH]; intros b c E1 E2.
  - destruct b; [discriminate|]. destruct c; [discriminate|reflexivity].
  - destruct b as [|y b]; [discriminate|]. destruct c as [|z c]; [discriminate|]. cbn in *.
    unfold Ascii.compare in *. destruct (N.compare_spec (N_of_ascii x) (N_of_ascii y)) as [Exy|Lxy|Gxy]; [| |discriminate].
    + rewrite Exy. destruct (N_of_ascii y ?= N_of_ascii z)%N; [exact (IH _ _ E1 E2)|reflexivity|discriminate].
    + destruct (N.compare_spec (N_of_ascii y) (N_of_ascii z)) as [Eyz|Lyz|Gyz]; [| |discriminate].
      * rewrite <- Eyz. rewrite (proj2 (N.compare_lt_iff _ _) Lxy). reflexivity.
      * rewrite (proj2 (N.compare_lt_iff _ _) (N.lt_trans _ _ _ Lxy Lyz)). reflexivity.
Qed.
Lemma string_leb_order : strict_order String.leb.
Proof.
  split; [split|].
  - intros a b. apply String.leb_total.
  - intros a b c H1 H2. unfold String.leb in *. destruct (String.compare a b) eqn:E1; [apply String.compare_eq_iff in E1; subst; exact H2| |discriminate].
    destruct (String.compare b c) eqn:E2; [apply String.compare_eq_iff in E2; subst; rewrite E1; reflexivity| |discriminate].
    rewrite (string_compare_lt_trans _ _ _ E1 E2). reflexivity.
  - intros a b H1 H2. apply String.leb_antisym; assumption.
Qed.
Example C105_example :
  x_view (x_load None (x_raw 1)) =
  Some [(Kpi, ["a"; "b"], ["2024-01-08"; "2024-01-15"; "2024-01-22"], [], Some 1); (Population, ["a"; "b"], [], [], Some 7);
        (Controls, ["a"; "b"], ["2024-01-08"; "2024-01-15"; "2024-01-22"], ["temp"], Some 1);
        (Media, ["a"; "b"], ["2024-01-01"; "2024-01-08"; "2024-01-15"; "2024-01-22"], ["tv"; "web"], Some 0);
        (MediaSpend, ["a"; "b"], ["2024-01-08"; "2024-01-15"; "2024-01-22"], ["tv"; "web"], Some 1)].
Proof. vm_compute. reflexivity. Qed.
Example C105_loadable_example : exists d, read (x_raw 1) = Ok d /\ loadable String.leb x_parse "national" d.
Proof.
  eexists. split; [reflexivity|]. apply (C105_accepted _ String.leb String.leb x_parse "national" 1 _ string_leb_order (proj1 string_leb_order)).
  exists (fun _ => true). destruct (load_dataset String.leb String.leb x_parse "national" 1 (fun _ => true)
    (match read (x_raw 1) with Ok d => d | Err _ => mkDs [] [] None (fun _ => []) (fun _ => None) end)) as [out|e] eqn:E.
  - exists out. exact E.
  - vm_compute in E. discriminate.
Qed.
Example C105_names_example :
  let pairs := [("geo", "group"); ("kpi", "conversions")] in
  names (renamed pairs (x_raw 1)) = ["group"; "time"; "control_variable"; "media_channel"; "conversions"; "controls"; "media"; "media_spend"; "population"] /\
  x_view (x_load (Some [("group", "geo"); ("conversions", "kpi")]) (renamed pairs (x_raw 1))) = x_view (x_load None (x_raw 1)) /\
  x_load (Some [("cost", "media_spend")]) (x_raw 1) = Err ValueError /\ x_load (Some [("kpi", "sales")]) (x_raw 1) = Err ValueError.
Proof. cbv zeta. split; [reflexivity|]. split; [vm_compute; reflexivity|]. split; vm_compute; reflexivity. Qed.

(** *** Refuted: the KPI of every week that has one is loaded.  A control that starts a week later
    takes the KPI and the spend of that week with it, silently. *)
Theorem C105_kpi_kept_refuted : exists (r : raw nat) out y,
  x_load None r = Ok out /\ In (Kpi, y) out /\
  (exists a, find "kpi" (r_arrays r) = Some a /\ nth_error (map fst x_days) 1 = Some "2024-01-08" /\ (forall i, i < 2 -> a i 1 0 <> None)) /\
  ~ In "2024-01-08" (d_times y).
Proof.
  exists (x_raw 2). destruct (x_load None (x_raw 2)) as [out|e] eqn:E; [|vm_compute in E; discriminate].
  assert (W : x_view (x_load None (x_raw 2)) =
    Some [(Kpi, ["a"; "b"], ["2024-01-15"; "2024-01-22"], [], Some 2); (Population, ["a"; "b"], [], [], Some 7);
        (Controls, ["a"; "b"], ["2024-01-15"; "2024-01-22"], ["temp"], Some 2);
        (Media, ["a"; "b"], ["2024-01-01"; "2024-01-08"; "2024-01-15"; "2024-01-22"], ["tv"; "web"], Some 0);
        (MediaSpend, ["a"; "b"], ["2024-01-15"; "2024-01-22"], ["tv"; "web"], Some 2)]) by (vm_compute; reflexivity).
  rewrite E in W. cbn [x_view] in W. destruct out as [|[c y] out]; [discriminate|]. exists ((c, y) :: out), y. cbn [map fst snd] in W.
  assert (Hc : c = Kpi) by congruence. assert (Ht : d_times y = ["2024-01-15"; "2024-01-22"]) by congruence. subst c.
  split; [reflexivity|]. split; [left; reflexivity|]. split.
  - eexists. split; [reflexivity|]. split; [reflexivity|]. intros i Hi. unfold x_from. cbn. discriminate.
  - rewrite Ht. intros [K|[K|[]]]; discriminate.
Qed.
Print Assumptions C105_kpi_kept_refuted.
(** *** Refuted: times without a KPI are left out of the times.  Only the first ones are: a KPI that
    is missing in a later week makes the whole dataset be refused. *)
Definition x_gap : raw nat :=
  mkRaw x_coords
    [("kpi", fun i j _ => if Nat.eqb j 3 then None else Some (i + j)); ("media", x_from 0 (fun i j k => 10 * j + k + i));
     ("media_spend", x_from 0 (fun _ j k => j + k)); ("population", x_from 0 (fun i _ _ => 7 + i))].
Theorem C105_later_gap_refuted :
  (forall valid, load String.leb String.leb x_parse "national" 1 valid None x_gap = Err ValueError) /\
  exists d, read x_gap = Ok d /\ (forall t, own_time d t <-> In t ["2024-01-01"; "2024-01-08"; "2024-01-15"]).
Proof.
  split; [intros valid; vm_compute; reflexivity|]. eexists. split; [reflexivity|]. intros t. rewrite <- own_list_in. vm_compute. tauto.
Qed.
Print Assumptions C105_later_gap_refuted.
