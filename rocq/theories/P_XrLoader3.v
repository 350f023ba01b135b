(** The xarray data loader: its errors, and the renaming of a dataset. *)
From Coq Require Import String Arith Lia List Bool Permutation Sorted.
From Verif Require Import M_Base M_Time Lib_Sort M_Builder S_Builder P_Builder P_BuilderOrder C_Builder P_BuilderFull M_XrLoader S_XrLoader P_XrLoader P_XrLoader2.
Import ListNotations.
Local Open Scope nat_scope.
Local Open Scope list_scope.

(** *** Errors *)
Lemma err_raise : forall A c e e' (k : result A), raise_if c e k = Err e' -> (c = true /\ e' = e) \/ (c = false /\ k = Err e').
Proof. intros A [|] e e' k E; cbn in E; [left; split; congruence|right; auto]. Qed.
Lemma err_bind : forall A B (m : result A) (f : A -> result B) e, rbind m f = Err e -> m = Err e \/ exists a, m = Ok a /\ f a = Err e.
Proof. intros A B [a|x] f e E; cbn in E; [right; eauto|left; congruence]. Qed.
Lemma err_mapM : forall A B (f : A -> result B) l e, mapM f l = Err e -> exists a, In a l /\ f a = Err e.
Proof.
  intros A B f l. induction l as [|a l IH]; intros e E; [discriminate|]. cbn in E. apply err_bind in E. destruct E as [E|(b & _ & E)].
  - exists a. split; [left; reflexivity|exact E].
  - apply err_bind in E. destruct E as [E|(bs & _ & E)]; [|discriminate]. destruct (IH e E) as (a' & I & H). exists a'. split; [right; exact I|exact H].
Qed.
Ltac value_errors := repeat match goal with E : raise_if _ _ _ = Err _ |- _ => apply err_raise in E; destruct E as [[_ E]|[_ E]]; [exact E|] end; try discriminate.
Lemma component_errors : forall G T C V geq teq ceq tle parse (national : G) c (x : da G T C V) s s' e,
  set_component geq teq ceq tle parse national c x s = (Err e, s') -> e = ValueError.
Proof.
  intros G T C V geq teq ceq tle parse national c x s s' e E. unfold set_component in E.
  destruct (st_array s c); [congruence|]. destruct (negb (channels_ok ceq s c x)); [congruence|].
  destruct (normalize parse national c x) as [x'|e1] eqn:En.
  - destruct (set_geos geq (d_geos x') (store c x' s)) as [s2|e2] eqn:Eg.
    + destruct (dim_of c).
      * destruct (set_times teq tle parse (d_times x') s2) as [s3|e3] eqn:Et; [congruence|]. assert (e = e3) by congruence. subst. unfold set_times in Et. value_errors.
      * destruct (set_media_times teq tle parse (d_times x') s2) as [s3|e3] eqn:Et; [congruence|]. assert (e = e3) by congruence. subst. unfold set_media_times in Et. value_errors.
      * congruence.
    + assert (e = e2) by congruence. subst. unfold set_geos in Eg. value_errors.
  - assert (e = e1) by congruence. subst. unfold normalize in En. value_errors.
Qed.

Section P.
Context {V : Type}.
Variables (tle gle : string -> string -> bool) (parse : string -> option date) (national : string) (one : V).
Hypothesis tle_order : strict_order tle.
Notation da := (da string string string V).
Notation dataset := (dataset V).
Notation run := (run string_dec string_dec string_dec tle parse national).
Notation load_dataset := (load_dataset tle gle parse national one).

Lemma feed_errors : forall hist (s : state string string string V) e, feed tle parse national hist s = Err e -> e = ValueError.
Proof.
  induction hist as [|[c x] hist IH]; intros s e E; [discriminate|]. cbn [feed] in E.
  destruct (set_component string_dec string_dec string_dec tle parse national c x s) as [[u|e1] s1] eqn:Es; [exact (IH s1 e E)|].
  assert (e = e1) by congruence. subst. exact (component_errors _ _ _ _ _ _ _ _ _ _ _ _ _ _ _ Es).
Qed.
Lemma load_errors : forall valid (d : dataset) e, present d Kpi -> load_dataset valid d = Err e -> e = ValueError.
Proof.
  intros valid d e Pk E. unfold M_XrLoader.load_dataset in E. apply err_bind in E. destruct E as [E|(hist & Eh & E)].
  - unfold loader_init in E. unfold present in Pk. destruct (ds_array d Kpi); [|congruence]. cbn [raise_if] in E.
    apply err_bind in E. destruct E as [E|(p & _ & E)]; [|discriminate]. apply err_mapM in E. destruct E as (c & _ & E).
    destruct (ds_array d c) as [a|]; [|discriminate]. apply err_bind in E. destruct E as [E|(x & _ & E)]; [|discriminate].
    unfold converted in E. destruct (ds_media_times d); [discriminate|]. destruct (dim_of c); try discriminate.
    unfold assign in E. destruct (list_eq_dec string_dec _ _); [discriminate|]. value_errors.
  - pose proof (init_calls d hist Eh) as Ca. unfold present in Pk. destruct (ds_array d Kpi) eqn:Ek; [|congruence]. cbn [raise_if] in E.
    apply err_bind in E. destruct E as [E|(s & Es & E)]; [exact (feed_errors _ _ _ E)|].
    apply feed_run in Es. destruct Es as [Acc Es].
    pose proof (reached_lemma string_dec string_dec string_dec tle gle parse national tle_order _ Acc) as Re. rewrite Es in Re.
    assert (Ik : In Kpi (map fst hist)) by (apply (ca_fst _ _ Ca); unfold present; congruence).
    apply in_map_iff in Ik. destruct Ik as ([kc kx] & Ec & Ik). cbn in Ec. subst kc. apply in_rev in Ik.
    assert (Sg : exists g, st_geos s = Some g).
    { destruct (re_geos _ _ _ _ _ Re) as [[Hn _]|(c1 & x1 & _ & E1)]; [rewrite Hn in Ik; contradiction|eauto]. }
    assert (St : exists t, st_times s = Some t).
    { destruct (re_times _ _ _ _ _ Re) as [[Hn _]|(c1 & x1 & _ & _ & E1)]; [exfalso; apply (Hn _ _ Ik); reflexivity|eauto]. }
    destruct Sg as (g & Eg). destruct St as (t & Et). unfold build in E. apply err_bind in E. destruct E as [E|(pop & Er & E)].
    + unfold required in E. apply err_raise in E. destruct E as [[_ E]|[_ E]]; [exact E|]. rewrite Eg in E. cbv zeta in E.
      destruct (if Nat.eqb (List.length g) 1 then _ else _); [|congruence]. value_errors.
    + rewrite Eg, Et in E. destruct (st_media_times s) as [m|] eqn:Em.
      * apply err_bind in E. destruct E as [E|(parts & _ & E)].
        -- apply err_mapM in E. destruct E as (c & _ & E). cbv beta in E. destruct (if component_eq_dec c Population then Some pop else st_array s c) as [x|]; [|discriminate].
           apply err_bind in E. destruct E as [E|(y & _ & E)]; [|discriminate]. unfold reindex in E.
           apply err_raise in E. destruct E as [[_ E]|[_ E]]; [exact E|]. destruct (dim_of c); value_errors.
        -- value_errors.
      * exfalso. (* paid media are required *)
        unfold required in Er. apply raise_if_inv' in Er. destruct Er as [_ Er]. rewrite Eg in Er. cbv zeta in Er.
        destruct (if Nat.eqb (List.length g) 1 then _ else _); [|discriminate].
        apply raise_if_inv' in Er. destruct Er as [X1 Er]. apply raise_if_inv' in Er. destruct Er as [X2 Er]. apply raise_if_inv' in Er. destruct Er as [_ Er].
        apply raise_if_inv' in Er. destruct Er as [X3 _].
        destruct (re_media _ _ _ _ _ Re) as [[Hn _]|(c1 & x1 & _ & _ & E1)]; [|congruence].
        assert (Un : forall c, dim_of c = WithMediaTime -> is_set s c = false).
        { intros c D. unfold is_set. rewrite (re_unset _ _ _ _ _ Re c); [reflexivity|]. intros x I. exact (Hn c x I D). }
        rewrite (Un Media eq_refl) in *. rewrite (Un Reach eq_refl) in *. rewrite (Un Frequency eq_refl) in *.
        destruct (is_set s MediaSpend), (is_set s RfSpend); discriminate.
Qed.
End P.

(** *** Names *)
Lemma find_none : forall A n (l : list (string * A)), find n l = None <-> ~ In n (map fst l).
Proof.
  intros A n l. induction l as [|[m a] l IH]; cbn; [tauto|]. destruct (string_dec n m) as [->|Ne]; [split; [discriminate|intros H; exfalso; apply H; auto]|].
  rewrite IH. split; intros H; [intros [K|K]; [congruence|tauto]|tauto].
Qed.
Lemma find_in : forall A n (l : list (string * A)) a, find n l = Some a -> In (n, a) l.
Proof. intros A n l a. induction l as [|[m b] l IH]; cbn; [discriminate|]. destruct (string_dec n m) as [->|Ne]; [intros E; left; congruence|auto]. Qed.
Lemma find_nodup : forall A n (l : list (string * A)) a, NoDup (map fst l) -> In (n, a) l -> find n l = Some a.
Proof.
  intros A n l a. induction l as [|[m b] l IH]; cbn; [intros _ []|]. intros N I. apply NoDup_cons_iff in N. destruct N as [N1 N2].
  destruct (string_dec n m) as [->|Ne].
  - destruct I as [I|I]; [congruence|]. exfalso. apply N1. change m with (fst (m, a)). apply in_map. exact I.
  - destruct I as [I|I]; [congruence|auto].
Qed.
Lemma NoDup_map_inj : forall A B (f : A -> B) l a b, NoDup (map f l) -> In a l -> In b l -> f a = f b -> a = b.
Proof.
  intros A B f l a b. induction l as [|x l IH]; [intros _ []|]. cbn. intros N Ia Ib E. apply NoDup_cons_iff in N. destruct N as [N1 N2].
  destruct Ia as [->|Ia], Ib as [->|Ib]; auto.
  - exfalso. apply N1. rewrite E. apply in_map. exact Ib.
  - exfalso. apply N1. rewrite <- E. apply in_map. exact Ia.
Qed.
Definition back (pairs : list (string * string)) : list (string * string) := map (fun p => (snd p, fst p)) pairs.
Lemma back_fst : forall pairs, map fst (back pairs) = map snd pairs.
Proof. intros pairs. unfold back. rewrite map_map. reflexivity. Qed.
Lemma new_name_back : forall pairs (ns : list string),
  NoDup ns -> NoDup (map fst pairs) -> NoDup (map snd pairs) -> (forall n, In n (map fst pairs) -> In n ns) -> NoDup (map (new_name pairs) ns) ->
  forall n, In n ns -> new_name (back pairs) (new_name pairs n) = n.
Proof.
  intros pairs ns N1 N2 N3 Sub N4 n I. destruct (find n pairs) as [m|] eqn:E.
  - assert (Em : new_name pairs n = m) by (unfold new_name; rewrite E; reflexivity). rewrite Em. unfold new_name.
    rewrite (find_nodup _ m (back pairs) n); [reflexivity|rewrite back_fst; exact N3|]. unfold back. apply in_map_iff. exists (n, m). split; [reflexivity|]. apply find_in. exact E.
  - assert (En : new_name pairs n = n) by (unfold new_name; rewrite E; reflexivity). rewrite En. unfold new_name.
    destruct (find n (back pairs)) as [n'|] eqn:Eb; [|reflexivity]. apply find_in in Eb. unfold back in Eb. apply in_map_iff in Eb.
    destruct Eb as ([p q] & Ep & Ip). cbn in Ep. assert (q = n) by congruence. assert (p = n') by congruence. subst.
    apply (NoDup_map_inj _ _ (new_name pairs) ns); auto.
    + apply Sub. change n' with (fst (n', n)). apply in_map. exact Ip.
    + rewrite En. unfold new_name. rewrite (find_nodup _ n' pairs n N2 Ip). reflexivity.
Qed.
Lemma mem_all : forall (l m : list string), (forall n, In n l -> In n m) -> existsb (fun n => negb (mem string_dec n m)) l = false.
Proof.
  intros l m H. rewrite <- not_true_iff_false. intros K. apply existsb_exists in K. destruct K as (n & I & K). apply negb_true_iff, mem_false in K. auto.
Qed.
Lemma existsb_map : forall A B (f : A -> B) p l, existsb (fun a => p (f a)) l = existsb p (map f l).
Proof. intros A B f p l. induction l as [|a l IH]; [reflexivity|]. cbn. rewrite IH. reflexivity. Qed.
(** The dataset with other names. *)
Definition renamed {V} (pairs : list (string * string)) (r : raw V) : raw V :=
  mkRaw (map (fun ca => (new_name pairs (fst ca), snd ca)) (r_coords r)) (map (fun ca => (new_name pairs (fst ca), snd ca)) (r_arrays r)).
Lemma names_renamed : forall V pairs (r : raw V), names (renamed pairs r) = map (new_name pairs) (names r).
Proof. intros V pairs r. unfold names, renamed. cbn [r_coords r_arrays]. rewrite map_app, !map_map. reflexivity. Qed.
Lemma map_back : forall A pairs (l : list (string * A)), (forall n, In n (map fst l) -> new_name (back pairs) (new_name pairs n) = n) ->
  map (fun ca => (new_name (back pairs) (fst ca), snd ca)) (map (fun ca => (new_name pairs (fst ca), snd ca)) l) = l.
Proof.
  intros A pairs l H. rewrite map_map. cbn [fst snd]. induction l as [|[n a] l IH]; [reflexivity|]. cbn [map fst snd] in *.
  rewrite (H n) by (left; reflexivity). f_equal. apply IH. intros m I. apply H. right. exact I.
Qed.
Lemma rename_back : forall V (r : raw V) pairs,
  NoDup (names r) -> NoDup (map fst pairs) -> NoDup (map snd pairs) ->
  (forall n, In n (map fst pairs) -> In n (names r) /\ In n possible_names) -> NoDup (names (renamed pairs r)) ->
  apply_mapping (Some (back pairs)) (renamed pairs r) = Ok r.
Proof.
  intros V r pairs N1 N2 N3 Sub N4. rewrite names_renamed in N4.
  pose proof (new_name_back pairs (names r) N1 N2 N3 (fun n I => proj1 (Sub n I)) N4) as B.
  unfold apply_mapping.
  assert (X1 : existsb (fun st : string * string => negb (mem string_dec (snd st) possible_names)) (back pairs) = false).
  { rewrite (existsb_map _ _ snd (fun n => negb (mem string_dec n possible_names))). apply mem_all. intros n I. unfold back in I. rewrite map_map in I. cbn in I.
    apply Sub. exact I. }
  assert (X2 : existsb (fun st : string * string => negb (mem string_dec (fst st) (names (renamed pairs r)))) (back pairs) = false).
  { rewrite (existsb_map _ _ fst (fun n => negb (mem string_dec n (names (renamed pairs r))))). apply mem_all. intros m I. rewrite back_fst in I.
    apply in_map_iff in I. destruct I as ([n m'] & Em & I). cbn in Em. subst m'. rewrite names_renamed. apply in_map_iff. exists n. split.
    - unfold new_name. rewrite (find_nodup _ n pairs m N2 I). reflexivity.
    - apply Sub. change n with (fst (n, m)). apply in_map. exact I. }
  rewrite X1, X2. cbn [raise_if]. unfold rename. cbv zeta.
  assert (Er : mkRaw (map (fun ca => (new_name (back pairs) (fst ca), snd ca)) (r_coords (renamed pairs r)))
                  (map (fun ca => (new_name (back pairs) (fst ca), snd ca)) (r_arrays (renamed pairs r))) = r).
  { unfold renamed. cbn [r_coords r_arrays]. rewrite !map_back.
    - destruct r. reflexivity.
    - intros n I. apply B. unfold names. apply in_app_iff. right. exact I.
    - intros n I. apply B. unfold names. apply in_app_iff. left. exact I. }
  rewrite Er. assert (U : unique string_dec (names r) = true) by (apply unique_iff; exact N1). rewrite U. reflexivity.
Qed.
