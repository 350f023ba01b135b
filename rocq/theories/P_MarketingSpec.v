(** Proofs for the dates of a marketing spec and the analyzer's tables. *)
From Coq Require Import ZArith QArith String List Bool Arith Sorted Lia.
From Verif Require Import M_Base M_Opt M_BudgetSpec S_BudgetSpec P_BudgetSpec M_MarketingSpec S_MarketingSpec.
Import ListNotations.
Local Open Scope string_scope.
Local Open Scope list_scope.

Lemma rbind_inv : forall (A B : Type) (x : result A) (f : A -> result B) y, rbind x f = Ok y -> exists a, x = Ok a /\ f a = Ok y.
Proof. intros A B [a|e] f y H; cbn [rbind] in H; [ exists a; auto | discriminate ]. Qed.
Lemma raise_inv : forall (A : Type) b e (x : result A) y, raise_if b e x = Ok y -> b = false /\ x = Ok y.
Proof. intros A [|] e x y H; cbn [raise_if] in H; [ discriminate | auto ]. Qed.

Lemma min_day_spec : forall r a, In (min_day a r) (a :: r) /\ forall d, In d (a :: r) -> (min_day a r <= d)%Z.
Proof.
  unfold min_day. intros r. induction r as [|b r IH]; intros a; cbn [fold_left].
  - split; [ left; reflexivity | intros d [<-|[]]; lia ].
  - destruct (IH (Z.min a b)) as [H K]. split.
    + destruct H as [H|H]; [ | right; right; exact H ].
      rewrite <- H. destruct (Z.min_spec a b) as [[_ E]|[_ E]]; rewrite E; [ left | right; left ]; reflexivity.
    + intros d [<-|[<-|D]].
      * specialize (K (Z.min a b) (or_introl eq_refl)). lia.
      * specialize (K (Z.min a b) (or_introl eq_refl)). lia.
      * exact (K d (or_intror D)).
Qed.
Lemma max_day_spec : forall r a, In (max_day a r) (a :: r) /\ forall d, In d (a :: r) -> (d <= max_day a r)%Z.
Proof.
  unfold max_day. intros r. induction r as [|b r IH]; intros a; cbn [fold_left].
  - split; [ left; reflexivity | intros d [<-|[]]; lia ].
  - destruct (IH (Z.max a b)) as [H K]. split.
    + destruct H as [H|H]; [ | right; right; exact H ].
      rewrite <- H. destruct (Z.max_spec a b) as [[_ E]|[_ E]]; rewrite E; [ right; left | left ]; reflexivity.
    + intros d [<-|[<-|D]].
      * specialize (K (Z.max a b) (or_introl eq_refl)). lia.
      * specialize (K (Z.max a b) (or_introl eq_refl)). lia.
      * exact (K d (or_intror D)).
Qed.
Lemma day_in_spec : forall d l, day_in d l = true <-> In d l.
Proof.
  intros d l. unfold day_in. rewrite existsb_exists. split.
  - intros [x [H E]]. apply Z.eqb_eq in E. subst. exact H.
  - intros H. exists d. split; [ exact H | apply Z.eqb_refl ].
Qed.
Lemma sorted_filter : forall (f : Z -> bool) l, StronglySorted Z.lt l -> StronglySorted Z.lt (filter f l).
Proof.
  intros f l H. induction H as [|a l H IH K]; cbn [filter]; [ constructor | ].
  destruct (f a); [ | exact IH ]. constructor; [ exact IH | ].
  rewrite Forall_forall in *. intros x X. apply filter_In in X. apply K. exact (proj1 X).
Qed.

(** The list a selection stands for. *)
Definition listed (all : list Z) (x : option (list Z)) : list Z := match x with Some l => l | None => all end.
Definition first_bound (all : list Z) (s : option Z) (v : Z) : Prop :=
  match s with Some a => v = a | None => forall d, In d all -> (v <= d)%Z end.
Definition last_bound (all : list Z) (s : option Z) (v : Z) : Prop :=
  match s with Some a => v = a | None => forall d, In d all -> (d <= v)%Z end.

Lemma expand_inv : forall all s e x, all <> [] -> expand_days all s e = Ok x ->
  exists lo hi, In lo all /\ In hi all /\ (lo <= hi)%Z /\ first_bound all s lo /\ last_bound all e hi /\
  (forall d, In d (listed all x) <-> In d all /\ (lo <= d <= hi)%Z) /\
  (StronglySorted Z.lt all -> StronglySorted Z.lt (listed all x)) /\ (x = None \/ x = Some (listed all x)).
Proof.
  intros all s e x N H. destruct all as [|a r]; [ contradiction | ]. clear N.
  destruct (min_day_spec r a) as [I1 L1]. destruct (max_day_spec r a) as [I2 L2].
  assert (G : (s = None /\ e = None /\ x = None) \/
    exists lo hi, In lo (a :: r) /\ In hi (a :: r) /\ (lo <= hi)%Z /\ first_bound (a :: r) s lo /\ last_bound (a :: r) e hi /\
      x = if Z.eqb lo (min_day a r) && Z.eqb hi (max_day a r) then None else Some (filter (fun d => Z.leb lo d && Z.leb d hi) (a :: r))).
  { destruct s as [sv|], e as [ev|]; unfold expand_days in H.
    - right. apply rbind_inv in H. destruct H as [lo [H1 H]]. apply rbind_inv in H. destruct H as [hi [H2 H]].
      apply raise_inv in H1. destruct H1 as [M1 H1]. injection H1 as <-. apply raise_inv in H2. destruct H2 as [M2 H2]. injection H2 as <-.
      apply raise_inv in H. destruct H as [C H]. apply Z.ltb_ge in C.
      apply negb_false_iff in M1, M2. apply day_in_spec in M1. apply day_in_spec in M2.
      exists sv, ev. split; [exact M1|]. split; [exact M2|]. split; [exact C|]. split; [reflexivity|]. split; [reflexivity|].
      destruct (_ && _); injection H as <-; reflexivity.
    - right. apply rbind_inv in H. destruct H as [lo [H1 H]]. cbn [rbind] in H.
      apply raise_inv in H1. destruct H1 as [M1 H1]. injection H1 as <-.
      apply raise_inv in H. destruct H as [C H]. apply Z.ltb_ge in C.
      apply negb_false_iff in M1. apply day_in_spec in M1.
      exists sv, (max_day a r). split; [exact M1|]. split; [exact I2|]. split; [exact C|]. split; [reflexivity|]. split; [exact L2|].
      destruct (_ && _); injection H as <-; reflexivity.
    - right. cbn [rbind] in H. apply rbind_inv in H. destruct H as [hi [H2 H]].
      apply raise_inv in H2. destruct H2 as [M2 H2]. injection H2 as <-.
      apply raise_inv in H. destruct H as [C H]. apply Z.ltb_ge in C.
      apply negb_false_iff in M2. apply day_in_spec in M2.
      exists (min_day a r), ev. split; [exact I1|]. split; [exact M2|]. split; [exact C|]. split; [exact L1|]. split; [reflexivity|].
      destruct (_ && _); injection H as <-; reflexivity.
    - left. injection H as <-. auto. }
  destruct G as [[-> [-> ->]] | [lo [hi [J1 [J2 [C [B1 [B2 ->]]]]]]]].
  - exists (min_day a r), (max_day a r). split; [exact I1|]. split; [exact I2|]. split; [apply L1; exact I2|]. split; [exact L1|]. split; [exact L2|].
    split; [ | split; [ intros S; exact S | left; reflexivity ] ].
    intros d. cbn [listed]. split; [ intros D; split; [ exact D | split; [ apply L1 | apply L2 ]; exact D ] | intros [D _]; exact D ].
  - exists lo, hi. split; [exact J1|]. split; [exact J2|]. split; [exact C|]. split; [exact B1|]. split; [exact B2|].
    destruct (_ && _) eqn:E; cbn [listed].
    + apply andb_true_iff in E. destruct E as [E1 E2]. apply Z.eqb_eq in E1. apply Z.eqb_eq in E2.
      split; [ | split; [ intros S; exact S | left; reflexivity ] ].
      intros d. split; [ | intros [D _]; exact D ]. intros D. split; [ exact D | ]. rewrite E1, E2. split; [ apply L1 | apply L2 ]; exact D.
    + split; [ | split; [ apply sorted_filter | right; reflexivity ] ].
      intros d. rewrite filter_In, andb_true_iff, !Z.leb_le. reflexivity.
Qed.

Lemma expand_ok : forall all s e, (forall a, s = Some a -> In a all) -> (forall b, e = Some b -> In b all) ->
  (forall a b, s = Some a -> e = Some b -> (a <= b)%Z) -> exists x, expand_days all s e = Ok x.
Proof.
  intros all s e H1 H2 H3. destruct all as [|a r].
  - destruct s as [sv|]; [ destruct (H1 sv eq_refl) | ]. destruct e as [ev|]; [ destruct (H2 ev eq_refl) | ]. exists None. reflexivity.
  - destruct (min_day_spec r a) as [I1 L1]. destruct (max_day_spec r a) as [I2 L2].
    assert (T : forall lo hi, (lo <= hi)%Z -> exists x,
      raise_if (Z.ltb hi lo) ValueError (if Z.eqb lo (min_day a r) && Z.eqb hi (max_day a r) then Ok None
        else Ok (Some (filter (fun d => Z.leb lo d && Z.leb d hi) (a :: r)))) = Ok x).
    { intros lo hi C. replace (Z.ltb hi lo) with false by (symmetry; apply Z.ltb_ge; exact C). cbn [raise_if]. destruct (_ && _); eexists; reflexivity. }
    unfold expand_days. destruct s as [sv|], e as [ev|].
    + rewrite (proj2 (day_in_spec sv (a :: r)) (H1 sv eq_refl)), (proj2 (day_in_spec ev (a :: r)) (H2 ev eq_refl)). cbn [negb raise_if rbind].
      apply T. apply H3; reflexivity.
    + rewrite (proj2 (day_in_spec sv (a :: r)) (H1 sv eq_refl)). cbn [negb raise_if rbind]. apply T. apply L2. apply H1. reflexivity.
    + rewrite (proj2 (day_in_spec ev (a :: r)) (H2 ev eq_refl)). cbn [negb raise_if rbind]. apply T. apply L1. apply H2. reflexivity.
    + exists None. reflexivity.
Qed.

Lemma enumerated_inv : forall c s e x, calendar c -> enumerated c s e = Ok x ->
  on_calendar c s e /\ periods c s e (listed (tc_dates c) x) /\ listed (tc_dates c) x <> [] /\ selects c (listed (tc_dates c) x) x.
Proof.
  intros c s e x [N [S P]] H. unfold enumerated, closed_interval in H. apply expand_inv in H; [ | exact N ].
  destruct H as [lo [hi [I1 [I2 [C [B1 [B2 [M [K X]]]]]]]]].
  split; [ | split; [ | split ] ].
  - split; [ | split ].
    + intros a ->. cbn [first_bound] in B1. subst a. exact I1.
    + intros b ->. cbn [option_map last_bound] in B2. subst hi. exact I2.
    + intros a b -> ->. cbn [first_bound option_map last_bound] in *. lia.
  - split; [ exact (K S) | ]. intros d. rewrite M. unfold within. split.
    + intros [D B]. split; [ exact D | ]. split.
      * intros a ->. cbn [first_bound] in B1. lia.
      * intros b ->. cbn [option_map last_bound] in B2. lia.
    + intros [D [U V]]. split; [ exact D | ]. split.
      * destruct s as [a|]; cbn [first_bound] in B1; [ specialize (U a eq_refl); lia | apply B1; exact D ].
      * destruct e as [b|]; cbn [option_map last_bound] in B2; [ specialize (V b eq_refl); lia | apply B2; exact D ].
  - intros Z0. assert (In lo (listed (tc_dates c) x)) as L by (apply M; split; [ exact I1 | lia ]). rewrite Z0 in L. destruct L.
  - destruct X as [-> | ->]; [ left; split; reflexivity | right; reflexivity ].
Qed.
Lemma enumerated_ok : forall c s e, on_calendar c s e -> exists x, enumerated c s e = Ok x.
Proof.
  intros c s e [A [B C]]. unfold enumerated, closed_interval. apply expand_ok.
  - exact A.
  - intros b H. destruct e as [v|]; [ | discriminate ]. cbn [option_map] in H. injection H as <-. apply B. reflexivity.
  - intros a b -> H. destruct e as [v|]; [ | discriminate ]. cbn [option_map] in H. injection H as <-. specialize (C a v eq_refl eq_refl). lia.
Qed.
Lemma enumerated_iff : forall c s e, calendar c -> ((exists x, enumerated c s e = Ok x) <-> on_calendar c s e).
Proof.
  intros c s e K. split; [ intros [x H]; exact (proj1 (enumerated_inv c s e x K H)) | apply enumerated_ok ].
Qed.
Lemma enumerated_err : forall c s e v, calendar c -> enumerated c s e = Err v -> v = ValueError.
Proof.
  intros c s e v [N _] H. unfold enumerated, closed_interval in H. unfold expand_days in H. destruct (tc_dates c) as [|a r]; [ contradiction | ].
  destruct s as [sv|], e as [ev|]; cbn [option_map] in H.
  - destruct (negb (day_in sv (a :: r))); cbn [raise_if rbind] in H; [ congruence | ].
    destruct (negb (day_in (Z.sub ev (tc_days c)) (a :: r))); cbn [raise_if rbind] in H; [ congruence | ].
    destruct (Z.ltb _ _); cbn [raise_if] in H; [ congruence | ]. destruct (_ && _); discriminate.
  - destruct (negb (day_in sv (a :: r))); cbn [raise_if rbind] in H; [ congruence | ].
    destruct (Z.ltb _ _); cbn [raise_if] in H; [ congruence | ]. destruct (_ && _); discriminate.
  - cbn [rbind] in H. destruct (negb (day_in (Z.sub ev (tc_days c)) (a :: r))); cbn [raise_if rbind] in H; [ congruence | ].
    destruct (Z.ltb _ _); cbn [raise_if] in H; [ congruence | ]. destruct (_ && _); discriminate.
  - discriminate.
Qed.

Lemma rev_last : forall (A : Type) (l : list A) d, l <> [] -> hd_error (rev l) = Some (last l d).
Proof. intros A l d N. rewrite (app_removelast_last d N) at 1. rewrite rev_unit. reflexivity. Qed.

Lemma intervals_lemma : forall c agg s e tag x is, calendar c -> enumerated c s e = Ok x -> build_intervals c agg s e tag = Ok is ->
  reported c agg tag (listed (tc_dates c) x) is.
Proof.
  intros c agg s e tag x is K X H. unfold build_intervals, collapse, each_interval in H. rewrite X in H. cbn [rbind] in H.
  destruct (enumerated_inv c s e x K X) as [_ [_ [N _]]]. fold (listed (tc_dates c) x) in H. unfold reported.
  destruct agg.
  - destruct (listed (tc_dates c) x) as [|a r] eqn:L; [ contradiction | ]. cbn [rbind] in H. injection H as <-.
    exists a, (last (a :: r) a). split; [ reflexivity | ]. split; [ apply rev_last; discriminate | reflexivity ].
  - injection H as <-. reflexivity.
Qed.
Lemma intervals_ok : forall c agg s e tag x, calendar c -> enumerated c s e = Ok x -> exists is, build_intervals c agg s e tag = Ok is.
Proof.
  intros c agg s e tag x K X. unfold build_intervals, collapse, each_interval. rewrite X. cbn [rbind].
  destruct (enumerated_inv c s e x K X) as [_ [_ [N _]]]. fold (listed (tc_dates c) x).
  destruct agg; [ | eexists; reflexivity ]. destruct (listed (tc_dates c) x) as [|a r]; [ contradiction | ]. eexists; reflexivity.
Qed.
Lemma interval_starts : forall c agg tag l is i, reported c agg tag l is -> In i is -> In (i_start i) l.
Proof.
  intros c [|] tag l is i R I; unfold reported in R.
  - destruct R as [a [b [A [_ ->]]]]. destruct I as [<-|[]]. destruct l as [|y r]; [ discriminate | ]. injection A as ->. left. reflexivity.
  - subst is. apply in_map_iff in I. destruct I as [d [<- D]]. exact D.
Qed.

Lemma flags_lemma : forall c s e x, enumerated c s e = Ok x -> forall f, selected_flags c s e = Ok f -> flags c (listed (tc_dates c) x) f.
Proof.
  intros c s e x X f H. unfold selected_flags in H. rewrite X in H. cbn [rbind] in H. injection H as <-.
  destruct x as [l|]; cbn [option_map listed]; [ right | left; split; reflexivity ].
  exists (map (fun t => day_in t l) (tc_dates c)). split; [ reflexivity | ]. split; [ apply map_length | ].
  intros k d b D B. rewrite (map_nth_error (fun t => day_in t l) _ _ D) in B. injection B as <-. apply day_in_spec.
Qed.

(** Tables. *)
Lemma dget_in : forall (A : Type) (l : list (string * A)) k x, dget l k = Some x -> In (k, x) l.
Proof.
  intros A l. induction l as [|[n y] r IH]; intros k x H; cbn [dget] in H; [ discriminate | ].
  destruct (String.eqb_spec n k) as [->|_]; [ injection H as ->; left; reflexivity | right; exact (IH k x H) ].
Qed.
Lemma dget_some : forall (A : Type) (l : list (string * A)) k, In k (map fst l) -> exists x, dget l k = Some x.
Proof.
  intros A l. induction l as [|[n y] r IH]; intros k H; cbn [dget map fst] in *; [ destruct H | ].
  destruct (String.eqb_spec n k) as [_|E]; [ eexists; reflexivity | ]. destruct H as [H|H]; [ contradiction | exact (IH k H) ].
Qed.
Lemma dget_none : forall (A : Type) (l : list (string * A)) k, dget l k = None -> ~ In k (map fst l).
Proof. intros A l k H I. destruct (dget_some A l k I) as [x E]. congruence. Qed.
Lemma day_index_spec : forall t l i, day_index t l = Some i -> nth_error l i = Some t.
Proof.
  intros t l. induction l as [|x r IH]; intros i H; cbn [day_index] in H; [ discriminate | ].
  destruct (Z.eqb_spec x t) as [->|_]; [ injection H as <-; reflexivity | ].
  destruct (day_index t r) as [j|]; [ | discriminate ]. injection H as <-. exact (IH j eq_refl).
Qed.
Lemma day_index_some : forall t l, In t l -> exists i, day_index t l = Some i /\ (i < length l)%nat.
Proof.
  intros t l. induction l as [|x r IH]; intros H; [ destruct H | ]. cbn [day_index length].
  destruct (Z.eqb_spec x t) as [_|E]; [ exists 0%nat; split; [ reflexivity | lia ] | ].
  destruct H as [H|H]; [ contradiction | ]. destruct (IH H) as [i [-> L]]. exists (S i). split; [ reflexivity | lia ].
Qed.
Lemma sel_cell : forall d d' name t c, sel d name (when d' t) = Ok c -> cell_at d name t c.
Proof.
  intros d d' name t c H. unfold sel in H. destruct (dget (d_rows d) name) as [row|] eqn:G; [ | discriminate ].
  exists row. split; [ exact (dget_in _ _ _ _ G) | ].
  destruct (d_times d) as [ts|]; unfold when in H; destruct (d_times d') as [ts'|]; try discriminate.
  - destruct (day_index t ts) as [i|] eqn:I; [ | discriminate ]. exists i. split; [ exact (day_index_spec _ _ _ I) | ].
    destruct (nth_error row i); [ injection H as ->; reflexivity | discriminate ].
  - destruct row as [|c0 [|? ?]]; try discriminate. injection H as ->. reflexivity.
Qed.
Lemma sel_total : forall d d' names times name t, shape times names d -> d_times d' = times -> In name names ->
  (forall ts, times = Some ts -> In t ts) -> exists c, sel d name (when d' t) = Ok c.
Proof.
  intros d d' names times name t [T [N R]] W I D. unfold sel, when. rewrite T, W.
  rewrite <- N in I. destruct (dget_some _ _ _ I) as [row G]. rewrite G. specialize (R name row (dget_in _ _ _ _ G)).
  destruct times as [ts|].
  - destruct (day_index_some t ts (D ts eq_refl)) as [i [E L]]. rewrite E.
    destruct (nth_error row i) as [c|] eqn:X; [ exists c; reflexivity | ]. apply nth_error_None in X. lia.
  - destruct row as [|c [|? ?]]; cbn [length] in R; try lia. exists c. reflexivity.
Qed.
