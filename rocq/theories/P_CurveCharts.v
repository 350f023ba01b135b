(** Proofs about the charts of response curves and the range of the waterfall chart. *)
From Coq Require Import Reals QArith ZArith Lia Lqa String List Bool Arith Permutation Sorted.
From Verif Require Import Lib_Sum M_Base Lib_Sort M_Report M_CurveCharts S_CurveCharts.
From Verif Require M_FitChart P_FitChart2 P_MediaSummary S_Report P_Report.
Import ListNotations.
Local Open Scope nat_scope.
Local Open Scope list_scope.

(** ** Lists *)
Lemma weaken : forall A (R S : A -> A -> Prop) l, (forall a b, In a l -> In b l -> R a b -> S a b) -> StronglySorted R l -> StronglySorted S l.
Proof.
  intros A R S l H Hs. induction Hs as [|a l Hs IH Ha]; constructor.
  - apply IH. intros x y Hx Hy. apply H; right; assumption.
  - rewrite Forall_forall in *. intros b Hb. apply H; [left; reflexivity|right; exact Hb|exact (Ha b Hb)].
Qed.
Lemma sorted_first_rest : forall A (R : A -> A -> Prop) k l a b, StronglySorted R l -> In a (firstn k l) -> In b (skipn k l) -> R a b.
Proof.
  induction k as [|k IH]; intros l a b Hs Ha Hb; [destruct Ha|]. destruct l as [|x l]; [destruct Ha|]. cbn in Ha, Hb.
  inversion Hs as [|? ? Hs' Hx]; subst. destruct Ha as [<-|Ha].
  - rewrite Forall_forall in Hx. apply Hx. rewrite <- (firstn_skipn k l). apply in_or_app. right. exact Hb.
  - exact (IH l a b Hs' Ha Hb).
Qed.
Lemma sorted_firstn : forall A (R : A -> A -> Prop) k l, StronglySorted R l -> StronglySorted R (firstn k l).
Proof.
  induction k as [|k IH]; intros l Hs; [constructor|]. destruct l as [|x l]; [constructor|]. cbn.
  inversion Hs as [|? ? Hs' Hx]; subst. constructor; [apply IH; exact Hs'|]. rewrite Forall_forall in *. intros b Hb.
  apply Hx. exact (P_FitChart2.firstn_incl _ _ _ _ Hb).
Qed.
Lemma sorted_rev : forall A (R : A -> A -> Prop) l, StronglySorted R l -> StronglySorted (fun a b => R b a) (rev l).
Proof.
  intros A R l Hs. induction Hs as [|a l Hs IH Ha]; cbn; [constructor|].
  assert (G : forall m, StronglySorted (fun a b => R b a) m -> (forall x, In x m -> R a x) -> StronglySorted (fun a b => R b a) (m ++ [a])).
  { induction m as [|x m IHm]; intros Hm Hx; cbn; [constructor; constructor|]. inversion Hm as [|? ? Hm' Hxm]; subst. constructor.
    - apply IHm; [exact Hm'|]. intros y Hy. apply Hx. right. exact Hy.
    - apply Forall_app. split; [exact Hxm|]. constructor; [apply Hx; left; reflexivity|constructor]. }
  apply G; [exact IH|]. rewrite Forall_forall in Ha. intros x Hx. apply Ha. apply in_rev. exact Hx.
Qed.
Lemma insert_map : forall A B (f : A -> B) le a l,
  insert le (f a) (map f l) = map f (insert (fun x y => le (f x) (f y)) a l).
Proof. induction l as [|b l IH]; cbn; [reflexivity|]. destruct (le (f a) (f b)); cbn; [reflexivity|]. rewrite IH. reflexivity. Qed.
Lemma isort_map : forall A B (f : A -> B) le l, isort le (map f l) = map f (isort (fun x y => le (f x) (f y)) l).
Proof. induction l as [|b l IH]; cbn; [reflexivity|]. fold (isort le (map f l)). rewrite IH. apply insert_map. Qed.
Lemma filter_perm : forall A (f : A -> bool) l m, Permutation l m -> Permutation (filter f l) (filter f m).
Proof.
  intros A f l m P. induction P; cbn; [constructor|destruct (f x); [constructor|]; exact IHP| |etransitivity; eauto].
  destruct (f x), (f y); try apply Permutation_refl. apply perm_swap.
Qed.
Lemma flat_perm : forall A B (f : A -> list B) l m, Permutation l m -> Permutation (flat_map f l) (flat_map f m).
Proof.
  intros A B f l m P. induction P; cbn; [constructor|apply Permutation_app_head; exact IHP| |etransitivity; eauto].
  rewrite !app_assoc. apply Permutation_app_tail, Permutation_app_comm.
Qed.
Lemma first_most : forall A (has : A -> Q -> Prop) (R : A -> A -> Prop) k all l,
  Permutation all l -> StronglySorted R l -> (forall a b v w, R a b -> has a v -> has b w -> (w <= v)%Q) ->
  the_most has k all (firstn k l).
Proof.
  intros A has R k all l P Hs H. split.
  - rewrite firstn_length, (Permutation_length P). reflexivity.
  - exists (skipn k l). split; [rewrite firstn_skipn; exact P|]. intros a b v w Ha Hb. apply H. exact (sorted_first_rest _ _ _ _ _ _ Hs Ha Hb).
Qed.

(** ** The layered chart *)
Lemma count_lemma : forall total wanted,
  shown_count total false wanted =
  Z.max 1 (Z.min (match wanted with Some k => k | None => 7 end) (Z.min (Z.of_nat total) 10)).
Proof.
  intros total wanted. unfold shown_count. cbv zeta. destruct wanted as [k|].
  - destruct (Z.ltb_spec (Z.min (Z.of_nat total) 10) k); [destruct (Z.ltb_spec (Z.min (Z.of_nat total) 10) 1)|destruct (Z.ltb_spec k 1)]; lia.
  - destruct (Z.leb_spec 7 (Z.of_nat total)).
    + destruct (Z.ltb_spec (Z.min (Z.of_nat total) 10) 7); [lia|]. cbn [Z.ltb Z.compare Pos.compare Pos.compare_cont]. lia.
    + rewrite Z.ltb_irrefl. destruct (Z.ltb_spec (Z.min (Z.of_nat total) 10) 1); lia.
Qed.

Lemma index_one : forall l, (exists i, i < length l /\ (nth i l 0 == 1)%Q) ->
  exists k, M_FitChart.index_by Qeq_bool 1%Q l = Some k /\ k < length l /\ (nth k l 0 == 1)%Q.
Proof.
  induction l as [|a l IH]; intros (i & Hi & E); [cbn in Hi; lia|]. cbn [M_FitChart.index_by].
  destruct (Qeq_bool 1 a) eqn:Ea.
  - exists 0. split; [reflexivity|]. split; [cbn; lia|]. apply Qeq_bool_iff in Ea. cbn. symmetry. exact Ea.
  - destruct i as [|i]; [cbn in E; symmetry in E; apply Qeq_bool_iff in E; congruence|]. cbn in Hi, E.
    destruct IH as (k & Ek & Hk & E1); [exists i; split; [lia|exact E]|]. exists (S k). rewrite Ek. split; [reflexivity|].
    split; [cbn; lia|exact E1].
Qed.

Lemma row_leb_spec : forall a b, row_leb a b = true <-> row_before a b.
Proof.
  intros a b. unfold row_leb, row_before. destruct (String.compare (r_name a) (r_name b)) eqn:E.
  - apply String.compare_eq_iff in E. destruct (Qcompare_spec (r_spend a) (r_spend b)) as [Es|Es|Es].
    + rewrite Qle_bool_iff. split; [intros H; right; auto|]. intros [H|[_ [H|[_ H]]]]; [discriminate|rewrite Es in H; destruct (Qlt_irrefl _ H)|exact H].
    + split; auto.
    + split; [discriminate|]. intros [H|[_ [H|[H _]]]]; [discriminate| |]; exfalso; [|rewrite H in Es; exact (Qlt_irrefl _ Es)].
      exact (Qlt_irrefl _ (Qlt_trans _ _ _ Es H)).
  - split; auto.
  - split; [discriminate|]. intros [H|[H _]]; [discriminate|]. rewrite H, P_MediaSummary.compare_refl in E. discriminate.
Qed.
Lemma row_total : forall a b, row_leb a b = true \/ row_leb b a = true.
Proof.
  intros a b. rewrite !row_leb_spec. unfold row_before. destruct (String.compare (r_name a) (r_name b)) eqn:E; auto.
  - apply String.compare_eq_iff in E. destruct (Qlt_le_dec (r_spend a) (r_spend b)) as [H|H]; [left; auto|].
    destruct (Qlt_le_dec (r_spend b) (r_spend a)) as [H'|H']; [right; right; auto|].
    assert (Q : (r_spend a == r_spend b)%Q) by (apply Qle_antisym; assumption).
    destruct (Qlt_le_dec (r_mult a) (r_mult b)) as [L|L]; [left; right; split; [exact E|]; right; split; [exact Q|apply Qlt_le_weak; exact L]|].
    right. right. split; [auto|]. right. split; [symmetry; exact Q|exact L].
  - right. left. rewrite String.compare_antisym, E. reflexivity.
Qed.
Lemma row_trans : forall a b c, row_leb a b = true -> row_leb b c = true -> row_leb a c = true.
Proof.
  intros a b c. rewrite !row_leb_spec. unfold row_before. intros [H|[H H1]] [G|[G G1]].
  - left. exact (P_MediaSummary.compare_trans _ _ _ H G).
  - left. rewrite <- G. exact H.
  - left. rewrite H. exact G.
  - right. split; [congruence|]. destruct H1 as [H1|[H1 H2]], G1 as [G1|[G1 G2]].
    + left. exact (Qlt_trans _ _ _ H1 G1).
    + left. rewrite <- G1. exact H1.
    + left. rewrite H1. exact G1.
    + right. split; [rewrite H1; exact G1|exact (Qle_trans _ _ _ H2 G2)].
Qed.

Lemma rows_are : forall mult top,
  Forall2 (fun ci r => is_row mult (fst ci) (snd ci) r) (list_prod top (seq 0 (length mult))) (flat_map (rows_of mult) top).
Proof.
  intros mult top. induction top as [|c top IH]; cbn [list_prod flat_map]; [constructor|]. apply Forall2_app; [|exact IH].
  unfold rows_of. generalize (seq 0 (length mult)). intros l. induction l as [|i l IHl]; cbn [map]; constructor; [|exact IHl].
  unfold is_row. cbn. repeat (split; [reflexivity|]). apply Qeq_bool_iff.
Qed.

Lemma layered_lemma : forall total separate wanted mult curves, mult_ok mult ->
  exists n table top,
    plot_curves total separate wanted mult curves = Ok (n, table) /\
    n = shown_count total separate wanted /\
    the_most (spends mult) (Z.to_nat n) curves top /\
    (exists rows, Forall2 (fun ci r => is_row mult (fst ci) (snd ci) r) (list_prod top (seq 0 (length mult))) rows /\ Permutation table rows) /\
    StronglySorted row_before table.
Proof.
  intros total separate wanted mult curves [H1 Hu]. destruct (index_one mult H1) as (k & Ek & Hk & E1).
  unfold plot_curves, chart_table. rewrite Ek. cbn [rbind].
  set (n := shown_count total separate wanted).
  assert (Hn : (0 <= n)%Z). { unfold n. destruct separate; [cbn; lia|]. rewrite count_lemma. lia. }
  set (leb := fun a b => Qle_bool (v_spend (c_at a k)) (v_spend (c_at b k))).
  rewrite (P_FitChart2.slice_pos _ n _ Hn). set (top := firstn (Z.to_nat n) (rev (isort leb curves))).
  exists n, (isort row_leb (flat_map (rows_of mult) top)), top. split; [reflexivity|]. split; [reflexivity|].
  split; [|split].
  - assert (Sx : le_sorted leb (isort leb curves)).
    { apply isort_sorted.
      - intros a b. unfold leb. rewrite !Qle_bool_iff. destruct (Qlt_le_dec (v_spend (c_at a k)) (v_spend (c_at b k))) as [L|L]; [left; apply Qlt_le_weak; exact L|right; exact L].
      - intros a b c. unfold leb. rewrite !Qle_bool_iff. apply Qle_trans. }
    apply (first_most _ _ (fun a b => leb b a = true)).
    + transitivity (isort leb curves); [apply isort_perm|apply Permutation_rev].
    + exact (sorted_rev _ _ _ Sx).
    + intros a b v w H (i & Hi & Ei & ->) (j & Hj & Ej & ->). unfold leb in H. apply Qle_bool_iff in H.
      assert (i = k) by (apply Hu; auto; rewrite Ei, E1; reflexivity).
      assert (j = k) by (apply Hu; auto; rewrite Ej, E1; reflexivity). subst. exact H.
  - exists (flat_map (rows_of mult) top). split; [apply rows_are|]. apply Permutation_sym, isort_perm.
  - apply (weaken _ (fun a b => row_leb a b = true)); [intros a b _ _; apply row_leb_spec|].
    exact (isort_sorted _ row_total row_trans _).
Qed.

(** ** The optimizer's table *)
Definition marks_of (h : chan) : list mark := curve_marks h ++ [opt_mark h; non_mark h].
Lemma marks_perm : forall channels,
  Permutation (isort mark_leb (flat_map curve_marks channels) ++ map opt_mark channels ++ map non_mark channels) (flat_map marks_of channels).
Proof.
  intros channels. etransitivity; [apply Permutation_app_tail, Permutation_sym, isort_perm|].
  induction channels as [|h l IH]; [constructor|]. cbn [flat_map map]. unfold marks_of at 1. rewrite <- !app_assoc. apply Permutation_app_head.
  cbn [app]. etransitivity; [apply Permutation_sym, Permutation_middle|]. constructor.
  rewrite app_assoc. etransitivity; [apply Permutation_sym, Permutation_middle|]. constructor. rewrite <- app_assoc. exact IH.
Qed.
Lemma filter_name : forall channels h, NoDup (map h_name channels) -> In h channels ->
  filter (fun g => String.eqb (h_name g) (h_name h)) channels = [h].
Proof.
  induction channels as [|g l IH]; intros h N Hh; [destruct Hh|]. cbn [map] in N. inversion N as [|? ? N1 N2]; subst. cbn [filter].
  destruct Hh as [->|Hh].
  - rewrite String.eqb_refl. f_equal. clear IH N N2. induction l as [|g l IH]; [reflexivity|]. cbn [filter].
    destruct (String.eqb_spec (h_name g) (h_name h)) as [E|_]; [exfalso; apply N1; left; exact E|]. apply IH. intros H. apply N1. right. exact H.
  - destruct (String.eqb_spec (h_name g) (h_name h)) as [E|_]; [exfalso; apply N1; rewrite E; apply in_map; exact Hh|]. apply IH; assumption.
Qed.
Lemma merge_marks : forall channels h, NoDup (map h_name channels) -> In h channels -> merge_limits channels (marks_of h) = channel_rows h.
Proof.
  intros channels h N Hh. unfold merge_limits, marks_of, channel_rows, curve_marks. rewrite flat_map_app.
  f_equal; [|cbn [flat_map opt_mark non_mark m_name]; rewrite !(filter_name _ _ N Hh); reflexivity].
  induction (h_curve h) as [|p l IH]; [reflexivity|]. cbn [map flat_map m_name]. rewrite (filter_name _ _ N Hh). cbn [map app]. f_equal. exact IH.
Qed.
Lemma merged_perm : forall channels, NoDup (map h_name channels) ->
  Permutation (merge_limits channels (isort mark_leb (flat_map curve_marks channels) ++ map opt_mark channels ++ map non_mark channels))
    (flat_map channel_rows channels).
Proof.
  intros channels N. unfold merge_limits. etransitivity; [apply flat_perm, marks_perm|].
  fold (merge_limits channels (flat_map marks_of channels)).
  assert (G : forall l, (forall h, In h l -> In h channels) -> merge_limits channels (flat_map marks_of l) = flat_map channel_rows l).
  { induction l as [|h l IH]; intros Hl; [reflexivity|]. cbn [flat_map]. unfold merge_limits. rewrite flat_map_app.
    fold (merge_limits channels (marks_of h)). fold (merge_limits channels (flat_map marks_of l)).
    rewrite (merge_marks _ _ N (Hl h (or_introl eq_refl))). f_equal. apply IH. intros g Hg. apply Hl. right. exact Hg. }
  rewrite G; auto.
Qed.
Lemma row_name : forall h r, In r (channel_rows h) -> m_name (l_mark r) = h_name h.
Proof.
  intros h r H. unfold channel_rows in H. apply in_app_iff in H. destruct H as [H|H].
  - apply in_map_iff in H. destruct H as (p & <- & _). reflexivity.
  - destruct H as [<-|[<-|[]]]; reflexivity.
Qed.
Lemma filter_rows : forall (f : string -> bool) l,
  filter (fun r => f (m_name (l_mark r))) (flat_map channel_rows l) = flat_map channel_rows (filter (fun h => f (h_name h)) l).
Proof.
  intros f l. induction l as [|h l IH]; [reflexivity|]. cbn [flat_map filter]. rewrite filter_app, IH.
  assert (G : forall m, (forall r, In r m -> m_name (l_mark r) = h_name h) ->
    filter (fun r => f (m_name (l_mark r))) m = if f (h_name h) then m else []).
  { induction m as [|r m IHm]; intros Hm; [destruct (f (h_name h)); reflexivity|]. cbn [filter]. rewrite (Hm r (or_introl eq_refl)).
    rewrite IHm by (intros q Hq; apply Hm; right; exact Hq). destruct (f (h_name h)); reflexivity. }
  rewrite (G _ (row_name h)). destruct (f (h_name h)); reflexivity.
Qed.
Lemma rank_in : forall top a, In a top -> nth_error top (rank top a) = Some a /\ rank top a < length top.
Proof.
  induction top as [|b l IH]; intros a H; [destruct H|]. cbn [rank]. destruct (String.eqb_spec a b) as [->|Ne]; [cbn; split; [reflexivity|lia]|].
  destruct H as [->|H]; [congruence|]. destruct (IH a H) as [H1 H2]. cbn. split; [exact H1|lia].
Qed.
Lemma inside_spec : forall a l, existsb (String.eqb a) l = true <-> In a l.
Proof.
  intros a l. rewrite existsb_exists. split; [intros (b & Hb & E); apply String.eqb_eq in E; subst; exact Hb|].
  intros H. exists a. split; [exact H|apply String.eqb_refl].
Qed.

Definition spend_leb (a b : chan) : bool := Qle_bool (fst (h_opt b)) (fst (h_opt a)).
Lemma spend_sorted : forall l, le_sorted spend_leb (isort spend_leb l).
Proof.
  intros l. apply isort_sorted.
  - intros a b. unfold spend_leb. rewrite !Qle_bool_iff. destruct (Qlt_le_dec (fst (h_opt b)) (fst (h_opt a))) as [L|L]; [left; apply Qlt_le_weak; exact L|right; exact L].
  - intros a b c. unfold spend_leb. rewrite !Qle_bool_iff. intros H G. exact (Qle_trans _ _ _ G H).
Qed.
Lemma top_names : forall channels k, (0 < k <= Z.of_nat (length channels))%Z ->
  top_channels (map (fun h => (h_name h, fst (h_opt h))) channels) k = Ok (map h_name (firstn (Z.to_nat k) (isort spend_leb channels))).
Proof.
  intros channels k Hk. unfold top_channels. rewrite map_length. destruct (Z.ltb_spec (Z.of_nat (length channels)) k); [lia|]. cbn [raise_if].
  rewrite isort_map. cbn [snd]. fold spend_leb. rewrite map_map. cbn [fst]. rewrite P_FitChart2.slice_pos by lia. rewrite firstn_map. reflexivity.
Qed.

Lemma optimizer_lemma : forall channels k, NoDup (map h_name channels) -> (0 < k <= Z.of_nat (length channels))%Z ->
  exists top table,
    plottable channels (Some k) = Ok table /\
    the_most (fun h v => v = fst (h_opt h)) (Z.to_nat k) channels top /\ StronglySorted more_optimized top /\
    Permutation table (flat_map channel_rows top) /\ StronglySorted (in_channel_order top) table.
Proof.
  intros channels k N Hk. unfold plottable. cbv zeta. destruct (Z.eqb_spec k 0); [lia|]. rewrite (top_names _ _ Hk). cbn [rbind].
  set (top := firstn (Z.to_nat k) (isort spend_leb channels)).
  set (merged := merge_limits channels _).
  set (rleb := fun a b : limited => Nat.leb _ _). set (kept := filter _ merged).
  exists top, (isort rleb kept). split; [reflexivity|].
  assert (Sx := spend_sorted channels).
  assert (Px : Permutation channels (isort spend_leb channels)) by apply isort_perm.
  split; [|split; [|]].
  - apply (first_most _ _ (fun a b => spend_leb a b = true)); [exact Px|exact Sx|]. intros a b v w H -> ->. apply Qle_bool_iff. exact H.
  - apply sorted_firstn. apply (weaken _ (fun a b => spend_leb a b = true)); [|exact Sx]. intros a b _ _ H. apply Qle_bool_iff. exact H.
  - assert (Pt : Permutation (isort rleb kept) (flat_map channel_rows top)).
    { etransitivity; [apply Permutation_sym, isort_perm|]. unfold kept.
      etransitivity; [apply filter_perm, (merged_perm _ N)|].
      rewrite (filter_rows (fun a => existsb (String.eqb a) (map h_name top))). apply flat_perm.
      etransitivity; [apply filter_perm, Px|]. rewrite <- (firstn_skipn (Z.to_nat k) (isort spend_leb channels)). fold top. rewrite filter_app.
      assert (Nx : NoDup (map h_name (top ++ skipn (Z.to_nat k) (isort spend_leb channels)))).
      { unfold top. rewrite firstn_skipn. apply (Permutation_NoDup (Permutation_map h_name Px)). exact N. }
      assert (F1 : forall l, (forall h, In h l -> In h top) -> filter (fun h => existsb (String.eqb (h_name h)) (map h_name top)) l = l).
      { induction l as [|h l IH]; intros Hl; [reflexivity|]. cbn [filter].
        rewrite (proj2 (inside_spec _ _)) by (apply in_map, Hl; left; reflexivity). f_equal. apply IH. intros g Hg. apply Hl. right. exact Hg. }
      rewrite F1 by auto.
      assert (F2 : forall l, NoDup (map h_name (top ++ l)) -> filter (fun h => existsb (String.eqb (h_name h)) (map h_name top)) l = []).
      { induction l as [|h l IH]; intros Nl; [reflexivity|]. cbn [filter]. rewrite map_app in Nl. cbn [map] in Nl.
        assert (A := NoDup_remove _ _ _ Nl). destruct A as [A1 A2].
        destruct (existsb (String.eqb (h_name h)) (map h_name top)) eqn:E; [exfalso; apply A2; apply in_or_app; left; apply inside_spec; exact E|].
        apply IH. rewrite map_app. exact A1. }
      rewrite (F2 _ Nx), app_nil_r. apply Permutation_refl. }
    split; [exact Pt|].
    apply (weaken _ (fun a b => rleb a b = true)).
    + intros a b Ha Hb H. apply Nat.leb_le in H.
      assert (G : forall r, In r (isort rleb kept) -> In (m_name (l_mark r)) (map h_name top)).
      { intros r Hr. apply isort_in in Hr. apply filter_In in Hr. apply inside_spec. apply Hr. }
      destruct (rank_in _ _ (G a Ha)) as [A1 A2]. destruct (rank_in _ _ (G b Hb)) as [B1 B2]. rewrite map_length in B2.
      exists (rank (map h_name top) (m_name (l_mark a))), (rank (map h_name top) (m_name (l_mark b))). split; [split; assumption|]. split; assumption.
    + apply isort_sorted; unfold rleb; [intros a b; rewrite !Nat.leb_le; lia|intros a b c; rewrite !Nat.leb_le; lia].
Qed.
Lemma all_lemma : forall channels n, NoDup (map h_name channels) -> n = None \/ n = Some 0%Z ->
  exists table, plottable channels n = Ok table /\ Permutation table (flat_map channel_rows channels).
Proof.
  intros channels n N Hn. eexists. split; [|apply (merged_perm _ N)]. destruct Hn as [-> | ->]; reflexivity.
Qed.

(** ** The lines *)
Lemma lines_lemma : forall r m, m_mult (l_mark r) = Some m -> ~ (m == 0)%Q -> (l_lower r <= l_upper r)%Q ->
  (solid r = true <-> (l_lower r <= m <= l_upper r)%Q) /\ (dashed r = true <-> (m <= l_lower r \/ l_upper r < m)%Q).
Proof.
  intros r m E Ne Hl. unfold solid, dashed, above_layer, below_layer, within. rewrite E. cbn [truthy].
  assert (T : Qeq_bool m 0 = false). { destruct (Qeq_bool m 0) eqn:Q; [apply Qeq_bool_iff in Q; contradiction|reflexivity]. }
  rewrite T. cbn [negb andb].
  assert (B : forall a b, Qle_bool a b = false <-> (b < a)%Q).
  { intros a b. split; [intros H; apply Qnot_le_lt; intros G; apply Qle_bool_iff in G; congruence|].
    intros H. destruct (Qle_bool a b) eqn:Q; [|reflexivity]. apply Qle_bool_iff in Q. destruct (Qlt_not_le _ _ H Q). }
  destruct (Qle_bool (l_lower r) m) eqn:E1; destruct (Qle_bool m (l_upper r)) eqn:E2; destruct (Qle_bool m (l_lower r)) eqn:E3;
    rewrite ?Qle_bool_iff, ?B in *; cbn [andb orb negb]; split; split; intros; try discriminate; try tauto; try lra;
    try (split; assumption); try (left; assumption); try (right; assumption); try reflexivity;
    try (match goal with H : _ \/ _ |- _ => destruct H end; lra); try (match goal with H : _ /\ _ |- _ => destruct H end; lra);
    try (left; lra); try (right; lra).
Qed.

(** ** The range of the waterfall chart *)
From Coq Require Import Lra.
Local Open Scope R_scope.
Lemma decr_perm : forall l m, Permutation l m -> sum_decr l = sum_decr m.
Proof.
  intros l m P. induction P; cbn [sum_decr fold_right]; [reflexivity| | |congruence].
  - unfold sum_decr in IHP. rewrite IHP. reflexivity.
  - destruct (Rlt_dec (snd y) 0), (Rlt_dec (snd x) 0); try reflexivity. ring.
Qed.
Lemma decr_nonpos : forall l, sum_decr l <= 0.
Proof. induction l as [|a l IH]; cbn [sum_decr fold_right]; [lra|]. fold (sum_decr l). destruct (Rlt_dec (snd a) 0); lra. Qed.
Lemma decr_nonneg : forall l, (forall a, In a l -> 0 <= snd a) -> sum_decr l = 0.
Proof.
  induction l as [|a l IH]; intros H; [reflexivity|]. cbn [sum_decr fold_right]. fold (sum_decr l).
  destruct (Rlt_dec (snd a) 0) as [L|_]; [pose proof (H a (or_introl eq_refl)); lra|]. apply IH. intros b Hb. apply H. right. exact Hb.
Qed.
Lemma steps_up : forall s rows bars e, S_Report.steps s rows bars e -> (forall a, In a rows -> 0 <= snd a) -> s <= e.
Proof.
  intros s rows bars e H. induction H as [|s name v rows bars e H IH]; intros Hn; [lra|].
  pose proof (Hn (name, v) (or_introl eq_refl)) as Hv. cbn in Hv. specialize (IH (fun a Ha => Hn a (or_intror Ha))). lra.
Qed.
Lemma steps_range : forall s rows bars e, S_Report.steps s rows bars e -> StronglySorted S_Report.row_before rows ->
  forall name a b, In (name, a, b) bars ->
    (s + sum_decr rows <= a /\ a <= Rmax s e) /\ (s + sum_decr rows <= b /\ b <= Rmax s e).
Proof.
  intros s rows bars e H. induction H as [|s name v rows bars e H IH]; intros Hs n a b Hin; [destruct Hin|].
  inversion Hs as [|? ? Hs' Hv]; subst. rewrite Forall_forall in Hv. cbn [sum_decr fold_right snd]. fold (sum_decr rows).
  pose proof (decr_nonpos rows) as Np. pose proof (Rmax_l s e) as M1. pose proof (Rmax_r s e) as M2.
  destruct (Rlt_dec v 0) as [L|L].
  - destruct Hin as [E|Hin].
    + injection E as <- <- <-. lra.
    + destruct (IH Hs' _ _ _ Hin) as [[A1 A2] [B1 B2]]. assert (Rmax (s + v) e <= Rmax s e) by (apply Rmax_lub; lra). lra.
  - assert (Nn : forall x, In x rows -> 0 <= snd x).
    { intros x Hx. destruct (Hv x Hx) as [[P1 _]|[[P1 P2]|[P1 _]]]; cbn [snd] in *; lra. }
    pose proof (steps_up _ _ _ _ H Nn) as Up. rewrite (decr_nonneg _ Nn) in *. destruct Hin as [E|Hin].
    + injection E as <- <- <-. lra.
    + destruct (IH Hs' _ _ _ Hin) as [[A1 A2] [B1 B2]]. rewrite Rmax_right in A2, B2 by lra. lra.
Qed.

Lemma ln10 : 0 < ln 10.
Proof. rewrite <- ln_1. apply ln_increasing; lra. Qed.
Lemma padding_lemma : forall d, d < 0 ->
  (1 <= - d -> y_padding d <= - d < 10 * y_padding d) /\ (- d < 1 -> y_padding d / 10 < - d <= y_padding d).
Proof.
  intros d Hd. unfold y_padding. destruct (Rlt_dec d 0) as [_|]; [|contradiction]. set (x := - d) in *. assert (X : 0 < x) by (unfold x; lra).
  pose proof ln10 as L10. set (t := ln x / ln 10). assert (T : t * ln 10 = ln x) by (unfold t; field; lra).
  assert (E : forall z, powerRZ 10 z = exp (IZR z * ln 10)) by (intros z; rewrite powerRZ_Rpower by lra; reflexivity).
  assert (TEN : exp (ln 10) = 10) by (apply exp_ln; lra).
  assert (XE : exp (t * ln 10) = x) by (rewrite T; apply exp_ln; exact X).
  assert (LE : forall a b, a <= b -> exp (a * ln 10) <= exp (b * ln 10)).
  { intros a b [H| ->]; [left; apply exp_increasing; apply Rmult_lt_compat_r; assumption|right; reflexivity]. }
  assert (LT : forall a b, a < b -> exp (a * ln 10) < exp (b * ln 10)) by (intros a b H; apply exp_increasing; apply Rmult_lt_compat_r; assumption).
  split; intros H.
  - assert (T0 : 0 <= t). { unfold t. apply Rmult_le_pos; [rewrite <- ln_1; destruct H as [H|H]; [left; apply ln_increasing; lra|rewrite <- H; lra]|left; apply Rinv_0_lt_compat; exact L10]. }
    unfold truncate. destruct (Rle_dec 0 t) as [_|]; [|contradiction]. rewrite E. destruct (base_Int_part t) as [B1 B2]. rewrite <- XE.
    split; [apply LE; exact B1|]. rewrite <- TEN at 2. rewrite <- exp_plus.
    replace (ln 10 + IZR (Int_part t) * ln 10) with ((1 + IZR (Int_part t)) * ln 10) by ring. apply LT. lra.
  - assert (T0 : t < 0). { assert (ln x < 0) by (rewrite <- ln_1; apply ln_increasing; lra). apply Rnot_le_lt. intros G. assert (0 <= t * ln 10) by (apply Rmult_le_pos; lra). lra. }
    unfold truncate. destruct (Rle_dec 0 t) as [|_]; [lra|]. rewrite E. destruct (base_Int_part (- t)) as [B1 B2]. rewrite opp_IZR. rewrite <- XE.
    split; [|apply LE; lra]. apply (Rmult_lt_reg_r 10); [lra|]. unfold Rdiv. rewrite Rmult_assoc, Rinv_l, Rmult_1_r by lra.
    rewrite <- TEN at 3. rewrite <- exp_plus. replace (t * ln 10 + ln 10) with ((t + 1) * ln 10) by ring. apply LT. lra.
Qed.
Lemma padding_pos : forall d, 0 < y_padding d.
Proof. intros d. unfold y_padding. destruct (Rlt_dec d 0); [apply powerRZ_lt; lra|lra]. Qed.

Lemma domain_lemma : forall names ro rn, ~ In "optimized"%string names ->
  rp_total_incremental ro = rsum (length names) (mean_incremental ro) ->
  rp_total_incremental rn = rsum (length names) (mean_incremental rn) ->
  rp_total_incremental rn <= rp_total_incremental ro ->
  forall name a b, In (name, a, b) (waterfall names ro rn) ->
    let (lo, hi) := domain_scale names ro rn in lo < b < hi /\ (a = 0 \/ lo < a < hi).
Proof.
  intros names ro rn N To Tn Le name a b Hin. unfold domain_scale. cbv zeta.
  set (d := sum_decr (waterfall_rows names ro rn)). pose proof (padding_pos d) as Pp.
  destruct (P_Report.waterfall_lemma names ro rn N To Tn) as (rows & bars & Ew & P & S & St). rewrite Ew in Hin.
  assert (D : d <= sum_decr rows).
  { unfold d, waterfall_rows. destruct (P_Report.delta_lemma names (mean_incremental ro) (mean_incremental rn)) as [P' _].
    assert (E : sum_decr (delta_rows names (mean_incremental ro) (mean_incremental rn)) = sum_decr rows).
    { apply decr_perm. etransitivity; [exact P'|apply Permutation_sym; exact P]. }
    set (dr := delta_rows _ _ _) in *. rewrite <- E.
    assert (A : forall l, sum_decr (l ++ [("optimized"%string, 0)]) = sum_decr l).
    { induction l as [|x l IH]; cbn [app sum_decr fold_right snd]; [destruct (Rlt_dec 0 0) as [F|_]; [destruct (Rlt_irrefl _ F)|reflexivity]|]. unfold sum_decr in IH. rewrite IH. reflexivity. }
    rewrite A. cbn [sum_decr fold_right snd]. fold (sum_decr dr). destruct (Rlt_dec (rp_total_incremental rn) 0); lra. }
  pose proof (decr_nonpos rows) as Np. assert (Nd : d <= 0) by lra.
  destruct Hin as [E|Hin]; [injection E as _ <- <-; split; [lra|left; reflexivity]|]. apply in_app_iff in Hin. destruct Hin as [Hin|Hin].
  - destruct (steps_range _ _ _ _ St S _ _ _ Hin) as [[A1 A2] [B1 B2]]. rewrite Rmax_right in A2, B2 by lra. split; [lra|right; lra].
  - destruct Hin as [E|[]]. injection E as _ <- <-. split; [lra|left; reflexivity].
Qed.
