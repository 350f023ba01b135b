From Coq Require Import Reals ZArith Lia Lra String List Sorted Bool Arith.
From Verif Require Import Lib_Sum M_Base M_Aggregate S_Aggregate.
From Verif Require P_Budget.
Import ListNotations.
Local Open Scope R_scope.

Lemma firstn_exact : forall A (l r : list A), firstn (length l) (l ++ r) = l.
Proof. intros. rewrite firstn_app, Nat.sub_diag, firstn_all. apply app_nil_r. Qed.
Lemma skipn_exact : forall A (l r : list A), skipn (length l) (l ++ r) = r.
Proof. intros. rewrite skipn_app, Nat.sub_diag, skipn_all. reflexivity. Qed.
Lemma skipn_S_exact : forall A (l : list A) a r, skipn (S (length l)) (l ++ a :: r) = r.
Proof.
  intros. replace (l ++ a :: r) with ((l ++ [a]) ++ r) by (rewrite <- app_assoc; reflexivity).
  replace (S (length l)) with (length (l ++ [a])) by (rewrite app_length; simpl; lia).
  apply skipn_exact.
Qed.
Lemma nth_exact : forall (l : list nat) a r, nth (length l) (l ++ a :: r) 0%nat = a.
Proof. intros. rewrite app_nth2 by lia. rewrite Nat.sub_diag. reflexivity. Qed.

Lemma replace_exact : forall l a v r, replace_at (length l) v (l ++ a :: r) = l ++ v :: r.
Proof. intros. unfold replace_at. rewrite firstn_exact, skipn_S_exact. reflexivity. Qed.
Lemma insert_exact : forall l v r, insert_at (length l) v (l ++ r) = l ++ v :: r.
Proof. intros. unfold insert_at. rewrite firstn_exact, skipn_exact. reflexivity. Qed.
Lemma remove_exact : forall l a r, remove_at (length l) (l ++ a :: r) = l ++ r.
Proof. intros. unfold remove_at. rewrite firstn_exact, skipn_S_exact. reflexivity. Qed.

Lemma snoc_app : forall A (l : list A) a r, l ++ a :: r = (l ++ [a]) ++ r.
Proof. intros. rewrite <- app_assoc. reflexivity. Qed.

(** Gathering along the axis after [lead]. *)
Lemma gather_opt_spec : forall x lead n rest idxs x1,
  shape x = lead ++ n :: rest -> gather_opt x idxs (length lead) = Ok x1 ->
  in_range n idxs /\
  shape x1 = lead ++ length (selection n idxs) :: rest /\
  forall l i r, length l = length lead -> (i < length (selection n idxs))%nat ->
    at_ x1 (l ++ i :: r) = at_ x (l ++ nth i (selection n idxs) 0%nat :: r).
Proof.
  intros x lead n rest idxs x1 Hs H. unfold gather_opt in H. destruct idxs as [l0|].
  - unfold gather in H. rewrite Hs, nth_exact in H.
    destruct (forallb _ l0) eqn:E; [|discriminate].
    injection H as <-. cbn [shape at_].
    split; [|split].
    + cbn. apply Forall_forall. intros i Hi. rewrite forallb_forall in E.
      apply Nat.ltb_lt. apply E, Hi.
    + rewrite replace_exact. reflexivity.
    + intros l i r Hl Hi. rewrite <- Hl. rewrite nth_exact, replace_exact. reflexivity.
  - assert (x1 = x) by congruence. subst x1. cbn [selection in_range]. rewrite seq_length.
    split; [exact I|]. split; [exact Hs|].
    intros l i r Hl Hi. rewrite seq_nth by exact Hi. reflexivity.
Qed.

Lemma gather_opt_ok : forall x lead n rest idxs,
  shape x = lead ++ n :: rest -> in_range n idxs ->
  exists x1, gather_opt x idxs (length lead) = Ok x1.
Proof.
  intros x lead n rest [l|] Hs H; cbn [gather_opt].
  - unfold gather. rewrite Hs, nth_exact.
    replace (forallb _ l) with true. eexists; reflexivity.
    symmetry. apply forallb_forall. intros i Hi. apply Nat.ltb_lt.
    cbn in H. rewrite Forall_forall in H. apply H, Hi.
  - eexists; reflexivity.
Qed.

Lemma lsum_map_ext : forall A (f g : A -> R) l, (forall a, In a l -> f a = g a) ->
  lsum (map f l) = lsum (map g l).
Proof. intros. f_equal. apply map_ext_in. assumption. Qed.

Lemma rsum_nth : forall (l : list nat) f,
  rsum (length l) (fun i => f (nth i l 0%nat)) = lsum (map f l).
Proof.
  induction l as [|a r IH]; intros f; [reflexivity|].
  cbn [length map lsum]. rewrite rsum_first. cbn [nth]. rewrite IH. reflexivity.
Qed.

Lemma total_members : forall l ag i f, (ag = true -> True) ->
  total (members l ag i) f = if ag then lsum (map f l) else f (nth i l 0%nat).
Proof.
  intros l [|] i f _; unfold total, members; [reflexivity|]. cbn. lra.
Qed.

(** The selection and aggregation step on the two axes after [lead]. *)
Lemma agg_core : forall x lead G T tail gi ti ag at' x1 x2,
  shape x = lead ++ G :: T :: tail ->
  gather_opt x gi (length lead) = Ok x1 ->
  gather_opt x1 ti (S (length lead)) = Ok x2 ->
  let x3 := if at' : bool then sum_axis x2 (S (length lead)) else x2 in
  let out := if ag : bool then sum_axis x3 (length lead) else x3 in
  shape out = lead ++ dimension G gi ag ++ dimension T ti at' ++ tail /\
  forall l i j r, length l = length lead ->
    (ag = false -> (i < length (selection G gi))%nat) ->
    (at' = false -> (j < length (selection T ti))%nat) ->
    at_ out (l ++ position ag i ++ position at' j ++ r)
    = cell G T gi ti ag at' (fun g t => at_ x (l ++ g :: t :: r)) i j.
Proof.
  intros x lead G T tail gi ti ag at' x1 x2 Hs H1 H2 x3 out.
  destruct (gather_opt_spec x lead G (T :: tail) gi x1 Hs H1) as (R1 & S1 & V1).
  set (Gs := selection G gi) in *.
  assert (Hax : S (length lead) = length (lead ++ [length Gs]))
    by (rewrite app_length; simpl; lia).
  rewrite Hax in H2.
  assert (S1' : shape x1 = (lead ++ [length Gs]) ++ T :: tail)
    by (rewrite S1; apply snoc_app).
  destruct (gather_opt_spec x1 _ T tail ti x2 S1' H2) as (R2 & S2 & V2).
  set (Ts := selection T ti) in *.
  assert (V : forall l i j r, length l = length lead -> (i < length Gs)%nat ->
              (j < length Ts)%nat ->
              at_ x2 (l ++ i :: j :: r) = at_ x (l ++ nth i Gs 0%nat :: nth j Ts 0%nat :: r)).
  { intros l i j r Hl Hi Hj. rewrite snoc_app. rewrite V2.
    - rewrite <- snoc_app. apply V1; assumption.
    - rewrite !app_length, Hl. reflexivity.
    - exact Hj. }
  assert (X3 : shape x3 = lead ++ length Gs :: dimension T ti at' ++ tail /\
    forall l i j r, length l = length lead -> (i < length Gs)%nat ->
      (at' = false -> (j < length Ts)%nat) ->
      at_ x3 (l ++ i :: position at' j ++ r)
      = total (members Ts at' j) (fun t => at_ x (l ++ nth i Gs 0%nat :: t :: r))).
  { subst x3. destruct at'; try rewrite Hax.
    - split.
      + unfold sum_axis. cbn [M_Budget.shape]. rewrite S2, remove_exact.
        rewrite <- app_assoc. reflexivity.
      + intros l i j r Hl Hi _. unfold sum_axis. cbn [M_Budget.at_ position app].
        rewrite S2, nth_exact. rewrite total_members by auto.
        rewrite <- (rsum_nth Ts (fun t => at_ x (l ++ nth i Gs 0%nat :: t :: r))).
        apply rsum_ext. intros k Hk.
        replace (length (lead ++ [length Gs])) with (length (l ++ [i]))
          by (rewrite !app_length, Hl; reflexivity).
        rewrite (snoc_app _ l i r), insert_exact, <- snoc_app.
        apply V; assumption.
    - split.
      + rewrite S2, <- app_assoc. reflexivity.
      + intros l i j r Hl Hi Hj. rewrite total_members by auto. cbn [position app].
        apply V; auto. }
  destruct X3 as [S3 V3]. subst out. unfold cell. fold Gs Ts. destruct ag.
  - split.
    + unfold sum_axis. cbn [M_Budget.shape]. rewrite S3, remove_exact. reflexivity.
    + intros l i j r Hl _ Hj. unfold sum_axis. cbn [M_Budget.at_ position app].
      rewrite S3, nth_exact. rewrite total_members by auto.
      rewrite <- (rsum_nth Gs (fun g => total (members Ts at' j)
                                 (fun t => at_ x (l ++ g :: t :: r)))).
      apply rsum_ext. intros k Hk. rewrite <- Hl, insert_exact. apply V3; auto.
  - split.
    + rewrite S3. reflexivity.
    + intros l i j r Hl Hi Hj. rewrite total_members by auto. cbn [position app].
      apply V3; auto.
Qed.

(** Batching. *)
Lemma rbind_assoc : forall A B C (m : result A) (f : A -> result B) (h : B -> result C),
  rbind (rbind m f) h = rbind m (fun a => rbind (f a) h).
Proof. intros. destruct m; reflexivity. Qed.

Lemma mapM_app : forall A B (f : A -> result B) a b,
  mapM f (a ++ b) = rbind (mapM f a) (fun u => rbind (mapM f b) (fun v => Ok (u ++ v))).
Proof.
  induction a as [|x a IH]; intros b; cbn [mapM app rbind].
  - destruct (mapM f b); reflexivity.
  - destruct (f x) as [y|e]; cbn [rbind]; [|reflexivity].
    rewrite IH. destruct (mapM f a) as [u|e]; cbn [rbind]; [|reflexivity].
    destruct (mapM f b); reflexivity.
Qed.

Lemma mapM_concat : forall A B (f : A -> result B) ls,
  rbind (mapM (mapM f) ls) (fun t => Ok (concat t)) = mapM f (concat ls).
Proof.
  induction ls as [|l ls IH]; [reflexivity|].
  cbn [mapM concat]. rewrite mapM_app, <- IH.
  destruct (mapM f l) as [u|e]; cbn [rbind]; [|reflexivity].
  destruct (mapM (mapM f) ls); reflexivity.
Qed.

Lemma mapM_length : forall A B (f : A -> result B) l r, mapM f l = Ok r -> length r = length l.
Proof.
  induction l as [|x l IH]; intros r H; cbn [mapM] in H.
  - injection H as <-. reflexivity.
  - destruct (f x) as [y|]; cbn [rbind] in H; [|discriminate].
    destruct (mapM f l) as [u|] eqn:E; cbn [rbind] in H; [|discriminate].
    injection H as <-. cbn. rewrite (IH u); reflexivity.
Qed.

Lemma mapM_nth : forall A B (f : A -> result B) l r, mapM f l = Ok r ->
  forall k da db, (k < length l)%nat -> f (nth k l da) = Ok (nth k r db).
Proof.
  induction l as [|x l IH]; intros r H k da db Hk; cbn [mapM] in H; [cbn in Hk; lia|].
  destruct (f x) as [y|] eqn:Ex; cbn [rbind] in H; [|discriminate].
  destruct (mapM f l) as [u|] eqn:E; cbn [rbind] in H; [|discriminate].
  injection H as <-. destruct k; cbn [nth]; [exact Ex|].
  apply IH; [reflexivity|cbn in Hk; lia].
Qed.

Lemma skipn_plus : forall A s bs (l : list A), skipn bs (skipn s l) = skipn (s + bs) l.
Proof.
  induction s as [|s IH]; intros bs l; [reflexivity|].
  destruct l as [|a l]; [rewrite !skipn_nil; reflexivity|]. cbn [skipn Nat.add]. apply IH.
Qed.

Lemma slice_cat : forall A (l : list A) s bs,
  firstn (Nat.min (length l) (s + bs) - s) (skipn s l) ++ skipn (s + bs) l = skipn s l.
Proof.
  intros A l s bs. destruct (Nat.le_gt_cases (s + bs) (length l)).
  - rewrite Nat.min_r by lia. replace (s + bs - s)%nat with bs by lia.
    rewrite <- skipn_plus.
    apply firstn_skipn.
  - rewrite Nat.min_l by lia. rewrite (skipn_all2 (n := s + bs) l) by lia. rewrite app_nil_r.
    apply firstn_all2. rewrite skipn_length. lia.
Qed.

Lemma batches_from : forall A (l : list A) bs m a, (length l <= (a + m) * bs)%nat ->
  concat (map (fun s => firstn (Nat.min (length l) (s + bs) - s) (skipn s l))
            (map (fun k => (k * bs)%nat) (seq a m))) = skipn (a * bs) l.
Proof.
  induction m as [|m IH]; intros a H.
  - cbn. rewrite skipn_all2; [reflexivity|lia].
  - cbn [seq map concat]. rewrite IH by lia.
    replace (S a * bs)%nat with (a * bs + bs)%nat by lia. apply slice_cat.
Qed.

Lemma ceil_cover : forall n bs, (0 < bs)%nat -> (n <= ((n + bs - 1) / bs) * bs)%nat.
Proof.
  intros n bs H. pose proof (Nat.div_mod (n + bs - 1) bs ltac:(lia)).
  pose proof (Nat.mod_upper_bound (n + bs - 1) bs ltac:(lia)). nia.
Qed.

Lemma batches_concat : forall A (l : list A) bs, (0 < bs)%nat -> concat (batches bs l) = l.
Proof.
  intros A l bs H. unfold batches, batch_starts.
  rewrite batches_from; [reflexivity|]. apply (ceil_cover (length l)) in H. exact H.
Qed.

Lemma run_batched_lemma : forall A B (f : A -> result B) bs draws,
  (0 < bs)%Z -> draws <> [] -> run_batched bs (mapM f) draws = mapM f draws.
Proof.
  intros A B f bs draws Hb Hd. unfold run_batched.
  replace (bs <=? 0)%Z with false by (symmetry; apply Z.leb_gt; lia).
  cbn [raise_if].
  assert (Hn : (0 < Z.to_nat bs)%nat) by lia.
  rewrite <- (batches_concat A draws (Z.to_nat bs) Hn) at 2.
  rewrite <- mapM_concat.
  destruct (mapM (mapM f) (batches (Z.to_nat bs) draws)) as [t|e] eqn:E; cbn [rbind]; [|reflexivity].
  destruct t as [|a t]; [|reflexivity].
  exfalso. apply mapM_length in E.
  pose proof (batches_concat A draws (Z.to_nat bs) Hn) as C.
  destruct (batches (Z.to_nat bs) draws); [|discriminate]. cbn in C. congruence.
Qed.

Lemma run_batched_inv : forall A B (f : A -> result B) bs draws r,
  run_batched bs (mapM f) draws = Ok r -> (0 < bs)%Z /\ draws <> [] /\ mapM f draws = Ok r.
Proof.
  intros A B f bs draws r H. assert (Hb : (0 < bs)%Z).
  { unfold run_batched in H. destruct (bs <=? 0)%Z eqn:E; [discriminate|]. apply Z.leb_gt in E. lia. }
  assert (Hd : draws <> []).
  { intros ->. unfold run_batched in H. destruct (bs <=? 0)%Z; [discriminate|]. cbn [raise_if] in H.
    unfold batches, batch_starts in H. cbn [length] in H.
    rewrite Nat.div_small in H by lia. cbn in H. discriminate. }
  split; [exact Hb|]. split; [exact Hd|]. rewrite <- H. symmetry. apply run_batched_lemma; assumption.
Qed.

(** Selection as indices. *)
Lemma positions_spec : forall A (f : A -> bool) (l : list A) i d,
  In i (positions f l) <-> (i < length l)%nat /\ f (nth i l d) = true.
Proof.
  intros A f l i d. unfold positions. rewrite in_map_iff. split.
  - intros ([j a] & Hj & Hin). cbn in Hj. subst j. apply filter_In in Hin. destruct Hin as [Hin Hf].
    apply (In_nth _ _ (0%nat, d)) in Hin. destruct Hin as (k & Hk & E).
    rewrite combine_length, seq_length, Nat.min_id in Hk.
    rewrite combine_nth in E by apply seq_length. rewrite seq_nth in E by exact Hk.
    injection E as <- <-. split; assumption.
  - intros [Hi Hf]. exists (i, nth i l d). split; [reflexivity|]. apply filter_In. split; [|exact Hf].
    replace (i, nth i l d) with (nth i (combine (seq 0 (length l)) l) (0%nat, d)).
    + apply nth_In. rewrite combine_length, seq_length, Nat.min_id. exact Hi.
    + rewrite combine_nth by apply seq_length. rewrite seq_nth by exact Hi. reflexivity.
Qed.

Lemma map_fst_filter_sorted : forall A (f : nat * A -> bool) (l : list A) s,
  StronglySorted lt (map fst (filter f (combine (seq s (length l)) l))) /\
  Forall (fun i => (s <= i)%nat) (map fst (filter f (combine (seq s (length l)) l))).
Proof.
  induction l as [|a l IH]; intros s; cbn [length seq combine filter map].
  - split; constructor.
  - destruct (IH (S s)) as [I1 I2].
    assert (I3 : Forall (fun i => (s < i)%nat) (map fst (filter f (combine (seq (S s) (length l)) l))))
      by (eapply Forall_impl; [|exact I2]; cbn; intros; lia).
    destruct (f (s, a)); cbn [map fst].
    + split.
      * constructor; assumption.
      * constructor; [lia|]. eapply Forall_impl; [|exact I3]; cbn; intros; lia.
    + split; [exact I1|]. eapply Forall_impl; [|exact I3]; cbn; intros; lia.
Qed.

Lemma positions_sorted : forall A (f : A -> bool) (l : list A), StronglySorted lt (positions f l).
Proof. intros. apply (map_fst_filter_sorted A (fun p => f (snd p)) l 0). Qed.

Lemma positions_in_range : forall A (f : A -> bool) (l : list A),
  Forall (fun i => (i < length l)%nat) (positions f l).
Proof.
  intros A f l. apply Forall_forall. intros i Hi. destruct l as [|d l0]; [destruct Hi|].
  apply (positions_spec A f (d :: l0) i d) in Hi. tauto.
Qed.

Lemma mem_spec : forall a l, mem a l = true <-> In a l.
Proof.
  intros a l. unfold mem. rewrite existsb_exists. split.
  - intros (b & Hb & E). apply String.eqb_eq in E. subst. exact Hb.
  - intros H. exists a. split; [exact H|]. apply String.eqb_refl.
Qed.

(** The whole function. *)
Lemma last_dims_exact : forall k lead (r : list nat), length r = k -> last_dims k (lead ++ r) = r.
Proof.
  intros k lead r <-. unfold last_dims. rewrite app_length.
  replace (length lead + length r - length r)%nat with (length lead) by lia. apply skipn_exact.
Qed.

Lemma shape_with_media_spec : forall k G T s,
  shape_with_media k G T s = true <-> exists c, In c (allowed_channel_dim k) /\ s = [G; T; c].
Proof.
  intros. unfold shape_with_media. rewrite existsb_exists. split.
  - intros (c & Hc & E). exists c. split; [exact Hc|]. apply P_Budget.shape_eqb_iff. exact E.
  - intros (c & Hc & ->). exists c. split; [exact Hc|]. apply P_Budget.shape_eqb_iff. reflexivity.
Qed.

Lemma filter_media_lemma : forall k G NT T C x lead gi ti ag at' flex media,
  shape x = lead ++ [G; T; C] -> In C (allowed_channel_dim k) ->
  in_range G gi -> in_range T ti ->
  (if flex : bool then media = true else T = NT) ->
  exists out, filter_and_aggregate k G NT x gi ti ag at' flex media = Ok out /\
    shape out = lead ++ dimension G gi ag ++ dimension T ti at' ++ [C] /\
    forall l i j c, length l = length lead ->
      (ag = false -> (i < length (selection G gi))%nat) ->
      (at' = false -> (j < length (selection T ti))%nat) ->
      at_ out (l ++ position ag i ++ position at' j ++ [c])
      = cell G T gi ti ag at' (fun g t => at_ x (l ++ [g; t; c])) i j.
Proof.
  intros k G NT T C x lead gi ti ag at' flex media Hs HC Hg Ht Hflex.
  assert (N : ndim x = (length lead + 3)%nat)
    by (unfold M_Budget.ndim; rewrite Hs, app_length; reflexivity).
  assert (SM : forall n, n = T -> shape_with_media k G n (last_dims 3 (shape x)) = true).
  { intros n ->. apply shape_with_media_spec. exists C. split; [exact HC|].
    rewrite Hs. apply last_dims_exact. reflexivity. }
  destruct (gather_opt_ok x lead G [T; C] gi Hs Hg) as [x1 H1].
  destruct (gather_opt_spec x lead G [T; C] gi x1 Hs H1) as (_ & S1 & _).
  rewrite (snoc_app _ lead (length (selection G gi)) [T; C]) in S1.
  destruct (gather_opt_ok x1 _ T [C] ti S1 Ht) as [x2 H2].
  replace (length (lead ++ [length (selection G gi)])) with (S (length lead)) in H2
    by (rewrite app_length; simpl; lia).
  pose proof (agg_core x lead G T [C] gi ti ag at' x1 x2 Hs H1 H2) as HH. cbv zeta in HH.
  destruct HH as [So Vo].
  eexists. split; [|split; [exact So|]].
  - unfold filter_and_aggregate.
    assert (E : resolve_media_dim k G NT x flex media = Ok true).
    { unfold resolve_media_dim. destruct flex.
      - subst media. cbv zeta.
        replace (ndim x <? 3)%nat with false by (symmetry; apply Nat.ltb_ge; lia).
        rewrite SM.
        + reflexivity.
        + rewrite N, Hs. replace (length lead + 3 - 2)%nat with (length lead + 1)%nat by lia.
          rewrite app_nth2 by lia. replace (length lead + 1 - length lead)%nat with 1%nat by lia.
          reflexivity.
      - subst NT. rewrite SM by reflexivity. reflexivity. }
    rewrite E. cbn [rbind]. cbv zeta. rewrite N.
    replace (length lead + 3 - 2 - 1)%nat with (length lead) by lia.
    replace (length lead + 3 - 1 - 1)%nat with (S (length lead)) by lia.
    rewrite H1. cbn [rbind]. rewrite H2. cbn [rbind]. reflexivity.
  - intros l i j c Hl Hi Hj. exact (Vo l i j [c] Hl Hi Hj).
Qed.

Lemma filter_no_media_lemma : forall k G NT T x lead gi ti ag at' flex media,
  shape x = lead ++ [G; T] ->
  in_range G gi -> in_range T ti ->
  (if flex : bool then media = false
   else T = NT /\ forall c, In c (allowed_channel_dim k) -> last_dims 3 (shape x) <> [G; T; c]) ->
  exists out, filter_and_aggregate k G NT x gi ti ag at' flex media = Ok out /\
    shape out = lead ++ dimension G gi ag ++ dimension T ti at' /\
    forall l i j, length l = length lead ->
      (ag = false -> (i < length (selection G gi))%nat) ->
      (at' = false -> (j < length (selection T ti))%nat) ->
      at_ out (l ++ position ag i ++ position at' j)
      = cell G T gi ti ag at' (fun g t => at_ x (l ++ [g; t])) i j.
Proof.
  intros k G NT T x lead gi ti ag at' flex media Hs Hg Ht Hflex.
  assert (N : ndim x = (length lead + 2)%nat)
    by (unfold M_Budget.ndim; rewrite Hs, app_length; reflexivity).
  assert (L2 : last_dims 2 (shape x) = [G; T]) by (rewrite Hs; apply last_dims_exact; reflexivity).
  destruct (gather_opt_ok x lead G [T] gi Hs Hg) as [x1 H1].
  destruct (gather_opt_spec x lead G [T] gi x1 Hs H1) as (_ & S1 & _).
  rewrite (snoc_app _ lead (length (selection G gi)) [T]) in S1.
  destruct (gather_opt_ok x1 _ T [] ti S1 Ht) as [x2 H2].
  replace (length (lead ++ [length (selection G gi)])) with (S (length lead)) in H2
    by (rewrite app_length; simpl; lia).
  pose proof (agg_core x lead G T [] gi ti ag at' x1 x2 Hs H1 H2) as HH. cbv zeta in HH.
  destruct HH as [So Vo].
  eexists. split; [|split; [rewrite app_nil_r in So; exact So|]].
  - unfold filter_and_aggregate.
    assert (E : resolve_media_dim k G NT x flex media = Ok false).
    { unfold resolve_media_dim. destruct flex.
      - subst media. cbv zeta.
        replace (ndim x <? 2)%nat with false by (symmetry; apply Nat.ltb_ge; lia).
        cbn [andb orb negb raise_if].
        rewrite L2, N, Hs. replace (length lead + 2 - 1)%nat with (length lead + 1)%nat by lia.
        rewrite app_nth2 by lia. replace (length lead + 1 - length lead)%nat with 1%nat by lia.
        cbn [nth].
        replace (shape_eqb [G; T] [G; T]) with true by (symmetry; apply P_Budget.shape_eqb_iff; reflexivity).
        reflexivity.
      - destruct Hflex as [<- Hno].
        destruct (shape_with_media k G T (last_dims 3 (shape x))) eqn:E.
        + apply shape_with_media_spec in E. destruct E as (c & Hc & E). exfalso. exact (Hno c Hc E).
        + rewrite L2.
          replace (shape_eqb [G; T] [G; T]) with true by (symmetry; apply P_Budget.shape_eqb_iff; reflexivity).
          reflexivity. }
    rewrite E. cbn [rbind]. cbv zeta. rewrite N.
    replace (length lead + 2 - 2 - 0)%nat with (length lead) by lia.
    replace (length lead + 2 - 1 - 0)%nat with (S (length lead)) by lia.
    rewrite H1. cbn [rbind]. rewrite H2. cbn [rbind]. reflexivity.
  - intros l i j Hl Hi Hj. pose proof (Vo l i j [] Hl Hi Hj) as V.
    rewrite app_nil_r in V. exact V.
Qed.
