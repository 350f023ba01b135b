(** Proofs about [update_summary_metrics] of an object that has not been asked for its tables yet. *)
From Coq Require Import Reals ZArith Lia Lra String List Bool Arith.
From Verif Require Import Lib_Sum M_Base M_Transformers M_Aggregate M_Analyzer M_Stats M_Summary M_MediaSummary
  S_MediaSummary P_MediaCalls.
Import ListNotations.
Local Open Scope R_scope.
Local Open Scope string_scope.
Local Open Scope list_scope.

(** The action asks object [o] for a table. *)
Definition asks (o : nat) (a : action) : Prop :=
  match a with AGet _ p _ => p = o | AContribution p _ _ _ => p = o | _ => False end.

Lemma set_nth_same : forall A (l : list A) i a b, nth_error l i = Some b -> nth_error (set_nth l i a) i = Some a.
Proof. intros A. induction l as [|c l IH]; intros [|i] a b H; cbn in *; try discriminate; [reflexivity|]. exact (IH i a b H). Qed.

Definition fresh_for (o : nat) (w : state) : Prop := entries (fun _ k _ => fst k <> o) w.
Lemma perform_fresh : forall o w a, ~ asks o a -> fresh_for o w -> fresh_for o (snd (perform w a)).
Proof.
  intros o w a N F. unfold perform. destruct a as [f g|p lv ts br bl|np p a|p sel np at'].
  - exact F.
  - destruct (nth_error (w_objects w) p); exact F.
  - destruct (nth_error (w_objects w) p) as [m|]; [|exact F].
    destruct (get_spec np w p m a) as (_ & G & _). specialize (G (fun _ k _ => fst k <> o) F (fun s _ => N)).
    destruct (get np w p m a). exact G.
  - destruct (nth_error (w_objects w) p) as [m|]; [|exact F].
    destruct (contribution_spec w p m sel np at' (fun _ k _ => fst k <> o) F (fun np b s _ => N)) as [G _].
    destruct (contribution_metrics w p m sel np at'). exact G.
Qed.
Lemma after_app : forall l a r, after (l ++ a :: r) = after ((l ++ [a]) ++ r).
Proof. intros l a r. rewrite <- app_assoc. reflexivity. Qed.

Lemma created_state : forall l1 f g l2, Forall (fun a => ~ asks (creations l1) a) l2 ->
  fresh_for (creations l1) (after (l1 ++ ANew f g :: l2)) /\
  exists m, nth_error (w_objects (after (l1 ++ ANew f g :: l2))) (creations l1) = Some m /\ ms_model m = f /\
    g_use_kpi (ms_settings m) = resolve_use_kpi (f_x f) (g_use_kpi g).
Proof.
  intros l1 f g l2 N. set (o := creations l1) in *. rewrite after_app. induction l2 as [|a l2 IH] using rev_ind.
  - rewrite app_nil_r, after_snoc. cbn [perform snd w_objects]. split.
    + destruct (keys_exist l1) as [K1 K2]. rewrite objects_count in K1, K2.
      split; cbn [w_paid w_all]; intros k s Hk Ek; [specialize (K1 k s Hk)|specialize (K2 k s Hk)]; cbn beta in *; unfold o in Ek; lia.
    + exists (new_media_summary f g). split; [|split; reflexivity].
      rewrite nth_error_app2; rewrite objects_count; [|unfold o; lia]. unfold o. rewrite Nat.sub_diag. reflexivity.
  - apply Forall_app in N. destruct N as [N Na]. destruct (IH N) as (I1 & m & I2 & I3 & I4). pose proof (Forall_inv Na) as Nb. cbn beta in Nb.
    rewrite app_assoc, after_snoc. split; [exact (perform_fresh o _ a Nb I1)|]. rewrite perform_objects.
    destruct a as [f' g'|p lv ts br bl|np p a|p sel np at'].
    + exists m. split; [|split; assumption]. rewrite nth_error_app1; [exact I2|]. apply nth_error_Some. congruence.
    + destruct (nth_error (w_objects (after ((l1 ++ [ANew f g]) ++ l2))) p) as [m'|] eqn:E; [|exists m; auto].
      destruct (Nat.eq_dec p o) as [->|D].
      * assert (m' = m) by congruence. subst m'. exists (update m lv ts br bl). split; [exact (set_nth_same _ _ _ _ _ E)|]. split; [exact I3|exact I4].
      * exists m. rewrite set_nth_other; auto.
    + exists m. auto.
    + exists m. auto.
Qed.

(** After the last update, nothing changes any more. *)
Lemma kept_state : forall l o m l3, nth_error (w_objects (after l)) o = Some m -> fresh_for o (after l) ->
  Forall (fun a => ~ asks o a /\ ~ updates o a) l3 ->
  nth_error (w_objects (after (l ++ l3))) o = Some m /\ fresh_for o (after (l ++ l3)).
Proof.
  intros l o m l3 E F N. induction l3 as [|a l3 IH] using rev_ind; [rewrite app_nil_r; auto|].
  apply Forall_app in N. destruct N as [N Na]. destruct (IH N) as [I1 I2]. destruct (Forall_inv Na) as [Nb Nu].
  rewrite app_assoc, after_snoc. split; [|exact (perform_fresh o _ a Nb I2)]. rewrite perform_objects.
  destruct a as [f' g'|p lv ts br bl|np p a|p sel np at'].
  - rewrite nth_error_app1; [exact I1|]. apply nth_error_Some. congruence.
  - destruct (nth_error (w_objects (after (l ++ l3))) p); [|exact I1]. rewrite set_nth_other; [exact I1|]. intros ->. apply Nu. reflexivity.
  - exact I1.
  - exact I1.
Qed.

Lemma fresh_answer : forall l o m np a, nth_error (w_objects (after l)) o = Some m -> fresh_for o (after l) ->
  answer l (AGet np o a) = RSummary (compute np m (aggregated a)).
Proof.
  intros l o m np a E [F1 F2]. unfold answer, perform. rewrite E. unfold get, compute, cached. destruct np.
  - rewrite (lookup_none (o, a) (w_all (after l))); [|intros s H; exact (F2 _ _ H eq_refl)].
    destruct (compute_all m (aggregated a)); reflexivity.
  - rewrite (lookup_none (o, a) (w_paid (after l))); [|intros s H; exact (F1 _ _ H eq_refl)].
    destruct (compute_paid m (aggregated a)); reflexivity.
Qed.

Lemma updated_lemma : forall l1 f g l2 level times br bl l3,
  Forall (fun a => ~ asks (creations l1) a) l2 -> Forall (fun a => ~ asks (creations l1) a /\ ~ updates (creations l1) a) l3 ->
  exists lv, (forall v, level = Some v -> v <> 0 -> lv = v) /\
    ((forall v, level = Some v -> v = 0) -> Forall (fun a => ~ updates (creations l1) a) l2 -> lv = g_level g) /\
    forall np a, answer ((l1 ++ ANew f g :: l2) ++ AUpdate (creations l1) level times br bl :: l3) (AGet np (creations l1) a) =
      RSummary (compute np (mkMedia f (mkSettings lv times br bl (resolve_use_kpi (f_x f) (g_use_kpi g)))) (aggregated a)).
Proof.
  intros l1 f g l2 level times br bl l3 N2 N3. set (o := creations l1) in *.
  destruct (created_state l1 f g l2 N2) as (F & m & E & Em & Ek). fold o in F, E.
  set (l := l1 ++ ANew f g :: l2) in *.
  set (lv := match level with Some v => if Req_EM_T v 0 then g_level (ms_settings m) else v | None => g_level (ms_settings m) end).
  exists lv. split; [|split].
  - intros v -> Nv. unfold lv. destruct (Req_EM_T v 0); [contradiction|reflexivity].
  - intros Z U. assert (Eg : m = new_media_summary f g).
    { destruct (unchanged_state l o f g) as [E' _]; [exists l1, l2; split; [reflexivity|split; [reflexivity|exact U]]|]. congruence. }
    unfold lv. subst m. destruct level as [v|]; [|reflexivity]. rewrite (Z v eq_refl). destruct (Req_EM_T 0 0); [reflexivity|congruence].
  - intros np a.
    assert (E' : nth_error (w_objects (after (l ++ [AUpdate o level times br bl]))) o = Some (update m level times br bl)).
    { rewrite after_snoc, perform_objects, E. exact (set_nth_same _ _ _ _ _ E). }
    assert (F' : fresh_for o (after (l ++ [AUpdate o level times br bl]))).
    { rewrite after_snoc. apply perform_fresh; [intros []|exact F]. }
    destruct (kept_state _ o _ l3 E' F' N3) as [E3 F3].
    replace (l ++ AUpdate o level times br bl :: l3) with ((l ++ [AUpdate o level times br bl]) ++ l3) by (rewrite <- app_assoc; reflexivity).
    rewrite (fresh_answer _ o _ np a E3 F3). unfold update. rewrite Em, Ek. reflexivity.
Qed.
