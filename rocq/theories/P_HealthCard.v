(** Proofs for C110. *)
From Coq Require Import String List Bool Arith.
From Verif Require Import M_Base M_Review M_HealthCard S_HealthCard.
Import ListNotations.
Local Open Scope string_scope.
Local Open Scope list_scope.

Lemma find_name_ok : forall l c n, find_name l c = Ok n -> In (c, n) l.
Proof.
  induction l as [|[k v] l IH]; cbn; intros c n H; [discriminate|].
  destruct (String.eqb_spec k c); [inversion H; subst; left; reflexivity|right; apply IH; exact H].
Qed.
Lemma check_name_iff : forall c n, check_name c = Ok n <-> readable c n.
Proof.
  intros c n. split.
  - intros H. apply find_name_ok in H. cbn in H.
    repeat (destruct H as [H|H]; [inversion H; subst; constructor|]). contradiction.
  - intros H. destruct H; reflexivity.
Qed.
Lemma find_name_err : forall l c e, find_name l c = Err e -> e = ValueError.
Proof.
  induction l as [|[k v] l IH]; cbn; intros c e H; [inversion H; reflexivity|].
  destruct (String.eqb k c); [discriminate|eapply IH; exact H].
Qed.
Lemma by_channel_iff : forall r, by_channel r = true <-> counts_channels r.
Proof. intros r. unfold by_channel, counts_channels. rewrite orb_true_iff, !String.eqb_eq. tauto. Qed.
Lemma count_passed : forall l, length (filter passed l) = count_occ status_eq_dec l PASS.
Proof.
  induction l as [|s l IH]; cbn; [reflexivity|].
  destruct s; cbn; rewrite ?IH; reflexivity.
Qed.

Lemma data_says : forall r d, get_check_data r = Ok d ->
  says r (if by_channel r then advanced_row d else metric_row d).
Proof.
  intros r d H. unfold get_check_data in H. destruct (check_name (ck_class r)) as [n|e] eqn:E; cbn in H; [|discriminate].
  inversion H; subst d; clear H. apply check_name_iff in E. unfold says.
  destruct (by_channel r) eqn:B; cbn.
  - assert (C : counts_channels r) by (apply by_channel_iff; exact B).
    split; [exact E|]. split; [reflexivity|]. split; [|tauto]. intros _. rewrite count_passed.
    split; [|split; [|reflexivity]].
    + destruct (ck_status r); cbn; split; congruence.
    + destruct (ck_status r); cbn; congruence.
  - assert (C : ~ counts_channels r) by (rewrite <- by_channel_iff, B; discriminate).
    split; [exact E|]. split; [reflexivity|]. split; [tauto|]. intros _. split; reflexivity.
Qed.

Lemma card_checks_ok : forall rs model channel, (forall r, In r rs -> exists n, readable (ck_class r) n) ->
  exists m c, card_checks rs model channel = Ok (model ++ m, channel ++ c) /\
    Forall2 (fun r d => says r (metric_row d)) (filter (fun r => negb (by_channel r)) rs) m /\
    Forall2 (fun r d => says r (advanced_row d)) (filter by_channel rs) c.
Proof.
  induction rs as [|r rs IH]; cbn; intros model channel H.
  - exists [], []. rewrite !app_nil_r. repeat split; constructor.
  - destruct (H r (or_introl eq_refl)) as [n Hn].
    destruct (get_check_data r) as [d|e] eqn:E.
    2:{ unfold get_check_data in E. apply check_name_iff in Hn. rewrite Hn in E. discriminate. }
    pose proof (data_says r d E) as S. cbn.
    destruct (by_channel r); cbn.
    + destruct (IH model (channel ++ [d])) as (m & c & E' & A & B); [intros r' Hr'; apply H; right; exact Hr'|].
      exists m, (d :: c). rewrite E', <- app_assoc. split; [reflexivity|]. split; [exact A|constructor; assumption].
    + destruct (IH (model ++ [d]) channel) as (m & c & E' & A & B); [intros r' Hr'; apply H; right; exact Hr'|].
      exists (d :: m), c. rewrite E', <- app_assoc. split; [reflexivity|]. split; [constructor; assumption|exact B].
Qed.
Lemma Forall2_map_r : forall A B C (P : A -> C -> Prop) (f : B -> C) l m,
  Forall2 (fun a b => P a (f b)) l m -> Forall2 P l (map f m).
Proof. intros A B C P f l m H. induction H; cbn; constructor; assumption. Qed.

Lemma card_checks_err : forall rs model channel r, In r rs -> (forall n, ~ readable (ck_class r) n) ->
  card_checks rs model channel = Err ValueError.
Proof.
  induction rs as [|a rs IH]; cbn; intros model channel r H N; [contradiction|].
  destruct (get_check_data a) as [d|e] eqn:E; cbn.
  - destruct H as [->|H].
    + unfold get_check_data in E. destruct (check_name (ck_class r)) as [n|] eqn:F; [|discriminate].
      apply check_name_iff in F. destruct (N n F).
    + destruct (by_channel a); eapply IH; eassumption.
  - unfold get_check_data in E. destruct (check_name (ck_class a)) as [n|e'] eqn:F; [discriminate|].
    cbn in E. inversion E; subst. f_equal. eapply find_name_err. exact F.
Qed.

Lemma put_lookup : forall d k v c s, NoDup (map fst d) ->
  (In (c, s) (dict_put d k v) <-> (c = k /\ s = v) \/ (c <> k /\ In (c, s) d)).
Proof.
  induction d as [|[k' v'] d IH]; cbn; intros k v c s N.
  - split; [intros [H|[]]; inversion H; subst; left; split; reflexivity|intros [[-> ->]|[_ []]]; left; reflexivity].
  - inversion N as [|x y Nk Nd]; subst. destruct (String.eqb_spec k' k) as [->|Ne].
    + cbn. split.
      * intros [H|H]; [inversion H; subst; left; split; reflexivity|]. right. split; [|right; exact H].
        intros ->. apply Nk. change k with (fst (k, s)). apply in_map. exact H.
      * intros [[-> ->]|[Hc [H|H]]]; [left; reflexivity|inversion H; subst; contradiction|right; exact H].
    + cbn. rewrite (IH k v c s Nd). split.
      * intros [H|[H|[Hc H]]]; [inversion H; subst; right; split; [assumption|left; reflexivity]|left; exact H|right; split; [exact Hc|right; exact H]].
      * intros [H|[Hc [H|H]]]; [right; left; exact H|left; exact H|right; right; split; assumption].
Qed.
Lemma put_keys : forall d k v c, In c (map fst (dict_put d k v)) <-> c = k \/ In c (map fst d).
Proof.
  induction d as [|[k' v'] d IH]; cbn; intros k v c; [intuition|].
  destruct (String.eqb_spec k' k) as [->|Ne]; cbn; [intuition|]. rewrite IH. intuition.
Qed.
Lemma put_nodup : forall d k v, NoDup (map fst d) -> NoDup (map fst (dict_put d k v)).
Proof.
  induction d as [|[k' v'] d IH]; cbn; intros k v N; [constructor; [intros []|constructor]|].
  inversion N as [|x y Nk Nd]; subst. destruct (String.eqb_spec k' k) as [->|Ne]; cbn; [exact N|].
  constructor; [|apply IH; exact Nd]. rewrite put_keys. intros [->|H]; [contradiction|contradiction].
Qed.

Lemma checks_status_snoc : forall rs r, checks_status (rs ++ [r]) = dict_put (checks_status rs) (ck_class r) (ck_status r).
Proof. intros rs r. unfold checks_status. rewrite fold_left_app. reflexivity. Qed.
Lemma statuses_nodup : forall rs, NoDup (map fst (checks_status rs)).
Proof.
  intros rs. induction rs as [|r rs IH] using rev_ind; [constructor|]. rewrite checks_status_snoc. apply put_nodup. exact IH.
Qed.
Lemma statuses_lemma : forall rs c s, In (c, s) (checks_status rs) <-> last_of rs c s.
Proof.
  intros rs. induction rs as [|r rs IH] using rev_ind; intros c s.
  - cbn. split; [contradiction|]. intros (b & x & a & H & _). destruct b; discriminate.
  - rewrite checks_status_snoc, put_lookup by apply statuses_nodup. rewrite IH. split.
    + intros [[-> ->]|[Hc (b & x & a & -> & E1 & E2 & L)]].
      * exists rs, r, []. split; [reflexivity|]. split; [reflexivity|]. split; [reflexivity|]. intros r' [].
      * exists b, x, (a ++ [r]). split; [rewrite <- app_assoc; reflexivity|]. split; [exact E1|]. split; [exact E2|].
        intros r' H. apply in_app_or in H. destruct H as [H|[<-|[]]]; [apply L; exact H|congruence].
    + intros (b & x & a & E & E1 & E2 & L). destruct a as [|y a _] using rev_ind.
      * apply app_inj_tail in E. destruct E as [-> ->]. left. split; congruence.
      * rewrite app_comm_cons, app_assoc in E. apply app_inj_tail in E. destruct E as [-> ->]. right.
        split; [intros ->; eapply L; [apply in_or_app; right; left; reflexivity|reflexivity]|].
        exists b, x, a. split; [reflexivity|]. split; [exact E1|]. split; [exact E2|].
        intros r' H. apply L. apply in_or_app. left. exact H.
Qed.
