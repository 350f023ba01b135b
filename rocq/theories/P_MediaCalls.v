(** Proofs about the caches of [MediaSummary]. *)
From Coq Require Import Reals ZArith Lia Lra String List Bool Arith Permutation.
From Verif Require Import Lib_Sum M_Base M_Transformers M_Aggregate M_Analyzer M_Stats M_Summary M_MediaSummary
  S_MediaSummary.
Import ListNotations.
Local Open Scope R_scope.
Local Open Scope string_scope.
Local Open Scope list_scope.

Local Opaque MAXSIZE.
Lemma filter_length_le' : forall A (p : A -> bool) l, (length (filter p l) <= length l)%nat.
Proof. intros A p. induction l as [|a l IH]; cbn; [lia|]. destruct (p a); cbn; lia. Qed.
Lemma form_eqb_iff : forall a b, form_eqb a b = true <-> a = b.
Proof.
  intros [|a|a] [|b|b]; cbn; split; intros H; try discriminate; try reflexivity.
  - apply Bool.eqb_prop in H. congruence.
  - inversion H. apply Bool.eqb_reflx.
  - apply Bool.eqb_prop in H. congruence.
  - inversion H. apply Bool.eqb_reflx.
Qed.
Lemma key_eqb_iff : forall a b : key, key_eqb a b = true <-> a = b.
Proof.
  intros [o a] [p b]. unfold key_eqb. cbn [fst snd]. rewrite andb_true_iff, Nat.eqb_eq, form_eqb_iff.
  split; [intros [-> ->]; reflexivity|intros H; inversion H; auto].
Qed.
Lemma lookup_in : forall k c s, lookup k c = Some s -> In (k, s) c.
Proof.
  intros k c s. induction c as [|[k' s'] c IH]; [discriminate|]. cbn [lookup]. destruct (key_eqb k k') eqn:E.
  - apply key_eqb_iff in E. subst. intros H. inversion H. left. reflexivity.
  - intros H. right. auto.
Qed.
Lemma lookup_none : forall k c, (forall s, ~ In (k, s) c) -> lookup k c = None.
Proof.
  intros k c H. destruct (lookup k c) as [s|] eqn:E; [|reflexivity]. exfalso. exact (H s (lookup_in _ _ _ E)).
Qed.
Lemma firstn_in : forall A n (l : list A) a, In a (firstn n l) -> In a l.
Proof.
  intros A n. induction n as [|n IH]; intros [|b l] a H; cbn in H; try contradiction.
  destruct H as [->|H]; [left; reflexivity|right; auto].
Qed.
Lemma cached_entries : forall k c body r c', cached k c body = (r, c') ->
  forall e, In e c' -> In e c \/ exists s, e = (k, s) /\ body = Ok s.
Proof.
  intros k c body r c' H e He. unfold cached in H. destruct (lookup k c) as [s|] eqn:E.
  - inversion H; subst. left. destruct He as [<-|He]; [exact (lookup_in _ _ _ E)|].
    apply filter_In in He. apply He.
  - destruct body as [s|x]; inversion H; subst; [|left; exact He].
    apply firstn_in in He. destruct He as [<-|He]; [right; exists s; auto|left; exact He].
Qed.
Lemma cached_answer : forall k c body r c', cached k c body = (r, c') ->
  r = body \/ exists s, r = Ok s /\ In (k, s) c.
Proof.
  intros k c body r c' H. unfold cached in H. destruct (lookup k c) as [s|] eqn:E.
  - inversion H; subst. right. exists s. split; [reflexivity|exact (lookup_in _ _ _ E)].
  - left. destruct body; inversion H; reflexivity.
Qed.
Lemma cached_size : forall k c body, (length c <= MAXSIZE)%nat -> (length (snd (cached k c body)) <= MAXSIZE)%nat.
Proof.
  intros k c body H. unfold cached. destruct (lookup k c) as [s|] eqn:E.
  - cbn [snd length]. enough (length (remove_key k c) < length c)%nat by lia.
    clear H. induction c as [|[k' s'] c IH]; [discriminate|]. cbn [lookup] in E. unfold remove_key in *. cbn [filter fst].
    destruct (key_eqb k k'); cbn [negb length].
    + apply Nat.lt_succ_r. apply filter_length_le'.
    + specialize (IH E). lia.
  - destruct body; cbn [snd]; [|exact H]. rewrite firstn_length. apply Nat.le_min_l.
Qed.

(** ** Entries of the caches *)
Definition entries (Q : bool -> key -> summary -> Prop) (w : state) : Prop :=
  (forall k s, In (k, s) (w_paid w) -> Q false k s) /\ (forall k s, In (k, s) (w_all w) -> Q true k s).

Lemma get_spec : forall np w o m a,
  w_objects (snd (get np w o m a)) = w_objects w /\
  (forall Q, entries Q w -> (forall s, compute np m (aggregated a) = Ok s -> Q np (o, a) s) ->
     entries Q (snd (get np w o m a))) /\
  (fst (get np w o m a) = compute np m (aggregated a) \/
   exists s, fst (get np w o m a) = Ok s /\ forall Q, entries Q w -> Q np (o, a) s).
Proof.
  intros np w o m a. unfold get, compute. destruct np.
  - destruct (cached (o, a) (w_all w) (compute_all m (aggregated a))) as [r c] eqn:E. cbn [fst snd w_objects].
    split; [reflexivity|]. split.
    + intros Q [Q1 Q2] H. split; cbn [w_paid w_all]; [exact Q1|]. intros k s Hi.
      destruct (cached_entries _ _ _ _ _ E _ Hi) as [Hi'|(s' & Es & Eb)]; [exact (Q2 _ _ Hi')|].
      inversion Es; subst. exact (H _ Eb).
    + destruct (cached_answer _ _ _ _ _ E) as [->|(s & -> & Hi)]; [left; reflexivity|]. right. exists s.
      split; [reflexivity|]. intros Q [_ Q2]. exact (Q2 _ _ Hi).
  - destruct (cached (o, a) (w_paid w) (compute_paid m (aggregated a))) as [r c] eqn:E. cbn [fst snd w_objects].
    split; [reflexivity|]. split.
    + intros Q [Q1 Q2] H. split; cbn [w_paid w_all]; [|exact Q2]. intros k s Hi.
      destruct (cached_entries _ _ _ _ _ E _ Hi) as [Hi'|(s' & Es & Eb)]; [exact (Q1 _ _ Hi')|].
      inversion Es; subst. exact (H _ Eb).
    + destruct (cached_answer _ _ _ _ _ E) as [->|(s & -> & Hi)]; [left; reflexivity|]. right. exists s.
      split; [reflexivity|]. intros Q [Q1 _]. exact (Q1 _ _ Hi).
Qed.

Lemma contribution_spec : forall w o m sel np at' Q, entries Q w ->
  (forall np b s, compute np m b = Ok s -> Q np (o, Keyword b) s) ->
  entries Q (snd (contribution_metrics w o m sel np at')) /\
  w_objects (snd (contribution_metrics w o m sel np at')) = w_objects w.
Proof.
  intros w o m sel np at' Q HQ H. unfold contribution_metrics.
  destruct (get_spec np w o m (Keyword at')) as (G1 & G2 & _).
  specialize (G2 Q HQ (fun s => H np at' s)).
  destruct (get np w o m (Keyword at')) as [r w1]. cbn [fst snd] in G1, G2.
  destruct r as [s|e]; [|auto]. destruct (channel_rows s sel) as [rows|e]; [|auto].
  destruct at'; [auto|]. destruct (chosen_labels m) as [l|]; [auto|].
  destruct (get_spec true w1 o m (Keyword false)) as (K1 & K2 & _).
  specialize (K2 Q G2 (fun s => H true false s)).
  destruct (get true w1 o m (Keyword false)) as [r2 w2]. cbn [fst snd] in K1, K2 |- *. split; [exact K2|congruence].
Qed.

Lemma perform_spec : forall Q w a, entries Q w ->
  (forall o m np b s, nth_error (w_objects w) o = Some m -> compute np m (aggregated b) = Ok s -> Q np (o, b) s) ->
  entries Q (snd (perform w a)).
Proof.
  intros Q w a HQ H. unfold perform. destruct a as [f g|o lv ts br bl|np o a|o sel np at'].
  - exact HQ.
  - destruct (nth_error (w_objects w) o); exact HQ.
  - destruct (nth_error (w_objects w) o) as [m|] eqn:E; [|exact HQ].
    destruct (get_spec np w o m a) as (_ & G & _). specialize (G Q HQ (fun s => H o m np a s E)).
    destruct (get np w o m a). exact G.
  - destruct (nth_error (w_objects w) o) as [m|] eqn:E; [|exact HQ].
    destruct (contribution_spec w o m sel np at' Q HQ (fun np b s => H o m np (Keyword b) s E)) as [G _].
    destruct (contribution_metrics w o m sel np at'). exact G.
Qed.

(** ** Objects *)
Lemma set_nth_length : forall A (l : list A) i a, length (set_nth l i a) = length l.
Proof. intros A. induction l as [|b l IH]; intros [|i] a; cbn; auto. Qed.
Lemma set_nth_other : forall A (l : list A) i j a, i <> j -> nth_error (set_nth l i a) j = nth_error l j.
Proof.
  intros A. induction l as [|b l IH]; intros [|i] [|j] a H; cbn; try reflexivity; try congruence. apply IH. congruence.
Qed.
Lemma perform_objects : forall w a,
  w_objects (snd (perform w a)) =
  match a with
  | ANew f g => w_objects w ++ [new_media_summary f g]
  | AUpdate o lv ts br bl => match nth_error (w_objects w) o with
                             | Some m => set_nth (w_objects w) o (update m lv ts br bl)
                             | None => w_objects w
                             end
  | _ => w_objects w
  end.
Proof.
  intros w a. unfold perform. destruct a as [f g|o lv ts br bl|np o a|o sel np at'].
  - reflexivity.
  - destruct (nth_error (w_objects w) o); reflexivity.
  - destruct (nth_error (w_objects w) o) as [m|]; [|reflexivity].
    destruct (get_spec np w o m a) as (G & _). destruct (get np w o m a). exact G.
  - destruct (nth_error (w_objects w) o) as [m|]; [|reflexivity].
    destruct (contribution_spec w o m sel np at' (fun _ _ _ => True)) as [_ G].
    { split; auto. } { auto. }
    destruct (contribution_metrics w o m sel np at'). exact G.
Qed.
Lemma after_snoc : forall l a, after (l ++ [a]) = snd (perform (after l) a).
Proof. intros l a. unfold after. rewrite fold_left_app. reflexivity. Qed.
Lemma creations_snoc : forall l a,
  creations (l ++ [a]) = (creations l + match a with ANew _ _ => 1 | _ => 0 end)%nat.
Proof. intros l a. unfold creations. rewrite filter_app, app_length. destruct a; reflexivity. Qed.
Lemma objects_count : forall l, length (w_objects (after l)) = creations l.
Proof.
  intros l. induction l as [|a l IH] using rev_ind; [reflexivity|]. rewrite after_snoc, perform_objects, creations_snoc.
  destruct a as [f g|o lv ts br bl|np o a|o sel np at'].
  - rewrite app_length, IH. reflexivity.
  - destruct (nth_error (w_objects (after l)) o); rewrite ?set_nth_length, IH, Nat.add_0_r; reflexivity.
  - rewrite IH, Nat.add_0_r. reflexivity.
  - rewrite IH, Nat.add_0_r. reflexivity.
Qed.

(** Keys are those of existing objects. *)
Lemma keys_exist : forall l, entries (fun _ k _ => (fst k < length (w_objects (after l)))%nat) (after l).
Proof.
  intros l. induction l as [|a l IH] using rev_ind; [split; intros ? ? []|]. rewrite after_snoc.
  assert (Mono : (length (w_objects (after l)) <= length (w_objects (snd (perform (after l) a))))%nat).
  { rewrite perform_objects. destruct a as [f g|o lv ts br bl|np o a|o sel np at']; auto.
    - rewrite app_length. lia.
    - destruct (nth_error (w_objects (after l)) o); rewrite ?set_nth_length; auto. }
  pose proof (perform_spec (fun _ k _ => (fst k < length (w_objects (after l)))%nat) (after l) a IH) as P.
  destruct P as [P1 P2].
  { intros o m np b s E _. cbn [fst]. apply nth_error_Some. congruence. }
  split; intros k s Hk; [specialize (P1 k s Hk)|specialize (P2 k s Hk)]; cbn beta in *; lia.
Qed.

(** An object that is not updated, and what the caches hold for it. *)
Definition right_for (o : nat) (m : media_summary) (np : bool) (k : key) (s : summary) : Prop :=
  fst k = o -> compute np m (aggregated (snd k)) = Ok s.
Lemma unchanged_state : forall l o f g, unchanged_object l o f g ->
  nth_error (w_objects (after l)) o = Some (new_media_summary f g) /\
  entries (right_for o (new_media_summary f g)) (after l).
Proof.
  intros l o f g (l1 & l2 & -> & -> & Hn). set (o := creations l1) in *.
  induction l2 as [|a l2 IH] using rev_ind.
  - rewrite after_snoc. cbn [perform snd w_objects]. split.
    + rewrite nth_error_app2; rewrite objects_count; [|unfold o; lia]. unfold o. rewrite Nat.sub_diag. reflexivity.
    + destruct (keys_exist l1) as [K1 K2]. rewrite objects_count in K1, K2.
      split; cbn [w_paid w_all]; intros k s Hk Ek; exfalso; [specialize (K1 k s Hk)|specialize (K2 k s Hk)];
        cbn beta in *; unfold o in Ek; lia.
  - apply Forall_app in Hn. destruct Hn as [Hn Ha]. destruct (IH Hn) as [I1 I2]. clear IH.
    inversion Ha as [|? ? Hu _]; subst.
    change (l1 ++ ANew f g :: l2 ++ [a]) with (l1 ++ (ANew f g :: l2) ++ [a]). rewrite app_assoc, after_snoc.
    set (w := after (l1 ++ ANew f g :: l2)) in *. split.
    + rewrite perform_objects. destruct a as [f' g'|p lv ts br bl|np p a|p sel np at'].
      * rewrite nth_error_app1; [exact I1|]. apply nth_error_Some. congruence.
      * destruct (nth_error (w_objects w) p); [|exact I1]. rewrite set_nth_other; [exact I1|].
        intros ->. apply Hu. reflexivity.
      * exact I1.
      * exact I1.
    + apply perform_spec; [exact I2|]. intros p m np b s E C Ep. cbn [fst snd] in *. subst p.
      assert (m = new_media_summary f g) by congruence. subst m. exact C.
Qed.

(** Every entry was right when it was stored. *)
Definition right_once (l : list action) (np : bool) (k : key) (s : summary) : Prop :=
  exists l1 l2 m, l = l1 ++ l2 /\ nth_error (w_objects (after l1)) (fst k) = Some m /\
    compute np m (aggregated (snd k)) = Ok s.
Lemma once_state : forall l, entries (right_once l) (after l).
Proof.
  intros l. induction l as [|a l IH] using rev_ind; [split; intros ? ? []|]. rewrite after_snoc.
  assert (Mono : forall np k s, right_once l np k s -> right_once (l ++ [a]) np k s).
  { intros np k s (l1 & l2 & m & -> & H). exists l1, (l2 ++ [a]), m. rewrite app_assoc. auto. }
  apply perform_spec.
  - destruct IH as [I1 I2]. split; intros k s Hk; apply Mono; auto.
  - intros o m np b s E C. exists l, [a], m. cbn [fst snd]. auto.
Qed.
Lemma sizes : forall l, (length (w_paid (after l)) <= 128)%nat /\ (length (w_all (after l)) <= 128)%nat.
Proof.
  assert (G : forall np w o m a, (length (w_paid w) <= MAXSIZE)%nat /\ (length (w_all w) <= MAXSIZE)%nat ->
    (length (w_paid (snd (get np w o m a))) <= MAXSIZE)%nat /\ (length (w_all (snd (get np w o m a))) <= MAXSIZE)%nat).
  { intros np w o m a [H1 H2]. unfold get. destruct np.
    - pose proof (cached_size (o, a) (w_all w) (compute_all m (aggregated a)) H2) as C.
      destruct (cached (o, a) (w_all w) (compute_all m (aggregated a))). split; [exact H1|exact C].
    - pose proof (cached_size (o, a) (w_paid w) (compute_paid m (aggregated a)) H1) as C.
      destruct (cached (o, a) (w_paid w) (compute_paid m (aggregated a))). split; [exact C|exact H2]. }
  intros l. change 128%nat with MAXSIZE. induction l as [|a l IH] using rev_ind; [cbn; split; apply Nat.le_0_l|].
  rewrite after_snoc. set (w := after l) in *. unfold perform. destruct a as [f g|o lv ts br bl|np o a|o sel np at'].
  - exact IH.
  - destruct (nth_error (w_objects w) o); exact IH.
  - destruct (nth_error (w_objects w) o) as [m|]; [|exact IH]. pose proof (G np w o m a IH) as K.
    destruct (get np w o m a). exact K.
  - destruct (nth_error (w_objects w) o) as [m|]; [|exact IH]. unfold contribution_metrics.
    pose proof (G np w o m (Keyword at') IH) as K. destruct (get np w o m (Keyword at')) as [r w1]. cbn [snd] in K.
    destruct r as [s|e]; [|exact K]. destruct (channel_rows s sel); [|exact K]. destruct at'; [exact K|].
    destruct (chosen_labels m); [exact K|]. pose proof (G true w1 o m (Keyword false) K) as K2.
    destruct (get true w1 o m (Keyword false)). exact K2.
Qed.

(** ** Calls on an object that was not updated *)
Lemma get_right : forall np w o m a, entries (right_for o m) w -> fst (get np w o m a) = compute np m (aggregated a).
Proof.
  intros np w o m a H. destruct (get_spec np w o m a) as (_ & _ & [E|(s & E & Q)]); [exact E|].
  rewrite E. symmetry. exact (Q _ H eq_refl).
Qed.
Definition table_now (m : media_summary) (selected : option (list string)) (np at' : bool) : result (list crow) :=
  rbind (compute np m at') (fun s =>
  rbind (channel_rows s selected) (fun rows =>
  rbind (if at' then baseline_rows s None None
         else match chosen_labels m with
              | Some l => baseline_rows s (Some l) (Some l)
              | None => rbind (compute true m false) (fun a => rbind (times_or_none a) (fun ts =>
                        rbind (times_or_none s) (fun ls => baseline_rows s (Some ts) (Some ls))))
              end) (fun base =>
  Ok (sort_rows at' (base ++ rows))))).
Lemma contribution_right : forall w o m sel np at', entries (right_for o m) w ->
  fst (contribution_metrics w o m sel np at') = table_now m sel np at'.
Proof.
  intros w o m sel np at' H. unfold contribution_metrics, table_now.
  pose proof (get_right np w o m (Keyword at') H) as E. cbn [aggregated] in E.
  destruct (get_spec np w o m (Keyword at')) as (_ & G & _).
  specialize (G _ H (fun s Hs _ => Hs)).
  destruct (get np w o m (Keyword at')) as [r w1]. cbn [fst snd] in E, G. rewrite <- E.
  destruct r as [s|e]; [|reflexivity]. cbn [rbind]. destruct (channel_rows s sel) as [rows|e]; [|reflexivity].
  cbn [rbind]. destruct at'; [reflexivity|]. destruct (chosen_labels m) as [l|]; [reflexivity|].
  pose proof (get_right true w1 o m (Keyword false) G) as E2. cbn [aggregated] in E2.
  destruct (get true w1 o m (Keyword false)) as [r2 w2]. cbn [fst] in E2 |- *. rewrite <- E2. reflexivity.
Qed.
Lemma answer_right : forall l o f g, unchanged_object l o f g ->
  (forall np a, answer l (AGet np o a) = RSummary (compute np (new_media_summary f g) (aggregated a))) /\
  (forall sel np at', answer l (AContribution o sel np at') = RTable (table_now (new_media_summary f g) sel np at')).
Proof.
  intros l o f g H. destruct (unchanged_state l o f g H) as [E Q]. split; intros; unfold answer, perform; rewrite E.
  - pose proof (get_right np (after l) o _ a Q) as G. destruct (get np (after l) o (new_media_summary f g) a).
    cbn [fst] in G |- *. rewrite G. reflexivity.
  - pose proof (contribution_right (after l) o _ sel np at' Q) as G.
    destruct (contribution_metrics (after l) o (new_media_summary f g) sel np at'). cbn [fst] in G |- *. rewrite G. reflexivity.
Qed.
