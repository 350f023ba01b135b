(** Lemmas about the grid search. *)
From Coq Require Import ZArith QArith Qround List Bool Arith Lia Lqa Sorted.
From Verif Require Import Lib_QSum M_Base M_Opt S_Opt P_Spec.
Import ListNotations.

Lemma Qlt_bool_iff : forall x y, Qlt_bool x y = true <-> (x < y)%Q.
Proof.
  intros. unfold Qlt_bool. rewrite negb_true_iff. split; intros H.
  - destruct (Qlt_le_dec x y) as [|H1]; auto. apply Qle_bool_iff in H1. congruence.
  - destruct (Qle_bool y x) eqn:E; auto. apply Qle_bool_iff in E. lra.
Qed.
Lemma Qlt_bool_false : forall x y, Qlt_bool x y = false <-> (y <= x)%Q.
Proof.
  intros. unfold Qlt_bool. rewrite negb_false_iff. apply Qle_bool_iff.
Qed.

(** nanargmax returns the first largest entry. *)
Definition first_max (roi : nat -> nat -> option Q) (l : list (nat * nat)) (res : option (nat * nat * Q)) : Prop :=
  match res with
  | None => forall p, In p l -> roi (snd p) (fst p) = None
  | Some (p, v) => exists pre post, l = pre ++ p :: post /\ roi (snd p) (fst p) = Some v /\
      (forall q w, In q pre -> roi (snd q) (fst q) = Some w -> (w < v)%Q) /\
      (forall q w, In q post -> roi (snd q) (fst q) = Some w -> (w <= v)%Q)
  end.

Lemma fold_better : forall roi l done acc, first_max roi done acc -> first_max roi (done ++ l) (fold_left (better roi) l acc).
Proof.
  induction l as [|p l IH]; intros done acc H; [rewrite app_nil_r; auto|].
  cbn [fold_left]. replace (done ++ p :: l) with ((done ++ [p]) ++ l) by (rewrite <- app_assoc; auto).
  apply IH. clear IH. unfold better. destruct (roi (snd p) (fst p)) as [v|] eqn:E.
  - destruct acc as [[q w]|].
    + destruct H as [pre [post [H1 [H2 [H3 H4]]]]]. destruct (Qlt_bool w v) eqn:El.
      * apply Qlt_bool_iff in El. exists done, []. repeat split; auto; [|intros; contradiction].
        intros q' w' Hq' Hr. subst done. apply in_app_iff in Hq'. destruct Hq' as [Hq'|[<-|Hq']].
        -- specialize (H3 q' w' Hq' Hr). lra.
        -- rewrite H2 in Hr. injection Hr as <-. auto.
        -- specialize (H4 q' w' Hq' Hr). lra.
      * apply Qlt_bool_false in El. exists pre, (post ++ [p]). split; [subst; rewrite <- app_assoc; auto|]. repeat split; auto.
        intros q' w' Hq' Hr. apply in_app_iff in Hq'. destruct Hq' as [Hq'|[<-|[]]]; [eauto|]. rewrite E in Hr. injection Hr as <-. auto.
    + exists done, []. repeat split; auto; [|intros; contradiction]. intros q w Hq Hr. rewrite H in Hr by auto. discriminate.
  - destruct acc as [[q w]|].
    + destruct H as [pre [post [H1 [H2 [H3 H4]]]]]. exists pre, (post ++ [p]). split; [subst; rewrite <- app_assoc; auto|]. repeat split; auto.
      intros q' w' Hq' Hr. apply in_app_iff in Hq'. destruct Hq' as [Hq'|[<-|[]]]; [eauto|]. congruence.
    + intros q Hq. apply in_app_iff in Hq. destruct Hq as [Hq|[<-|[]]]; auto.
Qed.

Lemma nanargmax_first_max : forall rows n roi, first_max roi (positions rows n) (nanargmax rows n roi).
Proof. intros. unfold nanargmax. apply (fold_better roi (positions rows n) [] None). intros p []. Qed.

Definition lex (p q : nat * nat) : Prop := (fst p < fst q \/ (fst p = fst q /\ snd p < snd q))%nat.

Lemma in_positions : forall rows n r c, In (r, c) (positions rows n) <-> (1 <= r < rows)%nat /\ (c < n)%nat.
Proof.
  intros. unfold positions. rewrite in_flat_map. split.
  - intros [r' [H1 H2]]. apply in_seq in H1. apply in_map_iff in H2. destruct H2 as [c' [H2 H3]]. apply in_seq in H3.
    injection H2 as <- <-. lia.
  - intros [H1 H2]. exists r. split; [apply in_seq; lia|]. apply in_map_iff. exists c. split; auto. apply in_seq. lia.
Qed.

Lemma sorted_app_lex : forall (l1 l2 : list (nat * nat)), StronglySorted lex l1 -> StronglySorted lex l2 ->
  (forall a b, In a l1 -> In b l2 -> lex a b) -> StronglySorted lex (l1 ++ l2).
Proof.
  induction l1 as [|x l1 IH]; intros l2 H1 H2 H; simpl; auto. apply StronglySorted_inv in H1. destruct H1 as [H1 H3].
  constructor; [apply IH; auto; intros; apply H; [right|]; auto|].
  apply Forall_app. split; auto. apply Forall_forall. intros. apply H; [left|]; auto.
Qed.

Lemma positions_sorted : forall rows n, StronglySorted lex (positions rows n).
Proof.
  intros rows n. unfold positions. generalize 1%nat at 1. generalize (rows - 1)%nat.
  induction n0 as [|k IH]; intros a; [constructor|]. cbn [seq flat_map]. apply sorted_app_lex.
  - clear IH. generalize 0%nat. induction n as [|j IHj]; intros b; [constructor|]. cbn [seq map]. constructor; [apply IHj|].
    apply Forall_forall. intros q Hq. apply in_map_iff in Hq. destruct Hq as [c [<- Hc]]. apply in_seq in Hc. right. simpl. lia.
  - apply IH.
  - intros p q Hp Hq. apply in_map_iff in Hp. destruct Hp as [c [<- _]]. apply in_flat_map in Hq. destruct Hq as [r [H1 H2]].
    apply in_seq in H1. apply in_map_iff in H2. destruct H2 as [c' [<- _]]. left. simpl. lia.
Qed.

Lemma nanargmax_spec : forall rows n roi r c v, nanargmax rows n roi = Some (r, c, v) ->
  (1 <= r < rows)%nat /\ (c < n)%nat /\ roi c r = Some v /\
  (forall r' c' w, (1 <= r' < rows)%nat -> (c' < n)%nat -> roi c' r' = Some w -> (w <= v)%Q /\ (lex (r', c') (r, c) -> (w < v)%Q)).
Proof.
  intros rows n roi r c v H. pose proof (nanargmax_first_max rows n roi) as F. rewrite H in F.
  destruct F as [pre [post [E [H1 [H2 H3]]]]]. cbn [fst snd] in *.
  assert (Hin : In (r, c) (positions rows n)) by (rewrite E; apply in_app_iff; right; left; auto).
  apply in_positions in Hin. split; [tauto|]. split; [tauto|]. split; auto.
  intros r' c' w Hr' Hc' Hw. assert (Hp : In (r', c') (positions rows n)) by (apply in_positions; auto).
  pose proof (positions_sorted rows n) as Hs. rewrite E in Hp, Hs. apply in_app_iff in Hp. destruct Hp as [Hp|[Hp|Hp]].
  - specialize (H2 _ w Hp Hw). split; [lra|auto].
  - injection Hp as <- <-. rewrite H1 in Hw. injection Hw as <-. split; [lra|]. unfold lex. simpl. lia.
  - split; [eauto|]. intros Hl. exfalso. clear - Hs Hl Hp.
    induction pre as [|p pre IH]; simpl in Hs; apply StronglySorted_inv in Hs; destruct Hs as [Hs Hf]; auto.
    rewrite Forall_forall in Hf. specialize (Hf _ Hp). unfold lex in *. simpl in *. lia.
Qed.

Lemma nanargmax_none : forall rows n roi, nanargmax rows n roi = None ->
  forall r c, (1 <= r < rows)%nat -> (c < n)%nat -> roi c r = None.
Proof.
  intros rows n roi H r c Hr Hc. pose proof (nanargmax_first_max rows n roi) as F. rewrite H in F.
  apply (F (r, c)). apply in_positions. auto.
Qed.

(** Extensionality. *)
Lemma qsum_ext_eq : forall n f g, (forall i, (i < n)%nat -> f i = g i) -> qsum n f = qsum n g.
Proof. induction n; intros; simpl; auto. rewrite (IHn f g), (H n) by (auto; lia). auto. Qed.

Lemma exceeds_ext : forall n s s' o o' v sc, (forall i, (i < n)%nat -> s i = s' i) -> (forall i, (i < n)%nat -> o i = o' i) ->
  exceeds n s o v sc = exceeds n s' o' v sc.
Proof. intros. unfold exceeds. rewrite (zsum_ext n s s'), (qsum_ext_eq n o o') by auto. reflexivity. Qed.

(** The rounded return of a move, as the code computes it. *)
Definition rounded_roi (g : grid) (x : alloc) (c r : nat) : option Q :=
  roi_between (spend_at g x c, outcome_at g x c) (cell g c r).

(** The move selected by the search: largest rounded return, first in row-major order. *)
Definition selected (g : grid) (x : alloc) (c r : nat) (v : Q) : Prop :=
  rounded_roi g x c r = Some v /\
  forall c' r', can_move g x c' r' -> exists w, rounded_roi g x c' r' = Some w /\ (w <= v)%Q /\ (lex (r', c') (r, c) -> (w < v)%Q).

Definition accepted (g : grid) (sc : scenario) (x : alloc) (c r : nat) : Prop :=
  exists v, selected g x c r v /\
    exceeds (length g) (spend_at g (moved x c r)) (outcome_at g (moved x c r)) v sc = false.

Definition stopped (g : grid) (sc : scenario) (y : alloc) : Prop :=
  (forall c r, ~ can_move g y c r) \/
  (exists c r v, can_move g y c r /\ selected g y c r v /\
     exceeds (length g) (spend_at g (moved y c r)) (outcome_at g (moved y c r)) v sc = true).

Definition Inv (g : grid) (x : alloc) (spend : nat -> Z) (outc : nat -> Q) (roi : nat -> nat -> option Q) : Prop :=
  forall c, (c < length g)%nat -> cell g c (x c) = Some (spend c, outc c) /\
    forall r, (1 <= r < n_rows g)%nat -> roi c r = if Nat.leb r (x c) then None else roi_between (spend c, outc c) (cell g c r).

Definition remaining (g : grid) (x : alloc) : Z := zsum (length g) (fun c => Z.of_nat (n_rows g - x c)).

Lemma roi_between_none : forall p x, roi_between p x = None <-> x = None.
Proof. intros p [[s o]|]; simpl; split; auto; discriminate. Qed.

Lemma inv_at : forall g x spend outc roi c, Inv g x spend outc roi -> (c < length g)%nat ->
  spend_at g x c = spend c /\ outcome_at g x c = outc c.
Proof. intros g x spend outc roi c H Hc. destruct (H c Hc) as [E _]. unfold spend_at, outcome_at. rewrite E. auto. Qed.

Lemma moved_at_same : forall g x c r s o, cell g c r = Some (s, o) -> spend_at g (moved x c r) c = s /\ outcome_at g (moved x c r) c = o.
Proof. intros. unfold spend_at, outcome_at, moved. rewrite Nat.eqb_refl, H. auto. Qed.

Lemma moved_at_other : forall g x c r c', c' <> c -> spend_at g (moved x c r) c' = spend_at g x c' /\ outcome_at g (moved x c r) c' = outcome_at g x c'.
Proof. intros. unfold spend_at, outcome_at, moved. destruct (Nat.eqb_spec c' c); [contradiction|auto]. Qed.

Lemma search_loop_spec : forall g sc fuel x spend outc roi, Inv g x spend outc roi -> (remaining g x < Z.of_nat fuel)%Z ->
  exists y s, search_loop fuel g sc spend outc roi = Some s /\ (forall c, (c < length g)%nat -> s c = spend_at g y c) /\
    feasible g y /\ reached g (accepted g sc) x y /\ stopped g sc y.
Proof.
  intros g sc. induction fuel as [|fuel IH]; intros x spend outc roi HI Hrem.
  { exfalso. assert (0 <= remaining g x)%Z by (apply zsum_nonneg; intros; lia). lia. }
  assert (Hfeas : feasible g x). { intros c Hc. destruct (HI c Hc) as [E _]. rewrite E. discriminate. }
  assert (Hmv : forall c r, can_move g x c r -> exists w, roi c r = Some w /\ rounded_roi g x c r = Some w).
  { intros c r [Hc [Hr [Hr2 Hne]]]. destruct (HI c Hc) as [E1 E2]. rewrite (E2 r) by lia.
    destruct (Nat.leb_spec r (x c)); [lia|]. unfold rounded_roi. destruct (inv_at g x spend outc roi c HI Hc) as [-> ->].
    destruct (roi_between (spend c, outc c) (cell g c r)) eqn:E; [eauto|]. apply roi_between_none in E. contradiction. }
  cbn [search_loop]. destruct (nanargmax (n_rows g) (length g) roi) as [[[r c] v]|] eqn:En.
  2:{ exists x, spend. split; auto. split; [intros c Hc; symmetry; apply (inv_at g x spend outc roi c HI Hc)|].
      split; auto. split; [constructor|]. left. intros c r Hcm. destruct (Hmv c r Hcm) as [w [Hw _]].
      destruct Hcm as [Hc [Hr [Hr2 _]]]. rewrite (nanargmax_none _ _ _ En r c) in Hw by lia. discriminate. }
  apply nanargmax_spec in En. destruct En as [Hr [Hc [Hv Hmax]]].
  destruct (HI c Hc) as [Ecell Eroi]. pose proof (Eroi r Hr) as Ev. rewrite Hv in Ev.
  destruct (Nat.leb_spec r (x c)) as [|Hxr]; [discriminate|].
  destruct (cell g c r) as [[s o]|] eqn:Ecr.
  2:{ simpl in Ev. discriminate. }
  assert (Hcan : can_move g x c r). { split; auto. split; auto. split; [lia|]. rewrite Ecr. discriminate. }
  assert (Hsel : selected g x c r v).
  { destruct (Hmv c r Hcan) as [w [Hw1 Hw2]]. split; [congruence|].
    intros c' r' Hcm. destruct (Hmv c' r' Hcm) as [w' [Hw1' Hw2']]. exists w'. split; auto.
    destruct Hcm as [Hc' [Hr' [Hr2' _]]]. apply (Hmax r' c' w'); auto. lia. }
  assert (Hat : forall i, (i < length g)%nat -> zset spend c s i = spend_at g (moved x c r) i /\ qset outc c o i = outcome_at g (moved x c r) i).
  { intros i Hi. unfold zset, qset. destruct (Nat.eqb_spec i c).
    - subst i. destruct (moved_at_same g x c r s o Ecr) as [-> ->]. auto.
    - destruct (moved_at_other g x c r i n) as [-> ->]. destruct (inv_at g x spend outc roi i HI Hi) as [-> ->]. auto. }
  assert (Hex : exceeds (length g) (zset spend c s) (qset outc c o) v sc =
                exceeds (length g) (spend_at g (moved x c r)) (outcome_at g (moved x c r)) v sc).
  { apply exceeds_ext; intros i Hi; apply (Hat i Hi). }
  destruct (exceeds (length g) (zset spend c s) (qset outc c o) v sc) eqn:Eex.
  - exists x, spend. split; auto. split; [intros i Hi; symmetry; apply (inv_at g x spend outc roi i HI Hi)|].
    split; auto. split; [constructor|]. right. exists c, r, v. auto.
  - assert (HI' : Inv g (moved x c r) (zset spend c s) (qset outc c o)
      (fun c' r' => if Nat.eqb c' c then (if Nat.leb r' r then None else roi_between (s, o) (cell g c r')) else roi c' r')).
    { intros i Hi. unfold moved, zset, qset. destruct (Nat.eqb_spec i c).
      - subst i. rewrite Ecr. split; auto.
      - destruct (HI i Hi) as [A B]. split; auto. }
    destruct (IH (moved x c r) _ _ _ HI') as [y [s' [E1 [E2 [E3 [E4 E5]]]]]].
    { assert (Hlt : (remaining g (moved x c r) < remaining g x)%Z); [|lia]. unfold remaining.
      rewrite (zsum_ext _ (fun i => Z.of_nat (n_rows g - moved x c r i)) (zset (fun i => Z.of_nat (n_rows g - x i)) c (Z.of_nat (n_rows g - r)))).
      - rewrite zsum_set by auto. lia.
      - intros i Hi. unfold moved, zset. destruct (Nat.eqb i c); auto. }
    exists y, s'. split; auto. split; auto. split; auto. split; auto.
    apply reached_move with c r; auto. exists v. split; auto.
Qed.

Lemma grid_search_spec : forall g sc, g <> [] -> well_formed g -> (0 < n_rows g)%nat ->
  exists s y, grid_search g sc = Ok s /\ (forall c, (c < length g)%nat -> s c = spend_at g y c) /\
    feasible g y /\ reached g (accepted g sc) (fun _ => 0%nat) y /\ stopped g sc y.
Proof.
  intros g sc Hne [Hlen [Hfirst _]] Hrows. unfold grid_search. destruct (Nat.eqb_spec (n_rows g) 0); [lia|]. cbn [raise_if].
  destruct (search_loop_spec g sc (n_rows g * length g + 1) (fun _ => 0%nat) (fun c => fst (first_point g c)) (fun c => snd (first_point g c))
              (fun c r => roi_between (first_point g c) (cell g c r))) as [y [s [E1 [E2 [E3 [E4 E5]]]]]].
  - intros c Hc. specialize (Hfirst c Hc). unfold first_point. destruct (cell g c 0) as [[a b]|] eqn:E; [|contradiction]. simpl. split; auto.
    intros r Hr. destruct (Nat.leb_spec r 0); [lia|]. reflexivity.
  - unfold remaining. assert (zsum (length g) (fun _ => Z.of_nat (n_rows g - 0)) = Z.of_nat (length g) * Z.of_nat (n_rows g))%Z.
    { generalize (length g). induction n0; simpl zsum; [lia|]. rewrite IHn0. lia. }
    rewrite H. lia.
  - rewrite E1. exists s, y. auto.
Qed.
