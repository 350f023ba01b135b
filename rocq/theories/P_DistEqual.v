(** Proofs for C84. *)
From Coq Require Import Reals String List Bool Arith Lia Lra.
From Verif Require Import M_Base M_DistEqual S_DistEqual.
Import ListNotations.
Local Open Scope string_scope.
Local Open Scope R_scope.
Local Open Scope nat_scope.
Local Open Scope list_scope.

Lemma isclose_near : forall x y, isclose x y = true <-> near x y.
Proof.
  intros x y. unfold isclose, near.
  replace (1 / 10 ^ 8)%R with (/ 100000000)%R by lra. replace (1 / 10 ^ 5)%R with (/ 100000)%R by lra.
  destruct (Rle_dec _ _); split; intros; try assumption; try reflexivity; try discriminate; contradiction.
Qed.

Lemma each_r : forall x l, forallb (fun y => isclose x y) l = true <-> (forall y, In y l -> near x y).
Proof. intros x l. rewrite forallb_forall. split; intros H y I; apply isclose_near; exact (H y I). Qed.

Lemma each_l : forall y l, forallb (fun x => isclose x y) l = true <-> (forall x, In x l -> near x y).
Proof. intros y l. rewrite forallb_forall. split; intros H x I; apply isclose_near; exact (H x I). Qed.

Lemma all2_near : forall l l', length l = length l' -> (all2 isclose l l' = true <-> Forall2 near l l').
Proof.
  induction l as [|x l IH]; intros [|y l'] E; try discriminate E; cbn [all2].
  - split; [constructor | reflexivity].
  - rewrite andb_true_iff, isclose_near. injection E as E. rewrite (IH l' E).
    split; [intros [A B]; constructor; assumption | intros F; inversion F; subst; split; assumption].
Qed.

Lemma Forall2_len : forall l l', Forall2 near l l' -> length l = length l'.
Proof. intros l l' F. induction F; cbn [length]; congruence. Qed.

Lemma arrays_exact : forall l l', length l = length l' \/ length l = 1 \/ length l' = 1 ->
  exists r, allclose (Array l) (Array l') = Ok r /\ (r = true <-> agree (Array l) (Array l')).
Proof.
  intros l l' C. unfold allclose. destruct (length l =? length l') eqn:E.
  - apply Nat.eqb_eq in E. eexists; split; [reflexivity|]. rewrite (all2_near l l' E). split.
    + apply A_arrays.
    + intros A. inversion A as [| |? ? F| | |x ? F|? y F]; subst; [exact F| |].
      * destruct l' as [|y [|? ?]]; try discriminate E. constructor; [apply F; left; reflexivity | constructor].
      * destruct l as [|x [|? ?]]; try discriminate E. constructor; [apply F; left; reflexivity | constructor].
  - apply Nat.eqb_neq in E.
    destruct l as [|x [|x' l]].
    + destruct l' as [|y [|y' l']]; [exfalso; apply E; reflexivity| |cbn [length] in C; lia].
      exists true. split; [reflexivity|]. split; [intros _; apply A_single_l; intros ? [] | reflexivity].
    + eexists; split; [reflexivity|]. rewrite each_r. split; [apply A_single_r|].
      intros A. inversion A as [| |? ? F| | |? ? F|? y F]; subst; [apply Forall2_len in F; contradiction | exact F |].
      exfalso; apply E; reflexivity.
    + destruct l' as [|y [|y' l']]; try (cbn [length] in C; cbn [length] in E; lia).
      eexists; split; [reflexivity|]. rewrite each_l. split; [apply A_single_l|].
      intros A. inversion A as [| |? ? F| | |? ? F|? ? F]; subst; [apply Forall2_len in F; contradiction | exact F].
Qed.

Lemma values_exact : forall v w, comparable v w ->
  exists r, values_equal v w = Ok r /\ (r = true <-> agree v w).
Proof.
  intros v w C. destruct v as [x|l|i], w as [y|l'|j]; unfold values_equal.
  - eexists; split; [reflexivity|]. rewrite isclose_near. split; [apply A_numbers | intros A; inversion A; assumption].
  - eexists; split; [reflexivity|]. rewrite each_r. split; [apply A_each_r | intros A; inversion A; assumption].
  - eexists; split; [reflexivity|]. split; [discriminate | intros A; inversion A].
  - eexists; split; [reflexivity|]. rewrite each_l. split; [apply A_each_l | intros A; inversion A; assumption].
  - exact (arrays_exact l l' (C l l' eq_refl eq_refl)).
  - eexists; split; [reflexivity|]. split; [discriminate | intros A; inversion A].
  - eexists; split; [reflexivity|]. split; [discriminate | intros A; inversion A].
  - eexists; split; [reflexivity|]. split; [discriminate | intros A; inversion A].
  - eexists; split; [reflexivity|]. rewrite Nat.eqb_eq.
    split; [intros ->; apply A_other | intros A; inversion A; reflexivity].
Qed.

Lemma lookup_In : forall k p, NoDup (map fst p) -> forall v, lookup k p = Some v <-> In (k, v) p.
Proof.
  intros k p. induction p as [|[k' v'] p IH]; intros N v; cbn [lookup].
  - split; [discriminate | intros []].
  - cbn [map fst] in N. inversion N as [|? ? NI N']; subst. destruct (String.eqb k k') eqn:E.
    + apply String.eqb_eq in E. subst k'. split.
      * intros H. injection H as ->. left; reflexivity.
      * intros [H|H]; [injection H as ->; reflexivity|]. exfalso. apply NI. exact (in_map fst _ _ H).
    + apply String.eqb_neq in E. rewrite (IH N' v). split; [intros H; right; exact H|].
      intros [H|H]; [injection H as H1 H2; congruence | exact H].
Qed.

Lemma has_iff : forall k p, has k p = true <-> exists v, In (k, v) p.
Proof.
  intros k p. unfold has. induction p as [|[k' v'] p IH]; cbn [lookup].
  - split; [discriminate | intros [v []]].
  - destruct (String.eqb k k') eqn:E.
    + apply String.eqb_eq in E. subst k'. split; [intros _; exists v'; left; reflexivity | reflexivity].
    + apply String.eqb_neq in E. rewrite IH. split.
      * intros [v H]; exists v; right; exact H.
      * intros [v [H|H]]; [congruence | exists v; exact H].
Qed.

Lemma keys_iff : forall p p', keys_equal p p' = true <-> (forall k, (exists v, In (k, v) p) <-> (exists v, In (k, v) p')).
Proof.
  intros p p'. unfold keys_equal. rewrite andb_true_iff, !forallb_forall. split.
  - intros [A B] k. split; intros [v I].
    + apply has_iff. exact (A (k, v) I).
    + apply has_iff. exact (B (k, v) I).
  - intros H. split; intros [k v] I; cbn [fst]; apply has_iff; apply H; exists v; exact I.
Qed.

Lemma params_exact : forall p p', NoDup (map fst p') ->
  (forall k v, In (k, v) p -> exists w, In (k, w) p') ->
  (forall k v w, In (k, v) p -> In (k, w) p' -> comparable v w) ->
  exists r, params_equal p p' = Ok r /\ (r = true <-> forall k v w, In (k, v) p -> In (k, w) p' -> agree v w).
Proof.
  induction p as [|[k v] p IH]; intros p' N K C; cbn [params_equal].
  - exists true. split; [reflexivity|]. split; [intros _ ? ? ? [] | reflexivity].
  - destruct (K k v (or_introl eq_refl)) as [w W]. rewrite (proj2 (lookup_In k p' N w) W).
    destruct (values_exact v w (C k v w (or_introl eq_refl) W)) as (r & R & A).
    destruct (IH p' N (fun k v i => K k v (or_intror i)) (fun k v w i => C k v w (or_intror i))) as (r' & R' & A').
    rewrite R. unfold rbind at 1. destruct r.
    + exists r'. split; [exact R'|]. rewrite A'. split.
      * intros H k0 v0 w0 [I|I] J.
        -- injection I as E1 E2. subst k0 v0.
           assert (w0 = w) by (apply (lookup_In k p' N) in J; apply (lookup_In k p' N) in W; congruence).
           subst w0. exact (proj1 A eq_refl).
        -- exact (H k0 v0 w0 I J).
      * intros H k0 v0 w0 I J. exact (H k0 v0 w0 (or_intror I) J).
    + exists false. split; [reflexivity|]. split; [discriminate|].
      intros H. apply A. exact (H k v w (or_introl eq_refl) W).
Qed.

Section Nested.
  Variable P : distr -> Prop.
  Hypothesis H : forall c d ds p, (forall x, d = Some x -> P x) -> (forall l, ds = Some l -> Forall P l) -> P (Distr c d ds p).

  Fixpoint distr_nested (a : distr) : P a :=
    match a with
    | Distr c d ds p =>
        H c d ds p
          (match d as o return forall x, o = Some x -> P x with
           | Some y => fun x E => match E in (_ = o) return (match o with Some z => P z | None => True end) with eq_refl => distr_nested y end
           | None => fun x E => match E in (_ = o) return (match o with Some z => P z | None => True end) with eq_refl => Logic.I end
           end)
          (match ds as o return forall l, o = Some l -> Forall P l with
           | Some l0 => fun l E => match E in (_ = o) return (match o with Some z => Forall P z | None => True end) with
               | eq_refl => (fix go (l : list distr) : Forall P l :=
                               match l with [] => Forall_nil P | x :: l' => Forall_cons x (distr_nested x) (go l') end) l0 end
           | None => fun l E => match E in (_ = o) return (match o with Some z => Forall P z | None => True end) with eq_refl => Logic.I end
           end)
    end.
End Nested.

Fixpoint pairwise (la lb : list distr) : result bool :=
  match la, lb with
  | x :: la', y :: lb' => rbind (distributions_are_equal x y) (fun e => if e then pairwise la' lb' else Ok false)
  | _, _ => Ok true
  end.

Lemma step : forall ca da dsa pa cb db dsb pb,
  distributions_are_equal (Distr ca da dsa pa) (Distr cb db dsb pb) =
      if negb (String.eqb ca cb) then Ok false else
      rbind (match da, db with Some x, Some y => distributions_are_equal x y | _, _ => Ok true end) (fun e =>
      if negb e then Ok false else
      rbind (match dsa, dsb with
             | Some la, Some lb => if negb (length la =? length lb) then Ok false else pairwise la lb
             | _, _ => Ok true
             end) (fun e => if negb e then Ok false else
      if negb (Bool.eqb (present da) (present db)) then Ok false else
      if negb (Bool.eqb (present dsa) (present dsb)) then Ok false else
      if negb (keys_equal pa pb) then Ok false else
      params_equal pa pb)).
Proof.
  intros. cbn [distributions_are_equal]. destruct dsa as [la|], dsb as [lb|]; try reflexivity.
Qed.

Definition decides (a b : distr) : Prop := exists r, distributions_are_equal a b = Ok r /\ (r = true <-> same a b).

Lemma pairwise_exact : forall la lb, length la = length lb ->
  (forall x y, In x la -> In y lb -> decides x y) ->
  exists r, pairwise la lb = Ok r /\ (r = true <-> same_list la lb).
Proof.
  induction la as [|x la IH]; intros [|y lb] E D; try discriminate E; cbn [pairwise].
  - exists true. split; [reflexivity|]. split; [constructor | reflexivity].
  - destruct (D x y (or_introl eq_refl) (or_introl eq_refl)) as (r & R & S).
    injection E as E. destruct (IH lb E (fun x y i j => D x y (or_intror i) (or_intror j))) as (r' & R' & S').
    rewrite R. unfold rbind. destruct r.
    + exists r'. split; [exact R'|]. rewrite S'. split.
      * intros T. constructor; [apply S; reflexivity | exact T].
      * intros T. inversion T; assumption.
    + exists false. split; [reflexivity|]. split; [discriminate|].
      intros T. inversion T; subst. apply S; assumption.
Qed.

Lemma same_list_length : forall l l', same_list l l' -> length l = length l'.
Proof. induction l as [|x l IH]; intros l' S; inversion S; subst; cbn [length]; [reflexivity | f_equal; auto]. Qed.

Lemma equal_exact : forall a b, distinct a -> distinct b -> all_comparable a b -> decides a b.
Proof.
  intros a. pattern a. apply distr_nested. clear a.
  intros c d ds p ID IL b NA NB C. destruct b as [c' d' ds' p'].
  unfold decides. rewrite step.
  destruct (String.eqb c c') eqn:EC; cbn [negb].
  2:{ exists false. split; [reflexivity|]. split; [discriminate|].
      intros S. inversion S; subst. rewrite String.eqb_refl in EC. discriminate EC. }
  apply String.eqb_eq in EC. subst c'.
  (* the single distribution *)
  assert (X1 : exists r, match d, d' with Some x, Some y => distributions_are_equal x y | _, _ => Ok true end = Ok r /\
                         (same_option d d' -> r = true) /\ (r = true -> present d = present d' -> same_option d d')).
  { destruct d as [x|], d' as [y|].
    - destruct (ID x eq_refl y) as (r & R & S).
      + intros z Z. apply NA. apply In_one. exact Z.
      + intros z Z. apply NB. apply In_one. exact Z.
      + intros z t k v w Z T. apply C; [apply In_one; exact Z | apply In_one; exact T].
      + exists r. split; [exact R|]. split; [intros T; inversion T; apply S; assumption | intros T _; constructor; apply S; exact T].
    - exists true. split; [reflexivity|]. split; [reflexivity | intros _ T; discriminate T].
    - exists true. split; [reflexivity|]. split; [reflexivity | intros _ T; discriminate T].
    - exists true. split; [reflexivity|]. split; [reflexivity | intros; constructor]. }
  destruct X1 as (r1 & R1 & A1 & B1). rewrite R1. unfold rbind at 1.
  destruct r1; cbn [negb].
  2:{ exists false. split; [reflexivity|]. split; [discriminate|]. intros S. inversion S; subst. apply A1; assumption. }
  (* the list of distributions *)
  assert (X2 : exists r, match ds, ds' with
             | Some la, Some lb => if negb (length la =? length lb) then Ok false else pairwise la lb
             | _, _ => Ok true end = Ok r /\
                         (same_options ds ds' -> r = true) /\ (r = true -> present ds = present ds' -> same_options ds ds')).
  { destruct ds as [l|], ds' as [l'|].
    - destruct (length l =? length l') eqn:EL; cbn [negb].
      + apply Nat.eqb_eq in EL. destruct (pairwise_exact l l' EL) as (r & R & S).
        * intros x y I J. pose proof (IL l eq_refl) as F. rewrite Forall_forall in F.
          apply (F x I y).
          -- intros z Z. apply NA. exact (In_list z c d l p x I Z).
          -- intros z Z. apply NB. exact (In_list z c d' l' p' y J Z).
          -- intros z t k v w Z T. apply C; [exact (In_list z c d l p x I Z) | exact (In_list t c d' l' p' y J T)].
        * exists r. split; [exact R|]. split; [intros T; inversion T; apply S; assumption | intros T _; constructor; apply S; exact T].
      + exists false. split; [reflexivity|]. split; [|discriminate].
        intros T. inversion T; subst. apply Nat.eqb_neq in EL. exfalso. apply EL. apply same_list_length. assumption.
    - exists true. split; [reflexivity|]. split; [reflexivity | intros _ T; discriminate T].
    - exists true. split; [reflexivity|]. split; [reflexivity | intros _ T; discriminate T].
    - exists true. split; [reflexivity|]. split; [reflexivity | intros; constructor]. }
  destruct X2 as (r2 & R2 & A2 & B2). rewrite R2. unfold rbind.
  destruct r2; cbn [negb].
  2:{ exists false. split; [reflexivity|]. split; [discriminate|]. intros S. inversion S; subst. apply A2; assumption. }
  destruct (Bool.eqb (present d) (present d')) eqn:E1; cbn [negb].
  2:{ exists false. split; [reflexivity|]. split; [discriminate|]. intros S. inversion S as [? ? ? ? ? ? ? S1 S2 S3 S4]; subst.
      inversion S1; subst; discriminate E1. }
  apply Bool.eqb_prop in E1.
  destruct (Bool.eqb (present ds) (present ds')) eqn:E2; cbn [negb].
  2:{ exists false. split; [reflexivity|]. split; [discriminate|]. intros S. inversion S as [? ? ? ? ? ? ? S1 S2 S3 S4]; subst.
      inversion S2; subst; discriminate E2. }
  apply Bool.eqb_prop in E2.
  destruct (keys_equal p p') eqn:EK; cbn [negb].
  2:{ exists false. split; [reflexivity|]. split; [discriminate|]. intros S. inversion S as [? ? ? ? ? ? ? S1 S2 S3 S4]; subst.
      apply keys_iff in S3. congruence. }
  pose proof (proj1 (keys_iff p p') EK) as K.
  destruct (params_exact p p') as (r & R & A).
  - exact (NB _ (In_self _)).
  - intros k v I. apply K. exists v. exact I.
  - intros k v w I J. exact (C _ _ k v w (In_self _) (In_self _) I J).
  - exists r. split; [exact R|]. rewrite A. split.
    + intros G. constructor; [apply B1; [reflexivity | exact E1] | apply B2; [reflexivity | exact E2] | exact K | exact G].
    + intros S. inversion S; subst. assumption.
Qed.

Lemma near_refl : forall x, near x x.
Proof. intros x. unfold near. replace (x - x)%R with 0%R by lra. rewrite Rabs_R0. pose proof (Rabs_pos x). lra. Qed.

Lemma value_refl : forall v, values_equal v v = Ok true.
Proof.
  intros v. destruct (values_exact v v) as (r & R & A).
  - intros l l' E E'. left. congruence.
  - rewrite R. f_equal. apply A. destruct v as [x|l|i]; constructor; [apply near_refl|].
    clear. induction l as [|x l IH]; [constructor | constructor; [apply near_refl | exact IH]].
Qed.

Lemma params_refl : forall p q, (forall k v, In (k, v) q -> lookup k p = Some v) -> params_equal q p = Ok true.
Proof.
  intros p. induction q as [|[k v] q IH]; intros H; cbn [params_equal]; [reflexivity|].
  rewrite (H k v (or_introl eq_refl)), value_refl. unfold rbind. apply IH. intros k' v' I. apply H. right. exact I.
Qed.

Lemma equal_refl : forall a, distinct a -> distributions_are_equal a a = Ok true.
Proof.
  intros a. pattern a. apply distr_nested. clear a. intros c d ds p ID IL N.
  rewrite step, String.eqb_refl. cbn [negb].
  replace (match d with Some x => match d with Some y => distributions_are_equal x y | None => Ok true end | None => Ok true end) with (@Ok bool true).
  2:{ destruct d as [x|]; [|reflexivity]. symmetry. apply (ID x eq_refl). intros z Z. apply N. apply In_one. exact Z. }
  unfold rbind at 1. cbn [negb].
  replace (match ds with Some la => match ds with Some lb => if negb (length la =? length lb) then Ok false else pairwise la lb | None => Ok true end | None => Ok true end) with (@Ok bool true).
  2:{ destruct ds as [l|]; [|reflexivity]. rewrite Nat.eqb_refl. cbn [negb]. pose proof (IL l eq_refl) as F.
      assert (D : forall x, In x l -> distinct x) by (intros x I z Z; apply N; exact (In_list z c d l p x I Z)).
      clear - F D. induction F as [|x l Hx F IH]; cbn [pairwise]; [reflexivity|].
      rewrite (Hx (D x (or_introl eq_refl))). unfold rbind. apply IH. intros y I. apply D. right. exact I. }
  unfold rbind. rewrite !Bool.eqb_reflx. cbn [negb].
  rewrite (proj2 (keys_iff p p)) by (intros; reflexivity). cbn [negb].
  apply params_refl. intros k v I. apply lookup_In; [exact (N _ (In_self _)) | exact I].
Qed.

(** The warnings. *)
Lemma custom_exact : forall prior default names,
  (forall k, In k names -> decides (prior k) (default k)) ->
  exists r, custom prior default names = Ok r /\ (forall k, In k r <-> In k names /\ ~ same (prior k) (default k)).
Proof.
  intros prior default. induction names as [|k names IH]; intros D; cbn [custom].
  - exists []. split; [reflexivity|]. intros k. split; [intros [] | intros [[] _]].
  - destruct (D k (or_introl eq_refl)) as (e & E & S). destruct (IH (fun k i => D k (or_intror i))) as (r & R & Q).
    rewrite E. unfold rbind at 1. rewrite R. unfold rbind. exists (if e then r else k :: r). split; [reflexivity|].
    intros k0. destruct e.
    + rewrite Q. split; [intros [A B]; split; [right; exact A | exact B]|].
      intros [[A|A] B]; [subst k0; exfalso; apply B; apply S; reflexivity | split; assumption].
    + cbn [In]. rewrite Q. split.
      * intros [A|[A B]]; [subst k0; split; [left; reflexivity | intros T; apply S in T; discriminate T] | split; [right; exact A | exact B]].
      * intros [[A|A] B]; [left; exact A | right; split; assumption].
Qed.

Lemma warnings_exact : forall mt rt prior default,
  (forall k, In k (media_effects ++ rf_effects) -> distinct (prior k) /\ distinct (default k) /\ all_comparable (prior k) (default k)) ->
  exists ws, ignored_warnings mt rt prior default = Ok ws /\
    (forall k, (exists w, In w ws /\ In k w) <->
       (In k (media_effects ++ rf_effects) /\ ~ is_read mt rt k /\ ~ same (prior k) (default k))) /\
    (forall w, In w ws -> w <> []).
Proof.
  intros mt rt prior default D. unfold ignored_warnings.
  assert (DD : forall k, In k (media_effects ++ rf_effects) -> decides (prior k) (default k)).
  { intros k I. destruct (D k I) as (A & B & C). exact (equal_exact _ _ A B C). }
  destruct (custom_exact prior default (ignored_media mt)) as (m & M & QM).
  { intros k I. apply DD. apply in_or_app. left. destruct mt; cbn in *; tauto. }
  destruct (custom_exact prior default (ignored_rf rt)) as (r & R & QR).
  { intros k I. apply DD. apply in_or_app. right. destruct rt; cbn in *; tauto. }
  rewrite M. unfold rbind at 1. rewrite R. unfold rbind. eexists. split; [reflexivity|]. split.
  - intros k.
    assert (X : (exists w, In w ((match m with [] => [] | _ => [m] end) ++ (match r with [] => [] | _ => [r] end)) /\ In k w) <-> In k m \/ In k r).
    { split.
      - intros (w & I & J). apply in_app_or in I. destruct I as [I|I].
        + left. destruct m; [destruct I | destruct I as [<-|[]]; exact J].
        + right. destruct r; [destruct I | destruct I as [<-|[]]; exact J].
      - intros [J|J].
        + exists m. split; [apply in_or_app; left; destruct m; [destruct J | left; reflexivity] | exact J].
        + exists r. split; [apply in_or_app; right; destruct r; [destruct J | left; reflexivity] | exact J]. }
    rewrite X, QM, QR.
    assert (Y : (In k (media_effects ++ rf_effects) /\ ~ is_read mt rt k) <-> (In k (ignored_media mt) \/ In k (ignored_rf rt))).
    { unfold is_read. split.
      - intros [I NR]. unfold media_effects, rf_effects in I. cbn [app In] in I.
        destruct mt, rt; cbn [position nth media_effects rf_effects ignored_media ignored_rf In] in *;
          repeat (destruct I as [I|I]; [subst k; try (exfalso; apply NR; tauto); tauto|]); destruct I.
      - intros I. split.
        + unfold media_effects, rf_effects. cbn [app In]. destruct mt, rt; cbn [ignored_media ignored_rf In] in I; tauto.
        + intros [E|E]; subst k; destruct mt, rt; cbn [position nth media_effects rf_effects ignored_media ignored_rf In] in I;
            repeat match goal with H : _ \/ _ |- _ => destruct H | H : False |- _ => destruct H | H : _ = _ :> string |- _ => discriminate H end. }
    tauto.
  - intros w I. apply in_app_or in I. destruct I as [I|I].
    + destruct m; [destruct I | destruct I as [<-|[]]; discriminate].
    + destruct r; [destruct I | destruct I as [<-|[]]; discriminate].
Qed.
