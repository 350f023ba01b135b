(** Proofs about health summaries handed to a model. *)
From Coq Require Import String Reals ZArith Lia List Bool Arith Permutation.
From Verif Require Import M_Base M_Aggregate M_Analyzer M_Stats M_Accuracy M_Review M_Restore S_Restore.
Import ListNotations.
Local Open Scope string_scope.
Local Open Scope R_scope.
Local Open Scope nat_scope.
Local Open Scope list_scope.

Lemma kind_eq : forall a b, kind_eqb a b = true <-> a = b.
Proof. intros [] []; cbn; split; intros; congruence. Qed.
Lemma kind_in_iff : forall k l, kind_in k l = true <-> In k l.
Proof.
  intros k l. unfold kind_in. rewrite existsb_exists. split.
  - intros (a & I & E). apply kind_eq in E. subst a. exact I.
  - intros I. exists k. split; [exact I|]. apply kind_eq. reflexivity.
Qed.
Lemma distinct_iff : forall l, distinct l = true <-> NoDup l.
Proof.
  induction l as [|k r IH]; cbn [distinct]; [split; [constructor|reflexivity]|].
  rewrite andb_true_iff, negb_true_iff, IH. split.
  - intros (A & B). constructor; [|exact B]. intros I. apply kind_in_iff in I. congruence.
  - intros N. inversion N; subst. split; [|assumption]. apply not_true_is_false. intros C. apply kind_in_iff in C. contradiction.
Qed.
Lemma same_iff : forall a b, same_kinds a b = true <-> (forall k, In k a <-> In k b).
Proof.
  intros a b. unfold same_kinds. rewrite andb_true_iff, !forallb_forall. split.
  - intros (A & B) k. split; intros I; apply kind_in_iff; auto.
  - intros H. split; intros k I; apply kind_in_iff; apply H; exact I.
Qed.
Lemma same_perm : forall a b, NoDup a -> NoDup b -> (same_kinds a b = true <-> Permutation a b).
Proof.
  intros a b Na Nb. rewrite same_iff. split.
  - intros H. apply NoDup_Permutation; assumption.
  - intros P k. split; [apply Permutation_in; exact P|apply Permutation_in, Permutation_sym; exact P].
Qed.
Lemma kinds_arranged : forall rs l, Permutation (map kind_of rs) l -> exists rs', map kind_of rs' = l /\ Permutation rs rs'.
Proof. intros rs l P. apply Permutation_sym, Permutation_map_inv in P. destruct P as (rs' & E & P). exists rs'. auto. Qed.

Lemma shapes_iff : forall n rs, forallb (shape_matches n) rs = true <-> Forall (entries_per_channel n) rs.
Proof.
  intros n rs. rewrite forallb_forall, Forall_forall. split; intros H r I; specialize (H r I); destruct r; cbn in *; auto; apply Nat.eqb_eq; exact H.
Qed.

Lemma nodup_full : NoDup model_level /\ NoDup with_shift /\ NoDup with_roi.
Proof. repeat split; apply distinct_iff; reflexivity. Qed.

Definition complete (rs : list check_result) : Prop :=
  exists c b p q t gof rest,
     Permutation rs (ConvergenceR c :: BaselineR b p :: PppR q t :: GofR gof :: rest) /\
     (rest = [] \/ (exists sh, rest = [ShiftR sh]) \/ (exists sh roi, rest = [ShiftR sh; RoiR roi])).

Ltac kind_elem := match goal with
  | E : map kind_of ?l = _ :: _ |- _ => destruct l as [|[] ?]; cbn [map kind_of] in E; try discriminate E; injection E as E
  | E : map kind_of ?l = [] |- _ => destruct l; [clear E|discriminate E]
  end.

Lemma complete_iff : forall rs,
  (NoDup (map kind_of rs) /\ (Permutation (map kind_of rs) model_level \/ Permutation (map kind_of rs) with_shift \/
     Permutation (map kind_of rs) with_roi)) <-> complete rs.
Proof.
  intros rs. split.
  - intros (N & [P|[P|P]]).
    + assert (P' : Permutation (map kind_of rs) [KConvergence; KBaseline; KPpp; KGof]).
      { apply (Permutation_trans P). unfold model_level. do 2 constructor. apply perm_swap. }
      apply kinds_arranged in P'. destruct P' as (l & E & P'). repeat kind_elem.
      do 7 eexists. split; [exact P'|]. left. reflexivity.
    + assert (P' : Permutation (map kind_of rs) [KConvergence; KBaseline; KPpp; KGof; KShift]).
      { apply (Permutation_trans P). unfold with_shift, model_level. cbn. do 2 constructor. apply perm_swap. }
      apply kinds_arranged in P'. destruct P' as (l & E & P'). repeat kind_elem.
      do 7 eexists. split; [exact P'|]. right. left. eexists. reflexivity.
    + assert (P' : Permutation (map kind_of rs) [KConvergence; KBaseline; KPpp; KGof; KShift; KRoi]).
      { apply (Permutation_trans P). unfold with_roi, with_shift, model_level. cbn. do 2 constructor. apply perm_swap. }
      apply kinds_arranged in P'. destruct P' as (l & E & P'). repeat kind_elem.
      do 7 eexists. split; [exact P'|]. right. right. do 2 eexists. reflexivity.
  - intros (c & b & p & q & t & gof & rest & P & Hr). apply (Permutation_map kind_of) in P. cbn [map kind_of] in P.
    destruct nodup_full as (N1 & N2 & N3).
    destruct Hr as [->|[(sh & ->)|(sh & roi & ->)]]; cbn [map kind_of] in P.
    + assert (Q : Permutation (map kind_of rs) model_level) by (apply (Permutation_trans P); do 2 constructor; apply perm_swap).
      split; [apply (Permutation_NoDup (Permutation_sym Q) N1)|auto].
    + assert (Q : Permutation (map kind_of rs) with_shift) by (apply (Permutation_trans P); unfold with_shift; cbn; do 2 constructor; apply perm_swap).
      split; [apply (Permutation_NoDup (Permutation_sym Q) N2)|auto].
    + assert (Q : Permutation (map kind_of rs) with_roi) by (apply (Permutation_trans P); unfold with_roi, with_shift; cbn; do 2 constructor; apply perm_swap).
      split; [apply (Permutation_NoDup (Permutation_sym Q) N3)|auto].
Qed.

Lemma single_iff : forall rs, NoDup (map kind_of rs) /\ same_kinds (map kind_of rs) convergence_only = true <->
  exists c, rs = [ConvergenceR c].
Proof.
  intros rs. split.
  - intros (N & E). apply (same_perm _ _ N) in E; [|repeat constructor; intros []].
    unfold convergence_only in E. apply kinds_arranged in E. destruct E as (l & E & P). repeat kind_elem.
    apply Permutation_sym, Permutation_length_1_inv in P. eexists. exact P.
  - intros (c & ->). split; [repeat constructor; intros []|reflexivity].
Qed.

Lemma health_iff : forall n h, validate_health n (Some h) = Ok tt <-> acceptable n (rv_results h).
Proof.
  intros n h. unfold validate_health. cbv zeta. set (rs := rv_results h).
  destruct nodup_full as (N1 & N2 & N3).
  destruct (distinct (map kind_of rs)) eqn:D; cbn [negb raise_if].
  2:{ split; [discriminate|]. intros A. exfalso.
      assert (N : NoDup (map kind_of rs)).
      { destruct A as [(c & -> & _)|(A & _)]; [repeat constructor; intros []|apply (proj2 (complete_iff rs)); exact A]. }
      apply distinct_iff in N. congruence. }
  apply distinct_iff in D.
  destruct (forallb (shape_matches n) rs) eqn:S; cbn [negb raise_if].
  2:{ split; [discriminate|]. intros A. exfalso. destruct A as [(c & -> & _)|(_ & A)]; [discriminate S|]. apply shapes_iff in A. congruence. }
  apply shapes_iff in S.
  assert (V : valid_subset rs = true <-> (exists c, rs = [ConvergenceR c] /\ cv_case c = NotConverged) \/ complete rs).
  { unfold valid_subset. cbv zeta. destruct (same_kinds (map kind_of rs) convergence_only) eqn:E.
    - destruct (proj1 (single_iff rs) (conj D E)) as (c & Er). rewrite Er. unfold not_converged. cbn [existsb]. rewrite orb_false_r. split.
      + intros H. left. exists c. split; [reflexivity|]. destruct (cv_case c); congruence.
      + intros [(c' & E' & H)|(c0 & b & p & q & t & gof & rest & P & _)].
        * injection E' as <-. rewrite H. reflexivity.
        * apply Permutation_length in P. discriminate P.
    - rewrite !orb_true_iff, (same_perm _ _ D N1), (same_perm _ _ D N2), (same_perm _ _ D N3). split.
      + intros H. right. apply complete_iff. tauto.
      + intros [(c & Er & _)|H]; [exfalso|apply complete_iff in H; tauto].
        assert (X : same_kinds (map kind_of rs) convergence_only = true) by (apply single_iff; exists c; exact Er). congruence. }
  destruct (valid_subset rs) eqn:E; cbn [negb raise_if].
  - split; [intros _|reflexivity]. destruct (proj1 V eq_refl) as [A|A]; [left; exact A|right; split; [exact A|exact S]].
  - split; [discriminate|]. intros A. exfalso. assert (X : false = true); [|discriminate X]. apply V.
    destruct A as [A|(A & _)]; [left; exact A|right; exact A].
Qed.

Lemma health_cases : forall n h, validate_health n (Some h) = Ok tt \/ validate_health n (Some h) = Err ValueError.
Proof.
  intros n h. unfold validate_health. cbv zeta.
  destruct (negb (distinct _)); [right; reflexivity|]. destruct (negb (forallb _ _)); [right; reflexivity|].
  destruct (negb (valid_subset _)); [right; reflexivity|left; reflexivity].
Qed.

(** ** Summaries of the default review *)
Definition n_names (ks : list paid_kind) : nat := length (concat (map pk_names ks)).

Lemma broadcast_length : forall (A : Type) n (l l' : list A), broadcast_to n l = Ok l' -> length l' = n.
Proof.
  intros A n l l' H. unfold broadcast_to in H. destruct l as [|a [|b r]].
  - destruct (Nat.eqb (length []) n) eqn:E; [|discriminate]. injection H as <-. apply Nat.eqb_eq. exact E.
  - injection H as <-. apply repeat_length.
  - destruct (Nat.eqb (length (a :: b :: r)) n) eqn:E; [|discriminate]. injection H as <-. apply Nat.eqb_eq. exact E.
Qed.
Lemma rbind_ok : forall (A B : Type) (a : result A) (f : A -> result B) b, rbind a f = Ok b -> exists v, a = Ok v /\ f v = Ok b.
Proof. intros A B [v|e] f b H; [exists v; auto|discriminate]. Qed.

Lemma shift_kind_length : forall alpha k l, length (pk_draws k) = length (pk_names k) ->
  shift_kind_results alpha (shift_kind_of k) = Ok l -> length l = length (pk_names k).
Proof.
  intros alpha k l HL H. unfold shift_kind_results, shift_kind_of in H. cbn [sk_draws sk_names sk_boots sk_prior] in H.
  destruct (pk_posterior k) as [d|] eqn:Ed; [|discriminate].
  assert (d = pk_draws k) as -> by (unfold pk_posterior in Ed; destruct (is_roi _); congruence).
  apply rbind_ok in H. destruct H as (v & Hv & H). injection H as <-. rewrite combine_length.
  unfold any_shift in Hv. do 4 (apply rbind_ok in Hv; destruct Hv as (? & _ & Hv)). injection Hv as <-.
  rewrite map_length, seq_length, HL. apply Nat.min_id.
Qed.
Lemma shift_length : forall t alpha ks r, (forall k, In k ks -> length (pk_draws k) = length (pk_names k)) ->
  prior_posterior_shift_check t alpha (map shift_kind_of ks) = Ok r -> length (sh_channels r) = n_names ks.
Proof.
  intros t alpha ks r HL H. unfold prior_posterior_shift_check in H. apply rbind_ok in H. destruct H as (l & Hl & H).
  injection H as <-. cbn [sh_channels]. unfold n_names. revert l Hl. induction ks as [|k ks IH]; intros l Hl.
  - injection Hl as <-. reflexivity.
  - cbn [map mapM] in Hl. apply rbind_ok in Hl. destruct Hl as (a & Ha & Hl). apply rbind_ok in Hl. destruct Hl as (b & Hb & Hl).
    injection Hl as <-. cbn [map concat]. rewrite !app_length, (shift_kind_length alpha k a (HL k (or_introl eq_refl)) Ha).
    f_equal. apply IH; [intros k' I; apply HL; right; exact I|exact Hb].
Qed.

Lemma fold_err : forall lo hi ks e, fold_left (roi_data_step lo hi) ks (Err e) = Err e.
Proof. intros lo hi ks e. induction ks as [|k ks IH]; [reflexivity|exact IH]. Qed.
Lemma roi_fold : forall lo hi ks d d', fold_left (roi_data_step lo hi) ks (Ok d) = Ok d' ->
  length (rd_undefined d') + length (rd_names d') =
  length (rd_undefined d) + length (rd_names d) + length (concat (map rk_names ks)).
Proof.
  intros lo hi ks. induction ks as [|k ks IH]; intros d d' H.
  - injection H as <-. cbn. lia.
  - cbn [fold_left] in H. unfold roi_data_step in H at 2. cbn [rbind] in H.
    cbn [map concat]. rewrite app_length.
    destruct (rk_prior k lo) as [a|]; [destruct (rk_prior k hi) as [b|]|].
    + destruct (broadcast_to (length (rk_names k)) a) as [a'|e]; cbn [rbind] in H; [|rewrite fold_err in H; discriminate].
      destruct (broadcast_to (length (rk_names k)) b) as [b'|e]; cbn [rbind] in H; [|rewrite fold_err in H; discriminate].
      apply IH in H. cbn [rd_undefined rd_names] in H. rewrite app_length in H. lia.
    + apply IH in H. cbn [rd_undefined rd_names] in H. rewrite app_length in H. lia.
    + apply IH in H. cbn [rd_undefined rd_names] in H. rewrite app_length in H. lia.
Qed.
Lemma roi_length : forall t lo hi ks l r, roi_kinds_of ks = Ok l -> roi_consistency_check t lo hi l = Ok r ->
  length (ro_channels r) = n_names ks.
Proof.
  intros t lo hi ks l r Hl H. unfold roi_consistency_check in H. apply rbind_ok in H. destruct H as (d & Hd & H).
  injection H as <-. cbn [ro_channels]. unfold roi_channel_results. rewrite app_length, !map_length.
  unfold get_roi_data in Hd. apply roi_fold in Hd. cbn [rd_undefined rd_names length] in Hd. rewrite Hd. unfold n_names. cbn.
  assert (E : map rk_names l = map pk_names ks); [|rewrite E; reflexivity].
  clear -Hl. revert l Hl. unfold roi_kinds_of. induction ks as [|k ks IH]; intros l Hl; [injection Hl as <-; reflexivity|].
  cbn [mapM] in Hl. apply rbind_ok in Hl. destruct Hl as (a & Ha & Hl). apply rbind_ok in Hl. destruct Hl as (b & Hb & Hl).
  injection Hl as <-. cbn [map]. rewrite (IH b Hb). f_equal. destruct (pk_posterior k); [|discriminate]. injection Ha as <-. reflexivity.
Qed.

Lemma default_accepted : forall x h draws bs ks g gs ts c s,
  (forall k, In k ks -> length (pk_draws k) = length (pk_names k)) ->
  review (Ok c) (default_battery x h draws bs ks g gs ts) = Ok s ->
  acceptable (n_names ks) (rv_results s).
Proof.
  intros x h draws bs ks g gs ts c s HL H.
  destruct (cv_case c) eqn:Ec.
  3:{ unfold review in H. cbn [rbind] in H. rewrite Ec in H. injection H as <-. left. exists c. auto. }
  all: right; unfold review in H; cbn [rbind] in H; rewrite Ec in H; apply rbind_ok in H; destruct H as (l & Hl & H);
    apply rbind_ok in H; destruct H as (o & _ & H); injection H as <-; cbn [rv_results];
    unfold default_battery in Hl; cbn [filter ck_relevant] in Hl.
  all: assert (M : exists p q r rest, l = BaselineR (rg_baseline g) p :: PppR (rg_ppp g) q :: GofR r :: rest /\
     (rest = [] \/ (exists sh, rest = [ShiftR sh] /\ length (sh_channels sh) = n_names ks) \/
      (exists sh roi, rest = [ShiftR sh; RoiR roi] /\ length (sh_channels sh) = n_names ks /\ length (ro_channels roi) = n_names ks))).
  1,3:
   cbn [mapM ck_run] in Hl; apply rbind_ok in Hl; destruct Hl as (a1 & H1 & Hl);
    unfold baseline_check in H1; apply rbind_ok in H1; destruct H1 as (p & _ & H1); injection H1 as <-;
    apply rbind_ok in Hl; destruct Hl as (t1 & Hl & E1); injection E1 as <-;
    apply rbind_ok in Hl; destruct Hl as (a2 & H2 & Hl);
    unfold bayesian_ppp_check in H2; apply rbind_ok in H2; destruct H2 as (? & _ & H2); apply rbind_ok in H2; destruct H2 as (? & _ & H2);
    apply rbind_ok in H2; destruct H2 as (? & _ & H2); injection H2 as <-;
    apply rbind_ok in Hl; destruct Hl as (t2 & Hl & E2); injection E2 as <-;
    apply rbind_ok in Hl; destruct Hl as (a3 & H3 & Hl);
    unfold goodness_of_fit_check in H3; apply rbind_ok in H3; destruct H3 as (? & _ & H3); apply rbind_ok in H3; destruct H3 as (r & _ & H3);
    injection H3 as <-;
    apply rbind_ok in Hl; destruct Hl as (t3 & Hl & E3); injection E3 as <-;
    eexists _, _, r, t3; split; [reflexivity|];
    destruct (uses_roi_priors ks); cbn [andb] in Hl;
    [|injection Hl as <-; left; reflexivity];
    cbn [mapM ck_run] in Hl; apply rbind_ok in Hl; destruct Hl as (a4 & H4 & Hl);
    unfold shift_check in H4; apply rbind_ok in H4; destruct H4 as (sh & H4 & E4); injection E4 as <-;
    pose proof (shift_length _ _ _ _ HL H4) as L4;
    apply rbind_ok in Hl; destruct Hl as (t4 & Hl & E4); injection E4 as <-; right;
    destruct (has_custom_roi_priors ks);
    [|injection Hl as <-; left; exists sh; auto];
    right; cbn [mapM ck_run] in Hl; apply rbind_ok in Hl; destruct Hl as (a5 & H5 & Hl);
    unfold roi_check in H5; apply rbind_ok in H5; destruct H5 as (kk & K5 & H5); apply rbind_ok in H5; destruct H5 as (roi & H5 & E5);
    injection E5 as <-; pose proof (roi_length _ _ _ _ _ _ K5 H5) as L5;
    cbn [rbind] in Hl; injection Hl as <-; exists sh, roi; auto.
  all: destruct M as (p & q & r & rest & -> & Hr); split.
  1,3: exists c, (rg_baseline g), p, (rg_ppp g), q, r, rest; split; [apply Permutation_refl|];
    destruct Hr as [->|[(sh & -> & _)|(sh & roi & -> & _)]]; [left; reflexivity|right; left; eexists; reflexivity|right; right; do 2 eexists; reflexivity].
  all: do 4 (constructor; [exact Logic.I|]);
    destruct Hr as [->|[(sh & -> & L)|(sh & roi & -> & L & L')]]; repeat constructor; assumption.
Qed.
