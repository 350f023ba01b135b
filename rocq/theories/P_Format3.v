(** Proofs about the scenario plan and the allocation table of an optimization report. *)
From Coq Require Import ZArith NArith QArith Qround Qabs String Ascii List Bool Arith Lia Lqa DecimalString Permutation Sorted.
From Verif Require Import Lib_QSum Lib_Sort M_Base M_Opt P_Opt P_OptGrid M_Format S_Format P_Format P_Format2.
Import ListNotations.
Local Open Scope string_scope.
Local Open Scope list_scope.
Local Infix "+++" := String.append (at level 60, right associativity).

Lemma plus_sign : forall d, (let s := if Qlt_bool 0 d then "+" else "" in (s = "+" <-> 0 < d) /\ (s = "" <-> d <= 0))%Q.
Proof.
  intros d. cbn zeta. destruct (Qlt_bool 0 d) eqn:E; [apply Qlt_bool_iff in E|apply Qlt_bool_false in E]; repeat split; intros; try reflexivity; try discriminate; try assumption; lra.
Qed.

Lemma roi_sign : forall d, (let s := if Z.ltb 0 (rint (d * 10)) then "+" else "" in (s = "+" \/ s = "") /\ (s = "+" -> 0 < d) /\ (1 # 20 < d -> s = "+"))%Q.
Proof.
  intros d. cbn zeta. destruct (rint_error (d * 10)) as [A B]. destruct (Z.ltb_spec 0 (rint (d * 10))) as [L|L].
  - split; [left; reflexivity|]. split; [|reflexivity]. intros _. destruct (Qlt_le_dec 0 d) as [G|G]; [exact G|exfalso].
    assert (R : (rint (d * 10) <= rint (inject_Z 0))%Z) by (apply rint_mono; change (inject_Z 0) with 0%Q; lra). rewrite rint_int in R. lia.
  - split; [right; reflexivity|]. split; [discriminate|]. intros H. exfalso.
    assert (R : (inject_Z (rint (d * 10)) <= inject_Z 0)%Q) by (rewrite <- Zle_Qle; lia). change (inject_Z 0) with 0%Q in R. lra.
Qed.

(** * The sentence *)
Lemma trunc_nonneg : forall x, (0 <= x)%Q -> (inject_Z (trunc x) <= x /\ x < inject_Z (trunc x) + 1)%Q.
Proof. intros x H. unfold trunc. rewrite (proj2 (Qle_bool_iff _ _) H). apply floor_bounds. Qed.
Lemma validate_inv : forall n lo hi p, validate_spend_constraints n lo hi = Ok p ->
  p = (const_array lo, const_array hi) /\ (forall x, In x (const_array lo) -> 0 <= x /\ x <= 1)%Q /\ (forall x, In x (const_array hi) -> 0 <= x)%Q.
Proof.
  intros n lo hi p H. unfold validate_spend_constraints, raise_if in H.
  destruct (bad_length n (const_array lo) || bad_length n (const_array hi)); [discriminate|].
  destruct (existsb _ (const_array lo)) eqn:E1; [discriminate|]. destruct (existsb _ (const_array hi)) eqn:E2; [discriminate|].
  injection H as <-. split; [reflexivity|split].
  - intros x Hx. destruct (Qle_bool 0 x && Qle_bool x 1) eqn:F; [rewrite andb_true_iff, !Qle_bool_iff in F; exact F|].
    exfalso. assert (C : existsb (fun x => negb (Qle_bool 0 x && Qle_bool x 1)) (const_array lo) = true) by (apply existsb_exists; exists x; rewrite F; split; [exact Hx|reflexivity]). congruence.
  - intros x Hx. destruct (Qlt_bool x 0) eqn:F; [|apply Qlt_bool_false in F; exact F].
    exfalso. assert (C : existsb (fun x => Qlt_bool x 0) (const_array hi) = true) by (apply existsb_exists; exists x; rewrite F; split; [exact Hx|reflexivity]). congruence.
Qed.
Lemma uniform_lemma : forall n lo hi fb hist s e b, get_spend_bounds n (Scalar lo) (Scalar hi) = Ok b ->
  exists L U, scenario_insight fb hist b s e = Ok (mkInsight (if fb then "fixed" else "Flexible") (Some (L, U)) hist s e) /\
    (inject_Z L <= 100 * lo /\ 100 * lo < inject_Z L + 1)%Q /\ (inject_Z U <= 100 * hi /\ 100 * hi < inject_Z U + 1)%Q.
Proof.
  intros n lo hi fb hist s e b H. unfold get_spend_bounds in H. destruct (validate_spend_constraints n (Scalar lo) (Scalar hi)) as [p|] eqn:V; [|discriminate].
  apply validate_inv in V. destruct V as [-> [V1 V2]]. cbn [const_array rbind fst snd map] in *. injection H as <-.
  destruct (V1 lo (or_introl eq_refl)) as [L0 L1]. pose proof (V2 hi (or_introl eq_refl)) as H0.
  rewrite (proj2 (Qle_bool_iff 0 (1 - lo)) ltac:(lra)).
  exists (trunc ((1 - (1 - lo)) * 100)), (trunc ((1 + hi - 1) * 100)). split; [reflexivity|].
  pose proof (trunc_nonneg ((1 - (1 - lo)) * 100) ltac:(lra)) as [A B]. pose proof (trunc_nonneg ((1 + hi - 1) * 100) ltac:(lra)) as [C D]. repeat split; lra.
Qed.
Lemma varied_lemma : forall n lo hi fb hist s e b, get_spend_bounds n lo hi = Ok b ->
  (1 < List.length (const_array lo) \/ 1 < List.length (const_array hi))%nat ->
  scenario_insight fb hist b s e = Ok (mkInsight (if fb then "fixed" else "Flexible") None hist s e).
Proof.
  intros n lo hi fb hist s e b H K. unfold get_spend_bounds in H. destruct (validate_spend_constraints n lo hi) as [p|] eqn:V; [|discriminate].
  apply validate_inv in V. destruct V as [-> _]. cbn [rbind fst snd] in H. injection H as <-. unfold scenario_insight. rewrite !map_length.
  assert (E : ((1 <? List.length (const_array lo)) || (1 <? List.length (const_array hi)))%nat = true).
  { apply orb_true_iff. rewrite !Nat.ltb_lt. exact K. }
  rewrite E. reflexivity.
Qed.

(** * The allocation table *)
Lemma integer_nonneg : forall x, (0 <= x)%Q -> exists i, integer (rint (x * 100)) = numeral i /\ (Qabs (inject_Z (Z.of_N i) - 100 * x) <= 1 # 2)%Q.
Proof.
  intros x H. assert (R : (0 <= rint (x * 100))%Z) by (apply rint_nonneg; lra). exists (Z.to_N (rint (x * 100))).
  unfold integer. destruct (Z.ltb_spec (rint (x * 100)) 0); [lia|]. split; [reflexivity|]. rewrite Z2N.id by lia.
  destruct (rint_error (x * 100)) as [A B]. apply Qabs_case; intros _; lra.
Qed.
Lemma filter_one : forall (opt : list (string * Q)) c b, NoDup (map fst opt) -> In (c, b) opt -> filter (fun y => String.eqb c (fst y)) opt = [(c, b)].
Proof.
  induction opt as [|[c0 b0] opt IH]; intros c b N I; [destruct I|]. cbn [map fst] in N. inversion N as [|? ? N1 N2]; subst. cbn [filter fst].
  destruct I as [E|I].
  - injection E as -> ->. rewrite String.eqb_refl. f_equal. clear IH. induction opt as [|[c1 b1] opt IH2]; [reflexivity|]. cbn [filter fst].
    destruct (String.eqb_spec c c1) as [->|D]; [exfalso; apply N1; left; reflexivity|]. apply IH2; [inversion N; subst; constructor; [intros F; apply N1; right; exact F|inversion H2; assumption]|intros F; apply N1; right; exact F|inversion N2; assumption].
  - destruct (String.eqb_spec c c0) as [->|D]; [exfalso; apply N1; apply in_map_iff; exists (c0, b); split; [reflexivity|exact I]|]. apply IH; assumption.
Qed.
Lemma merge_names : forall non opt, NoDup (map fst opt) -> (forall c, In c (map fst non) -> In c (map fst opt)) -> map fst (merge non opt) = map fst non.
Proof.
  induction non as [|[c a] non IH]; intros opt N H; [reflexivity|]. unfold merge. cbn [flat_map fst snd]. fold (merge non opt). rewrite map_app, (IH opt N) by (intros x X; apply H; right; exact X).
  pose proof (H c (or_introl eq_refl)) as I. apply in_map_iff in I. destruct I as [[c' b] [E I]]. cbn [fst] in E. subst c'.
  rewrite (filter_one opt c b N I). reflexivity.
Qed.
Lemma merge_in : forall non opt c a b, In (c, (a, b)) (merge non opt) <-> In (c, a) non /\ In (c, b) opt.
Proof.
  intros non opt c a b. unfold merge. rewrite in_flat_map. split.
  - intros [[c1 a1] [I J]]. apply in_map_iff in J. destruct J as [[c2 b2] [E J]]. apply filter_In in J. destruct J as [J1 J2]. cbn [fst snd] in *.
    apply String.eqb_eq in J2. subst c2. injection E as -> -> ->. split; assumption.
  - intros [I J]. exists (c, a). split; [exact I|]. apply in_map_iff. exists (c, b). split; [reflexivity|]. apply filter_In. split; [exact J|apply String.eqb_refl].
Qed.
Lemma table_rows : forall non opt, NoDup (map fst non) -> NoDup (map fst opt) -> Permutation (map fst non) (map fst opt) ->
  (forall c a, In (c, a) non -> 0 <= a)%Q -> (forall c b, In (c, b) opt -> 0 <= b)%Q ->
  exists rows, Permutation (map fst rows) (map fst non) /\
    (forall c a b, In (c, (a, b)) rows <-> In (c, a) non /\ In (c, b) opt) /\
    StronglySorted (fun r r' : string * (Q * Q) => snd (snd r') <= snd (snd r))%Q rows /\
    Forall2 (fun r o => fst o = fst r /\ whole (fst (snd r)) (fst (snd o)) /\ whole (snd (snd r)) (snd (snd o))) rows (allocation_table non opt).
Proof.
  intros non opt N1 N2 P H1 H2. set (le := fun a b : string * (Q * Q) => Qle_bool (snd (snd b)) (snd (snd a))).
  exists (isort le (merge non opt)). split; [|split; [|split]].
  - rewrite <- (merge_names non opt N2) by (intros c I; eapply Permutation_in; [exact P|exact I]). apply Permutation_map. symmetry. apply isort_perm.
  - intros c a b. rewrite isort_in. apply merge_in.
  - assert (S : le_sorted le (isort le (merge non opt))).
    { apply isort_sorted.
      - intros a b. unfold le. rewrite !Qle_bool_iff. apply Qle_total || (destruct (Qlt_le_dec (snd (snd b)) (snd (snd a))); [left|right]; lra).
      - intros a b c. unfold le. rewrite !Qle_bool_iff. lra. }
    revert S. generalize (isort le (merge non opt)). clear. unfold le_sorted. induction l as [|x l IH]; intros S; [constructor|].
    inversion S; subst. constructor; [apply IH; assumption|]. eapply Forall_impl; [|eassumption]. cbn. intros y Y. unfold le in Y. apply Qle_bool_iff in Y. exact Y.
  - unfold allocation_table. fold le. assert (I : forall r, In r (isort le (merge non opt)) -> (0 <= fst (snd r) /\ 0 <= snd (snd r))%Q).
    { intros [c [a b]] I. rewrite isort_in in I. apply merge_in in I. destruct I as [I J]. split; [exact (H1 c a I)|exact (H2 c b J)]. }
    revert I. generalize (isort le (merge non opt)). clear. induction l as [|r l IH]; intros I; [constructor|]. cbn [map]. constructor; [|apply IH; intros r' R; apply I; right; exact R].
    destruct (I r (or_introl eq_refl)) as [A B]. cbn [fst snd]. split; [reflexivity|]. destruct (integer_nonneg _ A) as [i [I1 I2]]. destruct (integer_nonneg _ B) as [j [J1 J2]].
    split; [exists i; rewrite I1; split; [reflexivity|exact I2]|exists j; rewrite J1; split; [reflexivity|exact J2]].
Qed.

(** * Endings of strings *)
Lemma append_last : forall (a b : string) (c : ascii), (a +++ String c "") = (b +++ String c "") -> a = b.
Proof.
  induction a as [|x a IH]; intros b c H.
  - destruct b as [|y b]; [reflexivity|]. exfalso. apply (f_equal String.length) in H. cbn [String.append String.length] in H. rewrite append_length in H. cbn in H. lia.
  - destruct b as [|y b].
    + exfalso. apply (f_equal String.length) in H. cbn [String.append String.length] in H. rewrite append_length in H. cbn in H. lia.
    + cbn [String.append] in H. injection H as -> H. f_equal. exact (IH b c H).
Qed.
Lemma not_numeral : forall s i, NilZero.uint_of_string s = None -> s = numeral i -> False.
Proof. intros s i H ->. destruct (means_digits i) as [d [D _]]. change (digits i) with (numeral i) in D. congruence. Qed.
