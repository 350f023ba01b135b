(** Consequences of the grid-search loop specification. *)
From Coq Require Import ZArith QArith Qround List Bool Arith Lia Lqa Sorted.
From Verif Require Import Lib_QSum M_Base M_Opt S_Opt P_Spec P_Opt.
Import ListNotations.

(** Termination from any state. *)
Lemma search_loop_fuel : forall g sc fuel x spend outc roi,
  (forall c r, (c < length g)%nat -> (r <= x c)%nat -> roi c r = None \/ r = 0%nat) ->
  (remaining g x < Z.of_nat fuel)%Z -> search_loop fuel g sc spend outc roi <> None.
Proof.
  intros g sc. induction fuel as [|fuel IH]; intros x spend outc roi HI Hrem.
  { exfalso. assert (0 <= remaining g x)%Z by (apply zsum_nonneg; intros; lia). lia. }
  cbn [search_loop]. destruct (nanargmax (n_rows g) (length g) roi) as [[[r c] v]|] eqn:En; [|discriminate].
  apply nanargmax_spec in En. destruct En as [Hr [Hc [Hv _]]].
  destruct (cell g c r) as [[s o]|]; [|discriminate]. destruct (exceeds _ _ _ _ _); [discriminate|].
  assert (Hxr : (x c < r)%nat). { destruct (Nat.le_gt_cases r (x c)) as [H|H]; auto. destruct (HI c r Hc H); [congruence|lia]. }
  apply IH with (x := moved x c r).
  - intros c' r' Hc' Hr'. unfold moved in Hr'. destruct (Nat.eqb_spec c' c); [|auto]. subst c'.
    destruct (Nat.leb_spec r' r); [auto|lia].
  - assert (Hlt : (remaining g (moved x c r) < remaining g x)%Z); [|lia]. unfold remaining.
    rewrite (zsum_ext _ (fun i => Z.of_nat (n_rows g - moved x c r i)) (zset (fun i => Z.of_nat (n_rows g - x i)) c (Z.of_nat (n_rows g - r)))).
    + rewrite zsum_set by auto. lia.
    + intros i Hi. unfold moved, zset. destruct (Nat.eqb i c); auto.
Qed.

Lemma zsum_const : forall n k, zsum n (fun _ => k) = (Z.of_nat n * k)%Z.
Proof. induction n; intros; simpl zsum; [lia|]. rewrite IHn. lia. Qed.

Lemma search_terminates : forall g sc fuel spend outc roi, (n_rows g * length g < fuel)%nat -> search_loop fuel g sc spend outc roi <> None.
Proof.
  intros. apply search_loop_fuel with (x := fun _ => 0%nat).
  - intros. right. lia.
  - unfold remaining. rewrite zsum_const. lia.
Qed.

Lemma search_fuel_irrelevant : forall g sc fuel fuel' spend outc roi s, search_loop fuel g sc spend outc roi = Some s -> (fuel <= fuel')%nat ->
  search_loop fuel' g sc spend outc roi = Some s.
Proof.
  intros g sc. induction fuel as [|fuel IH]; intros fuel' spend outc roi s H Hle; [discriminate|].
  destruct fuel' as [|fuel']; [lia|]. cbn [search_loop] in *.
  destruct (nanargmax _ _ _) as [[[r c] v]|]; auto. destruct (cell g c r) as [[s1 o1]|]; auto.
  destruct (exceeds _ _ _ _ _); auto. apply IH; auto. lia.
Qed.

Lemma grid_search_total : forall g sc, (0 < n_rows g)%nat -> exists s, grid_search g sc = Ok s.
Proof.
  intros g sc H. unfold grid_search. destruct (Nat.eqb_spec (n_rows g) 0); [lia|]. cbn [raise_if].
  pose proof (search_terminates g sc (n_rows g * length g + 1) (fun c => fst (first_point g c)) (fun c => snd (first_point g c))
              (fun c r => roi_between (first_point g c) (cell g c r)) ltac:(lia)) as Ht.
  destruct (search_loop _ _ _ _ _ _); [eauto|contradiction].
Qed.

Lemma grid_search_ok_rows : forall g sc s, grid_search g sc = Ok s -> (0 < n_rows g)%nat.
Proof. intros g sc s H. unfold grid_search in H. apply raise_if_ok in H. destruct H as [H _]. apply Nat.eqb_neq in H. lia. Qed.

Lemma grid_search_inv : forall g sc s, well_formed g -> grid_search g sc = Ok s ->
  exists y, (forall c, (c < length g)%nat -> s c = spend_at g y c) /\
    feasible g y /\ reached g (accepted g sc) (fun _ => 0%nat) y /\ stopped g sc y.
Proof.
  intros g sc s Hw H. pose proof (grid_search_ok_rows g sc s H) as Hr.
  assert (g <> []). { intros ->. simpl in Hr. lia. }
  destruct (grid_search_spec g sc H0 Hw Hr) as [s' [y [E R]]]. rewrite H in E. injection E as <-. eauto.
Qed.

(** Rounding to eight decimals. *)
Lemma round8_error : forall x, (round8 x - x <= half8 /\ x - round8 x <= half8)%Q.
Proof.
  intros x. unfold round8, half8. destruct (rint_error (x * inject_Z 100000000)) as [H1 H2].
  set (z := inject_Z (rint (x * inject_Z 100000000))) in *. unfold Qdiv.
  change (/ inject_Z 100000000)%Q with (1 # 100000000)%Q. change (inject_Z 100000000) with 100000000%Q in *. lra.
Qed.
Lemma round8_mono : forall x y, (x <= y)%Q -> (round8 x <= round8 y)%Q.
Proof.
  intros x y H. unfold round8, Qdiv. apply Qmult_le_compat_r; [|discriminate]. apply inject_le. apply rint_mono.
  apply Qmult_le_compat_r; auto. discriminate.
Qed.
Lemma round8_comp : forall x y, (x == y)%Q -> round8 x = round8 y.
Proof. intros x y H. unfold round8. rewrite (rint_comp (x * inject_Z 100000000) (y * inject_Z 100000000)); auto. rewrite H. reflexivity. Qed.
Lemma round8_exact : forall x z, (x == inject_Z z / inject_Z 100000000)%Q -> (round8 x == x)%Q.
Proof.
  intros x z H. assert (E : round8 x = (inject_Z z / inject_Z 100000000)%Q).
  { unfold round8. rewrite (rint_comp _ (inject_Z z)); [rewrite rint_int; auto|]. rewrite H. unfold Qdiv.
    rewrite <- Qmult_assoc. change (/ inject_Z 100000000 * inject_Z 100000000)%Q with (100000000 # 100000000)%Q.
    setoid_replace (100000000 # 100000000)%Q with 1%Q by reflexivity. lra. }
  rewrite E, H. reflexivity.
Qed.

(** Moves keep an allocation on the grid. *)
Lemma feasible_moved : forall g x c r, feasible g x -> can_move g x c r -> feasible g (moved x c r).
Proof. intros g x c r H [H1 [H2 [H3 H4]]] i Hi. unfold moved. destruct (Nat.eqb_spec i c); [subst; auto|]. apply H; auto. Qed.

Lemma reached_impl : forall g (ok ok' : alloc -> nat -> nat -> Prop) x y, feasible g x ->
  (forall x c r, feasible g x -> can_move g x c r -> ok x c r -> ok' x c r) -> reached g ok x y -> reached g ok' x y.
Proof.
  intros g ok ok' x y Hf H R. induction R; [constructor|]. apply reached_move with c r; auto.
  apply IHR. apply feasible_moved; auto.
Qed.

Lemma spend_increases : forall g x c r, well_formed g -> feasible g x -> can_move g x c r ->
  (spend_at g x c < spend_at g (moved x c r) c)%Z.
Proof.
  intros g x c r [_ [_ Hinc]] Hf [Hc [Hr [Hr2 Hne]]]. specialize (Hf c Hc). unfold spend_at.
  assert (moved x c r c = r) as -> by (unfold moved; rewrite Nat.eqb_refl; auto).
  destruct (cell g c (x c)) as [[s o]|] eqn:E1; [|contradiction]. destruct (cell g c r) as [[s' o']|] eqn:E2; [|contradiction].
  eapply Hinc; [exact Hr|exact E1|exact E2].
Qed.

Lemma rounded_is_round8 : forall g x c r, well_formed g -> feasible g x -> can_move g x c r ->
  rounded_roi g x c r = Some (round8 (move_roi g x c r)).
Proof.
  intros g x c r Hw Hf Hm. pose proof (spend_increases g x c r Hw Hf Hm) as Hlt. destruct Hm as [Hc [Hr [Hr2 Hne]]].
  unfold rounded_roi, roi_between. destruct (cell g c r) as [[s o]|] eqn:E; [|contradiction].
  destruct (moved_at_same g x c r s o E) as [E1 E2]. unfold move_roi. rewrite E1, E2 in *.
  cbn [fst snd]. destruct (Z.eqb_spec (s - spend_at g x c) 0); [lia|]. reflexivity.
Qed.

Lemma total_spend_moved : forall g x c r, (c < length g)%nat ->
  total_spend g (moved x c r) = (total_spend g x - spend_at g x c + spend_at g (moved x c r) c)%Z.
Proof.
  intros g x c r Hc. unfold total_spend.
  rewrite (zsum_ext _ _ (zset (spend_at g x) c (spend_at g (moved x c r) c))).
  - rewrite zsum_set by auto. reflexivity.
  - intros i Hi. unfold zset. destruct (Nat.eqb_spec i c); [subst; auto|]. apply (moved_at_other g x c r i n).
Qed.
Lemma total_outcome_moved : forall g x c r, (c < length g)%nat ->
  (total_outcome g (moved x c r) == total_outcome g x - outcome_at g x c + outcome_at g (moved x c r) c)%Q.
Proof.
  intros g x c r Hc. unfold total_outcome.
  rewrite (qsum_ext _ _ (fun i => if Nat.eqb i c then outcome_at g (moved x c r) c else outcome_at g x i)).
  - rewrite qsum_set by auto. reflexivity.
  - intros i Hi. destruct (Nat.eqb_spec i c); [subst; reflexivity|]. destruct (moved_at_other g x c r i n) as [_ ->]. reflexivity.
Qed.

(** The fixed-budget search. *)
Lemma reached_last' : forall g ok x y (P : alloc -> Prop), reached g ok x y ->
  (forall x c r, can_move g x c r -> ok x c r -> P (moved x c r)) -> y = x \/ P y.
Proof.
  intros g ok x y P R HP. induction R; [auto|]. right. destruct IHR as [->|]; auto.
Qed.

Lemma fixed_budget_total : forall g b y, reached g (accepted g (FixedBudget b)) (fun _ => 0%nat) y ->
  (forall c, y c = 0%nat) \/ (total_spend g y <= b)%Z.
Proof.
  intros g b y R. destruct (reached_last' _ _ _ _ (fun y => total_spend g y <= b)%Z R) as [->|]; auto.
  intros x c r Hm [v [_ He]]. cbn [exceeds] in He. apply Z.ltb_ge in He. exact He.
Qed.

Lemma C23_lemma : forall g b s, well_formed g -> grid_search g (FixedBudget b) = Ok s ->
  exists y, feasible g y /\ (forall c, (c < length g)%nat -> s c = spend_at g y c) /\
    ((forall c, y c = 0%nat) \/ (total_spend g y <= b)%Z) /\
    ((forall c r, ~ can_move g y c r) \/ exists c r, can_move g y c r /\ (b < total_spend g (moved y c r))%Z).
Proof.
  intros g b s Hw H. destruct (grid_search_inv g _ s Hw H) as [y [E [Hf [Hr Hs]]]]. exists y. split; auto. split; auto.
  split; [apply fixed_budget_total; auto|]. destruct Hs as [Hs|[c [r [v [Hm [_ He]]]]]]; [left; auto|]. right.
  exists c, r. split; auto. cbn [exceeds] in He. apply Z.ltb_lt in He. exact He.
Qed.

(** The target-mROI search. *)
Lemma C25_mroi_lemma : forall g t s, well_formed g -> grid_search g (TargetMROI t) = Ok s ->
  exists y, feasible g y /\ (forall c, (c < length g)%nat -> s c = spend_at g y c) /\
    reached g (fun x c r => t - half8 <= move_roi g x c r)%Q (fun _ => 0%nat) y /\
    (forall c r, can_move g y c r -> move_roi g y c r < t + half8)%Q.
Proof.
  intros g t s Hw H. destruct (grid_search_inv g _ s Hw H) as [y [E [Hf [Hr Hs]]]]. exists y. split; auto. split; auto.
  assert (H0 : feasible g (fun _ => 0%nat)). { intros c Hc. apply Hw. auto. }
  split.
  - apply (reached_impl g (accepted g (TargetMROI t))); auto. intros x c r Hfx Hm [v [[Hv _] He]].
    rewrite (rounded_is_round8 g x c r Hw Hfx Hm) in Hv. injection Hv as <-. cbn [exceeds] in He. apply Qlt_bool_false in He.
    destruct (round8_error (move_roi g x c r)). lra.
  - intros c r Hm. destruct Hs as [Hs|[c' [r' [v [Hm' [[Hv Hmax] He]]]]]]; [destruct (Hs c r Hm)|].
    cbn [exceeds] in He. apply Qlt_bool_iff in He. destruct (Hmax c r Hm) as [w [Hw1 [Hw2 _]]].
    rewrite (rounded_is_round8 g y c r Hw Hf Hm) in Hw1. injection Hw1 as <-.
    destruct (round8_error (move_roi g y c r)). lra.
Qed.

(** The target-ROI search. *)
Lemma C25_roi_lemma : forall g t s, well_formed g -> grid_search g (TargetROI t) = Ok s ->
  exists y, feasible g y /\ (forall c, (c < length g)%nat -> s c = spend_at g y c) /\
    reached g (fun x c r => total_spend g (moved x c r) = 0%Z \/ t <= roi_of g (moved x c r) \/
                 roi_of g (moved x c r) <= move_roi g x c r + half8)%Q (fun _ => 0%nat) y /\
    ((forall c r, ~ can_move g y c r) \/
     (exists c r, can_move g y c r /\ roi_of g (moved y c r) < t /\ move_roi g y c r < roi_of g (moved y c r) + half8 /\
        (forall c' r', can_move g y c' r' -> move_roi g y c' r' <= move_roi g y c r + half8 + half8)))%Q.
Proof.
  intros g t s Hw H. destruct (grid_search_inv g _ s Hw H) as [y [E [Hf [Hr Hs]]]]. exists y. split; auto. split; auto.
  assert (H0 : feasible g (fun _ => 0%nat)). { intros c Hc. apply Hw. auto. }
  split.
  - apply (reached_impl g (accepted g (TargetROI t))); auto. intros x c r Hfx Hm [v [[Hv _] He]].
    rewrite (rounded_is_round8 g x c r Hw Hfx Hm) in Hv. injection Hv as <-. cbn [exceeds] in He.
    fold (total_spend g (moved x c r)) in He. destruct (Z.eqb_spec (total_spend g (moved x c r)) 0); [auto|]. right.
    fold (total_outcome g (moved x c r)) in He. fold (roi_of g (moved x c r)) in He.
    apply andb_false_iff in He. destruct He as [He|He]; apply Qlt_bool_false in He; [auto|]. right.
    destruct (round8_error (move_roi g x c r)). lra.
  - destruct Hs as [Hs|[c [r [v [Hm [[Hv Hmax] He]]]]]]; [left; auto|]. right. exists c, r. split; auto.
    rewrite (rounded_is_round8 g y c r Hw Hf Hm) in Hv. injection Hv as <-.
    cbn [exceeds] in He. fold (total_spend g (moved y c r)) in He. destruct (Z.eqb (total_spend g (moved y c r)) 0); [discriminate|].
    fold (total_outcome g (moved y c r)) in He. fold (roi_of g (moved y c r)) in He.
    apply andb_true_iff in He. destruct He as [He1 He2]. apply Qlt_bool_iff in He1, He2.
    destruct (round8_error (move_roi g y c r)). split; auto. split; [lra|].
    intros c' r' Hm'. destruct (Hmax c' r' Hm') as [w [Hw1 [Hw2 _]]].
    rewrite (rounded_is_round8 g y c' r' Hw Hf Hm') in Hw1. injection Hw1 as <-.
    destruct (round8_error (move_roi g y c' r')). lra.
Qed.

(** Once the total ROI meets the target it keeps doing so, when step returns are multiples of 1e-8. *)
Lemma roi_kept : forall g t x c r, well_formed g -> feasible g x -> can_move g x c r -> (0 < total_spend g x)%Z ->
  exact8 (move_roi g x c r) -> (t <= roi_of g x)%Q -> accepted g (TargetROI t) x c r ->
  (0 < total_spend g (moved x c r))%Z /\ (t <= roi_of g (moved x c r))%Q.
Proof.
  intros g t x c r Hw Hf Hm Hpos [z Hex] Ht [v [[Hv _] He]].
  pose proof (spend_increases g x c r Hw Hf Hm) as Hinc. rewrite (rounded_is_round8 g x c r Hw Hf Hm) in Hv. injection Hv as <-.
  pose proof (round8_exact _ _ Hex) as Hr8. destruct Hm as [Hc Hm].
  pose proof (total_spend_moved g x c r Hc) as Hts. pose proof (total_outcome_moved g x c r Hc) as Hto.
  assert (Hpos' : (0 < total_spend g (moved x c r))%Z) by lia. split; auto.
  cbn [exceeds] in He. fold (total_spend g (moved x c r)) in He. destruct (Z.eqb_spec (total_spend g (moved x c r)) 0); [lia|].
  fold (total_outcome g (moved x c r)) in He. fold (roi_of g (moved x c r)) in He.
  apply andb_false_iff in He. destruct He as [He|He]; apply Qlt_bool_false in He; [auto|].
  rewrite Hr8 in He. unfold roi_of, move_roi in *.
  set (S := total_spend g x) in *. set (S' := total_spend g (moved x c r)) in *.
  set (O := total_outcome g x) in *. set (O' := total_outcome g (moved x c r)) in *.
  set (a := spend_at g x c) in *. set (a' := spend_at g (moved x c r) c) in *.
  set (o := outcome_at g x c) in *. set (o' := outcome_at g (moved x c r) c) in *.
  assert (HS : (0 < inject_Z S)%Q) by (change 0%Q with (inject_Z 0); apply inject_lt; auto).
  assert (HS' : (0 < inject_Z S')%Q) by (change 0%Q with (inject_Z 0); apply inject_lt; auto).
  assert (HD : (0 < inject_Z (a' - a))%Q) by (change 0%Q with (inject_Z 0); apply inject_lt; lia).
  assert (HSS : (inject_Z S' == inject_Z S + inject_Z (a' - a))%Q) by (rewrite <- inject_Z_plus; replace S' with (S + (a' - a))%Z by lia; reflexivity).
  apply Qle_shift_div_l; auto.
  assert (Ht' : (t * inject_Z S <= O)%Q). { apply (Qmult_le_compat_r _ _ (inject_Z S)) in Ht; [|lra]. unfold Qdiv in Ht. rewrite <- Qmult_assoc, (Qmult_comm (/ _)), Qmult_inv_r, Qmult_1_r in Ht by lra. auto. }
  assert (Hm1 : (O' * inject_Z (a' - a) <= (o' - o) * inject_Z S')%Q).
  { apply (Qmult_le_compat_r _ _ (inject_Z S' * inject_Z (a' - a))) in He; [|apply Qmult_le_0_compat; lra].
    setoid_replace (O' / inject_Z S' * (inject_Z S' * inject_Z (a' - a)))%Q with (O' * inject_Z (a' - a))%Q in He by (field; lra).
    setoid_replace ((o' - o) / inject_Z (a' - a) * (inject_Z S' * inject_Z (a' - a)))%Q with ((o' - o) * inject_Z S')%Q in He by (field; lra). exact He. }
  rewrite HSS in *. rewrite Hto in *. set (D := inject_Z (a' - a)) in *. set (s := inject_Z S) in *.
  assert (Hk : (O * D <= (o' - o) * s)%Q).
  { setoid_replace ((O - o + o') * D)%Q with (O * D + (o' - o) * D)%Q in Hm1 by ring.
    setoid_replace ((o' - o) * (s + D))%Q with ((o' - o) * s + (o' - o) * D)%Q in Hm1 by ring. lra. }
  assert (Hk2 : (t * D * s <= (o' - o) * s)%Q).
  { apply Qle_trans with (O * D)%Q; auto. setoid_replace (t * D * s)%Q with (t * s * D)%Q by ring. apply Qmult_le_compat_r; [auto|lra]. }
  apply Qmult_lt_0_le_reg_r in Hk2; auto. setoid_replace (t * (s + D))%Q with (t * s + t * D)%Q by ring. lra.
Qed.

Lemma reached_roi_kept : forall g t x y, well_formed g -> feasible g x -> reached g (accepted g (TargetROI t)) x y ->
  (forall x c r, feasible g x -> can_move g x c r -> exact8 (move_roi g x c r)) ->
  (0 < total_spend g x)%Z -> (t <= roi_of g x)%Q -> (0 < total_spend g y)%Z /\ (t <= roi_of g y)%Q.
Proof.
  intros g t x y Hw Hf R Hex. revert Hf. induction R as [x|x y c r Hm Hok R IH]; intros Hf Hp Ht; [auto|].
  destruct (roi_kept g t x c r Hw Hf Hm Hp (Hex x c r Hf Hm) Ht Hok). apply IH; auto. apply feasible_moved; auto.
Qed.

Lemma C25_roi_kept_lemma : forall g t s, well_formed g -> grid_search g (TargetROI t) = Ok s ->
  (forall x c r, feasible g x -> can_move g x c r -> exact8 (move_roi g x c r)) ->
  (0 < total_spend g (fun _ => 0%nat))%Z -> (t <= roi_of g (fun _ => 0%nat))%Q ->
  exists y, feasible g y /\ (forall c, (c < length g)%nat -> s c = spend_at g y c) /\ (t <= roi_of g y)%Q.
Proof.
  intros g t s Hw H Hex Hp Ht. destruct (grid_search_inv g _ s Hw H) as [y [E [Hf [Hr Hs]]]]. exists y. split; auto. split; auto.
  apply (reached_roi_kept g t (fun _ => 0%nat) y); auto. intros c Hc. apply Hw. auto.
Qed.
