(** Proofs about the health score. *)
From Coq Require Import Reals ZArith String List Bool Arith Lra Lia.
From Verif Require Import Lib_Sum M_Base M_AdstockHill M_Equations M_Transformers M_Aggregate
  S_Aggregate P_Aggregate S_Adstock S_Media S_Analyzer M_Analyzer P_Analyzer P_AnalyzerIO S_Predictor
  M_Stats S_Stats M_Accuracy S_Accuracy M_Review S_Review P_Review.
Import ListNotations.
Local Open Scope R_scope.

Lemma clip01_in : forall r, 0 <= r <= 1 -> clip01 r = r.
Proof. intros r H. unfold clip01. rewrite (Rmin_right 1 r) by lra. apply Rmax_right. lra. Qed.
Lemma clip01_low : forall r, r <= 0 -> clip01 r = 0.
Proof. intros r H. unfold clip01. rewrite (Rmin_right 1 r) by lra. apply Rmax_left. lra. Qed.
Lemma clip01_high : forall r, 1 <= r -> clip01 r = 1.
Proof. intros r H. unfold clip01. rewrite (Rmin_left 1 r) by lra. apply Rmax_right. lra. Qed.

Lemma share_points : forall failing total v,
  is_share_points (total - failing) total v -> fail_ratio_score failing total = v.
Proof.
  intros failing total v (H1 & H2 & H3). unfold fail_ratio_score.
  destruct (Nat.eqb total 0) eqn:E; [apply Nat.eqb_eq in E; symmetry; auto|]. apply Nat.eqb_neq in E.
  assert (Pt : 0 < INR total) by (apply lt_0_INR; lia). pose proof (pos_INR failing) as Pf.
  destruct (Nat.eq_dec (total - failing) 0) as [Z|Z].
  - rewrite (H2 E Z). rewrite clip01_high.
    + unfold power04. replace (rleb (1 - 1) 0) with true by (symmetry; apply rleb_true; lra). ring.
    + apply Rmult_le_reg_r with (INR total); [exact Pt|]. unfold Rdiv. rewrite Rmult_assoc, Rinv_l by lra.
      rewrite Rmult_1_l, Rmult_1_r. apply le_INR. lia.
  - rewrite (H3 E Z). assert (L : (failing <= total)%nat) by lia. apply le_INR in L as LR.
    assert (Eq : 1 - INR failing / INR total = INR (total - failing) / INR total).
    { rewrite minus_INR by exact L. field. lra. }
    rewrite clip01_in.
    + rewrite Eq. unfold power04. destruct (rleb (INR (total - failing) / INR total) 0) eqn:Er; [|reflexivity].
      apply rleb_true in Er. assert (0 < INR (total - failing)) by (apply lt_0_INR; lia).
      assert (0 < INR (total - failing) / INR total) by (apply Rdiv_lt_0_compat; lra). lra.
    + split; [apply Rmult_le_pos; [exact Pf|apply Rlt_le, Rinv_0_lt_compat; exact Pt]|].
      apply Rmult_le_reg_r with (INR total); [exact Pt|]. unfold Rdiv. rewrite Rmult_assoc, Rinv_l by lra. lra.
Qed.
Lemma filter_complement : forall A (f : A -> bool) l, (length (filter f l) + length (filter (fun a => negb (f a)) l) = length l)%nat.
Proof. induction l as [|a l IH]; [reflexivity|]. cbn. destruct (f a); cbn; lia. Qed.

Lemma points_score : forall r v, is_points r v ->
  (score_and_weight r = Some (Some v, weight_of r)) \/ (score_and_weight r = None /\ weight_of r = 0).
Proof.
  intros r v H. destruct r as [c|c p|t p|g|s|s|s]; cbn [is_points] in H; cbn [score_and_weight weight_of].
  - right. auto.
  - left. replace (3 / 10) with (30 / 100) by field. do 2 f_equal. destruct H as (Hlt & H1 & H2 & H3). unfold baseline_score, clipped_ratio.
    destruct (Req_EM_T (bl_fail c - bl_review c) 0); [lra|]. cbn [option_map]. f_equal.
    assert (Pd : 0 < bl_fail c - bl_review c) by lra. assert (Pi : 0 < / (bl_fail c - bl_review c)) by (apply Rinv_0_lt_compat; exact Pd).
    destruct (Rle_dec p (bl_review c)) as [L|L].
    + rewrite (H1 L), clip01_low; [ring|]. unfold Rdiv. replace 0 with (0 * / (bl_fail c - bl_review c)) by ring.
      apply Rmult_le_compat_r; lra.
    + destruct (Rle_dec (bl_fail c) p) as [L'|L'].
      * rewrite (H2 L'), clip01_high; [ring|]. unfold Rdiv.
        apply Rmult_le_reg_r with (bl_fail c - bl_review c); [exact Pd|]. rewrite Rmult_assoc, Rinv_l by lra. lra.
      * rewrite H3 by lra. rewrite clip01_in; [field; lra|]. split.
        -- apply Rmult_le_pos; lra.
        -- apply Rmult_le_reg_r with (bl_fail c - bl_review c); [exact Pd|]. unfold Rdiv. rewrite Rmult_assoc, Rinv_l by lra. lra.
  - left. replace (3 / 10) with (30 / 100) by field. do 3 f_equal. destruct H as [H1 H2]. unfold ppp_score.
    destruct (rltb t p) eqn:E; [apply rltb_true in E|apply rltb_false in E]; symmetry; auto.
  - left. replace (1 / 10) with (10 / 100) by field. do 2 f_equal. destruct H as (r2 & -> & ->). unfold gof_score. cbn [option_map].
    do 4 f_equal. ring.
  - left. do 3 f_equal. unfold shift_score. apply share_points. exact H.
  - left. do 3 f_equal. unfold roi_score. apply share_points.
    pose proof (filter_complement _ roi_passes (ro_channels s)) as C.
    assert (E : filter channel_passes (ro_channels s) = filter roi_passes (ro_channels s)) by reflexivity. rewrite E in H.
    replace (length (ro_channels s) - length (filter (fun c => negb (roi_passes c)) (ro_channels s)))%nat
      with (length (filter roi_passes (ro_channels s))) by lia. exact H.
  - right. auto.
Qed.

Definition weighted (rs : list check_result) (ps : list R) : R :=
  lsum (map (fun p : check_result * R => weight_of (fst p) * snd p) (combine rs ps)).
Definition scored (rs : list check_result) : list (option R * R) :=
  flat_map (fun r => match score_and_weight r with Some p => [p] | None => [] end) rs.
Lemma scored_sums : forall rs ps, Forall2 is_points rs ps ->
  fold_right (fun (p : option R * R) acc =>
    match fst p, acc with Some s, Some a => Some (s * snd p + a) | _, _ => None end) (Some 0) (scored rs) = Some (weighted rs ps) /\
  lsum (map snd (scored rs)) = lsum (map weight_of rs).
Proof.
  intros rs ps H. induction H as [|r v rs ps Hp _ [IH1 IH2]]; [split; reflexivity|].
  unfold weighted. cbn [scored flat_map combine map lsum fst snd]. fold (scored rs).
  destruct (points_score r v Hp) as [E|[E Z]]; rewrite E; cbn [app fold_right map lsum fst snd].
  - rewrite IH1, IH2. split; [f_equal; unfold weighted; ring|reflexivity].
  - rewrite IH1, IH2, Z. split; [f_equal; unfold weighted; ring|ring].
Qed.
Lemma required_true : forall rs, has_required rs -> existsb is_baseline rs && existsb is_ppp rs && existsb is_gof rs = true.
Proof.
  intros rs ((c & p & H1) & (t & q & H2) & (g & H3)). rewrite !andb_true_iff, !existsb_exists.
  split; [split; [exists (BaselineR c p)|exists (PppR t q)]|exists (GofR g)]; split; auto.
Qed.
Lemma required_false : forall rs, ~ has_required rs -> existsb is_baseline rs && existsb is_ppp rs && existsb is_gof rs = false.
Proof.
  intros rs H. destruct (existsb is_baseline rs) eqn:E1, (existsb is_ppp rs) eqn:E2, (existsb is_gof rs) eqn:E3; try reflexivity.
  elim H. apply existsb_exists in E1, E2, E3. destruct E1 as (r1 & H1 & T1), E2 as (r2 & H2 & T2), E3 as (r3 & H3 & T3).
  destruct r1; try discriminate. destruct r2; try discriminate. destruct r3; try discriminate. unfold has_required. eauto 10.
Qed.
Lemma score_lemma : forall rs ps, has_required rs -> Forall2 is_points rs ps ->
  health_score rs = Ok (Some (weighted rs ps / lsum (map weight_of rs))).
Proof.
  intros rs ps Hr H. unfold health_score. rewrite (required_true rs Hr). cbn [negb raise_if]. fold (scored rs).
  destruct (scored_sums rs ps H) as [E1 E2]. rewrite E1, E2. reflexivity.
Qed.

(** ** Points *)
Lemma share_points_exist : forall p n, exists v, is_share_points p n v.
Proof.
  intros p n. destruct (Nat.eq_dec n 0) as [->|Hn]; [exists 100; split; [auto|]; split; congruence|].
  destruct (Nat.eq_dec p 0) as [->|Hp]; [exists 0|exists (100 * Rpower (INR p / INR n) (4 / 10))];
    (split; [congruence|]); split; intros; congruence.
Qed.
Lemma share_points_bounds : forall p n v, (p <= n)%nat -> is_share_points p n v -> 0 <= v <= 100.
Proof.
  intros p n v Hle (H1 & H2 & H3). destruct (Nat.eq_dec n 0) as [Hn|Hn]; [rewrite (H1 Hn); lra|].
  destruct (Nat.eq_dec p 0) as [Hp|Hp]; [rewrite (H2 Hn Hp); lra|]. rewrite (H3 Hn Hp).
  assert (0 < INR p) by (apply lt_0_INR; lia). assert (0 < INR n) by (apply lt_0_INR; lia). apply le_INR in Hle.
  assert (0 < Rpower (INR p / INR n) (4 / 10)) by (unfold Rpower; apply exp_pos).
  assert (Rpower (INR p / INR n) (4 / 10) <= Rpower 1 (4 / 10)).
  { apply Rle_Rpower_l; [lra|]. split; [apply Rdiv_lt_0_compat; lra|].
    apply Rmult_le_reg_r with (INR n); [lra|]. unfold Rdiv. rewrite Rmult_assoc, Rinv_l by lra. lra. }
  assert (Rpower 1 (4 / 10) = 1) by (unfold Rpower; rewrite ln_1, Rmult_0_r; apply exp_0). lra.
Qed.
Lemma share_points_mono : forall p p' n v v', (p <= p' <= n)%nat -> is_share_points p n v -> is_share_points p' n v' -> v <= v'.
Proof.
  intros p p' n v v' [L1 L2] H H'. pose proof (share_points_bounds _ _ _ L2 H') as B.
  destruct H as (H1 & H2 & H3), H' as (H1' & H2' & H3').
  destruct (Nat.eq_dec n 0) as [Hn|Hn]; [rewrite (H1 Hn), (H1' Hn); lra|].
  destruct (Nat.eq_dec p 0) as [Hp|Hp]; [rewrite (H2 Hn Hp); lra|].
  rewrite (H3 Hn Hp), (H3' Hn) by lia. apply Rmult_le_compat_l; [lra|]. apply Rle_Rpower_l; [lra|].
  assert (0 < INR p) by (apply lt_0_INR; lia). assert (0 < INR n) by (apply lt_0_INR; lia). apply le_INR in L1.
  assert (0 < / INR n) by (apply Rinv_0_lt_compat; assumption).
  split; [apply Rmult_lt_0_compat; assumption|]. apply Rmult_le_compat_r; lra.
Qed.
Lemma filter_le : forall A (f : A -> bool) l, (length (filter f l) <= length l)%nat.
Proof. induction l as [|a l IH]; cbn; [lia|]. destruct (f a); cbn; lia. Qed.

Lemma points_exist : forall r, result_ok r -> exists v, is_points r v.
Proof.
  intros r H. destruct r as [c|c p|t p|g|s|s|s]; cbn [result_ok is_points] in *; try apply share_points_exist; try (exists 0; reflexivity).
  - destruct (Rle_dec p (bl_review c)); [exists 100|destruct (Rle_dec (bl_fail c) p); [exists 0|exists (100 * ((bl_fail c - p) / (bl_fail c - bl_review c)))]];
      repeat split; intros; try lra.
    + assert (p = bl_review c) by lra. subst. field. lra.
    + assert (p = bl_fail c) by lra. subst. field. lra.
  - destruct (Rlt_dec t p); [exists 100|exists 0]; split; intros; lra.
  - destruct (gf_r2 (gr_all g)) as [r2|]; [|congruence]. eauto.
Qed.
Lemma gof_points_bounds : forall r2, 0 < 100 / (1 + exp (15 * (1 / 2 - r2))) < 100.
Proof.
  intros r2. pose proof (exp_pos (15 * (1 / 2 - r2))) as P. set (e := exp _) in *. split; [apply Rdiv_lt_0_compat; lra|].
  apply Rmult_lt_reg_r with (1 + e); [lra|]. unfold Rdiv. rewrite Rmult_assoc, Rinv_l by lra. nra.
Qed.
Lemma points_bounds : forall r v, result_ok r -> is_points r v -> 0 <= v <= 100.
Proof.
  intros r v Ho H. destruct r as [c|c p|t p|g|s|s|s]; cbn [result_ok is_points] in *; try (rewrite H; lra).
  - destruct H as (Hlt & H1 & H2 & H3). destruct (Rle_dec p (bl_review c)); [rewrite H1 by assumption; lra|].
    destruct (Rle_dec (bl_fail c) p); [rewrite H2 by assumption; lra|]. rewrite H3 by lra.
    assert (0 < / (bl_fail c - bl_review c)) by (apply Rinv_0_lt_compat; lra).
    assert (0 <= (bl_fail c - p) / (bl_fail c - bl_review c)) by (apply Rmult_le_pos; lra).
    assert ((bl_fail c - p) / (bl_fail c - bl_review c) <= 1).
    { apply Rmult_le_reg_r with (bl_fail c - bl_review c); [lra|]. unfold Rdiv. rewrite Rmult_assoc, Rinv_l by lra. lra. }
    lra.
  - destruct H as [H1 H2]. destruct (Rlt_dec t p); [rewrite H1 by assumption|rewrite H2 by lra]; lra.
  - destruct H as (r2 & _ & ->). pose proof (gof_points_bounds r2). lra.
  - refine (share_points_bounds _ _ _ _ H). lia.
  - refine (share_points_bounds _ _ _ _ H). apply filter_le.
Qed.
Lemma points_mono : forall r r' v v', at_least_as_good r r' -> result_ok r -> is_points r v -> is_points r' v' ->
  v <= v' /\ weight_of r' = weight_of r.
Proof.
  intros r r' v v' G Ho H H'. destruct r as [c|c p|t p|g|s|s|s], r' as [c'|c' p'|t' p'|g'|s'|s'|s']; cbn [at_least_as_good] in G; try contradiction; (split; [|reflexivity]);
    cbn [is_points result_ok] in *; try (rewrite H, H'; lra).
  - destruct G as [-> Gp]. destruct H as (Hlt & H1 & H2 & H3), H' as (_ & H1' & H2' & H3').
    assert (P : 0 < / (bl_fail c - bl_review c)) by (apply Rinv_0_lt_compat; lra).
    destruct (Rle_dec p' (bl_review c)) as [L|L].
    + rewrite H1' by assumption. destruct (Rle_dec p (bl_review c)); [rewrite H1 by assumption; lra|].
      destruct (Rle_dec (bl_fail c) p); [rewrite H2 by assumption; lra|]. rewrite H3 by lra.
      assert ((bl_fail c - p) / (bl_fail c - bl_review c) <= 1).
      { apply Rmult_le_reg_r with (bl_fail c - bl_review c); [lra|]. unfold Rdiv. rewrite Rmult_assoc, Rinv_l by lra. lra. }
      lra.
    + destruct (Rle_dec (bl_fail c) p) as [L'|L'].
      * rewrite H2 by assumption. destruct (Rle_dec (bl_fail c) p'); [rewrite H2' by assumption; lra|]. rewrite H3' by lra.
        assert (0 <= (bl_fail c - p') / (bl_fail c - bl_review c)) by (apply Rmult_le_pos; lra). lra.
      * rewrite H3, H3' by lra. apply Rmult_le_compat_l; [lra|]. apply Rmult_le_compat_r; lra.
  - destruct G as [-> Gp]. destruct H as [H1 H2], H' as [H1' H2'].
    destruct (Rlt_dec t p); [rewrite H1, H1' by lra; lra|]. rewrite H2 by lra.
    destruct (Rlt_dec t p'); [rewrite H1' by lra; lra|rewrite H2' by lra; lra].
  - destruct G as (x & b & E1 & E2 & Le). destruct H as (r2 & Er & ->), H' as (r2' & Er' & ->).
    assert (r2 = x) by congruence. assert (r2' = b) by congruence. subst.
    assert (exp (15 * (1 / 2 - b)) <= exp (15 * (1 / 2 - x))).
    { destruct (Rle_lt_or_eq_dec x b Le) as [L|L]; [apply Rlt_le, exp_increasing; lra|subst; lra]. }
    pose proof (exp_pos (15 * (1 / 2 - b))). apply Rmult_le_compat_l; [lra|]. apply Rinv_le_contravar; lra.
  - destruct G as [Gn Gl]. rewrite Gn in H'. refine (share_points_mono _ _ _ _ _ _ H H'). lia.
  - destruct G as [Gn Gl]. rewrite Gn in H'. refine (share_points_mono _ _ _ _ _ _ H H'). split; [exact Gl|]. rewrite <- Gn. apply filter_le.
Qed.

Lemma weight_nonneg : forall r, 0 <= weight_of r.
Proof. intros []; cbn; lra. Qed.
Lemma weight_sum_pos : forall rs, (exists g, In (GofR g) rs) -> 0 < lsum (map weight_of rs).
Proof.
  intros rs (g & H). induction rs as [|r rs IH]; [destruct H|]. cbn [map lsum]. pose proof (weight_nonneg r).
  assert (N : 0 <= lsum (map weight_of rs)).
  { clear. induction rs as [|a rs IH]; cbn; [lra|]. pose proof (weight_nonneg a). lra. }
  destruct H as [->|H]; [cbn; lra|]. specialize (IH H). lra.
Qed.
Lemma weighted_bounds : forall rs ps, Forall result_ok rs -> Forall2 is_points rs ps ->
  0 <= weighted rs ps <= 100 * lsum (map weight_of rs) /\
  ((exists g, In (GofR g) rs) -> weighted rs ps < 100 * lsum (map weight_of rs)).
Proof.
  intros rs ps Ho H. induction H as [|r v rs ps Hp HF IH].
  - unfold weighted. cbn. split; [lra|]. intros (? & []).
  - inversion Ho as [|? ? O1 O2]; subst. destruct (IH O2) as [B1 B2]. unfold weighted in *. cbn [combine map lsum fst snd].
    pose proof (points_bounds r v O1 Hp). pose proof (weight_nonneg r).
    assert (0 <= weight_of r * v <= 100 * weight_of r) by nra. split; [nra|].
    intros (g & [->|Hin]).
    + destruct Hp as (r2 & _ & ->). pose proof (gof_points_bounds r2). cbn [weight_of] in *. nra.
    + pose proof (B2 (ex_intro _ g Hin)). nra.
Qed.
Lemma points_list : forall rs, Forall result_ok rs -> exists ps, Forall2 is_points rs ps.
Proof.
  induction 1 as [|r rs Hr _ (ps & IH)]; [exists []; constructor|]. destruct (points_exist r Hr) as (v & Hv). exists (v :: ps). constructor; assumption.
Qed.
Lemma range_lemma : forall rs, has_required rs -> Forall result_ok rs ->
  exists h, health_score rs = Ok (Some h) /\ 0 <= h < 100.
Proof.
  intros rs Hr Ho. destruct (points_list rs Ho) as (ps & Hp). rewrite (score_lemma rs ps Hr Hp). eexists. split; [reflexivity|].
  destruct Hr as (_ & _ & Hg). pose proof (weight_sum_pos rs Hg) as W. destruct (weighted_bounds rs ps Ho Hp) as [B1 B2]. specialize (B2 Hg).
  assert (0 < / lsum (map weight_of rs)) by (apply Rinv_0_lt_compat; exact W). split.
  - apply Rmult_le_pos; lra.
  - apply Rmult_lt_reg_r with (lsum (map weight_of rs)); [exact W|]. unfold Rdiv. rewrite Rmult_assoc, Rinv_l by lra. lra.
Qed.
Lemma good_ok : forall r r', at_least_as_good r r' -> result_ok r -> result_ok r'.
Proof.
  intros r r' G Ho. destruct r, r'; cbn [at_least_as_good] in G; try contradiction; cbn [result_ok] in *; auto.
  - destruct G as [-> _]. exact Ho.
  - destruct G as (a & b & _ & -> & _). discriminate.
  - lia.
Qed.
Lemma good_required : forall rs rs', Forall2 at_least_as_good rs rs' -> has_required rs -> has_required rs'.
Proof.
  intros rs rs' H ((c & p & H1) & (t & q & H2) & (g & H3)).
  destruct (forall2_in_l _ _ _ _ _ H _ H1) as (r1 & I1 & G1). destruct (forall2_in_l _ _ _ _ _ H _ H2) as (r2 & I2 & G2).
  destruct (forall2_in_l _ _ _ _ _ H _ H3) as (r3 & I3 & G3).
  destruct r1; try destruct G1. destruct r2; try destruct G2. destruct r3; try destruct G3. unfold has_required. eauto 10.
Qed.
Lemma monotone_lemma : forall rs rs', has_required rs -> Forall result_ok rs -> Forall2 at_least_as_good rs rs' ->
  exists h h', health_score rs = Ok (Some h) /\ health_score rs' = Ok (Some h') /\ h <= h'.
Proof.
  intros rs rs' Hr Ho HG.
  assert (Ho' : Forall result_ok rs').
  { clear Hr. induction HG; constructor; inversion Ho; subst; [eapply good_ok; eauto|auto]. }
  destruct (points_list rs Ho) as (ps & Hp). destruct (points_list rs' Ho') as (ps' & Hp').
  exists (weighted rs ps / lsum (map weight_of rs)), (weighted rs' ps' / lsum (map weight_of rs')).
  split; [apply score_lemma; assumption|]. split; [apply score_lemma; [eapply good_required; eauto|assumption]|].
  assert (M : weighted rs ps <= weighted rs' ps' /\ lsum (map weight_of rs') = lsum (map weight_of rs)).
  { clear Hr Ho'. revert ps ps' Hp Hp' Ho. induction HG as [|r r' rs rs' G HG IH]; intros ps ps' Hp Hp' Ho.
    - inversion Hp; inversion Hp'; subst. split; [unfold weighted; cbn; lra|reflexivity].
    - inversion Hp as [|? v ? qs P1 P2]; inversion Hp' as [|? v' ? qs' P1' P2']; inversion Ho as [|? ? O1 O2]; subst.
      destruct (IH _ _ P2 P2' O2) as [I1 I2]. destruct (points_mono r r' v v' G O1 P1 P1') as [Q1 Q2].
      unfold weighted in *. cbn [combine map lsum fst snd]. rewrite Q2, I2. pose proof (weight_nonneg r). split; [nra|reflexivity]. }
  destruct M as [M1 M2]. rewrite M2. destruct Hr as (_ & _ & Hg). pose proof (weight_sum_pos rs Hg) as W.
  apply Rmult_le_compat_r; [apply Rlt_le, Rinv_0_lt_compat; exact W|exact M1].
Qed.
Lemma fold_none : forall (sw : list (option R * R)) w, In (None, w) sw ->
  fold_right (fun (p : option R * R) acc =>
    match fst p, acc with Some s, Some a => Some (s * snd p + a) | _, _ => None end) (Some 0) sw = None.
Proof.
  induction sw as [|p sw IH]; intros w H; [destruct H|]. destruct H as [->|H]; [reflexivity|]. cbn [fold_right]. rewrite (IH w H). destruct (fst p); reflexivity.
Qed.
Lemma nan_score_lemma : forall rs g, has_required rs -> In (GofR g) rs -> gf_r2 (gr_all g) = None -> health_score rs = Ok None.
Proof.
  intros rs g Hr Hg En. unfold health_score. rewrite (required_true rs Hr). cbn [negb raise_if]. fold (scored rs).
  rewrite (fold_none (scored rs) (1 / 10)); [reflexivity|]. unfold scored. apply in_flat_map. exists (GofR g). split; [exact Hg|].
  cbn [score_and_weight]. rewrite En. left. reflexivity.
Qed.
