(** Lemmas for property C41: the grid for the optimizer. *)
From Coq Require Import ZArith QArith Qround List Bool Arith Lia Lqa Sorted Permutation Setoid.
From Verif Require Import Lib_QSum Lib_Sort M_Base M_Opt M_Time M_Weekly S_Opt S_Builder S_Weekly P_Spec P_Opt P_OptGrid P_Weekly.
Import ListNotations.
Local Open Scope nat_scope.
Local Open Scope list_scope.

Section Grid.
Context {T : Type}.
Variables (teq : forall a b : T, {a = b} + {a <> b}) (tle : T -> T -> bool).
Variable stab : list (option Q) -> list (option Q) -> list (option Q).
Hypothesis So : strict_order tle.
Notation wk := (@week T).

Lemma tle_refl : forall t, tle t t = true.
Proof. intros. destruct So as [[H _] _]. destruct (H t t); auto. Qed.

(** A strictly sorted list of weeks. *)
Definition ssorted (l : list wk) : Prop := StronglySorted (fun a b => tle (w_time a) (w_time b) = true /\ w_time a <> w_time b) l.
Lemma ssorted_of : forall l, NoDup (map w_time l) -> le_sorted tle (map w_time l) -> ssorted l.
Proof.
  induction l as [|w l IH]; intros N S; [constructor|]. cbn in N, S. apply NoDup_cons_iff in N. inversion S; subst. constructor; [apply IH; tauto|].
  apply Forall_forall. intros u Hu. rewrite Forall_forall in H2. split; [apply H2; apply in_map; auto|]. intros E. apply (proj1 N). rewrite E. apply in_map; auto.
Qed.
Lemma existsb_in : forall t (l : list wk), existsb (fun w => if teq t (w_time w) then true else false) l = true <-> In t (map w_time l).
Proof.
  intros. rewrite existsb_exists, in_map_iff. split; intros [w [A B]]; exists w; split; auto.
  - destruct (teq t (w_time w)); congruence.
  - destruct (teq t (w_time w)); congruence.
Qed.
Lemma filter_true : forall A (P : A -> bool) l, (forall x, In x l -> P x = true) -> filter P l = l.
Proof. intros A P. induction l as [|a l IH]; intros H; auto. cbn. rewrite (H a) by (left; auto). f_equal. apply IH. intros; apply H; right; auto. Qed.
Lemma filter_false : forall A (P : A -> bool) l, (forall x, In x l -> P x = false) -> filter P l = [].
Proof. intros A P. induction l as [|a l IH]; intros H; auto. cbn. rewrite (H a) by (left; auto). apply IH. intros; apply H; right; auto. Qed.
Lemma drop_before_filter : forall s l, ssorted l -> In s (map w_time l) -> drop_before teq s l = filter (fun w => tle s (w_time w)) l.
Proof.
  intros s. induction l as [|w l IH]; intros S H; [destruct H|]. inversion S as [|x y S1 F]; subst. rewrite Forall_forall in F. cbn. destruct (teq s (w_time w)) as [->|D].
  - rewrite tle_refl. f_equal. symmetry. apply filter_true. intros u Hu. apply F; auto.
  - destruct H as [H|H]; [congruence|]. assert (tle s (w_time w) = false) as ->.
    { apply not_true_is_false. intros K. apply in_map_iff in H. destruct H as [u [E Hu]]. subst s. destruct (F u Hu) as [F1 F2]. destruct So as [_ A]. apply F2. apply A; auto. }
    apply IH; auto.
Qed.
Lemma take_through_filter : forall e l, ssorted l -> In e (map w_time l) -> take_through teq e l = filter (fun w => tle (w_time w) e) l.
Proof.
  intros e. induction l as [|w l IH]; intros S H; [destruct H|]. inversion S as [|x y S1 F]; subst. rewrite Forall_forall in F. cbn. destruct (teq e (w_time w)) as [->|D].
  - rewrite tle_refl. f_equal. symmetry. apply filter_false. intros u Hu. destruct (F u Hu) as [F1 F2]. apply not_true_is_false. intros K. destruct So as [_ A]. apply F2. apply A; auto.
  - destruct H as [H|H]; [congruence|]. assert (tle (w_time w) e = true) as ->.
    { apply in_map_iff in H. destruct H as [u [E Hu]]. subst e. apply F; auto. }
    f_equal. apply IH; auto.
Qed.
Lemma ssorted_filter : forall P l, ssorted l -> ssorted (filter P l).
Proof.
  intros P. induction l as [|w l IH]; intros S; auto. inversion S as [|x y S1 F]; subst. cbn. destruct (P w); [|apply IH; auto]. constructor; [apply IH; auto|].
  rewrite Forall_forall in *. intros u Hu. apply filter_In in Hu. apply F; tauto.
Qed.
Lemma slice_filter : forall s e l, ssorted l -> In s (map w_time l) -> In e (map w_time l) ->
  slice teq s e l = filter (fun w => tle s (w_time w) && tle (w_time w) e) l.
Proof.
  intros s e l S Hs He. unfold slice. rewrite (drop_before_filter s l S Hs). set (m := filter (fun w => tle s (w_time w)) l).
  assert (F : filter (fun w => tle (w_time w) e) m = filter (fun w => tle s (w_time w) && tle (w_time w) e) l).
  { unfold m. clear. induction l as [|w l IH]; auto. cbn. destruct (tle s (w_time w)); cbn; rewrite IH; auto. }
  destruct (existsb _ m) eqn:E.
  - apply existsb_in in E. rewrite take_through_filter; auto. apply ssorted_filter; auto.
  - symmetry. apply filter_false. intros w Hw. apply not_true_is_false. intros K. apply andb_true_iff in K. destruct K as [K1 K2].
    apply not_true_iff_false in E. apply E. apply existsb_in. apply in_map_iff in He. destruct He as [u [Eu Hu]]. apply in_map_iff. exists u. split; auto.
    apply filter_In. split; auto. destruct So as [[_ Tr] _]. rewrite Eu. apply (Tr _ (w_time w)); auto.
Qed.

(** Bounds covered by the multipliers. *)
Lemma bounds_covered_ok : forall mults hist lower upper k cs, bounds_covered mults hist lower upper k cs = Ok true ->
  forall c, In c cs -> round_to k (hist c) <> 0%Z -> exists m0 r, mults = m0 :: r /\
    (round_to k (m0 * inject_Z (round_to k (hist c))) <= lower c)%Z /\ (upper c <= round_to k (last mults 0%Q * inject_Z (round_to k (hist c))))%Z.
Proof.
  intros mults hist lower upper k. induction cs as [|d cs IH]; intros H c Hc Hr; [destruct Hc|]. cbn [bounds_covered] in H.
  destruct (Z.eqb_spec (round_to k (hist d)) 0) as [E|E].
  - destruct Hc as [->|Hc]; [congruence|]. apply IH; auto.
  - destruct mults as [|m0 r]; [discriminate|]. destruct (bounds_covered (m0 :: r) hist lower upper k cs) as [ok|] eqn:B; cbn [rbind] in H; [|discriminate].
    assert (H' : negb (Z.ltb (lower d) (round_to k (m0 * inject_Z (round_to k (hist d))))) && negb (Z.ltb (round_to k (last (m0 :: r) 0%Q * inject_Z (round_to k (hist d)))) (upper d)) && ok = true) by congruence.
    rewrite !andb_true_iff, !negb_true_iff, !Z.ltb_ge in H'. destruct H' as [[H1 H2] ->]. destruct Hc as [->|Hc].
    + exists m0, r. auto.
    + apply (IH eq_refl c Hc Hr).
Qed.


Lemma outcome_sum : forall mults (ws : list wk) hist c v, ~ (hist c == 0)%Q ->
  (outcome_at_spend mults ws hist c v == lsum (fun w => interp (inject_Z v / hist c) (points mults (w_outcome w c))) ws)%Q.
Proof.
  intros. unfold outcome_at_spend. destruct (Qeq_bool (hist c) 0) eqn:E; [apply Qeq_bool_iff in E; contradiction|]. apply (interp_sum T).
Qed.
Lemma outcome_zero : forall mults (ws : list wk) hist c v, (hist c == 0)%Q -> outcome_at_spend mults ws hist c v = 0%Q.
Proof. intros. unfold outcome_at_spend. apply Qeq_bool_iff in H. rewrite H. reflexivity. Qed.

Lemma uniform_length : forall n rows lower step m f, length (uniform_grid n rows lower step m f) = n.
Proof. intros. unfold uniform_grid. rewrite map_length, seq_length. reflexivity. Qed.
Lemma uniform_nth : forall n rows lower step m f c, c < n -> nth c (uniform_grid n rows lower step m f) [] = uniform_column rows (lower c) step (m c) (f c).
Proof.
  intros. unfold uniform_grid. set (F := fun c => uniform_column rows (lower c) step (m c) (f c)). rewrite (nth_indep _ _ (F 0)) by (rewrite map_length, seq_length; auto).
  rewrite map_nth, seq_nth; auto.
Qed.
Lemma stabilize_columns_nth : forall rf (gr : grid) c, c < length gr ->
  nth c (stabilize_columns stab rf gr) [] = if c <? length gr - rf then nth c gr [] else stabilized stab (nth c gr []).
Proof.
  intros rf gr c H. unfold stabilize_columns. set (F := fun p : nat * list cells => if fst p <? length gr - rf then snd p else stabilized stab (snd p)).
  rewrite (nth_indep _ _ (F (0, []))) by (rewrite map_length, combine_length, seq_length, Nat.min_id; auto).
  rewrite map_nth, combine_nth by (rewrite seq_length; auto). rewrite seq_nth by auto. reflexivity.
Qed.
Lemma stabilize_columns_length : forall rf (gr : grid), length (stabilize_columns stab rf gr) = length gr.
Proof. intros. unfold stabilize_columns. rewrite map_length, combine_length, seq_length, Nat.min_id. reflexivity. Qed.

Lemma lsum_nonneg : forall A (f : A -> Q) l, (forall x, In x l -> 0 <= f x)%Q -> (0 <= lsum f l)%Q.
Proof. intros A f. induction l as [|a l IH]; intros H; cbn; [lra|]. pose proof (H a ltac:(left; auto)). pose proof (IH ltac:(intros; apply H; right; auto)). unfold lsum in *. lra. Qed.
Lemma qsum_nonneg : forall n f, (forall i, (i < n)%nat -> 0 <= f i)%Q -> (0 <= qsum n f)%Q.
Proof. induction n; intros f H; cbn; [lra|]. pose proof (H n ltac:(lia)). pose proof (IHn f ltac:(intros; apply H; lia)). lra. Qed.

Lemma last_in : forall (l : list wk) w, In (last (w :: l) w) (w :: l).
Proof.
  assert (G : forall (l : list wk) a d, In (last (a :: l) d) (a :: l)).
  { induction l as [|b l IH]; intros a d; [left; reflexivity|]. right. exact (IH b d). }
  intros. apply G.
Qed.


Lemma grid_lemma : forall (g : @wgrid T) sd ed budget lo hi og,
  NoDup (times_of g) -> le_sorted tle (times_of g) -> (forall w c, In w (g_weeks g) -> 0 <= w_spend w c)%Q ->
  to_optimization_grid teq tle stab g sd ed budget lo hi = Ok (Some og) ->
  let n := length (g_channels g) in let ws := between tle (o_start og) (o_end og) g in let step := pow10 (o_k og) in
  In (o_start og) (times_of g) /\ In (o_end og) (times_of g) /\
  (forall t, sd = Some t -> o_start og = t) /\ (sd = None -> nth_error (times_of g) 0 = Some (o_start og)) /\
  (forall t, ed = Some t -> o_end og = t) /\ (ed = None -> exists l, times_of g = l ++ [o_end og]) /\
  o_times og = map w_time ws /\
  (forall c, o_hist og c = lsum (fun w => w_spend w c) ws) /\
  constraints_valid n (dflt g lo) (dflt g hi) /\
  get_round_factor (total_of g og budget) (1 # 10000) = Ok (- Z.of_nat (o_k og))%Z /\
  length (o_grid og) = n /\
  exists rows (L U R : nat -> Z) (m : nat -> nat) (out : nat -> Z -> Q),
    forall c, c < n ->
      R c = round_to (o_k og) (total_of g og budget * (o_hist og c / qsum n (o_hist og))) /\
      L c = round_to (o_k og) ((1 - constraint_at (dflt g lo) c) * inject_Z (R c)) /\
      U c = round_to (o_k og) ((1 + constraint_at (dflt g hi) c) * inject_Z (R c)) /\
      U c = (L c + Z.of_nat (m c) * step)%Z /\ m c < rows /\
      (forall v, (o_hist og c == 0)%Q -> out c v = 0%Q) /\
      (forall v, ~ (o_hist og c == 0)%Q -> (out c v == lsum (fun w => interp (inject_Z v / o_hist og c) (points (g_mults g) (w_outcome w c))) ws)%Q) /\
      (let col := uniform_column rows (L c) step (m c) (fun i => out c (L c + Z.of_nat i * step)%Z) in
       nth c (o_grid og) [] = if c <? n - n_rf (g_settings g) then col else stabilized stab col) /\
      (round_to (o_k og) (o_hist og c) <> 0%Z -> exists m0 r, g_mults g = m0 :: r /\
        (round_to (o_k og) (m0 * inject_Z (round_to (o_k og) (o_hist og c))) <= L c)%Z /\
        (U c <= round_to (o_k og) (last (g_mults g) 0%Q * inject_Z (round_to (o_k og) (o_hist og c))))%Z).
Proof.
  intros g sd ed budget lo hi og N S Pos H. cbv zeta. unfold to_optimization_grid in H.
  destruct (covers_date teq g sd && covers_date teq g ed) eqn:Cov; cbn [negb] in H; [|discriminate]. apply andb_true_iff in Cov. destruct Cov as [Cs Ce].
  destruct (g_weeks g) as [|w0 wr] eqn:Ew; [discriminate|].
  set (s := match sd with Some t => t | None => w_time w0 end) in H. set (e := match ed with Some t => t | None => w_time (last (w0 :: wr) w0) end) in H.
  assert (Is : In s (map w_time (w0 :: wr))).
  { unfold s. destruct sd as [t|]; [|left; reflexivity]. unfold covers_date, times_of in Cs. rewrite Ew in Cs. apply existsb_exists in Cs. destruct Cs as [x [X1 X2]]. destruct (teq t x); congruence. }
  assert (Ie : In e (map w_time (w0 :: wr))).
  { unfold e. destruct ed as [t|]; [|apply in_map; apply last_in]. unfold covers_date, times_of in Ce. rewrite Ew in Ce. apply existsb_exists in Ce. destruct Ce as [x [X1 X2]]. destruct (teq t x); congruence. }
  cbv zeta in H.
  set (sel := filter (fun w => tle s (w_time w) && tle (w_time w) e) (w0 :: wr)) in H.
  assert (Esl : slice teq s e (w0 :: wr) = sel).
  { apply slice_filter; auto. apply ssorted_of; unfold times_of in *; rewrite Ew in *; auto. }
  rewrite Esl in H. set (hist := fun c => lsum (fun w => w_spend w c) sel) in H. set (n := length (g_channels g)) in *.
  set (total := match budget with Some b => b | None => qsum n hist end) in H.
  assert (HistPos : forall c, (0 <= hist c)%Q). { intros c. unfold hist. apply lsum_nonneg. intros w Hw. unfold sel in Hw. apply filter_In in Hw. apply Pos. tauto. }
  unfold validate_pct_of_spend in H. destruct (Qeq_bool (qsum n hist) 0) eqn:Z0; cbn [rbind] in H; [discriminate|].
  assert (Hsum : ~ (qsum n hist == 0)%Q). { intros K. apply Qeq_bool_iff in K. congruence. }
  assert (Hsp : (0 < qsum n hist)%Q). { pose proof (qsum_nonneg n hist ltac:(intros; apply HistPos)). apply Qle_lteq in H0. destruct H0 as [K|K]; [exact K|]. exfalso. apply Hsum. symmetry. exact K. }
  destruct (get_round_factor total (1 # 10000)) as [factor|er] eqn:Ef; cbn [rbind] in H; [|discriminate].
  assert (Tp : (0 < total)%Q).
  { destruct (Qlt_le_dec 0 total) as [K|K]; auto. rewrite (round_factor_err total (1 # 10000) (or_intror K)) in Ef. discriminate. }
  destruct (round_factor_ok total (1 # 10000) ltac:(lra) Tp) as [k [Ek _]]. assert (factor = (- Z.of_nat k)%Z) by congruence. subst factor.
  replace (Z.to_nat (- - Z.of_nat k)) with k in H by lia.
  change (match lo with Some c => c | None => Scalar (constraint_variation (g_settings g)) end) with (dflt g lo) in H.
  change (match hi with Some c => c | None => Scalar (constraint_variation (g_settings g)) end) with (dflt g hi) in H.
  destruct (get_optimization_bounds n (fun c => (total * (hist c / qsum n hist))%Q) k (dflt g lo) (dflt g hi)) as [b|er] eqn:Eb; cbn [rbind] in H; [|discriminate].
  assert (V : constraints_valid n (dflt g lo) (dflt g hi)).
  { unfold get_optimization_bounds, get_spend_bounds in Eb. destruct (validate_spend_constraints n (dflt g lo) (dflt g hi)) as [p|] eqn:Ev; [|discriminate]. apply validate_ok in Ev. tauto. }
  destruct (bounds_ok n (fun c => (total * (hist c / qsum n hist))%Q) k (dflt g lo) (dflt g hi) V) as [L [U [EbLU LU]]]. assert (b = (L, U)) by congruence. subst b. cbn [fst snd] in H.
  destruct (bounds_covered (g_mults g) hist L U k (seq 0 n)) as [ok|] eqn:Ecov; cbn [rbind] in H; [|discriminate]. destruct ok; cbn [negb] in H; [|discriminate].
  destruct (create_weekly_grids stab g L U (pow10 k) hist sel) as [gr|] eqn:Eg; cbn [rbind] in H; [|discriminate].
  assert (og = mkOptGrid gr hist (map w_time sel) s e k) by congruence. subst og. cbn [o_grid o_hist o_times o_start o_end o_k]. clear H.
  unfold times_of, between. rewrite Ew.
  assert (Etot : total_of g (mkOptGrid gr hist (map w_time sel) s e k) budget = total) by reflexivity. rewrite Etot.
  set (R := fun c => round_to k (total * (hist c / qsum n hist))).
  assert (Rpos : forall c, (0 <= R c)%Z).
  { intros c. apply round_to_nonneg. apply Qmult_le_0_compat; [lra|]. apply Qmult_le_0_compat; [apply HistPos|]. apply Qinv_le_0_compat. lra. }
  assert (LleU : forall c, c < n -> (L c <= U c)%Z).
  { intros c Hc. destruct (LU c Hc) as [-> ->]. apply round_to_mono. assert (Hr : (0 <= inject_Z (R c))%Q) by (change 0%Q with (inject_Z 0); apply inject_le; auto).
    change (round_to k (total * (hist c / qsum n hist))) with (R c). destruct V as (V1 & V2 & V3 & V4).
    pose proof (constraint_at_all _ n _ c V3 V1 Hc) as K1. pose proof (constraint_at_all _ n _ c V4 V2 Hc) as K2. cbv beta in K1, K2. apply Qmult_le_compat_r; auto. lra. }
  set (m := fun c => Z.to_nat ((U c - L c) / pow10 k)).
  assert (Um : forall c, c < n -> U c = (L c + Z.of_nat (m c) * pow10 k)%Z).
  { intros c Hc. unfold m. pose proof (LleU c Hc) as Q1. pose proof (pow10_pos k) as Pp. destruct (LU c Hc) as [E1 E2].
    assert (D1 : (pow10 k | L c)%Z) by (rewrite E1; apply round_to_multiple). assert (D2 : (pow10 k | U c)%Z) by (rewrite E2; apply round_to_multiple).
    rewrite Z2Nat.id by (apply Z.div_pos; lia). assert (D3 : (pow10 k | U c - L c)%Z) by (apply Z.divide_sub_r; auto). destruct D3 as [q Hq]. rewrite Hq, Z.div_mul by lia. lia. }
  assert (Pn : 0 < n). { destruct n as [|n']; [cbn in Hsp; exfalso; clear - Hsp; lra|lia]. }
  unfold create_weekly_grids in Eg. fold n in Eg.
  destruct (match g_mults g with [] => existsb (fun c => negb (Qeq_bool (hist c) 0)) (seq 0 n) | _ => false end); cbn [raise_if] in Eg; [discriminate|].
  destruct (C22_lemma n L U (pow10 k) m (outcome_at_spend (g_mults g) sel hist) Pn (pow10_pos k) Um) as [rows [Hrows [_ Ecg]]]. rewrite Ecg in Eg. cbn [rbind] in Eg.
  assert (Egr : gr = if 0 <? n_rf (g_settings g) then stabilize_columns stab (n_rf (g_settings g)) (uniform_grid n rows L (pow10 k) m (fun c i => outcome_at_spend (g_mults g) sel hist c (L c + Z.of_nat i * pow10 k)%Z))
    else uniform_grid n rows L (pow10 k) m (fun c i => outcome_at_spend (g_mults g) sel hist c (L c + Z.of_nat i * pow10 k)%Z)) by congruence.
  refine (conj Is (conj Ie (conj _ (conj _ (conj _ (conj _ (conj eq_refl (conj _ (conj V (conj Ek (conj _ _))))))))))).
  - intros t ->. reflexivity.
  - intros ->. reflexivity.
  - intros t ->. reflexivity.
  - intros ->. unfold e. destruct (exists_last (l := w0 :: wr)) as [l' [x Ex]]; [discriminate|]. rewrite Ex, last_last, map_app. exists (map w_time l'). reflexivity.
  - intros c. reflexivity.
  - rewrite Egr. destruct (0 <? _); rewrite ?stabilize_columns_length, uniform_length; reflexivity.
  - exists rows, L, U, R, m, (outcome_at_spend (g_mults g) sel hist). intros c Hc. destruct (LU c Hc) as [E1 E2].
    refine (conj eq_refl (conj E1 (conj E2 (conj (Um c Hc) (conj (Hrows c Hc) (conj _ (conj _ (conj _ _)))))))).
    + intros v Hz. apply outcome_zero; auto.
    + intros v Hz. apply outcome_sum; auto.
    + cbv zeta. rewrite Egr. destruct (Nat.ltb_spec 0 (n_rf (g_settings g))) as [Rf|Rf].
      * rewrite stabilize_columns_nth by (rewrite uniform_length; auto). rewrite uniform_length, uniform_nth by auto. reflexivity.
      * rewrite uniform_nth by auto. replace (n_rf (g_settings g)) with 0 by lia. rewrite Nat.sub_0_r. destruct (Nat.ltb_spec c n); [reflexivity|lia].
    + intros Hr. apply (bounds_covered_ok _ _ _ _ _ _ Ecov c); auto. apply in_seq. lia.
Qed.

(** The spend considered stays near the range of the multipliers. *)
Lemma covered_lemma : forall k m0 M h L U, (0 <= m0)%Q -> (0 <= M)%Q ->
  (round_to k (m0 * inject_Z (round_to k h)) <= L)%Z -> (U <= round_to k (M * inject_Z (round_to k h)))%Z ->
  (m0 * h - (m0 + 1) * (inject_Z (pow10 k) * (1 # 2)) <= inject_Z L)%Q /\ (inject_Z U <= M * h + (M + 1) * (inject_Z (pow10 k) * (1 # 2)))%Q.
Proof.
  intros k m0 M h L U P1 P2 H1 H2. apply inject_le in H1. apply inject_le in H2. set (st := (inject_Z (pow10 k) * (1 # 2))%Q).
  destruct (round_to_error k h) as [A1 A2]. destruct (round_to_error k (m0 * inject_Z (round_to k h))) as [B1 B2]. destruct (round_to_error k (M * inject_Z (round_to k h))) as [C1 C2].
  fold st in A1, A2, B1, B2, C1, C2. set (rh := inject_Z (round_to k h)) in *.
  assert (D1 : (m0 * (h - st) <= m0 * rh)%Q). { rewrite (Qmult_comm m0 (h - st)), (Qmult_comm m0 rh). apply Qmult_le_compat_r; auto. lra. }
  assert (D2 : (M * rh <= M * (h + st))%Q). { rewrite (Qmult_comm M rh), (Qmult_comm M (h + st)). apply Qmult_le_compat_r; auto. lra. }
  split.
  - assert (E : (m0 * (h - st) == m0 * h - m0 * st)%Q) by ring. assert (E' : ((m0 + 1) * st == m0 * st + st)%Q) by ring. lra.
  - assert (E : (M * (h + st) == M * h + M * st)%Q) by ring. assert (E' : ((M + 1) * st == M * st + st)%Q) by ring. lra.
Qed.
End Grid.
