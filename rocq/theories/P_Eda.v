(** Proofs for C81. *)
From Coq Require Import Reals ZArith List Bool Arith Lia Lra Psatz Permutation.
From Verif Require Import Lib_Sum M_Base M_Guard M_Eda S_Eda.
From Verif Require P_Guard.
Import ListNotations.
Local Open Scope R_scope.
Local Open Scope list_scope.

(** ** Vectors *)
Lemma dot_ext : forall n a a' b b', (forall i, (i < n)%nat -> a i = a' i) -> (forall i, (i < n)%nat -> b i = b' i) ->
  dot n a b = dot n a' b'.
Proof. intros n a a' b b' Ha Hb. apply rsum_ext. intros i Hi. rewrite Ha, Hb by exact Hi. reflexivity. Qed.
Lemma dot_sym : forall n a b, dot n a b = dot n b a.
Proof. intros. apply rsum_ext. intros. ring. Qed.
Lemma dot_lin : forall n a b c k, dot n (fun i => a i + k * b i) c = dot n a c + k * dot n b c.
Proof.
  intros. unfold dot. rewrite <- rsum_scal, <- rsum_plus. apply rsum_ext. intros. ring.
Qed.
Lemma dot_sub : forall n a b c k, dot n (fun i => a i - k * b i) c = dot n a c - k * dot n b c.
Proof.
  intros. unfold dot. rewrite <- rsum_scal, <- rsum_minus. apply rsum_ext. intros. ring.
Qed.
Lemma dot_nonneg : forall n a, 0 <= dot n a a.
Proof. intros. apply rsum_nonneg. intros. nra. Qed.
Lemma dot_zero : forall n a, dot n a a = 0 -> forall i, (i < n)%nat -> a i = 0.
Proof.
  intros n a H i Hi. assert (a i * a i = 0).
  { apply (rsum_zero_nonneg n (fun i => a i * a i)); auto. intros. nra. }
  nra.
Qed.
Lemma dot_null : forall n a b, (forall i, (i < n)%nat -> b i = 0) -> dot n a b = 0.
Proof. intros n a b H. apply rsum_zero. intros i Hi. rewrite H by exact Hi. ring. Qed.
Lemma cauchy_schwarz : forall n a b, dot n a b ^ 2 <= dot n a a * dot n b b.
Proof.
  intros n a b. pose proof (dot_nonneg n a) as Ha. destruct (Req_dec (dot n a a) 0) as [E|E].
  - rewrite (dot_sym n a b), (dot_null n b a (dot_zero n a E)). rewrite E. lra.
  - set (k := dot n a b / dot n a a).
    pose proof (dot_nonneg n (fun i => b i - k * a i)) as H.
    rewrite dot_sub in H. rewrite (dot_sym n b), (dot_sym n a) in H. rewrite !dot_sub in H.
    rewrite (dot_sym n b a) in H.
    assert (K : k * dot n a a = dot n a b) by (unfold k; field; exact E).
    assert (P : 0 < dot n a a) by lra.
    assert (H2 : 0 <= dot n b b - k * dot n a b) by nra.
    assert (H3 : 0 <= dot n a a * (dot n b b - k * dot n a b)) by nra.
    replace (dot n a a * (dot n b b - k * dot n a b)) with (dot n a a * dot n b b - (k * dot n a a) * dot n a b) in H3 by ring.
    rewrite K in H3. lra.
Qed.

(** ** Combinations and residuals *)
Fixpoint lincomb (cs : list R) (vs : list vec) (i : nat) : R :=
  match cs, vs with c :: cs', v :: vs' => c * v i + lincomb cs' vs' i | _, _ => 0 end.
Lemma lincomb_orth : forall n r vs cs, (forall v, In v vs -> dot n r v = 0) -> dot n r (lincomb cs vs) = 0.
Proof.
  intros n r vs. induction vs as [|v vs IH]; intros cs H.
  - apply dot_null. intros i _. destruct cs; reflexivity.
  - destruct cs as [|c cs]; [apply dot_null; reflexivity|].
    rewrite dot_sym, (dot_ext n (lincomb (c :: cs) (v :: vs)) (fun i => lincomb cs vs i + c * v i) r r) by (intros; cbn; auto; ring).
    rewrite dot_lin, (dot_sym n v), (H v (or_introl eq_refl)), dot_sym, IH; [ring|].
    intros w Hw. apply H. right. exact Hw.
Qed.
Fixpoint addc (k : R) (a b : list R) : list R :=
  match a, b with x :: a', y :: b' => (x + k * y) :: addc k a' b' | _, _ => [] end.
Lemma addc_length : forall k a b, length a = length b -> length (addc k a b) = length a.
Proof. induction a as [|x a IH]; intros [|y b] H; cbn in *; try discriminate; auto. Qed.
Lemma addc_comb : forall k vs a b i, length a = length vs -> length b = length vs ->
  lincomb (addc k a b) vs i = lincomb a vs i + k * lincomb b vs i.
Proof.
  induction vs as [|v vs IH]; intros a b i Ha Hb; destruct a as [|x a], b as [|y b]; cbn in *; try discriminate; try ring.
  rewrite IH by lia. ring.
Qed.
Lemma residual_span : forall n vs y, exists cs, length cs = length vs /\ forall i, y i = residual n vs y i + lincomb cs vs i.
Proof.
  intros n vs. induction vs as [|v vs IH]; intros y.
  - exists []. split; [reflexivity|]. intros i. cbn. ring.
  - destruct (IH y) as (cy & Ly & Hy). destruct (IH v) as (cv & Lv & Hv). cbn [residual].
    destruct (Req_EM_T _ 0) as [E|E].
    + exists (0 :: cy). split; [cbn; lia|]. intros i. cbn. rewrite (Hy i) at 1. ring.
    + set (k := dot n (residual n vs y) (residual n vs v) / dot n (residual n vs v) (residual n vs v)).
      exists (k :: addc (- k) cy cv). split; [cbn; rewrite addc_length; lia|].
      intros i. cbn. rewrite addc_comb by auto. rewrite (Hy i) at 1. rewrite (Hv i). fold k. ring.
Qed.
Lemma residual_orth : forall n vs y v, In v vs -> dot n (residual n vs y) v = 0.
Proof.
  intros n vs. induction vs as [|w vs IH]; intros y v H; [contradiction|]. cbn [residual].
  destruct (residual_span n vs w) as (cw & Lw & Hw).
  destruct (Req_EM_T _ 0) as [E|E].
  - destruct H as [<-|H]; [|apply IH; exact H].
    rewrite (dot_ext n (residual n vs y) (residual n vs y) w (lincomb cw vs)).
    + apply lincomb_orth. intros u Hu. apply IH. exact Hu.
    + auto.
    + intros i Hi. rewrite Hw, (dot_zero n _ E i Hi). ring.
  - rewrite dot_sub. destruct H as [<-|H].
    + assert (D : forall z, dot n (residual n vs z) w = dot n (residual n vs z) (residual n vs w)).
      { intros z. rewrite (dot_ext n (residual n vs z) (residual n vs z) w (fun i => residual n vs w i + 1 * lincomb cw vs i)).
        - rewrite dot_sym, dot_lin, (dot_sym n (lincomb cw vs)), lincomb_orth; [rewrite dot_sym; ring|].
          intros u Hu. apply IH. exact Hu.
        - auto.
        - intros i _. rewrite (Hw i) at 1. ring. }
      rewrite !D. field. exact E.
    + rewrite (IH y v H), (IH w v H), Rmult_0_r. apply Rminus_0_r.
Qed.
Definition sq_err (n : nat) (vs : list vec) (y : vec) (cs : list R) : R :=
  dot n (fun i => y i - lincomb cs vs i) (fun i => y i - lincomb cs vs i).
Lemma residual_least : forall n vs y,
  (exists cs, length cs = length vs /\ sq_err n vs y cs = dot n (residual n vs y) (residual n vs y)) /\
  (forall cs, length cs = length vs -> dot n (residual n vs y) (residual n vs y) <= sq_err n vs y cs).
Proof.
  intros n vs y. destruct (residual_span n vs y) as (c0 & L0 & H0). split.
  - exists c0. split; [exact L0|]. unfold sq_err. apply dot_ext; intros i _; rewrite (H0 i) at 1; ring.
  - intros cs L. unfold sq_err.
    set (d := addc (-1) c0 cs).
    assert (Hd : forall i, y i - lincomb cs vs i = residual n vs y i + 1 * lincomb d vs i).
    { intros i. unfold d. rewrite addc_comb by auto. rewrite (H0 i) at 1. ring. }
    rewrite (dot_ext n (fun i => y i - lincomb cs vs i) (fun i => residual n vs y i + 1 * lincomb d vs i) (fun i => y i - lincomb cs vs i) (fun i => residual n vs y i + 1 * lincomb d vs i)) by (intros; apply Hd).
    rewrite dot_lin, !(dot_sym n _ (fun i => residual n vs y i + 1 * lincomb d vs i)), !dot_lin.
    rewrite (dot_sym n (lincomb d vs) (residual n vs y)).
    rewrite lincomb_orth by (intros v Hv; apply residual_orth; exact Hv).
    pose proof (dot_nonneg n (lincomb d vs)). lra.
Qed.

(** ** Correlation *)
Definition s2 (n : nat) (a b : vec) : R := dot n (deviation n a) (deviation n b).
Lemma s2_nonneg : forall n a, 0 <= s2 n a a.
Proof. intros. apply dot_nonneg. Qed.
Lemma lt_bool_iff : forall a b, lt_bool a b = true <-> a < b.
Proof. intros. unfold lt_bool. destruct (Rlt_dec a b); split; auto; discriminate. Qed.
Lemma le_bool_iff : forall a b, le_bool a b = true <-> a <= b.
Proof. intros. unfold le_bool. destruct (Rle_dec a b); split; auto; discriminate. Qed.
Lemma std_prod : forall n a b, (0 < n)%nat -> std n a * std n b = sqrt (s2 n a a * s2 n b b) / INR n.
Proof.
  intros n a b Hn. assert (0 < INR n) by (apply lt_0_INR; exact Hn).
  unfold std. fold (s2 n a a) (s2 n b b). rewrite <- sqrt_mult by (apply Rdiv_le_0_compat || apply Rle_mult_inv_pos; auto using s2_nonneg).
  replace (s2 n a a / INR n * (s2 n b b / INR n)) with ((s2 n a a * s2 n b b) / (INR n * INR n)) by (field; lra).
  rewrite sqrt_div_alt by nra. rewrite sqrt_square by lra. reflexivity.
Qed.
Lemma square_lt : forall a b, 0 <= a -> 0 <= b -> (a < b <-> a ^ 2 < b ^ 2).
Proof. intros. split; intros; nra. Qed.
Lemma extreme_iff : forall n thr a b, (0 < n)%nat -> 0 <= thr ->
  (extreme n thr a b = true <-> thr ^ 2 * (s2 n a a * s2 n b b) < s2 n a b ^ 2).
Proof.
  intros n thr a b Hn Ht. assert (N : 0 < INR n) by (apply lt_0_INR; exact Hn).
  pose proof (cauchy_schwarz n (deviation n a) (deviation n b)) as CS. fold (s2 n a b) (s2 n a a) (s2 n b b) in CS.
  pose proof (s2_nonneg n a) as Sa. pose proof (s2_nonneg n b) as Sb.
  unfold extreme, corr. destruct (Req_EM_T _ 0) as [E|E].
  - rewrite std_prod in E by exact Hn.
    assert (Z : s2 n a a * s2 n b b = 0).
    { apply Rmult_integral in E. destruct E as [E|E].
      - apply sqrt_eq_0 in E; [exact E|nra].
      - exfalso. pose proof (Rinv_0_lt_compat _ N). lra. }
    rewrite Z in *. split; [discriminate|]. intros H. nra.
  - rewrite lt_bool_iff. rewrite std_prod in * by exact Hn. unfold covariance. fold (s2 n a b).
    set (q := sqrt (s2 n a a * s2 n b b)) in *.
    assert (Q2 : q ^ 2 = s2 n a a * s2 n b b) by (unfold q; rewrite <- Rsqr_pow2, Rsqr_sqrt; [reflexivity|nra]).
    assert (Qn : 0 <= q) by apply sqrt_pos.
    assert (Q0 : q <> 0) by (intros Z; apply E; rewrite Z; field; lra).
    replace (s2 n a b / INR n / (q / INR n)) with (s2 n a b / q) by (field; lra).
    rewrite square_lt; [|exact Ht|apply Rabs_pos].
    rewrite <- (Rsqr_pow2 (Rabs _)), <- Rsqr_abs, Rsqr_pow2. rewrite <- Q2.
    replace ((s2 n a b / q) ^ 2) with (s2 n a b ^ 2 / q ^ 2) by (field; exact Q0).
    assert (0 < q ^ 2) by nra.
    split; intros H1.
    + apply (Rmult_lt_compat_r (q ^ 2)) in H1; [|assumption]. replace (s2 n a b ^ 2 / q ^ 2 * q ^ 2) with (s2 n a b ^ 2) in H1 by (field; exact Q0). exact H1.
    + apply (Rmult_lt_reg_r (q ^ 2)); [assumption|]. replace (s2 n a b ^ 2 / q ^ 2 * q ^ 2) with (s2 n a b ^ 2) by (field; exact Q0). exact H1.
Qed.

(** ** Inflation factor *)
Lemma std_lt : forall n c a, (0 < n)%nat -> 0 <= c -> (is_constant n c a = false <-> c ^ 2 * INR n <= s2 n a a).
Proof.
  intros n c a Hn Hc. assert (N : 0 < INR n) by (apply lt_0_INR; exact Hn). unfold is_constant, lt_bool.
  pose proof (s2_nonneg n a) as S.
  assert (Q : std n a ^ 2 = s2 n a a / INR n).
  { unfold std. rewrite <- Rsqr_pow2, Rsqr_sqrt; [reflexivity|]. apply Rle_mult_inv_pos; assumption. }
  assert (P : 0 <= std n a) by apply sqrt_pos.
  assert (E : s2 n a a = std n a ^ 2 * INR n) by (rewrite Q; field; lra). rewrite E.
  destruct (Rlt_dec _ _) as [L|L].
  - split; [discriminate|]. intros H. exfalso. apply (Rmult_le_reg_r (INR n)) in H; [|exact N]. nra.
  - split; [intros _|reflexivity]. apply Rmult_le_compat_r; [lra|]. nra.
Qed.
Lemma inflation_iff : forall n vs y c, 0 < s2 n y y -> 0 <= c ->
  (above (inflation n vs y) c = true <->
   c * dot n (residual n ((fun _ => 1) :: vs) y) (residual n ((fun _ => 1) :: vs) y) < s2 n y y).
Proof.
  intros n vs y c Hy Hc. unfold inflation. set (r := residual n _ y). fold (s2 n y y).
  pose proof (dot_nonneg n r) as Hr.
  destruct (Req_EM_T (s2 n y y) 0) as [E|E]; [lra|].
  destruct (Req_EM_T (dot n r r) 0) as [E'|E'].
  - cbn [above]. rewrite E'. split; [intros _; lra|reflexivity].
  - cbn [above]. rewrite lt_bool_iff. assert (0 < dot n r r) by lra.
    replace (1 / (1 - (1 - dot n r r / s2 n y y))) with (s2 n y y / dot n r r) by
      (replace (1 - (1 - dot n r r / s2 n y y)) with (dot n r r / s2 n y y) by ring; field; repeat split; assumption).
    split; intros H0.
    + apply (Rmult_lt_compat_r (dot n r r)) in H0; [|assumption].
      replace (s2 n y y / dot n r r * dot n r r) with (s2 n y y) in H0 by (field; assumption). exact H0.
    + apply (Rmult_lt_reg_r (dot n r r)); [assumption|].
      replace (s2 n y y / dot n r r * dot n r r) with (s2 n y y) by (field; assumption). exact H0.
Qed.

(** ** From vectors to geos and periods *)
Lemma total_flat : forall G T f, (0 < T)%nat -> rsum (G * T) (flattened T f) = total G T f.
Proof.
  intros G T f HT. unfold total, flattened. induction G as [|G IH]; [reflexivity|].
  replace (S G * T)%nat with (G * T + T)%nat by lia. rewrite rsum_app, IH. cbn [rsum]. f_equal.
  apply rsum_ext. intros i Hi. f_equal.
  - rewrite Nat.add_comm, Nat.div_add by lia. rewrite Nat.div_small by exact Hi. reflexivity.
  - rewrite Nat.add_comm, Nat.mod_add by lia. apply Nat.mod_small. exact Hi.
Qed.
Lemma total_one : forall T f, rsum T (fun i => f 0%nat i) = total 1 T f.
Proof. intros. unfold total. cbn [rsum]. ring. Qed.
Lemma total_ext : forall G T f g, (forall a b, f a b = g a b) -> total G T f = total G T g.
Proof. intros G T f g H. unfold total. apply rsum_ext. intros. apply rsum_ext. intros. apply H. Qed.

Section Embedding.
Variables (n G T : nat) (p q : nat -> nat).
Hypothesis Hn : (0 < n)%nat.
Hypothesis Hsize : INR n = INR G * INR T.
Hypothesis Hsum : forall f : variable, rsum n (fun i => f (p i) (q i)) = total G T f.
Let emb (f : variable) : vec := fun i => f (p i) (q i).

Lemma mean_emb : forall x, mean n (emb x) = average G T x.
Proof. intros x. unfold mean, average, emb. rewrite Hsum, Hsize. reflexivity. Qed.
Lemma s2_emb : forall x y, s2 n (emb x) (emb y) = sxy G T x y.
Proof.
  intros x y. unfold s2, dot, deviation. rewrite !mean_emb. unfold emb, sxy.
  exact (Hsum (fun g t => (x g t - average G T x) * (y g t - average G T y))).
Qed.
Lemma comb_emb : forall xs cs i, lincomb cs (map emb xs) i = combination cs xs (p i) (q i).
Proof. induction xs as [|x xs IH]; intros [|c cs] i; cbn; try reflexivity. rewrite IH. reflexivity. Qed.
Lemma sq_err_emb : forall xs y b cs,
  sq_err n ((fun _ => 1) :: map emb xs) (emb y) (b :: cs) = squared_error G T xs y b cs.
Proof.
  intros. unfold sq_err, squared_error, dot. rewrite <- Hsum. apply rsum_ext. intros i _.
  cbn [lincomb]. rewrite comb_emb. unfold emb. ring.
Qed.
Lemma least_emb : forall xs y,
  least_error G T xs y (dot n (residual n ((fun _ => 1) :: map emb xs) (emb y)) (residual n ((fun _ => 1) :: map emb xs) (emb y))).
Proof.
  intros xs y. destruct (residual_least n ((fun _ => 1) :: map emb xs) (emb y)) as [(cs & L & E) M].
  cbn [length] in *. rewrite map_length in *. split.
  - destruct cs as [|b cs]; [discriminate|]. exists b, cs. split; [cbn in L; lia|]. rewrite <- sq_err_emb. exact E.
  - intros b ds Lc. rewrite <- sq_err_emb. apply M. cbn. lia.
Qed.
Lemma least_unique : forall xs y r r', least_error G T xs y r -> least_error G T xs y r' -> r = r'.
Proof.
  intros xs y r r' [(b & cs & L & E) M] [(b' & cs' & L' & E') M'].
  apply Rle_antisym; [rewrite <- E'; apply M; exact L'|rewrite <- E; apply M'; exact L].
Qed.
Lemma extreme_emb : forall c x y, 0 <= c -> (extreme n c (emb x) (emb y) = true <-> correlated_above G T c x y).
Proof. intros c x y Hc. rewrite extreme_iff by assumption. rewrite !s2_emb. reflexivity. Qed.
Lemma constant_emb : forall c x, 0 <= c -> (is_constant n c (emb x) = false <-> varies_by G T c x).
Proof. intros c x Hc. rewrite std_lt by assumption. rewrite s2_emb, Hsize. reflexivity. Qed.
Lemma inflated_emb : forall c xs y, 0 <= c -> 0 < sxy G T y y ->
  (above (inflation n (map emb xs) (emb y)) c = true <-> inflated_above G T c xs y).
Proof.
  intros c xs y Hc Hy. rewrite inflation_iff; [|rewrite s2_emb; exact Hy|exact Hc]. rewrite s2_emb.
  pose proof (least_emb xs y) as LE. split.
  - intros H. eexists. split; [exact LE|exact H].
  - intros (r & Lr & H). rewrite (least_unique _ _ _ _ LE Lr). exact H.
Qed.
(** The order of the predictors does not matter. *)
Lemma comb_perm : forall xs xs', Permutation xs xs' -> forall cs, length cs = length xs ->
  exists cs', length cs' = length xs' /\ forall g t, combination cs' xs' g t = combination cs xs g t.
Proof.
  induction 1 as [|x l l' P IH|x y l|l l' l'' P1 IH1 P2 IH2]; intros cs L.
  - exists []. destruct cs; [|discriminate]. split; reflexivity.
  - destruct cs as [|c cs]; [discriminate|]. cbn in L. destruct (IH cs ltac:(lia)) as (cs' & L' & H).
    exists (c :: cs'). split; [cbn; lia|]. intros g t. cbn. rewrite H. reflexivity.
  - destruct cs as [|c [|d cs]]; try discriminate. cbn in L. exists (d :: c :: cs). split; [cbn; lia|].
    intros g t. cbn. ring.
  - destruct (IH1 cs L) as (c1 & L1 & H1). destruct (IH2 c1 L1) as (c2 & L2 & H2).
    exists c2. split; [exact L2|]. intros g t. rewrite H2. apply H1.
Qed.
Lemma least_perm : forall xs xs' y r, Permutation xs xs' -> least_error G T xs y r -> least_error G T xs' y r.
Proof.
  intros xs xs' y r P [(b & cs & L & E) M]. split.
  - destruct (comb_perm xs xs' P cs L) as (cs' & L' & H). exists b, cs'. split; [exact L'|]. rewrite <- E.
    apply total_ext. intros g t. rewrite H. reflexivity.
  - intros b' cs' L'. destruct (comb_perm xs' xs (Permutation_sym P) cs' L') as (c2 & L2 & H2).
    replace (squared_error G T xs' y b' cs') with (squared_error G T xs y b' c2); [apply M; exact L2|].
    apply total_ext. intros g t. rewrite H2. reflexivity.
Qed.

Lemma upper_in : forall m i j, In (i, j) (upper m) <-> (i < j < m)%nat.
Proof.
  intros m i j. unfold upper. rewrite filter_In, in_prod_iff, !in_seq. cbn [fst snd]. rewrite Nat.ltb_lt. lia.
Qed.
Lemma pairs_emb : forall m (x : nat -> variable) c i j, 0 <= c ->
  (In (i, j) (extreme_pairs n m (fun v => emb (x v)) c) <-> (i < j < m)%nat /\ correlated_above G T c (x i) (x j)).
Proof.
  intros m x c i j Hc. unfold extreme_pairs. rewrite filter_In, upper_in. cbn [fst snd].
  rewrite extreme_emb by exact Hc. reflexivity.
Qed.
Lemma vifs_emb : forall m (x : nat -> variable) sc c v, 0 < sc -> 0 <= c -> (0 < G)%nat -> (0 < T)%nat ->
  (In v (extreme_vifs n m (fun v => emb (x v)) sc c) <->
   (v < m)%nat /\ varies_by G T sc (x v) /\ exists xs, others G T sc m x v xs /\ inflated_above G T c xs (x v)).
Proof.
  intros m x sc c v Hs Hc HG HT. unfold extreme_vifs. rewrite filter_In, in_seq. unfold calculate_vif.
  assert (GT : 0 < INR G * INR T) by (apply Rmult_lt_0_compat; apply lt_0_INR; assumption).
  pose proof (constant_emb sc (x v) ltac:(lra)) as K.
  destruct (is_constant n sc (emb (x v))) eqn:E.
  - cbn [above]. split; [intros [_ H]; discriminate|]. intros (_ & H & _). apply K in H. discriminate.
  - assert (V : varies_by G T sc (x v)) by (apply K; reflexivity).
    assert (P : 0 < sxy G T (x v) (x v)).
    { unfold varies_by in V. assert (0 < sc ^ 2 * (INR G * INR T)) by (apply Rmult_lt_0_compat; [nra|exact GT]). lra. }
    set (l := filter (fun w => negb (is_constant n sc (emb (x w))) && negb (w =? v)) (seq 0 m)).
    assert (ME : map (fun w => emb (x w)) l = map emb (map x l)) by (rewrite map_map; reflexivity).
    rewrite ME. rewrite inflated_emb by (auto; lra).
    assert (Hl : forall w, In w l <-> (w < m)%nat /\ w <> v /\ varies_by G T sc (x w)).
    { intros w. unfold l. rewrite filter_In, in_seq, andb_true_iff, !negb_true_iff, Nat.eqb_neq.
      rewrite constant_emb by lra. lia || (split; intros H; repeat split; try lia; tauto). }
    assert (ND : NoDup l) by (apply NoDup_filter, seq_NoDup).
    split.
    + intros [Hv H]. split; [lia|]. split; [exact V|]. exists (map x l). split; [|exact H].
      exists l. auto.
    + intros (Hv & _ & xs & (l' & ND' & Hl' & Exs) & (r & Lr & Hr)). split; [lia|].
      exists r. split; [|exact Hr].
      apply (least_perm xs); [|exact Lr]. rewrite Exs. apply Permutation_map.
      apply NoDup_Permutation; auto. intros w. rewrite Hl, Hl'. reflexivity.
Qed.
End Embedding.

(** ** The checks *)

Lemma empty_iff : forall A (l : list A), empty l = true <-> (forall x, ~ In x l).
Proof.
  intros A [|a l]; cbn; split; try reflexivity; try discriminate.
  - intros _ x H. exact H.
  - intros H. exfalso. apply (H a). left. reflexivity.
Qed.
Definition has_error (o : outcome) : Prop := exists f, In f (o_findings o) /\ fst f = Error.
Lemma guardrail_iff : forall o, guardrail o = Ok tt <->
  ~ has_error (kpi_invariability o) /\ ~ has_error (multicollinearity o) /\ ~ has_error (pairwise_correlation o).
Proof.
  intros [k v c]. unfold guardrail. cbn [flat_map kpi_invariability multicollinearity pairwise_correlation].
  set (l := _ ++ _). assert (H : empty l = true <-> ~ has_error k /\ ~ has_error v /\ ~ has_error c).
  { rewrite empty_iff. unfold l, has_error. split.
    - intros N. assert (W : forall f, (In f (o_findings k) \/ In f (o_findings v) \/ In f (o_findings c)) -> fst f = Error -> False).
      { intros f Hf E. apply (N f). rewrite app_nil_r, !in_app_iff, !filter_In.
        assert (is_error f = true) by (unfold is_error; rewrite E; reflexivity). tauto. }
      repeat split; intros (f & I1 & E); apply (W f); auto.
    - intros (Nk & Nv & Nc) f. rewrite app_nil_r, !in_app_iff, !filter_In.
      assert (I1 : is_error f = true -> fst f = Error) by (unfold is_error; destruct (fst f); auto; discriminate).
      intros [[H E]|[[H E]|[H E]]]; [apply Nk|apply Nv|apply Nc]; exists f; auto. }
  destruct (empty l); cbn; split; intros E; try reflexivity; try discriminate.
  - apply H. reflexivity.
  - apply H in E. discriminate.
Qed.
Lemma guardrail_err : forall o, guardrail o = Ok tt \/ guardrail o = Err RuntimeError.
Proof. intros o. unfold guardrail. destruct (negb _); auto. Qed.

Lemma err_or_info : forall b c, (exists f, In f (if negb b then [(Error, c)] else [(Info, NoCause)]) /\ fst f = Error) <-> b = false.
Proof.
  intros [] c; cbn; split; try reflexivity; try discriminate.
  - intros (f & [<-|[]] & E). discriminate.
  - intros _. exists (Error, c). auto.
Qed.
Lemma err_two : forall b b', (exists f, In f (or_info (when (negb b) (Error, Multicollinearity) ++ when (negb b') (Attention, Multicollinearity))) /\ fst f = Error) <-> b = false.
Proof.
  intros [] []; cbn; split; try reflexivity; try discriminate.
  - intros (f & [<-|[]] & E). discriminate.
  - intros (f & [<-|[]] & E). discriminate.
  - intros _. exists (Error, Multicollinearity). auto.
  - intros _. exists (Error, Multicollinearity). auto.
Qed.
Lemma not_empty : forall A (l : list A), empty l = false <-> exists x, In x l.
Proof.
  intros A [|a l]; cbn; split; try reflexivity; try discriminate.
  - intros [x []].
  - intros _. exists a. auto.
Qed.

Section Checks.
Variables (e : engine) (s : thresholds).
Hypothesis Hg : good e s.
Let G := en_geos e.
Let T := en_times e.
Lemma size_flat : INR (G * T) = INR G * INR T.
Proof. apply mult_INR. Qed.
Lemma size_one : INR T = INR 1 * INR T.
Proof. cbn. ring. Qed.

Lemma overall_pairs : forall c i j, 0 <= c ->
  (In (i, j) (extreme_pairs (G * T) (en_vars e) (all_cells e) c) <-> (i < j < en_vars e)%nat /\ correlated_above G T c (en_data e i) (en_data e j)).
Proof.
  intros c i j Hc. pose proof (gd_geos _ _ Hg). pose proof (gd_times _ _ Hg).
  apply (pairs_emb (G * T) G T (fun i => i / T)%nat (fun i => i mod T)%nat); auto.
  - unfold G, T. nia.
  - apply size_flat.
  - intros f. apply total_flat. unfold T. lia.
Qed.
Lemma single_pairs : forall g c i j, 0 <= c ->
  (In (i, j) (extreme_pairs T (en_vars e) (geo_cells e g) c) <-> (i < j < en_vars e)%nat /\ correlated_above 1 T c (fun _ => en_data e i g) (fun _ => en_data e j g)).
Proof.
  intros g c i j Hc. pose proof (gd_times _ _ Hg).
  apply (pairs_emb T 1 T (fun _ => 0%nat) (fun i => i) ltac:(unfold T; lia) size_one (total_one T) (en_vars e) (fun v _ => en_data e v g) c i j Hc).
Qed.
Lemma overall_vifs : forall c v, 0 <= c ->
  (In v (extreme_vifs (G * T) (en_vars e) (all_cells e) (th_vif_std s) c) <->
   (v < en_vars e)%nat /\ varies_by G T (th_vif_std s) (en_data e v) /\
   exists xs, others G T (th_vif_std s) (en_vars e) (en_data e) v xs /\ inflated_above G T c xs (en_data e v)).
Proof.
  intros c v Hc. pose proof (gd_geos _ _ Hg). pose proof (gd_times _ _ Hg). pose proof (gd_std _ _ Hg).
  apply (vifs_emb (G * T) G T (fun i => i / T)%nat (fun i => i mod T)%nat); auto.
  - unfold G, T. nia.
  - apply size_flat.
  - intros f. apply total_flat. unfold T. lia.
Qed.
Lemma single_vifs : forall g c v, 0 <= c ->
  (In v (extreme_vifs T (en_vars e) (geo_cells e g) (th_vif_std s) c) <->
   (v < en_vars e)%nat /\ varies_by 1 T (th_vif_std s) (fun _ => en_data e v g) /\
   exists xs, others 1 T (th_vif_std s) (en_vars e) (fun w _ => en_data e w g) v xs /\ inflated_above 1 T c xs (fun _ => en_data e v g)).
Proof.
  intros g c v Hc. pose proof (gd_times _ _ Hg). pose proof (gd_std _ _ Hg).
  apply (vifs_emb T 1 T (fun _ => 0%nat) (fun i => i) ltac:(unfold T; lia) size_one (total_one T) (en_vars e) (fun v _ => en_data e v g)); auto.
Qed.
Lemma national_pairs : forall c i j, 0 <= c -> G = 1%nat ->
  (In (i, j) (extreme_pairs T (en_vars e) (national_cells e) c) <-> (i < j < en_vars e)%nat /\ correlated_above G T c (en_data e i) (en_data e j)).
Proof.
  intros c i j Hc G1. pose proof (gd_times _ _ Hg). rewrite G1.
  apply (pairs_emb T 1 T (fun _ => 0%nat) (fun i => i) ltac:(unfold T; lia) size_one (total_one T) (en_vars e) (en_data e) c i j Hc).
Qed.
Lemma national_vifs : forall c v, 0 <= c -> G = 1%nat ->
  (In v (extreme_vifs T (en_vars e) (national_cells e) (th_vif_std s) c) <->
   (v < en_vars e)%nat /\ varies_by G T (th_vif_std s) (en_data e v) /\
   exists xs, others G T (th_vif_std s) (en_vars e) (en_data e) v xs /\ inflated_above G T c xs (en_data e v)).
Proof.
  intros c v Hc G1. pose proof (gd_times _ _ Hg). pose proof (gd_std _ _ Hg). rewrite G1.
  apply (vifs_emb T 1 T (fun _ => 0%nat) (fun i => i) ltac:(unfold T; lia) size_one (total_one T) (en_vars e) (en_data e)); auto.
Qed.

Lemma corr_error : exists o, check_corr e s = Ok o /\
  (has_error o <-> exists i j, (i < j < en_vars e)%nat /\ correlated_above G T (corr_limit e s) (en_data e i) (en_data e j)).
Proof.
  pose proof (gd_corr _ _ Hg) as (C1 & C2 & C3). unfold check_corr, corr_limit. destruct (en_national e) eqn:N.
  - eexists. split; [reflexivity|]. unfold has_error. cbn [o_findings]. rewrite err_or_info, not_empty.
    pose proof (gd_one _ _ Hg N) as G1. split.
    + intros [[i j] H]. exists i, j. apply national_pairs; auto.
    + intros (i & j & H). exists (i, j). apply national_pairs; auto.
  - unfold check_geo_corr. rewrite N. cbn [raise_if]. eexists. split; [reflexivity|]. unfold has_error. cbn [o_findings].
    rewrite err_two, not_empty. split.
    + intros [[i j] H]. exists i, j. apply overall_pairs; auto.
    + intros (i & j & H). exists (i, j). apply overall_pairs; auto.
Qed.
Lemma vif_error : exists o, check_vif e s = Ok o /\
  (has_error o <-> exists v xs, (v < en_vars e)%nat /\ varies_by G T (th_vif_std s) (en_data e v) /\
     others G T (th_vif_std s) (en_vars e) (en_data e) v xs /\ inflated_above G T (vif_limit e s) xs (en_data e v)).
Proof.
  pose proof (gd_vif _ _ Hg) as (C1 & C2 & C3). unfold check_vif, vif_limit. destruct (en_national e) eqn:N.
  - eexists. split; [reflexivity|]. unfold has_error. cbn [o_findings]. rewrite err_or_info, not_empty.
    pose proof (gd_one _ _ Hg N) as G1. split.
    + intros [v H]. apply national_vifs in H; auto. destruct H as (H1 & H2 & xs & H3 & H4). exists v, xs. auto.
    + intros (v & xs & H1 & H2 & H3 & H4). exists v. apply national_vifs; auto. eauto.
  - unfold check_geo_vif. rewrite N. cbn [raise_if]. eexists. split; [reflexivity|]. unfold has_error. cbn [o_findings].
    rewrite err_two, not_empty. split.
    + intros [v H]. apply overall_vifs in H; auto. destruct H as (H1 & H2 & xs & H3 & H4). exists v, xs. auto.
    + intros (v & xs & H1 & H2 & H3 & H4). exists v. apply overall_vifs; auto. eauto.
Qed.
Lemma kpi_iff : kpi_varies e s = true <-> sample_varies_by G T (th_kpi s) (en_kpi e).
Proof.
  pose proof (gd_kpi _ _ Hg) as Hk. unfold kpi_varies, std_ddof1.
  assert (L : length (kpi_values e) = (G * T)%nat) by apply P_Guard.flat_length. rewrite L.
  assert (M : mean_list (kpi_values e) = average G T (en_kpi e)).
  { unfold mean_list, average. rewrite L, size_flat. f_equal. rewrite <- (map_id (kpi_values e)). apply (P_Guard.lsum_flat G T (en_kpi e) (fun x => x)). }
  assert (S2 : lsum (map (fun x => (x - mean_list (kpi_values e)) ^ 2) (kpi_values e)) = sxy G T (en_kpi e) (en_kpi e)).
  { rewrite M. unfold kpi_values. rewrite P_Guard.lsum_flat. unfold sxy, total. apply rsum_ext. intros g _. apply rsum_ext. intros t _. ring. }
  rewrite S2. unfold sample_varies_by.
  assert (P : 0 <= sxy G T (en_kpi e) (en_kpi e)).
  { unfold sxy, total. apply rsum_nonneg. intros g _. apply rsum_nonneg. intros t _. apply Rle_0_sqr. }
  rewrite <- size_flat.
  destruct (G * T)%nat as [|[|m]] eqn:E; try (split; [discriminate|intros [H _]; lia]).
  replace (S (S m) - 1)%nat with (S m) by lia. rewrite le_bool_iff.
  assert (Q : 0 < INR (S m)) by (apply lt_0_INR; lia).
  set (v := sqrt _). assert (V2 : v ^ 2 * INR (S m) = sxy G T (en_kpi e) (en_kpi e)).
  { unfold v. rewrite <- Rsqr_pow2, Rsqr_sqrt; [field; lra|]. apply Rle_mult_inv_pos; assumption. }
  assert (V : 0 <= v) by apply sqrt_pos.
  rewrite <- V2. assert (W : INR (S (S m)) - 1 = INR (S m)) by (rewrite (S_INR (S m)); ring). rewrite W. split.
  - intros H. split; [lia|]. apply Rmult_le_compat_r; [lra|]. nra.
  - intros [_ H].
    apply Rmult_le_reg_r in H; [|exact Q]. nra.
Qed.
End Checks.

Lemma guardrail_acceptable : forall e s, good e s -> (guardrail (run_all_critical_checks e s) = Ok tt <-> acceptable e s).
Proof.
  intros e s Hg. rewrite guardrail_iff. unfold run_all_critical_checks, run_checks.
  cbn [kpi_invariability multicollinearity pairwise_correlation].
  destruct (corr_error e s Hg) as (oc & Ec & Hc). destruct (vif_error e s Hg) as (ov & Ev & Hv).
  rewrite Ec, Ev. cbn [guarded]. rewrite Hc, Hv. unfold check_kpi. cbn [guarded]. unfold has_error. cbn [o_findings].
  rewrite err_or_info. pose proof (kpi_iff e s Hg) as K. unfold acceptable. rewrite <- K. split.
  - intros (A & B & C). split; [destruct (kpi_varies e s); [reflexivity|tauto]|]. split.
    + intros i j Hij H. apply C. eauto.
    + intros v xs H1 H2 H3 H4. apply B. eauto 10.
  - intros (A & B & C). split; [rewrite A; discriminate|]. split.
    + intros (v & xs & H1 & H2 & H3 & H4). exact (C v xs H1 H2 H3 H4).
    + intros (i & j & H1 & H2). exact (B i j H1 H2).
Qed.

(** ** Consequences *)
Lemma total_cells : forall G T f g, (forall a b, (a < G)%nat -> (b < T)%nat -> f a b = g a b) -> total G T f = total G T g.
Proof. intros G T f g H. unfold total. apply rsum_ext. intros. apply rsum_ext. intros. apply H; assumption. Qed.
Lemma total_affine : forall G T x a b, total G T (fun g t => a * x g t + b) = a * total G T x + b * (INR G * INR T).
Proof.
  intros. unfold total. rewrite <- rsum_scal. rewrite (rsum_ext G (fun g => rsum T (fun t => a * x g t + b)) (fun g => a * rsum T (fun t => x g t) + INR T * b)).
  - rewrite rsum_plus, rsum_const. ring.
  - intros g _. rewrite (rsum_plus T (fun t => a * x g t) (fun _ => b)), rsum_scal, rsum_const. reflexivity.
Qed.
Lemma total_scal : forall G T x a, total G T (fun g t => a * x g t) = a * total G T x.
Proof. intros. rewrite (total_ext G T _ (fun g t => a * x g t + 0)) by (intros; ring). rewrite total_affine. ring. Qed.
Lemma average_affine : forall G T x y a b, (0 < G)%nat -> (0 < T)%nat ->
  (forall g t, (g < G)%nat -> (t < T)%nat -> y g t = a * x g t + b) -> average G T y = a * average G T x + b.
Proof.
  intros G T x y a b HG HT H. unfold average. rewrite (total_cells G T y (fun g t => a * x g t + b) H), total_affine.
  assert (0 < INR G) by (apply lt_0_INR; assumption). assert (0 < INR T) by (apply lt_0_INR; assumption). field. lra.
Qed.
Lemma sxy_affine : forall G T x x' y y' a b c d, (0 < G)%nat -> (0 < T)%nat ->
  (forall g t, (g < G)%nat -> (t < T)%nat -> x' g t = a * x g t + b) ->
  (forall g t, (g < G)%nat -> (t < T)%nat -> y' g t = c * y g t + d) ->
  sxy G T x' y' = a * c * sxy G T x y.
Proof.
  intros G T x x' y y' a b c d HG HT Hx Hy. unfold sxy.
  rewrite (average_affine G T x x' a b HG HT Hx), (average_affine G T y y' c d HG HT Hy).
  rewrite <- total_scal. apply total_cells. intros g t Hg Ht. rewrite Hx, Hy by assumption. ring.
Qed.
Lemma sxy_nonneg : forall G T x, 0 <= sxy G T x x.
Proof. intros. unfold sxy, total. apply rsum_nonneg. intros g _. apply rsum_nonneg. intros t _. apply Rle_0_sqr. Qed.
Lemma sxy_zero : forall G T x, sxy G T x x = 0 -> forall g t, (g < G)%nat -> (t < T)%nat -> x g t = average G T x.
Proof.
  intros G T x H g t Hg Ht. unfold sxy, total in H.
  assert (A : rsum T (fun t => (x g t - average G T x) * (x g t - average G T x)) = 0).
  { apply (rsum_zero_nonneg G (fun g => rsum T (fun t => (x g t - average G T x) * (x g t - average G T x)))); auto.
    intros. apply rsum_nonneg. intros. apply Rle_0_sqr. }
  assert (B : (x g t - average G T x) * (x g t - average G T x) = 0).
  { apply (rsum_zero_nonneg T (fun t => (x g t - average G T x) * (x g t - average G T x))); auto. intros. apply Rle_0_sqr. }
  apply Rsqr_eq_0 in B. lra.
Qed.
Lemma sxy_pos : forall G T x, not_constant G T x -> 0 < sxy G T x x.
Proof.
  intros G T x (g & t & g' & t' & Hg & Ht & Hg' & Ht' & N). pose proof (sxy_nonneg G T x) as P.
  destruct (Req_dec (sxy G T x x) 0) as [Z|Z]; [|lra]. exfalso. apply N.
  rewrite (sxy_zero G T x Z g t Hg Ht), (sxy_zero G T x Z g' t' Hg' Ht'). reflexivity.
Qed.
Lemma line_correlated : forall G T c x y, (0 < G)%nat -> (0 < T)%nat -> 0 <= c < 1 -> not_constant G T x -> proportional G T x y ->
  correlated_above G T c x y.
Proof.
  intros G T c x y HG HT Hc N (a & b & Ha & H). unfold correlated_above.
  assert (Ix : forall g t, (g < G)%nat -> (t < T)%nat -> x g t = 1 * x g t + 0) by (intros; ring).
  rewrite (sxy_affine G T x x x y 1 0 a b HG HT Ix H), (sxy_affine G T x y x y a b a b HG HT H H).
  pose proof (sxy_pos G T x N) as P. set (q := sxy G T x x) in *.
  assert (A2 : 0 < a ^ 2 * q ^ 2) by (apply Rmult_lt_0_compat; [nra|nra]).
  replace (c ^ 2 * (q * (a * a * q))) with (c ^ 2 * (a ^ 2 * q ^ 2)) by ring.
  replace ((1 * a * q) ^ 2) with (1 * (a ^ 2 * q ^ 2)) by ring.
  apply Rmult_lt_compat_r; [exact A2|]. nra.
Qed.
Lemma never_above_one : forall G T c x y, (0 < T)%nat -> (0 < G)%nat -> 1 <= c -> ~ correlated_above G T c x y.
Proof.
  intros G T c x y HT HG Hc H. unfold correlated_above in H.
  assert (HS : forall f : variable, rsum (G * T) (fun i => f (i / T)%nat (i mod T)%nat) = total G T f) by (intros f; apply total_flat; exact HT).
  assert (SZ : INR (G * T) = INR G * INR T) by apply mult_INR.
  pose proof (s2_emb (G * T) G T _ _ SZ HS x y) as E1. pose proof (s2_emb (G * T) G T _ _ SZ HS x x) as E2. pose proof (s2_emb (G * T) G T _ _ SZ HS y y) as E3.
  rewrite <- E1, <- E2, <- E3 in H. unfold s2 in H.
  match type of H with _ * (dot ?n ?a ?a * dot ?n ?b ?b) < _ => pose proof (cauchy_schwarz n a b) as CS; pose proof (dot_nonneg n a); pose proof (dot_nonneg n b) end.
  assert (1 <= c ^ 2) by nra. nra.
Qed.
Lemma determined_inflated : forall G T c xs y, 0 < sxy G T y y -> determined G T xs y -> inflated_above G T c xs y.
Proof.
  intros G T c xs y P (b & cs & L & H). exists 0. split; [|rewrite Rmult_0_r; exact P]. split.
  - exists b, cs. split; [exact L|]. unfold squared_error. unfold total. apply rsum_zero. intros g Hg. apply rsum_zero. intros t Ht.
    rewrite H by assumption. ring.
  - intros b' cs' _. unfold squared_error, total. apply rsum_nonneg. intros g _. apply rsum_nonneg. intros t _. apply pow2_ge_0.
Qed.

Lemma s2_affine : forall n x y a b c d, (0 < n)%nat -> s2 n (fun i => a * x i + b) (fun i => c * y i + d) = a * c * s2 n x y.
Proof.
  intros n x y a b c d Hn. assert (N : INR n <> 0) by (apply not_0_INR; lia).
  assert (M : forall z k l, mean n (fun i => k * z i + l) = k * mean n z + l).
  { intros z k l. unfold mean. rewrite rsum_plus, rsum_scal, rsum_const. field. exact N. }
  unfold s2, dot, deviation. rewrite !M, <- rsum_scal. apply rsum_ext. intros i _. ring.
Qed.
Lemma extreme_affine : forall n thr x y a b c d, (0 < n)%nat -> 0 <= thr -> a <> 0 -> c <> 0 ->
  extreme n thr (fun i => a * x i + b) (fun i => c * y i + d) = extreme n thr x y.
Proof.
  intros n thr x y a b c d Hn Ht Ha Hc. apply eq_true_iff_eq. rewrite !extreme_iff by assumption. rewrite !s2_affine by assumption.
  assert (P : 0 < (a * c) ^ 2) by (assert (a * c <> 0) by (apply Rmult_integral_contrapositive; auto); nra).
  replace (thr ^ 2 * (a * a * s2 n x x * (c * c * s2 n y y))) with ((a * c) ^ 2 * (thr ^ 2 * (s2 n x x * s2 n y y))) by ring.
  replace ((a * c * s2 n x y) ^ 2) with ((a * c) ^ 2 * s2 n x y ^ 2) by ring.
  split; intros H; [apply Rmult_lt_reg_l in H; auto|apply Rmult_lt_compat_l; auto].
Qed.
Lemma extreme_pairs_affine : forall n m x thr a b, (0 < n)%nat -> 0 <= thr -> (forall v, a v <> 0) ->
  extreme_pairs n m (fun v i => a v * x v i + b v) thr = extreme_pairs n m x thr.
Proof. intros. unfold extreme_pairs. apply filter_ext. intros [i j]. apply extreme_affine; auto. Qed.

Lemma corr_rescaled : forall a b e s, good e s -> (forall v, a v <> 0) -> check_corr (rescaled a b e) s = check_corr e s.
Proof.
  intros a b e s Hg Ha. pose proof (gd_geos _ _ Hg). pose proof (gd_times _ _ Hg). destruct (gd_corr _ _ Hg) as (C1 & C2 & C3).
  unfold check_corr, check_national_corr, check_geo_corr.
  change (en_national (rescaled a b e)) with (en_national e). change (en_geos (rescaled a b e)) with (en_geos e).
  change (en_times (rescaled a b e)) with (en_times e). change (en_vars (rescaled a b e)) with (en_vars e).
  change (national_cells (rescaled a b e)) with (fun v i => a v * national_cells e v i + b v).
  change (all_cells (rescaled a b e)) with (fun v i => a v * all_cells e v i + b v).
  rewrite !extreme_pairs_affine by (auto; try nia; lra).
  assert (E : flat_map (fun g => map (fun p => (g, p)) (extreme_pairs (en_times e) (en_vars e) (geo_cells (rescaled a b e) g) (th_corr_geo s))) (seq 0 (en_geos e)) =
    flat_map (fun g => map (fun p => (g, p)) (extreme_pairs (en_times e) (en_vars e) (geo_cells e g) (th_corr_geo s))) (seq 0 (en_geos e))).
  { rewrite !flat_map_concat_map. f_equal. apply map_ext. intros g. f_equal.
    change (geo_cells (rescaled a b e) g) with (fun v i => a v * geo_cells e g v i + b v). apply extreme_pairs_affine; auto; lia. }
  rewrite E. reflexivity.
Qed.

(** The shape of the findings. *)
Lemma shape_one : forall b c, well_shaped (if negb b then [(Error, c)] else [(Info, NoCause)]).
Proof.
  intros [] c; cbn; (split; [discriminate|split; [repeat constructor; intros []|]]); intros f [<-|[]] E; [reflexivity|discriminate].
Qed.
Lemma shape_two : forall b b', well_shaped (or_info (when (negb b) (Error, Multicollinearity) ++ when (negb b') (Attention, Multicollinearity))).
Proof.
  intros [] []; cbn.
  - apply (shape_one true NoCause).
  - split; [discriminate|split; [repeat constructor; intros []|]]. intros f [<-|[]] E. discriminate.
  - split; [discriminate|split; [repeat constructor; intros []|]]. intros f [<-|[]] E. discriminate.
  - split; [discriminate|split].
    + constructor; [intros [H|[]]; discriminate|]. repeat constructor. intros [].
    + intros f [<-|[<-|[]]] E; discriminate.
Qed.
Lemma shape_all : forall e s, let o := run_all_critical_checks e s in
  well_shaped (o_findings (kpi_invariability o)) /\ well_shaped (o_findings (multicollinearity o)) /\ well_shaped (o_findings (pairwise_correlation o)).
Proof.
  intros e s o. unfold o, run_all_critical_checks, run_checks. cbn [kpi_invariability multicollinearity pairwise_correlation].
  unfold check_kpi, check_vif, check_corr, check_national_vif, check_national_corr, check_geo_vif, check_geo_corr. cbn [guarded].
  split; [apply shape_one|]. destruct (en_national e); cbn [raise_if guarded o_findings]; split; try apply shape_one; apply shape_two.
Qed.
Lemma attention_two : forall b b', In (Attention, Multicollinearity) (or_info (when (negb b) (Error, Multicollinearity) ++ when (negb b') (Attention, Multicollinearity))) <-> b' = false.
Proof. intros [] []; cbn; split; intros H; auto; try discriminate; repeat (destruct H as [H|H]; try discriminate); try contradiction. Qed.
Lemma same_pair_iff : forall l p, existsb (same_pair p) l = true <-> In p l.
Proof.
  intros l [i j]. rewrite existsb_exists. unfold same_pair. split.
  - intros ([a b] & H & E). cbn in E. apply andb_true_iff in E. rewrite !Nat.eqb_eq in E. destruct E as [-> ->]. exact H.
  - intros H. exists (i, j). split; [exact H|]. cbn. rewrite !Nat.eqb_refl. reflexivity.
Qed.
Lemma attention_corr : forall e s o, good e s -> en_national e = false -> check_corr e s = Ok o ->
  (In (Attention, Multicollinearity) (o_findings o) <->
   exists g i j, (g < en_geos e)%nat /\ (i < j < en_vars e)%nat /\
     correlated_above 1 (en_times e) (th_corr_geo s) (fun _ => en_data e i g) (fun _ => en_data e j g) /\
     ~ correlated_above (en_geos e) (en_times e) (th_corr_overall s) (en_data e i) (en_data e j)).
Proof.
  intros e s o Hg N E. destruct (gd_corr _ _ Hg) as (C1 & C2 & C3). unfold check_corr, check_geo_corr in E. rewrite N in E. cbn [raise_if] in E.
  match type of E with Ok ?x = _ => assert (E' : x = o) by congruence end. rewrite <- E'. cbn [o_findings].
  rewrite attention_two, not_empty. split.
  - intros [[g [i j]] H]. rewrite filter_In in H. cbn [snd] in H. destruct H as [H H2]. apply in_flat_map in H. destruct H as (g' & Hg' & H).
    apply in_map_iff in H. destruct H as ([i' j'] & Ep & H). injection Ep as -> -> ->. apply in_seq in Hg'.
    apply (single_pairs e s Hg) in H; [|exact C2]. destruct H as [Hij Hc]. exists g, i, j. split; [lia|]. split; [exact Hij|]. split; [exact Hc|].
    intros Ho. apply negb_true_iff in H2. rewrite <- not_true_iff_false, same_pair_iff in H2. apply H2.
    apply (overall_pairs e s Hg); auto.
  - intros (g & i & j & Hgg & Hij & Hc & Ho). exists (g, (i, j)). rewrite filter_In. cbn [snd]. split.
    + apply in_flat_map. exists g. split; [apply in_seq; lia|]. apply in_map_iff. exists (i, j). split; [reflexivity|].
      apply (single_pairs e s Hg); auto.
    + apply negb_true_iff. rewrite <- not_true_iff_false, same_pair_iff. intros H. apply (overall_pairs e s Hg) in H; [|exact C1]. tauto.
Qed.
Lemma attention_vif : forall e s o, good e s -> en_national e = false -> check_vif e s = Ok o ->
  (In (Attention, Multicollinearity) (o_findings o) <->
   exists g v xs, (g < en_geos e)%nat /\ (v < en_vars e)%nat /\ varies_by 1 (en_times e) (th_vif_std s) (fun _ => en_data e v g) /\
     others 1 (en_times e) (th_vif_std s) (en_vars e) (fun w _ => en_data e w g) v xs /\
     inflated_above 1 (en_times e) (th_vif_geo s) xs (fun _ => en_data e v g) /\
     ~ (varies_by (en_geos e) (en_times e) (th_vif_std s) (en_data e v) /\
        exists ys, others (en_geos e) (en_times e) (th_vif_std s) (en_vars e) (en_data e) v ys /\
          inflated_above (en_geos e) (en_times e) (th_vif_overall s) ys (en_data e v))).
Proof.
  intros e s o Hg N E. destruct (gd_vif _ _ Hg) as (C1 & C2 & C3). unfold check_vif, check_geo_vif in E. rewrite N in E. cbn [raise_if] in E.
  match type of E with Ok ?x = _ => assert (E' : x = o) by congruence end. rewrite <- E'. cbn [o_findings].
  rewrite attention_two, not_empty.
  assert (EX : forall v l, existsb (Nat.eqb v) l = true <-> In v l).
  { intros v l. rewrite existsb_exists. split; [intros (w & H & W); apply Nat.eqb_eq in W; subst; exact H|intros H; exists v; split; [exact H|apply Nat.eqb_refl]]. }
  split.
  - intros [[g v] H]. rewrite filter_In in H. cbn [snd] in H. destruct H as [H H2]. apply in_flat_map in H. destruct H as (g' & Hg' & H).
    apply in_map_iff in H. destruct H as (v' & Ep & H). injection Ep as -> ->. apply in_seq in Hg'.
    apply (single_vifs e s Hg) in H; [|exact C2]. destruct H as (Hv & Hvar & xs & Hxs & Hi).
    exists g, v, xs. split; [lia|]. repeat (split; [assumption|]).
    intros (Hvo & ys & Hys & Ho). apply negb_true_iff in H2. rewrite <- not_true_iff_false, EX in H2. apply H2.
    apply (overall_vifs e s Hg); eauto.
  - intros (g & v & xs & Hgg & Hv & Hvar & Hxs & Hi & Ho). exists (g, v). rewrite filter_In. cbn [snd]. split.
    + apply in_flat_map. exists g. split; [apply in_seq; lia|]. apply in_map_iff. exists v. split; [reflexivity|].
      apply (single_vifs e s Hg); eauto.
    + apply negb_true_iff. rewrite <- not_true_iff_false, EX. intros H. apply (overall_vifs e s Hg) in H; [|exact C1]. tauto.
Qed.
