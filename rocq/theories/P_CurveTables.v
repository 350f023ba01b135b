(** Proofs about the adstock decay table. *)
From Coq Require Import String Reals ZArith List Bool Arith Lra Lia.
From Verif Require Import Lib_Sum Lib_Pow M_Base M_AdstockHill M_Equations M_Transformers M_Analyzer M_Stats
  M_CurveTables S_Adstock S_Stats S_Transformers S_CurveTables P_Adstock P_Stats.
Import ListNotations.
Local Open Scope R_scope.

(** *** Lists of results *)
Lemma collect_in : forall {A} (l : list (result A)) vs, collect l = Ok vs ->
  forall v, In v vs <-> In (Ok v) l.
Proof.
  induction l as [|a l IH]; intros vs H v; cbn [collect] in H.
  - injection H as <-. reflexivity.
  - destruct a as [b|e]; [|discriminate]. cbn [rbind] in H.
    destruct (collect l) as [bs|e] eqn:E; [|discriminate]. cbn [rbind] in H. injection H as <-.
    cbn [In]. rewrite (IH bs eq_refl v). split; intros [H|H]; auto; left; congruence.
Qed.
Lemma collect_all : forall {A} (l : list (result A)) vs, collect l = Ok vs -> l = map Ok vs.
Proof.
  induction l as [|a l IH]; intros vs H; cbn [collect] in H.
  - injection H as <-. reflexivity.
  - destruct a as [b|e]; [|discriminate]. cbn [rbind] in H.
    destruct (collect l) as [bs|e] eqn:E; [|discriminate]. cbn [rbind] in H. injection H as <-.
    cbn [map]. f_equal. apply IH. reflexivity.
Qed.
Lemma collect_map_ok : forall {A B} (f : A -> B) l, collect (map (fun a => Ok (f a)) l) = Ok (map f l).
Proof.
  induction l as [|a l IH]; [reflexivity|]. cbn [map collect]. cbn [rbind]. rewrite IH. reflexivity.
Qed.
Lemma collect_ext : forall {A} (l l' : list (result A)), l = l' -> collect l = collect l'.
Proof. intros; subst; reflexivity. Qed.
Lemma collect_runs : forall {A} (l : list (result A)), (forall a, In a l -> exists v, a = Ok v) ->
  exists vs, collect l = Ok vs.
Proof.
  induction l as [|a l IH]; intros H; [exists []; reflexivity|].
  destruct (H a (or_introl eq_refl)) as [v ->]. destruct IH as [vs E]; [intros; apply H; right; assumption|].
  exists (v :: vs). cbn [collect rbind]. rewrite E. reflexivity.
Qed.

Lemma distinct_spec : forall l, distinct l = true <-> NoDup l.
Proof.
  induction l as [|a l IH]; [split; [constructor|reflexivity]|].
  cbn [distinct]. rewrite andb_true_iff, negb_true_iff, IH. split.
  - intros [H1 H2]. constructor; [|assumption]. intros Hin.
    assert (existsb (String.eqb a) l = true) by (apply existsb_exists; exists a; split; [assumption|apply String.eqb_refl]).
    congruence.
  - intros H. inversion H as [|? ? H1 H2]; subst. split; [|assumption].
    destruct (existsb (String.eqb a) l) eqn:E; [|reflexivity]. apply existsb_exists in E.
    destruct E as [b [Hb Eb]]. apply String.eqb_eq in Eb. subst. contradiction.
Qed.

Lemma kind_in : forall k, In k [KMedia; KRf; KOrganicMedia; KOrganicRf].
Proof. intros []; cbn; auto. Qed.

Lemma nodup_app : forall (a b : list string), NoDup (a ++ b) ->
  NoDup a /\ NoDup b /\ (forall s, In s a -> In s b -> False).
Proof.
  induction a as [|v a IH]; intros b H; cbn [app] in H.
  - split; [constructor|]. split; [assumption|]. intros s [].
  - inversion H as [|? ? H1 H2]; subst. destruct (IH b H2) as [A [B C]].
    split; [constructor; [intros Hi; apply H1; apply in_or_app; left; assumption|assumption]|].
    split; [assumption|]. intros s [->|Hs] Hb; [apply H1; apply in_or_app; right; assumption|].
    exact (C s Hs Hb).
Qed.

Lemma names_nodup : forall f k, fitted_curves f -> NoDup (cm_names f k).
Proof.
  intros f k (_ & _ & _ & _ & _ & N & _). cbn [flat_map] in N.
  apply nodup_app in N. destruct N as [N1 [N _]]. apply nodup_app in N. destruct N as [N2 [N _]].
  apply nodup_app in N. destruct N as [N3 [N _]]. apply nodup_app in N. destruct N as [N4 _].
  destruct k; assumption.
Qed.

Lemma kind_unique : forall (names : kind -> list string) k k' name,
  NoDup (flat_map names [KMedia; KRf; KOrganicMedia; KOrganicRf]) ->
  In name (names k) -> In name (names k') -> k = k'.
Proof.
  intros names k k' name N I1 I2. cbn [flat_map] in N.
  apply nodup_app in N. destruct N as [_ [N D1]]. apply nodup_app in N. destruct N as [_ [N D2]].
  apply nodup_app in N. destruct N as [_ [_ D3]].
  assert (D1' : In name (names KMedia) ->
    In name (names KRf) \/ In name (names KOrganicMedia) \/ In name (names KOrganicRf) -> False).
  { intros A B. apply (D1 name A). rewrite !in_app_iff. tauto. }
  assert (D2' : In name (names KRf) -> In name (names KOrganicMedia) \/ In name (names KOrganicRf) -> False).
  { intros A B. apply (D2 name A). rewrite !in_app_iff. tauto. }
  assert (D3' : In name (names KOrganicMedia) -> In name (names KOrganicRf) -> False).
  { intros A B. apply (D3 name A). rewrite !in_app_iff. tauto. }
  destruct k, k'; try reflexivity; exfalso; eauto.
Qed.

(** One name is one channel of one kind. *)
Lemma channel_unique : forall f k c k' c' name, fitted_curves f ->
  is_channel f k c name -> is_channel f k' c' name -> k = k' /\ c = c'.
Proof.
  intros f k c k' c' name Hf [Hc Hn] [Hc' Hn'].
  assert (K : k = k').
  { destruct Hf as (_ & _ & _ & _ & _ & N & _).
    exact (kind_unique (cm_names f) k k' name N (nth_error_In _ _ Hn) (nth_error_In _ _ Hn')). }
  subst k'. split; [reflexivity|].
  pose proof (names_nodup f k Hf) as N. rewrite NoDup_nth_error in N.
  apply N; [|congruence]. apply nth_error_Some. congruence.
Qed.

(** *** The range of lags *)
Lemma steps_pos : forall m, (0 <= m <= 1000)%Z -> (1 <= steps_per_period m <= 5)%Z.
Proof.
  intros m H. unfold steps_per_period, DEFAULT_STEPS, MAX_TOTAL_STEPS.
  assert (1 <= 1000 / Z.max m 1)%Z by (apply Z.div_le_lower_bound; lia). lia.
Qed.
Lemma steps_zero : forall m, (1000 < m)%Z -> steps_per_period m = 0%Z.
Proof.
  intros m H. unfold steps_per_period, DEFAULT_STEPS, MAX_TOTAL_STEPS.
  rewrite (Z.div_small 1000 (Z.max m 1)) by lia. reflexivity.
Qed.
Lemma lag_range_ok : forall m, (0 <= m <= 1000)%Z -> exists lags, lag_range m = Ok lags /\ lags <> [].
Proof.
  intros m H. pose proof (steps_pos m H) as S. unfold lag_range.
  destruct (steps_per_period m =? 0)%Z eqn:E; [apply Z.eqb_eq in E; lia|].
  eexists. split; [reflexivity|]. intros N. apply (f_equal (@length R)) in N.
  rewrite map_length, seq_length in N. cbn [length] in N. nia.
Qed.
Lemma lag_range_err : forall m, (1000 < m)%Z -> lag_range m = Err ZeroDivisionError.
Proof. intros m H. unfold lag_range. rewrite (steps_zero m H). reflexivity. Qed.

Lemma lag_range_inv : forall m lags, lag_range m = Ok lags -> (0 <= m)%Z ->
  exists steps, (0 < steps)%nat /\
    lags = map (fun i => INR i / INR steps) (seq 0 (Z.to_nat (Z.max m 1) * steps)).
Proof.
  intros m lags H Hm. assert (m <= 1000)%Z.
  { destruct (Z_le_gt_dec m 1000) as [L|G]; [assumption|]. rewrite lag_range_err in H by lia. discriminate. }
  pose proof (steps_pos m ltac:(lia)) as S. unfold lag_range in H.
  destruct (steps_per_period m =? 0)%Z eqn:E; [apply Z.eqb_eq in E; lia|].
  injection H as <-. exists (Z.to_nat (steps_per_period m)). split; [lia|].
  rewrite Z2Nat.inj_mul by lia. apply map_ext. intros i. rewrite (INR_IZR_INZ (Z.to_nat _)), Z2Nat.id by lia.
  reflexivity.
Qed.
Lemma in_lags : forall m lags, lag_range m = Ok lags -> (0 <= m)%Z ->
  forall l, In l lags -> 0 <= l < INR (Z.to_nat (Z.max m 1)) /\
    exists steps i, (0 < steps)%nat /\ l = INR i / INR steps.
Proof.
  intros m lags H Hm l Hl. destruct (lag_range_inv m lags H Hm) as [s [Hs ->]].
  apply in_map_iff in Hl. destruct Hl as [i [<- Hi]]. apply in_seq in Hi.
  assert (Hs' : 0 < INR s) by (apply lt_0_INR; assumption).
  split; [|exists s, i; auto]. split.
  - apply Rmult_le_pos; [apply pos_INR|left; apply Rinv_0_lt_compat; assumption].
  - apply Rmult_lt_reg_r with (INR s); [assumption|]. unfold Rdiv. rewrite Rmult_assoc, Rinv_l by lra.
    rewrite Rmult_1_r, <- mult_INR. apply lt_INR. lia.
Qed.
Lemma whole_in_lags : forall m lags, lag_range m = Ok lags -> (0 <= m)%Z ->
  forall n, (n < Z.to_nat (Z.max m 1))%nat -> In (INR n) lags.
Proof.
  intros m lags H Hm n Hn. destruct (lag_range_inv m lags H Hm) as [s [Hs ->]].
  apply in_map_iff. exists (n * s)%nat. assert (Hs' : 0 < INR s) by (apply lt_0_INR; assumption). split.
  - rewrite mult_INR. field. lra.
  - apply in_seq. nia.
Qed.
Lemma is_integer_spec : forall v, 0 <= v -> (is_integer v = true <-> exists n : nat, v = INR n).
Proof.
  intros v Hv. unfold is_integer. split.
  - destruct (Req_EM_T v (IZR (Int_part v))) as [E|E]; [|discriminate]. intros _.
    exists (Z.to_nat (Int_part v)). rewrite int_part_nat by assumption. exact E.
  - intros [n ->]. destruct (Req_EM_T (INR n) (IZR (Int_part (INR n)))) as [E|E]; [reflexivity|].
    exfalso. apply E. replace (INR n) with (INR n + 0) at 2 by lra. rewrite int_part_INR by lra.
    apply INR_IZR_INZ.
Qed.

(** *** The effect at a lag *)
Lemma decay_at_spec : forall d a W l, recognised d -> 0 <= a <= 1 -> (0 < W)%nat -> 0 <= l < INR W ->
  decay_at (is_binomial d) a W l = Some (left_after d a W l).
Proof.
  intros d a W l Hd Ha HW Hl.
  assert (HW' : 0 < INR W) by (apply lt_0_INR; assumption).
  assert (Hq : 0 <= l / INR W < 1).
  { split; [apply Rmult_le_pos; [lra|left; apply Rinv_0_lt_compat; assumption]|].
    apply Rmult_lt_reg_r with (INR W); [assumption|]. unfold Rdiv. rewrite Rmult_assoc, Rinv_l by lra. lra. }
  destruct Hd as [->| ->]; cbn [is_binomial]; unfold decay_at, left_after; [reflexivity|].
  unfold map_alpha_for_binomial_decay. destruct (Req_EM_T a 0) as [Z|Z]; unfold float_power.
  - rewrite Rabs_pos_eq by lra. destruct (Req_EM_T l 0) as [L|L].
    + subst l. destruct (Req_EM_T (1 - 0 / INR W) 1) as [E|E]; [reflexivity|].
      exfalso. apply E. unfold Rdiv. lra.
    + destruct (Req_EM_T (1 - l / INR W) 1) as [E|E].
      * exfalso. apply L. assert (l / INR W = 0) by lra.
        replace l with (l / INR W * INR W) by (field; lra). rewrite H. lra.
      * destruct (Rlt_dec (1 - l / INR W) 1) as [G|G]; [reflexivity|]. exfalso. apply G. lra.
  - destruct (Rlt_dec (1 - l / INR W) 0) as [G|G]; [lra|]. reflexivity.
Qed.

Lemma left_after_whole : forall d a W j, recognised d -> 0 <= a <= 1 -> (j < W)%nat ->
  left_after d a W (INR j) = documented_weight d a W j / documented_weight d a W 0.
Proof.
  intros d a W j Hd Ha Hj.
  assert (E : left_after d a W (INR j) = documented_decay d a W j).
  { destruct Hd as [->| ->]; unfold left_after, documented_decay.
    - apply rpow_INR. lra.
    - destruct (Req_EM_T a 0) as [Z|Z]; [|reflexivity].
      destruct (Req_EM_T (INR j) 0) as [J|J].
      + apply (INR_eq j 0) in J. subst j. reflexivity.
      + destruct j; [exfalso; apply J; reflexivity|reflexivity]. }
  rewrite E. unfold documented_weight. rewrite (documented_decay_0 d a W Hd ltac:(lia)).
  pose proof (documented_total_pos d a W Hd Ha ltac:(lia)) as P.
  set (T := rsum W (documented_decay d a W)) in *. clearbody T. field. lra.
Qed.

Lemma left_after_zero : forall d a W, recognised d -> (0 < W)%nat -> left_after d a W 0 = 1.
Proof.
  intros d a W Hd HW. destruct Hd as [->| ->]; unfold left_after.
  - apply rpow_0_r.
  - destruct (Req_EM_T a 0) as [Z|Z]; [destruct (Req_EM_T 0 0); [reflexivity|congruence]|].
    replace (1 - 0 / INR W) with 1 by (unfold Rdiv; lra). apply rpow_1_l.
Qed.

Lemma rpow_anti : forall a l l', 0 <= a <= 1 -> 0 <= l -> l <= l' -> rpow a l' <= rpow a l.
Proof.
  intros a l l' Ha Hl Hll. destruct (Req_EM_T l l') as [->|N]; [lra|].
  destruct (Req_EM_T a 0) as [->|Z].
  - rewrite (rpow_0_l l') by lra. apply rpow_nonneg. lra.
  - rewrite !rpow_pos_base by lra. unfold Rpower.
    assert (L : ln a <= 0).
    { destruct (Req_EM_T a 1) as [->|U]; [rewrite ln_1; lra|]. left. rewrite <- ln_1. apply ln_increasing; lra. }
    assert (M : l' * ln a <= l * ln a) by nra.
    destruct M as [M|M]; [left; apply exp_increasing; exact M|rewrite M; lra].
Qed.

Lemma left_after_anti : forall d a W l l', recognised d -> 0 <= a <= 1 -> 0 <= l -> l <= l' -> l' < INR W ->
  left_after d a W l' <= left_after d a W l.
Proof.
  intros d a W l l' Hd Ha Hl Hll Hl'.
  assert (HW' : 0 < INR W) by lra.
  destruct Hd as [->| ->]; unfold left_after; [apply rpow_anti; assumption|].
  destruct (Req_EM_T a 0) as [Z|Z].
  - destruct (Req_EM_T l 0), (Req_EM_T l' 0); lra.
  - assert (I : 0 < / INR W) by (apply Rinv_0_lt_compat; assumption).
    assert (Q : l / INR W <= l' / INR W) by (unfold Rdiv; apply Rmult_le_compat_r; lra).
    assert (Q' : l' / INR W < 1).
    { apply Rmult_lt_reg_r with (INR W); [assumption|]. unfold Rdiv. rewrite Rmult_assoc, Rinv_l by lra. lra. }
    apply rpow_le; [lra|lra|]. assert (1 <= / a) by (rewrite <- Rinv_1; apply Rinv_le_contravar; lra).
    unfold Rdiv. lra.
Qed.
Lemma left_after_nonneg : forall d a W l, recognised d -> 0 <= a <= 1 -> 0 <= l < INR W -> 0 <= left_after d a W l.
Proof.
  intros d a W l Hd Ha Hl. destruct Hd as [->| ->]; unfold left_after; [apply rpow_nonneg; lra|].
  destruct (Req_EM_T a 0) as [Z|Z]; [destruct (Req_EM_T l 0); lra|].
  apply rpow_nonneg. assert (l / INR W < 1).
  { apply Rmult_lt_reg_r with (INR W); [lra|]. unfold Rdiv. rewrite Rmult_assoc, Rinv_l by lra. lra. }
  lra.
Qed.
Lemma left_after_range : forall d a W l, recognised d -> 0 <= a <= 1 -> 0 <= l < INR W ->
  0 <= left_after d a W l <= 1.
Proof.
  intros d a W l Hd Ha Hl. split; [apply left_after_nonneg; assumption|].
  assert (HW : (0 < W)%nat) by (apply INR_lt; cbn [INR]; lra).
  rewrite <- (left_after_zero d a W Hd HW). apply left_after_anti; try assumption; lra.
Qed.

(** *** The decay functions of a kind *)
Lemma decay_effects_spec : forall n W df, decay_ok df n ->
  exists b, (forall alpha, decay_effects n alpha W df = Ok (fun c l => decay_at (b c) (alpha c) W l)) /\
    forall c, (c < n)%nat -> exists d, assigned_decay df n c = Some d /\ recognised d /\ b c = is_binomial d.
Proof.
  intros n W df Hok. destruct df as [d|ds]; unfold decay_effects, decay_ok, assigned_decay in *.
  - exists (fun _ => is_binomial d). split.
    + intros al. destruct Hok as [->| ->]; reflexivity.
    + intros c _. exists d. auto.
  - destruct Hok as [Hlen Hall]. destruct (Nat.eqb (length ds) n) eqn:E.
    + apply Nat.eqb_eq in E. exists (fun c => is_binomial (nth c ds OtherDecay)). split; [reflexivity|].
      intros c Hc. destruct (nth_error ds c) as [d|] eqn:En; [|apply nth_error_None in En; lia].
      exists d. split; [reflexivity|]. split.
      * rewrite Forall_forall in Hall. apply Hall. eapply nth_error_In; eassumption.
      * rewrite (nth_error_nth ds c OtherDecay En). reflexivity.
    + apply Nat.eqb_neq in E. destruct Hlen as [Hlen|Hlen]; [congruence|].
      destruct ds as [|d [|]]; cbn [length] in Hlen; try lia.
      exists (fun _ => is_binomial d). split; [reflexivity|]. intros c _. exists d.
      inversion Hall; subst. auto.
Qed.

(** *** Summaries of draws that are all finite *)
Lemma summarise_some : forall level l, summarise_draws level (map Some l) =
  rbind (central_tendency_and_ci level l) (fun s => Ok (Some s)).
Proof.
  intros level l. unfold summarise_draws. rewrite map_map, map_id.
  assert (E : forallb is_some (map Some l) = true) by (apply forallb_forall; intros o Ho; apply in_map_iff in Ho;
    destruct Ho as [v [<- _]]; reflexivity).
  rewrite E. reflexivity.
Qed.

Lemma summarise_level : forall level l o, summarise_draws level l = Ok o -> -1 <= level <= 1.
Proof.
  intros level l o H. unfold summarise_draws in H.
  destruct (central_tendency_and_ci level _) as [s|] eqn:E; [|discriminate].
  exact (proj1 (level_refused _ _ _ E)).
Qed.

Lemma draws_some : forall f (post : bool), fitted_curves f -> exists l, (if post then cm_posterior f else cm_prior f) = Some l /\
  draws_of f post = l /\ l <> [].
Proof.
  intros f post (P & Q & _). unfold draws_of. destruct post.
  - destruct Q as [l [E N]]. exists l. rewrite E. auto.
  - destruct P as [l [E N]]. exists l. rewrite E. auto.
Qed.

(** *** Rows of one kind *)
Definition row_of (f : curve_model) (k : kind) (lags : list R) (level : R) (b : nat -> bool) (r : decay_row) : Prop :=
  exists c, is_channel f k c (dr_channel r) /\ In (dr_time r) lags /\ dr_is_int r = is_integer (dr_time r) /\
    summarise_draws level (map (fun w => decay_at (b c) (p_alpha (kind_params k w) c) (model_window f) (dr_time r))
                             (draws_of f (dr_posterior r))) = Ok (dr_stats r).

Lemma decay_rows_spec : forall f prior posterior lags level k, fitted_curves f ->
  cm_prior f = Some prior -> cm_posterior f = Some posterior -> (0 < kind_channels k (cm_x f))%nat ->
  exists b, (forall c, (c < kind_channels k (cm_x f))%nat ->
      exists d, assigned_decay (kind_decay k (cm_x f)) (kind_channels k (cm_x f)) c = Some d /\ recognised d /\ b c = is_binomial d) /\
    (forall rows, decay_rows f prior posterior lags level k = Ok rows ->
       forall r, In r rows <-> row_of f k lags level b r) /\
    ((forall (c : nat) (l : R) post, (c < kind_channels k (cm_x f))%nat -> In l lags ->
        exists s, summarise_draws level (map (fun w => decay_at (b c) (p_alpha (kind_params k w) c) (model_window f) l)
                             (draws_of f post)) = Ok s) ->
     exists rows, decay_rows f prior posterior lags level k = Ok rows).
Proof.
  intros f prior posterior lags level k Hf Hp Hq Hn.
  pose proof (names_nodup f k Hf) as ND. apply distinct_spec in ND.
  assert (Hlen : length (cm_names f k) = kind_channels k (cm_x f)) by (destruct Hf as (_ & _ & _ & _ & L & _); apply L).
  assert (Hok : decay_ok (kind_decay k (cm_x f)) (kind_channels k (cm_x f)))
    by (destruct Hf as (_ & _ & _ & _ & _ & _ & D & _); apply D; assumption).
  destruct (decay_effects_spec _ (model_window f) _ Hok) as [b [Eb Hb]].
  exists b. split; [exact Hb|].
  set (n := kind_channels k (cm_x f)) in *. set (names := cm_names f k) in *.
  assert (D : decay_rows f prior posterior lags level k =
    collect (flat_map (fun c => flat_map (fun l => map (fun post : bool =>
      rbind (summarise_draws level (map (fun w => decay_at (b c) (p_alpha (kind_params k w) c) (model_window f) l)
                             (draws_of f post))) (fun s =>
      Ok (mkDecayRow (nth c names EmptyString) l post s (is_integer l)))) [true; false])
    lags) (seq 0 n))).
  { unfold decay_rows. fold n names. fold (model_window f).
    destruct (Nat.eqb n 0) eqn:E; [apply Nat.eqb_eq in E; lia|].
    assert (EF : forall ws, collect (map (fun w => decay_effects n (p_alpha (kind_params k w)) (model_window f) (kind_decay k (cm_x f))) ws)
      = Ok (map (fun w c l => decay_at (b c) (p_alpha (kind_params k w) c) (model_window f) l) ws)).
    { intros ws. rewrite <- collect_map_ok. apply collect_ext. apply map_ext. intros w. apply Eb. }
    rewrite !EF. cbn [rbind]. rewrite Hlen, Nat.eqb_refl, ND. cbn [negb orb raise_if].
    apply collect_ext. apply flat_map_ext. intros c. apply flat_map_ext. intros l.
    cbn [map]. unfold draws_of. rewrite Hp, Hq, !map_map. reflexivity. }
  split.
  - intros rows H r. rewrite D in H. rewrite (collect_in _ _ H r). unfold row_of, is_channel.
    fold n names. rewrite in_flat_map. split.
    + intros [c [Hc Hr]]. apply in_seq in Hc. apply in_flat_map in Hr. destruct Hr as [l [Hl Hr]].
      apply in_map_iff in Hr. destruct Hr as [post [E _]].
      destruct (summarise_draws level _) as [s|] eqn:ES; [|discriminate]. cbn [rbind] in E. injection E as <-.
      exists c. cbn [dr_channel dr_time dr_is_int dr_stats dr_posterior]. split; [split; [lia|]|].
      * apply nth_error_nth'. rewrite Hlen. lia.
      * auto.
    + intros [c [[Hc Hname] [Ht [Hi Hs]]]]. exists c. split; [apply in_seq; lia|].
      apply in_flat_map. exists (dr_time r). split; [assumption|]. apply in_map_iff. exists (dr_posterior r).
      rewrite Hs. cbn [rbind]. split; [|destruct (dr_posterior r); cbn; auto].
      rewrite (nth_error_nth names c EmptyString Hname), <- Hi. destruct r; reflexivity.
  - intros HR. rewrite D. apply collect_runs. intros a Ha. apply in_flat_map in Ha. destruct Ha as [c [Hc Ha]].
    apply in_seq in Hc. apply in_flat_map in Ha. destruct Ha as [l [Hl Ha]]. apply in_map_iff in Ha.
    destruct Ha as [post [<- _]]. destruct (HR c l post ltac:(lia) Hl) as [s ->]. cbn [rbind]. eauto.
Qed.

(** All kinds. *)
Lemma table_rows : forall f level rows, fitted_curves f -> adstock_decay f level = Ok rows ->
  exists lags, lag_range (ctx_max_lag (x_cx (cm_x f))) = Ok lags /\
  exists b, (forall k c, (c < kind_channels k (cm_x f))%nat ->
      exists d, assigned_decay (kind_decay k (cm_x f)) (kind_channels k (cm_x f)) c = Some d /\ recognised d /\ b k c = is_binomial d) /\
  forall r, In r rows <-> exists k, row_of f k lags level (b k) r.
Proof.
  intros f level rows Hf H.
  destruct (proj1 Hf) as [prior [Hp _]]. destruct (proj1 (proj2 Hf)) as [posterior [Hq _]].
  unfold adstock_decay in H. rewrite Hp, Hq in H.
  destruct (lag_range _) as [lags|] eqn:EL; [|discriminate]. cbn [rbind] in H. exists lags. split; [reflexivity|].
  destruct (collect _) as [tables|] eqn:EC; [|discriminate]. cbn [rbind] in H.
  assert (Hrows : rows = concat tables) by (destruct (concat tables); [discriminate|congruence]). clear H.
  pose proof (collect_in _ _ EC) as CI.
  assert (Hk : forall k, exists b, (forall c, (c < kind_channels k (cm_x f))%nat ->
      exists d, assigned_decay (kind_decay k (cm_x f)) (kind_channels k (cm_x f)) c = Some d /\ recognised d /\ b c = is_binomial d) /\
      exists t, decay_rows f prior posterior lags level k = Ok t /\ forall r, In r t <-> row_of f k lags level b r).
  { intros k.
    assert (Ht : exists t, decay_rows f prior posterior lags level k = Ok t).
    { pose proof (collect_all _ _ EC) as CA.
      assert (I : In (decay_rows f prior posterior lags level k) (map Ok tables)).
      { rewrite <- CA. apply in_map. apply kind_in. }
      apply in_map_iff in I. destruct I as [t [E _]]. exists t. symmetry. exact E. }
    destruct Ht as [t Ht]. destruct (Nat.eq_dec (kind_channels k (cm_x f)) 0) as [Z|Z].
    - exists (fun _ => false). split; [intros c Hc; lia|]. exists t. split; [assumption|].
      unfold decay_rows in Ht. rewrite Z in Ht. cbn [Nat.eqb] in Ht. injection Ht as <-.
      intros r. split; [intros []|]. intros [c [[Hc _] _]]. lia.
    - destruct (decay_rows_spec f prior posterior lags level k Hf Hp Hq ltac:(lia)) as [b [Hb [Hr _]]].
      exists b. split; [exact Hb|]. exists t. split; [assumption|]. apply Hr. assumption. }
  destruct (Hk KMedia) as [b1 [B1 [t1 [T1 R1]]]]. destruct (Hk KRf) as [b2 [B2 [t2 [T2 R2]]]].
  destruct (Hk KOrganicMedia) as [b3 [B3 [t3 [T3 R3]]]]. destruct (Hk KOrganicRf) as [b4 [B4 [t4 [T4 R4]]]].
  cbn [map collect] in EC. rewrite T1, T2, T3, T4 in EC. cbn [rbind] in EC. injection EC as <-.
  exists (fun k => match k with KMedia => b1 | KRf => b2 | KOrganicMedia => b3 | KOrganicRf => b4 end).
  split; [intros []; assumption|].
  intros r. rewrite Hrows. cbn [concat]. rewrite !in_app_iff, R1, R2, R3, R4. cbn [In]. split.
  - intros [A|[A|[A|[A|[]]]]]; [exists KMedia|exists KRf|exists KOrganicMedia|exists KOrganicRf]; exact A.
  - intros [[] A]; tauto.
Qed.

Lemma window_pos : forall f, fitted_curves f -> (0 < model_window f)%nat.
Proof. intros f (_ & _ & _ & H & _). unfold model_window. lia. Qed.

(** What a cell at a lag inside the window holds. *)
Lemma cell_spec : forall f k c d post l level, fitted_curves f -> recognised d -> 0 <= l < INR (model_window f) ->
  summarise_draws level (map (fun w => decay_at (is_binomial d) (p_alpha (kind_params k w) c) (model_window f) l)
                           (draws_of f post))
  = rbind (central_tendency_and_ci level
             (map (fun w => left_after d (p_alpha (kind_params k w) c) (model_window f) l) (draws_of f post)))
      (fun s => Ok (Some s)).
Proof.
  intros f k c d post l level Hf Hd Hl. rewrite <- summarise_some, map_map. f_equal.
  apply map_ext_in. intros w Hw. apply decay_at_spec; try assumption.
  - destruct Hf as (_ & _ & _ & _ & _ & _ & _ & A). exact (A post w k c Hw).
  - apply window_pos. assumption.
Qed.

Lemma max_lag_nonneg : forall f, fitted_curves f -> (0 <= ctx_max_lag (x_cx (cm_x f)))%Z.
Proof. intros f (_ & _ & H & _). exact H. Qed.

(** Soundness of the rows. *)
Lemma decay_rows_lemma : forall f level rows, fitted_curves f -> adstock_decay f level = Ok rows ->
  forall r, In r rows ->
  exists k c d, is_channel f k c (dr_channel r) /\
    assigned_decay (kind_decay k (cm_x f)) (kind_channels k (cm_x f)) c = Some d /\
    0 <= dr_time r < INR (drawn_periods f) /\
    (dr_is_int r = true <-> exists n : nat, dr_time r = INR n) /\
    (dr_time r < INR (model_window f) ->
     exists s, dr_stats r = Some s /\
       central_tendency_and_ci level
         (map (fun w => left_after d (p_alpha (kind_params k w) c) (model_window f) (dr_time r))
            (draws_of f (dr_posterior r))) = Ok s).
Proof.
  intros f level rows Hf H r Hr. destruct (table_rows f level rows Hf H) as [lags [HL [b [Hb HR]]]].
  apply HR in Hr. destruct Hr as [k [c [Hc [Hl [Hi Hs]]]]].
  destruct (Hb k c (proj1 Hc)) as [d [Hd [Rd Bd]]].
  destruct (in_lags _ _ HL (max_lag_nonneg f Hf) _ Hl) as [Rng _].
  exists k, c, d. split; [exact Hc|]. split; [exact Hd|]. split; [exact Rng|]. split.
  - rewrite Hi. apply is_integer_spec. lra.
  - intros Hw. rewrite Bd, (cell_spec f k c d (dr_posterior r) (dr_time r) level Hf Rd (conj (proj1 Rng) Hw)) in Hs.
    destruct (central_tendency_and_ci level _) as [s|] eqn:E; [|discriminate]. cbn [rbind] in Hs.
    exists s. split; [congruence|reflexivity].
Qed.

(** Completeness: every whole lag below the largest one. *)
Lemma decay_lags_lemma : forall f level rows k c name d post j, fitted_curves f -> adstock_decay f level = Ok rows ->
  is_channel f k c name ->
  assigned_decay (kind_decay k (cm_x f)) (kind_channels k (cm_x f)) c = Some d ->
  (j < drawn_periods f)%nat -> (j < model_window f)%nat ->
  exists s, In (mkDecayRow name (INR j) post (Some s) true) rows /\
    central_tendency_and_ci level
      (map (fun w => documented_weight d (p_alpha (kind_params k w) c) (model_window f) j /
                     documented_weight d (p_alpha (kind_params k w) c) (model_window f) 0)
         (draws_of f post)) = Ok s.
Proof.
  intros f level rows k c name d post j Hf H Hc Hd Hj HW.
  destruct (table_rows f level rows Hf H) as [lags [HL [b [Hb HR]]]].
  destruct (Hb k c (proj1 Hc)) as [d' [Hd' [Rd Bd]]]. assert (d' = d) by congruence. subst d'.
  assert (Hl : In (INR j) lags) by (apply (whole_in_lags _ _ HL (max_lag_nonneg f Hf)); exact Hj).
  assert (Hw : 0 <= INR j < INR (model_window f)) by (split; [apply pos_INR|apply lt_INR; exact HW]).
  pose proof (cell_spec f k c d post (INR j) level Hf Rd Hw) as CS.
  assert (EM : map (fun w => left_after d (p_alpha (kind_params k w) c) (model_window f) (INR j)) (draws_of f post)
    = map (fun w => documented_weight d (p_alpha (kind_params k w) c) (model_window f) j /
                     documented_weight d (p_alpha (kind_params k w) c) (model_window f) 0) (draws_of f post)).
  { apply map_ext_in. intros w Hw'. apply left_after_whole; try assumption.
    destruct Hf as (_ & _ & _ & _ & _ & _ & _ & A). exact (A post w k c Hw'). }
  rewrite EM in CS.
  (* some cell ran, so the level and the draws are usable *)
  assert (X : exists s, central_tendency_and_ci level
      (map (fun w => documented_weight d (p_alpha (kind_params k w) c) (model_window f) j /
                     documented_weight d (p_alpha (kind_params k w) c) (model_window f) 0) (draws_of f post)) = Ok s).
  { apply central_runs.
    - destruct (draws_some f post Hf) as [l [_ [-> N]]]. destruct l; [congruence|discriminate].
    - assert (NE : rows <> []).
      { destruct (cm_prior f) eqn:P1; [|unfold adstock_decay in H; rewrite P1 in H; discriminate].
        intros ->. unfold adstock_decay in H. rewrite P1 in H. destruct (cm_posterior f); [|discriminate].
        destruct (lag_range _); [|discriminate]. cbn [rbind] in H.
        destruct (collect _) as [t|]; [|discriminate]. cbn [rbind] in H.
        destruct (concat t) as [|q qs]; [discriminate H|discriminate H]. }
      destruct rows as [|r0 rows']; [congruence|].
      assert (I0 : In r0 (r0 :: rows')) by (left; reflexivity). apply HR in I0.
      destruct I0 as [k0 [c0 [_ [_ [_ S0]]]]]. exact (summarise_level _ _ _ S0). }
  destruct X as [s Hs]. exists s. split; [|exact Hs]. apply HR. exists k, c.
  cbn [dr_channel dr_time dr_is_int dr_stats dr_posterior]. split; [exact Hc|]. split; [exact Hl|]. split.
  - symmetry. apply is_integer_spec; [apply pos_INR|]. exists j. reflexivity.
  - rewrite Bd, CS, Hs. reflexivity.
Qed.

(** The curves start at one, never rise and stay in [0, 1] when the data cover the largest lag. *)
Lemma decay_shape_lemma : forall f level rows, fitted_curves f -> adstock_decay f level = Ok rows ->
  (Z.to_nat (ctx_max_lag (x_cx (cm_x f))) < ctx_n_media_times (x_cx (cm_x f)))%nat ->
  forall r, In r rows ->
  exists s, dr_stats r = Some s /\
    (dr_time r = 0 -> all_equal s 1) /\
    0 <= st_mean s <= 1 /\ 0 <= st_lo s <= 1 /\ 0 <= st_hi s <= 1 /\
    (forall r' s', In r' rows -> dr_channel r' = dr_channel r -> dr_posterior r' = dr_posterior r ->
       dr_stats r' = Some s' -> dr_time r <= dr_time r' ->
       st_mean s' <= st_mean s /\ st_lo s' <= st_lo s /\ st_hi s' <= st_hi s).
Proof.
  intros f level rows Hf H Hm r Hr.
  assert (PW : INR (drawn_periods f) <= INR (model_window f)).
  { apply le_INR. unfold drawn_periods, model_window. pose proof (max_lag_nonneg f Hf) as M0.
    revert Hm M0. generalize (ctx_max_lag (x_cx (cm_x f))) (ctx_n_media_times (x_cx (cm_x f))).
    intros m n Hm M0. lia. }
  destruct (decay_rows_lemma f level rows Hf H r Hr) as (k & c & d & Hc & Hd & Ht & _ & Hs).
  destruct (Hs ltac:(lra)) as [s [Es Cs]].
  assert (Rd : recognised d).
  { destruct (table_rows f level rows Hf H) as [lags [_ [b [Hb _]]]].
    destruct (Hb k c (proj1 Hc)) as [d' [Hd' [Rd _]]]. congruence. }
  assert (Al : forall post w, In w (draws_of f post) -> 0 <= p_alpha (kind_params k w) c <= 1).
  { intros post w Hw. destruct Hf as (_ & _ & _ & _ & _ & _ & _ & A). exact (A post w k c Hw). }
  exists s. split; [exact Es|].
  assert (Rng : 0 <= st_mean s <= 1 /\ 0 <= st_median s <= 1 /\ 0 <= st_lo s <= 1 /\ 0 <= st_hi s <= 1).
  { apply (within_lemma _ _ _ 0 1 Cs). intros v Hv. apply in_map_iff in Hv. destruct Hv as [w [<- Hw]].
    apply left_after_range; [exact Rd|exact (Al _ w Hw)|lra]. }
  split.
  { intros Z. assert (One : 1 <= st_mean s <= 1 /\ 1 <= st_median s <= 1 /\ 1 <= st_lo s <= 1 /\ 1 <= st_hi s <= 1).
    { apply (within_lemma _ _ _ 1 1 Cs). intros v Hv. apply in_map_iff in Hv. destruct Hv as [w [<- Hw]].
      rewrite Z, left_after_zero by (try exact Rd; apply window_pos; exact Hf). lra. }
    unfold all_equal. lra. }
  split; [tauto|]. split; [tauto|]. split; [tauto|].
  intros r' s' Hr' En Ep Es' Hle.
  destruct (decay_rows_lemma f level rows Hf H r' Hr') as (k' & c' & d' & Hc' & Hd' & Ht' & _ & Hs').
  rewrite En in Hc'. destruct (channel_unique f k c k' c' _ Hf Hc Hc') as [-> ->].
  assert (d' = d) by congruence. subst d'.
  destruct (Hs' ltac:(lra)) as [s1 [E1 C1]]. assert (s1 = s') by congruence. subst s1. rewrite Ep in C1.
  assert (Dom : dominated
    (map (fun w => left_after d (p_alpha (kind_params k' w) c') (model_window f) (dr_time r')) (draws_of f (dr_posterior r)))
    (map (fun w => left_after d (p_alpha (kind_params k' w) c') (model_window f) (dr_time r)) (draws_of f (dr_posterior r)))).
  { assert (G : forall ws, (forall w, In w ws -> 0 <= p_alpha (kind_params k' w) c' <= 1) ->
      Forall2 Rle (map (fun w => left_after d (p_alpha (kind_params k' w) c') (model_window f) (dr_time r')) ws)
                  (map (fun w => left_after d (p_alpha (kind_params k' w) c') (model_window f) (dr_time r)) ws)).
    { induction ws as [|w ws IH]; intros Hws; cbn [map]; [constructor|]. constructor.
      - apply left_after_anti; [exact Rd|apply Hws; left; reflexivity|lra|exact Hle|lra].
      - apply IH. intros; apply Hws; right; assumption. }
    apply G. intros w Hw. exact (Al _ w Hw). }
  destruct (dominated_lemma _ _ _ _ _ Dom C1 Cs) as (B1 & _ & B3 & B4). auto.
Qed.

(** When the table can be made. *)
Lemma summarise_runs : forall level l, l <> [] -> -1 <= level <= 1 -> exists s, summarise_draws level l = Ok s.
Proof.
  intros level l Hl HL. unfold summarise_draws.
  destruct (central_runs level (map (fun o : option R => match o with Some v => v | None => 0 end) l)) as [s E].
  - destruct l; [congruence|discriminate].
  - exact HL.
  - rewrite E. cbn [rbind]. eauto.
Qed.

Lemma decay_runs_lemma : forall f level, fitted_curves f -> has_channels f -> 0 <= level <= 1 ->
  ((exists rows, adstock_decay f level = Ok rows) <-> (ctx_max_lag (x_cx (cm_x f)) <= 1000)%Z).
Proof.
  intros f level Hf [k0 Hk0] HL. split.
  - intros [rows H]. destruct (Z_le_gt_dec (ctx_max_lag (x_cx (cm_x f))) 1000) as [L|G]; [assumption|].
    destruct (table_rows f level rows Hf H) as [lags [E _]]. rewrite lag_range_err in E by lia. discriminate.
  - intros Hm. pose proof (max_lag_nonneg f Hf) as M0.
    destruct (lag_range_ok (ctx_max_lag (x_cx (cm_x f))) ltac:(lia)) as [lags [EL NL]].
    destruct (proj1 Hf) as [prior [Hp _]]. destruct (proj1 (proj2 Hf)) as [posterior [Hq _]].
    unfold adstock_decay. rewrite Hp, Hq, EL. cbn [rbind].
    assert (Hk : forall k, exists t, decay_rows f prior posterior lags level k = Ok t /\
      ((0 < kind_channels k (cm_x f))%nat -> t <> [])).
    { intros k. destruct (Nat.eq_dec (kind_channels k (cm_x f)) 0) as [Z|Z].
      - exists []. split; [unfold decay_rows; rewrite Z; reflexivity|lia].
      - destruct (decay_rows_spec f prior posterior lags level k Hf Hp Hq ltac:(lia)) as [b [Hb [Hr HR]]].
        assert (R : forall (c : nat) (l : R) post, (c < kind_channels k (cm_x f))%nat -> In l lags ->
          exists s, summarise_draws level (map (fun w => decay_at (b c) (p_alpha (kind_params k w) c) (model_window f) l)
                             (draws_of f post)) = Ok s).
        { intros c l post _ _. apply summarise_runs; [|lra].
          destruct (draws_some f post Hf) as [ws [_ [-> N]]]. destruct ws; [congruence|discriminate]. }
        destruct (HR R) as [t Ht]. exists t. split; [exact Ht|]. intros Hn ->.
        destruct lags as [|l0 lags']; [congruence|].
        destruct (R 0%nat l0 true Hn (or_introl eq_refl)) as [s Es].
        assert (Hlen : length (cm_names f k) = kind_channels k (cm_x f)) by (destruct Hf as (_ & _ & _ & _ & L & _); apply L).
        destruct (nth_error (cm_names f k) 0) as [nm|] eqn:En; [|apply nth_error_None in En; lia].
        apply (proj2 (Hr [] Ht (mkDecayRow nm l0 true s (is_integer l0)))).
        exists 0%nat. cbn [dr_channel dr_time dr_is_int dr_stats dr_posterior].
        split; [split; assumption|]. split; [left; reflexivity|]. split; [reflexivity|exact Es]. }
    destruct (Hk KMedia) as [t1 [T1 N1]]. destruct (Hk KRf) as [t2 [T2 N2]].
    destruct (Hk KOrganicMedia) as [t3 [T3 N3]]. destruct (Hk KOrganicRf) as [t4 [T4 N4]].
    cbn [map collect]. rewrite T1, T2, T3, T4. cbn [rbind concat].
    destruct (t1 ++ t2 ++ t3 ++ t4 ++ []) as [|r rows] eqn:E; [|eauto].
    exfalso. apply app_eq_nil in E. destruct E as [E1 E]. apply app_eq_nil in E. destruct E as [E2 E].
    apply app_eq_nil in E. destruct E as [E3 E]. apply app_eq_nil in E. destruct E as [E4 _].
    destruct k0; [exact (N1 Hk0 E1)|exact (N2 Hk0 E2)|exact (N3 Hk0 E3)|exact (N4 Hk0 E4)].
Qed.

Lemma long_lag_lemma : forall f level, fitted_curves f -> (1000 < ctx_max_lag (x_cx (cm_x f)))%Z ->
  adstock_decay f level = Err ZeroDivisionError.
Proof.
  intros f level Hf Hm. destruct (proj1 Hf) as [prior [Hp _]]. destruct (proj1 (proj2 Hf)) as [posterior [Hq _]].
  unfold adstock_decay. rewrite Hp, Hq, (lag_range_err _ Hm). reflexivity.
Qed.

(** The largest lag itself is never drawn. *)
Lemma no_last_lag : forall f level rows r, fitted_curves f -> adstock_decay f level = Ok rows -> In r rows ->
  (1 <= ctx_max_lag (x_cx (cm_x f)))%Z -> dr_time r < INR (Z.to_nat (ctx_max_lag (x_cx (cm_x f)))).
Proof.
  intros f level rows r Hf H Hr Hm.
  destruct (decay_rows_lemma f level rows Hf H r Hr) as (k & c & d & _ & _ & Ht & _).
  unfold drawn_periods in Ht. rewrite Z.max_l in Ht by assumption. lra.
Qed.
