From Coq Require Import Reals ZArith Lia Lra String List Bool Arith FunctionalExtensionality.
From Verif Require Import Lib_Sum Lib_Pow M_Base M_AdstockHill M_Equations M_Transformers M_Aggregate
  S_Aggregate S_Adstock S_Media P_Adstock P_Media P_MediaProps P_Aggregate M_Analyzer S_Analyzer.
Import ListNotations.
Local Open Scope R_scope.

Definition zero3 (y : T3) : Prop := forall g t c, (c < chans y)%nat -> val y g t c = 0.

Lemma rbind_inv : forall A B (m : result A) (f : A -> result B) b,
  rbind m f = Ok b -> exists a, m = Ok a /\ f a = Ok b.
Proof. intros A B [a|e] f b H; [exists a; auto|discriminate]. Qed.

Lemma raise_if_inv : forall A c e (k : result A) b, raise_if c e k = Ok b -> c = false /\ k = Ok b.
Proof. intros A [|] e k b H; [discriminate|auto]. Qed.

Ltac inv_rbind H a Ha :=
  apply rbind_inv in H; destruct H as (a & Ha & H); cbv beta in H.

Lemma adstock_inv : forall x n a ml no df o,
  adstock x n a ml no df = Ok o ->
  chans x = n /\ geos o = geos x /\ Z.of_nat (times o) = no /\ chans o = chans x /\
  (no <= Z.of_nat (times x))%Z /\
  (zero3 x -> zero3 o).
Proof.
  intros x n a ml no df o H. unfold adstock, adstock_with in H.
  destruct (validate_arguments x n ml no) eqn:V; [|discriminate].
  unfold validate_arguments in V. rewrite !andb_true_iff, !negb_true_iff in V.
  destruct V as [[[V1 V2] V3] V4]. apply Nat.eqb_eq in V2. apply Z.leb_gt in V3.
  rewrite Z.gtb_ltb in V1. apply Z.ltb_ge in V1.
  cbv zeta in H. inv_rbind H w Hw. unfold adstock_process_window in H.
  match type of H with (if ?c then _ else _) = _ => destruct c; [|discriminate] end.
  injection H as <-. cbn [geos times chans val].
  set (W := Nat.min (Z.to_nat ml + 1) (times x)) in *.
  set (m1 := if (Z.to_nat no + W - 1 <? times x)%nat then take_last (Z.to_nat no + W - 1) x else x).
  assert (D1 : geos m1 = geos x /\ chans m1 = chans x) by (subst m1; destruct (_ <? _)%nat; split; reflexivity).
  destruct D1 as [Dg Dc].
  assert (Z1 : zero3 x -> forall g t c, (c < chans x)%nat -> val m1 g t c = 0).
  { intros Z g t c Hc. subst m1. destruct (_ <? _)%nat; cbn [take_last val]; apply Z, Hc. }
  clearbody m1.
  split; [exact V2|]. split; [destruct (_ <? _)%nat; exact Dg|].
  split; [lia|]. split; [destruct (_ <? _)%nat; exact Dc|]. split; [lia|].
  intros Z g t c Hc. cbn [val chans] in *. apply rsum_zero. intros i Hi.
  assert (E : (c < chans x)%nat) by (destruct (times x <? _)%nat in Hc; cbn [pad_left chans] in Hc; rewrite <- Dc; exact Hc).
  destruct (times x <? _)%nat; cbn [pad_left val].
  - destruct (_ <? _)%nat; [lra|]. rewrite Z1 by assumption. lra.
  - rewrite Z1 by assumption. lra.
Qed.

Lemma hill_forward_inv : forall m n1 ec n2 sl o,
  hill_forward m n1 ec n2 sl = Ok o ->
  n2 = n1 /\ chans m = n2 /\
  o = mkT3 (geos m) (times m) (chans m) (fun g t c => hill (ec c) (sl c) (val m g t c)).
Proof.
  intros m n1 ec n2 sl o H. unfold hill_forward in H.
  destruct (Nat.eqb n2 n1) eqn:E1; cbn [negb] in H; [|discriminate].
  destruct (Nat.eqb (chans m) n2) eqn:E2; cbn [negb] in H; [|discriminate].
  apply Nat.eqb_eq in E1, E2. injection H as <-. auto.
Qed.

Lemma where_chan_inv : forall mask a b o, where_chan mask a b = Ok o ->
  geos o = geos a /\ times o = times a /\
  (chans a = chans b -> zero3 a -> zero3 b ->
   forall g t c, (c < chans a)%nat \/ (c < chans o)%nat -> val o g t c = 0).
Proof.
  intros mask a b o H. unfold where_chan in H. cbv zeta in H.
  destruct (Nat.eqb (m_len mask) (chans a)) eqn:E1; [|destruct (Nat.eqb (m_len mask) 1) eqn:E2;
    [|destruct (Nat.eqb (chans a) 1) eqn:E3; [|discriminate]]];
  injection H as <-; cbn [geos times]; repeat (split; [reflexivity|]); intros Hc Ha Hb g t c Hlt;
  cbn [val chans] in *.
  - destruct (m_at _ _); [apply Ha|apply Hb]; lia.
  - destruct (m_at _ _); [apply Ha|apply Hb]; lia.
  - apply Nat.eqb_eq in E3. destruct (m_at _ _); [apply Ha|apply Hb]; lia.
Qed.

Definition slopes_pos (p : chan_params) : Prop := forall c, (c < n_par p)%nat -> 0 < p_slope p c.

Lemma media_inv : forall cx m p df sa no o,
  adstock_hill_media cx m p df sa no = Ok o ->
  geos o = geos m /\ chans m = n_par p /\
  (no = None -> times m = ctx_n_media_times cx /\ times o = ctx_n_times cx) /\
  (forall z, no = Some z -> Z.of_nat (times o) = z) /\
  (slopes_pos p -> zero3 m -> zero3 o).
Proof.
  intros cx m p df sa no o H. unfold adstock_hill_media in H.
  inv_rbind H n Hn. inv_rbind H mask Hm.
  assert (T : Z.of_nat (times o) = n /\ geos o = geos m /\ chans m = n_par p /\
              (slopes_pos p -> zero3 m -> zero3 o)).
  { destruct (ctx_hill_before_adstock cx).
    - inv_rbind H h Hh. inv_rbind H s Hs.
      apply hill_forward_inv in Hh. destruct Hh as (_ & Hc & ->).
      apply where_chan_inv in Hs. destruct Hs as (Sg & St & Sz).
      apply adstock_inv in H. destruct H as (Ac & Ag & At & _ & _ & Az).
      cbn [geos times chans] in *.
      split; [exact At|]. split; [congruence|]. split; [exact Hc|]. intros Hs Hz. apply Az. intros g0 t0 c0 H0. apply Sz; auto.
      intros g t c Hlt. cbn [val chans] in *. rewrite Hz by exact Hlt.
      apply hill_zero_lemma. apply Hs. lia.
    - inv_rbind H a Ha. inv_rbind H h Hh.
      apply adstock_inv in Ha. destruct Ha as (Ac & Ag & At & Ach & _ & Az).
      apply hill_forward_inv in Hh. destruct Hh as (_ & Hc & ->).
      apply where_chan_inv in H. destruct H as (Sg & St & Sz). cbn [geos times chans] in *.
      split; [congruence|]. split; [congruence|]. split; [congruence|].
      intros Hs Hz g0 t0 c0 H0. apply Sz; [reflexivity| |apply Az, Hz|right; exact H0].
      intros g t c Hlt. cbn [val chans] in *. rewrite (Az Hz) by exact Hlt.
      apply hill_zero_lemma, Hs. lia. }
  destruct T as (T & Tg & Tc & Tz). split; [exact Tg|]. split; [exact Tc|]. split.
  - intros ->. cbn [resolve_n_times_output] in Hn.
    destruct (Nat.eqb (times m) (ctx_n_media_times cx)) eqn:E; [|discriminate].
    apply Nat.eqb_eq in E. assert (Z.of_nat (ctx_n_times cx) = n) by congruence. lia.
  - split; [|exact Tz]. intros z ->. cbn [resolve_n_times_output] in Hn. congruence.
Qed.

Lemma rf_inv : forall cx r f p df sa no o,
  adstock_hill_rf cx r f p df sa no = Ok o ->
  geos o = geos r /\ chans r = n_par p /\
  (no = None -> times r = ctx_n_media_times cx /\ times o = ctx_n_times cx) /\
  (forall z, no = Some z -> Z.of_nat (times o) = z) /\
  (zero3 r -> zero3 o) /\
  (slopes_pos p -> (forall g t c, val f g t c = 0) -> zero3 o).
Proof.
  intros cx r f p df sa no o H. unfold adstock_hill_rf in H.
  inv_rbind H n Hn. inv_rbind H h Hh. inv_rbind H mask Hm. inv_rbind H s Hs.
  apply hill_forward_inv in Hh. destruct Hh as (_ & Hc & ->).
  assert (Sz : slopes_pos p -> (forall g t c, val f g t c = 0) ->
               forall g t c, (c < chans f)%nat -> val s g t c = 0).
  { intros Hp Hf g t c Hlt. apply where_chan_inv in Hs. destruct Hs as (_ & _ & Z).
    apply Z; [reflexivity| | |left; exact Hlt].
    - intros g' t' c' Hl. cbn [val chans] in *. rewrite Hf. apply hill_zero_lemma, Hp. lia.
    - intros g' t' c' _. apply Hf. }
  apply adstock_inv in H. destruct H as (Ac & Ag & At & Ach & _ & Az). cbn [mul3 geos chans] in *.
  split; [exact Ag|]. split; [exact Ac|]. split; [|split; [|split]].
  - intros ->. cbn [resolve_n_times_output] in Hn.
    destruct (Nat.eqb (times r) (ctx_n_media_times cx)) eqn:E; [|discriminate].
    apply Nat.eqb_eq in E. assert (Z.of_nat (ctx_n_times cx) = n) by congruence. lia.
  - intros z ->. cbn [resolve_n_times_output] in Hn. congruence.
  - intros Z. apply Az. intros g t c Hlt. cbn [val chans mul3] in *. rewrite Z by exact Hlt. lra.
  - intros Hp Hf. apply Az. intros g t c Hlt. cbn [val chans mul3] in *.
    rewrite (Sz Hp Hf) by lia. lra.
Qed.

Definition opt_zero (o : option T3) : Prop := match o with Some y => zero3 y | None => True end.
Definition opt_all_zero (o : option T3) : Prop :=
  match o with Some y => forall g t c, val y g t c = 0 | None => True end.

(** The coefficients' slopes are positive (the documented domain of Hill slopes). *)
Definition draw_slopes_pos (w : draw) : Prop :=
  slopes_pos (w_media w) /\ slopes_pos (w_rf w) /\ slopes_pos (w_organic_media w) /\
  slopes_pos (w_organic_rf w).

Lemma append3_inv : forall a b o, append3 a b = Ok o ->
  geos a = geos b /\ times a = times b /\
  o = mkT3 (geos a) (times a) (chans a + chans b)
         (fun g t c => if (c <? chans a)%nat then val a g t c else val b g t (c - chans a)%nat).
Proof.
  intros a b o H. unfold append3 in H.
  destruct (Nat.eqb (geos a) (geos b) && Nat.eqb (times a) (times b)) eqn:E; [|discriminate].
  apply andb_true_iff in E. destruct E as [E1 E2]. apply Nat.eqb_eq in E1, E2.
  injection H as <-. auto.
Qed.

Lemma concat_parts_inv : forall (P : T3 -> Prop) l p,
  (forall a b o, append3 a b = Ok o -> P a -> P b -> P o) ->
  concat_parts l = Ok p -> Forall (fun q => P (fst q)) l -> P (fst p).
Proof.
  intros P l. induction l as [|a r IH]; intros p HP H HF; [discriminate|].
  inversion HF as [|? ? H1 H2]; subst. cbn [concat_parts] in H. destruct r as [|b r].
  - assert (p = a) by congruence. subst. exact H1.
  - inv_rbind H q Hq. inv_rbind H m Hm. assert (p = (m, append_beta (snd a) (snd q))) by congruence.
    subst p. cbn [fst]. eapply HP; [exact Hm|exact H1|]. apply IH; assumption.
Qed.

Lemma media_part_inv : forall m f b l, media_part m f b = Ok l ->
  match m with None => l = [] | Some y => exists o, f y = Ok o /\ l = [(o, b)] end.
Proof.
  intros [y|] f b l H; cbn [media_part] in H; [|congruence].
  inv_rbind H o Ho. exists o. split; [exact Ho|congruence].
Qed.

Lemma rf_part_inv : forall r q f b l, rf_part r q f b = Ok l ->
  match r with None => l = [] | Some y => exists z o, q = Some z /\ f y z = Ok o /\ l = [(o, b)] end.
Proof.
  intros [y|] q f b l H; cbn [rf_part] in H; [|congruence].
  destruct q as [z|]; [|discriminate]. inv_rbind H o Ho. exists z, o. repeat split; auto; congruence.
Qed.

Lemma transformed_inv : forall x d w no p,
  transformed_media_and_beta x d w no = Ok p ->
  chans (fst p) = fst (snd p) /\
  (no = None -> times (fst p) = x_n_times x /\
     (forall m, d_media d = Some m -> times m = x_n_media_times x) /\
     (forall m, d_reach d = Some m -> times m = x_n_media_times x)) /\
  (draw_slopes_pos w -> opt_zero (d_media d) -> opt_zero (d_organic_media d) ->
   (opt_zero (d_reach d) \/ opt_all_zero (d_frequency d)) ->
   (opt_zero (d_organic_reach d) \/ opt_all_zero (d_organic_frequency d)) ->
   zero3 (fst p)).
Proof.
  intros x d w no p H. unfold transformed_media_and_beta in H.
  inv_rbind H l1 H1. inv_rbind H l2 H2. inv_rbind H l3 H3. inv_rbind H l4 H4. inv_rbind H q Hq.
  destruct (Nat.eqb (chans (fst q)) (fst (snd q))) eqn:E; [|discriminate].
  assert (q = p) by congruence. subst q. apply Nat.eqb_eq in E.
  apply media_part_inv in H1, H3. apply rf_part_inv in H2, H4.
  split; [exact E|]. split.
  - intros ->. split; [|split].
    + apply (concat_parts_inv (fun y => times y = x_n_times x) _ p) in Hq; [exact Hq| |].
      * intros a b o Ho Ha Hb. apply append3_inv in Ho. destruct Ho as (_ & _ & ->). exact Ha.
      * rewrite !Forall_app; repeat split.
        -- destruct (d_media d); [destruct H1 as (o & Ho & ->)|subst; constructor].
           constructor; [|constructor]. apply media_inv in Ho. apply Ho. reflexivity.
        -- destruct (d_reach d); [destruct H2 as (z & o & _ & Ho & ->)|subst; constructor].
           constructor; [|constructor]. apply rf_inv in Ho. apply Ho. reflexivity.
        -- destruct (d_organic_media d); [destruct H3 as (o & Ho & ->)|subst; constructor].
           constructor; [|constructor]. apply media_inv in Ho. apply Ho. reflexivity.
        -- destruct (d_organic_reach d); [destruct H4 as (z & o & _ & Ho & ->)|subst; constructor].
           constructor; [|constructor]. apply rf_inv in Ho. apply Ho. reflexivity.
    + intros m Em. rewrite Em in H1. destruct H1 as (o & Ho & _). apply media_inv in Ho.
      apply Ho. reflexivity.
    + intros m Em. rewrite Em in H2. destruct H2 as (z & o & _ & Ho & _). apply rf_inv in Ho.
      apply Ho. reflexivity.
  - intros (Sm & Srf & Som & Sorf) Zm Zom Zr Zor.
    apply (concat_parts_inv zero3 _ p) in Hq; [exact Hq| |].
    + intros a b o Ho Ha Hb. apply append3_inv in Ho. destruct Ho as (_ & _ & ->).
      intros g t c Hc. cbn [val chans] in *. destruct (c <? chans a)%nat eqn:L.
      * apply Ha. apply Nat.ltb_lt. exact L.
      * apply Hb. apply Nat.ltb_ge in L. lia.
    + rewrite !Forall_app; repeat split.
      * destruct (d_media d); [destruct H1 as (o & Ho & ->)|subst; constructor].
        constructor; [|constructor]. apply media_inv in Ho. apply Ho; assumption.
      * destruct (d_reach d); [destruct H2 as (z & o & Hz & Ho & ->)|subst; constructor].
        constructor; [|constructor]. apply rf_inv in Ho. rewrite Hz in Zr.
        destruct Ho as (_ & _ & _ & _ & Z1 & Z2).
        destruct Zr as [Zr|Zr]; [apply Z1; exact Zr|apply Z2; [exact Srf|exact Zr]].
      * destruct (d_organic_media d); [destruct H3 as (o & Ho & ->)|subst; constructor].
        constructor; [|constructor]. apply media_inv in Ho. apply Ho; assumption.
      * destruct (d_organic_reach d); [destruct H4 as (z & o & Hz & Ho & ->)|subst; constructor].
        constructor; [|constructor]. apply rf_inv in Ho. rewrite Hz in Zor.
        destruct Ho as (_ & _ & _ & _ & Z1 & Z2).
        destruct Zor as [Zo|Zo]; [apply Z1; exact Zo|apply Z2; [exact Sorf|exact Zo]].
Qed.

Lemma contract_zero : forall y b g t, zero3 y -> contract y b g t = 0.
Proof.
  intros y b g t H. unfold contract. apply rsum_zero. intros c Hc. rewrite H by exact Hc. lra.
Qed.

(** Scaling by one, and scaled zeros. *)
Lemma scale3_one : forall mult y, (forall t, mult t = 1) -> scale3 mult y = y.
Proof.
  intros mult [G T C v] H. unfold scale3. cbn. f_equal.
  extensionality g. extensionality t. extensionality c. rewrite H. lra.
Qed.

Lemma scale_by_one : forall d mult br, (forall t, mult t = 1) ->
  scale_tensors_by_multiplier d mult br = d.
Proof.
  intros d mult br H. unfold scale_tensors_by_multiplier. cbv zeta.
  assert (E : forall o, option_map (scale3 mult) o = o)
    by (intros [y|]; cbn; [rewrite scale3_one by exact H|]; reflexivity).
  rewrite !E.
  destruct d; cbn.
  repeat match goal with |- context [if ?c then ?a else ?a] => destruct c end; reflexivity.
Qed.

Lemma media_fwd_0 : forall tr g c, media_fwd tr g c 0 = 0.
Proof.
  intros. unfold media_fwd, media_forward, fdiv. destruct (Req_EM_T _ _); [reflexivity|].
  unfold Rdiv. lra.
Qed.

Lemma transform_media_zero : forall y tr, opt_all_zero y -> opt_zero (transform_media y tr).
Proof.
  intros [y|] [tr|] H; cbn [transform_media opt_zero opt_all_zero] in *; auto.
  - intros g t c _. cbn [map3 val]. rewrite H. apply media_fwd_0.
  - intros g t c _. apply H.
Qed.

(** ** The historical data *)
Lemma orelse_none : forall A (o : option A), orelse None o = o.
Proof. reflexivity. Qed.

Lemma modified3_same : forall o, modified3 o o = None.
Proof. intros [y|]; cbn; [rewrite Nat.eqb_refl|]; reflexivity. Qed.
Lemma modified2_same : forall o, modified2 o o = None.
Proof. intros [y|]; cbn; [rewrite Nat.eqb_refl|]; reflexivity. Qed.

Lemma fill_no_data : forall x, fill_missing x no_data true true = x_data x.
Proof. intros x. unfold fill_missing, no_data. cbn. destruct (x_data x). reflexivity. Qed.

Lemma modified_data : forall x, get_modified_times x (x_data x) = None.
Proof.
  intros x. unfold get_modified_times. cbv zeta.
  rewrite !modified3_same, !modified2_same. reflexivity.
Qed.

Lemma modified_no_data : forall x, get_modified_times x no_data = None.
Proof. intros x. unfold get_modified_times, no_data. cbn. reflexivity. Qed.

(** Dimensions of the scaled data. *)
Lemma modified3_times : forall a a' b, option_map times a = option_map times a' ->
  modified3 a b = modified3 a' b.
Proof.
  intros [y|] [y'|] [z|] H; cbn in *; try congruence. injection H as ->. reflexivity.
Qed.

(** ** Non-media baselines *)
Lemma baseline_forward : forall x tr b g c,
  non_media_transformer x = Some tr -> non_media_factor x g c <> 0 ->
  centering_forward tr true g c (b * non_media_factor x g c) = centering_forward tr false 0%nat c b.
Proof.
  intros x tr b g c Htr Hf. unfold non_media_transformer, non_media_factor in *.
  destruct (d_non_media (x_data x)) as [n|]; [|discriminate]. cbn [option_map] in Htr.
  assert (tr = centering_init n (x_population x) (x_non_media_scaling_id x)) by congruence. subst tr.
  unfold centering_forward, centering_init. destruct (x_non_media_scaling_id x) as [id|]; cbn [c_factors c_means c_stdevs].
  - replace (b * scaling_factors (x_population x) id g c / scaling_factors (x_population x) id g c)
      with b by (field; exact Hf). reflexivity.
  - rewrite Rmult_1_r. reflexivity.
Qed.

(** ** Incremental KPI against the two expected KPIs, one draw *)
Definition baseline_of (x : model) (b : nat -> R) : option (nat -> R) :=
  match non_media_transformer x with
  | Some tr => Some (fun c => centering_forward tr false 0%nat c (b c))
  | None => None
  end.

Lemma kpi_means_inv : forall x d w e, kpi_means x d w = Ok e ->
  exists p, transformed_media_and_beta x d w None = Ok p /\
    check_dims (fst p) (x_n_geos x) (x_n_times x) = true /\
    (forall n, d_non_media d = Some n -> check_dims n (x_n_geos x) (x_n_times x) = true) /\
    geos2 e = x_n_geos x /\ times2 e = x_n_times x /\
    forall g t, val2 e g t = w_tau_g w g + w_mu_t w t + contract (fst p) (snd (snd p)) g t
      + match d_controls (x_data x), d_controls d with
        | Some _, Some c => contract c (w_gamma_gc w) g t | _, _ => 0 end
      + match d_non_media d with Some n => contract n (w_gamma_gn w) g t | None => 0 end.
Proof.
  intros x d w e H. unfold kpi_means in H. cbv zeta in H.
  inv_rbind H p Hp. apply raise_if_inv in H. destruct H as [Hd H]. apply negb_false_iff in Hd.
  inv_rbind H ct Hc. inv_rbind H nm Hn. injection H as <-.
  exists p. split; [exact Hp|]. split; [exact Hd|]. split; [|split; [reflexivity|split; [reflexivity|]]].
  - intros n En. rewrite En in Hn. apply raise_if_inv in Hn. destruct Hn as [Hn _].
    apply negb_false_iff in Hn. exact Hn.
  - intros g t. cbn [val2]. f_equal; [f_equal|].
    + destruct (d_controls (x_data x)); [|injection Hc as <-; reflexivity].
      destruct (d_controls d); [|discriminate]. apply raise_if_inv in Hc. destruct Hc as [_ Hc].
      injection Hc as <-. reflexivity.
    + destruct (d_non_media d); [|injection Hn as <-; reflexivity].
      apply raise_if_inv in Hn. destruct Hn as [_ Hn]. injection Hn as <-. reflexivity.
Qed.

(** The data of [build_baseline_inputs], filled and scaled. *)
Definition baseline_data (x : model) (b : nat -> R) : data :=
  let o := x_data x in
  let z := option_map zeros_like in
  mkData (z (d_media o)) (z (d_reach o)) None (z (d_organic_media o)) (z (d_organic_reach o))
    None (option_map (fun n => mkT3 (geos n) (times n) (chans n) (fun g _ c => b c * non_media_factor x g c))
            (d_non_media o)) (d_controls o) None.

Lemma build_baseline_inv : forall x v d, build_baseline_data x v = Ok d ->
  validate_baseline_numbers v = Ok tt /\
  exists b, d = baseline_data x b /\
    (d_non_media (x_data x) <> None -> compute_non_media_baseline x v = Ok b).
Proof.
  intros x v d H. unfold build_baseline_data in H. inv_rbind H u Hu. destruct u.
  split; [exact Hu|]. cbv zeta in H. inv_rbind H nm Hn. injection H as <-.
  unfold baseline_data. destruct (d_non_media (x_data x)) as [n|] eqn:En.
  - inv_rbind Hn b Hb. exists b. split; [|intros _; exact Hb].
    assert (nm = Some (mkT3 (geos n) (times n) (chans n) (fun g _ c => b c * non_media_factor x g c)))
      by congruence. subst nm. reflexivity.
  - exists (fun _ => 0). split; [|congruence]. assert (nm = None) by congruence. subst. reflexivity.
Qed.

Lemma zeros_all : forall o, opt_all_zero (option_map zeros_like o).
Proof. intros [y|]; cbn; auto. Qed.

Lemma orelse_some_zero : forall o, orelse (option_map zeros_like o) o = option_map zeros_like o.
Proof. intros [y|]; reflexivity. Qed.

Lemma check_dims_inv : forall y G T, check_dims y G T = true -> geos y = G /\ times y = T.
Proof.
  intros y G T H. unfold check_dims in H. apply andb_true_iff in H. destruct H as [H1 H2].
  apply Nat.eqb_eq in H1, H2. auto.
Qed.

Lemma get_incremental_inv : forall x d w base y p,
  get_incremental_kpi x d w base = Ok y ->
  transformed_media_and_beta x d w None = Ok p ->
  geos y = geos (fst p) /\ times y = times (fst p) /\
  match d_non_media d with
  | None => chans y = chans (fst p) /\
            forall g t c, val y g t c = val (fst p) g t c * snd (snd p) g c
  | Some n => exists b, base = Some b /\ chans y = (chans (fst p) + chans n)%nat /\
      geos n = geos (fst p) /\ times n = times (fst p) /\
      forall g t c, val y g t c =
        if (c <? chans (fst p))%nat then val (fst p) g t c * snd (snd p) g c
        else (val n g t (c - chans (fst p))%nat - b (c - chans (fst p))%nat)
             * w_gamma_gn w g (c - chans (fst p))%nat
  end.
Proof.
  intros x d w base y p H Hp. unfold get_incremental_kpi in H.
  inv_rbind H u Hu. inv_rbind H nt Hnt. cbv zeta in H.
  pose proof (transformed_inv x d w None p Hp) as (_ & Ht & _).
  destruct (Ht eq_refl) as (_ & Hm & Hr).
  assert (E : nt = x_n_media_times x).
  { destruct (d_media d) as [m|]; [|destruct (d_reach d) as [r|]; [|discriminate]].
    - assert (times m = nt) by congruence. rewrite <- H0. apply Hm. reflexivity.
    - assert (times r = nt) by congruence. rewrite <- H0. apply Hr. reflexivity. }
  rewrite E, Nat.eqb_refl in H. inv_rbind H q Hq. assert (q = p) by congruence. subst q.
  destruct (d_non_media d) as [n|].
  - destruct base as [b|]; [|discriminate]. apply append3_inv in H.
    cbn [geos times chans val] in H. destruct H as (H1 & H2 & ->). cbn [geos times chans].
    split; [reflexivity|]. split; [reflexivity|]. exists b. repeat (split; [auto|]).
    intros g t c. reflexivity.
  - assert (y = mkT3 (geos (fst p)) (times (fst p)) (chans (fst p))
                  (fun g t c => val (fst p) g t c * snd (snd p) g c)) by congruence.
    subst y. cbn [geos times chans val]. repeat split; auto.
Qed.

Lemma rsum_if_app : forall n m (f h : nat -> R),
  rsum (n + m) (fun c => if (c <? n)%nat then f c else h (c - n)%nat) = rsum n f + rsum m h.
Proof.
  intros n m f h. rewrite rsum_app. f_equal; apply rsum_ext; intros i Hi.
  - replace (i <? n)%nat with true by (symmetry; apply Nat.ltb_lt; exact Hi). reflexivity.
  - replace (n + i <? n)%nat with false by (symmetry; apply Nat.ltb_ge; lia).
    f_equal. lia.
Qed.

Lemma one_draw_decomposition : forall x b w e eb y,
  draw_slopes_pos w ->
  (forall g c, (g < x_n_geos x)%nat -> non_media_factor x g c <> 0) ->
  let d := scale_data_tensors x (x_data x) true in
  let db := scale_data_tensors x (fill_missing x (baseline_data x b) true true) true in
  kpi_means x d w = Ok e -> kpi_means x db w = Ok eb ->
  get_incremental_kpi x d w (baseline_of x b) = Ok y ->
  geos y = x_n_geos x /\ times y = x_n_times x /\
  forall g t, (g < x_n_geos x)%nat -> 
    val2 e g t = val2 eb g t + rsum (chans y) (fun c => val y g t c).
Proof.
  intros x b w e eb y Hs Hf d db He Heb Hy.
  apply kpi_means_inv in He. destruct He as (p & Hp & Hd & Hn & _ & _ & Ve).
  apply kpi_means_inv in Heb. destruct Heb as (pb & Hpb & _ & _ & _ & _ & Vb).
  pose proof (get_incremental_inv x d w _ y p Hy Hp) as (Yg & Yt & HY).
  apply check_dims_inv in Hd. destruct Hd as [Pg Pt].
  split; [congruence|]. split; [congruence|].
  assert (Zb : zero3 (fst pb)).
  { apply transformed_inv in Hpb. destruct Hpb as (_ & _ & Z). apply Z; [exact Hs| | |left|left].
    - subst db. unfold scale_data_tensors, fill_missing, baseline_data. cbn.
      rewrite orelse_some_zero. apply transform_media_zero, zeros_all.
    - subst db. unfold scale_data_tensors, fill_missing, baseline_data. cbn.
      rewrite orelse_some_zero. apply transform_media_zero, zeros_all.
    - subst db. unfold scale_data_tensors, fill_missing, baseline_data. cbn.
      rewrite orelse_some_zero. apply transform_media_zero, zeros_all.
    - subst db. unfold scale_data_tensors, fill_missing, baseline_data. cbn.
      rewrite orelse_some_zero. apply transform_media_zero, zeros_all. }
  assert (Cb : d_controls db = d_controls d).
  { subst d db. unfold scale_data_tensors, fill_missing, baseline_data. cbn.
    destruct (d_controls (x_data x)); reflexivity. }
  intros g t Hg. rewrite Ve, Vb, Cb, (contract_zero (fst pb)) by exact Zb.
  assert (Dn : d_non_media d = transform_centered (d_non_media (x_data x)) (non_media_transformer x))
    by reflexivity.
  assert (Dnb : d_non_media db = transform_centered (d_non_media (fill_missing x (baseline_data x b) true true))
                                  (non_media_transformer x)) by reflexivity.
  destruct (d_non_media (x_data x)) as [n|] eqn:En.
  - assert (exists tr, non_media_transformer x = Some tr) as [tr Htr].
    { unfold non_media_transformer. rewrite En. eexists. reflexivity. }
    rewrite Htr in Dn, Dnb. cbn [transform_centered] in Dn. rewrite Dn in HY |- *.
    destruct HY as (b' & Hb' & Yc & _ & _ & VY).
    unfold baseline_of in Hb'. rewrite Htr in Hb'.
    assert (b' = fun c => centering_forward tr false 0%nat c (b c)) by congruence. subst b'.
    unfold fill_missing, baseline_data in Dnb. rewrite En in Dnb. cbn [d_non_media option_map orelse transform_centered] in Dnb.
    rewrite Dnb. rewrite Yc. cbn [map3 chans].
    assert (EY : rsum (chans (fst p) + chans n) (fun c => val y g t c)
      = rsum (chans (fst p)) (fun c => val (fst p) g t c * snd (snd p) g c)
        + rsum (chans n) (fun k => (centering_forward tr true g k (val n g t k)
                                    - centering_forward tr false 0%nat k (b k)) * w_gamma_gn w g k)).
    { rewrite <- (rsum_if_app (chans (fst p)) (chans n) (fun c => val (fst p) g t c * snd (snd p) g c)).
      apply rsum_ext. intros c _. rewrite VY. reflexivity. }
    rewrite EY.
    match goal with |- _ + _ + contract ?a _ _ _ + _ + contract ?m _ _ _ = _ + _ + _ + _ + contract ?m' _ _ _ + _ =>
      unfold contract at 1; change (contract m (w_gamma_gn w) g t) with
       (rsum (chans n) (fun c => centering_forward tr true g c (val n g t c) * w_gamma_gn w g c));
      change (contract m' (w_gamma_gn w) g t) with
       (rsum (chans n) (fun c => centering_forward tr true g c (b c * non_media_factor x g c) * w_gamma_gn w g c)) end.
    rewrite (rsum_ext (chans n) (fun c => centering_forward tr true g c (b c * non_media_factor x g c) * w_gamma_gn w g c)
              (fun c => centering_forward tr false 0%nat c (b c) * w_gamma_gn w g c))
      by (intros c _; rewrite (baseline_forward x tr (b c) g c Htr (Hf g c Hg)); reflexivity).
    rewrite (rsum_ext (chans n) (fun k => (centering_forward tr true g k (val n g t k) - centering_forward tr false 0%nat k (b k)) * w_gamma_gn w g k)
              (fun k => centering_forward tr true g k (val n g t k) * w_gamma_gn w g k
                        - centering_forward tr false 0%nat k (b k) * w_gamma_gn w g k))
      by (intros; ring).
    rewrite rsum_minus. lra.
  - cbn [transform_centered] in Dn. rewrite Dn in HY |- *.
    unfold fill_missing, baseline_data in Dnb. rewrite En in Dnb. cbn [d_non_media option_map orelse transform_centered] in Dnb.
    rewrite Dnb. destruct HY as (Yc & VY).
    unfold contract at 1.
    rewrite Yc, (rsum_ext _ (fun c => val y g t c) (fun c => val (fst p) g t c * snd (snd p) g c))
      by (intros; apply VY). lra.
Qed.

(** ** Cells *)
Lemma cell_ext : forall G T gi ti ag at' f h i j,
  in_range G gi -> in_range T ti ->
  (ag = false -> (i < length (selection G gi))%nat) ->
  (at' = false -> (j < length (selection T ti))%nat) ->
  (forall g t, (g < G)%nat -> (t < T)%nat -> f g t = h g t) ->
  cell G T gi ti ag at' f i j = cell G T gi ti ag at' h i j.
Proof.
  intros G T gi ti ag at' f h i j Rg Rt Hi Hj H.
  assert (M : forall n idxs b k, in_range n idxs -> (b = false -> (k < length (selection n idxs))%nat) ->
              forall a, In a (members (selection n idxs) b k) -> (a < n)%nat).
  { intros n idxs b k Hr Hk a Ha.
    assert (In a (selection n idxs)).
    { destruct b; cbn in Ha; [exact Ha|]. destruct Ha as [<-|[]]. apply nth_In. apply Hk. reflexivity. }
    destruct idxs as [l|]; cbn in *.
    - rewrite Forall_forall in Hr. apply Hr. assumption.
    - apply in_seq in H0. lia. }
  unfold cell, total. apply lsum_map_ext. intros g Hg. apply lsum_map_ext. intros t Ht.
  apply H; eapply M; eauto.
Qed.

Lemma total_plus : forall l f h, total l (fun a => f a + h a) = total l f + total l h.
Proof. intros. apply lsum_map_plus. Qed.

Lemma cell_plus : forall G T gi ti ag at' f h i j,
  cell G T gi ti ag at' (fun g t => f g t + h g t) i j
  = cell G T gi ti ag at' f i j + cell G T gi ti ag at' h i j.
Proof.
  intros. unfold cell. rewrite <- total_plus. unfold total at 1 4. apply lsum_map_ext.
  intros g _. apply total_plus.
Qed.

Lemma total_zero : forall l, total l (fun _ => 0) = 0.
Proof. induction l as [|a l IH]; unfold total in *; cbn; [reflexivity|]. rewrite IH. lra. Qed.

Lemma cell_zero : forall G T gi ti ag at' i j, cell G T gi ti ag at' (fun _ _ => 0) i j = 0.
Proof.
  intros. unfold cell. transitivity (total (members (selection G gi) ag i) (fun _ => 0)); [|apply total_zero].
  unfold total at 1 3. apply lsum_map_ext. intros g _. apply total_zero.
Qed.

Lemma cell_rsum : forall G T gi ti ag at' n (f : nat -> nat -> nat -> R) i j,
  cell G T gi ti ag at' (fun g t => rsum n (fun c => f c g t)) i j
  = rsum n (fun c => cell G T gi ti ag at' (f c) i j).
Proof.
  induction n as [|n IH]; intros f i j; cbn [rsum].
  - apply cell_zero.
  - rewrite cell_plus, IH. reflexivity.
Qed.

(** ** Inverting the filter *)
Lemma filter_media_inv : forall k G NT T C x gi ti ag at' out,
  shape x = [G; T; C] ->
  filter_and_aggregate k G NT x gi ti ag at' true true = Ok out ->
  in_range G gi /\ in_range T ti /\
  shape out = dimension G gi ag ++ dimension T ti at' ++ [C] /\
  forall i j c, (ag = false -> (i < length (selection G gi))%nat) ->
      (at' = false -> (j < length (selection T ti))%nat) ->
      at_ out (position ag i ++ position at' j ++ [c])
      = cell G T gi ti ag at' (fun g t => at_ x [g; t; c]) i j.
Proof.
  intros k G NT T C x gi ti ag at' out Hs H.
  assert (In C (allowed_channel_dim k) /\ in_range G gi /\ in_range T ti) as (HC & Rg & Rt).
  { unfold filter_and_aggregate in H. inv_rbind H md Hmd. unfold resolve_media_dim in Hmd.
    apply raise_if_inv in Hmd. destruct Hmd as [_ Hmd]. cbv zeta in Hmd.
    apply raise_if_inv in Hmd. destruct Hmd as [Hm Hmd]. cbn [andb] in Hm. apply negb_false_iff in Hm.
    apply shape_with_media_spec in Hm. destruct Hm as (c & Hc & E). rewrite Hs in E.
    cbn in E. assert (c = C) by congruence. subst c.
    cbn [negb andb raise_if] in Hmd. assert (md = true) by congruence. subst md.
    cbv zeta in H. unfold M_Budget.ndim in H. rewrite Hs in H. cbn [length Nat.sub] in H.
    inv_rbind H x1 H1. inv_rbind H x2 H2.
    destruct (gather_opt_spec x [] G [T; C] gi x1 Hs H1) as (R1 & S1 & _).
    destruct (gather_opt_spec x1 [length (selection G gi)] T [C] ti x2 S1 H2) as (R2 & _). auto. }
  destruct (filter_media_lemma k G NT T C x [] gi ti ag at' true true Hs HC Rg Rt eq_refl)
    as (out' & E & So & Vo).
  assert (out' = out) by congruence. subst out'. repeat (split; [assumption|]).
  intros i j c Hi Hj. exact (Vo [] i j c eq_refl Hi Hj).
Qed.

Lemma filter_plain_inv : forall k G T x gi ti ag at' out,
  shape x = [G; T] ->
  filter_and_aggregate k G T x gi ti ag at' false false = Ok out ->
  in_range G gi /\ in_range T ti /\
  shape out = dimension G gi ag ++ dimension T ti at' /\
  forall i j, (ag = false -> (i < length (selection G gi))%nat) ->
      (at' = false -> (j < length (selection T ti))%nat) ->
      at_ out (position ag i ++ position at' j)
      = cell G T gi ti ag at' (fun g t => at_ x [g; t]) i j.
Proof.
  intros k G T x gi ti ag at' out Hs H.
  assert (NM : forall c, In c (allowed_channel_dim k) -> last_dims 3 (shape x) <> [G; T; c])
    by (intros c _; rewrite Hs; cbn; congruence).
  assert (in_range G gi /\ in_range T ti) as (Rg & Rt).
  { unfold filter_and_aggregate in H. inv_rbind H md Hmd. unfold resolve_media_dim in Hmd.
    destruct (shape_with_media k G T (last_dims 3 (shape x))) eqn:E.
    { apply shape_with_media_spec in E. destruct E as (c & Hc & E). exfalso. exact (NM c Hc E). }
    destruct (shape_eqb (last_dims 2 (shape x)) [G; T]); [|discriminate].
    assert (md = false) by congruence. subst md.
    cbv zeta in H. unfold M_Budget.ndim in H. rewrite Hs in H. cbn [length Nat.sub] in H.
    inv_rbind H x1 H1. inv_rbind H x2 H2.
    destruct (gather_opt_spec x [] G [T] gi x1 Hs H1) as (R1 & S1 & _).
    destruct (gather_opt_spec x1 [length (selection G gi)] T [] ti x2 S1 H2) as (R2 & _). auto. }
  destruct (filter_no_media_lemma k G T T x [] gi ti ag at' false false Hs Rg Rt (conj eq_refl NM))
    as (out' & E & So & Vo).
  assert (out' = out) by congruence. subst out'. repeat (split; [assumption|]).
  intros i j Hi Hj. exact (Vo [] i j eq_refl Hi Hj).
Qed.

(** ** Inverting the calls *)
Lemma resolve_time_indep : forall t n n' s a b,
  resolve_time_indices t n s = Ok a -> resolve_time_indices t n' s = Ok b -> a = b.
Proof.
  intros t n n' [s|] a b Ha Hb; cbn [resolve_time_indices] in *; [|congruence].
  inv_rbind Ha u Hu. inv_rbind Hb v Hv. congruence.
Qed.

Lemma package_inv : forall x d gs ts b m i, package x d gs ts b m = Ok i ->
  i_data i = d /\ i_baseline i = b /\ i_mask i = m /\
  resolve_geo_indices (x_geo x) gs = Ok (i_geo i) /\
  exists n, resolve_time_indices (x_time x) n ts = Ok (i_time i).
Proof.
  intros x d gs ts b m i H. unfold package in H. cbv zeta in H.
  inv_rbind H gi Hg. inv_rbind H ti Ht. injection H as <-. cbn. repeat (split; [auto|]). eauto.
Qed.

(** Outcome of a modelled KPI value, as [expected_outcome] reports it. *)
Definition outcome_of (x : model) (inverse use_kpi : bool) (g t : nat) (v : R) : R :=
  if inverse then
    kpi_inverse (kpi_tr x) g v
    * (if resolve_use_kpi x use_kpi then 1
       else match d_revenue_per_kpi (x_data x) with Some r => val2 r g t | None => 0 end)
  else v.

Lemma expected_inv : forall x nd gs ts ag at' inv uk bs draws E,
  d_revenue_per_kpi nd = None ->
  expected_outcome x nd gs ts ag at' inv uk bs draws = Ok E ->
  let d := scale_data_tensors x (fill_missing x nd true true) true in
  length E = length draws /\
  exists gi ti n, resolve_geo_indices (x_geo x) gs = Ok gi /\
    resolve_time_indices (x_time x) n ts = Ok ti /\
    forall k w0 E0, (k < length draws)%nat ->
      exists m, kpi_means x d (nth k draws w0) = Ok m /\
        in_range (x_n_geos x) gi /\ in_range (x_n_times x) ti /\
        shape (nth k E E0) = dimension (x_n_geos x) gi ag ++ dimension (x_n_times x) ti at' /\
        forall i j, (ag = false -> (i < length (selection (x_n_geos x) gi))%nat) ->
          (at' = false -> (j < length (selection (x_n_times x) ti))%nat) ->
          at_ (nth k E E0) (position ag i ++ position at' j)
          = cell (x_n_geos x) (x_n_times x) gi ti ag at'
              (fun g t => outcome_of x inv uk g t (val2 m g t)) i j.
Proof.
  intros x nd gs ts ag at' inv uk bs draws E Hr H d. unfold expected_outcome in H. cbv zeta in H.
  inv_rbind H u Hu. apply raise_if_inv in H. destruct H as [Hmod H].
  inv_rbind H i Hi. inv_rbind H means Hm. fold d in Hi, Hm, H.
  apply run_batched_inv in Hm. destruct Hm as (_ & _ & Hm).
  apply package_inv in Hi. destruct Hi as (_ & _ & _ & Hg & n & Ht).
  split; [rewrite (mapM_length _ _ _ _ _ H), (mapM_length _ _ _ _ _ Hm); reflexivity|].
  exists (i_geo i), (i_time i), n. split; [exact Hg|]. split; [exact Ht|].
  intros k w0 E0 Hk.
  pose proof (mapM_nth _ _ _ _ _ Hm k w0 (mkT2 0 0 (fun _ _ => 0)) Hk) as Hmk.
  set (m := nth k means (mkT2 0 0 (fun _ _ => 0))) in *.
  assert (Hk' : (k < length means)%nat) by (rewrite (mapM_length _ _ _ _ _ Hm); exact Hk).
  pose proof (mapM_nth _ _ _ _ _ H k (mkT2 0 0 (fun _ _ => 0)) E0 Hk') as HE. fold m in HE.
  cbv beta zeta in HE. inv_rbind HE m' Hm'.
  pose proof (kpi_means_inv x d _ m Hmk) as (_ & _ & _ & _ & Mg & Mt & _).
  assert (V : geos2 m' = x_n_geos x /\ times2 m' = x_n_times x /\
              forall g t, val2 m' g t = outcome_of x inv uk g t (val2 m g t)).
  { unfold outcome_of. destruct inv.
    - destruct (resolve_use_kpi x uk) eqn:Eu.
      + injection Hm' as <-. cbn. repeat split; auto. intros; lra.
      + destruct (d_revenue_per_kpi d) as [r|] eqn:Er; [|discriminate].
        cbn [geos2 times2 val2] in Hm'.
        match type of Hm' with (if ?c then _ else _) = _ => destruct c; [|discriminate] end.
        injection Hm' as <-. cbn [geos2 times2 val2]. repeat (split; [assumption|]). intros g t.
        assert (E1 : d_revenue_per_kpi (x_data x) = Some r).
        { rewrite <- Er. subst d. unfold scale_data_tensors, fill_missing.
          cbn [d_revenue_per_kpi]. rewrite Hr. reflexivity. }
        rewrite E1. reflexivity.
    - assert (m' = m) by congruence. subst m'. auto. }
  destruct V as (Vg & Vt & V).
  exists m. split; [exact Hmk|].
  assert (Sm : shape (of2 m') = [x_n_geos x; x_n_times x]) by (cbn; congruence).
  destruct (filter_plain_inv _ _ _ _ _ _ _ _ _ Sm HE) as (Rg & Rt & So & Vo).
  repeat (split; [assumption|]). intros i0 j0 Hi0 Hj0. rewrite Vo by assumption.
  apply cell_ext; auto. intros g t _ _. cbn. apply V.
Qed.

(** ** Baseline values *)
Lemma fold_min_spec : forall r a, In (fold_left Rmin r a) (a :: r) /\
  forall v, In v (a :: r) -> fold_left Rmin r a <= v.
Proof.
  induction r as [|b r IH]; intros a; cbn [fold_left].
  - split; [left; reflexivity|]. intros v [<-|[]]. lra.
  - destruct (IH (Rmin a b)) as [I1 I2]. split.
    + destruct I1 as [I1|I1]; [|right; right; exact I1].
      rewrite <- I1. unfold Rmin. destruct (Rle_dec a b); [left|right; left]; reflexivity.
    + intros v [<-|[<-|Hv]].
      * eapply Rle_trans; [apply I2; left; reflexivity|apply Rmin_l].
      * eapply Rle_trans; [apply I2; left; reflexivity|apply Rmin_r].
      * apply I2. right. exact Hv.
Qed.
Lemma fold_max_spec : forall r a, In (fold_left Rmax r a) (a :: r) /\
  forall v, In v (a :: r) -> v <= fold_left Rmax r a.
Proof.
  induction r as [|b r IH]; intros a; cbn [fold_left].
  - split; [left; reflexivity|]. intros v [<-|[]]. lra.
  - destruct (IH (Rmax a b)) as [I1 I2]. split.
    + destruct I1 as [I1|I1]; [|right; right; exact I1].
      rewrite <- I1. unfold Rmax. destruct (Rle_dec a b); [right; left|left]; reflexivity.
    + intros v [<-|[<-|Hv]].
      * eapply Rle_trans; [apply Rmax_l|apply I2; left; reflexivity].
      * eapply Rle_trans; [apply Rmax_r|apply I2; left; reflexivity].
      * apply I2. right. exact Hv.
Qed.

Lemma per_capita_values : forall x n c,
  d_non_media (x_data x) = Some n -> geos n = x_n_geos x ->
  (forall g k, (g < x_n_geos x)%nat -> non_media_factor x g k <> 0) ->
  channel_values (mkT3 (geos n) (times n) (chans n)
     (fun g t c => divide_no_nan (val n g t c) (non_media_factor x g c))) c = per_capita x c.
Proof.
  intros x n c Hn Hg Hf. unfold per_capita, channel_values. rewrite Hn. cbn [geos times val].
  assert (E : forall l, (forall g, In g l -> (g < x_n_geos x)%nat) ->
    flat_map (fun g => map (fun t => divide_no_nan (val n g t c) (non_media_factor x g c)) (seq 0 (times n))) l
    = flat_map (fun g => map (fun t => val n g t c / non_media_factor x g c) (seq 0 (times n))) l).
  { induction l as [|g l IH]; intros H; [reflexivity|]. cbn [flat_map]. f_equal.
    - apply map_ext. intros t. unfold divide_no_nan.
      destruct (Req_EM_T (non_media_factor x g c) 0) as [E|_]; [|reflexivity].
      exfalso. exact (Hf g c (H g (or_introl eq_refl)) E).
    - apply IH. intros; apply H. right. assumption. }
  apply E. intros g Hg'. apply in_seq in Hg'. lia.
Qed.

Lemma baseline_value_unique : forall x v n b c r,
  d_non_media (x_data x) = Some n -> geos n = x_n_geos x ->
  (forall g k, (g < x_n_geos x)%nat -> non_media_factor x g k <> 0) ->
  compute_non_media_baseline x v = Ok b -> (c < chans n)%nat ->
  is_baseline_value x v c r -> b c = r.
Proof.
  intros x v n b c r Hn Hg Hf H Hc Hr. unfold compute_non_media_baseline in H. rewrite Hn in H.
  cbv zeta in H. apply raise_if_inv in H. destruct H as [Hl H]. apply negb_false_iff, Nat.eqb_eq in Hl.
  apply raise_if_inv in H. destruct H as [Ho H].
  set (filled := match orelse v (x_non_media_baseline_values x) with
                 | Some l => l | None => repeat BMin (chans n) end) in *.
  assert (E : nth c filled BOther = match v with
                | Some l => nth c l BOther
                | None => match x_non_media_baseline_values x with
                          | Some l => nth c l BOther | None => BMin end
                end).
  { subst filled. destruct v as [l|]; [reflexivity|]. cbn [orelse].
    destruct (x_non_media_baseline_values x); [reflexivity|].
    clear Ho. rewrite nth_indep with (d' := BMin) by (rewrite repeat_length; exact Hc).
    apply nth_repeat. }
  injection H as <-. unfold is_baseline_value in Hr. cbv zeta in Hr. rewrite <- E in Hr.
  destruct (nth c filled BOther).
  - rewrite (per_capita_values x n c Hn Hg Hf). destruct Hr as [H1 H2].
    destruct (per_capita x c) as [|a l] eqn:EP; [destruct H1|].
    cbn [list_min]. destruct (fold_min_spec l a) as [F1 F2].
    apply Rle_antisym; [apply F2; exact H1|apply H2; exact F1].
  - rewrite (per_capita_values x n c Hn Hg Hf). destruct Hr as [H1 H2].
    destruct (per_capita x c) as [|a l] eqn:EP; [destruct H1|].
    cbn [list_max]. destruct (fold_max_spec l a) as [F1 F2].
    apply Rle_antisym; [apply H2; exact F1|apply F2; exact H1].
  - congruence.
  - contradiction.
Qed.

Lemma baseline_value_computed : forall x v n b c,
  d_non_media (x_data x) = Some n -> geos n = x_n_geos x -> (0 < geos n)%nat -> (0 < times n)%nat ->
  (forall g k, (g < x_n_geos x)%nat -> non_media_factor x g k <> 0) ->
  compute_non_media_baseline x v = Ok b -> (c < chans n)%nat ->
  is_baseline_value x v c (b c).
Proof.
  intros x v n b c Hn Hg Hgp Htp Hf H Hc. unfold compute_non_media_baseline in H. rewrite Hn in H.
  cbv zeta in H. apply raise_if_inv in H. destruct H as [Hl H]. apply negb_false_iff, Nat.eqb_eq in Hl.
  apply raise_if_inv in H. destruct H as [Ho H].
  set (filled := match orelse v (x_non_media_baseline_values x) with
                 | Some l => l | None => repeat BMin (chans n) end) in *.
  assert (E : nth c filled BOther = match v with
                | Some l => nth c l BOther
                | None => match x_non_media_baseline_values x with
                          | Some l => nth c l BOther | None => BMin end
                end).
  { subst filled. destruct v as [l|]; [reflexivity|]. cbn [orelse].
    destruct (x_non_media_baseline_values x); [reflexivity|].
    clear Ho. rewrite nth_indep with (d' := BMin) by (rewrite repeat_length; exact Hc).
    apply nth_repeat. }
  assert (NO : nth c filled BOther <> BOther).
  { intros E'. assert (In BOther filled) by (rewrite <- E'; apply nth_In; lia).
    assert (existsb (fun b0 => match b0 with BOther => true | _ => false end) filled = true)
      by (apply existsb_exists; exists BOther; auto). congruence. }
  assert (NE : per_capita x c <> []).
  { unfold per_capita. rewrite Hn. destruct (geos n); [lia|]. destruct (times n); [lia|]. discriminate. }
  injection H as <-. unfold is_baseline_value. cbv zeta. rewrite <- E.
  destruct (nth c filled BOther); [| | reflexivity | congruence];
  rewrite (per_capita_values x n c Hn Hg Hf).
  - destruct (per_capita x c) as [|a l]; [congruence|]. exact (fold_min_spec l a).
  - destruct (per_capita x c) as [|a l]; [congruence|]. exact (fold_max_spec l a).
Qed.

(** ** Scenarios *)
Lemma transformed_ext : forall x d d' w no,
  d_media d = d_media d' -> d_reach d = d_reach d' -> d_frequency d = d_frequency d' ->
  d_organic_media d = d_organic_media d' -> d_organic_reach d = d_organic_reach d' ->
  d_organic_frequency d = d_organic_frequency d' ->
  transformed_media_and_beta x d w no = transformed_media_and_beta x d' w no.
Proof.
  intros x d d' w no E1 E2 E3 E4 E5 E6. unfold transformed_media_and_beta.
  rewrite E1, E2, E3, E4, E5, E6. reflexivity.
Qed.

(** The multiplier of a period. *)
Definition multiplier (f : R) (sel : option (list bool)) (n : nat) (t : nat) : R :=
  1 + (f - 1) * (if nth t (match sel with None => repeat true n | Some l => l end) true then 1 else 0).

Lemma times_f_scale : forall f sel n y, times_f f sel y = scale3 (multiplier f sel n) y.
Proof.
  intros f sel n [G T C v]. unfold times_f, scale3, multiplier, executed. cbn. f_equal.
  extensionality g. extensionality t. extensionality c.
  replace (nth t (match sel with None => repeat true n | Some l => l end) true)
    with (match sel with Some l => nth t l true | None => true end).
  - destruct sel as [l|]; [destruct (nth t l true)|]; lra.
  - destruct sel as [l|]; [reflexivity|]. symmetry.
    destruct (Nat.lt_ge_cases t n).
    + apply nth_repeat.
    + rewrite nth_overflow; [reflexivity|rewrite repeat_length; lia].
Qed.

Lemma scenario_fill : forall x f sel n br nm,
  paired (d_reach (x_data x)) (d_frequency (x_data x)) ->
  paired (d_organic_reach (x_data x)) (d_organic_frequency (x_data x)) ->
  let s := scale_tensors_by_multiplier (x_data x) (multiplier f sel n) br in
  fill_missing x (scenario x f sel br nm) true true
  = mkData (d_media s) (d_reach s) (d_frequency s) (d_organic_media s) (d_organic_reach s)
      (d_organic_frequency s) (orelse nm (d_non_media (x_data x))) (d_controls (x_data x))
      (d_revenue_per_kpi (x_data x)).
Proof.
  intros x f sel n br nm P1 P2. unfold scenario, fill_missing, scale_tensors_by_multiplier. cbv zeta.
  assert (E : times_f f sel = scale3 (multiplier f sel n)) by (extensionality y; apply times_f_scale).
  rewrite E. cbn [d_media d_reach d_frequency d_organic_media d_organic_reach d_organic_frequency
    d_non_media d_controls d_revenue_per_kpi].
  unfold paired in *.
  f_equal;
  repeat match goal with
  | |- context [d_media (x_data x)] => destruct (d_media (x_data x))
  | |- context [d_organic_media (x_data x)] => destruct (d_organic_media (x_data x))
  | |- context [d_reach (x_data x)] => destruct (d_reach (x_data x)), (d_frequency (x_data x)); try contradiction
  | |- context [d_frequency (x_data x)] => destruct (d_reach (x_data x)), (d_frequency (x_data x)); try contradiction
  | |- context [d_organic_reach (x_data x)] => destruct (d_organic_reach (x_data x)), (d_organic_frequency (x_data x)); try contradiction
  | |- context [d_organic_frequency (x_data x)] => destruct (d_organic_reach (x_data x)), (d_organic_frequency (x_data x)); try contradiction
  end; destruct br; reflexivity.
Qed.
