(** Proofs about flighting tensors. *)
From Coq Require Import Reals QArith List Bool Arith Lia Lra.
From Verif Require Import Lib_Sum M_Base M_Budget S_Budget P_Spec P_OptGrid.
Import ListNotations.
Local Open Scope R_scope.

Lemma shape_eqb_iff : forall a b, shape_eqb a b = true <-> a = b.
Proof. intros a b; unfold shape_eqb; destruct (list_eq_dec Nat.eq_dec a b); split; congruence. Qed.

Lemma shape_eqb_false : forall a b, shape_eqb a b = false <-> a <> b.
Proof. intros a b; unfold shape_eqb; destruct (list_eq_dec Nat.eq_dec a b); split; congruence. Qed.

Lemma zip_ok : forall f x y z, zip_tensor f x y = Ok z ->
  shape x = shape y /\ shape z = shape x /\ (forall i, at_ z i = f (at_ x i) (at_ y i)).
Proof.
  intros f x y z; unfold zip_tensor. destruct (shape_eqb (shape x) (shape y)) eqn:E; [|discriminate].
  apply shape_eqb_iff in E. intros H; injection H as <-. auto.
Qed.

Lemma zip_total : forall f x y, shape x = shape y -> exists z, zip_tensor f x y = Ok z.
Proof.
  intros f x y H; unfold zip_tensor. apply shape_eqb_iff in H. rewrite H. eexists; reflexivity.
Qed.

(** ** Expansion *)
Lemma expand_spec : forall x G T C y, expand_tensor x [G; T; C] = Ok y ->
  cost_shape G T C x /\ shape y = [G; T; C] /\
  forall g t c, at_ y [g; t; c] = given_for x g t c.
Proof.
  intros [sh f] G T C y; unfold expand_tensor, ndim, cost_shape, given_for; cbn [shape at_].
  destruct (shape_eqb sh [G; T; C]) eqn:E.
  - apply shape_eqb_iff in E; subst sh. intros H; injection H as <-. cbn. auto 6.
  - destruct sh as [|a [|b [|d [|e r]]]]; cbn [length Nat.eqb Nat.leb Nat.sub skipn andb].
    + intros H; injection H as <-. cbn. auto 6.
    + destruct (shape_eqb [a] [C]) eqn:E1; [|discriminate].
      apply shape_eqb_iff in E1; injection E1 as ->. intros H; injection H as <-. cbn. auto 6.
    + destruct (shape_eqb [a; b] [T; C]) eqn:E1; [|discriminate].
      apply shape_eqb_iff in E1; injection E1 as -> ->. intros H; injection H as <-. cbn. auto 6.
    + rewrite E. discriminate.
    + discriminate.
Qed.

Lemma expand_total : forall x G T C, cost_shape G T C x -> exists y, expand_tensor x [G; T; C] = Ok y.
Proof.
  intros [sh f] G T C; unfold expand_tensor, ndim, cost_shape; cbn [shape at_].
  destruct (shape_eqb sh [G; T; C]) eqn:E; [eexists; reflexivity|].
  apply shape_eqb_false in E.
  intros [->|[->|[->| ->]]]; cbn [length Nat.eqb Nat.leb Nat.sub skipn andb]; [| | |congruence].
  - eexists; reflexivity.
  - unfold shape_eqb; destruct (list_eq_dec Nat.eq_dec [C] [C]); [eexists; reflexivity|congruence].
  - unfold shape_eqb; destruct (list_eq_dec Nat.eq_dec [T; C] [T; C]); [eexists; reflexivity|congruence].
Qed.

Lemma expand2_spec : forall x G T y, expand_tensor x [G; T] = Ok y ->
  rpk_shape G T x /\ shape y = [G; T] /\ forall g t, at_ y [g; t] = given_for2 x g t.
Proof.
  intros [sh f] G T y; unfold expand_tensor, ndim, rpk_shape, given_for2; cbn [shape at_].
  destruct (shape_eqb sh [G; T]) eqn:E.
  - apply shape_eqb_iff in E; subst sh. intros H; injection H as <-. cbn. auto 6.
  - destruct sh as [|a [|b [|d r]]]; cbn [length Nat.eqb Nat.leb Nat.sub skipn andb].
    + intros H; injection H as <-. cbn. auto 6.
    + destruct (shape_eqb [a] [T]) eqn:E1; [|discriminate].
      apply shape_eqb_iff in E1; injection E1 as ->. intros H; injection H as <-. cbn. auto 6.
    + rewrite E. discriminate.
    + discriminate.
Qed.

Lemma expand2_total : forall x G T, rpk_shape G T x -> exists y, expand_tensor x [G; T] = Ok y.
Proof.
  intros [sh f] G T; unfold expand_tensor, ndim, rpk_shape; cbn [shape at_].
  destruct (shape_eqb sh [G; T]) eqn:E; [eexists; reflexivity|].
  apply shape_eqb_false in E.
  intros [->|[->| ->]]; cbn [length Nat.eqb Nat.leb Nat.sub skipn andb]; [| |congruence].
  - eexists; reflexivity.
  - unfold shape_eqb; destruct (list_eq_dec Nat.eq_dec [T] [T]); [eexists; reflexivity|congruence].
Qed.

(** ** Allocation *)
Lemma alloc_total : forall G pop x n C0 C1, shape x = [C0; C1] \/ (exists n0, shape x = [n0; C0; C1]) ->
  n = 3%nat -> exists y, allocate_by_population G pop n x = Ok y.
Proof.
  intros G pop x n C0 C1 H ->. unfold allocate_by_population, ndim.
  destruct H as [H|[n0 H]]; rewrite H; cbn; eexists; reflexivity.
Qed.

Lemma alloc_ok : forall G pop x y, allocate_by_population G pop 3 x = Ok y ->
  (exists a b c, shape x = [a; b; c] /\ y = x) \/
  (exists b c, shape x = [b; c] /\ shape y = [G; b; c] /\
     forall g i, at_ y (g :: i) = at_ x i * (pop g / rsum G pop)).
Proof.
  intros G pop [sh f] y; unfold allocate_by_population, ndim; cbn [shape at_].
  destruct sh as [|a [|b [|d [|e r]]]]; cbn [length Nat.eqb negb]; try discriminate.
  - intros H; injection H as <-. right. exists a, b. auto.
  - intros H; injection H as <-. left. exists a, b, d. auto.
Qed.

Lemma alloc_spreads : forall G T C pop x y, 0 < rsum G pop -> data_shape G T C x ->
  allocate_by_population G pop 3 x = Ok y -> spreads G T C pop x y.
Proof.
  intros G T C pop x y HP Hs Ha. unfold spreads.
  destruct (alloc_ok _ _ _ _ Ha) as [[a [b [d [Hx ->]]]]|[b [d [Hx [Hy Hv]]]]].
  - destruct Hs as [Hs|Hs]; [congruence|]. split; [assumption|]. split; [auto|]. congruence.
  - destruct Hs as [Hs|Hs]; [|congruence]. rewrite Hs in Hx; injection Hx as <- <-.
    split; [assumption|]. split; [congruence|]. intros _ t c. split.
    + rewrite (rsum_ext G _ (fun g => at_ x [t; c] * (pop g / rsum G pop)))
        by (intros; apply Hv).
      rewrite rsum_scal, rsum_div. field. lra.
    + intros g h. rewrite !Hv. field. lra.
Qed.

Lemma alloc_nonneg : forall G pop x y, 0 < rsum G pop ->
  (forall g, (g < G)%nat -> 0 <= pop g) -> (forall i, 0 <= at_ x i) ->
  allocate_by_population G pop 3 x = Ok y ->
  forall g t c, (g < G)%nat -> 0 <= at_ y [g; t; c].
Proof.
  intros G pop x y HP Hp Hx Ha g t c Hg.
  destruct (alloc_ok _ _ _ _ Ha) as [[a [b [d [_ ->]]]]|[b [d [_ [_ Hv]]]]]; [auto|].
  rewrite Hv. apply Rmult_le_pos; [auto|]. apply Rmult_le_pos; [auto|].
  apply Rlt_le, Rinv_0_lt_compat; lra.
Qed.

(** Rejections of the allocation. *)
Lemma alloc_rejects : forall G pop x,
  allocate_by_population G pop 3 x = Err ValueError <->
  (length (shape x) <> 2 /\ length (shape x) <> 3)%nat.
Proof.
  intros G pop x; unfold allocate_by_population, ndim.
  destruct (length (shape x)) as [|[|[|[|n]]]]; cbn [Nat.eqb negb]; split; intros H;
    try discriminate; try reflexivity; try lia; split; lia.
Qed.

(** ** Validation *)
Lemma sizes_ok : forall G l, existsb (fun n => negb (Nat.eqb n G)) l = false <-> (forall n, In n l -> n = G).
Proof.
  intros G l. rewrite existsb_false. rewrite Forall_forall. split; intros H n Hn; specialize (H n Hn).
  - apply negb_false_iff, Nat.eqb_eq in H. exact H.
  - cbv beta. apply negb_false_iff, Nat.eqb_eq. exact H.
Qed.

Lemma geo_size_in : forall n x, In n (geo_sizes x) <-> exists t b c, x = Some t /\ shape t = [n; b; c].
Proof.
  intros n [[sh f]|]; cbn [geo_sizes shape].
  - destruct sh as [|a [|b [|c [|d r]]]]; cbn; split;
      try (intros []; fail); try (intros [t [b0 [c0 [H H1]]]]; injection H as <-; cbn in H1; discriminate).
    + intros [->|[]]. exists (mkTensor [n; b; c] f), b, c. auto.
    + intros [t [b0 [c0 [H H1]]]]. injection H as <-. cbn in H1. injection H1 as -> _ _. auto.
  - split; [intros []|]. intros [t [b [c [H _]]]]; discriminate.
Qed.

Lemma time_size_in : forall n x, In n (time_sizes x) <->
  exists t, x = Some t /\ ((exists a c, shape t = [a; n; c]) \/ (exists c, shape t = [n; c])).
Proof.
  intros n [[sh f]|]; cbn [time_sizes shape].
  - destruct sh as [|a [|b [|c [|d r]]]]; cbn; split;
      try (intros []; fail);
      try (intros [t [H [[a0 [c0 H1]]|[c0 H1]]]]; injection H as <-; cbn in H1; congruence).
    + intros [->|[]]. exists (mkTensor [n; b] f). split; [reflexivity|right]. exists b; reflexivity.
    + intros [t [H [[a0 [c0 H1]]|[c0 H1]]]]; injection H as <-; cbn in H1; [congruence|].
      injection H1 as -> _. auto.
    + intros [->|[]]. exists (mkTensor [a; n; c] f). split; [reflexivity|left]. exists a, c; reflexivity.
    + intros [t [H [[a0 [c0 H1]]|[c0 H1]]]]; injection H as <-; cbn in H1; [|congruence].
      injection H1 as _ -> _. auto.
  - split; [intros []|]. intros [t [H _]]; discriminate.
Qed.

Lemma validate_iff : forall G T a,
  validate_optimization_tensors G T a = Ok tt <->
  ((given (a_media a) || given (a_media_spend a)) && negb (given (a_cpmu a)) = false /\
   negb (given (a_media a)) && negb (given (a_media_spend a)) && given (a_cpmu a) = false /\
   (given (a_rf_impressions a) || given (a_rf_spend a)) && negb (given (a_cprf a)) = false /\
   negb (given (a_rf_impressions a)) && negb (given (a_rf_spend a)) && given (a_cprf a) = false /\
   given (a_media a) && given (a_media_spend a) = false /\
   given (a_rf_impressions a) && given (a_rf_spend a) = false /\
   a_use_optimal_frequency a && given (a_frequency a) = false /\
   negb (a_use_optimal_frequency a) && negb (given (a_frequency a))
      && (given (a_rf_impressions a) || given (a_rf_spend a)) = false) /\
  (let ts := [a_cpmu a; a_cprf a; a_media a; a_rf_impressions a; a_frequency a;
             a_media_spend a; a_rf_spend a] in
   (forall x t, In x ts -> x = Some t -> forall g n c, shape t = [g; n; c] -> g = G /\ n = T) /\
   (forall x t, In x ts -> x = Some t -> forall n c, shape t = [n; c] -> n = T) /\
   (forall r, a_revenue_per_kpi a = Some r ->
      (forall g n, shape r = [g; n] -> g = G /\ n = T) /\ (forall n, shape r = [n] -> n = T))).
Proof.
  intros G T a. unfold validate_optimization_tensors.
  rewrite !raise_if_ok. rewrite !sizes_ok.
  set (ts := [a_cpmu a; a_cprf a; a_media a; a_rf_impressions a; a_frequency a; a_media_spend a; a_rf_spend a]).
  cbv zeta.
  assert (Hr1 : forall n, In n (rpk_geo_sizes (a_revenue_per_kpi a)) <->
                 exists r m, a_revenue_per_kpi a = Some r /\ shape r = [n; m]).
  { intros n. destruct (a_revenue_per_kpi a) as [[sh f]|]; cbn [rpk_geo_sizes shape].
    - destruct sh as [|x [|y [|z r]]]; cbn; split; try (intros []; fail);
        try (intros [r0 [m [H H1]]]; injection H as <-; cbn in H1; congruence).
      + intros [->|[]]. eexists _, y; split; reflexivity.
      + intros [r0 [m [H H1]]]; injection H as <-; cbn in H1. injection H1 as -> _. auto.
    - split; [intros []|]. intros [r [m [H _]]]; discriminate. }
  assert (Hr2 : forall n, In n (rpk_time_sizes (a_revenue_per_kpi a)) <->
                 exists r, a_revenue_per_kpi a = Some r /\ ((exists m, shape r = [m; n]) \/ shape r = [n])).
  { intros n. destruct (a_revenue_per_kpi a) as [[sh f]|]; cbn [rpk_time_sizes shape].
    - destruct sh as [|x [|y [|z r]]]; cbn; split; try (intros []; fail);
        try (intros [r0 [H [[m H1]|H1]]]; injection H as <-; cbn in H1; congruence).
      + intros [->|[]]. eexists; split; [reflexivity|]. right; reflexivity.
      + intros [r0 [H [[m H1]|H1]]]; injection H as <-; cbn in H1; [congruence|].
        injection H1 as ->. auto.
      + intros [->|[]]. eexists; split; [reflexivity|]. left; exists x; reflexivity.
      + intros [r0 [H [[m H1]|H1]]]; injection H as <-; cbn in H1; [|congruence].
        injection H1 as _ ->. auto.
    - split; [intros []|]. intros [r [H _]]; discriminate. }
  assert (HG : (forall n, In n (flat_map geo_sizes ts ++ rpk_geo_sizes (a_revenue_per_kpi a)) -> n = G) <->
     (forall x t, In x ts -> x = Some t -> forall g n c, shape t = [g; n; c] -> g = G) /\
     (forall r, a_revenue_per_kpi a = Some r -> forall g n, shape r = [g; n] -> g = G)).
  { split.
    - intros H. split.
      + intros x t Hx Ht g n c Hs. apply H. apply in_or_app; left. apply in_flat_map.
        exists x. split; [exact Hx|]. apply geo_size_in. exists t, n, c. auto.
      + intros r Hr g n Hs. apply H. apply in_or_app; right. apply Hr1. exists r, n. auto.
    - intros [H1 H2] n Hn. apply in_app_or in Hn. destruct Hn as [Hn|Hn].
      + apply in_flat_map in Hn. destruct Hn as [x [Hx Hn]]. apply geo_size_in in Hn.
        destruct Hn as [t [b [c [Ht Hs]]]]. exact (H1 x t Hx Ht n b c Hs).
      + apply Hr1 in Hn. destruct Hn as [r [m [Hr Hs]]]. exact (H2 r Hr n m Hs). }
  assert (HT : (forall n, In n (flat_map time_sizes ts ++ rpk_time_sizes (a_revenue_per_kpi a)) -> n = T) <->
     (forall x t, In x ts -> x = Some t -> forall g n c, shape t = [g; n; c] -> n = T) /\
     (forall x t, In x ts -> x = Some t -> forall n c, shape t = [n; c] -> n = T) /\
     (forall r, a_revenue_per_kpi a = Some r ->
        (forall g n, shape r = [g; n] -> n = T) /\ (forall n, shape r = [n] -> n = T))).
  { split.
    - intros H. split; [|split].
      + intros x t Hx Ht g n c Hs. apply H. apply in_or_app; left. apply in_flat_map.
        exists x. split; [exact Hx|]. apply time_size_in. exists t. split; [auto|]. left; exists g, c; auto.
      + intros x t Hx Ht n c Hs. apply H. apply in_or_app; left. apply in_flat_map.
        exists x. split; [exact Hx|]. apply time_size_in. exists t. split; [auto|]. right; exists c; auto.
      + intros r Hr. split; intros; apply H; apply in_or_app; right; apply Hr2; exists r; split; auto.
        left; exists g; assumption.
    - intros [H1 [H2 H3]] n Hn. apply in_app_or in Hn. destruct Hn as [Hn|Hn].
      + apply in_flat_map in Hn. destruct Hn as [x [Hx Hn]]. apply time_size_in in Hn.
        destruct Hn as [t [Ht [[b [c Hs]]|[c Hs]]]]; [exact (H1 x t Hx Ht b n c Hs)|exact (H2 x t Hx Ht n c Hs)].
      + apply Hr2 in Hn. destruct Hn as [r [Hr [[m Hs]|Hs]]]; destruct (H3 r Hr) as [A B];
          [exact (A m n Hs)|exact (B n Hs)]. }
  rewrite HG, HT. clear HG HT Hr1 Hr2. split.
  - intros [E1 [E2 [E3 [E4 [E5 [E6 [E7 [E8 [[A1 A2] [[B1 [B2 B3]] _]]]]]]]]]].
    split; [repeat split; assumption|].
    split; [intros x t Hx Ht g n c Hs; split; [exact (A1 x t Hx Ht g n c Hs)|exact (B1 x t Hx Ht g n c Hs)]|].
    split; [exact B2|]. intros r Hr. destruct (B3 r Hr) as [C1 C2]. split; [|exact C2].
    intros g n Hs. split; [exact (A2 r Hr g n Hs)|exact (C1 g n Hs)].
  - intros [[E1 [E2 [E3 [E4 [E5 [E6 [E7 E8]]]]]]] [A [B D]]].
    do 8 (split; [assumption|]).
    split; [split; [intros x t Hx Ht g n c Hs; exact (proj1 (A x t Hx Ht g n c Hs))|
                    intros r Hr g n Hs; exact (proj1 (proj1 (D r Hr) g n Hs))]|].
    split; [|reflexivity].
    split; [intros x t Hx Ht g n c Hs; exact (proj2 (A x t Hx Ht g n c Hs))|]. split; [exact B|].
    intros r Hr. destruct (D r Hr) as [D1 D2]. split; [|exact D2].
    intros g n Hs; exact (proj2 (D1 g n Hs)).
Qed.

(** ** The four conversions *)
Definition sized (G T : nat) (x : tensor) : Prop :=
  (forall g n c, shape x = [g; n; c] -> g = G /\ n = T) /\ (forall n c, shape x = [n; c] -> n = T).

Lemma sized_data : forall G T C x, data_shape G T C x -> sized G T x.
Proof. intros G T C x [H|H]; split; intros; rewrite H in *; try congruence; split; congruence. Qed.

Lemma sized_cost : forall G T C x, cost_shape G T C x -> sized G T x.
Proof. intros G T C x [H|[H|[H|H]]]; split; intros; rewrite H in *; try congruence; split; congruence. Qed.

Lemma last_dim_data : forall G T C x, data_shape G T C x -> last_dim x = Ok C.
Proof. intros G T C x [H|H]; unfold last_dim; rewrite H; reflexivity. Qed.

Lemma alloc_data : forall G T C pop x, data_shape G T C x ->
  exists y, allocate_by_population G pop 3 x = Ok y /\ shape y = [G; T; C].
Proof.
  intros G T C pop x H.
  assert (exists y, allocate_by_population G pop 3 x = Ok y) as [y Hy]
    by (destruct H as [H|H]; eapply alloc_total; eauto).
  exists y. split; [exact Hy|].
  destruct (alloc_ok _ _ _ _ Hy) as [[a [b [d [Hx ->]]]]|[b [d [Hx [Hs _]]]]];
    destruct H as [H|H]; congruence.
Qed.

Lemma alloc_sized : forall G T pop x y n, sized G T x -> last_dim x = Ok n ->
  allocate_by_population G pop 3 x = Ok y -> data_shape G T n x.
Proof.
  intros G T pop x y n [S1 S2] Hl Ha.
  destruct (alloc_ok _ _ _ _ Ha) as [[a [b [d [Hx _]]]]|[b [d [Hx _]]]].
  - destruct (S1 a b d Hx) as [-> ->]. right. unfold last_dim in Hl. rewrite Hx in *. cbn in Hl. congruence.
  - rewrite (S2 b d Hx) in Hx. left. unfold last_dim in Hl. rewrite Hx in *. cbn in Hl. congruence.
Qed.

Lemma require_ok : forall A (x : option A) a, require x = Ok a <-> x = Some a.
Proof. intros A [b|] a; cbn; split; congruence. Qed.

(** The conversion [conv] succeeds iff data and cost fit; then data is spread. *)
Lemma media_units_iff : forall G T pop cpmu x m s, sized G T x ->
  media_from_units G T pop cpmu x = Ok (m, s) <->
  exists p C, cpmu = Some p /\ data_shape G T C x /\ cost_shape G T C p /\
    allocate_by_population G pop 3 x = Ok m /\
    exists cpm, expand_tensor p [G; T; C] = Ok cpm /\ zip_tensor Rmult m cpm = Ok s.
Proof.
  intros G T pop cpmu x m s Hsz. unfold media_from_units. split.
  - intros H. apply rbind_ok in H as [p [Hp H]]. apply require_ok in Hp.
    apply rbind_ok in H as [n [Hn H]]. apply rbind_ok in H as [cpm [Hc H]].
    apply rbind_ok in H as [m' [Hm H]]. apply rbind_ok in H as [s' [Hs H]].
    injection H as <- <-. exists p, n. destruct (expand_spec _ _ _ _ _ Hc) as [Hcs _].
    split; [exact Hp|]. split; [exact (alloc_sized _ _ _ _ _ _ Hsz Hn Hm)|].
    split; [exact Hcs|]. split; [exact Hm|]. exists cpm; auto.
  - intros [p [C [-> [Hd [Hc [Hm [cpm [He Hs]]]]]]]].
    cbn [require rbind]. rewrite (last_dim_data _ _ _ _ Hd). cbn [rbind]. rewrite He. cbn [rbind].
    rewrite Hm. cbn [rbind]. rewrite Hs. reflexivity.
Qed.

Lemma media_spend_iff : forall G T pop cpmu x m s, sized G T x ->
  media_from_spend G T pop cpmu x = Ok (m, s) <->
  exists p C, cpmu = Some p /\ data_shape G T C x /\ cost_shape G T C p /\
    allocate_by_population G pop 3 x = Ok s /\
    exists cpm, expand_tensor p [G; T; C] = Ok cpm /\ zip_tensor Rdiv s cpm = Ok m.
Proof.
  intros G T pop cpmu x m s Hsz. unfold media_from_spend. split.
  - intros H. apply rbind_ok in H as [p [Hp H]]. apply require_ok in Hp.
    apply rbind_ok in H as [n [Hn H]]. apply rbind_ok in H as [cpm [Hc H]].
    apply rbind_ok in H as [m' [Hm H]]. apply rbind_ok in H as [s' [Hs H]].
    injection H as <- <-. exists p, n. destruct (expand_spec _ _ _ _ _ Hc) as [Hcs _].
    split; [exact Hp|]. split; [exact (alloc_sized _ _ _ _ _ _ Hsz Hn Hm)|].
    split; [exact Hcs|]. split; [exact Hm|]. exists cpm; auto.
  - intros [p [C [-> [Hd [Hc [Hm [cpm [He Hs]]]]]]]].
    cbn [require rbind]. rewrite (last_dim_data _ _ _ _ Hd). cbn [rbind]. rewrite He. cbn [rbind].
    rewrite Hm. cbn [rbind]. rewrite Hs. reflexivity.
Qed.

(** The frequency of the flighting data. *)
Definition freq_arg (use_opt : bool) (frequency : option tensor) (G T C : nat) : Prop :=
  if use_opt then True else exists f, frequency = Some f /\ cost_shape G T C f.

Lemma flight_frequency_spec : forall use_opt frequency i G T C f, shape i = [G; T; C] ->
  flight_frequency use_opt frequency i [G; T; C] = Ok f ->
  freq_arg use_opt frequency G T C /\ shape f = [G; T; C] /\
  forall g t c, at_ f [g; t; c] =
    if use_opt then 1 else match frequency with Some q => given_for q g t c | None => 0 end.
Proof.
  intros use_opt frequency i G T C f Hi H. unfold flight_frequency in H. unfold freq_arg.
  destruct use_opt.
  - cbn [rbind] in H. destruct (expand_spec _ _ _ _ _ H) as [_ [Hs Hv]].
    split; [exact I|]. split; [exact Hs|]. intros g t c. rewrite Hv. unfold given_for. cbn [shape].
    rewrite Hi. reflexivity.
  - apply rbind_ok in H as [q [Hq H]]. apply require_ok in Hq. subst frequency.
    destruct (expand_spec _ _ _ _ _ H) as [Hc [Hs Hv]]. split; [exists q; auto|]. auto.
Qed.

Lemma flight_frequency_total : forall use_opt frequency i G T C, shape i = [G; T; C] ->
  freq_arg use_opt frequency G T C ->
  exists f, flight_frequency use_opt frequency i [G; T; C] = Ok f.
Proof.
  intros use_opt frequency i G T C Hi H. unfold flight_frequency.
  destruct use_opt; cbn [freq_arg] in H; cbn [rbind].
  - apply expand_total. right; right; right. exact Hi.
  - destruct H as [f [-> Hf]]. cbn [require rbind]. apply expand_total. exact Hf.
Qed.

Lemma rf_impr_iff : forall G T pop cprf frequency uo x r f s, sized G T x ->
  rf_from_impressions G T pop cprf frequency uo x = Ok (r, f, s) <->
  exists p C i, cprf = Some p /\ data_shape G T C x /\ cost_shape G T C p /\
    allocate_by_population G pop 3 x = Ok i /\
    (exists cpr, expand_tensor p [G; T; C] = Ok cpr /\ zip_tensor Rmult i cpr = Ok s) /\
    flight_frequency uo frequency i [G; T; C] = Ok f /\ zip_tensor divide_no_nan i f = Ok r.
Proof.
  intros G T pop cprf frequency uo x r f s Hsz. unfold rf_from_impressions. split.
  - intros H. apply rbind_ok in H as [p [Hp H]]. apply require_ok in Hp.
    apply rbind_ok in H as [n [Hn H]]. apply rbind_ok in H as [cpm [Hc H]].
    apply rbind_ok in H as [i [Hm H]]. apply rbind_ok in H as [s' [Hs H]].
    apply rbind_ok in H as [f' [Hf H]]. apply rbind_ok in H as [r' [Hr H]].
    injection H as <- <- <-. exists p, n, i. destruct (expand_spec _ _ _ _ _ Hc) as [Hcs _].
    split; [exact Hp|]. split; [exact (alloc_sized _ _ _ _ _ _ Hsz Hn Hm)|].
    split; [exact Hcs|]. split; [exact Hm|]. split; [exists cpm; auto|]. auto.
  - intros [p [C [i [-> [Hd [Hc [Hm [[cpm [He Hs]] [Hf Hr]]]]]]]]].
    cbn [require rbind]. rewrite (last_dim_data _ _ _ _ Hd). cbn [rbind]. rewrite He. cbn [rbind].
    rewrite Hm. cbn [rbind]. rewrite Hs. cbn [rbind]. rewrite Hf. cbn [rbind]. rewrite Hr. reflexivity.
Qed.

Lemma rf_spend_iff : forall G T pop cprf frequency uo x r f s, sized G T x ->
  rf_from_spend G T pop cprf frequency uo x = Ok (r, f, s) <->
  exists p C i, cprf = Some p /\ data_shape G T C x /\ cost_shape G T C p /\
    allocate_by_population G pop 3 x = Ok s /\
    (exists cpr, expand_tensor p [G; T; C] = Ok cpr /\ zip_tensor divide_no_nan s cpr = Ok i) /\
    flight_frequency uo frequency i [G; T; C] = Ok f /\ zip_tensor divide_no_nan i f = Ok r.
Proof.
  intros G T pop cprf frequency uo x r f s Hsz. unfold rf_from_spend. split.
  - intros H. apply rbind_ok in H as [p [Hp H]]. apply require_ok in Hp.
    apply rbind_ok in H as [n [Hn H]]. apply rbind_ok in H as [cpm [Hc H]].
    apply rbind_ok in H as [s' [Hm H]]. apply rbind_ok in H as [i [Hs H]].
    apply rbind_ok in H as [f' [Hf H]]. apply rbind_ok in H as [r' [Hr H]].
    injection H as <- <- <-. exists p, n, i. destruct (expand_spec _ _ _ _ _ Hc) as [Hcs _].
    split; [exact Hp|]. split; [exact (alloc_sized _ _ _ _ _ _ Hsz Hn Hm)|].
    split; [exact Hcs|]. split; [exact Hm|]. split; [exists cpm; auto|]. auto.
  - intros [p [C [i [-> [Hd [Hc [Hm [[cpm [He Hs]] [Hf Hr]]]]]]]]].
    cbn [require rbind]. rewrite (last_dim_data _ _ _ _ Hd). cbn [rbind]. rewrite He. cbn [rbind].
    rewrite Hm. cbn [rbind]. rewrite Hs. cbn [rbind]. rewrite Hf. cbn [rbind]. rewrite Hr. reflexivity.
Qed.

(** Totality of the conversions on fitting arguments. *)
Lemma media_units_total : forall G T C pop p x, data_shape G T C x -> cost_shape G T C p ->
  exists m s, media_from_units G T pop (Some p) x = Ok (m, s).
Proof.
  intros G T C pop p x Hd Hc.
  destruct (alloc_data _ _ _ pop _ Hd) as [m [Hm Hsm]].
  destruct (expand_total _ _ _ _ Hc) as [cpm He]. destruct (expand_spec _ _ _ _ _ He) as [_ [Hsc _]].
  destruct (zip_total Rmult m cpm) as [s Hs]; [congruence|].
  exists m, s. apply media_units_iff; [eapply sized_data; eauto|].
  exists p, C. repeat (split; [assumption || reflexivity|]). exists cpm; auto.
Qed.

Lemma media_spend_total : forall G T C pop p x, data_shape G T C x -> cost_shape G T C p ->
  exists m s, media_from_spend G T pop (Some p) x = Ok (m, s).
Proof.
  intros G T C pop p x Hd Hc.
  destruct (alloc_data _ _ _ pop _ Hd) as [s [Hm Hsm]].
  destruct (expand_total _ _ _ _ Hc) as [cpm He]. destruct (expand_spec _ _ _ _ _ He) as [_ [Hsc _]].
  destruct (zip_total Rdiv s cpm) as [m Hs]; [congruence|].
  exists m, s. apply media_spend_iff; [eapply sized_data; eauto|].
  exists p, C. repeat (split; [assumption || reflexivity|]). exists cpm; auto.
Qed.

Lemma rf_impr_total : forall G T C pop p fr uo x, data_shape G T C x -> cost_shape G T C p ->
  freq_arg uo fr G T C -> exists r f s, rf_from_impressions G T pop (Some p) fr uo x = Ok (r, f, s).
Proof.
  intros G T C pop p fr uo x Hd Hc Hf.
  destruct (alloc_data _ _ _ pop _ Hd) as [i [Hm Hsm]].
  destruct (expand_total _ _ _ _ Hc) as [cpm He]. destruct (expand_spec _ _ _ _ _ He) as [_ [Hsc _]].
  destruct (zip_total Rmult i cpm) as [s Hs]; [congruence|].
  destruct (flight_frequency_total uo fr i G T C Hsm Hf) as [f Hff].
  destruct (flight_frequency_spec _ _ _ _ _ _ _ Hsm Hff) as [_ [Hsf _]].
  destruct (zip_total divide_no_nan i f) as [r Hr]; [congruence|].
  exists r, f, s. apply rf_impr_iff; [eapply sized_data; eauto|].
  exists p, C, i. repeat (split; [assumption || reflexivity|]). split; [exists cpm; auto|]. auto.
Qed.

Lemma rf_spend_total : forall G T C pop p fr uo x, data_shape G T C x -> cost_shape G T C p ->
  freq_arg uo fr G T C -> exists r f s, rf_from_spend G T pop (Some p) fr uo x = Ok (r, f, s).
Proof.
  intros G T C pop p fr uo x Hd Hc Hf.
  destruct (alloc_data _ _ _ pop _ Hd) as [s [Hm Hsm]].
  destruct (expand_total _ _ _ _ Hc) as [cpm He]. destruct (expand_spec _ _ _ _ _ He) as [_ [Hsc _]].
  destruct (zip_total divide_no_nan s cpm) as [i Hs]; [congruence|].
  destruct (zip_ok _ _ _ _ Hs) as [_ [Hsi _]].
  assert (Hsi' : shape i = [G; T; C]) by congruence.
  destruct (flight_frequency_total uo fr i G T C Hsi' Hf) as [f Hff].
  destruct (flight_frequency_spec _ _ _ _ _ _ _ Hsi' Hff) as [_ [Hsf _]].
  destruct (zip_total divide_no_nan i f) as [r Hr]; [congruence|].
  exists r, f, s. apply rf_spend_iff; [eapply sized_data; eauto|].
  exists p, C, i. repeat (split; [assumption || reflexivity|]). split; [exists cpm; auto|]. auto.
Qed.

Lemma rbind_some : forall A (r : result A) q,
  rbind r (fun p => Ok (Some p)) = Ok q <-> exists p, r = Ok p /\ q = Some p.
Proof.
  intros A [a|e] q; cbn [rbind]; split; intros H.
  - injection H as <-. exists a; auto.
  - destruct H as [p [H ->]]. congruence.
  - discriminate.
  - destruct H as [p [H _]]. discriminate.
Qed.

(** What the accepted flags of [given] mean for one kind of channel. *)
Lemma flags_cases : forall (u s c : option tensor),
  (given u || given s) && negb (given c) = false ->
  negb (given u) && negb (given s) && given c = false ->
  given u && given s = false ->
  (u = None /\ s = None /\ c = None) \/
  (exists x p, u = Some x /\ s = None /\ c = Some p) \/
  (exists x p, u = None /\ s = Some x /\ c = Some p).
Proof.
  intros [u|] [s|] [c|]; cbn; intros; try discriminate; auto; right; [left|right]; eexists _, _; auto.
Qed.

Lemma cases_flags : forall G T (u s c : option tensor), data_and_cost G T u s c ->
  (given u || given s) && negb (given c) = false /\
  negb (given u) && negb (given s) && given c = false /\
  given u && given s = false.
Proof.
  intros G T u s c [[-> [-> ->]]|[x [p [C [-> [_ [_ [[-> ->]|[-> ->]]]]]]]]]; cbn; auto.
Qed.

Section CreateProofs.
  Variables (G T : nat) (pop : nat -> R).

  Lemma create_sized : forall a f, create_optimization_tensors G T pop a = Ok f ->
    (forall x, In (Some x) [a_cpmu a; a_cprf a; a_media a; a_rf_impressions a; a_frequency a;
       a_media_spend a; a_rf_spend a] -> sized G T x).
  Proof.
    intros a f H. unfold create_optimization_tensors in H.
    apply rbind_ok in H as [u [Hv _]]. destruct u. apply validate_iff in Hv.
    destruct Hv as [_ [A [B _]]]. intros x Hx. split.
    - intros g n c Hs. exact (A (Some x) x Hx eq_refl g n c Hs).
    - intros n c Hs. exact (B (Some x) x Hx eq_refl n c Hs).
  Qed.

  Lemma create_ok_args : forall a f, create_optimization_tensors G T pop a = Ok f ->
    flight_args_ok G T a.
  Proof.
    intros a f H. pose proof (create_sized a f H) as Hsz. unfold create_optimization_tensors in H.
    apply rbind_ok in H as [u [Hv H]]. destruct u. apply validate_iff in Hv.
    destruct Hv as [[E1 [E2 [E3 [E4 [E5 [E6 [E7 E8]]]]]]] [A [B D]]].
    apply rbind_ok in H as [med [Hm H]]. apply rbind_ok in H as [rf [Hr H]].
    apply rbind_ok in H as [rpk [Hk H]]. clear H.
    assert (HM : data_and_cost G T (a_media a) (a_media_spend a) (a_cpmu a)).
    { destruct (flags_cases _ _ _ E1 E2 E5) as [Hc|[[x [p [Hu [Hs Hc]]]]|[x [p [Hu [Hs Hc]]]]]].
      - left; exact Hc.
      - rewrite Hu, Hs, Hc in *. apply rbind_some in Hm as [[m s] [Hm _]].
        apply media_units_iff in Hm; [|apply Hsz; cbn; auto].
        destruct Hm as [p' [C [Hp [Hd [Hcs _]]]]]. injection Hp as <-.
        right. exists x, p, C. auto 6.
      - rewrite Hu, Hs, Hc in *. apply rbind_some in Hm as [[m s] [Hm _]].
        apply media_spend_iff in Hm; [|apply Hsz; cbn; auto 8].
        destruct Hm as [p' [C [Hp [Hd [Hcs _]]]]]. injection Hp as <-.
        right. exists x, p, C. auto 6. }
    assert (HR : data_and_cost G T (a_rf_impressions a) (a_rf_spend a) (a_cprf a) /\
                 forall x, a_rf_impressions a = Some x \/ a_rf_spend a = Some x ->
                   exists C, data_shape G T C x /\ freq_arg (a_use_optimal_frequency a) (a_frequency a) G T C).
    { destruct (flags_cases _ _ _ E3 E4 E6) as [Hc|[[x [p [Hu [Hs Hc]]]]|[x [p [Hu [Hs Hc]]]]]].
      - split; [left; exact Hc|]. destruct Hc as [-> [-> _]]. intros x [Hx|Hx]; discriminate.
      - rewrite Hu, Hs, Hc in *. apply rbind_some in Hr as [[[r f0] s] [Hr _]].
        apply rf_impr_iff in Hr; [|apply Hsz; cbn; auto 8].
        destruct Hr as [p' [C [i [Hp [Hd [Hcs [Ha [He [Hf _]]]]]]]]]. injection Hp as <-.
        split; [right; exists x, p, C; auto 6|].
        intros y [Hy|Hy]; [injection Hy as <-|discriminate]. exists C. split; [exact Hd|].
        destruct (alloc_data _ _ _ pop _ Hd) as [i' [Hi Hsi]].
        assert (i' = i) by congruence; subst i'.
        exact (proj1 (flight_frequency_spec _ _ _ _ _ _ _ Hsi Hf)).
      - rewrite Hu, Hs, Hc in *. apply rbind_some in Hr as [[[r f0] s] [Hr _]].
        apply rf_spend_iff in Hr; [|apply Hsz; cbn; auto 9].
        destruct Hr as [p' [C [i [Hp [Hd [Hcs [Ha [[cpr [He Hz]] [Hf _]]]]]]]]]. injection Hp as <-.
        split; [right; exists x, p, C; auto 6|].
        intros y [Hy|Hy]; [discriminate|injection Hy as <-]. exists C. split; [exact Hd|].
        destruct (alloc_data _ _ _ pop _ Hd) as [i' [Hi Hsi]].
        assert (i' = s) by congruence; subst i'.
        destruct (zip_ok _ _ _ _ Hz) as [_ [Hz1 _]]. rewrite Hsi in Hz1.
        exact (proj1 (flight_frequency_spec _ _ _ _ _ _ _ Hz1 Hf)). }
    destruct HR as [HR HF].
    split; [exact HM|]. split; [exact HR|]. split.
    - unfold frequency_fits. destruct (a_use_optimal_frequency a) eqn:EU.
      + destruct (a_frequency a); [discriminate|reflexivity].
      + destruct (a_frequency a) as [fr|] eqn:EF.
        * split; [|].
          -- intros x C Hx Hd. destruct (HF x Hx) as [C' [Hd' [q [Hq Hc]]]]. injection Hq as <-.
             assert (C' = C) by (destruct Hd as [Hd|Hd], Hd' as [Hd'|Hd']; congruence). subst C'. exact Hc.
          -- destruct (Hsz fr) as [S1 S2]; [cbn; auto 9|]. split; assumption.
        * cbn in E8. destruct (a_rf_impressions a), (a_rf_spend a); try discriminate. auto.
    - intros r Hr'. rewrite Hr' in Hk. apply rbind_some in Hk as [y [Hy _]].
      exact (proj1 (expand2_spec _ _ _ _ Hy)).
  Qed.

  Lemma args_ok_create : forall a, flight_args_ok G T a ->
    exists f, create_optimization_tensors G T pop a = Ok f.
  Proof.
    intros a [HM [HR [HF HK]]]. unfold create_optimization_tensors.
    assert (Hv : validate_optimization_tensors G T a = Ok tt).
    { apply validate_iff. destruct (cases_flags _ _ _ _ _ HM) as [E1 [E2 E5]].
      destruct (cases_flags _ _ _ _ _ HR) as [E3 [E4 E6]].
      assert (E7 : a_use_optimal_frequency a && given (a_frequency a) = false).
      { unfold frequency_fits in HF. destruct (a_use_optimal_frequency a); [|reflexivity].
        rewrite HF; reflexivity. }
      assert (E8 : negb (a_use_optimal_frequency a) && negb (given (a_frequency a))
        && (given (a_rf_impressions a) || given (a_rf_spend a)) = false).
      { unfold frequency_fits in HF. destruct (a_use_optimal_frequency a); [reflexivity|].
        destruct (a_frequency a); [reflexivity|]. destruct HF as [-> ->]. reflexivity. }
      split; [repeat split; assumption|].
      assert (Hsz : forall x t, In x [a_cpmu a; a_cprf a; a_media a; a_rf_impressions a;
                a_frequency a; a_media_spend a; a_rf_spend a] -> x = Some t -> sized G T t).
      { intros x t Hx ->. cbn in Hx.
        assert (HDC : forall u s c0, data_and_cost G T u s c0 ->
                   (u = Some t \/ s = Some t \/ c0 = Some t) -> sized G T t).
        { intros u s c0 [[-> [-> ->]]|[x0 [p [C [-> [Hd [Hc H0]]]]]]] Ht.
          - destruct Ht as [Ht|[Ht|Ht]]; discriminate.
          - destruct Ht as [Ht|[Ht|Ht]].
            + destruct H0 as [[-> _]|[-> _]]; [injection Ht as <-; eapply sized_data; eauto|discriminate].
            + destruct H0 as [[_ ->]|[_ ->]]; [discriminate|injection Ht as <-; eapply sized_data; eauto].
            + injection Ht as <-. eapply sized_cost; eauto. }
        destruct Hx as [Hx|[Hx|[Hx|[Hx|[Hx|[Hx|[Hx|[]]]]]]]].
        - apply (HDC _ _ _ HM); auto.
        - apply (HDC _ _ _ HR); auto.
        - apply (HDC _ _ _ HM); auto.
        - apply (HDC _ _ _ HR); auto.
        - unfold frequency_fits in HF. rewrite Hx in HF.
          destruct (a_use_optimal_frequency a); [discriminate|]. destruct HF as [_ HF]. exact HF.
        - apply (HDC _ _ _ HM); auto.
        - apply (HDC _ _ _ HR); auto. }
      split; [|split].
      - intros x t Hx Ht. exact (proj1 (Hsz x t Hx Ht)).
      - intros x t Hx Ht. exact (proj2 (Hsz x t Hx Ht)).
      - intros r Hr. destruct (HK r Hr) as [H|[H|H]]; split; intros; rewrite H in *; try congruence;
          split; congruence. }
    rewrite Hv. cbn [rbind].
    assert (H1 : exists med, match a_media a, a_media_spend a with
           | Some m, _ => rbind (media_from_units G T pop (a_cpmu a) m) (fun p => Ok (Some p))
           | None, Some s => rbind (media_from_spend G T pop (a_cpmu a) s) (fun p => Ok (Some p))
           | None, None => Ok None
           end = Ok med).
    { destruct HM as [[-> [-> _]]|[x0 [p [C [-> [Hd [Hc [[-> _]|[-> ->]]]]]]]]].
      - eexists; reflexivity.
      - destruct (media_units_total _ _ _ pop _ _ Hd Hc) as [m [s ->]]. eexists; reflexivity.
      - destruct (media_spend_total _ _ _ pop _ _ Hd Hc) as [m [s ->]]. eexists; reflexivity. }
    destruct H1 as [med ->]. cbn [rbind].
    assert (H2 : exists rf, match a_rf_impressions a, a_rf_spend a with
           | Some i, _ => rbind (rf_from_impressions G T pop (a_cprf a) (a_frequency a)
                                   (a_use_optimal_frequency a) i) (fun p => Ok (Some p))
           | None, Some s => rbind (rf_from_spend G T pop (a_cprf a) (a_frequency a)
                                   (a_use_optimal_frequency a) s) (fun p => Ok (Some p))
           | None, None => Ok None
           end = Ok rf).
    { assert (HFF : forall x C, a_rf_impressions a = Some x \/ a_rf_spend a = Some x ->
               data_shape G T C x -> freq_arg (a_use_optimal_frequency a) (a_frequency a) G T C).
      { intros x C Hx Hd. unfold freq_arg. unfold frequency_fits in HF.
        destruct (a_use_optimal_frequency a); [exact I|].
        destruct (a_frequency a) as [fr|]; [exists fr; split; [reflexivity|]; exact (proj1 HF x C Hx Hd)|].
        destruct HF as [F1 F2]. rewrite F1, F2 in Hx. destruct Hx as [Hx|Hx]; discriminate. }
      destruct HR as [[-> [-> _]]|[x0 [p [C [-> [Hd [Hc HX]]]]]]].
      - eexists; reflexivity.
      - assert (HF' : freq_arg (a_use_optimal_frequency a) (a_frequency a) G T C)
          by (apply (HFF x0 C); [destruct HX as [[Y _]|[_ Y]]; auto|exact Hd]).
        destruct HX as [[-> _]|[-> ->]].
        + destruct (rf_impr_total _ _ _ pop _ _ _ _ Hd Hc HF') as [r [f [s ->]]]. eexists; reflexivity.
        + destruct (rf_spend_total _ _ _ pop _ _ _ _ Hd Hc HF') as [r [f [s ->]]]. eexists; reflexivity. }
    destruct H2 as [rf ->]. cbn [rbind].
    destruct (a_revenue_per_kpi a) as [r|] eqn:ER.
    - destruct (expand2_total _ _ _ (HK r eq_refl)) as [y Hy]. rewrite Hy. cbn [rbind]. eexists; reflexivity.
    - cbn [rbind]. eexists; reflexivity.
  Qed.

  Theorem create_iff_lemma : forall a,
    (exists f, create_optimization_tensors G T pop a = Ok f) <-> flight_args_ok G T a.
  Proof.
    intros a; split; [intros [f H]; exact (create_ok_args a f H)|apply args_ok_create].
  Qed.

  (** Values. *)
  Hypothesis Hpop : 0 < rsum G pop.

  Theorem create_media_lemma : forall a f x, create_optimization_tensors G T pop a = Ok f ->
    a_media a = Some x \/ a_media_spend a = Some x ->
    exists C p m s, a_cpmu a = Some p /\ f_media f = Some m /\ f_media_spend f = Some s /\
      shape m = [G; T; C] /\ shape s = [G; T; C] /\
      (a_media a = Some x -> spreads G T C pop x m /\
         forall g t c, at_ s [g; t; c] = at_ m [g; t; c] * given_for p g t c) /\
      (a_media_spend a = Some x -> spreads G T C pop x s /\
         forall g t c, given_for p g t c <> 0 ->
           at_ m [g; t; c] * given_for p g t c = at_ s [g; t; c]).
  Proof.
    intros a f x H Hx. pose proof (create_sized a f H) as Hsz. unfold create_optimization_tensors in H.
    apply rbind_ok in H as [u [Hv H]]. destruct u. apply validate_iff in Hv.
    destruct Hv as [[E1 [E2 [E3 [E4 [E5 [E6 [E7 E8]]]]]]] _].
    apply rbind_ok in H as [med [Hm H]]. apply rbind_ok in H as [rf [Hr H]].
    apply rbind_ok in H as [rpk [Hk H]]. injection H as <-.
    destruct (flags_cases _ _ _ E1 E2 E5) as [[Hu [Hs Hc]]|[[y [p [Hu [Hs Hc]]]]|[y [p [Hu [Hs Hc]]]]]].
    - rewrite Hu, Hs in Hx. destruct Hx; discriminate.
    - rewrite Hu, Hs, Hc in *. destruct Hx as [Hx|Hx]; [injection Hx as ->|discriminate].
      apply rbind_some in Hm as [[m s] [Hm ->]]. cbn [f_media f_media_spend option_map fst snd].
      apply media_units_iff in Hm; [|apply Hsz; cbn; auto].
      destruct Hm as [p' [C [Hp [Hd [Hcs [Ha [cpm [He Hz]]]]]]]]. injection Hp as <-.
      destruct (expand_spec _ _ _ _ _ He) as [_ [Hse Hve]]. destruct (zip_ok _ _ _ _ Hz) as [Z1 [Z2 Z3]].
      pose proof (alloc_spreads _ _ _ _ _ _ Hpop Hd Ha) as Hsp.
      exists C, p, m, s. do 3 (split; [reflexivity|]). split; [congruence|]. split; [congruence|].
      split; [|discriminate]. intros _. split; [exact Hsp|]. intros g t c. rewrite Z3, Hve. reflexivity.
    - rewrite Hu, Hs, Hc in *. destruct Hx as [Hx|Hx]; [discriminate|injection Hx as ->].
      apply rbind_some in Hm as [[m s] [Hm ->]]. cbn [f_media f_media_spend option_map fst snd].
      apply media_spend_iff in Hm; [|apply Hsz; cbn; auto 8].
      destruct Hm as [p' [C [Hp [Hd [Hcs [Ha [cpm [He Hz]]]]]]]]. injection Hp as <-.
      destruct (expand_spec _ _ _ _ _ He) as [_ [Hse Hve]]. destruct (zip_ok _ _ _ _ Hz) as [Z1 [Z2 Z3]].
      pose proof (alloc_spreads _ _ _ _ _ _ Hpop Hd Ha) as Hsp.
      exists C, p, m, s. do 3 (split; [reflexivity|]). split; [congruence|]. split; [congruence|].
      split; [discriminate|]. intros _. split; [exact Hsp|]. intros g t c Hne. rewrite Z3, Hve. field. exact Hne.
  Qed.

  Lemma dnn : forall x y, y <> 0 -> divide_no_nan x y = x / y.
  Proof. intros x y H; unfold divide_no_nan; destruct (Req_EM_T y 0); [contradiction|reflexivity]. Qed.
  Lemma dnn0 : forall x, divide_no_nan x 0 = 0.
  Proof. intros x; unfold divide_no_nan; destruct (Req_EM_T 0 0); [reflexivity|contradiction]. Qed.

  Theorem create_rf_lemma : forall a f x, create_optimization_tensors G T pop a = Ok f ->
    a_rf_impressions a = Some x \/ a_rf_spend a = Some x ->
    exists C p r q s, a_cprf a = Some p /\
      f_reach f = Some r /\ f_frequency f = Some q /\ f_rf_spend f = Some s /\
      shape r = [G; T; C] /\ shape q = [G; T; C] /\ shape s = [G; T; C] /\
      (forall g t c, at_ q [g; t; c] =
         if a_use_optimal_frequency a then 1
         else match a_frequency a with Some fr => given_for fr g t c | None => 0 end) /\
      (a_rf_impressions a = Some x -> exists i, spreads G T C pop x i /\
         forall g t c,
           at_ s [g; t; c] = at_ i [g; t; c] * given_for p g t c /\
           (at_ q [g; t; c] <> 0 -> at_ r [g; t; c] * at_ q [g; t; c] = at_ i [g; t; c])) /\
      (a_rf_spend a = Some x -> spreads G T C pop x s) /\
      (forall g t c, at_ q [g; t; c] <> 0 -> given_for p g t c <> 0 ->
         at_ r [g; t; c] * at_ q [g; t; c] * given_for p g t c = at_ s [g; t; c]) /\
      (forall g t c, at_ q [g; t; c] = 0 -> at_ r [g; t; c] = 0).
  Proof.
    intros a f x H Hx. pose proof (create_sized a f H) as Hsz. unfold create_optimization_tensors in H.
    apply rbind_ok in H as [u [Hv H]]. destruct u. apply validate_iff in Hv.
    destruct Hv as [[E1 [E2 [E3 [E4 [E5 [E6 [E7 E8]]]]]]] _].
    apply rbind_ok in H as [med [Hm H]]. apply rbind_ok in H as [rf [Hr H]].
    apply rbind_ok in H as [rpk [Hk H]]. injection H as <-.
    destruct (flags_cases _ _ _ E3 E4 E6) as [[Hu [Hs Hc]]|[[y [p [Hu [Hs Hc]]]]|[y [p [Hu [Hs Hc]]]]]].
    - rewrite Hu, Hs in Hx. destruct Hx; discriminate.
    - rewrite Hu, Hs, Hc in *. destruct Hx as [Hx|Hx]; [injection Hx as ->|discriminate].
      apply rbind_some in Hr as [[[r q] s] [Hr ->]].
      cbn [f_reach f_frequency f_rf_spend option_map fst snd].
      apply rf_impr_iff in Hr; [|apply Hsz; cbn; auto 8].
      destruct Hr as [p' [C [i [Hp [Hd [Hcs [Ha [[cpr [He Hz]] [Hf Hzr]]]]]]]]]. injection Hp as <-.
      pose proof (alloc_spreads _ _ _ _ _ _ Hpop Hd Ha) as Hsp. pose proof (proj1 Hsp) as Hsi.
      destruct (expand_spec _ _ _ _ _ He) as [_ [Hse Hve]].
      destruct (zip_ok _ _ _ _ Hz) as [Z1 [Z2 Z3]]. destruct (zip_ok _ _ _ _ Hzr) as [Y1 [Y2 Y3]].
      destruct (flight_frequency_spec _ _ _ _ _ _ _ Hsi Hf) as [_ [Hsf Hvf]].
      exists C, p, r, q, s. do 4 (split; [reflexivity|]). do 3 (split; [congruence|]).
      split; [exact Hvf|]. split; [|split; [discriminate|split]].
      + intros _. exists i. split; [exact Hsp|]. intros g t c. split; [rewrite Z3, Hve; reflexivity|].
        intros Hq. rewrite Y3, dnn by exact Hq. field. exact Hq.
      + intros g t c Hq Hp. rewrite Z3, Y3, Hve, dnn by exact Hq. field. exact Hq.
      + intros g t c Hq. rewrite Y3, Hq. apply dnn0.
    - rewrite Hu, Hs, Hc in *. destruct Hx as [Hx|Hx]; [discriminate|injection Hx as ->].
      apply rbind_some in Hr as [[[r q] s] [Hr ->]].
      cbn [f_reach f_frequency f_rf_spend option_map fst snd].
      apply rf_spend_iff in Hr; [|apply Hsz; cbn; auto 9].
      destruct Hr as [p' [C [i [Hp [Hd [Hcs [Ha [[cpr [He Hz]] [Hf Hzr]]]]]]]]]. injection Hp as <-.
      pose proof (alloc_spreads _ _ _ _ _ _ Hpop Hd Ha) as Hsp. pose proof (proj1 Hsp) as Hsi.
      destruct (expand_spec _ _ _ _ _ He) as [_ [Hse Hve]].
      destruct (zip_ok _ _ _ _ Hz) as [Z1 [Z2 Z3]]. destruct (zip_ok _ _ _ _ Hzr) as [Y1 [Y2 Y3]].
      assert (Hsi' : shape i = [G; T; C]) by congruence.
      destruct (flight_frequency_spec _ _ _ _ _ _ _ Hsi' Hf) as [_ [Hsf Hvf]].
      exists C, p, r, q, s. do 4 (split; [reflexivity|]). do 3 (split; [congruence|]).
      split; [exact Hvf|]. split; [discriminate|]. split; [intros _; exact Hsp|]. split.
      + intros g t c Hq Hp. rewrite Y3, Z3, Hve, dnn by exact Hq. rewrite dnn by exact Hp.
        field. split; assumption.
      + intros g t c Hq. rewrite Y3, Hq. apply dnn0.
  Qed.

  Theorem create_rpk_lemma : forall a f x, create_optimization_tensors G T pop a = Ok f ->
    a_revenue_per_kpi a = Some x ->
    exists r, f_revenue_per_kpi f = Some r /\ shape r = [G; T] /\
      forall g t, at_ r [g; t] = given_for2 x g t.
  Proof.
    intros a f x H Hx. unfold create_optimization_tensors in H.
    apply rbind_ok in H as [u [Hv H]].
    apply rbind_ok in H as [med [Hm H]]. apply rbind_ok in H as [rf [Hr H]].
    apply rbind_ok in H as [rpk [Hk H]]. injection H as <-.
    rewrite Hx in Hk. apply rbind_some in Hk as [y [Hy ->]].
    destruct (expand2_spec _ _ _ _ Hy) as [_ [A B]]. exists y. auto.
  Qed.

  Theorem create_absent_lemma : forall a f, create_optimization_tensors G T pop a = Ok f ->
    (a_media a = None -> a_media_spend a = None -> f_media f = None /\ f_media_spend f = None) /\
    (a_rf_impressions a = None -> a_rf_spend a = None ->
       f_reach f = None /\ f_frequency f = None /\ f_rf_spend f = None) /\
    (a_revenue_per_kpi a = None -> f_revenue_per_kpi f = None).
  Proof.
    intros a f H. unfold create_optimization_tensors in H.
    apply rbind_ok in H as [u [Hv H]].
    apply rbind_ok in H as [med [Hm H]]. apply rbind_ok in H as [rf [Hr H]].
    apply rbind_ok in H as [rpk [Hk H]]. injection H as <-.
    split; [|split].
    - intros A B. rewrite A, B in Hm. injection Hm as <-. cbn. auto.
    - intros A B. rewrite A, B in Hr. injection Hr as <-. cbn. auto.
    - intros A. rewrite A in Hk. injection Hk as <-. reflexivity.
  Qed.
End CreateProofs.
