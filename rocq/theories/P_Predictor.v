From Coq Require Import Reals ZArith Lia Lra String List Bool Arith Sorted.
From Verif Require Import Lib_Sum Lib_Pow M_Base M_AdstockHill M_Equations M_Transformers M_Aggregate
  S_Aggregate S_Adstock S_Media P_Adstock P_Media P_MediaProps P_Aggregate M_Analyzer S_Analyzer
  P_Analyzer P_AnalyzerIO S_Predictor.
Import ListNotations.
Local Open Scope R_scope.

Definition part_sum (q : part) (g t : nat) : R := contract (fst q) (snd (snd q)) g t.

Lemma contract_concat : forall l p, concat_parts l = Ok p ->
  Forall (fun q : part => chans (fst q) = fst (snd q)) l ->
  chans (fst p) = fst (snd p) /\
  forall g t, part_sum p g t = lsum (map (fun q => part_sum q g t) l).
Proof.
  induction l as [|q l IH]; intros p H Hall; [discriminate|]. inversion Hall as [|? ? Hq Hl]; subst.
  destruct l as [|q' l'].
  - assert (q = p) by (cbn in H; congruence). subst q. split; [exact Hq|]. intros g t. cbn. ring.
  - change (concat_parts (q :: q' :: l')) with
      (rbind (concat_parts (q' :: l')) (fun r => rbind (append3 (fst q) (fst r)) (fun m =>
        Ok (m, append_beta (snd q) (snd r))))) in H.
    inv_rbind H r Hr. inv_rbind H m Hm. injection H as <-. destruct (IH r Hr Hl) as [Hn Hv].
    apply append3_inv in Hm. destruct Hm as (_ & _ & ->). cbn [fst snd chans append_beta]. split; [lia|].
    intros g t. change (map (fun q0 => part_sum q0 g t) (q :: q' :: l'))
      with (part_sum q g t :: map (fun q0 => part_sum q0 g t) (q' :: l')).
    cbn [lsum fold_right]. unfold lsum in Hv. rewrite <- Hv.
    unfold part_sum, contract. cbn [fst snd chans val].
    rewrite <- (rsum_if_app (chans (fst q)) (chans (fst r)) (fun c => val (fst q) g t c * snd (snd q) g c)
                  (fun c => val (fst r) g t c * snd (snd r) g c)).
    apply rsum_ext. intros c Hc. unfold append_beta. cbn [fst snd]. rewrite <- Hq. destruct (c <? chans (fst q))%nat; reflexivity.
Qed.

(** One kind of channels. *)
Lemma in_units_transform : forall tr y, factors_pos tr ->
  exists y', transform_media (Some y) tr = Some y' /\ same_shape y' y /\
    forall g t c, val y' g t c = in_units tr y g t c.
Proof.
  intros [tr|] y H; cbn.
  - eexists. split; [reflexivity|]. split; [repeat split|]. intros g t c. cbn.
    unfold media_fwd, media_forward, fdiv. pose proof (H g c) as P.
    destruct (Req_EM_T (scale_factors_gm tr g c) 0); [lra|reflexivity].
  - exists y. repeat split.
Qed.

Lemma in_units_nonneg : forall tr y g t c, factors_pos tr -> 0 <= val y g t c -> 0 <= in_units tr y g t c.
Proof.
  intros [tr|] y g t c H Hv; cbn; [|exact Hv]. pose proof (H g c).
  apply Rmult_le_pos; [exact Hv|]. apply Rlt_le, Rinv_0_lt_compat. assumption.
Qed.

Lemma lagged_ext : forall W w x y t, (forall u, (u <= t)%nat -> x u = y u) ->
  lagged_average W w x t = lagged_average W w y t.
Proof.
  intros W w x y t H. unfold lagged_average. apply rsum_ext. intros l _. unfold past.
  destruct (Nat.leb l t) eqn:E; [|reflexivity]. rewrite H by lia. reflexivity.
Qed.
Lemma response_ext : forall hb s ec sl W w x y t, (forall u, (u <= t)%nat -> x u = y u) ->
  media_response hb s ec sl W w x t = media_response hb s ec sl W w y t.
Proof.
  intros hb s ec sl W w x y t H. unfold media_response. destruct hb.
  - apply lagged_ext. intros u Hu. rewrite H by exact Hu. reflexivity.
  - rewrite (lagged_ext W w x y t H). reflexivity.
Qed.

Lemma media_kind : forall x tr p df sa b y0 y l,
  (1 <= x_n_times x <= x_n_media_times x)%nat -> (0 <= ctx_max_lag (x_cx x))%Z ->
  dims y0 (x_n_geos x) (x_n_media_times x) -> kind_ok y0 df sa ->
  (y0 <> None -> n_par p = n_chans y0) -> params_ok p -> factors_pos tr ->
  like y y0 -> nonneg y ->
  media_part (transform_media y tr) (fun m => adstock_hill_media (x_cx x) m p df sa None) (n_par p, b) = Ok l ->
  Forall (fun q : part => chans (fst q) = fst (snd q)) l /\
  forall g t, (t < x_n_times x)%nat ->
    lsum (map (fun q => part_sum q g t) l) = over y (fun m c => b g c * media_channel x tr p df sa m g t c).
Proof.
  intros x tr p df sa b y0 y l Hn Hlag Hd Hk Hp Hpar Htr L Hpos H.
  destruct y as [y|], y0 as [y0|]; cbn in L; try contradiction.
  2:{ cbn in H. destruct tr; injection H as <-; split; auto. }
  destruct L as (Lg & Lt & Lc). destruct Hd as [Dg Dt]. destruct Hk as [Kd Ks].
  specialize (Hp ltac:(discriminate)). cbn [n_chans] in Hp.
  destruct (in_units_transform tr y Htr) as (y' & Ey & (Sg & St & Sc) & Vy).
  rewrite Ey in H. cbn [media_part] in H. inv_rbind H o Ho. injection H as <-.
  assert (Ey' : times y' = ctx_n_media_times (x_cx x)) by (unfold x_n_media_times in *; congruence).
  rewrite default_output_lemma, Ey', Nat.eqb_refl in Ho.
  assert (A : media_args_ok (x_cx x) y' p df sa (Z.of_nat (ctx_n_times (x_cx x)))).
  { unfold media_args_ok. split; [exact Hlag|]. split; [unfold x_n_times, x_n_media_times in *; lia|].
    split; [congruence|]. split; [exact Hpar|]. rewrite Sc, Lc. split; [exact Kd|]. split; [exact Ks|].
    intros g t c Ht Hc. rewrite Vy. apply in_units_nonneg; [exact Htr|]. apply Hpos; lia. }
  destruct (media_val_lemma _ _ _ _ _ _ _ A Ho) as (Og & Ot & Oc & V).
  split; [constructor; [cbn; lia|constructor]|].
  intros g t Ht. cbn [map lsum fold_right over]. unfold part_sum. cbn [fst snd]. unfold contract.
  rewrite Rplus_0_r, Oc, Sc. apply rsum_ext. intros c Hc.
  destruct (V c ltac:(lia)) as (d & s & Hd' & _ & Hs' & _ & Vc).
  rewrite Vc by (unfold x_n_times in Ht; lia). rewrite Rmult_comm. f_equal.
  unfold media_channel. rewrite <- Sc, Hd', Hs'. unfold window. rewrite St.
  unfold x_n_media_times, x_n_times in *.
  replace (times y) with (ctx_n_media_times (x_cx x)) by congruence.
  replace (times o) with (ctx_n_times (x_cx x)) by lia.
  apply response_ext. intros u _. apply Vy.
Qed.

Lemma rf_kind : forall x tr p df sa b r0 f0 r f l,
  (1 <= x_n_times x <= x_n_media_times x)%nat -> (0 <= ctx_max_lag (x_cx x))%Z ->
  dims r0 (x_n_geos x) (x_n_media_times x) -> dims f0 (x_n_geos x) (x_n_media_times x) ->
  paired r0 f0 -> kind_ok r0 df sa ->
  (r0 <> None -> n_par p = n_chans r0) -> params_ok p -> factors_pos tr ->
  like r r0 -> like f f0 -> nonneg f ->
  rf_part (transform_media r tr) f (fun m q => adstock_hill_rf (x_cx x) m q p df sa None) (n_par p, b) = Ok l ->
  Forall (fun q : part => chans (fst q) = fst (snd q)) l /\
  forall g t, (t < x_n_times x)%nat ->
    lsum (map (fun q => part_sum q g t) l)
    = over2 r f (fun m q c => b g c * rf_channel x tr p df sa m q g t c).
Proof.
  intros x tr p df sa b r0 f0 r f l Hn Hlag Hd Hd' Hpair Hk Hp Hpar Htr L L' Hpos H.
  destruct r as [y|], r0 as [y0|]; cbn in L; try contradiction.
  2:{ cbn in H. destruct tr; injection H as <-; split; auto. }
  destruct f0 as [z0|]; cbn in Hpair; [|contradiction]. destruct f as [z|]; cbn in L'; [|contradiction].
  destruct L as (Lg & Lt & Lc). destruct L' as (Lg' & Lt' & Lc').
  destruct Hd as [Dg Dt]. destruct Hd' as [Dg' Dt']. destruct Hk as [Kd Ks].
  specialize (Hp ltac:(discriminate)). cbn [n_chans] in Hp.
  destruct (in_units_transform tr y Htr) as (y' & Ey & (Sg & St & Sc) & Vy).
  rewrite Ey in H. cbn [rf_part] in H. inv_rbind H o Ho. injection H as <-.
  assert (Ey' : times y' = ctx_n_media_times (x_cx x)) by (unfold x_n_media_times in *; congruence).
  assert (Ho' : adstock_hill_rf (x_cx x) y' z p df sa (Some (Z.of_nat (ctx_n_times (x_cx x)))) = Ok o).
  { unfold adstock_hill_rf, resolve_n_times_output in *. rewrite Ey', Nat.eqb_refl in Ho. exact Ho. }
  assert (A : rf_args_ok (x_cx x) y' z p df sa (Z.of_nat (ctx_n_times (x_cx x)))).
  { unfold rf_args_ok. split; [exact Hlag|]. split; [unfold x_n_times, x_n_media_times in *; lia|].
    split; [unfold same_shape; repeat split; congruence|].
    split; [congruence|]. split; [exact Hpar|]. rewrite Sc, Lc. split; [exact Kd|]. split; [exact Ks|].
    intros g t c Ht Hc. apply Hpos; lia. }
  destruct (rf_val_lemma _ _ _ _ _ _ _ _ A Ho') as (Og & Ot & Oc & V).
  split; [constructor; [cbn; lia|constructor]|].
  intros g t Ht. cbn [map lsum fold_right over2]. unfold part_sum. cbn [fst snd]. unfold contract.
  rewrite Rplus_0_r, Oc, Sc. apply rsum_ext. intros c Hc.
  destruct (V c ltac:(lia)) as (d & s & Hd2 & _ & Hs' & _ & Vc).
  rewrite Vc by (unfold x_n_times in Ht; lia). rewrite Rmult_comm. f_equal.
  unfold rf_channel. rewrite <- Sc, Hd2, Hs'. unfold window. rewrite St.
  unfold x_n_media_times, x_n_times in *.
  replace (times y) with (ctx_n_media_times (x_cx x)) by congruence.
  replace (times o) with (ctx_n_times (x_cx x)) by lia.
  apply lagged_ext. intros u _. rewrite Vy. reflexivity.
Qed.

Lemma fits_like : forall y y0, fits y y0 -> like (match y with Some a => Some a | None => y0 end) y0.
Proof. intros [y|] [y0|] H; cbn in *; auto. Qed.

Lemma given_fill : forall x nd, new_data_ok x nd ->
  let d := fill_missing x nd true true in
  d_media d = given d_media nd x /\ d_reach d = given d_reach nd x /\
  d_frequency d = given d_frequency nd x /\ d_organic_media d = given d_organic_media nd x /\
  d_organic_reach d = given d_organic_reach nd x /\
  d_organic_frequency d = given d_organic_frequency nd x /\
  d_non_media d = given d_non_media nd x /\ d_controls d = given d_controls nd x.
Proof.
  intros x nd H. unfold given. cbn. unfold orelse.
  repeat split;
    match goal with |- context [match ?a with Some _ => _ | None => _ end] => destruct a; reflexivity end.
Qed.

Lemma new_data_same : forall x nd, new_data_ok x nd -> same_dims (fill_missing x nd true true) (x_data x).
Proof.
  intros x nd H. pose proof (given_fill x nd H) as E. cbv zeta in E.
  destruct E as (E1 & E2 & E3 & E4 & E5 & E6 & E7 & E8).
  destruct H as (H1 & H2 & H3 & H4 & H5 & H6 & H7 & H8 & _).
  unfold same_dims. rewrite E1, E2, E3, E4, E5, E6, E7, E8. unfold given. auto 10 using fits_like.
Qed.

Lemma fits_modified : forall y y0, fits y y0 -> modified3 y y0 = None.
Proof.
  intros [y|] [y0|] H; cbn in *; try contradiction; auto.
  destruct H as (_ & H & _). rewrite H, Nat.eqb_refl. reflexivity.
Qed.
Lemma new_data_times : forall x nd, new_data_ok x nd -> get_modified_times x nd = None.
Proof.
  intros x nd (H1 & H2 & H3 & H4 & H5 & H6 & H7 & H8 & H9). unfold get_modified_times.
  rewrite !fits_modified by assumption. rewrite H9. reflexivity.
Qed.

Lemma contract_standardised : forall tr y b g t,
  match transform_centered (Some y) tr with Some z => contract z b g t | None => 0 end
  = rsum (chans y) (fun c => b g c * standardised tr y g t c).
Proof.
  intros [tr|] y b g t; cbn; unfold contract; cbn; apply rsum_ext; intros c _; ring.
Qed.

Lemma kpi_means_predictor : forall x nd w m, well_formed x -> draw_ok x w -> new_data_ok x nd ->
  media_nonneg x nd -> transformers_ok x ->
  kpi_means x (scale_data_tensors x (fill_missing x nd true true) true) w = Ok m ->
  forall g t, (t < x_n_times x)%nat -> val2 m g t = predictor x nd w g t.
Proof.
  intros x nd w m W Dw Hnd (Pm & Pf & Pom & Pof) (Tm & Tom & Tr & Tor) Hm g t Ht.
  destruct (kpi_means_inv _ _ _ _ Hm) as (p & Hp & _ & _ & _ & _ & V). rewrite V. clear V Hm.
  pose proof (given_fill x nd Hnd) as E. cbv zeta in E.
  destruct E as (E1 & E2 & E3 & E4 & E5 & E6 & E7 & E8).
  pose proof Hnd as (F1 & F2 & F3 & F4 & F5 & F6 & F7 & F8 & _).
  apply fits_like in F1, F2, F3, F4, F5, F6, F7, F8.
  destruct Dw as (D1 & D2 & D3 & D4 & P1 & P2 & P3 & P4).
  destruct W as [Wt Wl _ Wp Wm Wr Wf Wom Wor Wof _ _ _ Wrf Worf (K1 & K2 & K3 & K4) _].
  unfold transformed_media_and_beta in Hp. unfold scale_data_tensors in *.
  cbn [d_media d_reach d_frequency d_organic_media d_organic_reach d_organic_frequency d_non_media d_controls] in *.
  rewrite E1, E2, E3, E4, E5, E6 in Hp. rewrite E7, E8.
  inv_rbind Hp l1 H1. inv_rbind Hp l2 H2. inv_rbind Hp l3 H3. inv_rbind Hp l4 H4. inv_rbind Hp q Hq.
  destruct (Nat.eqb (chans (fst q)) (fst (snd q))); [|discriminate].
  assert (q = p) by congruence. subst q. clear Hp.
  destruct (media_kind _ _ _ _ _ _ _ _ _ Wt Wl Wm K1 D1 P1 Tm F1 Pm H1) as [A1 S1].
  destruct (rf_kind _ _ _ _ _ _ _ _ _ _ _ Wt Wl Wr Wf Wrf K2 D2 P2 Tr F2 F3 Pf H2) as [A2 S2].
  destruct (media_kind _ _ _ _ _ _ _ _ _ Wt Wl Wom K3 D3 P3 Tom F4 Pom H3) as [A3 S3].
  destruct (rf_kind _ _ _ _ _ _ _ _ _ _ _ Wt Wl Wor Wof Worf K4 D4 P4 Tor F5 F6 Pof H4) as [A4 S4].
  destruct (contract_concat _ _ Hq) as [_ C]; [rewrite !Forall_app; auto|].
  fold (part_sum p g t). rewrite C. unfold part in *. rewrite !map_app, !lsum_app.
  rewrite S1, S2, S3, S4 by exact Ht. unfold predictor.
  assert (EC : match d_controls (x_data x) with
     | Some _ => match transform_centered (given d_controls nd x) (controls_transformer x) with
                 | Some c => contract c (w_gamma_gc w) g t | None => 0 end
     | None => 0 end
    = over (given d_controls nd x) (fun y c => w_gamma_gc w g c * standardised (controls_transformer x) y g t c)).
  { unfold given in *. destruct (d_controls nd) as [c|], (d_controls (x_data x)) as [c0|]; cbn in F8; try contradiction;
      try reflexivity; rewrite contract_standardised; reflexivity. }
  assert (EN : match transform_centered (given d_non_media nd x) (non_media_transformer x) with
               | Some n => contract n (w_gamma_gn w) g t | None => 0 end
    = over (given d_non_media nd x) (fun y c => w_gamma_gn w g c * standardised (non_media_transformer x) y g t c)).
  { destruct (given d_non_media nd x) as [c|]; [rewrite contract_standardised; reflexivity|].
    destruct (non_media_transformer x); reflexivity. }
  rewrite EC, EN. unfold given. ring.
Qed.

Lemma resolve_kpi_spec : forall x uk, well_formed x -> resolve_use_kpi x uk = outcome_is_kpi x uk.
Proof.
  intros x uk W. pose proof (wf_rpk x W) as R. unfold resolve_use_kpi, outcome_is_kpi.
  destruct (d_revenue_per_kpi (x_data x)); destruct uk; try rewrite R; destruct (x_kpi_is_revenue x); reflexivity || discriminate.
Qed.

Lemma outcome_spec : forall x inv uk g t v, well_formed x ->
  outcome_of x inv uk g t v = outcome_in_units x inv uk g t v.
Proof.
  intros x inv uk g t v W. unfold outcome_of, outcome_in_units. destruct inv; [|reflexivity].
  rewrite resolve_kpi_spec by exact W. unfold outcome_is_kpi.
  destruct (d_revenue_per_kpi (x_data x)); reflexivity.
Qed.

Lemma expected_predictor : forall x nd gs ts ag at' inv uk bs draws,
  well_formed x -> Forall (draw_ok x) draws -> draws <> [] -> (0 < bs)%Z ->
  geos_ok x gs -> times_ok x ts -> (inv = true \/ outcome_is_kpi x uk = true) ->
  new_data_ok x nd -> media_nonneg x nd -> transformers_ok x ->
  exists E gi ti, expected_outcome x nd gs ts ag at' inv uk bs draws = Ok E /\
    length E = length draws /\
    resolve_geo_indices (x_geo x) gs = Ok gi /\ resolve_time_indices (x_time x) (x_n_times x) ts = Ok ti /\
    forall k w0 z, (k < length draws)%nat ->
      shape (nth k E z) = dimension (x_n_geos x) gi ag ++ dimension (x_n_times x) ti at' /\
      forall i j, (ag = false -> (i < length (selection (x_n_geos x) gi))%nat) ->
        (at' = false -> (j < length (selection (x_n_times x) ti))%nat) ->
        at_ (nth k E z) (position ag i ++ position at' j)
        = cell (x_n_geos x) (x_n_times x) gi ti ag at'
            (fun g t => outcome_in_units x inv uk g t (predictor x nd (nth k draws w0) g t)) i j.
Proof.
  intros x nd gs ts ag at' inv uk bs draws W Hw Hne Hbs Hg Ht Hinv Hnd Hpos Htr.
  assert (Hinv' : inv = true \/ resolve_use_kpi x uk = true) by (rewrite resolve_kpi_spec; assumption).
  pose proof Hnd as (_ & _ & _ & _ & _ & _ & _ & _ & Hr).
  destruct (expected_runs x nd gs ts ag at' inv uk bs draws W Hw Hne Hbs Hg Ht Hinv'
              (new_data_same x nd Hnd) (new_data_times x nd Hnd) Hr) as [E HE].
  destruct (expected_inv x nd gs ts ag at' inv uk bs draws E Hr HE) as (HL & gi & ti & n & Hgi & Hti & V).
  destruct (time_runs x ts W Ht) as (ti' & Hti' & _ & _).
  assert (ti' = ti) by (eapply resolve_time_indep; eassumption). subst ti'.
  exists E, gi, ti. repeat (split; [assumption|]). intros k w0 z Hk.
  destruct (V k w0 z Hk) as (m & Hm & Rg & Rt & Sh & Vk). split; [exact Sh|].
  intros i j Hi Hj. rewrite Vk by assumption. apply cell_ext; auto. intros g t _ Htt.
  rewrite outcome_spec by exact W. f_equal.
  apply kpi_means_predictor; auto. rewrite Forall_forall in Hw. apply Hw, nth_In, Hk.
Qed.

(** Selections. *)
Lemma sorted_ext : forall l l' : list nat, StronglySorted lt l -> StronglySorted lt l' ->
  (forall i, In i l <-> In i l') -> l = l'.
Proof.
  induction l as [|a l IH]; intros l' S S' H.
  - destruct l' as [|b l']; [reflexivity|]. destruct (proj2 (H b)); left; reflexivity.
  - destruct l' as [|b l']; [destruct (proj1 (H a)); left; reflexivity|].
    inversion S as [|? ? S1 F1]; inversion S' as [|? ? S2 F2]; subst.
    rewrite Forall_forall in F1, F2.
    assert (a = b).
    { destruct (proj1 (H a) (or_introl eq_refl)) as [E|E]; [auto|].
      destruct (proj2 (H b) (or_introl eq_refl)) as [E'|E']; [auto|].
      pose proof (F2 _ E). pose proof (F1 _ E'). lia. }
    subst b. f_equal. apply IH; auto. intros i. split; intros Hi.
    + destruct (proj1 (H i) (or_intror Hi)) as [E|E]; [|exact E]. subst i. pose proof (F1 _ Hi). lia.
    + destruct (proj2 (H i) (or_intror Hi)) as [E|E]; [|exact E]. subst i. pose proof (F2 _ Hi). lia.
Qed.
Lemma seq_sorted : forall n s, StronglySorted lt (seq s n).
Proof.
  induction n as [|n IH]; intros s; [constructor|]. cbn. constructor; [apply IH|].
  apply Forall_forall. intros i Hi. apply in_seq in Hi. lia.
Qed.
Lemma filter_sorted : forall (f : nat -> bool) l, StronglySorted lt l -> StronglySorted lt (filter f l).
Proof.
  intros f l H. induction H as [|a l S IH F]; [constructor|]. cbn. destruct (f a); [|exact IH].
  constructor; [exact IH|]. rewrite Forall_forall in *. intros i Hi. apply filter_In in Hi. apply F. tauto.
Qed.
Lemma positions_filter : forall A (f : A -> bool) (l : list A) (h : nat -> bool) d,
  (forall i, (i < length l)%nat -> h i = f (nth i l d)) ->
  positions f l = filter h (seq 0 (length l)).
Proof.
  intros A f l h d H. apply sorted_ext.
  - apply positions_sorted.
  - apply filter_sorted, seq_sorted.
  - intros i. rewrite (positions_spec A f l i d), filter_In, in_seq. split.
    + intros [Hi E]. split; [lia|]. rewrite H by exact Hi. exact E.
    + intros [Hi E]. assert (Hi' : (i < length l)%nat) by lia. split; [exact Hi'|].
      rewrite <- H by exact Hi'. exact E.
Qed.
Lemma in_dec_mem : forall a l, (if in_dec string_dec a l then true else false) = mem a l.
Proof.
  intros a l. destruct (in_dec string_dec a l) as [H|H].
  - symmetry. apply mem_spec, H.
  - destruct (mem a l) eqn:E; [|reflexivity]. apply mem_spec in E. contradiction.
Qed.
Lemma chosen_geos_lemma : forall x gs gi, resolve_geo_indices (x_geo x) gs = Ok gi ->
  selection (x_n_geos x) gi = chosen_geos x gs.
Proof.
  intros x [l|] gi H; cbn [resolve_geo_indices] in H.
  - apply raise_if_inv in H. destruct H as [_ H].
    assert (gi = Some (positions (fun g => mem g l) (x_geo x))) by congruence. subst gi.
    cbn [selection chosen_geos]. unfold x_n_geos. apply (positions_filter _ _ _ _ ""%string).
    intros i _. apply in_dec_mem.
  - assert (gi = None) by congruence. subst gi. reflexivity.
Qed.
Lemma chosen_times_lemma : forall x ts ti, well_formed x -> times_ok x ts ->
  resolve_time_indices (x_time x) (x_n_times x) ts = Ok ti ->
  selection (x_n_times x) ti = chosen_times x ts.
Proof.
  intros x ts ti W Hok H. pose proof (wf_time x W) as L.
  destruct ts as [[l|l]|]; cbn [resolve_time_indices] in H.
  - inv_rbind H u Hu.
    assert (ti = Some (positions (fun g => mem g l) (x_time x))) by congruence. subst ti.
    cbn [selection chosen_times]. rewrite <- L. apply (positions_filter _ _ _ _ ""%string).
    intros i _. apply in_dec_mem.
  - inv_rbind H u Hu.
    assert (ti = Some (positions (fun b => b) l)) by congruence. subst ti. clear H Hu.
    cbn [selection chosen_times]. destruct Hok as [->|E].
    + cbn. assert (Z : forall n s, filter (fun i => match i with O => false | S _ => false end) (seq s n) = [])
        by (induction n as [|n IH]; intros s; [reflexivity|]; cbn; destruct s; apply IH).
      rewrite Z. reflexivity.
    + rewrite <- E. apply (positions_filter _ _ _ _ false). reflexivity.
  - assert (ti = None) by congruence. subst ti. reflexivity.
Qed.

Lemma expected_documented : forall x nd gs ts ag at' inv uk bs draws,
  well_formed x -> Forall (draw_ok x) draws -> draws <> [] -> (0 < bs)%Z ->
  geos_ok x gs -> times_ok x ts -> (inv = true \/ outcome_is_kpi x uk = true) ->
  new_data_ok x nd -> media_nonneg x nd -> transformers_ok x ->
  exists E, expected_outcome x nd gs ts ag at' inv uk bs draws = Ok E /\
    length E = length draws /\
    forall k w0 z, (k < length draws)%nat ->
      shape (nth k E z) = (if ag then [] else [length (chosen_geos x gs)])
                          ++ (if at' then [] else [length (chosen_times x ts)]) /\
      forall i j, (ag = false -> (i < length (chosen_geos x gs))%nat) ->
        (at' = false -> (j < length (chosen_times x ts))%nat) ->
        at_ (nth k E z) (position ag i ++ position at' j)
        = total (members (chosen_geos x gs) ag i) (fun g =>
          total (members (chosen_times x ts) at' j) (fun t =>
            outcome_in_units x inv uk g t (predictor x nd (nth k draws w0) g t))).
Proof.
  intros x nd gs ts ag at' inv uk bs draws W Hw Hne Hbs Hg Ht Hinv Hnd Hpos Htr.
  destruct (expected_predictor x nd gs ts ag at' inv uk bs draws W Hw Hne Hbs Hg Ht Hinv Hnd Hpos Htr)
    as (E & gi & ti & HE & HL & Hgi & Hti & V).
  exists E. split; [exact HE|]. split; [exact HL|]. intros k w0 z Hk.
  rewrite <- (chosen_geos_lemma x gs gi Hgi), <- (chosen_times_lemma x ts ti W Ht Hti).
  exact (V k w0 z Hk).
Qed.

(** Requests that are refused. *)
Lemma scaling_refused : forall x nd o bs draws I, incremental_outcome x nd o bs draws = Ok I ->
  0 <= o_scaling_factor0 o < o_scaling_factor1 o.
Proof.
  intros x nd o bs draws I H. unfold incremental_outcome in H. cbv zeta in H.
  inv_rbind H u Hu. inv_rbind H v Hv. unfold validate_scaling in Hv.
  destruct (Rlt_dec (o_scaling_factor1 o) 0); [discriminate|].
  destruct (Rlt_dec (o_scaling_factor0 o) 0); [discriminate|].
  destruct (Rle_dec (o_scaling_factor1 o) (o_scaling_factor0 o)); [discriminate|]. lra.
Qed.
Lemma units_refused : forall x nd o bs draws I, well_formed x ->
  incremental_outcome x nd o bs draws = Ok I ->
  o_inverse o = true \/ outcome_is_kpi x (o_use_kpi o) = true.
Proof.
  intros x nd o bs draws I W H. unfold incremental_outcome in H. cbv zeta in H.
  inv_rbind H u Hu. rewrite (resolve_kpi_spec x _ W) in Hu. unfold check_kpi_transformation in Hu.
  destruct (o_inverse o); [left; reflexivity|]. right.
  destruct (outcome_is_kpi x (o_use_kpi o)); [reflexivity|discriminate].
Qed.
Lemma expected_units_refused : forall x nd gs ts ag at' inv uk bs draws E, well_formed x ->
  expected_outcome x nd gs ts ag at' inv uk bs draws = Ok E ->
  inv = true \/ outcome_is_kpi x uk = true.
Proof.
  intros x nd gs ts ag at' inv uk bs draws E W H. unfold expected_outcome in H. cbv zeta in H.
  inv_rbind H u Hu. rewrite (resolve_kpi_spec x _ W) in Hu. unfold check_kpi_transformation in Hu.
  destruct inv; [left; reflexivity|]. right. destruct (outcome_is_kpi x uk); [reflexivity|discriminate].
Qed.

(** *** One channel *)
Lemma rsum_one_column : forall n c (F1 F0 : nat -> R), (c < n)%nat ->
  (forall i, (i < n)%nat -> i <> c -> F1 i = F0 i) -> rsum n F1 - rsum n F0 = F1 c - F0 c.
Proof.
  intros n c F1 F0 Hc H. rewrite <- (rsum_minus n F1 F0).
  apply (rsum_single n c (fun i => F1 i - F0 i)); [exact Hc|]. intros i Hi Hne. rewrite (H i Hi Hne). ring.
Qed.

Lemma in_units_only : forall tr f sel c y g u i, i <> c -> in_units tr (only f sel c y) g u i = in_units tr y g u i.
Proof.
  intros tr f sel c y g u i H. unfold in_units, only. cbn [val].
  destruct (Nat.eqb_spec i c); [contradiction|]. reflexivity.
Qed.
Lemma media_channel_local : forall x tr p df sa y z g t c, same_shape y z ->
  (forall u, in_units tr y g u c = in_units tr z g u c) ->
  media_channel x tr p df sa y g t c = media_channel x tr p df sa z g t c.
Proof.
  intros x tr p df sa y z g t c (_ & Ht & Hc) H. unfold media_channel, window. rewrite Ht, Hc.
  destruct (assigned_decay df (chans z) c); [|reflexivity]. destruct (assigned_sat sa (chans z) c); [|reflexivity].
  apply response_ext. intros u _. apply H.
Qed.
Lemma rf_channel_local : forall x tr p df sa y z y' z' g t c, same_shape y z ->
  (forall u, in_units tr y g u c = in_units tr z g u c) -> (forall u, val y' g u c = val z' g u c) ->
  rf_channel x tr p df sa y y' g t c = rf_channel x tr p df sa z z' g t c.
Proof.
  intros x tr p df sa y z y' z' g t c (_ & Ht & Hc) H H'. unfold rf_channel, window. rewrite Ht, Hc.
  destruct (assigned_decay df (chans z) c); [|reflexivity]. destruct (assigned_sat sa (chans z) c); [|reflexivity].
  apply lagged_ext. intros u _. rewrite H, H'. reflexivity.
Qed.
Lemma only_shape : forall f sel c f' sel' y, same_shape (only f sel c y) (only f' sel' c y).
Proof. intros. repeat split. Qed.
Lemma only_val : forall f sel c y g u i, i <> c -> val (only f sel c y) g u i = val y g u i.
Proof. intros. unfold only. cbn. destruct (Nat.eqb_spec i c); [contradiction|]. reflexivity. Qed.

Lemma over_media_diff : forall x tr p df sa (b : nat -> nat -> R) y f1 f0 sel c g t, (c < chans y)%nat ->
  over (Some (only f1 sel c y)) (fun z i => b g i * media_channel x tr p df sa z g t i)
  - over (Some (only f0 sel c y)) (fun z i => b g i * media_channel x tr p df sa z g t i)
  = b g c * media_channel x tr p df sa (only f1 sel c y) g t c
    - b g c * media_channel x tr p df sa (only f0 sel c y) g t c.
Proof.
  intros x tr p df sa b y f1 f0 sel c g t Hc. cbn [over only chans].
  apply (rsum_one_column (chans y) c
    (fun i => b g i * media_channel x tr p df sa (only f1 sel c y) g t i)
    (fun i => b g i * media_channel x tr p df sa (only f0 sel c y) g t i)); [exact Hc|].
  intros i _ Hne. f_equal. apply media_channel_local; [apply only_shape|].
  intros u. rewrite !in_units_only by exact Hne. reflexivity.
Qed.
Lemma over_rf_diff : forall x tr p df sa (b : nat -> nat -> R) y z f1 f0 sel c g t (br : bool), (c < chans y)%nat ->
  let R f := Some (if br then only f sel c y else y) in
  let F f := Some (if br then z else only f sel c z) in
  over2 (R f1) (F f1) (fun r q i => b g i * rf_channel x tr p df sa r q g t i)
  - over2 (R f0) (F f0) (fun r q i => b g i * rf_channel x tr p df sa r q g t i)
  = b g c * rf_channel x tr p df sa (if br then only f1 sel c y else y) (if br then z else only f1 sel c z) g t c
    - b g c * rf_channel x tr p df sa (if br then only f0 sel c y else y) (if br then z else only f0 sel c z) g t c.
Proof.
  intros x tr p df sa b y z f1 f0 sel c g t br Hc. cbv zeta. cbn [over2].
  destruct br; cbn [only chans].
  - apply (rsum_one_column (chans y) c
      (fun i => b g i * rf_channel x tr p df sa (only f1 sel c y) z g t i)
      (fun i => b g i * rf_channel x tr p df sa (only f0 sel c y) z g t i)); [exact Hc|].
    intros i _ Hne. f_equal. apply rf_channel_local; [apply only_shape| |reflexivity].
    intros u. rewrite !in_units_only by exact Hne. reflexivity.
  - apply (rsum_one_column (chans y) c
      (fun i => b g i * rf_channel x tr p df sa y (only f1 sel c z) g t i)
      (fun i => b g i * rf_channel x tr p df sa y (only f0 sel c z) g t i)); [exact Hc|].
    intros i _ Hne. f_equal. apply rf_channel_local; [repeat split|reflexivity|].
    intros u. rewrite !only_val by exact Hne. reflexivity.
Qed.

Lemma given_hist : forall f nd x, f nd = f (x_data x) -> given f nd x = f (x_data x).
Proof. intros f nd x H. unfold given. rewrite H. destruct (f (x_data x)); reflexivity. Qed.
Lemma given_map : forall f nd x h, f nd = option_map h (f (x_data x)) ->
  given f nd x = option_map h (f (x_data x)).
Proof. intros f nd x h H. unfold given. rewrite H. destruct (f (x_data x)); reflexivity. Qed.
Lemma given_nd : forall f nd nd' x, f nd = f nd' -> given f nd x = given f nd' x.
Proof. intros f nd nd' x H. unfold given. rewrite H. reflexivity. Qed.

Lemma predictor_one_channel : forall x w ch f1 f0 sel br bv g t, well_formed x -> is_channel x ch ->
  predictor x (treatment x ch f1 sel br None) w g t - predictor x (treatment x ch f0 sel br (Some bv)) w g t
  = channel_term x (treatment x ch f1 sel br None) w ch g t
    - channel_term x (treatment x ch f0 sel br (Some bv)) w ch g t.
Proof.
  intros x w ch f1 f0 sel br bv g t W Hch. unfold predictor.
  pose proof (wf_rf x W) as Prf. pose proof (wf_orf x W) as Porf.
  destruct ch as [c|c|c|c|c]; cbn [is_channel] in Hch; unfold channel_term, given, treatment;
    cbn [d_media d_reach d_frequency d_organic_media d_organic_reach d_organic_frequency d_non_media d_controls].
  - destruct (d_media (x_data x)) as [y|]; cbn in Hch; [|lia]. cbn [option_map].
    match goal with |- ?a + ?M1 + ?b + ?c0 + ?d + ?e + ?f - (_ + ?M0 + _ + _ + _ + _ + _) = _ =>
      replace (a + M1 + b + c0 + d + e + f - (a + M0 + b + c0 + d + e + f)) with (M1 - M0) by ring end.
    apply over_media_diff; exact Hch.
  - destruct (d_reach (x_data x)) as [y|]; cbn in Hch; [|lia].
    destruct (d_frequency (x_data x)) as [z|]; cbn in Prf; [|contradiction].
    match goal with |- ?a + ?b + ?M1 + ?c0 + ?d + ?e + ?f - (_ + _ + ?M0 + _ + _ + _ + _) = _ =>
      replace (a + b + M1 + c0 + d + e + f - (a + b + M0 + c0 + d + e + f)) with (M1 - M0) by ring end.
    pose proof (over_rf_diff x (x_reach_transformer x) (w_rf w) (x_decay_rf x) (x_sat_rf x)
      (w_beta_grf w) y z f1 f0 sel c g t br Hch) as H. cbv zeta in H. destruct br; exact H.
  - destruct (d_organic_media (x_data x)) as [y|]; cbn in Hch; [|lia]. cbn [option_map].
    match goal with |- ?a + ?b + ?b' + ?M1 + ?d + ?e + ?f - (_ + _ + _ + ?M0 + _ + _ + _) = _ =>
      replace (a + b + b' + M1 + d + e + f - (a + b + b' + M0 + d + e + f)) with (M1 - M0) by ring end.
    apply over_media_diff; exact Hch.
  - destruct (d_organic_reach (x_data x)) as [y|]; cbn in Hch; [|lia].
    destruct (d_organic_frequency (x_data x)) as [z|]; cbn in Porf; [|contradiction].
    match goal with |- ?a + ?b + ?b' + ?c0 + ?M1 + ?e + ?f - (_ + _ + _ + _ + ?M0 + _ + _) = _ =>
      replace (a + b + b' + c0 + M1 + e + f - (a + b + b' + c0 + M0 + e + f)) with (M1 - M0) by ring end.
    pose proof (over_rf_diff x (x_organic_reach_transformer x) (w_organic_rf w) (x_decay_organic_rf x)
      (x_sat_organic_rf x) (w_beta_gorf w) y z f1 f0 sel c g t br Hch) as H. cbv zeta in H. destruct br; exact H.
  - destruct (d_non_media (x_data x)) as [y|]; cbn in Hch; [|lia]. cbn [option_map].
    match goal with |- ?a + ?M1 - (_ + ?M0) = _ =>
      replace (a + M1 - (a + M0)) with (M1 - M0) by ring end.
    cbn [over chans].
    apply (rsum_one_column (chans y) c
      (fun i => w_gamma_gn w g i * standardised (non_media_transformer x) y g t i)
      (fun i => w_gamma_gn w g i * standardised (non_media_transformer x)
         (mkT3 (geos y) (times y) (chans y) (fun g t c' =>
            if Nat.eqb c' c then bv * non_media_factor x g c' else val y g t c')) g t i)); [exact Hch|].
    intros i _ Hne. f_equal. unfold standardised. cbn [val].
    destruct (Nat.eqb_spec i c); [contradiction|]. reflexivity.
Qed.

Lemma fits_refl : forall o, fits o o.
Proof. intros [y|]; cbn; auto. repeat split. Qed.
Lemma fits_only : forall f sel c o, fits (option_map (only f sel c) o) o.
Proof. intros f sel c [y|]; cbn; auto. repeat split. Qed.
Lemma treatment_ok : forall x ch f sel br b, new_data_ok x (treatment x ch f sel br b).
Proof.
  intros x ch f sel br b. unfold new_data_ok, treatment.
  cbn [d_media d_reach d_frequency d_organic_media d_organic_reach d_organic_frequency d_non_media d_controls d_revenue_per_kpi].
  repeat match goal with |- _ /\ _ => split end;
    try reflexivity; try exact Logic.I;
    destruct ch as [c|c|c|c|c]; try apply fits_refl; try apply fits_only; try (destruct br);
    try apply fits_refl; try apply fits_only.
  all: destruct b; [|apply fits_refl]; destruct (d_non_media (x_data x)); cbn; auto; repeat split.
Qed.
Lemma nonneg_only : forall f sel c o, 0 <= f -> nonneg o -> nonneg (option_map (only f sel c) o).
Proof.
  intros f sel c [y|] Hf H; cbn in *; auto. intros g t i Ht Hi. pose proof (H g t i Ht Hi).
  destruct (Nat.eqb i c && executed sel t); [apply Rmult_le_pos; assumption|assumption].
Qed.
Lemma given_nonneg : forall f nd x, nonneg (f nd) -> nonneg (f (x_data x)) -> nonneg (given f nd x).
Proof. intros f nd x H H0. unfold given. destruct (f nd); assumption. Qed.
Lemma treatment_nonneg : forall x ch f sel br b, 0 <= f -> media_nonneg x (x_data x) ->
  media_nonneg x (treatment x ch f sel br b).
Proof.
  intros x ch f sel br b Hf (Hm & Hq & Ho & Hr).
  assert (E : forall k, given k (x_data x) x = k (x_data x))
    by (intros k; unfold given; destruct (k (x_data x)); reflexivity).
  rewrite E in Hm, Hq, Ho, Hr.
  unfold media_nonneg, treatment.
  refine (conj _ (conj _ (conj _ _))); apply given_nonneg; try assumption;
    cbn [d_media d_frequency d_organic_media d_organic_frequency];
    destruct ch; try destruct br; try apply nonneg_only; assumption.
Qed.

Lemma total_minus : forall l f h, total l f - total l h = total l (fun i => f i - h i).
Proof. intros l f h. unfold total. induction l as [|a l IH]; cbn [map lsum]; [ring|]. rewrite <- IH. ring. Qed.
Lemma total_ext' : forall l f h, (forall i, f i = h i) -> total l f = total l h.
Proof. intros l f h H. unfold total. f_equal. apply map_ext. exact H. Qed.

Lemma outcome_diff : forall x inv uk g t a b,
  outcome_in_units x inv uk g t a - outcome_in_units x inv uk g t b
  = outcome_per_unit x inv uk g t * (a - b).
Proof. intros. unfold outcome_in_units, outcome_per_unit. destruct inv; ring. Qed.

Lemma valid_position_cells : forall ag at' n m i j,
  (ag = false -> (i < n)%nat) -> (at' = false -> (j < m)%nat) ->
  valid_position (position ag i ++ position at' j) ((if ag then [] else [n]) ++ (if at' then [] else [m])).
Proof.
  intros [] [] n m i j H H'; unfold valid_position; cbn; repeat constructor; auto.
Qed.

Lemma channel_documented : forall x o bs draws ch bv,
  well_formed x -> valid_request x o bs draws -> is_channel x ch ->
  (forall c, ch = ChNonMedia c -> is_baseline_value x (o_baseline_values o) c bv) ->
  media_nonneg x (x_data x) -> transformers_ok x ->
  exists I, incremental_outcome x no_data o bs draws = Ok I /\ length I = length draws /\
    forall k w0 z, (k < length draws)%nat ->
      (exists C, (channel_index x ch < C)%nat /\
         shape (nth k I z) = (if o_aggregate_geos o then [] else [length (chosen_geos x (o_selected_geos o))])
                 ++ (if o_aggregate_times o then [] else [length (chosen_times x (o_selected_times o))])
                 ++ [C]) /\
      forall i j, (o_aggregate_geos o = false -> (i < length (chosen_geos x (o_selected_geos o)))%nat) ->
        (o_aggregate_times o = false -> (j < length (chosen_times x (o_selected_times o)))%nat) ->
        at_ (nth k I z) (position (o_aggregate_geos o) i ++ position (o_aggregate_times o) j
                         ++ [channel_index x ch])
        = total (members (chosen_geos x (o_selected_geos o)) (o_aggregate_geos o) i) (fun g =>
          total (members (chosen_times x (o_selected_times o)) (o_aggregate_times o) j) (fun t =>
            outcome_per_unit x (o_inverse o) (o_use_kpi o) g t
            * (channel_term x (treatment x ch (o_scaling_factor1 o) (o_media_selected_times o) (o_by_reach o) None)
                 (nth k draws w0) ch g t
               - channel_term x (treatment x ch (o_scaling_factor0 o) (o_media_selected_times o) (o_by_reach o) (Some bv))
                   (nth k draws w0) ch g t))).
Proof.
  intros x o bs draws ch bv W V Hch Hbv Hpos Htr.
  destruct (channel_total x o bs draws ch bv W V Hch Hbv) as (I & E1 & E0 & HI & H1 & H0 & LI & L1 & L0 & HV).
  assert (Hu : o_inverse o = true \/ outcome_is_kpi x (o_use_kpi o) = true).
  { destruct (vr_units _ _ _ _ V) as [E|[E R]]; [left; exact E|right]. unfold outcome_is_kpi.
    rewrite E, R. destruct (d_revenue_per_kpi (x_data x)); reflexivity. }
  pose proof (vr_factors _ _ _ _ V) as Hf.
  assert (Hf1 : 0 <= o_scaling_factor1 o) by lra. assert (Hf0 : 0 <= o_scaling_factor0 o) by lra.
  destruct (expected_documented x (treatment x ch (o_scaling_factor1 o) (o_media_selected_times o) (o_by_reach o) None)
    (o_selected_geos o) (o_selected_times o) (o_aggregate_geos o) (o_aggregate_times o) (o_inverse o) (o_use_kpi o)
    bs draws W (vr_draws _ _ _ _ V) (vr_some _ _ _ _ V) (vr_batch _ _ _ _ V) (vr_geos _ _ _ _ V) (vr_times _ _ _ _ V)
    Hu (treatment_ok _ _ _ _ _ _) (treatment_nonneg x ch _ _ _ _ Hf1 Hpos) Htr) as (E1' & HE1 & _ & V1).
  destruct (expected_documented x (treatment x ch (o_scaling_factor0 o) (o_media_selected_times o) (o_by_reach o) (Some bv))
    (o_selected_geos o) (o_selected_times o) (o_aggregate_geos o) (o_aggregate_times o) (o_inverse o) (o_use_kpi o)
    bs draws W (vr_draws _ _ _ _ V) (vr_some _ _ _ _ V) (vr_batch _ _ _ _ V) (vr_geos _ _ _ _ V) (vr_times _ _ _ _ V)
    Hu (treatment_ok _ _ _ _ _ _) (treatment_nonneg x ch _ _ _ _ Hf0 Hpos) Htr) as (E0' & HE0 & _ & V0).
  assert (E1' = E1) by congruence. assert (E0' = E0) by congruence. subst E1' E0'.
  exists I. split; [exact HI|]. split; [exact LI|]. intros k w0 z Hk.
  destruct (HV k z Hk) as (_ & (C & HC & Sh) & Vpos).
  destruct (V1 k w0 z Hk) as [S1 C1]. destruct (V0 k w0 z Hk) as [_ C0].
  split; [exists C; split; [exact HC|]; rewrite Sh, S1, <- app_assoc; reflexivity|].
  intros i j Hi Hj. rewrite app_assoc, Vpos by (rewrite S1; apply valid_position_cells; assumption).
  rewrite C1, C0 by assumption. rewrite total_minus. apply total_ext'. intros g.
  rewrite total_minus. apply total_ext'. intros t.
  rewrite outcome_diff, predictor_one_channel by assumption. reflexivity.
Qed.
