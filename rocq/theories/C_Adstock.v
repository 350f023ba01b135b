(** Properties C01-C06 and C45: adstock, Hill and their per-channel combination. *)
From Coq Require Import Reals ZArith Lra Lia List Bool Arith.
From Verif Require Import Lib_Sum Lib_Pow M_Base M_AdstockHill M_Equations
  S_Adstock S_Media P_Adstock P_Media P_MediaProps.
Import ListNotations.
Local Open Scope R_scope.

(** A concrete history: one geo, three periods with media 6, 3, 9, one channel. *)
Definition ex_series (t : nat) : R := match t with 0 => 6 | 1 => 3 | _ => 9 end.
Definition ex_media : T3 := mkT3 1 3 1 (fun _ t _ => ex_series t).

Example ex_args_ok : adstock_args_ok ex_media (fun _ => 1/2) 1 2 (DOne Geometric).
Proof.
  unfold adstock_args_ok, ex_media; simpl. repeat split; try lia; try lra. left; reflexivity.
Qed.

Example ex_args_ok_list :
  adstock_args_ok (mkT3 2 4 2 (fun g t c => INR (g + t + c))) (fun _ => 1/3) 7 3
    (DSeq [Binomial; Geometric]).
Proof.
  unfold adstock_args_ok; simpl. repeat split; try lia; try lra.
  repeat (apply Forall_cons; [unfold recognised; auto|]); apply Forall_nil.
Qed.

(** ** C01 *)
(** For every valid call the result exists, has the requested length, and each entry is the
    weighted average of the last W periods of that geo and channel. *)
Theorem C01_adstock_is_lagged_sum : forall media alpha max_lag n_out df,
  adstock_args_ok media alpha max_lag n_out df ->
  exists out, adstock media (chans media) alpha max_lag n_out df = Ok out /\
    geos out = geos media /\ Z.of_nat (times out) = n_out /\ chans out = chans media /\
    forall g t c, (t < times out)%nat -> (c < chans media)%nat ->
      exists d, assigned_decay df (chans media) c = Some d /\ recognised d /\
      val out g t c =
        lagged_average (window media max_lag)
          (documented_weight d (alpha c) (window media max_lag))
          (fun s => val media g s c) (times media - times out + t).
Proof.
  intros media alpha max_lag n_out df [H1 [H2 [H3 H4]]].
  exact (adstock_lagged_average_lemma media alpha max_lag n_out df H1 H2 H3 H4).
Qed.
Print Assumptions C01_adstock_is_lagged_sum.

(** Over 6, 3, 9 with alpha = 1/2 and max_lag = 1 the last two averages are
    2/3*3 + 1/3*6 = 4 and 2/3*9 + 1/3*3 = 7. *)
Example C01_example : exists out,
  adstock ex_media 1 (fun _ => 1/2) 1 2 (DOne Geometric) = Ok out /\
  val out 0%nat 0%nat 0%nat = 4 /\ val out 0%nat 1%nat 0%nat = 7.
Proof.
  destruct (C01_adstock_is_lagged_sum _ _ _ _ _ ex_args_ok) as [out [Ho [_ [Ht [_ Hv]]]]].
  simpl in Ho, Ht. exists out. split; [exact Ho|].
  assert (Ht' : times out = 2%nat) by lia.
  split.
  - destruct (Hv 0%nat 0%nat 0%nat ltac:(lia) ltac:(simpl; lia)) as [d [Hd [_ ->]]].
    simpl in Hd. inversion Hd; subst d. rewrite Ht'.
    unfold lagged_average, documented_weight, past, ex_media, window. simpl. lra.
  - destruct (Hv 0%nat 1%nat 0%nat ltac:(lia) ltac:(simpl; lia)) as [d [Hd [_ ->]]].
    simpl in Hd. inversion Hd; subst d. rewrite Ht'.
    unfold lagged_average, documented_weight, past, ex_media, window. simpl. lra.
Qed.

(** Exactly the documented invalid calls are rejected. *)
Theorem C01_adstock_rejects_iff : forall media n alpha max_lag n_out df,
  decay_ok df n -> (forall c, (c < n)%nat -> 0 <= alpha c <= 1) ->
  (adstock media n alpha max_lag n_out df = Err ValueError <->
   (n_out < 1 \/ n_out > Z.of_nat (times media) \/ max_lag < 0)%Z \/ chans media <> n).
Proof. exact adstock_rejects_lemma. Qed.
Print Assumptions C01_adstock_rejects_iff.

Example C01_rejects_example :
  adstock ex_media 1 (fun _ => 1/2) 1 4 (DOne Geometric) = Err ValueError.
Proof.
  apply C01_adstock_rejects_iff; [left; reflexivity|intros; lra|].
  left. right. left. simpl. lia.
Qed.

(** Media older than the last n_out + W - 1 periods never matters. *)
Theorem C01_old_media_is_irrelevant : forall x y alpha max_lag n_out df ox oy,
  same_shape x y -> adstock_args_ok x alpha max_lag n_out df ->
  (forall g s c, (c < chans x)%nat -> (s < times x)%nat ->
     (times x < s + Z.to_nat n_out + window x max_lag)%nat ->
     val x g s c = val y g s c) ->
  adstock x (chans x) alpha max_lag n_out df = Ok ox ->
  adstock y (chans y) alpha max_lag n_out df = Ok oy ->
  T3_eq ox oy.
Proof. exact adstock_recent_lemma. Qed.
Print Assumptions C01_old_media_is_irrelevant.

(** Two histories that differ only in the first of three periods, for one output period. *)
Definition ex_media' : T3 := mkT3 1 3 1 (fun _ t _ => match t with 0 => 100 | _ => ex_series t end).
Example C01_old_media_example :
  same_shape ex_media ex_media' /\
  adstock_args_ok ex_media (fun _ => 1/2) 1 1 (DOne Geometric) /\
  val ex_media 0 0 0 <> val ex_media' 0 0 0 /\
  (forall g s c, (c < chans ex_media)%nat -> (s < times ex_media)%nat ->
     (times ex_media < s + Z.to_nat 1 + window ex_media 1)%nat ->
     val ex_media g s c = val ex_media' g s c).
Proof.
  split; [repeat split|]. split.
  - unfold adstock_args_ok; simpl; repeat split; try lia; try lra. left; reflexivity.
  - split; [simpl; lra|].
    intros g s c _ Hs HW. unfold window in HW. simpl in HW, Hs.
    destruct s; [simpl in HW; lia|reflexivity].
Qed.

(** alpha = 0 means no carry-over, for both decay functions. *)
Theorem C01_alpha_zero_is_identity : forall x alpha max_lag n_out df ox g t c,
  adstock_args_ok x alpha max_lag n_out df ->
  adstock x (chans x) alpha max_lag n_out df = Ok ox ->
  (Z.of_nat t < n_out)%Z -> (c < chans x)%nat -> alpha c = 0 ->
  val ox g t c = val x g (times x - times ox + t)%nat c.
Proof. exact adstock_no_carryover_lemma. Qed.
Print Assumptions C01_alpha_zero_is_identity.

Example C01_alpha_zero_example :
  adstock_args_ok ex_media (fun _ => 0) 1 2 (DSeq [Binomial]).
Proof.
  unfold adstock_args_ok; simpl; repeat split; try lia; try lra.
  repeat (apply Forall_cons; [unfold recognised; auto|]); apply Forall_nil.
Qed.

(** ** C02 *)
(** Position [i] of the weight vector is lag [W-1-i]: weights never increase with the lag. *)
Theorem C02_weights_are_probability_vector : forall n alpha W df w,
  decay_ok df n -> (forall c, (c < n)%nat -> 0 <= alpha c <= 1) -> (0 < W)%nat ->
  compute_decay_weights n alpha W df = Ok w ->
  forall c, (c < n)%nat ->
    (forall i, (i < W)%nat -> 0 <= w c i) /\ rsum W (w c) = 1 /\
    (forall i j, (i <= j)%nat -> (j < W)%nat -> w c i <= w c j).
Proof. exact decay_weights_lemma. Qed.
Print Assumptions C02_weights_are_probability_vector.

Example C02_weights_example : exists w,
  compute_decay_weights 2 (fun _ => 1/2) 4 (DSeq [Geometric; Binomial]) = Ok w /\
  w 0%nat 3%nat = 8/15.
Proof.
  eexists. split; [reflexivity|]. cbn [nth is_binomial].
  rewrite single_weight_documented by (unfold recognised, alpha_ok; auto; try lra; lia).
  unfold documented_weight; simpl. field.
Qed.

Theorem C02_adstock_is_contraction : forall x alpha max_lag n_out df ox hi,
  adstock_args_ok x alpha max_lag n_out df ->
  (forall g t c, (t < times x)%nat -> (c < chans x)%nat -> 0 <= val x g t c <= hi) ->
  adstock x (chans x) alpha max_lag n_out df = Ok ox ->
  forall g t c, (Z.of_nat t < n_out)%Z -> (c < chans x)%nat -> 0 <= val ox g t c <= hi.
Proof. exact adstock_contraction_lemma. Qed.
Print Assumptions C02_adstock_is_contraction.

Example C02_contraction_example :
  adstock_args_ok ex_media (fun _ => 1/2) 1 2 (DOne Geometric) /\
  (forall g t c, (t < times ex_media)%nat -> (c < chans ex_media)%nat -> 0 <= val ex_media g t c <= 9).
Proof.
  split; [exact ex_args_ok|]. intros g t c _ _. simpl. unfold ex_series.
  destruct t as [|[|]]; lra.
Qed.

Theorem C02_constant_media_is_fixed : forall x alpha max_lag n_out df ox g t c k,
  adstock_args_ok x alpha max_lag n_out df ->
  adstock x (chans x) alpha max_lag n_out df = Ok ox ->
  (Z.of_nat t < n_out)%Z -> (c < chans x)%nat ->
  let s := (times x - times ox + t)%nat in
  (window x max_lag <= s + 1)%nat ->
  (forall u, (u <= s)%nat -> (s < u + window x max_lag)%nat -> val x g u c = k) ->
  val ox g t c = k.
Proof. exact adstock_steady_lemma. Qed.
Print Assumptions C02_constant_media_is_fixed.

Example C02_constant_example :
  let x := mkT3 1 5 1 (fun _ t _ => if Nat.ltb t 2 then 100 else 7) in
  adstock_args_ok x (fun _ => 1/2) 1 2 (DOne Binomial) /\
  (window x 1 <= 3 + 1)%nat /\
  (forall u, (u <= 3)%nat -> (3 < u + window x 1)%nat -> val x 0%nat u 0%nat = 7).
Proof.
  cbv zeta. split; [|split].
  - unfold adstock_args_ok; simpl; repeat split; try lia; try lra. right; reflexivity.
  - unfold window; simpl; lia.
  - unfold window; simpl. intros u Hu Hu'.
    destruct u as [|[|u]]; try lia. reflexivity.
Qed.

(** ** C03 *)
Theorem C03_adstock_is_linear : forall x y z a b alpha max_lag n_out df ox oy oz,
  same_shape x y -> same_shape x z -> adstock_args_ok x alpha max_lag n_out df ->
  (forall g t c, val z g t c = a * val x g t c + b * val y g t c) ->
  adstock x (chans x) alpha max_lag n_out df = Ok ox ->
  adstock y (chans y) alpha max_lag n_out df = Ok oy ->
  adstock z (chans z) alpha max_lag n_out df = Ok oz ->
  forall g t c, (Z.of_nat t < n_out)%Z -> (c < chans x)%nat ->
    val oz g t c = a * val ox g t c + b * val oy g t c.
Proof. exact adstock_linear_lemma. Qed.
Print Assumptions C03_adstock_is_linear.

Theorem C03_adstock_is_monotone : forall x y alpha max_lag n_out df ox oy,
  same_shape x y -> adstock_args_ok x alpha max_lag n_out df ->
  (forall g t c, (t < times x)%nat -> (c < chans x)%nat -> val x g t c <= val y g t c) ->
  adstock x (chans x) alpha max_lag n_out df = Ok ox ->
  adstock y (chans y) alpha max_lag n_out df = Ok oy ->
  forall g t c, (Z.of_nat t < n_out)%Z -> (c < chans x)%nat -> val ox g t c <= val oy g t c.
Proof. exact adstock_monotone_lemma. Qed.
Print Assumptions C03_adstock_is_monotone.

(** The hypotheses hold for 6,3,9 and its pointwise larger variant 100,3,9; both runs succeed. *)
Example C03_example :
  same_shape ex_media ex_media' /\
  (exists o, adstock ex_media 1 (fun _ => 1/2) 1 2 (DOne Geometric) = Ok o) /\
  (exists o, adstock ex_media' 1 (fun _ => 1/2) 1 2 (DOne Geometric) = Ok o) /\
  (forall g t c, val ex_media g t c <= val ex_media' g t c).
Proof.
  split; [repeat split|]. split; [apply (adstock_runs ex_media); exact ex_args_ok|].
  split.
  - apply (adstock_runs ex_media'). unfold adstock_args_ok; simpl; repeat split; try lia; try lra.
    left; reflexivity.
  - intros g t c. simpl. destruct t as [|[|]]; simpl; lra.
Qed.

(** ** C04 *)
Theorem C04_hill_shape : forall ec slope,
  0 < ec -> 0 < slope ->
  hill ec slope 0 = 0 /\ hill ec slope ec = 1 / 2 /\
  (forall x, 0 <= x -> 0 <= hill ec slope x < 1) /\
  (forall x y, 0 <= x -> x < y -> hill ec slope x < hill ec slope y) /\
  (forall ec' x, ec <= ec' -> 0 <= x -> hill ec' slope x <= hill ec slope x) /\
  (forall x, 0 <= x -> hill ec slope x = documented_hill ec slope x).
Proof.
  exact (fun ec slope He Hs =>
    conj (hill_zero_lemma ec slope Hs)
   (conj (hill_half_lemma ec slope He)
   (conj (fun x => hill_range_lemma ec slope x He Hs)
   (conj (fun x y => hill_strict_lemma ec slope x y He Hs)
   (conj (fun ec' x H Hx => hill_ec_lemma ec ec' slope x He H Hs Hx)
         (fun x => hill_documented ec slope x He Hs)))))).
Qed.
Print Assumptions C04_hill_shape.

Example C04_example : hill 2 1 6 = 3 / 4.
Proof.
  rewrite hill_documented by lra. unfold documented_hill.
  destruct (Req_EM_T 6 0); [lra|].
  rewrite Rpower_Ropp, Rpower_1 by lra. field.
Qed.

(** HillTransformer.forward applies that curve entrywise and keeps the shape. *)
Theorem C04_hill_forward_entrywise : forall media n ec slope,
  chans media = n ->
  exists out, hill_forward media n ec n slope = Ok out /\ same_shape out media /\
    forall g t c, val out g t c = hill (ec c) (slope c) (val media g t c).
Proof.
  intros media n ec slope <-. unfold hill_forward. rewrite Nat.eqb_refl. simpl.
  eexists; split; [reflexivity|]. split; [repeat split|reflexivity].
Qed.
Print Assumptions C04_hill_forward_entrywise.

(** ** C05 *)
(** The two backends' kernels give the same [_adstock], on every call (also failing ones). *)
Theorem C05_backends_agree : forall media n alpha max_lag n_out df,
  match adstock_with adstock_process_window media n alpha max_lag n_out df,
        adstock_with adstock_process_conv media n alpha max_lag n_out df with
  | Ok a, Ok b => T3_eq a b
  | Err e, Err e' => e = e'
  | _, _ => False
  end.
Proof. exact backends_agree_lemma. Qed.
Print Assumptions C05_backends_agree.

Theorem C05_kernels_agree : forall media W weights n_out,
  (0 < W)%nat -> (0 < n_out)%nat -> times media = (n_out + W - 1)%nat ->
  exists a b, adstock_process_window media W weights n_out = Ok a /\
    adstock_process_conv media W weights n_out = Ok b /\ T3_eq a b /\ times a = n_out.
Proof. exact kernels_agree_lemma. Qed.
Print Assumptions C05_kernels_agree.

Example C05_example :
  let m := mkT3 2 5 2 (fun g t c => INR (10 * g + t + 3 * c)) in
  times m = (3 + 3 - 1)%nat /\
  exists b, adstock_process_conv m 3 (fun c i => INR (c + i)) 3 = Ok b /\
    val b 1%nat 0%nat 1%nat = INR (1 * 13 + 2 * 14 + 3 * 15).
Proof.
  cbv zeta. split; [reflexivity|]. eexists; split; [reflexivity|].
  cbn [val]. unfold conv_valid, conv_flat_media, conv_flat_kernel. cbn [chans val].
  change ((1 * 2 + 1) / 2)%nat with 1%nat. change ((1 * 2 + 1) mod 2)%nat with 1%nat.
  simpl rsum. rewrite !plus_INR, !mult_INR. simpl. lra.
Qed.

(** ** C06 *)
Theorem C06_media_transformation : forall cx media p df sa n_out,
  media_args_ok cx media p df sa n_out ->
  exists out, adstock_hill_media cx media p df sa (Some n_out) = Ok out /\
    geos out = geos media /\ Z.of_nat (times out) = n_out /\ chans out = chans media /\
    forall g t c, (t < times out)%nat -> (c < chans media)%nat ->
      exists d s, assigned_decay df (chans media) c = Some d /\ recognised d /\
        assigned_sat sa (chans media) c = Some s /\ s <> OtherSat /\
        val out g t c =
          media_response (ctx_hill_before_adstock cx) s (p_ec p c) (p_slope p c)
            (window media (ctx_max_lag cx))
            (documented_weight d (p_alpha p c) (window media (ctx_max_lag cx)))
            (fun u => val media g u c) (times media - times out + t).
Proof.
  intros cx media p df sa n_out [H1 [H2 [H3 [H4 [H5 [H6 H7]]]]]].
  exact (adstock_hill_media_lemma cx media p df sa n_out H1 H2 H3 H4 H5 H6 H7).
Qed.
Print Assumptions C06_media_transformation.

Theorem C06_rf_transformation : forall cx reach freq p df sa n_out,
  rf_args_ok cx reach freq p df sa n_out ->
  exists out, adstock_hill_rf cx reach freq p df sa (Some n_out) = Ok out /\
    geos out = geos reach /\ Z.of_nat (times out) = n_out /\ chans out = chans reach /\
    forall g t c, (t < times out)%nat -> (c < chans reach)%nat ->
      exists d s, assigned_decay df (chans reach) c = Some d /\ recognised d /\
        assigned_sat sa (chans reach) c = Some s /\ s <> OtherSat /\
        val out g t c =
          lagged_average (window reach (ctx_max_lag cx))
            (documented_weight d (p_alpha p c) (window reach (ctx_max_lag cx)))
            (fun u => val reach g u c * saturate s (p_ec p c) (p_slope p c) (val freq g u c))
            (times reach - times out + t).
Proof.
  intros cx reach freq p df sa n_out [H1 [H2 [[Sg [St Sc]] [H3 [H4 [H5 [H6 H7]]]]]]].
  exact (adstock_hill_rf_lemma cx reach freq p df sa n_out H1 H2 Sg St Sc H3 H4 H5 H6 H7).
Qed.
Print Assumptions C06_rf_transformation.

(** Channel c behaves as in a model where every channel uses channel c's choices. *)
Theorem C06_channel_choice_is_local : forall cx media p df sa n_out out c d s,
  media_args_ok cx media p df sa n_out ->
  adstock_hill_media cx media p df sa (Some n_out) = Ok out ->
  (c < chans media)%nat ->
  assigned_decay df (chans media) c = Some d -> assigned_sat sa (chans media) c = Some s ->
  exists out', adstock_hill_media cx media p (DOne d) (SOne s) (Some n_out) = Ok out' /\
    forall g t, (Z.of_nat t < n_out)%Z -> val out g t c = val out' g t c.
Proof. exact per_channel_media_lemma. Qed.
Print Assumptions C06_channel_choice_is_local.

Theorem C06_rf_channel_choice_is_local : forall cx reach freq p df sa n_out out c d s,
  rf_args_ok cx reach freq p df sa n_out ->
  adstock_hill_rf cx reach freq p df sa (Some n_out) = Ok out ->
  (c < chans reach)%nat ->
  assigned_decay df (chans reach) c = Some d -> assigned_sat sa (chans reach) c = Some s ->
  exists out', adstock_hill_rf cx reach freq p (DOne d) (SOne s) (Some n_out) = Ok out' /\
    forall g t, (Z.of_nat t < n_out)%Z -> val out g t c = val out' g t c.
Proof. exact per_channel_rf_lemma. Qed.
Print Assumptions C06_rf_channel_choice_is_local.

Theorem C06_unsaturated_channel_is_linear : forall cx x y z a b p df sa n_out ox oy oz c,
  same_shape x y -> same_shape x z ->
  media_args_ok cx x p df sa n_out -> media_args_ok cx y p df sa n_out ->
  media_args_ok cx z p df sa n_out ->
  (c < chans x)%nat -> assigned_sat sa (chans x) c = Some NoSat ->
  (forall g t, val z g t c = a * val x g t c + b * val y g t c) ->
  adstock_hill_media cx x p df sa (Some n_out) = Ok ox ->
  adstock_hill_media cx y p df sa (Some n_out) = Ok oy ->
  adstock_hill_media cx z p df sa (Some n_out) = Ok oz ->
  forall g t, (Z.of_nat t < n_out)%Z -> val oz g t c = a * val ox g t c + b * val oy g t c.
Proof. exact unsaturated_linear_lemma. Qed.
Print Assumptions C06_unsaturated_channel_is_linear.

Theorem C06_rf_is_linear_in_reach : forall cx x y z freq a b p df sa n_out ox oy oz c,
  same_shape x y -> same_shape x z ->
  rf_args_ok cx x freq p df sa n_out ->
  (c < chans x)%nat ->
  (forall g t, val z g t c = a * val x g t c + b * val y g t c) ->
  adstock_hill_rf cx x freq p df sa (Some n_out) = Ok ox ->
  adstock_hill_rf cx y freq p df sa (Some n_out) = Ok oy ->
  adstock_hill_rf cx z freq p df sa (Some n_out) = Ok oz ->
  forall g t, (Z.of_nat t < n_out)%Z -> val oz g t c = a * val ox g t c + b * val oy g t c.
Proof. exact rf_linear_in_reach_lemma. Qed.
Print Assumptions C06_rf_is_linear_in_reach.

(** More media never lowers transformed media, which is never negative. *)
Theorem C06_media_transformation_is_monotone : forall cx x y p df sa n_out ox oy,
  same_shape x y ->
  media_args_ok cx x p df sa n_out ->
  (forall g t c, (t < times x)%nat -> (c < chans x)%nat -> val x g t c <= val y g t c) ->
  adstock_hill_media cx x p df sa (Some n_out) = Ok ox ->
  adstock_hill_media cx y p df sa (Some n_out) = Ok oy ->
  forall g t c, (Z.of_nat t < n_out)%Z -> (c < chans x)%nat ->
    0 <= val ox g t c <= val oy g t c.
Proof. exact media_monotone_lemma. Qed.
Print Assumptions C06_media_transformation_is_monotone.

(** Without [n_times_output] the output length is [n_times], and only for media of
    [n_media_times] periods. *)
Theorem C06_default_output_length : forall cx media p df sa,
  adstock_hill_media cx media p df sa None =
    if Nat.eqb (times media) (ctx_n_media_times cx)
    then adstock_hill_media cx media p df sa (Some (Z.of_nat (ctx_n_times cx)))
    else Err ValueError.
Proof. exact default_output_lemma. Qed.
Print Assumptions C06_default_output_length.

(** Two channels, one binomial/Hill, one geometric/none. *)
Definition ex_cx : ctx := mkCtx 4 3 2 false.
Definition ex_media2 : T3 := mkT3 2 4 2 (fun g t c => INR (g + t + c)).
Definition ex_params : chan_params := mkParams 2 (fun _ => 1/2) (fun _ => 1) (fun _ => 2).
Example C06_media_args_example :
  media_args_ok ex_cx ex_media2 ex_params (DSeq [Binomial; Geometric]) (SSeq [Hill; NoSat]) 3 /\
  assigned_decay (DSeq [Binomial; Geometric]) 2 1 = Some Geometric /\
  assigned_sat (SSeq [Hill; NoSat]) 2 1 = Some NoSat.
Proof.
  split; [|split; reflexivity].
  unfold media_args_ok, params_ok; simpl.
  repeat split; try lia; try lra.
  - repeat (apply Forall_cons; [unfold recognised; auto|]); apply Forall_nil.
  - repeat constructor; discriminate.
  - intros; apply pos_INR.
Qed.
Example C06_rf_args_example :
  rf_args_ok ex_cx ex_media2 ex_media2 ex_params (DSeq [Binomial; Geometric]) (SSeq [Hill; NoSat]) 3.
Proof.
  unfold rf_args_ok, same_shape, params_ok; simpl.
  repeat split; try lia; try lra.
  - repeat (apply Forall_cons; [unfold recognised; auto|]); apply Forall_nil.
  - repeat constructor; discriminate.
  - intros; apply pos_INR.
Qed.

(** The exponent prior of binomial decay: the documented bijection. *)
Theorem C06_alpha_exponent_bijection : forall x, 0 <= x ->
  0 < unit_interval_map x <= 1 /\
  map_alpha_for_binomial_decay (unit_interval_map x) = Some x.
Proof. exact unit_interval_map_inverse. Qed.
Print Assumptions C06_alpha_exponent_bijection.

Example C06_alpha_exponent_example : unit_interval_map 3 = 1/4.
Proof. unfold unit_interval_map. field. Qed.

(** ** C45 *)
(** An all-zero history in front of the data changes nothing, provided the data already
    spans max_lag + 1 periods. *)
Theorem C45_zero_history_is_neutral : forall x k alpha max_lag n_out df ox oy,
  adstock_args_ok x alpha max_lag n_out df ->
  (max_lag + 1 <= Z.of_nat (times x))%Z ->
  adstock x (chans x) alpha max_lag n_out df = Ok ox ->
  adstock (pad_left k x) (chans x) alpha max_lag n_out df = Ok oy ->
  T3_eq ox oy.
Proof. exact adstock_zero_history_lemma. Qed.
Print Assumptions C45_zero_history_is_neutral.

Example C45_example :
  adstock_args_ok ex_media (fun _ => 1/2) 1 2 (DOne Geometric) /\ (1 + 1 <= Z.of_nat (times ex_media))%Z /\
  exists o, adstock (pad_left 5 ex_media) 1 (fun _ => 1/2) 1 2 (DOne Geometric) = Ok o.
Proof.
  split; [exact ex_args_ok|]. split; [simpl; lia|].
  apply (adstock_runs (pad_left 5 ex_media)).
  unfold adstock_args_ok; simpl; repeat split; try lia; try lra. left; reflexivity.
Qed.

(** Finding: with a shorter history it does change the result, because the normalising
    window is cut to the number of supplied periods. *)
Theorem C45_short_history_refuted :
  exists x k alpha max_lag n_out df ox oy,
    adstock_args_ok x alpha max_lag n_out df /\
    adstock x (chans x) alpha max_lag n_out df = Ok ox /\
    adstock (pad_left k x) (chans x) alpha max_lag n_out df = Ok oy /\
    val ox 0%nat 0%nat 0%nat <> val oy 0%nat 0%nat 0%nat.
Proof.
  set (x := mkT3 1 1 1 (fun _ _ _ => 1)).
  assert (Ok1 : adstock_args_ok x (fun _ => 1/2) 1 1 (DOne Geometric)).
  { unfold adstock_args_ok, x; simpl; repeat split; try lia; try lra. left; reflexivity. }
  assert (Ok2 : adstock_args_ok (pad_left 1 x) (fun _ => 1/2) 1 1 (DOne Geometric)).
  { unfold adstock_args_ok, x; simpl; repeat split; try lia; try lra. left; reflexivity. }
  destruct (C01_adstock_is_lagged_sum _ _ _ _ _ Ok1) as [o1 [E1 [_ [T1 [_ V1]]]]].
  destruct (C01_adstock_is_lagged_sum _ _ _ _ _ Ok2) as [o2 [E2 [_ [T2 [_ V2]]]]].
  exists x, 1%nat, (fun _ => 1/2), 1%Z, 1%Z, (DOne Geometric), o1, o2.
  split; [exact Ok1|]. split; [exact E1|]. split; [exact E2|].
  assert (T1' : times o1 = 1%nat) by lia. assert (T2' : times o2 = 1%nat) by lia.
  destruct (V1 0%nat 0%nat 0%nat ltac:(lia) ltac:(simpl; lia)) as [d1 [D1 [_ ->]]].
  destruct (V2 0%nat 0%nat 0%nat ltac:(lia) ltac:(simpl; lia)) as [d2 [D2 [_ ->]]].
  simpl in D1, D2. inversion D1; inversion D2; subst d1 d2. rewrite T1', T2'.
  unfold lagged_average, documented_weight, past, x, window; simpl. lra.
Qed.
Print Assumptions C45_short_history_refuted.
