(** C82: every parameter of a model has the prior set for it, and priors that leave the parameter
    space are refused. *)
From Coq Require Import Reals String List Bool Arith Lia Lra.
From Verif Require Import M_Base M_PriorDist M_PriorBroadcast S_PriorBroadcast P_PriorBroadcast.
Import ListNotations.
Local Open Scope string_scope.
Local Open Scope R_scope.
Local Open Scope nat_scope.
Local Open Scope list_scope.

(** Priors are accepted exactly when, wherever the support of a distribution can be found out, it
    lies in the parameter space: decay rates between 0 and 1 and not fixed at 1, deviations not
    negative, parameters of curves not negative and not fixed at 0.  They are refused with a
    ValueError. *)
Theorem C82_accepted : forall p, (forall x, proper (p x)) ->
  (make_prior p = Ok p <-> forall x l, support_known (p x) -> given (p x) l -> allowed x (p x) l) /\
  (forall e, make_prior p = Err e -> e = ValueError).
Proof. intros p P. split; [exact (accepted p P) | exact (make_prior_err p)]. Qed.
Print Assumptions C82_accepted.

(** An accepted prior can be given to a model exactly when each parameter of channels has one law
    or one for each channel, and, in a national model, parameters that describe differences between
    geos are not fixed in a batch of several numbers.  Otherwise there is a ValueError. *)
Theorem C82_fits : forall z p, make_prior p = Ok p ->
  (forall x n, channel_size z x n -> at_most_vector (p x)) ->
  ((exists q, broadcast z p = Ok q) <->
   (forall x n, channel_size z x n -> fits (p x) [n]) /\
   (z_national z = true -> forall x s f, In x between_geos -> p x = Deterministic s f -> single s)) /\
  (forall e, broadcast z p = Err e -> e = ValueError).
Proof. intros z p M V. split; [exact (broadcast_exact z p M V) | exact (broadcast_err z p)]. Qed.
Print Assumptions C82_fits.

(** Every parameter whose prior fits gets the documented shape, and each of its elements has the
    law set for that element: the only one, or its own.  In national models the parameters between
    geos are zero; where the total contribution of media is the prior, the ROI priors follow from
    it. *)
Theorem C82_law : forall z p q x s, broadcast z p = Ok q -> documented_shape z x s -> fits (p x) s ->
  batch_shape (q x) = Ok s /\ (forall i, index_of s i -> intended z p x i (law_at (q x) i)).
Proof. exact broadcast_law. Qed.
Print Assumptions C82_law.

(** The priors of a model can be given to another model with the same sizes, which then has the same
    laws. *)
Theorem C82_again : forall z p q, broadcast z p = Ok q ->
  (forall x s, documented_shape z x s -> fits (p x) s) ->
  exists q', broadcast z q = Ok q' /\
    forall x s, documented_shape z x s ->
      batch_shape (q' x) = Ok s /\ batch_shape (q x) = Ok s /\
      forall i, index_of s i -> law_at (q' x) i = law_at (q x) i.
Proof. exact broadcast_again. Qed.
Print Assumptions C82_again.

(** A parameter is reported as fixed exactly when it was set to a [Deterministic] distribution that
    is used, or is one between geos in a national model. *)
Theorem C82_fixed : forall z p q x s, broadcast z p = Ok q -> documented_shape z x s ->
  (has_deterministic_param q x = Ok true <->
   (z_national z = true /\ In x between_geos) \/
   (~ (z_total_prior z = true /\ In x roi) /\ exists s f, p x = Deterministic s f)) /\
  (has_deterministic_param q x = Ok true \/ has_deterministic_param q x = Ok false).
Proof.
  intros z p q x s B D.
  split; [exact (deterministic_param_iff z p q x s B D) | exact (deterministic_param z p q x s B D)].
Qed.
Print Assumptions C82_fixed.

(** There is no warning about convex curves exactly for slopes given as [Deterministic] ones. *)
Theorem C82_slope_warning : forall d,
  slope_warning d = false <-> (exists s f, d = Deterministic s f) /\ (forall l, given d l -> l = Point (Fin 1)).
Proof. exact slope_warning_iff. Qed.
Print Assumptions C82_slope_warning.

(** The default priors are accepted and can be given to every model. *)
Theorem C82_defaults : make_prior defaults = Ok defaults /\
  forall z, exists q, broadcast z defaults = Ok q /\
    forall x s, documented_shape z x s -> batch_shape (q x) = Ok s.
Proof.
  split; [exact defaults_ok|]. intros z. destruct (defaults_broadcast z) as (q & B). exists q. split; [exact B|].
  intros x s D. exact (proj1 (broadcast_law z defaults q x s B D (or_introl (defaults_scalar x)))).
Qed.
Print Assumptions C82_defaults.

(** ** What does not hold *)

(** "The support is always checked": fixed slopes of -1 are accepted when they are broadcast twice,
    with a warning that the check was skipped. *)
Theorem C82_checked_refuted : exists p, make_prior p = Ok p /\ given (p "slope_m") (Point (Fin (- 1))).
Proof.
  exists (replace_prior defaults "slope_m" (BatchBroadcast (BatchBroadcast (Deterministic [] (fun _ => Fin (- 1))) [1]) [1])).
  split.
  - apply replace_ok; [exact defaults_ok|]. intros b pr _. reflexivity.
  - rewrite replace_same. cbn [given]. exists [], []. split; [reflexivity|]. split; [constructor | reflexivity].
Qed.
Print Assumptions C82_checked_refuted.

(** "Values outside the parameter space are refused": NaN is not. *)
Theorem C82_nan_refuted : exists p, make_prior p = Ok p /\ given (p "eta_m") (Point NaN).
Proof.
  exists (replace_prior defaults "eta_m" (Deterministic [] (fun _ => NaN))). split.
  - apply replace_ok; [exact defaults_ok|]. intros b pr I.
    destruct (entry_cases _ _ _ I) as [(J & -> & ->)|[(J & -> & ->)|(J & -> & ->)]]; reflexivity.
  - rewrite replace_same. cbn [given]. exists [], []. split; [reflexivity|]. split; [constructor | reflexivity].
Qed.
Print Assumptions C82_nan_refuted.

(** "Priors between geos that are fixed at zero are accepted for national models": not one zero for
    each channel. *)
Theorem C82_national_zero_refuted : exists z p, make_prior p = Ok p /\ z_national z = true /\
  fits (p "eta_m") [z_media z] /\ (forall l, given (p "eta_m") l -> l = Point (Fin 0)) /\
  broadcast z p = Err ValueError.
Proof.
  exists (mkSizes 1 2 0 0 0 0 0 false 1 true false 1 [1%R; 1%R]),
         (replace_prior defaults "eta_m" (Deterministic [2] (fun _ => Fin 0))).
  assert (MP : make_prior (replace_prior defaults "eta_m" (Deterministic [2] (fun _ => Fin 0))) =
               Ok (replace_prior defaults "eta_m" (Deterministic [2] (fun _ => Fin 0)))).
  { apply replace_ok; [exact defaults_ok|]. intros b pr I.
    destruct (entry_cases _ _ _ I) as [(J & _)|[(J & _)|(J & -> & ->)]].
    - cbv [decay_rates In] in J. repeat (destruct J as [J|J]; [discriminate|]). destruct J.
    - cbv [curve_parameters In] in J. repeat (destruct J as [J|J]; [discriminate|]). destruct J.
    - apply validate_support_iff. intros _ l (s & i & E & _ & <-). unfold within.
      cbn [law_at low_end high_end fst snd positive].
      split; [apply low_iff; [intros X; discriminate | cbn; lra]|]. split; [reflexivity|].
      intros _. split; discriminate. }
  split; [exact MP|]. split; [reflexivity|]. split; [right; reflexivity|]. split.
  - rewrite replace_same. intros l (s & i & _ & _ & <-). reflexivity.
  - match goal with |- broadcast ?z ?p = _ => destruct (broadcast z p) as [q|e] eqn:B end.
    + exfalso. pose proof (proj1 (broadcast_iff _ _ MP) (ex_intro _ q B)) as (_ & S).
      specialize (S eq_refl "eta_m" [2] (fun _ => Fin 0) ltac:(cbv; tauto) eq_refl).
      inversion S as [|? ? E]. discriminate.
    + rewrite (broadcast_err _ _ _ B). reflexivity.
Qed.
Print Assumptions C82_national_zero_refuted.

(** "Every prior whose shape does not fit is refused": with one knot, priors for three knots are
    accepted and the parameter has three elements. *)
Theorem C82_knots_refuted : exists z p q, broadcast z p = Ok q /\ z_knots z = 1 /\
  batch_shape (q "knot_values") = Ok [3].
Proof.
  pose (d := Family [3] true (fun _ => Range NInf Inf 0)).
  pose (z := mkSizes 2 2 0 0 0 0 0 false 1 false false 1 [1%R; 1%R]).
  assert (B : exists q, broadcast z (replace_prior defaults "knot_values" d) = Ok q).
  { apply replace_broadcast.
    - intros b pr I. destruct (entry_cases _ _ _ I) as [(J & _)|[(J & _)|(J & _)]]; exfalso;
      cbv [decay_rates curve_parameters deviations In] in J; repeat (destruct J as [J|J]; [discriminate|]); destruct J.
    - intros n C. exfalso. inversion C as [x I|x I|x I|x I|x I|x I];
      cbv [of_media of_rf of_organic_media of_organic_rf of_controls of_non_media In] in I;
      repeat (destruct I as [I|I]; [discriminate|]); destruct I.
    - discriminate. }
  destruct B as (q & B). exists z, (replace_prior defaults "knot_values" d), q.
  split; [exact B|]. split; [reflexivity|].
  destruct (broadcast_inv _ _ _ B) as (_ & _ & T). destruct (T "knot_values" [1] (DS_knots z)) as (d' & Q & (_ & _ & C)).
  rewrite Q. rewrite C; [reflexivity | |].
  - cbv [between_geos In]. intros J. repeat (destruct J as [J|J]; [discriminate|]). destruct J.
  - cbv [roi In]. intros J. repeat (destruct J as [J|J]; [discriminate|]). destruct J.
Qed.
Print Assumptions C82_knots_refuted.

(** "All geos share one noise parameter unless the specification says otherwise": priors of sigma for
    each geo are accepted and make one for each geo. *)
Theorem C82_sigma_refuted : exists z p q, broadcast z p = Ok q /\ z_unique_sigma z = false /\ z_geos z = 2 /\
  batch_shape (q "sigma") = Ok [2].
Proof.
  pose (d := Family [2] true (fun _ => Range (Fin 0) Inf 1)).
  pose (z := mkSizes 2 2 0 0 0 0 0 false 1 false false 1 [1%R; 1%R]).
  assert (B : exists q, broadcast z (replace_prior defaults "sigma" d) = Ok q).
  { apply replace_broadcast.
    - intros b pr I. destruct (entry_cases _ _ _ I) as [(J & _)|[(J & _)|(J & -> & ->)]].
      + cbv [decay_rates In] in J. repeat (destruct J as [J|J]; [discriminate|]). destruct J.
      + cbv [curve_parameters In] in J. repeat (destruct J as [J|J]; [discriminate|]). destruct J.
      + apply validate_support_iff. intros _ l (s & i & E & _ & <-). unfold within.
        cbn [law_at low_end high_end fst snd positive d].
        split; [apply low_iff; [intros X; discriminate | cbn; lra]|]. split; [reflexivity|].
        intros _. split; discriminate.
    - intros n C. exfalso. inversion C as [x I|x I|x I|x I|x I|x I];
      cbv [of_media of_rf of_organic_media of_organic_rf of_controls of_non_media In] in I;
      repeat (destruct I as [I|I]; [discriminate|]); destruct I.
    - discriminate. }
  destruct B as (q & B). exists z, (replace_prior defaults "sigma" d), q.
  split; [exact B|]. split; [reflexivity|]. split; [reflexivity|].
  destruct (broadcast_inv _ _ _ B) as (_ & _ & T).
  destruct (T "sigma" [] (DS_sigma z (or_intror eq_refl))) as (d' & Q & (_ & _ & C)).
  rewrite Q. rewrite C; [reflexivity | |].
  - cbv [between_geos In]. intros J. repeat (destruct J as [J|J]; [discriminate|]). destruct J.
  - cbv [roi In]. intros J. repeat (destruct J as [J|J]; [discriminate|]). destruct J.
Qed.
Print Assumptions C82_sigma_refuted.

(** "A parameter of channels has one element for each channel": a column of priors is accepted and
    makes a square. *)
Theorem C82_column_refuted : exists z p q, broadcast z p = Ok q /\ z_media z = 2 /\
  batch_shape (p "beta_m") = Ok [2; 1] /\ batch_shape (q "beta_m") = Ok [2; 2].
Proof.
  pose (d := Family [2; 1] true (fun _ => Range (Fin 0) Inf 1)).
  pose (z := mkSizes 2 2 0 0 0 0 0 false 1 false false 1 [1%R; 1%R]).
  assert (M : In "beta_m" of_media) by (cbv; tauto).
  assert (B : exists q, broadcast z (replace_prior defaults "beta_m" d) = Ok q).
  { apply replace_broadcast.
    - intros b pr I. destruct (entry_cases _ _ _ I) as [(J & _)|[(J & _)|(J & _)]]; exfalso;
      cbv [decay_rates curve_parameters deviations In] in J; repeat (destruct J as [J|J]; [discriminate|]); destruct J.
    - intros n C. inversion C as [x I|x I|x I|x I|x I|x I]; [reflexivity|..]; exfalso;
      cbv [of_media of_rf of_organic_media of_organic_rf of_controls of_non_media In] in I;
      repeat (destruct I as [I|I]; [discriminate|]); destruct I.
    - discriminate. }
  destruct B as (q & B). exists z, (replace_prior defaults "beta_m" d), q.
  split; [exact B|]. split; [reflexivity|]. split; [reflexivity|].
  destruct (broadcast_inv _ _ _ B) as (_ & _ & T).
  destruct (T "beta_m" [2] (DS_channel z _ _ (CS_media z _ M))) as (d' & Q & (_ & _ & C)).
  rewrite Q. rewrite C; [reflexivity | |].
  - cbv [between_geos In]. intros J. repeat (destruct J as [J|J]; [discriminate|]). destruct J.
  - cbv [roi In]. intros J. repeat (destruct J as [J|J]; [discriminate|]). destruct J.
Qed.
Print Assumptions C82_column_refuted.

(** "There is no warning about slopes of one": there is when they were broadcast. *)
Theorem C82_slope_warning_refuted : exists d, (forall l, given d l -> l = Point (Fin 1)) /\ slope_warning d = true.
Proof.
  exists (BatchBroadcast (Deterministic [] (fun _ => Fin 1)) [2]). split; [|reflexivity].
  intros l (s & i & _ & _ & <-). reflexivity.
Qed.
Print Assumptions C82_slope_warning_refuted.

(** ** Concrete cases *)

(** Two media channels with ROI priors of their own, in a model with three geos. *)
Definition own_roi : dist := Family [2] true (fun i => LN (mkLN (if Nat.eqb (hd 0 i) 0 then 1 else 2) 1)).
Definition two_channels : sizes := mkSizes 3 2 0 0 0 1 0 true 4 false false 100 [10%R; 20%R].

Example C82_own_roi : exists q, broadcast two_channels (replace_prior defaults "roi_m" own_roi) = Ok q /\
  batch_shape (q "roi_m") = Ok [2] /\ law_at (q "roi_m") [1] = LN (mkLN 2 1) /\
  batch_shape (q "alpha_m") = Ok [2] /\ law_at (q "alpha_m") [1] = Range (Fin 0) (Fin 1) 3 /\
  batch_shape (q "sigma") = Ok [3] /\ batch_shape (q "knot_values") = Ok [4].
Proof.
  assert (B : exists q, broadcast two_channels (replace_prior defaults "roi_m" own_roi) = Ok q).
  { apply replace_broadcast.
    - intros b pr I. destruct (entry_cases _ _ _ I) as [(J & _)|[(J & _)|(J & _)]]; exfalso;
      cbv [decay_rates curve_parameters deviations In] in J; repeat (destruct J as [J|J]; [discriminate|]); destruct J.
    - intros n C. inversion C as [x I|x I|x I|x I|x I|x I]; [reflexivity|..]; exfalso;
      cbv [of_media of_rf of_organic_media of_organic_rf of_controls of_non_media In] in I;
      repeat (destruct I as [I|I]; [discriminate|]); destruct I.
    - discriminate. }
  destruct B as (q & B). exists q. split; [exact B|].
  destruct (broadcast_inv _ _ _ B) as (_ & _ & T).
  assert (N : forall x, ~ In x between_geos -> ~ In x roi -> forall s, documented_shape two_channels x s ->
            q x = BatchBroadcast (replace_prior defaults "roi_m" own_roi x) s).
  { intros x NI NJ s D. destruct (T x s D) as (d & Q & (_ & _ & C)). rewrite Q, (C NI NJ). reflexivity. }
  assert (O : q "roi_m" = BatchBroadcast own_roi [2]).
  { destruct (T "roi_m" [2] (DS_channel two_channels "roi_m" 2 (CS_media two_channels "roi_m" ltac:(cbv; tauto)))) as (d & Q & (_ & C & _)).
    rewrite Q. rewrite (C ltac:(cbv; tauto)). reflexivity. }
  rewrite O.
  rewrite (N "alpha_m" ltac:(cbv; intuition discriminate) ltac:(cbv; intuition discriminate) [2]
             (DS_channel two_channels "alpha_m" 2 (CS_media two_channels "alpha_m" ltac:(cbv; tauto)))).
  rewrite (N "sigma" ltac:(cbv; intuition discriminate) ltac:(cbv; intuition discriminate) [3]
             (DS_sigma_geo two_channels ltac:(cbv; lia) eq_refl)).
  rewrite (N "knot_values" ltac:(cbv; intuition discriminate) ltac:(cbv; intuition discriminate) [4] (DS_knots two_channels)).
  repeat split; reflexivity.
Qed.

(** Priors for three channels do not fit two. *)
Example C82_three_for_two :
  broadcast two_channels (replace_prior defaults "roi_m" (Family [3] true (fun _ => LN (mkLN 0 1)))) = Err ValueError.
Proof. reflexivity. Qed.

(** A decay rate fixed at one half is accepted, one fixed at 1 is not. *)
Example C82_decay : (exists q, make_prior (replace_prior defaults "alpha_m" (Deterministic [] (fun _ => Fin (1 / 2)))) = Ok q) /\
  make_prior (replace_prior defaults "alpha_m" (Deterministic [] (fun _ => Fin 1))) = Err ValueError.
Proof.
  split.
  - eexists. apply replace_ok; [exact defaults_ok|]. intros b pr I.
    destruct (entry_cases _ _ _ I) as [(J & -> & ->)|[(J & _)|(J & _)]].
    + apply validate_support_iff. intros _ l (s & i & E & _ & <-). unfold within.
      cbn [law_at low_end high_end fst snd unit_interval].
      split; [apply low_iff; [intros X; discriminate | cbn; lra]|].
      split; [apply high_iff; [intros X; discriminate | cbn; lra]|].
      intros _. split; [discriminate|]. intros _. apply eq_num_iff. intros X. injection X. lra.
    + cbv [curve_parameters In] in J. repeat (destruct J as [J|J]; [discriminate|]). destruct J.
    + cbv [deviations In] in J. repeat (destruct J as [J|J]; [discriminate|]). destruct J.
  - match goal with |- make_prior ?p = _ => destruct (make_prior p) as [q|e] eqn:E end.
    + exfalso. apply make_prior_iff in E. destruct E as (_ & E). rewrite Forall_forall in E.
      specialize (E _ (entry_decay "alpha_m" ltac:(cbv; tauto))). unfold entry_ok in E. cbn [fst snd] in E.
      rewrite replace_same in E. rewrite validate_support_iff in E.
      destruct (E (or_introl (F_plain _ _)) (Point (Fin 1)) (ex_intro _ [] (ex_intro _ [] (conj eq_refl (conj (Forall2_nil _) eq_refl))))) as (_ & _ & C).
      specialize (proj2 (C (F_plain _ _)) eq_refl). cbn [low_end snd unit_interval]. rewrite eq_num_iff. intros X. apply X. reflexivity.
    + rewrite (make_prior_err _ _ E). reflexivity.
Qed.
