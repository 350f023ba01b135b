(** C61: goodness of fit metrics.  C62: probability of a negative baseline. *)
From Coq Require Import Reals ZArith String List Bool Arith Lra Lia Permutation.
From Verif Require Import Lib_Sum M_Base M_AdstockHill M_Equations M_Transformers M_Aggregate
  S_Aggregate S_Adstock S_Media S_Analyzer M_Analyzer S_Predictor C_Analyzer C_Predictor M_Accuracy S_Accuracy
  P_Accuracy P_AccuracyIO.
Import ListNotations.
Local Open Scope R_scope.

(** ** C61 *)
(** Each value returned is the documented metric of the pairs (mean expected outcome, actual
    outcome) of its granularity and evaluation set, over the selected geos and periods; the labels
    are all there. *)
Theorem C61_metrics : forall x h gs ts uk bs draws,
  accuracy_request x h gs ts bs draws -> (h <> None -> by_dates ts) ->
  exists d, predictive_accuracy x h gs ts uk bs draws = Ok d /\
  forall m g s,
    (lookup d m g s = None <-> (g = Geo /\ x_n_geos x = 1%nat) \/ (h = None /\ s <> AllData)) /\
    forall v, lookup d m g s = Some v ->
      is_metric m (pairs x h (chosen_geos x gs) (chosen_times x ts) uk draws g s) v.
Proof. exact accuracy_lemma. Qed.
Print Assumptions C61_metrics.

Lemma accuracy_value : forall x h gs ts uk bs draws d m g s v,
  accuracy_request x h gs ts bs draws -> (h <> None -> by_dates ts) ->
  predictive_accuracy x h gs ts uk bs draws = Ok d -> lookup d m g s = Some v ->
  is_metric m (pairs x h (chosen_geos x gs) (chosen_times x ts) uk draws g s) v.
Proof.
  intros x h gs ts uk bs draws d m g s v Hv Hd E L.
  destruct (accuracy_lemma x h gs ts uk bs draws Hv Hd) as (d' & E' & H). assert (d' = d) by congruence. subst d'.
  apply (H m g s). exact L.
Qed.

(** R-squared is at most 1, the error metrics are not negative (wMAPE: for non-negative
    outcomes). *)
Theorem C61_bounds : forall x h gs ts uk bs draws d g s r,
  accuracy_request x h gs ts bs draws -> (h <> None -> by_dates ts) ->
  predictive_accuracy x h gs ts uk bs draws = Ok d ->
  (lookup d RSquared g s = Some (Some r) -> r <= 1) /\
  (lookup d Mape g s = Some (Some r) -> 0 <= r) /\
  ((forall i t, 0 <= actual_outcome x uk i t) -> lookup d WMape g s = Some (Some r) -> 0 <= r).
Proof.
  intros x h gs ts uk bs draws d g s r Hv Hd E.
  pose proof (fun m v => accuracy_value x h gs ts uk bs draws d m g s v Hv Hd E) as A.
  refine (conj _ (conj _ _)).
  - intros L. exact (r_squared_bound _ _ (A RSquared _ L)).
  - intros L. exact (mape_bound _ _ (A Mape _ L)).
  - intros Hp L. refine (wmape_bound _ _ _ (A WMape _ L)). intros p Hin. destruct g; cbn [pairs] in Hin.
    + apply in_flat_map in Hin. destruct Hin as (i & _ & Hin). apply in_map_iff in Hin. destruct Hin as (t & <- & _). apply Hp.
    + apply in_flat_map in Hin. destruct Hin as (t & _ & Hin).
      destruct (filter (fun g => in_set h s g t) (chosen_geos x gs)); [destruct Hin|].
      destruct Hin as [<-|[]]. cbn [snd]. apply lsum_map_nonneg. intros i _. apply Hp.
Qed.
Print Assumptions C61_bounds.

(** A model that reproduces the data has R-squared 1 and no error, wherever the metric is
    defined. *)
Theorem C61_perfect_fit : forall x h gs ts uk bs draws d m g s r,
  accuracy_request x h gs ts bs draws -> (h <> None -> by_dates ts) ->
  predictive_accuracy x h gs ts uk bs draws = Ok d ->
  (forall i t, In i (chosen_geos x gs) -> In t (chosen_times x ts) ->
     mean_expected_outcome x uk draws i t = actual_outcome x uk i t) ->
  lookup d m g s = Some (Some r) -> r = match m with RSquared => 1 | _ => 0 end.
Proof.
  intros x h gs ts uk bs draws d m g s r Hv Hd E Hp L.
  refine (perfect_metric _ _ _ _ (accuracy_value x h gs ts uk bs draws d m g s _ Hv Hd E L)).
  intros p Hin. destruct g; cbn [pairs] in Hin.
  - apply in_flat_map in Hin. destruct Hin as (i & Hi & Hin). apply in_map_iff in Hin. destruct Hin as (t & <- & Ht).
    apply filter_In in Ht. apply Hp; tauto.
  - apply in_flat_map in Hin. destruct Hin as (t & Ht & Hin).
    assert (Hsub : forall i, In i (filter (fun g => in_set h s g t) (chosen_geos x gs)) -> In i (chosen_geos x gs))
      by (intros i Hi; apply filter_In in Hi; tauto).
    destruct (filter (fun g => in_set h s g t) (chosen_geos x gs)) as [|i0 l]; [destruct Hin|].
    destruct Hin as [<-|[]]. cbn [fst snd]. unfold total. f_equal. apply map_ext_in. intros i Hi. apply Hp; auto.
Qed.
Print Assumptions C61_perfect_fit.

(** At the geo level the training and test observations are together exactly all the
    observations. *)
Theorem C61_geo_partition : forall x m gl tl uk draws,
  Permutation (pairs x (Some m) gl tl uk draws Geo AllData)
    (pairs x (Some m) gl tl uk draws Geo Train ++ pairs x (Some m) gl tl uk draws Geo Test).
Proof. exact geo_partition. Qed.
Print Assumptions C61_geo_partition.

Definition ex_holdout : matrix bool := mkMatrix 2 2 (fun g t => Nat.eqb g 0 && Nat.eqb t 1).
Lemma ex_accuracy : forall gs ts, geos_ok ex_rich gs -> times_ok ex_rich ts -> chosen_geos ex_rich gs <> [] ->
  accuracy_request ex_rich (Some ex_holdout) gs ts 1 [ex_rich_draw; ex_rich_draw].
Proof.
  intros gs ts Hg Ht Hn. destruct C58_example as (W & D & _ & _ & M & T & _).
  constructor; auto; try (split; reflexivity); try discriminate; try lia.
Qed.
Example C61_example : accuracy_request ex_rich (Some ex_holdout) None None 1 [ex_rich_draw; ex_rich_draw] /\
  accuracy_request ex_rich (Some ex_holdout) (Some ["a"]%string) (Some (TDates ["2024-01-08"]%string)) 1 [ex_rich_draw; ex_rich_draw] /\
  map (fun p => snd p) (pairs ex_rich (Some ex_holdout) [0; 1]%nat [0; 1]%nat true [ex_rich_draw] Geo Train) = [0 * 1; 1 * 1; (1 + 1 + 1) * 1].
Proof.
  split; [apply ex_accuracy; cbn; auto; discriminate|].
  split; [apply ex_accuracy; cbn; auto; try discriminate; repeat constructor; auto|].
  cbn. unfold actual_outcome. cbn. repeat f_equal; ring.
Qed.

(** The periods of the national Train and Test metrics are not a partition of the periods: a
    period held out in some geos only is in both, each time with the total of a part of the geos. *)
Theorem C61_national_partition_refuted : exists x h gs ts bs draws,
  accuracy_request x (Some h) gs ts bs draws /\ by_dates ts /\
  forall uk,
    (length (pairs x (Some h) (chosen_geos x gs) (chosen_times x ts) uk draws National Train)
     + length (pairs x (Some h) (chosen_geos x gs) (chosen_times x ts) uk draws National Test)
     = S (length (chosen_times x ts)))%nat /\
    exists p, In p (pairs x (Some h) (chosen_geos x gs) (chosen_times x ts) uk draws National Test) /\
      snd p = actual_outcome x uk 0 1 + 0 /\ x_n_geos x = 2%nat.
Proof.
  exists ex_rich, ex_holdout, None, None, 1%Z, [ex_rich_draw; ex_rich_draw].
  split; [apply ex_accuracy; cbn; auto; discriminate|]. split; [exact Logic.I|]. intros uk. split; [reflexivity|].
  eexists. split; [left; reflexivity|]. split; reflexivity.
Qed.
Print Assumptions C61_national_partition_refuted.

(** Selecting the periods by booleans, which every other method accepts, raises when the model has
    a holdout. *)
Theorem C61_boolean_times_refuted : forall x m gs l uk bs draws,
  accuracy_request x (Some m) gs (Some (TBools l)) bs draws ->
  (2 <= length (chosen_times x (Some (TBools l))))%nat ->
  predictive_accuracy x (Some m) gs (Some (TBools l)) uk bs draws = Err ValueError /\
  exists d, predictive_accuracy x None gs (Some (TBools l)) uk bs draws = Ok d.
Proof.
  intros x m gs l uk bs draws V H. split.
  - exact (boolean_times_lemma x (Some m) gs (Some (TBools l)) uk bs draws V m l eq_refl eq_refl H).
  - assert (V' : accuracy_request x None gs (Some (TBools l)) bs draws) by (destruct V; constructor; auto; exact Logic.I).
    destruct (accuracy_lemma x None gs (Some (TBools l)) uk bs draws V') as (d & E & _); [congruence|]. eauto.
Qed.
Print Assumptions C61_boolean_times_refuted.
Example C61_boolean_example :
  accuracy_request ex_rich (Some ex_holdout) None (Some (TBools [true; true])) 1 [ex_rich_draw; ex_rich_draw] /\
  length (chosen_times ex_rich (Some (TBools [true; true]))) = 2%nat.
Proof. split; [apply ex_accuracy; cbn; auto; discriminate|reflexivity]. Qed.

(** ** C62: the share of draws in which the outcome without media, summed over the selected geos
    and periods, is negative; between 0 and 1. *)
Theorem C62_negative_baseline : forall x v gs ts uk bs draws,
  well_formed x -> Forall (draw_ok x) draws -> draws <> [] -> (0 < bs)%Z ->
  geos_ok x gs -> times_ok x ts -> baseline_ok x v -> (0 < x_n_geos x)%nat ->
  media_nonneg x no_data -> transformers_ok x ->
  exists p b, negative_baseline_probability x v gs ts uk bs draws = Ok p /\ 0 <= p <= 1 /\
    (forall c, (c < n_chans (d_non_media (x_data x)))%nat -> is_baseline_value x v c (b c)) /\
    p = INR (length (filter (fun w => if Rlt_dec (baseline_total x b uk (chosen_geos x gs) (chosen_times x ts) w) 0
                                      then true else false) draws)) / INR (length draws).
Proof.
  intros x v gs ts uk bs draws W Dr Ne Hb Hg Ht Hv G0 Mn Tr.
  destruct (negative_baseline_lemma x v gs ts uk bs draws W Dr Ne Hb Hg Ht Hv G0 Mn Tr) as (p & b & E & B & ->).
  eexists _, b. split; [exact E|]. split; [apply share_bounds; exact Ne|]. auto.
Qed.
Print Assumptions C62_negative_baseline.
Example C62_example : well_formed ex_rich /\ draw_ok ex_rich ex_rich_draw /\ media_nonneg ex_rich no_data /\
  transformers_ok ex_rich /\ baseline_ok ex_rich (Some [BNum 3]) /\ (0 < x_n_geos ex_rich)%nat /\
  n_chans (d_non_media (x_data ex_rich)) = 1%nat.
Proof.
  destruct C58_example as (W & D & _ & _ & M & T & _). refine (conj W (conj D (conj M (conj T _)))).
  split; [split; [reflexivity|repeat constructor; eauto]|]. split; [cbn; lia|reflexivity].
Qed.
