(** C29, C53, C54, C55: budgets turned into media data. *)
From Coq Require Import Reals ZArith QArith List Bool Arith Lia Lra.
From Verif Require Import Lib_Sum Lib_Pow M_Base M_AdstockHill M_Equations S_Adstock S_Media
  M_Budget S_Budget P_Budget P_BudgetRF P_Stabilize.
Import ListNotations.
Local Open Scope R_scope.

(** ** C29 *)
(** National data is split over the geos by population: nothing is lost, no sign changes. *)
Theorem C29_population_split : forall G T C pop x,
  0 < rsum G pop -> data_shape G T C x ->
  exists y, allocate_by_population G pop 3 x = Ok y /\ spreads G T C pop x y /\
    ((forall g, (g < G)%nat -> 0 <= pop g) -> (forall i, 0 <= at_ x i) ->
     forall g t c, (g < G)%nat -> 0 <= at_ y [g; t; c]).
Proof.
  intros G T C pop x HP Hd. destruct (alloc_data G T C pop x Hd) as [y [Hy _]].
  exists y. split; [exact Hy|]. split; [exact (alloc_spreads G T C pop x y HP Hd Hy)|].
  intros Hp Hx. exact (alloc_nonneg G pop x y HP Hp Hx Hy).
Qed.
Print Assumptions C29_population_split.

(** Two periods, one channel, three geos. *)
Example C29_population_example :
  data_shape 3 2 1 (mkTensor [2; 1]%nat (fun i => match i with [t; _] => INR (10 + t) | _ => 0 end)) /\
  0 < rsum 3 (fun g => INR (g + 1)).
Proof. split; [left; reflexivity|]. cbn. lra. Qed.

Theorem C29_population_split_rejects : forall G pop x,
  allocate_by_population G pop 3 x = Err ValueError <->
  (length (shape x) <> 2 /\ length (shape x) <> 3)%nat.
Proof. exact alloc_rejects. Qed.
Print Assumptions C29_population_split_rejects.

(** The media behind a new spend costs exactly the new spend, at the historical unit costs (which
    may differ between geos and times), and keeps the flighting pattern. *)
Theorem C29_scaled_media_costs_the_budget : forall (spend hist : nat -> R) media cost c,
  hist c <> 0 ->
  rsum (geos media) (fun g => rsum (times media) (fun t => cost g t * val media g t c)) = hist c ->
  rsum (geos media) (fun g => rsum (times media) (fun t =>
    cost g t * val (scaled_media spend hist media) g t c)) = spend c /\
  (forall g t, val (scaled_media spend hist media) g t c * hist c = spend c * val media g t c).
Proof.
  intros spend hist media cost c Hh Hs. split; [exact (flighting_lemma spend hist media cost c Hh Hs)|].
  intros g t. unfold scaled_media; cbn [val]. rewrite dnn by exact Hh. field. exact Hh.
Qed.
Print Assumptions C29_scaled_media_costs_the_budget.

Theorem C29_scaled_rf_costs_the_budget : forall spend hist opt reach frequency cost c,
  match opt with Some o => o c <> 0 | None => True end ->
  hist c <> 0 ->
  rsum (geos reach) (fun g => rsum (times reach) (fun t =>
     cost g t * (val reach g t c * val frequency g t c))) = hist c ->
  rsum (geos reach) (fun g => rsum (times reach) (fun t =>
    cost g t * (val (fst (dataset_rf spend hist opt reach frequency)) g t c *
                val (snd (dataset_rf spend hist opt reach frequency)) g t c))) = spend c.
Proof. exact dataset_cost_lemma. Qed.
Print Assumptions C29_scaled_rf_costs_the_budget.

Definition ex_units : T3 := mkT3 1 2 1 (fun _ t _ => INR (t + 1)).

Example C29_scaled_example :
  rsum (geos ex_units) (fun g => rsum (times ex_units) (fun t => 2 * val ex_units g t 0%nat)) = 6 /\
  val (scaled_media (fun _ => 12) (fun _ => 6) ex_units) 0 1 0 = 4.
Proof.
  split; [cbn; lra|]. unfold scaled_media; cbn [val]. rewrite dnn by lra. cbn. lra.
Qed.

Example C29_scaled_rf_example :
  rsum (geos ex_units) (fun g => rsum (times ex_units) (fun t =>
     2 * (val ex_units g t 0%nat * val ex_units g t 0%nat))) = 10.
Proof. cbn. lra. Qed.

(** For a channel with no historical spend the new budget buys nothing, whatever it is: the
    optimizer credits it with no media although its spend is positive. *)
Theorem C29_zero_history_refuted :
  exists spend hist media, hist 0%nat = 0 /\ 0 < spend 0%nat /\
    (exists g t, val media g t 0%nat = 5) /\
    forall g t, val (scaled_media spend hist media) g t 0%nat = 0.
Proof.
  exists (fun _ => 100), (fun _ => 0), (mkT3 1 1 1 (fun _ _ _ => 5)).
  split; [reflexivity|]. split; [lra|]. split; [exists 0%nat, 0%nat; reflexivity|].
  intros g t. unfold scaled_media; cbn [val]. rewrite dnn0. lra.
Qed.
Print Assumptions C29_zero_history_refuted.

(** ** C54 *)
(** [create_optimization_tensors] accepts exactly the meaningful argument combinations. *)
Theorem C54_accepts_iff : forall G T pop a,
  (exists f, create_optimization_tensors G T pop a = Ok f) <-> flight_args_ok G T a.
Proof. exact create_iff_lemma. Qed.
Print Assumptions C54_accepts_iff.

Theorem C54_media_data : forall G T pop a f x, 0 < rsum G pop ->
  create_optimization_tensors G T pop a = Ok f ->
  a_media a = Some x \/ a_media_spend a = Some x ->
  exists C p m s, a_cpmu a = Some p /\ f_media f = Some m /\ f_media_spend f = Some s /\
    shape m = [G; T; C] /\ shape s = [G; T; C] /\
    (a_media a = Some x -> spreads G T C pop x m /\
       forall g t c, at_ s [g; t; c] = at_ m [g; t; c] * given_for p g t c) /\
    (a_media_spend a = Some x -> spreads G T C pop x s /\
       forall g t c, given_for p g t c <> 0 ->
         at_ m [g; t; c] * given_for p g t c = at_ s [g; t; c]).
Proof. intros G T pop a f x HP. exact (create_media_lemma G T pop HP a f x). Qed.
Print Assumptions C54_media_data.

Theorem C54_rf_data : forall G T pop a f x, 0 < rsum G pop ->
  create_optimization_tensors G T pop a = Ok f ->
  a_rf_impressions a = Some x \/ a_rf_spend a = Some x ->
  exists C p r q s, a_cprf a = Some p /\
    f_reach f = Some r /\ f_frequency f = Some q /\ f_rf_spend f = Some s /\
    shape r = [G; T; C] /\ shape q = [G; T; C] /\ shape s = [G; T; C] /\
    (forall g t c, at_ q [g; t; c] =
       if a_use_optimal_frequency a then 1
       else match a_frequency a with Some fr => given_for fr g t c | None => 0 end) /\
    (a_rf_impressions a = Some x -> exists i, spreads G T C pop x i /\
       forall g t c,
         at_ s [g; t; c] = at_ i [g; t; c] * given_for p g t c /\
         (at_ q [g; t; c] <> 0 -> at_ r [g; t; c] * at_ q [g; t; c] = at_ i [g; t; c])) /\
    (a_rf_spend a = Some x -> spreads G T C pop x s) /\
    (forall g t c, at_ q [g; t; c] <> 0 -> given_for p g t c <> 0 ->
       at_ r [g; t; c] * at_ q [g; t; c] * given_for p g t c = at_ s [g; t; c]) /\
    (forall g t c, at_ q [g; t; c] = 0 -> at_ r [g; t; c] = 0).
Proof. intros G T pop a f x HP. exact (create_rf_lemma G T pop HP a f x). Qed.
Print Assumptions C54_rf_data.

Theorem C54_revenue_and_absent : forall G T pop a f,
  create_optimization_tensors G T pop a = Ok f ->
  (forall x, a_revenue_per_kpi a = Some x -> exists r, f_revenue_per_kpi f = Some r /\
     shape r = [G; T] /\ forall g t, at_ r [g; t] = given_for2 x g t) /\
  (a_media a = None -> a_media_spend a = None -> f_media f = None /\ f_media_spend f = None) /\
  (a_rf_impressions a = None -> a_rf_spend a = None ->
     f_reach f = None /\ f_frequency f = None /\ f_rf_spend f = None) /\
  (a_revenue_per_kpi a = None -> f_revenue_per_kpi f = None).
Proof.
  intros G T pop a f H. split; [intros x; exact (create_rpk_lemma G T pop a f x H)|].
  exact (create_absent_lemma G T pop a f H).
Qed.
Print Assumptions C54_revenue_and_absent.

(** Two geos, two periods, one media channel by national spend with one unit cost, one
    reach/frequency channel by per-geo impressions with a frequency per channel. *)
Definition ex_flight : flight_args :=
  mkFlight (Some (mkTensor [] (fun _ => 2))) (Some (mkTensor [1%nat] (fun _ => 3)))
    None (Some (mkTensor [2; 2; 1]%nat (fun _ => 8))) (Some (mkTensor [1%nat] (fun _ => 4)))
    (Some (mkTensor [2; 1]%nat (fun _ => 10))) None (Some (mkTensor [2%nat] (fun _ => 1))) false.

Example C54_example :
  flight_args_ok 2 2 ex_flight /\
  exists f, create_optimization_tensors 2 2 (fun g => INR (g + 1)) ex_flight = Ok f.
Proof.
  assert (H : flight_args_ok 2 2 ex_flight).
  { unfold flight_args_ok, ex_flight; cbn. split; [|split; [|split]].
    - right. exists (mkTensor [2; 1]%nat (fun _ => 10)), (mkTensor [] (fun _ => 2)), 1%nat.
      split; [reflexivity|]. split; [left; reflexivity|]. split; [left; reflexivity|]. right; auto.
    - right. exists (mkTensor [2; 2; 1]%nat (fun _ => 8)), (mkTensor [1%nat] (fun _ => 3)), 1%nat.
      split; [reflexivity|]. split; [right; reflexivity|]. split; [right; left; reflexivity|]. left; auto.
    - unfold frequency_fits; cbn. split; [|split; intros; discriminate].
      intros x C [Hx|Hx] [Hd|Hd]; try discriminate; injection Hx as <-; cbn in Hd; try discriminate.
      right; left. injection Hd as <-. reflexivity.
    - intros r Hr. injection Hr as <-. right; left; reflexivity. }
  split; [exact H|]. apply C54_accepts_iff. exact H.
Qed.

(** A zero frequency loses the impressions: spend stays, reach and frequency are 0. *)
Theorem C54_zero_frequency_refuted :
  exists a f r q s, create_optimization_tensors 1 1 (fun _ => 1) a = Ok f /\
    f_reach f = Some r /\ f_frequency f = Some q /\ f_rf_spend f = Some s /\
    at_ s [0; 0; 0]%nat = 30 /\ at_ r [0; 0; 0]%nat * at_ q [0; 0; 0]%nat = 0.
Proof.
  eexists (mkFlight None (Some (mkTensor [] (fun _ => 3))) None
    (Some (mkTensor [1; 1; 1]%nat (fun _ => 10))) (Some (mkTensor [] (fun _ => 0))) None None None false).
  do 4 eexists. split; [reflexivity|]. do 3 (split; [reflexivity|]).
  cbn [at_ fst snd]. split; [lra|]. rewrite dnn0. lra.
Qed.
Print Assumptions C54_zero_frequency_refuted.

(** ** C55 *)
(** The reach/frequency data of a grid row and of the reported budget give the same media
    effect, for every saturation, decay, history and parameter. *)
Theorem C55_grid_and_report_agree : forall cx spend hist opt reach frequency p df sa n_out,
  rf_args_ok cx reach frequency p df sa n_out ->
  (forall o c, opt = Some o -> (c < chans reach)%nat -> 0 <= o c) ->
  exists o1 o2,
    adstock_hill_rf cx (fst (dataset_rf spend hist opt reach frequency))
      (snd (dataset_rf spend hist opt reach frequency)) p df sa (Some n_out) = Ok o1 /\
    adstock_hill_rf cx (fst (grid_rf spend hist opt reach frequency))
      (snd (grid_rf spend hist opt reach frequency)) p df sa (Some n_out) = Ok o2 /\
    T3_eq o1 o2.
Proof. exact rf_response_same_lemma. Qed.
Print Assumptions C55_grid_and_report_agree.

Theorem C55_impressions_scale_with_spend : forall spend hist opt reach frequency g t c,
  match opt with Some o => o c <> 0 | None => True end ->
  val (fst (dataset_rf spend hist opt reach frequency)) g t c *
  val (snd (dataset_rf spend hist opt reach frequency)) g t c =
  divide_no_nan (spend c) (hist c) * (val reach g t c * val frequency g t c).
Proof. exact dataset_impressions_lemma. Qed.
Print Assumptions C55_impressions_scale_with_spend.

Definition ex_reach : T3 := mkT3 1 2 1 (fun _ t _ => INR t).
Definition ex_freq : T3 := mkT3 1 2 1 (fun _ _ _ => 3).

Example C55_example :
  rf_args_ok (mkCtx 2 2 1 false) ex_reach ex_freq
    (mkParams 1 (fun _ => 1/2) (fun _ => 1) (fun _ => 1)) (DOne Geometric) (SOne Hill) 2.
Proof.
  unfold rf_args_ok, ex_reach, ex_freq; cbn.
  split; [lia|]. split; [lia|]. split; [repeat split|]. split; [reflexivity|].
  split; [intros c Hc; cbn; lra|]. split; [left; reflexivity|].
  split; [discriminate|]. intros; lra.
Qed.

(** ** C53 *)
Local Open Scope Q_scope.

(** Stabilisation leaves a proportional column unchanged (it only removes rounding noise). *)
Theorem C53_jax_keeps_proportional : forall roi xs k, good_spends xs ->
  same_column (jax_stabilize (column xs k) (column (map (fun x => roi * x) xs) k))
    (column (map (fun x => roi * x) xs) k).
Proof. exact jax_linear_lemma. Qed.
Print Assumptions C53_jax_keeps_proportional.

Theorem C53_tf_keeps_proportional : forall roi xs k, good_spends xs -> 0 <= roi ->
  same_column (tf_stabilize (column xs k) (column (map (fun x => roi * x) xs) k))
    (column (map (fun x => roi * x) xs) k).
Proof. exact tf_linear_lemma. Qed.
Print Assumptions C53_tf_keeps_proportional.

(** The backends agree exactly when the largest spend has the largest outcome. *)
Theorem C53_backends_agree_iff : forall xs ys k, good_spends xs -> length xs = length ys ->
  same_column (tf_stabilize (column xs k) (column ys k)) (jax_stabilize (column xs k) (column ys k)) <->
  (last xs 0 == 0 \/ forall y, In y ys -> y <= last ys 0).
Proof. exact backends_agree_lemma. Qed.
Print Assumptions C53_backends_agree_iff.

Example C53_example : good_spends [0; 10; 20] /\
  column [0; 10; 20] 1 = [Some 0; Some 10; Some 20; None].
Proof. split; [cbn; repeat split; (reflexivity || discriminate)|reflexivity]. Qed.

(** A channel with a negative return, outcome exactly -1 per unit of spend: under TensorFlow
    the stabilised outcome is halved; JAX leaves it. *)
Theorem C53_tf_negative_refuted : exists xs ys, good_spends xs /\ ys = map (fun x => (-1) * x) xs /\
  same_column (jax_stabilize (column xs 0) (column ys 0)) (column ys 0) /\
  tf_stabilize (column xs 0) (column ys 0) <> jax_stabilize (column xs 0) (column ys 0) /\
  same_column (tf_stabilize (column xs 0) (column ys 0)) (column [-5; -10] 0) /\
  ys = [-10; -20].
Proof.
  exists [10; 20], (map (fun x => (-1) * x) [10; 20]).
  split; [cbn; repeat split; (reflexivity || discriminate)|]. split; [reflexivity|].
  split; [apply jax_linear_lemma; cbn; repeat split; (reflexivity || discriminate)|].
  split; [vm_compute; discriminate|]. split; [|reflexivity].
  vm_compute. repeat constructor.
Qed.
Print Assumptions C53_tf_negative_refuted.
