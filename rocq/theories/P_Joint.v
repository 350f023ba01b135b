(** Proofs about the joint distribution. *)
From Coq Require Import Reals ZArith Lia Lra String List Bool Arith FunctionalExtensionality.
From Verif Require Import Lib_Sum M_Base M_AdstockHill M_Equations M_Transformers M_Aggregate
  S_Aggregate S_Adstock S_Media S_Analyzer S_Predictor S_Sampler M_Priors M_Sampler M_Analyzer P_Sampler
  P_Analyzer P_AnalyzerIO P_Predictor M_Joint S_Joint.
Import ListNotations.
Local Open Scope string_scope.
Local Open Scope R_scope.
Local Open Scope nat_scope.
Local Open Scope list_scope.

(** ** Full graph and sampling graph. *)
Definition is_det (n : node) : bool :=
  match nd_dist n with DDeterministic _ _ _ => true | _ => false end.
Definition strip (r : run_result) : run_result :=
  match r with Ran l => Ran (filter (fun n => negb (is_det n)) l) | _ => r end.

Lemma strip_yield : forall name d k k0 env,
  match d with DDeterministic _ _ _ => False | _ => True end ->
  (forall v, strip (run (k v) env) = run (k0 v) env) ->
  strip (run (Yield name d k) env) = run (Yield name d k0) env.
Proof.
  intros name d k k0 env Hd H. cbn [run]. destruct d; try contradiction;
    rewrite <- H; destruct (run (k _) env); reflexivity.
Qed.
Lemma strip_det : forall name n m v k k0 env, strip (run k env) = run k0 env ->
  strip (run (deterministic true name n m v k) env) = run (deterministic false name n m v k0) env.
Proof.
  intros name n m v k k0 env H. cbn [deterministic run]. rewrite <- H. destruct (run k env); reflexivity.
Qed.
Lemma strip_lift : forall A (r : result A) k k0 env, (forall a, strip (run (k a) env) = run (k0 a) env) ->
  strip (run (lift r k) env) = run (lift r k0) env.
Proof. intros A [a|e] k k0 env H; cbn; auto. Qed.
Lemma strip_finite : forall n b k k0 env, (forall f, strip (run (k f) env) = run (k0 f) env) ->
  strip (run (finite n b k) env) = run (finite n b k0) env.
Proof. intros n b k k0 env H. unfold finite. destruct (forallb _ _); [apply H|reflexivity]. Qed.

Lemma strip_media_block : forall md sfx n tr c1 c0 k k0 env,
  (forall p y eta dev h h0, (forall b, strip (run (h b) env) = run (h0 b) env) ->
     strip (run (c1 p y eta dev h) env) = run (c0 p y eta dev h0) env) ->
  (forall q, strip (run (k q) env) = run (k0 q) env) ->
  strip (run (media_block true md sfx n tr c1 k) env) = run (media_block false md sfx n tr c0 k0) env.
Proof.
  intros md sfx n tr c1 c0 k k0 env Hc Hk. unfold media_block.
  repeat (apply strip_yield; [exact Logic.I|]; intros). cbv zeta. apply strip_lift. intros y. apply Hc. intros b.
  apply strip_det. apply Hk.
Qed.
Lemma strip_paid : forall md pt sfx n den diff eta dev h h0 env,
  (forall b, strip (run (h b) env) = run (h0 b) env) ->
  strip (run (paid_coefficient true md pt sfx n den diff eta dev h) env)
  = run (paid_coefficient false md pt sfx n den diff eta dev h0) env.
Proof.
  intros md pt sfx n den diff eta dev h h0 env H. unfold paid_coefficient.
  destruct pt; try reflexivity; apply strip_yield; try exact Logic.I; intros v; auto;
    (destruct den; [|reflexivity]; apply strip_lift; intros y; apply strip_finite; intros b; apply strip_det; apply H).
Qed.
Lemma strip_organic : forall md pt sfx n y eta dev h h0 env,
  (forall b, strip (run (h b) env) = run (h0 b) env) ->
  strip (run (organic_coefficient true md pt sfx n y eta dev h) env)
  = run (organic_coefficient false md pt sfx n y eta dev h0) env.
Proof.
  intros md pt sfx n y eta dev h h0 env H. unfold organic_coefficient.
  destruct pt; try reflexivity; apply strip_yield; try exact Logic.I; intros v; auto.
  apply strip_finite; intros b; apply strip_det; apply H.
Qed.

Lemma strip_joint : forall x s env,
  strip (run (joint_dist true x s) env) = run (joint_dist false x s) env.
Proof.
  intros x s env. unfold joint_dist.
  do 3 (apply strip_yield; [exact Logic.I|]; intros). cbv zeta.
  do 2 apply strip_det.
  assert (B1 : forall k k0, (forall q, strip (run (k q) env) = run (k0 q) env) ->
     strip (run (paid_media_block true x s k) env) = run (paid_media_block false x s k0) env).
  { intros k k0 H. unfold paid_media_block. cbv zeta. destruct (d_media (x_data x)); [|apply H].
    apply strip_lift. intros mt. apply strip_media_block; [|intros q; apply H].
    intros p y eta dev h h0 Hh. apply strip_paid, Hh. }
  assert (B2 : forall k k0, (forall q, strip (run (k q) env) = run (k0 q) env) ->
     strip (run (paid_rf_block true x s k) env) = run (paid_rf_block false x s k0) env).
  { intros k k0 H. unfold paid_rf_block. cbv zeta. destruct (d_reach (x_data x)); [|apply H].
    destruct (d_frequency (x_data x)); [|reflexivity].
    apply strip_lift. intros mt. apply strip_media_block; [|intros q; apply H].
    intros p y eta dev h h0 Hh. apply strip_paid, Hh. }
  assert (B3 : forall k k0, (forall q, strip (run (k q) env) = run (k0 q) env) ->
     strip (run (organic_media_block true x s k) env) = run (organic_media_block false x s k0) env).
  { intros k k0 H. unfold organic_media_block. cbv zeta. destruct (d_organic_media (x_data x)); [|apply H].
    apply strip_lift. intros mt. apply strip_media_block; [|intros q; apply H].
    intros p y eta dev h h0 Hh. apply strip_organic, Hh. }
  assert (B4 : forall k k0, (forall q, strip (run (k q) env) = run (k0 q) env) ->
     strip (run (organic_rf_block true x s k) env) = run (organic_rf_block false x s k0) env).
  { intros k k0 H. unfold organic_rf_block. cbv zeta. destruct (d_organic_reach (x_data x)); [|apply H].
    destruct (d_organic_frequency (x_data x)); [|reflexivity].
    apply strip_lift. intros mt. apply strip_media_block; [|intros q; apply H].
    intros p y eta dev h h0 Hh. apply strip_organic, Hh. }
  apply B1. intros l1. apply B2. intros l2. apply B3. intros l3. apply B4. intros l4.
  assert (B5 : forall k k0, (forall q, strip (run (k q) env) = run (k0 q) env) -> forall l,
     strip (run (combine_media l k) env) = run (combine_media l k0) env).
  { intros k k0 H [|q l]; unfold combine_media; [apply H|]. apply strip_lift. intros p. apply H. }
  apply B5. intros media.
  assert (B6 : forall k k0, (forall q, strip (run (k q) env) = run (k0 q) env) ->
     strip (run (controls_block true x k) env) = run (controls_block false x k0) env).
  { intros k k0 H. unfold controls_block. destruct (transform_centered _ _) as [c|]; [|apply H].
    destruct (Nat.eqb (chans c) 0); [apply H|].
    do 3 (apply strip_yield; [exact Logic.I|]; intros). cbv zeta. apply strip_det, H. }
  apply B6. intros ctl.
  assert (B7 : forall k k0, (forall q, strip (run (k q) env) = run (k0 q) env) ->
     strip (run (non_media_block true x s k) env) = run (non_media_block false x s k0) env).
  { intros k k0 H. unfold non_media_block. cbv zeta. destruct (d_non_media (x_data x)) as [raw|]; [|apply H].
    destruct (transform_centered _ _) as [c|]; [|apply H].
    do 2 (apply strip_yield; [exact Logic.I|]; intros).
    destruct (j_non_media_prior s); try reflexivity; apply strip_yield; try exact Logic.I; intros.
    - apply strip_lift. intros b. apply strip_finite. intros gm. apply strip_det. apply strip_det, H.
    - apply strip_det, H. }
  apply B7. intros nm. unfold likelihood_node. cbv zeta.
  destruct (j_holdout s); reflexivity.
Qed.

Lemma lsum_strip : forall prior l,
  lsum (map (node_log_prob prior) (filter (fun n => negb (is_det n)) l)) = lsum (map (node_log_prob prior) l).
Proof.
  intros prior l. induction l as [|[nm d v] l IH]; [reflexivity|]. cbn [filter map lsum].
  destruct d; cbn [is_det nd_dist negb map]; unfold lsum in *; cbn [fold_right]; rewrite <- IH; try reflexivity.
  cbn [node_log_prob nd_dist]. ring.
Qed.

Lemma same_target : forall prior x s env,
  target_log_prob prior false x s env = target_log_prob prior true x s env.
Proof.
  intros prior x s env. unfold target_log_prob. rewrite <- strip_joint.
  destruct (run (joint_dist true x s) (pin x s env)) as [l|e|]; cbn [strip]; try reflexivity.
  rewrite lsum_strip. reflexivity.
Qed.

(** ** What a run of the full graph visits. *)
Definition has (name : string) (l : list node) : bool := existsb (fun n => String.eqb (nd_name n) name) l.
Lemma node_value_app : forall name l1 l2,
  node_value name (l1 ++ l2) = if has name l1 then node_value name l1 else node_value name l2.
Proof.
  intros name l1 l2. unfold node_value, has. induction l1 as [|n l1 IH]; [reflexivity|].
  cbn [app find existsb]. destruct (String.eqb (nd_name n) name); [reflexivity|exact IH].
Qed.

Lemma run_yield : forall name d k env l, run (Yield name d k) env = Ran l ->
  let v := match d with DDeterministic _ _ u => u | _ => env name end in
  exists l', l = mkNode name d v :: l' /\ run (k v) env = Ran l'.
Proof.
  intros name d k env l H v. cbn [run] in H. fold v in H. destruct (run (k v) env) as [l'|e|] eqn:E; try discriminate.
  cbn in H. injection H as <-. exists l'. auto.
Qed.
Lemma run_det : forall name n m v k env l, run (deterministic true name n m v k) env = Ran l ->
  exists l', l = mkNode name (DDeterministic n m v) v :: l' /\ run k env = Ran l'.
Proof. intros name n m v k env l H. apply (run_yield name (DDeterministic n m v) (fun _ => k) env l H). Qed.
Lemma run_lift : forall A (r : result A) k env l, run (lift r k) env = Ran l ->
  exists a, r = Ok a /\ run (k a) env = Ran l.
Proof. intros A [a|e] k env l H; [exists a; auto|discriminate]. Qed.
Lemma run_finite : forall n b k env l, run (finite n b k) env = Ran l ->
  exists f, (forall c, c < n -> b c = Some (f c)) /\ run (k f) env = Ran l.
Proof.
  intros n b k env l H. unfold finite in H. destruct (forallb _ _) eqn:E; [|discriminate].
  eexists. split; [|exact H]. intros c Hc. rewrite forallb_forall in E. specialize (E c).
  cbv beta. destruct (b c); [reflexivity|]. discriminate E. apply in_seq. lia.
Qed.

(** Nodes of one kind of channels. *)
Definition coefficient_nodes (sfx : string) (pt : prior_type) (n : nat) (env : string -> value)
    (beta : nat -> R) : list node :=
  mkNode (prior_name pt sfx) (DPrior n) (env (prior_name pt sfx)) ::
  match pt with
  | PtCoefficient => []
  | _ => [mkNode (String.append "beta_" sfx) (DDeterministic 1 n (of_vec beta)) (of_vec beta)]
  end.
Definition kind_nodes (G : nat) (sfx : string) (pt : prior_type) (n : nat) (env : string -> value)
    (beta : nat -> R) (bg : value) : list node :=
  [mkNode (String.append "alpha_" sfx) (DPrior n) (env (String.append "alpha_" sfx));
   mkNode (String.append "ec_" sfx) (DPrior n) (env (String.append "ec_" sfx));
   mkNode (String.append "eta_" sfx) (DPrior n) (env (String.append "eta_" sfx));
   mkNode (String.append "slope_" sfx) (DPrior n) (env (String.append "slope_" sfx));
   mkNode (String.append "beta_g" (String.append sfx "_dev")) (DStdNormal G n)
     (env (String.append "beta_g" (String.append sfx "_dev")))]
  ++ coefficient_nodes sfx pt n env beta
  ++ [mkNode (String.append "beta_g" sfx) (DDeterministic G n bg) bg].

Definition derived (pt : prior_type) (n : nat) (b : result (nat -> option R)) (beta : nat -> R) : Prop :=
  match pt with
  | PtCoefficient => True
  | _ => exists f, b = Ok f /\ forall c, c < n -> f c = Some (beta c)
  end.

Lemma run_paid : forall md pt sfx n den diff eta dev k env l,
  run (paid_coefficient true md pt sfx n den diff eta dev k) env = Ran l ->
  exists beta l', l = coefficient_nodes sfx pt n env beta ++ l' /\ run (k beta) env = Ran l' /\
    match pt with
    | PtCoefficient => beta = vec (env (String.append "beta_" sfx))
    | PtOther => False
    | _ => exists d y, den = Some d /\ diff = Ok y /\
        forall c, c < n -> calculate_beta_x md false
           (fun c => (vec (env (prior_name pt sfx)) c * d c)%R) y eta dev c = Some (beta c)
    end.
Proof.
  intros md pt sfx n den diff eta dev k env l H. unfold paid_coefficient in H. cbv zeta in H.
  assert (W : forall name,
    run (Yield name (DPrior n) (fun theta =>
      match den with
      | None => Raise TypeError
      | Some d => lift diff (fun y =>
          finite n (calculate_beta_x md false (fun c => (vec theta c * d c)%R) y eta dev) (fun beta =>
          deterministic true (String.append "beta_" sfx) 1 n (of_vec beta) (k beta)))
      end)) env = Ran l ->
    exists beta l', l = mkNode name (DPrior n) (env name) ::
        mkNode (String.append "beta_" sfx) (DDeterministic 1 n (of_vec beta)) (of_vec beta) :: l' /\
      run (k beta) env = Ran l' /\
      exists d y, den = Some d /\ diff = Ok y /\
        forall c, c < n -> calculate_beta_x md false (fun c => (vec (env name) c * d c)%R) y eta dev c = Some (beta c)).
  { intros name Hy. apply run_yield in Hy. cbv zeta in Hy. destruct Hy as (l' & -> & Hy).
    destruct den as [d|]; [|discriminate]. apply run_lift in Hy. destruct Hy as (y & Ey & Hy).
    apply run_finite in Hy. destruct Hy as (f & Hf & Hy). apply run_det in Hy. destruct Hy as (l2 & -> & Hy).
    exists f, l2. split; [reflexivity|]. split; [exact Hy|]. exists d, y. auto. }
  destruct pt; try discriminate.
  1-3: apply W in H; destruct H as (beta & l' & -> & Hr & H); exists beta, l'; repeat split; auto.
  apply run_yield in H. cbv zeta in H. destruct H as (l' & -> & H).
  exists (vec (env (String.append "beta_" sfx))), l'. repeat split; auto.
Qed.

Lemma run_organic : forall md pt sfx n y eta dev k env l,
  run (organic_coefficient true md pt sfx n y eta dev k) env = Ran l ->
  exists beta l', l = coefficient_nodes sfx pt n env beta ++ l' /\ run (k beta) env = Ran l' /\
    match pt with
    | PtCoefficient => beta = vec (env (String.append "beta_" sfx))
    | PtContribution =>
        forall c, c < n -> calculate_beta_x md false
           (fun c => (vec (env (prior_name pt sfx)) c * total_outcome md)%R) y eta dev c = Some (beta c)
    | _ => False
    end.
Proof.
  intros md pt sfx n y eta dev k env l H. unfold organic_coefficient in H.
  destruct pt; try discriminate.
  - apply run_yield in H. cbv zeta in H. destruct H as (l' & -> & H).
    apply run_finite in H. destruct H as (f & Hf & H). apply run_det in H. destruct H as (l2 & -> & H).
    exists f, l2. repeat split; auto.
  - apply run_yield in H. cbv zeta in H. destruct H as (l' & -> & H).
    exists (vec (env (String.append "beta_" sfx))), l'. repeat split; auto.
Qed.

Definition block_params (sfx : string) (n : nat) (env : string -> value) : chan_params :=
  mkParams n (vec (env (String.append "alpha_" sfx))) (vec (env (String.append "ec_" sfx)))
    (vec (env (String.append "slope_" sfx))).

Lemma run_media_block : forall md sfx pt n tr coef k env l
  (Q : chan_params -> T3 -> (nat -> R) -> (nat -> nat -> R) -> (nat -> R) -> Prop),
  (forall p y eta dev h l0, run (coef p y eta dev h) env = Ran l0 ->
     exists beta l', l0 = coefficient_nodes sfx pt n env beta ++ l' /\ run (h beta) env = Ran l' /\
       Q p y eta dev beta) ->
  run (media_block true md sfx n tr coef k) env = Ran l ->
  let p := block_params sfx n env in
  let eta := vec (env (String.append "eta_" sfx)) in
  let dev := env (String.append "beta_g" (String.append sfx "_dev")) in
  exists beta y l', let bg := beta_gx md beta eta dev in
    l = kind_nodes (md_geos md) sfx pt n env beta bg ++ l' /\ run (k (y, (n, bg))) env = Ran l' /\
    tr p = Ok y /\ Q p y eta dev beta.
Proof.
  intros md sfx pt n tr coef k env l Q HQ H p eta dev. unfold media_block in H.
  do 5 (apply run_yield in H; cbv zeta in H; destruct H as (? & -> & H)).
  fold p eta dev in H. apply run_lift in H. destruct H as (y & Ey & H).
  apply HQ in H. destruct H as (beta & l' & -> & H & Hq). cbv zeta in H.
  apply run_det in H. destruct H as (l2 & -> & H).
  exists beta, y, l2. cbv zeta. split; [|split; [exact H|split; [exact Ey|exact Hq]]].
  unfold kind_nodes. cbn [app]. rewrite <- app_assoc. reflexivity.
Qed.

(** Facts about the nodes of one kind: the nodes, the transformed media as the analyzer computes
    them, and the mean coefficients. *)
Definition kind_facts (md : M_Priors.model) (sfx : string) (pt : prior_type) (o : option T3) (env : string -> value)
    (parts_of : chan_params -> nat * value -> result (list part))
    (b : chan_params -> (nat -> R) -> (nat -> R) -> (nat -> nat -> R) -> result (nat -> option R))
    (l : list node) (parts : list part) (bg : value) : Prop :=
  let n := n_chans o in
  let p := block_params sfx n env in
  let eta := vec (env (String.append "eta_" sfx)) in
  let dev := env (String.append "beta_g" (String.append sfx "_dev")) in
  exists beta,
    bg = beta_gx md beta eta dev /\
    l = match o with None => [] | Some _ => kind_nodes (md_geos md) sfx pt n env beta bg end /\
    parts_of p (n, bg) = Ok parts /\
    (o <> None -> pt <> PtOther /\
       mean_coefficients pt sfx n env (b p (vec (env (prior_name pt sfx))) eta dev) beta).

Definition forward_is (tr : media_transformer) (t : option media_transformer) (m m' : T3) : Prop :=
  transform_media (Some m) t = Some (forward3 tr m).

Lemma forward_transform : forall pop m t tr, transformer_of pop (Some m) t -> factors_pos t ->
  media_transformer_init m pop = Ok tr -> transform_media (Some m) t = Some (forward3 tr m).
Proof.
  intros pop m [t|] tr H F E; cbn in H; [|contradiction]. rewrite H in E. assert (t = tr) by congruence. subst t.
  cbn. f_equal. unfold map3, forward3. f_equal. extensionality g. extensionality u. extensionality c.
  unfold media_fwd, media_forward, fdiv. pose proof (F g c).
  destruct (Req_EM_T (scale_factors_gm tr g c) 0); [lra|reflexivity].
Qed.

Lemma build_media_inv : forall md pt cal m sp mt, build_media_tensors md pt cal m sp = Ok mt ->
  exists tr, media_transformer_init m (md_population md) = Ok tr /\ pt_scaled mt = forward3 tr m /\
    (pt = PtCoefficient -> pt_denominator mt = None).
Proof.
  intros md pt cal m sp mt H. unfold build_media_tensors in H. inv_rbind H tr Htr. exists tr. split; [exact Htr|].
  unfold prior_counterfactual in H. destruct pt; try discriminate; injection H as <-; split; try reflexivity; discriminate.
Qed.
Lemma build_rf_inv : forall md pt cal r f sp mt, build_rf_tensors md pt cal r f sp = Ok mt ->
  exists tr, media_transformer_init r (md_population md) = Ok tr /\ pt_scaled mt = forward3 tr r /\
    (pt = PtCoefficient -> pt_denominator mt = None).
Proof.
  intros md pt cal m f sp mt H. unfold build_rf_tensors in H. inv_rbind H tr Htr. exists tr. split; [exact Htr|].
  unfold prior_counterfactual in H. destruct pt; try discriminate; injection H as <-; split; try reflexivity; discriminate.
Qed.

Section Blocks.
Variable x : M_Analyzer.model.
Variable s : spec.
Variable env : string -> value.
Hypothesis OK : model_ok x.
Let md := equations_of x s.
Let d := x_data x.

Lemma own : own_transformers x. Proof. apply OK. Qed.
Lemma tok : transformers_ok x. Proof. apply OK. Qed.
Lemma wf : well_formed x. Proof. apply OK. Qed.

Lemma run_paid_media : forall k l, run (paid_media_block true x s k) env = Ran l ->
  exists l1 l2 parts bg, l = l1 ++ l2 /\ run (k parts) env = Ran l2 /\
    kind_facts md "m" (j_media_prior s) (d_media d) env
      (fun p q => media_part (transform_media (d_media d) (x_media_transformer x))
         (fun m => adstock_hill_media (x_cx x) m p (x_decay_media x) (x_sat_media x) None) q)
      (fun p theta eta dev => match d_media d with
         | Some m => paid_media_beta md (j_media_prior s) (j_media_calibration s) m (j_media_spend s) p
                       (x_decay_media x) (x_sat_media x) theta eta dev
         | None => Err ValueError end)
      l1 parts bg.
Proof.
  intros k l H. pose proof own as (O & _). pose proof tok as (F & _).
  unfold paid_media_block in H. cbv zeta in H. unfold kind_facts. cbv zeta. unfold d in *. unfold own_transformers in O.
  destruct (d_media (x_data x)) as [m|] eqn:Em.
  2:{ eexists [], l, [], _. split; [reflexivity|]. split; [exact H|]. exists (fun _ => 0%R).
      split; [reflexivity|]. split; [reflexivity|]. split; [destruct (x_media_transformer x); reflexivity|congruence]. }
  apply run_lift in H. destruct H as (mt & Hmt & H).
  destruct (build_media_inv _ _ _ _ _ _ Hmt) as (tr & Htr & Hs & Hcoef).
  eapply run_media_block with (pt := j_media_prior s) in H.
  2:{ intros p y eta dev h l0 Hr. apply run_paid in Hr. exact Hr. }
  cbv zeta in H. destruct H as (beta & y & l' & -> & Hr & Hy & Hb).
  eexists _, l', _, _. split; [reflexivity|]. split; [exact Hr|]. exists beta.
  split; [reflexivity|]. split; [reflexivity|].
  rewrite (forward_transform _ _ _ _ O F Htr). rewrite Hs in Hy. cbn [media_part n_chans]. rewrite Hy. cbn [rbind].
  split; [reflexivity|]. intros _. destruct (j_media_prior s) eqn:Ept; try contradiction.
  1-3: split; [discriminate|]; destruct Hb as (dn & z & Hd & Hz & Hc); unfold mean_coefficients, paid_media_beta;
    fold md in Hmt; rewrite Hmt; cbn [rbind]; rewrite Hd; rewrite Hs; unfold md, equations_of in *; cbn [md_cx] in *;
    rewrite Hy; cbn [rbind]; rewrite Hz; cbn [rbind]; eexists; split; [reflexivity|exact Hc].
  split; [discriminate|]. cbn. rewrite Hb. reflexivity.
Qed.

Lemma run_paid_rf : forall k l, run (paid_rf_block true x s k) env = Ran l ->
  exists l1 l2 parts bg, l = l1 ++ l2 /\ run (k parts) env = Ran l2 /\
    kind_facts md "rf" (j_rf_prior s) (d_reach d) env
      (fun p q => rf_part (transform_media (d_reach d) (x_reach_transformer x)) (d_frequency d)
         (fun m f => adstock_hill_rf (x_cx x) m f p (x_decay_rf x) (x_sat_rf x) None) q)
      (fun p theta eta dev => match d_reach d, d_frequency d with
         | Some r, Some f => paid_rf_beta md (j_rf_prior s) (j_rf_calibration s) r f (j_rf_spend s) p
                       (x_decay_rf x) (x_sat_rf x) theta eta dev
         | _, _ => Err ValueError end)
      l1 parts bg.
Proof.
  intros k l H. pose proof own as (_ & O & _). pose proof tok as (_ & _ & F & _).
  unfold paid_rf_block in H. cbv zeta in H. unfold kind_facts. cbv zeta. unfold d in *.
  destruct (d_reach (x_data x)) as [m|] eqn:Em.
  2:{ eexists [], l, [], _. split; [reflexivity|]. split; [exact H|]. exists (fun _ => 0%R).
      split; [reflexivity|]. split; [reflexivity|]. split; [destruct (x_reach_transformer x); reflexivity|congruence]. }
  destruct (d_frequency (x_data x)) as [f|] eqn:Ef; [|discriminate].
  apply run_lift in H. destruct H as (mt & Hmt & H).
  destruct (build_rf_inv _ _ _ _ _ _ _ Hmt) as (tr & Htr & Hs & Hcoef).
  eapply run_media_block with (pt := j_rf_prior s) in H.
  2:{ intros p y eta dev h l0 Hr. apply run_paid in Hr. exact Hr. }
  cbv zeta in H. destruct H as (beta & y & l' & -> & Hr & Hy & Hb).
  eexists _, l', _, _. split; [reflexivity|]. split; [exact Hr|]. exists beta.
  split; [reflexivity|]. split; [reflexivity|].
  rewrite (forward_transform _ _ _ _ O F Htr). rewrite Hs in Hy. cbn [rf_part n_chans]. rewrite Hy. cbn [rbind].
  split; [reflexivity|]. intros _. destruct (j_rf_prior s) eqn:Ept; try contradiction.
  1-3: split; [discriminate|]; destruct Hb as (dn & z & Hd & Hz & Hc); unfold mean_coefficients, paid_rf_beta;
    fold md in Hmt; rewrite Hmt; cbn [rbind]; rewrite Hd; rewrite Hs; unfold md, equations_of in *; cbn [md_cx] in *;
    rewrite Hy; cbn [rbind]; rewrite Hz; cbn [rbind]; eexists; split; [reflexivity|exact Hc].
  split; [discriminate|]. cbn. rewrite Hb. reflexivity.
Qed.

Lemma run_organic_media : forall k l, run (organic_media_block true x s k) env = Ran l ->
  exists l1 l2 parts bg, l = l1 ++ l2 /\ run (k parts) env = Ran l2 /\
    kind_facts md "om" (j_organic_media_prior s) (d_organic_media d) env
      (fun p q => media_part (transform_media (d_organic_media d) (x_organic_media_transformer x))
         (fun m => adstock_hill_media (x_cx x) m p (x_decay_organic_media x) (x_sat_organic_media x) None) q)
      (fun p theta eta dev => match d_organic_media d with
         | Some m => organic_media_beta md (j_organic_media_prior s) m p
                       (x_decay_organic_media x) (x_sat_organic_media x) theta eta dev
         | None => Err ValueError end)
      l1 parts bg.
Proof.
  intros k l H. pose proof own as (_ & _ & O & _). pose proof tok as (_ & F & _).
  unfold organic_media_block in H. cbv zeta in H. unfold kind_facts. cbv zeta. unfold d in *.
  destruct (d_organic_media (x_data x)) as [m|] eqn:Em.
  2:{ eexists [], l, [], _. split; [reflexivity|]. split; [exact H|]. exists (fun _ => 0%R).
      split; [reflexivity|]. split; [reflexivity|]. split; [destruct (x_organic_media_transformer x); reflexivity|congruence]. }
  apply run_lift in H. destruct H as (tr & Htr & H).
  eapply run_media_block with (pt := j_organic_media_prior s) in H.
  2:{ intros p y eta dev h l0 Hr. apply run_organic in Hr. exact Hr. }
  cbv zeta in H. destruct H as (beta & y & l' & -> & Hr & Hy & Hb).
  eexists _, l', _, _. split; [reflexivity|]. split; [exact Hr|]. exists beta.
  split; [reflexivity|]. split; [reflexivity|].
  rewrite (forward_transform _ _ _ _ O F Htr). cbn [media_part n_chans]. rewrite Hy. cbn [rbind].
  split; [reflexivity|]. intros _. destruct (j_organic_media_prior s) eqn:Ept; try contradiction.
  - split; [discriminate|]. unfold mean_coefficients, organic_media_beta, md, equations_of in *. cbn [md_cx md_population] in *.
    rewrite Htr. cbn [rbind]. rewrite Hy. cbn [rbind]. eexists; split; [reflexivity|exact Hb].
  - split; [discriminate|]. cbn. rewrite Hb. reflexivity.
Qed.

Lemma run_organic_rf : forall k l, run (organic_rf_block true x s k) env = Ran l ->
  exists l1 l2 parts bg, l = l1 ++ l2 /\ run (k parts) env = Ran l2 /\
    kind_facts md "orf" (j_organic_rf_prior s) (d_organic_reach d) env
      (fun p q => rf_part (transform_media (d_organic_reach d) (x_organic_reach_transformer x)) (d_organic_frequency d)
         (fun m f => adstock_hill_rf (x_cx x) m f p (x_decay_organic_rf x) (x_sat_organic_rf x) None) q)
      (fun p theta eta dev => match d_organic_reach d, d_organic_frequency d with
         | Some r, Some f => organic_rf_beta md (j_organic_rf_prior s) r f p
                       (x_decay_organic_rf x) (x_sat_organic_rf x) theta eta dev
         | _, _ => Err ValueError end)
      l1 parts bg.
Proof.
  intros k l H. pose proof own as (_ & _ & _ & O). pose proof tok as (_ & _ & _ & F).
  unfold organic_rf_block in H. cbv zeta in H. unfold kind_facts. cbv zeta. unfold d in *.
  destruct (d_organic_reach (x_data x)) as [m|] eqn:Em.
  2:{ eexists [], l, [], _. split; [reflexivity|]. split; [exact H|]. exists (fun _ => 0%R).
      split; [reflexivity|]. split; [reflexivity|]. split; [destruct (x_organic_reach_transformer x); reflexivity|congruence]. }
  destruct (d_organic_frequency (x_data x)) as [f|] eqn:Ef; [|discriminate].
  apply run_lift in H. destruct H as (tr & Htr & H).
  eapply run_media_block with (pt := j_organic_rf_prior s) in H.
  2:{ intros p y eta dev h l0 Hr. apply run_organic in Hr. exact Hr. }
  cbv zeta in H. destruct H as (beta & y & l' & -> & Hr & Hy & Hb).
  eexists _, l', _, _. split; [reflexivity|]. split; [exact Hr|]. exists beta.
  split; [reflexivity|]. split; [reflexivity|].
  rewrite (forward_transform _ _ _ _ O F Htr). cbn [rf_part n_chans]. rewrite Hy. cbn [rbind].
  split; [reflexivity|]. intros _. destruct (j_organic_rf_prior s) eqn:Ept; try contradiction.
  - split; [discriminate|]. unfold mean_coefficients, organic_rf_beta, md, equations_of in *. cbn [md_cx md_population] in *.
    rewrite Htr. cbn [rbind]. rewrite Hy. cbn [rbind]. eexists; split; [reflexivity|exact Hb].
  - split; [discriminate|]. cbn. rewrite Hb. reflexivity.
Qed.

(** Controls and non-media treatments. *)
Definition control_nodes (gg : value) : list node :=
  let n := n_chans (d_controls d) in
  if Nat.eqb n 0 then [] else
  [mkNode "gamma_c" (DPrior n) (env "gamma_c"); mkNode "xi_c" (DPrior n) (env "xi_c");
   mkNode "gamma_gc_dev" (DStdNormal (x_n_geos x) n) (env "gamma_gc_dev");
   mkNode "gamma_gc" (DDeterministic (x_n_geos x) n gg) gg].

Lemma centered_chans : forall o t, n_chans (transform_centered o t) = n_chans o.
Proof. intros [y|] [t|]; reflexivity. Qed.

Lemma run_controls : forall k l, run (controls_block true x k) env = Ran l ->
  let gg := fun g i => (vec (env "gamma_c") i + vec (env "xi_c") i * env "gamma_gc_dev" g i)%R in
  exists l2 h, l = control_nodes gg ++ l2 /\ run (k h) env = Ran l2 /\
    forall g t, h g t = match transform_centered (d_controls d) (controls_transformer x) with
                        | Some c => contract c gg g t | None => 0%R end.
Proof.
  intros k l H gg. unfold controls_block in H. unfold control_nodes. cbv zeta.
  pose proof (centered_chans (d_controls d) (controls_transformer x)) as E. unfold d in *.
  destruct (transform_centered (d_controls (x_data x)) (controls_transformer x)) as [c|].
  - cbn [n_chans] in E. rewrite <- E. destruct (Nat.eqb (chans c) 0) eqn:E0.
    + exists l, (fun _ _ => 0%R). split; [reflexivity|]. split; [exact H|]. intros g t. unfold contract.
      apply Nat.eqb_eq in E0. rewrite E0. reflexivity.
    + do 3 (apply run_yield in H; cbv zeta in H; destruct H as (? & -> & H)).
      apply run_det in H. destruct H as (l2 & -> & H). eexists l2, _. split; [reflexivity|]. split; [exact H|].
      intros g t. reflexivity.
  - cbn [n_chans] in E. rewrite <- E. exists l, (fun _ _ => 0%R). cbn. auto.
Qed.

Definition non_media_nodes (gamma : nat -> R) (gg : value) : list node :=
  match d_non_media d with
  | None => []
  | Some c =>
      let n := chans c in
      [mkNode "xi_n" (DPrior n) (env "xi_n");
       mkNode "gamma_gn_dev" (DStdNormal (x_n_geos x) n) (env "gamma_gn_dev")]
      ++ match j_non_media_prior s with
         | PtContribution => [mkNode "contribution_n" (DPrior n) (env "contribution_n");
                              mkNode "gamma_n" (DDeterministic 1 n (of_vec gamma)) (of_vec gamma)]
         | _ => [mkNode "gamma_n" (DPrior n) (env "gamma_n")]
         end
      ++ [mkNode "gamma_gn" (DDeterministic (x_n_geos x) n gg) gg]
  end.

Lemma run_non_media : forall k l, run (non_media_block true x s k) env = Ran l ->
  exists gamma l2 h,
    let gg := fun g i => (gamma i + vec (env "xi_n") i * env "gamma_gn_dev" g i)%R in
    l = non_media_nodes gamma gg ++ l2 /\ run (k h) env = Ran l2 /\
    (forall g t, h g t = match transform_centered (d_non_media d) (non_media_transformer x) with
                        | Some c => contract c gg g t | None => 0%R end) /\
    forall n, d_non_media d = Some n ->
      match j_non_media_prior s with
      | PtCoefficient => gamma = vec (env "gamma_n")
      | pt => exists f,
         non_media_gamma md pt n (x_non_media_scaling_id x) (j_non_media_baseline s)
           (vec (env "contribution_n")) (vec (env "xi_n")) (env "gamma_gn_dev") = Ok f /\
         forall i, i < chans n -> f i = Some (gamma i)
      end.
Proof.
  intros k l H. unfold non_media_block in H. cbv zeta in H. unfold non_media_nodes. cbv zeta.
  pose proof (centered_chans (d_non_media d) (non_media_transformer x)) as E. unfold d in *.
  destruct (d_non_media (x_data x)) as [raw|] eqn:En.
  2:{ exists (fun _ => 0%R), l, (fun _ _ => 0%R). split; [reflexivity|]. split; [exact H|]. split; [|discriminate].
      intros g t. destruct (non_media_transformer x); reflexivity. }
  destruct (transform_centered (Some raw) (non_media_transformer x)) as [c|] eqn:Ec.
  2:{ destruct (non_media_transformer x); discriminate Ec. }
  cbn [n_chans] in E. rewrite <- E.
  do 2 (apply run_yield in H; cbv zeta in H; destruct H as (? & -> & H)).
  destruct (j_non_media_prior s); try discriminate.
  - apply run_yield in H. cbv zeta in H. destruct H as (? & -> & H).
    apply run_lift in H. destruct H as (b & Hb & H). apply run_finite in H. destruct H as (gm & Hg & H).
    do 2 (apply run_det in H; destruct H as (? & -> & H)).
    eexists gm, _, _. split; [reflexivity|]. split; [exact H|]. split; [reflexivity|].
    intros n Hn. assert (n = raw) by congruence. subst n.
    unfold non_media_gamma. fold md in Hb. rewrite Hb. cbn [rbind]. eexists. split; [reflexivity|].
    intros i Hi. apply Hg. lia.
  - apply run_yield in H. cbv zeta in H. destruct H as (? & -> & H).
    apply run_det in H; destruct H as (? & -> & H).
    eexists _, _, _. split; [reflexivity|]. split; [exact H|]. split; [reflexivity|]. reflexivity.
Qed.
End Blocks.

(** ** The whole run. *)
Definition base_nodes (x : M_Analyzer.model) (s : spec) (env : string -> value) (tau mu : nat -> R) : list node :=
  [mkNode "knot_values" (DPrior (j_knots s)) (env "knot_values");
   mkNode "sigma" (DPrior (j_sigmas s)) (env "sigma");
   mkNode "tau_g_excl_baseline" (DPrior (x_n_geos x - 1)) (env "tau_g_excl_baseline");
   mkNode "tau_g" (DDeterministic 1 (x_n_geos x) (of_vec tau)) (of_vec tau);
   mkNode "mu_t" (DDeterministic 1 (x_n_times x) (of_vec mu)) (of_vec mu)].
Definition tau_of (x : M_Analyzer.model) (s : spec) (env : string -> value) : nat -> R :=
  fun g => nth g (compute_tau_g (entries (x_n_geos x - 1) (env "tau_g_excl_baseline")) (j_baseline_geo_idx s)) 0%R.
Definition mu_of (s : spec) (env : string -> value) : nat -> R :=
  fun t => rsum (j_knots s) (fun i => (vec (env "knot_values") i * j_weights s i t)%R).
Definition likelihood_dist (x : M_Analyzer.model) (s : spec) (env : string -> value) (y : nat -> nat -> R) : dist :=
  let sd := fun g (t : nat) => sigma_gt (entries (j_sigmas s) (env "sigma")) g in
  match j_holdout s with
  | Some h => DNormal (x_n_geos x) (x_n_times x) (fun g t => if h g t then 0%R else y g t)
                (fun g t => if h g t then (1 / sqrt (2 * PI))%R else sd g t)
  | None => DNormal (x_n_geos x) (x_n_times x) y sd
  end.

Definition kseg (md : M_Priors.model) (sfx : string) (pt : prior_type) (o : option T3) (env : string -> value)
    (beta : nat -> R) : list node :=
  match o with
  | None => []
  | Some _ => kind_nodes (md_geos md) sfx pt (n_chans o) env beta
                (beta_gx md beta (vec (env (String.append "eta_" sfx)))
                   (env (String.append "beta_g" (String.append sfx "_dev"))))
  end.

Ltac foreign :=
  solve [ reflexivity
        | unfold kseg; match goal with |- context [match ?o with Some _ => _ | None => _ end] => destruct o end;
            [|reflexivity]; match goal with |- context [kind_nodes _ _ ?pt] => destruct pt end; reflexivity
        | unfold control_nodes; match goal with |- context [Nat.eqb ?a 0] => destruct (Nat.eqb a 0) end; reflexivity
        | unfold non_media_nodes; match goal with |- context [match ?o with Some _ => _ | None => _ end] => destruct o end;
            [|reflexivity]; match goal with |- context [j_non_media_prior ?s] => destruct (j_non_media_prior s) end; reflexivity ].
Ltac skip_one :=
  rewrite node_value_app;
  match goal with |- context [if has ?a ?l then _ else _] =>
    replace (has a l) with false by (symmetry; foreign) end.
Ltac skip := repeat skip_one.

Section Lookups.
Variable x : M_Analyzer.model.
Variable s : spec.
Variable env : string -> value.
Let md := equations_of x s.
Let d := x_data x.
Variables (b1 b2 b3 b4 gamma : nat -> R) (gc gn : value) (tau mu : nat -> R) (ynode : node).
Hypothesis Hy : nd_name ynode = "y".
Let l := base_nodes x s env tau mu
  ++ kseg md "m" (j_media_prior s) (d_media d) env b1
  ++ kseg md "rf" (j_rf_prior s) (d_reach d) env b2
  ++ kseg md "om" (j_organic_media_prior s) (d_organic_media d) env b3
  ++ kseg md "orf" (j_organic_rf_prior s) (d_organic_reach d) env b4
  ++ control_nodes x env gc ++ non_media_nodes x s env gamma gn ++ [ynode].

Lemma look_tau : node_value "tau_g" l = of_vec tau. Proof. reflexivity. Qed.
Lemma look_mu : node_value "mu_t" l = of_vec mu. Proof. reflexivity. Qed.

Definition found (sfx : string) (o : option T3) (beta : nat -> R) : Prop :=
  o <> None ->
  params_of (n_chans o) sfx l = block_params sfx (n_chans o) env /\
  node_value (String.append "beta_g" sfx) l
  = beta_gx md beta (vec (env (String.append "eta_" sfx))) (env (String.append "beta_g" (String.append sfx "_dev"))).

Lemma found_m : found "m" (d_media d) b1.
Proof.
  intros H. assert (A : forall a v, node_value a (kseg md "m" (j_media_prior s) (d_media d) env b1) = v ->
    has a (kseg md "m" (j_media_prior s) (d_media d) env b1) = true ->
    has a (base_nodes x s env tau mu) = false -> node_value a l = v).
  { intros a v Hv Hh Hb. unfold l. rewrite node_value_app, Hb, node_value_app, Hh. exact Hv. }
  unfold params_of, block_params. cbn [String.append].
  split; [f_equal; f_equal|]; apply A; try reflexivity; unfold kseg; (destruct (d_media d); [|congruence]);
    destruct (j_media_prior s); reflexivity.
Qed.
Lemma found_rf : found "rf" (d_reach d) b2.
Proof.
  intros H. assert (A : forall a v, node_value a (kseg md "rf" (j_rf_prior s) (d_reach d) env b2) = v ->
    has a (kseg md "rf" (j_rf_prior s) (d_reach d) env b2) = true ->
    has a (base_nodes x s env tau mu) = false ->
    has a (kseg md "m" (j_media_prior s) (d_media d) env b1) = false -> node_value a l = v).
  { intros a v Hv Hh Hb Hm. unfold l. rewrite node_value_app, Hb, node_value_app, Hm, node_value_app, Hh. exact Hv. }
  unfold params_of, block_params. cbn [String.append].
  split; [f_equal; f_equal|]; apply A; try foreign; unfold kseg; (destruct (d_reach d); [|congruence]);
    destruct (j_rf_prior s); reflexivity.
Qed.
Lemma found_om : found "om" (d_organic_media d) b3.
Proof.
  intros H. assert (A : forall a v, node_value a (kseg md "om" (j_organic_media_prior s) (d_organic_media d) env b3) = v ->
    has a (kseg md "om" (j_organic_media_prior s) (d_organic_media d) env b3) = true ->
    has a (base_nodes x s env tau mu) = false ->
    has a (kseg md "m" (j_media_prior s) (d_media d) env b1) = false ->
    has a (kseg md "rf" (j_rf_prior s) (d_reach d) env b2) = false -> node_value a l = v).
  { intros a v Hv Hh Hb Hm Hr. unfold l.
    rewrite node_value_app, Hb, node_value_app, Hm, node_value_app, Hr, node_value_app, Hh. exact Hv. }
  unfold params_of, block_params. cbn [String.append].
  split; [f_equal; f_equal|]; apply A; try foreign; unfold kseg; (destruct (d_organic_media d); [|congruence]);
    destruct (j_organic_media_prior s); reflexivity.
Qed.
Lemma found_orf : found "orf" (d_organic_reach d) b4.
Proof.
  intros H. assert (A : forall a v, node_value a (kseg md "orf" (j_organic_rf_prior s) (d_organic_reach d) env b4) = v ->
    has a (kseg md "orf" (j_organic_rf_prior s) (d_organic_reach d) env b4) = true ->
    has a (base_nodes x s env tau mu) = false ->
    has a (kseg md "m" (j_media_prior s) (d_media d) env b1) = false ->
    has a (kseg md "rf" (j_rf_prior s) (d_reach d) env b2) = false ->
    has a (kseg md "om" (j_organic_media_prior s) (d_organic_media d) env b3) = false -> node_value a l = v).
  { intros a v Hv Hh Hb Hm Hr Ho. unfold l.
    rewrite node_value_app, Hb, node_value_app, Hm, node_value_app, Hr, node_value_app, Ho, node_value_app, Hh. exact Hv. }
  unfold params_of, block_params. cbn [String.append].
  split; [f_equal; f_equal|]; apply A; try foreign; unfold kseg; (destruct (d_organic_reach d); [|congruence]);
    destruct (j_organic_rf_prior s); reflexivity.
Qed.
Lemma look_gc : n_chans (d_controls d) <> 0 -> node_value "gamma_gc" l = gc.
Proof.
  intros H. unfold l. do 5 skip_one. rewrite node_value_app. unfold control_nodes. fold d.
  destruct (Nat.eqb_spec (n_chans (d_controls d)) 0); [contradiction|]. reflexivity.
Qed.
Lemma look_gn : d_non_media d <> None -> node_value "gamma_gn" l = gn.
Proof.
  intros H. unfold l. do 6 skip_one. rewrite node_value_app. unfold non_media_nodes. fold d.
  destruct (d_non_media d); [|congruence]. destruct (j_non_media_prior s); reflexivity.
Qed.
End Lookups.


(** [kind_facts] with the witness named. *)
Definition kfacts (md : M_Priors.model) (sfx : string) (pt : prior_type) (o : option T3) (env : string -> value)
    (parts_of : chan_params -> nat * value -> result (list part))
    (b : chan_params -> (nat -> R) -> (nat -> R) -> (nat -> nat -> R) -> result (nat -> option R))
    (parts : list part) (beta : nat -> R) : Prop :=
  let n := n_chans o in
  let p := block_params sfx n env in
  let eta := vec (env (String.append "eta_" sfx)) in
  let dev := env (String.append "beta_g" (String.append sfx "_dev")) in
  parts_of p (n, beta_gx md beta eta dev) = Ok parts /\
  (o <> None -> pt <> PtOther /\
       mean_coefficients pt sfx n env (b p (vec (env (prior_name pt sfx))) eta dev) beta).
Lemma kind_kfacts : forall md sfx pt o env po b l parts bg, kind_facts md sfx pt o env po b l parts bg ->
  exists beta, l = kseg md sfx pt o env beta /\ kfacts md sfx pt o env po b parts beta.
Proof.
  intros md sfx pt o env po b l parts bg (beta & -> & Hl & Hp & Hm). exists beta. split; [exact Hl|].
  split; [exact Hp|exact Hm].
Qed.

Definition facts_m x s env := kfacts (equations_of x s) "m" (j_media_prior s) (d_media (x_data x)) env
  (fun p q => media_part (transform_media (d_media (x_data x)) (x_media_transformer x))
     (fun m => adstock_hill_media (x_cx x) m p (x_decay_media x) (x_sat_media x) None) q)
  (fun p theta eta dev => match d_media (x_data x) with
     | Some m => paid_media_beta (equations_of x s) (j_media_prior s) (j_media_calibration s) m (j_media_spend s) p
                   (x_decay_media x) (x_sat_media x) theta eta dev
     | None => Err ValueError end).
Definition facts_rf x s env := kfacts (equations_of x s) "rf" (j_rf_prior s) (d_reach (x_data x)) env
  (fun p q => rf_part (transform_media (d_reach (x_data x)) (x_reach_transformer x)) (d_frequency (x_data x))
     (fun m f => adstock_hill_rf (x_cx x) m f p (x_decay_rf x) (x_sat_rf x) None) q)
  (fun p theta eta dev => match d_reach (x_data x), d_frequency (x_data x) with
     | Some r, Some f => paid_rf_beta (equations_of x s) (j_rf_prior s) (j_rf_calibration s) r f (j_rf_spend s) p
                   (x_decay_rf x) (x_sat_rf x) theta eta dev
     | _, _ => Err ValueError end).
Definition facts_om x s env := kfacts (equations_of x s) "om" (j_organic_media_prior s) (d_organic_media (x_data x)) env
  (fun p q => media_part (transform_media (d_organic_media (x_data x)) (x_organic_media_transformer x))
     (fun m => adstock_hill_media (x_cx x) m p (x_decay_organic_media x) (x_sat_organic_media x) None) q)
  (fun p theta eta dev => match d_organic_media (x_data x) with
     | Some m => organic_media_beta (equations_of x s) (j_organic_media_prior s) m p
                   (x_decay_organic_media x) (x_sat_organic_media x) theta eta dev
     | None => Err ValueError end).
Definition facts_orf x s env := kfacts (equations_of x s) "orf" (j_organic_rf_prior s) (d_organic_reach (x_data x)) env
  (fun p q => rf_part (transform_media (d_organic_reach (x_data x)) (x_organic_reach_transformer x)) (d_organic_frequency (x_data x))
     (fun m f => adstock_hill_rf (x_cx x) m f p (x_decay_organic_rf x) (x_sat_organic_rf x) None) q)
  (fun p theta eta dev => match d_organic_reach (x_data x), d_organic_frequency (x_data x) with
     | Some r, Some f => organic_rf_beta (equations_of x s) (j_organic_rf_prior s) r f p
                   (x_decay_organic_rf x) (x_sat_organic_rf x) theta eta dev
     | _, _ => Err ValueError end).

Definition gc_of (env : string -> value) : value :=
  fun g i => (vec (env "gamma_c") i + vec (env "xi_c") i * env "gamma_gc_dev" g i)%R.
Definition gn_of (env : string -> value) (gamma : nat -> R) : value :=
  fun g i => (gamma i + vec (env "xi_n") i * env "gamma_gn_dev" g i)%R.
Definition all_nodes x s env b1 b2 b3 b4 gamma y : list node :=
  let md := equations_of x s in
  let d := x_data x in
  base_nodes x s env (tau_of x s env) (mu_of s env)
  ++ kseg md "m" (j_media_prior s) (d_media d) env b1
  ++ kseg md "rf" (j_rf_prior s) (d_reach d) env b2
  ++ kseg md "om" (j_organic_media_prior s) (d_organic_media d) env b3
  ++ kseg md "orf" (j_organic_rf_prior s) (d_organic_reach d) env b4
  ++ control_nodes x env (gc_of env) ++ non_media_nodes x s env gamma (gn_of env gamma)
  ++ [mkNode "y" (likelihood_dist x s env y) (env "y")].

Definition media_sum (l : list part) (g t : nat) : option R :=
  match l with
  | [] => Some 0%R
  | _ => match concat_parts l with Ok p => Some (contract (fst p) (snd (snd p)) g t) | Err _ => None end
  end.
Definition gamma_facts x s env gamma : Prop :=
  forall n, d_non_media (x_data x) = Some n ->
    match j_non_media_prior s with
    | PtCoefficient => gamma = vec (env "gamma_n")
    | pt => exists f,
       non_media_gamma (equations_of x s) pt n (x_non_media_scaling_id x) (j_non_media_baseline s)
         (vec (env "contribution_n")) (vec (env "xi_n")) (env "gamma_gn_dev") = Ok f /\
       forall i, i < chans n -> f i = Some (gamma i)
    end.

Lemma run_joint : forall x s env l, model_ok x -> run (joint_dist true x s) env = Ran l ->
  exists b1 b2 b3 b4 gamma l1 l2 l3 l4 y,
    l = all_nodes x s env b1 b2 b3 b4 gamma y /\
    facts_m x s env l1 b1 /\ facts_rf x s env l2 b2 /\ facts_om x s env l3 b3 /\ facts_orf x s env l4 b4 /\
    gamma_facts x s env gamma /\
    forall g t, exists m, media_sum (l1 ++ l2 ++ l3 ++ l4) g t = Some m /\
      y g t = (tau_of x s env g + mu_of s env t + m
        + match transform_centered (d_controls (x_data x)) (controls_transformer x) with
          | Some c => contract c (gc_of env) g t | None => 0 end
        + match transform_centered (d_non_media (x_data x)) (non_media_transformer x) with
          | Some c => contract c (gn_of env gamma) g t | None => 0 end)%R.
Proof.
  intros x s env l OK H. unfold joint_dist in H. cbv zeta in H.
  do 3 (apply run_yield in H; cbv zeta in H; destruct H as (? & -> & H)).
  do 2 (apply run_det in H; destruct H as (? & -> & H)).
  apply run_paid_media in H; [|exact OK]. destruct H as (s1 & ? & l1 & bg1 & -> & H & K1).
  apply run_paid_rf in H; [|exact OK]. destruct H as (s2 & ? & l2 & bg2 & -> & H & K2).
  apply run_organic_media in H; [|exact OK]. destruct H as (s3 & ? & l3 & bg3 & -> & H & K3).
  apply run_organic_rf in H; [|exact OK]. destruct H as (s4 & tl4 & l4 & bg4 & -> & H & K4).
  apply kind_kfacts in K1. destruct K1 as (b1 & -> & K1).
  apply kind_kfacts in K2. destruct K2 as (b2 & -> & K2).
  apply kind_kfacts in K3. destruct K3 as (b3 & -> & K3).
  apply kind_kfacts in K4. destruct K4 as (b4 & -> & K4).
  assert (M : exists med, run (controls_block true x (fun controls => non_media_block true x s (fun non_media =>
     likelihood_node x s (entries (j_sigmas s) (env "sigma"))
       (fun g t => (tau_of x s env g + mu_of s env t + med g t + controls g t + non_media g t)%R)))) env = Ran tl4 /\
     forall g t, media_sum (l1 ++ l2 ++ l3 ++ l4) g t = Some (med g t)).
  { unfold combine_media, media_sum in *. destruct (l1 ++ l2 ++ l3 ++ l4) as [|q r] eqn:El.
    - exists (fun _ _ => 0%R). split; [exact H|reflexivity].
    - apply run_lift in H. destruct H as (p & Hp & H). eexists. split; [exact H|]. rewrite Hp. reflexivity. }
  clear H. destruct M as (med & H & M).
  apply run_controls in H. cbv zeta in H. destruct H as (? & ctl & -> & H & C).
  apply run_non_media in H. cbv zeta in H. destruct H as (gamma & ? & nm & -> & H & N & Gm).
  unfold likelihood_node in H. cbv zeta in H.
  exists b1, b2, b3, b4, gamma, l1, l2, l3, l4, (fun g t => (tau_of x s env g + mu_of s env t + med g t + ctl g t + nm g t)%R).
  split.
  { unfold all_nodes, likelihood_dist. cbv zeta.
    destruct (j_holdout s); apply run_yield in H; cbv zeta in H; destruct H as (l' & -> & H); cbn in H;
      injection H as <-; reflexivity. }
  do 4 (split; [assumption|]). split; [exact Gm|].
  intros g t. exists (med g t). split; [apply M|]. rewrite C, N. reflexivity.
Qed.

(** ** The saved draw and the predictions of the analyzer. *)
Lemma no_data_ok : forall x, new_data_ok x no_data.
Proof. intros x. unfold new_data_ok. cbn. tauto. Qed.

Lemma found_params_ok : forall sfx o env (p : chan_params),
  in_domain o sfx env -> n_par p = n_chans o -> (o <> None -> p = block_params sfx (n_chans o) env) -> params_ok p.
Proof.
  intros sfx o env p D N E c Hc. rewrite N in Hc. destruct o as [m|]; [|cbn in Hc; lia].
  rewrite (E ltac:(discriminate)). cbn [n_chans in_domain] in *. cbn. apply (D c Hc).
Qed.

Lemma part_same : forall o tr f f' q q' r, media_part (transform_media o tr) f q = Ok r ->
  (o <> None -> (forall m, f m = f' m) /\ q = q') -> media_part (transform_media o tr) f' q' = Ok r.
Proof.
  intros o tr f f' q q' r H E. destruct o as [m|]; [|destruct tr; exact H].
  destruct (E ltac:(discriminate)) as [Ef <-]. destruct tr; cbn in *; rewrite <- Ef; exact H.
Qed.
Lemma rf_part_same : forall o tr fr f f' q q' r, rf_part (transform_media o tr) fr f q = Ok r ->
  (o <> None -> (forall m z, f m z = f' m z) /\ q = q') -> rf_part (transform_media o tr) fr f' q' = Ok r.
Proof.
  intros o tr fr f f' q q' r H E. destruct o as [m|]; [|destruct tr; exact H].
  destruct (E ltac:(discriminate)) as [Ef <-]. destruct tr, fr; cbn in *; try discriminate; rewrite <- Ef; exact H.
Qed.

Definition domains (x : M_Analyzer.model) (env : string -> value) : Prop :=
  let d := x_data x in
  in_domain (d_media d) "m" env /\ in_domain (d_reach d) "rf" env /\
  in_domain (d_organic_media d) "om" env /\ in_domain (d_organic_reach d) "orf" env.

Section Saved.
Variable x : M_Analyzer.model.
Variable s : spec.
Variable env : string -> value.
Hypothesis OK : model_ok x.
Variables b1 b2 b3 b4 gamma : nat -> R.
Variable y : nat -> nat -> R.
Let l := all_nodes x s env b1 b2 b3 b4 gamma y.
Let w := saved_draw x l.
Let d := x_data x.
Let bg (sfx : string) (beta : nat -> R) : value :=
  beta_gx (equations_of x s) beta (vec (env (String.append "eta_" sfx)))
    (env (String.append "beta_g" (String.append sfx "_dev"))).

Lemma saved_m : d_media d <> None -> w_media w = block_params "m" (n_chans (d_media d)) env /\ w_beta_gm w = bg "m" b1.
Proof. intros H. exact (found_m x s env b1 b2 b3 b4 gamma _ _ _ _ (mkNode "y" (likelihood_dist x s env y) (env "y")) H). Qed.
Lemma saved_rf : d_reach d <> None -> w_rf w = block_params "rf" (n_chans (d_reach d)) env /\ w_beta_grf w = bg "rf" b2.
Proof. intros H. exact (found_rf x s env b1 b2 b3 b4 gamma _ _ _ _ (mkNode "y" (likelihood_dist x s env y) (env "y")) H). Qed.
Lemma saved_om : d_organic_media d <> None -> w_organic_media w = block_params "om" (n_chans (d_organic_media d)) env /\ w_beta_gom w = bg "om" b3.
Proof. intros H. exact (found_om x s env b1 b2 b3 b4 gamma _ _ _ _ (mkNode "y" (likelihood_dist x s env y) (env "y")) H). Qed.
Lemma saved_orf : d_organic_reach d <> None -> w_organic_rf w = block_params "orf" (n_chans (d_organic_reach d)) env /\ w_beta_gorf w = bg "orf" b4.
Proof. intros H. exact (found_orf x s env b1 b2 b3 b4 gamma _ _ _ _ (mkNode "y" (likelihood_dist x s env y) (env "y")) H). Qed.
Lemma saved_gc : n_chans (d_controls d) <> 0 -> w_gamma_gc w = gc_of env.
Proof. intros H. exact (look_gc x s env b1 b2 b3 b4 gamma _ _ _ _ (mkNode "y" (likelihood_dist x s env y) (env "y")) H). Qed.
Lemma saved_gn : d_non_media d <> None -> w_gamma_gn w = gn_of env gamma.
Proof. intros H. exact (look_gn x s env b1 b2 b3 b4 gamma _ _ _ _ (mkNode "y" (likelihood_dist x s env y) (env "y")) H). Qed.

Lemma saved_draw_ok : domains x env -> draw_ok x w.
Proof.
  intros (D1 & D2 & D3 & D4). unfold draw_ok. cbv zeta.
  do 4 (split; [intros _; reflexivity|]).
  split; [apply (found_params_ok "m" (d_media d) env); [exact D1|reflexivity|intros H; apply (saved_m H)]|].
  split; [apply (found_params_ok "rf" (d_reach d) env); [exact D2|reflexivity|intros H; apply (saved_rf H)]|].
  split; [apply (found_params_ok "om" (d_organic_media d) env); [exact D3|reflexivity|intros H; apply (saved_om H)]|].
  apply (found_params_ok "orf" (d_organic_reach d) env); [exact D4|reflexivity|intros H; apply (saved_orf H)].
Qed.

Lemma saved_predictor : forall l1 l2 l3 l4, domains x env ->
  facts_m x s env l1 b1 -> facts_rf x s env l2 b2 -> facts_om x s env l3 b3 -> facts_orf x s env l4 b4 ->
  (forall g t, exists m, media_sum (l1 ++ l2 ++ l3 ++ l4) g t = Some m /\
      y g t = (tau_of x s env g + mu_of s env t + m
        + match transform_centered (d_controls (x_data x)) (controls_transformer x) with
          | Some c => contract c (gc_of env) g t | None => 0 end
        + match transform_centered (d_non_media (x_data x)) (non_media_transformer x) with
          | Some c => contract c (gn_of env gamma) g t | None => 0 end)%R) ->
  forall g t, t < x_n_times x -> y g t = predictor x no_data w g t.
Proof.
  intros l1 l2 l3 l4 D (F1 & _) (F2 & _) (F3 & _) (F4 & _) Hy g t Ht.
  pose proof (saved_draw_ok D) as Dw. destruct OK as (W & _ & TO & NN).
  set (dd := scale_data_tensors x (fill_missing x no_data true true) true).
  destruct (kpi_means_runs x dd w W Dw) as (m & Hm).
  { apply scale_same, (new_data_same x no_data (no_data_ok x)). }
  rewrite <- (kpi_means_predictor x no_data w m W Dw (no_data_ok x) NN TO Hm g t Ht).
  destruct (kpi_means_inv _ _ _ _ Hm) as (p & Hp & _ & _ & _ & _ & V). rewrite V. clear V Hm.
  destruct (Hy g t) as (q & Hq & ->).
  unfold transformed_media_and_beta in Hp. unfold dd, scale_data_tensors, fill_missing, no_data, orelse in *.
  cbn [d_media d_reach d_frequency d_organic_media d_organic_reach d_organic_frequency d_non_media d_controls] in *.
  rewrite (part_same _ _ _ (fun m0 => adstock_hill_media (x_cx x) m0 (w_media w) (x_decay_media x) (x_sat_media x) None) _
     (n_par (w_media w), w_beta_gm w) _ F1) in Hp by
    (intros H; destruct (saved_m H) as [E1 E2]; split; [intros; rewrite E1; reflexivity|rewrite E1, E2; reflexivity]).
  cbn [rbind] in Hp.
  rewrite (rf_part_same _ _ _ _ (fun m0 z => adstock_hill_rf (x_cx x) m0 z (w_rf w) (x_decay_rf x) (x_sat_rf x) None) _
     (n_par (w_rf w), w_beta_grf w) _ F2) in Hp by
    (intros H; destruct (saved_rf H) as [E1 E2]; split; [intros; rewrite E1; reflexivity|rewrite E1, E2; reflexivity]).
  cbn [rbind] in Hp.
  rewrite (part_same _ _ _ (fun m0 => adstock_hill_media (x_cx x) m0 (w_organic_media w) (x_decay_organic_media x) (x_sat_organic_media x) None) _
     (n_par (w_organic_media w), w_beta_gom w) _ F3) in Hp by
    (intros H; destruct (saved_om H) as [E1 E2]; split; [intros; rewrite E1; reflexivity|rewrite E1, E2; reflexivity]).
  cbn [rbind] in Hp.
  rewrite (rf_part_same _ _ _ _ (fun m0 z => adstock_hill_rf (x_cx x) m0 z (w_organic_rf w) (x_decay_organic_rf x) (x_sat_organic_rf x) None) _
     (n_par (w_organic_rf w), w_beta_gorf w) _ F4) in Hp by
    (intros H; destruct (saved_orf H) as [E1 E2]; split; [intros; rewrite E1; reflexivity|rewrite E1, E2; reflexivity]).
  cbn [rbind] in Hp. unfold part in *.
  destruct (concat_parts (l1 ++ l2 ++ l3 ++ l4)) as [r|e] eqn:Er; [|discriminate]. cbn [rbind] in Hp.
  destruct (Nat.eqb (chans (fst r)) (fst (snd r))); [|discriminate]. assert (r = p) by congruence. subst r.
  assert (q = contract (fst p) (snd (snd p)) g t).
  { unfold media_sum in Hq. unfold part in *. destruct (l1 ++ l2 ++ l3 ++ l4); [discriminate Er|].
    rewrite Er in Hq. congruence. }
  subst q. f_equal; [f_equal|].
  - change (d_controls (x_data x)) with (d_controls d). destruct (d_controls d) as [c|] eqn:Ec.
    + destruct (Nat.eq_dec (n_chans (d_controls d)) 0) as [E0|E0].
      * rewrite Ec in E0. cbn [n_chans] in E0. destruct (controls_transformer x); cbn; unfold contract; cbn; rewrite E0; reflexivity.
      * rewrite (saved_gc E0). destruct (controls_transformer x); reflexivity.
    + destruct (controls_transformer x); reflexivity.
  - change (d_non_media (x_data x)) with (d_non_media d). destruct (d_non_media d) as [c|] eqn:Ec.
    + rewrite saved_gn by (fold d; congruence). reflexivity.
    + destruct (non_media_transformer x); reflexivity.
Qed.
End Saved.

(** ** The log density. *)
Lemma std_normal_sum : forall n m (v : value),
  rsum n (fun i => rsum m (fun j => normal_logpdf (v i j) 0 1))
  = lsum (map (fun c => normal_log_density (v (fst c) (snd c)) 0 1) (list_prod (seq 0 n) (seq 0 m))).
Proof.
  intros n m v. rewrite lsum_prod. apply rsum_ext. intros i _. apply rsum_ext. intros j _.
  apply logpdf_equiv. lra.
Qed.

Lemma lld_drawn : forall prior env name n,
  latent_log_density prior env (Drawn name n) = prior name (entries n (env name)).
Proof. reflexivity. Qed.
Lemma lld_dev : forall prior env name n m,
  latent_log_density prior env (Deviations name n m)
  = rsum n (fun i => rsum m (fun j => normal_logpdf (env name i j) 0 1)).
Proof. intros. symmetry. apply std_normal_sum. Qed.
Lemma lsum_cons2 : forall a l, lsum (a :: l) = (a + lsum l)%R.
Proof. reflexivity. Qed.
Lemma lsum_nil2 : lsum [] = 0%R.
Proof. reflexivity. Qed.
Lemma nlp_prior : forall prior a n v, node_log_prob prior (mkNode a (DPrior n) v) = prior a (entries n v).
Proof. reflexivity. Qed.
Lemma nlp_det : forall prior a n m u v, node_log_prob prior (mkNode a (DDeterministic n m u) v) = 0%R.
Proof. reflexivity. Qed.
Lemma nlp_std : forall prior a n m v, node_log_prob prior (mkNode a (DStdNormal n m) v)
  = rsum n (fun i => rsum m (fun j => normal_logpdf (v i j) 0 1)).
Proof. reflexivity. Qed.
Ltac densities := cbn [app map];
  rewrite ?lsum_cons2, ?lsum_nil2, ?nlp_prior, ?nlp_det, ?nlp_std, ?lld_drawn, ?lld_dev; try ring.

Lemma kseg_density : forall prior md sfx pt o env beta,
  lsum (map (node_log_prob prior) (kseg md sfx pt o env beta))
  = lsum (map (latent_log_density prior env) (media_latents (md_geos md) o pt sfx)).
Proof.
  intros prior md sfx pt o env beta. unfold kseg, media_latents. destruct o as [m|]; [|reflexivity].
  cbn [n_chans]. destruct pt; unfold kind_nodes, coefficient_nodes; densities.
Qed.
Lemma control_density : forall prior x env gg,
  lsum (map (node_log_prob prior) (control_nodes x env gg))
  = lsum (map (latent_log_density prior env)
      (let c := d_controls (x_data x) in
       if Nat.eqb (n_chans c) 0 then [] else
       [Drawn "gamma_c" (n_chans c); Drawn "xi_c" (n_chans c); Deviations "gamma_gc_dev" (x_n_geos x) (n_chans c)])).
Proof.
  intros prior x env gg. unfold control_nodes. cbv zeta. destruct (Nat.eqb _ 0); [reflexivity|].
  densities.
Qed.
Lemma non_media_density : forall prior x s env gamma gg, (d_non_media (x_data x) <> None -> True) ->
  lsum (map (node_log_prob prior) (non_media_nodes x s env gamma gg))
  = lsum (map (latent_log_density prior env)
      (match d_non_media (x_data x) with
      | None => []
      | Some n => [Drawn "xi_n" (chans n); Deviations "gamma_gn_dev" (x_n_geos x) (chans n);
                   Drawn (match j_non_media_prior s with
                              | PtContribution => "contribution_n" | _ => "gamma_n" end) (chans n)]
      end)).
Proof.
  intros prior x s env gamma gg _. unfold non_media_nodes. destruct (d_non_media (x_data x)) as [m|]; [|reflexivity].
  destruct (j_non_media_prior s); cbv zeta; densities.
Qed.

Lemma pin_other : forall x s env name, String.eqb name "y" = false -> pin x s env name = env name.
Proof. intros x s env name H. unfold pin. rewrite H. reflexivity. Qed.

Definition latent_name (l : latent) : string := match l with Drawn n _ => n | Deviations n _ _ => n end.
Lemma latent_pin : forall prior x s env l, String.eqb (latent_name l) "y" = false ->
  latent_log_density prior (pin x s env) l = latent_log_density prior env l.
Proof.
  intros prior x s env [n k|n k m] H; cbn [latent_name] in H; cbn [latent_log_density]; unfold entry;
    rewrite (pin_other x s env n H); reflexivity.
Qed.
Lemma latents_not_y : forall x s, Forall (fun l => String.eqb (latent_name l) "y" = false) (latents x s).
Proof.
  intros x s. unfold latents. cbv zeta. rewrite !Forall_app.
  assert (K : forall G o pt sfx, In sfx ["m"; "rf"; "om"; "orf"] ->
     Forall (fun l => String.eqb (latent_name l) "y" = false) (media_latents G o pt sfx)).
  { intros G [m|] pt sfx Hs; [|constructor]. unfold media_latents.
    destruct Hs as [<-|[<-|[<-|[<-|[]]]]]; destruct pt; repeat (apply Forall_nil || apply Forall_cons); reflexivity. }
  split; [repeat (apply Forall_nil || apply Forall_cons); reflexivity|].
  do 4 (split; [apply K; cbn; tauto|]). split.
  - destruct (Nat.eqb _ 0); repeat (apply Forall_nil || apply Forall_cons); reflexivity.
  - destruct (d_non_media (x_data x)); [|constructor].
    destruct (j_non_media_prior s); repeat (apply Forall_nil || apply Forall_cons); reflexivity.
Qed.

Lemma likelihood_density : forall prior x s env y, latents_ok x s env ->
  node_log_prob prior (mkNode "y" (likelihood_dist x s (pin x s env) y) (pin x s env "y"))
  = lsum (map (fun c => normal_log_density (standardised_kpi x (fst c) (snd c)) (y (fst c) (snd c)) (noise s env (fst c)))
          (fitted_cells x s)).
Proof.
  intros prior x s env y (_ & _ & _ & _ & Hn & Hpos).
  assert (Hs : forall g, g < x_n_geos x ->
    geo_sigma (entries (j_sigmas s) (env "sigma")) g (noise s env g) /\ (0 < noise s env g)%R).
  { intros g Hg. unfold geo_sigma, noise, entries. rewrite map_length, seq_length.
    destruct (Nat.eqb_spec (j_sigmas s) 1) as [E|E].
    - split; [left; split; [exact E|rewrite E; reflexivity]|apply Hpos; lia].
    - destruct Hn as [Hn|Hn]; [contradiction|]. split; [|apply Hpos; lia]. right. split; [exact E|].
      rewrite nth_error_map. 
      assert (N : nth_error (seq 0 (j_sigmas s)) g = Some g).
      { rewrite (nth_error_nth' _ 0) by (rewrite seq_length; lia). rewrite seq_nth by lia. reflexivity. }
      rewrite N. reflexivity. }
  unfold fitted_cells, likelihood_dist, node_log_prob. cbn [nd_dist nd_value].
  change (pin x s env "sigma") with (env "sigma"). change (pin x s env "y") with (pinned x s).
  unfold pinned. destruct (j_holdout s) as [h|]; cbn [nd_dist nd_value].
  - rewrite <- (holdout_likelihood_lemma _ _ h y (standardised_kpi x) _ (noise s env) Hs). reflexivity.
  - rewrite <- (full_likelihood_lemma _ _ y (standardised_kpi x) _ (noise s env) Hs). reflexivity.
Qed.

Lemma domains_pin : forall x s env, latents_ok x s env -> domains x (pin x s env).
Proof. intros x s env (D1 & D2 & D3 & D4 & _). repeat split; assumption. Qed.

Lemma lsum_app2 : forall a b, lsum (a ++ b) = (lsum a + lsum b)%R.
Proof. intros. apply lsum_app. Qed.

Lemma target_lemma : forall prior x s env L, model_ok x -> latents_ok x s env ->
  target_log_prob prior false x s env = Some L ->
  exists l, run (joint_dist true x s) (pin x s env) = Ran l /\
    L = (lsum (map (latent_log_density prior env) (latents x s))
         + lsum (map (fun c => normal_log_density (standardised_kpi x (fst c) (snd c))
                                 (predictor x no_data (saved_draw x l) (fst c) (snd c)) (noise s env (fst c)))
                  (fitted_cells x s)))%R.
Proof.
  intros prior x s env L OK HL H. rewrite same_target in H. unfold target_log_prob in H.
  destruct (run (joint_dist true x s) (pin x s env)) as [l|e|] eqn:E; try discriminate.
  exists l. split; [reflexivity|]. injection H as <-.
  destruct (run_joint _ _ _ _ OK E) as (b1 & b2 & b3 & b4 & gamma & l1 & l2 & l3 & l4 & y & El & F1 & F2 & F3 & F4 & _ & Hy).
  pose proof (saved_predictor x s (pin x s env) OK b1 b2 b3 b4 gamma y l1 l2 l3 l4 (domains_pin x s env HL) F1 F2 F3 F4 Hy) as P.
  rewrite <- El in P.
  assert (Ep : lsum (map (fun c => normal_log_density (standardised_kpi x (fst c) (snd c))
                                 (predictor x no_data (saved_draw x l) (fst c) (snd c)) (noise s env (fst c)))
                  (fitted_cells x s))
      = lsum (map (fun c => normal_log_density (standardised_kpi x (fst c) (snd c)) (y (fst c) (snd c)) (noise s env (fst c)))
          (fitted_cells x s))).
  { f_equal. apply map_ext_in. intros [g t] Hc. cbn [fst snd]. rewrite P; [reflexivity|].
    unfold fitted_cells, observed_cells in Hc. destruct (j_holdout s).
    - apply filter_In in Hc. destruct Hc as [Hc _]. apply in_prod_iff in Hc. destruct Hc as [_ Hc]. apply in_seq in Hc. lia.
    - apply in_prod_iff in Hc. destruct Hc as [_ Hc]. apply in_seq in Hc. lia. }
  rewrite Ep, <- (likelihood_density prior x s env y HL).
  rewrite <- (map_ext_in (latent_log_density prior (pin x s env)) (latent_log_density prior env) (latents x s))
    by (intros a Ha; apply latent_pin; pose proof (latents_not_y x s) as Y; rewrite Forall_forall in Y; auto).
  rewrite El. unfold all_nodes, latents. cbv zeta. rewrite !map_app, !lsum_app2, !kseg_density, control_density, non_media_density by auto.
  cbv zeta. change (md_geos (equations_of x s)) with (x_n_geos x).
  unfold base_nodes. set (nn := mkNode "y" _ _).
  set (K1 := lsum (map _ (media_latents _ (d_media _) _ _))). densities.
Qed.

(** ** What is saved. *)
Lemma tau_documented : forall x s env g, j_baseline_geo_idx s < x_n_geos x -> g < x_n_geos x ->
  tau_of x s env g =
     if Nat.ltb g (j_baseline_geo_idx s) then entry env "tau_g_excl_baseline" g
     else if Nat.eqb g (j_baseline_geo_idx s) then 0%R else entry env "tau_g_excl_baseline" (g - 1).
Proof.
  intros x s env g Hb Hg. unfold tau_of. set (l := entries _ _).
  assert (Hl : length l = x_n_geos x - 1) by (unfold l, entries; rewrite map_length, seq_length; reflexivity).
  assert (Nl : forall i, i < x_n_geos x - 1 -> nth_error l i = Some (entry env "tau_g_excl_baseline" i)).
  { intros i Hi. unfold l, entries. rewrite nth_error_map, (nth_error_nth' _ 0) by (rewrite seq_length; lia).
    rewrite seq_nth by lia. reflexivity. }
  apply nth_error_nth. destruct (Nat.ltb_spec g (j_baseline_geo_idx s)) as [H|H].
  - rewrite tau_before by lia. apply Nl. lia.
  - destruct (Nat.eqb_spec g (j_baseline_geo_idx s)) as [->|H2].
    + apply tau_at_baseline. lia.
    + destruct g as [|g]; [lia|]. rewrite tau_after by lia. rewrite Nl by lia.
      replace (S g - 1) with g by lia. reflexivity.
Qed.

Lemma kind_saved_ok : forall md e G n sfx pt o env po b b' parts beta p bgv m,
  kfacts md sfx pt o env po b parts beta -> o = Some m -> n = chans m ->
  (o <> None -> p = block_params sfx (n_chans o) env /\
     bgv = beta_gx md beta (vec (env (String.append "eta_" sfx))) (env (String.append "beta_g" (String.append sfx "_dev")))) ->
  (forall theta eta dev, b p theta eta dev = b' p theta eta dev) ->
  (forall g c, beta_gx md beta (vec (env (String.append "eta_" sfx)))
        (env (String.append "beta_g" (String.append sfx "_dev"))) g c
     = geo_coefficient e (beta c) (entry env (String.append "eta_" sfx) c)
         (env (String.append "beta_g" (String.append sfx "_dev")) g c)) ->
  kind_saved e G n sfx pt env p bgv b'.
Proof.
  intros md e G n sfx pt o env po b b' parts beta p bgv m (_ & F) -> -> S Hb Hg.
  destruct (S ltac:(discriminate)) as [Ep Ebg]. destruct (F ltac:(discriminate)) as [_ M].
  cbn [n_chans] in *. split.
  - intros c _. rewrite Ep. repeat split.
  - exists beta. split.
    + rewrite <- Ep in M. change (entry env (String.append "eta_" sfx)) with (vec (env (String.append "eta_" sfx))).
      change (entry env (prior_name pt sfx)) with (vec (env (prior_name pt sfx))). rewrite <- Hb. exact M.
    + intros g c _ _. rewrite Ebg. apply Hg.
Qed.

Lemma saved_lemma : forall x s env l, model_ok x -> latents_ok x s env -> j_baseline_geo_idx s < x_n_geos x ->
  run (joint_dist true x s) (pin x s env) = Ran l -> saved_from x s env (saved_draw x l).
Proof.
  intros x s env l OK HL Hb E.
  destruct (run_joint _ _ _ _ OK E) as (b1 & b2 & b3 & b4 & gamma & l1 & l2 & l3 & l4 & y & El & F1 & F2 & F3 & F4 & Fg & Hy).
  subst l. set (env' := pin x s env) in *. clear E.
  cut (saved_from x s env' (saved_draw x (all_nodes x s env' b1 b2 b3 b4 gamma y))).
  { unfold saved_from, kind_saved, mean_coefficients, prior_name. cbv zeta. clear.
    destruct (j_media_prior s), (j_rf_prior s), (j_organic_media_prior s), (j_organic_rf_prior s); exact (fun H => H). }
  assert (Hg : forall sfx beta g c, beta_gx (equations_of x s) beta (vec (env' (String.append "eta_" sfx)))
        (env' (String.append "beta_g" (String.append sfx "_dev"))) g c
     = geo_coefficient (if Nat.eqb (x_n_geos x) 1 then EffNormal else j_effects s) (beta c) (entry env' (String.append "eta_" sfx) c)
         (env' (String.append "beta_g" (String.append sfx "_dev")) g c)).
  { intros. unfold beta_gx, geo_coefficient. reflexivity. }
  set (w := saved_draw x _). unfold saved_from. cbv zeta.
  split; [intros g Hgg; exact (tau_documented x s env' g Hb Hgg)|].
  split; [intros t Ht; reflexivity|].
  split.
  { intros m Hm. refine (kind_saved_ok _ _ _ _ _ _ _ _ _ _ _ _ _ _ _ m F1 Hm eq_refl _ _ _).
    - intros H. exact (saved_m x s env' b1 b2 b3 b4 gamma y H).
    - intros. rewrite Hm. reflexivity.
    - intros. apply Hg. }
  split.
  { intros r f Hr Hf. refine (kind_saved_ok _ _ _ _ _ _ _ _ _ _ _ _ _ _ _ r F2 Hr eq_refl _ _ _).
    - intros H. exact (saved_rf x s env' b1 b2 b3 b4 gamma y H).
    - intros. rewrite Hr, Hf. reflexivity.
    - intros. apply Hg. }
  split.
  { intros m Hm. refine (kind_saved_ok _ _ _ _ _ _ _ _ _ _ _ _ _ _ _ m F3 Hm eq_refl _ _ _).
    - intros H. exact (saved_om x s env' b1 b2 b3 b4 gamma y H).
    - intros. rewrite Hm. reflexivity.
    - intros. apply Hg. }
  split.
  { intros r f Hr Hf. refine (kind_saved_ok _ _ _ _ _ _ _ _ _ _ _ _ _ _ _ r F4 Hr eq_refl _ _ _).
    - intros H. exact (saved_orf x s env' b1 b2 b3 b4 gamma y H).
    - intros. rewrite Hr, Hf. reflexivity.
    - intros. apply Hg. }
  split.
  { intros c Hc g i _ Hi. unfold w. rewrite saved_gc by (rewrite Hc; cbn; lia). reflexivity. }
  intros n Hn. exists gamma. specialize (Fg n Hn). split.
  - destruct (j_non_media_prior s); first [exact Fg | intros i _; rewrite Fg; reflexivity].
  - intros g i _ _. unfold w. rewrite saved_gn by congruence. reflexivity.
Qed.

(** ** With coefficient priors every density is defined. *)
Lemma runs_yield : forall name d k env, match d with DDeterministic _ _ _ => False | _ => True end ->
  (exists l, run (k (env name)) env = Ran l) -> exists l, run (Yield name d k) env = Ran l.
Proof.
  intros name d k env Hd [l H]. cbn [run]. destruct d; try contradiction; rewrite H; eexists; reflexivity.
Qed.
Lemma runs_det : forall name n m v k env, (exists l, run k env = Ran l) ->
  exists l, run (deterministic true name n m v k) env = Ran l.
Proof. intros name n m v k env [l H]. cbn. rewrite H. eexists. reflexivity. Qed.

Definition bg0 (md : M_Priors.model) (sfx : string) (env : string -> value) : value :=
  beta_gx md (vec (env (String.append "beta_" sfx))) (vec (env (String.append "eta_" sfx)))
    (env (String.append "beta_g" (String.append sfx "_dev"))).
Lemma runs_media_block : forall md sfx n tr coef k env y,
  (forall p y eta dev h, (exists l, run (h (vec (env (String.append "beta_" sfx)))) env = Ran l) ->
     exists l, run (coef p y eta dev h) env = Ran l) ->
  tr (block_params sfx n env) = Ok y ->
  (exists l, run (k (y, (n, bg0 md sfx env))) env = Ran l) ->
  exists l, run (media_block true md sfx n tr coef k) env = Ran l.
Proof.
  intros md sfx n tr coef k env y Hc Ht Hk. unfold media_block.
  do 5 (apply runs_yield; [exact Logic.I|]). cbv zeta. change (mkParams n _ _ _) with (block_params sfx n env).
  rewrite Ht. cbn [lift]. apply Hc. apply runs_det. exact Hk.
Qed.

Section Runs.
Variables (x : M_Analyzer.model) (s : spec) (env : string -> value).
Hypothesis OK : model_ok x.
Let d := x_data x.
Let md := equations_of x s.
Lemma runs_m : forall k parts, j_media_prior s = PtCoefficient ->
  media_part (transform_media (d_media d) (x_media_transformer x))
    (fun m => adstock_hill_media (x_cx x) m (block_params "m" (n_chans (d_media d)) env) (x_decay_media x) (x_sat_media x) None)
    (n_chans (d_media d), bg0 md "m" env) = Ok parts ->
  (exists l, run (k parts) env = Ran l) -> exists l, run (paid_media_block true x s k) env = Ran l.
Proof.
  intros k parts Hp H Hk. destruct OK as (_ & (O & _) & (F & _) & _). unfold paid_media_block. cbv zeta. unfold d in *.
  destruct (d_media (x_data x)) as [m|].
  2:{ assert (H' : Ok (@nil part) = Ok parts) by (destruct (x_media_transformer x); exact H). injection H' as <-. exact Hk. }
  destruct (x_media_transformer x) as [t|] eqn:Et; [|contradiction]. cbn [transformer_of] in O.
  rewrite (forward_transform (x_population x) m (Some t) t O F O) in H. cbn [media_part n_chans] in H.
  inv_rbind H y Hy. assert (H' : Ok ([(y, (chans m, bg0 md "m" env))] : list part) = Ok parts) by exact H. injection H' as <-.
  unfold build_media_tensors. change (md_population (equations_of x s)) with (x_population x).
  rewrite O. cbn [rbind]. rewrite Hp. cbn [prior_counterfactual lift].
  eapply runs_media_block; [|exact Hy|exact Hk].
  intros p y0 eta dev h Hh. unfold paid_coefficient. apply runs_yield; [exact Logic.I|exact Hh].
Qed.
Lemma runs_rf : forall k parts, j_rf_prior s = PtCoefficient ->
  rf_part (transform_media (d_reach d) (x_reach_transformer x)) (d_frequency d)
    (fun m f => adstock_hill_rf (x_cx x) m f (block_params "rf" (n_chans (d_reach d)) env) (x_decay_rf x) (x_sat_rf x) None)
    (n_chans (d_reach d), bg0 md "rf" env) = Ok parts ->
  (exists l, run (k parts) env = Ran l) -> exists l, run (paid_rf_block true x s k) env = Ran l.
Proof.
  intros k parts Hp H Hk. destruct OK as (_ & (_ & O & _) & (_ & _ & F & _) & _). unfold paid_rf_block. cbv zeta. unfold d in *.
  destruct (d_reach (x_data x)) as [m|].
  2:{ assert (H' : Ok (@nil part) = Ok parts) by (destruct (x_reach_transformer x); exact H). injection H' as <-. exact Hk. }
  destruct (x_reach_transformer x) as [t|] eqn:Et; [|contradiction]. cbn [transformer_of] in O.
  rewrite (forward_transform (x_population x) m (Some t) t O F O) in H. cbn [rf_part n_chans] in H.
  destruct (d_frequency (x_data x)) as [f|]; [|discriminate].
  inv_rbind H y Hy. assert (H' : Ok ([(y, (chans m, bg0 md "rf" env))] : list part) = Ok parts) by exact H. injection H' as <-.
  unfold build_rf_tensors. change (md_population (equations_of x s)) with (x_population x).
  rewrite O. cbn [rbind]. rewrite Hp. cbn [prior_counterfactual lift].
  eapply runs_media_block; [|exact Hy|exact Hk].
  intros p y0 eta dev h Hh. unfold paid_coefficient. apply runs_yield; [exact Logic.I|exact Hh].
Qed.
Lemma runs_om : forall k parts, j_organic_media_prior s = PtCoefficient ->
  media_part (transform_media (d_organic_media d) (x_organic_media_transformer x))
    (fun m => adstock_hill_media (x_cx x) m (block_params "om" (n_chans (d_organic_media d)) env) (x_decay_organic_media x) (x_sat_organic_media x) None)
    (n_chans (d_organic_media d), bg0 md "om" env) = Ok parts ->
  (exists l, run (k parts) env = Ran l) -> exists l, run (organic_media_block true x s k) env = Ran l.
Proof.
  intros k parts Hp H Hk. destruct OK as (_ & (_ & _ & O & _) & (_ & F & _) & _). unfold organic_media_block. cbv zeta. unfold d in *.
  destruct (d_organic_media (x_data x)) as [m|].
  2:{ assert (H' : Ok (@nil part) = Ok parts) by (destruct (x_organic_media_transformer x); exact H). injection H' as <-. exact Hk. }
  destruct (x_organic_media_transformer x) as [t|] eqn:Et; [|contradiction]. cbn [transformer_of] in O.
  rewrite (forward_transform (x_population x) m (Some t) t O F O) in H. cbn [media_part n_chans] in H.
  inv_rbind H y Hy. assert (H' : Ok ([(y, (chans m, bg0 md "om" env))] : list part) = Ok parts) by exact H. injection H' as <-.
  rewrite O. cbn [lift].
  eapply runs_media_block; [|exact Hy|exact Hk].
  intros p y0 eta dev h Hh. rewrite Hp. cbn [organic_coefficient]. apply runs_yield; [exact Logic.I|exact Hh].
Qed.
Lemma runs_orf : forall k parts, j_organic_rf_prior s = PtCoefficient ->
  rf_part (transform_media (d_organic_reach d) (x_organic_reach_transformer x)) (d_organic_frequency d)
    (fun m f => adstock_hill_rf (x_cx x) m f (block_params "orf" (n_chans (d_organic_reach d)) env) (x_decay_organic_rf x) (x_sat_organic_rf x) None)
    (n_chans (d_organic_reach d), bg0 md "orf" env) = Ok parts ->
  (exists l, run (k parts) env = Ran l) -> exists l, run (organic_rf_block true x s k) env = Ran l.
Proof.
  intros k parts Hp H Hk. destruct OK as (_ & (_ & _ & _ & O) & (_ & _ & _ & F) & _). unfold organic_rf_block. cbv zeta. unfold d in *.
  destruct (d_organic_reach (x_data x)) as [m|].
  2:{ assert (H' : Ok (@nil part) = Ok parts) by (destruct (x_organic_reach_transformer x); exact H). injection H' as <-. exact Hk. }
  destruct (x_organic_reach_transformer x) as [t|] eqn:Et; [|contradiction]. cbn [transformer_of] in O.
  rewrite (forward_transform (x_population x) m (Some t) t O F O) in H. cbn [rf_part n_chans] in H.
  destruct (d_organic_frequency (x_data x)) as [f|]; [|discriminate].
  inv_rbind H y Hy. assert (H' : Ok ([(y, (chans m, bg0 md "orf" env))] : list part) = Ok parts) by exact H. injection H' as <-.
  rewrite O. cbn [lift].
  eapply runs_media_block; [|exact Hy|exact Hk].
  intros p y0 eta dev h Hh. rewrite Hp. cbn [organic_coefficient]. apply runs_yield; [exact Logic.I|exact Hh].
Qed.
Lemma runs_controls : forall k, (forall f, exists l, run (k f) env = Ran l) ->
  exists l, run (controls_block true x k) env = Ran l.
Proof.
  intros k H. unfold controls_block. destruct (transform_centered _ _) as [c|]; [|apply H].
  destruct (Nat.eqb (chans c) 0); [apply H|]. do 3 (apply runs_yield; [exact Logic.I|]). cbv zeta. apply runs_det, H.
Qed.
Lemma runs_non_media : forall k, j_non_media_prior s = PtCoefficient -> (forall f, exists l, run (k f) env = Ran l) ->
  exists l, run (non_media_block true x s k) env = Ran l.
Proof.
  intros k Hp H. unfold non_media_block. cbv zeta. destruct (d_non_media (x_data x)) as [n|]; [|apply H].
  destruct (transform_centered _ _) as [c|]; [|apply H]. do 2 (apply runs_yield; [exact Logic.I|]).
  rewrite Hp. apply runs_yield; [exact Logic.I|]. apply runs_det, H.
Qed.
Lemma runs_likelihood : forall sg y, exists l, run (likelihood_node x s sg y) env = Ran l.
Proof. intros. unfold likelihood_node. cbv zeta. destruct (j_holdout s); cbn; eexists; reflexivity. Qed.
End Runs.

Lemma defined_lemma : forall prior x s env, model_ok x -> latents_ok x s env -> coefficient_priors s ->
  exists L, target_log_prob prior false x s env = Some L.
Proof.
  intros prior x s env OK HL (C1 & C2 & C3 & C4 & C5). rewrite same_target. unfold target_log_prob.
  cut (exists l, run (joint_dist true x s) (pin x s env) = Ran l).
  { intros [l ->]. eexists. reflexivity. }
  set (env' := pin x s env). assert (D : domains x env') by (apply domains_pin; exact HL).
  set (md := equations_of x s).
  set (w := mkDraw (fun _ => 0%R) (fun _ => 0%R)
    (block_params "m" (n_chans (d_media (x_data x))) env') (block_params "rf" (n_chans (d_reach (x_data x))) env')
    (block_params "om" (n_chans (d_organic_media (x_data x))) env') (block_params "orf" (n_chans (d_organic_reach (x_data x))) env')
    (bg0 md "m" env') (bg0 md "rf" env') (bg0 md "om" env') (bg0 md "orf" env') (fun _ _ => 0%R) (fun _ _ => 0%R)).
  assert (Dw : draw_ok x w).
  { destruct D as (D1 & D2 & D3 & D4). unfold draw_ok. cbv zeta. do 4 (split; [intros _; reflexivity|]).
    split; [apply (found_params_ok "m" (d_media (x_data x)) env'); [exact D1|reflexivity|reflexivity]|].
    split; [apply (found_params_ok "rf" (d_reach (x_data x)) env'); [exact D2|reflexivity|reflexivity]|].
    split; [apply (found_params_ok "om" (d_organic_media (x_data x)) env'); [exact D3|reflexivity|reflexivity]|].
    apply (found_params_ok "orf" (d_organic_reach (x_data x)) env'); [exact D4|reflexivity|reflexivity]. }
  destruct (transformed_runs x (scale_data_tensors x (fill_missing x no_data true true) true) w (proj1 OK) Dw
     (scale_same _ _ (new_data_same x no_data (no_data_ok x)))) as (p & Hp & _).
  unfold transformed_media_and_beta, scale_data_tensors, fill_missing, no_data, orelse in Hp.
  cbn [d_media d_reach d_frequency d_organic_media d_organic_reach d_organic_frequency] in Hp.
  inv_rbind Hp l1 H1. inv_rbind Hp l2 H2. inv_rbind Hp l3 H3. inv_rbind Hp l4 H4. inv_rbind Hp q Hq. clear Hp.
  unfold joint_dist. cbv zeta. do 3 (apply runs_yield; [exact Logic.I|]). do 2 apply runs_det.
  eapply runs_m; [exact OK|exact C1|exact H1|].
  eapply runs_rf; [exact OK|exact C2|exact H2|].
  eapply runs_om; [exact OK|exact C3|exact H3|].
  eapply runs_orf; [exact OK|exact C4|exact H4|].
  unfold combine_media, part in *.
  assert (K : forall media, exists l, run (controls_block true x (fun controls => non_media_block true x s (fun non_media =>
     likelihood_node x s (entries (j_sigmas s) (env' "sigma"))
       (fun g t => (nth g (compute_tau_g (entries (x_n_geos x - 1) (env' "tau_g_excl_baseline")) (j_baseline_geo_idx s)) 0
          + rsum (j_knots s) (fun i => vec (env' "knot_values") i * j_weights s i t) + media g t + controls g t + non_media g t)%R)))) env' = Ran l).
  { intros media. apply runs_controls. intros f. apply runs_non_media; [exact C5|]. intros f2. apply runs_likelihood. }
  destruct (l1 ++ l2 ++ l3 ++ l4) as [|a r]; [apply K|]. rewrite Hq. cbn [lift]. apply K.
Qed.

Lemma usable_lemma : forall x s env l, model_ok x -> latents_ok x s env ->
  run (joint_dist true x s) (pin x s env) = Ran l -> draw_ok x (saved_draw x l).
Proof.
  intros x s env l OK HL E.
  destruct (run_joint _ _ _ _ OK E) as (b1 & b2 & b3 & b4 & gamma & l1 & l2 & l3 & l4 & y & El & _). subst l.
  apply saved_draw_ok. apply domains_pin. exact HL.
Qed.
