(** Proofs about prior sampling: the same nodes as the joint distribution of the posterior. *)
From Coq Require Import Reals ZArith Lia Lra String List Bool Arith Permutation FunctionalExtensionality.
From Verif Require Import Lib_Sum M_Base M_AdstockHill M_Equations M_Transformers M_Aggregate
  S_Aggregate S_Adstock S_Media S_Analyzer S_Predictor S_Sampler M_Priors M_Sampler M_Analyzer P_Sampler
  P_Analyzer P_AnalyzerIO P_Predictor M_Joint S_Joint P_Joint M_PriorDraws S_PriorDraws.
Import ListNotations.
Local Open Scope string_scope.
Local Open Scope R_scope.
Local Open Scope nat_scope.
Local Open Scope list_scope.

(** Two passes one after the other. *)
Definition seq_run (a b : run_result) : run_result :=
  match a with
  | Ran l => match b with Ran l' => Ran (l ++ l') | r => r end
  | r => r
  end.
Lemma seq_add : forall n a b, seq_run (add_node n a) b = add_node n (seq_run a b).
Proof. intros n [l|e|] [l'|e'|]; reflexivity. Qed.
Lemma run_y : forall name d k env, match d with DDeterministic _ _ _ => False | _ => True end ->
  run (Yield name d k) env = add_node (mkNode name d (env name)) (run (k (env name)) env).
Proof. intros name d k env H. cbn [run]. destruct d; try contradiction; reflexivity. Qed.
Lemma run_d : forall name n m u k env,
  run (Yield name (DDeterministic n m u) k) env = add_node (mkNode name (DDeterministic n m u) u) (run (k u) env).
Proof. reflexivity. Qed.
Lemma run_d2 : forall name n m u k env,
  run (deterministic true name n m u k) env = add_node (mkNode name (DDeterministic n m u) u) (run k env).
Proof. reflexivity. Qed.

Lemma seq_nil : forall b, seq_run (Ran []) b = b.
Proof. intros [l|e|]; reflexivity. Qed.
Lemma add_seq : forall n a b, add_node n (seq_run a b) = seq_run (add_node n a) b.
Proof. intros. symmetry. apply seq_add. Qed.

(** One block of the posterior and one of the prior that request the same values. *)
Definition same_block {A} (g : (A -> gen) -> gen) (g' : gen -> gen) (env : string -> value) (good : A -> Prop) : Prop :=
  exists r q, good q /\ (forall k, run (g k) env = seq_run r (run (k q) env)) /\
    (forall k', run (g' k') env = seq_run r (run k' env)).

Lemma same_yield : forall A name d (g : value -> (A -> gen) -> gen) (g' : value -> gen -> gen) env good,
  match d with DDeterministic _ _ _ => False | _ => True end ->
  same_block (g (env name)) (g' (env name)) env good ->
  same_block (fun k => Yield name d (fun v => g v k)) (fun k' => Yield name d (fun v => g' v k')) env good.
Proof.
  intros A name d g g' env good Hd (r & q & Hq & H & H').
  exists (add_node (mkNode name d (env name)) r), q. split; [exact Hq|]. split; intros; rewrite run_y by exact Hd.
  - rewrite H. apply add_seq.
  - rewrite H'. apply add_seq.
Qed.
Lemma same_det : forall A name n m u (g : (A -> gen) -> gen) (g' : gen -> gen) env good,
  same_block g g' env good ->
  same_block (fun k => deterministic true name n m u (g k)) (fun k' => Yield name (DDeterministic n m u) (fun _ => g' k')) env good.
Proof.
  intros A name n m u g g' env good (r & q & Hq & H & H').
  exists (add_node (mkNode name (DDeterministic n m u) u) r), q. split; [exact Hq|]. split; intros.
  - rewrite run_d2, H. apply add_seq.
  - rewrite run_d, H'. apply add_seq.
Qed.
Lemma same_fail : forall A e (g : (A -> gen) -> gen) g' env (good : A -> Prop) q, good q ->
  (forall k, run (g k) env = Raised e) -> (forall k', run (g' k') env = Raised e) -> same_block g g' env good.
Proof. intros A e g g' env good q Hq H H'. exists (Raised e), q. auto. Qed.
Lemma same_lift : forall A B (a : result B) (g : B -> (A -> gen) -> gen) g' env (good : A -> Prop) q0, good q0 ->
  (forall b, a = Ok b -> same_block (g b) (g' b) env good) ->
  same_block (fun k => lift a (fun b => g b k)) (fun k' => lift a (fun b => g' b k')) env good.
Proof.
  intros A B [b|e] g g' env good q0 H0 H; cbn [lift].
  - destruct (H b eq_refl) as (r & q & Hq & X & Y). exists r, q. auto.
  - exists (Raised e), q0. auto.
Qed.
Lemma same_finite : forall A n b (g : (nat -> R) -> (A -> gen) -> gen) g' env (good : A -> Prop) q0, good q0 ->
  (forall beta, same_block (g beta) (g' beta) env good) ->
  same_block (fun k => finite n b (fun beta => g beta k)) (fun k' => finite n b (fun beta => g' beta k')) env good.
Proof.
  intros A n b g g' env good q0 H0 H. unfold finite. destruct (forallb _ _).
  - apply H.
  - exists NotFinite, q0. auto.
Qed.

(** Geo coefficients end the block. *)
Lemma same_geo : forall md sfx n beta eta dev y env,
  same_block (fun k => let bg := beta_gx md beta eta dev in
                deterministic true (String.append "beta_g" sfx) (md_geos md) n bg (k (y, (n, bg))))
    (fun k' => geo_coefficients md sfx n beta eta dev k') env (fun q : part => fst q = y).
Proof.
  intros md sfx n beta eta dev y env.
  exists (Ran [mkNode (String.append "beta_g" sfx) (DDeterministic (md_geos md) n (beta_gx md beta eta dev)) (beta_gx md beta eta dev)]),
    (y, (n, beta_gx md beta eta dev)). split; [reflexivity|]. split.
  - intros k. cbv zeta. rewrite run_d2. destruct (run _ env); reflexivity.
  - intros k'. unfold geo_coefficients. cbv zeta.
    assert (E : (match media_effects_dist md with
      | EffNormal => fun g c => (beta c + eta c * dev g c)%R
      | EffLogNormal => fun g c => exp (beta c + eta c * dev g c) end) = beta_gx md beta eta dev).
    { unfold beta_gx. extensionality g. extensionality c. cbv zeta. destruct (media_effects_dist md); reflexivity. }
    rewrite E, run_d. destruct (run k' env); reflexivity.
Qed.

Definition dummy (y : T3) : part := (y, (0, fun _ _ => 0%R)).
Lemma same_paid : forall md pt sfx n den tr diff env y,
  tr (block_params sfx n env) = Ok y ->
  same_block
    (fun k => media_block true md sfx n tr (fun p y eta dev => paid_coefficient true md pt sfx n den (diff p y) eta dev) k)
    (fun k' => media_parameters md sfx n (fun p eta dev => paid_prior md pt sfx n den (tr p) (diff p) eta dev
                 (fun beta => geo_coefficients md sfx n beta eta dev k')))
    env (fun q => fst q = y).
Proof.
  intros md pt sfx n den tr diff env y Ht. unfold media_block, media_parameters.
  do 5 (match goal with |- same_block (fun k => Yield ?a ?d _) (fun k' => Yield _ _ _) _ _ =>
     refine (same_yield _ a d _ _ _ _ _ _); [exact Logic.I|]; cbv beta end).
  cbv zeta. change (mkParams n _ _ _) with (block_params sfx n env).
  rewrite Ht. cbn [lift].
  assert (W : forall a (theta : value),
     same_block (fun k => Yield a (DPrior n) (fun theta => match den with
        | None => Raise TypeError
        | Some d => lift (diff (block_params sfx n env) y) (fun z =>
            finite n (calculate_beta_x md false (fun c => (vec theta c * d c)%R) z (vec (env (String.append "eta_" sfx)))
              (env (String.append "beta_g" (String.append sfx "_dev")))) (fun beta =>
            deterministic true (String.append "beta_" sfx) 1 n (of_vec beta)
              (deterministic true (String.append "beta_g" sfx) (md_geos md) n
                 (beta_gx md beta (vec (env (String.append "eta_" sfx))) (env (String.append "beta_g" (String.append sfx "_dev"))))
                 (k (y, (n, beta_gx md beta (vec (env (String.append "eta_" sfx))) (env (String.append "beta_g" (String.append sfx "_dev")))))))))
        end))
      (fun k' => Yield a (DPrior n) (fun theta => match den with
        | None => Raise TypeError
        | Some d => lift (Ok y) (fun y => lift (diff (block_params sfx n env) y) (fun z =>
            calculated md false (String.append "beta_" sfx) n (fun c => (vec theta c * d c)%R) z (vec (env (String.append "eta_" sfx)))
              (env (String.append "beta_g" (String.append sfx "_dev"))) (fun beta =>
              geo_coefficients md sfx n beta (vec (env (String.append "eta_" sfx))) (env (String.append "beta_g" (String.append sfx "_dev"))) k')))
        end)) env (fun q : part => fst q = y)).
  { intros a _. cbn [lift]. refine (same_yield part a (DPrior n) _ _ _ _ _ _); [exact Logic.I|]. cbv beta.
    destruct den as [d|]; [|apply (same_fail part TypeError _ _ _ _ (dummy y)); reflexivity].
    refine (same_lift _ _ _ _ _ _ _ (dummy y) eq_refl _). intros z _. unfold calculated.
    refine (same_finite _ _ _ _ _ _ _ (dummy y) eq_refl _). intros beta.
    refine (same_det _ _ _ _ _ _ _ _ _ _). apply same_geo. }
  unfold paid_coefficient, paid_prior. destruct pt.
  - apply W. exact (fun _ _ => 0%R).
  - apply W. exact (fun _ _ => 0%R).
  - apply W. exact (fun _ _ => 0%R).
  - refine (same_yield part _ (DPrior n) _ _ _ _ _ _); [exact Logic.I|]. cbv beta. apply same_geo.
  - apply (same_fail part ValueError _ _ _ _ (dummy y)); reflexivity.
Qed.
Lemma same_organic : forall md pt sfx n tr env y,
  tr (block_params sfx n env) = Ok y ->
  same_block
    (fun k => media_block true md sfx n tr (fun _ y eta dev => organic_coefficient true md pt sfx n y eta dev) k)
    (fun k' => media_parameters md sfx n (fun p eta dev => organic_prior md pt sfx n (tr p) eta dev
                 (fun beta => geo_coefficients md sfx n beta eta dev k')))
    env (fun q => fst q = y).
Proof.
  intros md pt sfx n tr env y Ht. unfold media_block, media_parameters.
  do 5 (match goal with |- same_block (fun k => Yield ?a ?d _) (fun k' => Yield _ _ _) _ _ =>
     refine (same_yield _ a d _ _ _ _ _ _); [exact Logic.I|]; cbv beta end).
  cbv zeta. change (mkParams n _ _ _) with (block_params sfx n env).
  rewrite Ht. cbn [lift].
  unfold organic_coefficient, organic_prior. destruct pt.
  1-2: apply (same_fail part ValueError _ _ _ _ (dummy y)); reflexivity.
  - cbn [lift]. refine (same_yield part _ (DPrior n) _ _ _ _ _ _); [exact Logic.I|]. cbv beta. unfold calculated.
    refine (same_finite _ _ _ _ _ _ _ (dummy y) eq_refl _). intros beta.
    refine (same_det _ _ _ _ _ _ _ _ _ _). apply same_geo.
  - refine (same_yield part _ (DPrior n) _ _ _ _ _ _); [exact Logic.I|]. cbv beta. apply same_geo.
  - apply (same_fail part ValueError _ _ _ _ (dummy y)); reflexivity.
Qed.

(** Blocks of a model: the transformed media of each kind. *)
Definition part_of (o : option T3) (y : T3) (l : list part) : Prop :=
  match o with None => l = [] | Some _ => exists q, l = [q] /\ fst q = y end.
Lemma same_list : forall (g : (part -> gen) -> gen) g' env y m,
  same_block g g' env (fun q => fst q = y) ->
  same_block (fun k : list part -> gen => g (fun q => k [q])) g' env (part_of (Some m) y).
Proof.
  intros g g' env y m (r & q & Hq & H & H'). exists r, [q]. split; [exists q; auto|]. split; [intros; apply H|exact H'].
Qed.
Lemma same_none : forall env y, same_block (fun k : list part -> gen => k []) (fun k' => k') env (part_of None y).
Proof. intros env y. exists (Ran []), []. split; [reflexivity|]. split; intros; rewrite seq_nil; reflexivity. Qed.

Section Blocks.
Variables (x : M_Analyzer.model) (s : spec) (env : string -> value).
Hypothesis OK : model_ok x.
Let d := x_data x.
Lemma same_m : forall y parts, media_part (transform_media (d_media d) (x_media_transformer x))
    (fun m => adstock_hill_media (x_cx x) m (block_params "m" (n_chans (d_media d)) env) (x_decay_media x) (x_sat_media x) None) y = Ok parts ->
  same_block (paid_media_block true x s) (sample_media_priors x s) env (fun l => map fst l = map fst parts).
Proof.
  intros yb parts H. destruct OK as (_ & (O & _) & (F & _) & _). unfold paid_media_block, sample_media_priors. cbv zeta. unfold d in *.
  destruct (d_media (x_data x)) as [m|].
  2:{ assert (H' : Ok (@nil part) = Ok parts) by (destruct (x_media_transformer x); exact H). injection H' as <-.
      exists (Ran []), []. split; [reflexivity|]. split; intros; rewrite seq_nil; reflexivity. }
  destruct (x_media_transformer x) as [t|] eqn:Et; [|contradiction]. cbn [transformer_of] in O.
  rewrite (forward_transform (x_population x) m (Some t) t O F O) in H. cbn [media_part n_chans] in H.
  inv_rbind H z Hz. assert (H' : Ok [(z, yb)] = Ok parts) by exact H. injection H' as <-.
  refine (same_lift _ _ _ _ _ _ _ [dummy z] eq_refl _). intros mt Hmt.
  destruct (build_media_inv _ _ _ _ _ _ Hmt) as (tr & Htr & Hs & _).
  change (md_population (equations_of x s)) with (x_population x) in Htr. rewrite Htr in O. injection O as ->.
  pose proof (same_paid (equations_of x s) (j_media_prior s) "m" (chans m) (pt_denominator mt)
    (fun p => adstock_hill_media (x_cx x) (pt_scaled mt) p (x_decay_media x) (x_sat_media x) None)
    (fun p y => counterfactual_difference_media (equations_of x s) (pt_counterfactual mt) y p (x_decay_media x)) env z) as P.
  cbv beta in P. rewrite Hs in P at 1. specialize (P Hz). destruct P as (r & q & Hq & A & B).
  exists r, [q]. split; [cbn; rewrite Hq; reflexivity|]. split; [intros; apply A|intros; apply B].
Qed.
Lemma same_rf : forall y parts, rf_part (transform_media (d_reach d) (x_reach_transformer x)) (d_frequency d)
    (fun m f => adstock_hill_rf (x_cx x) m f (block_params "rf" (n_chans (d_reach d)) env) (x_decay_rf x) (x_sat_rf x) None) y = Ok parts ->
  same_block (paid_rf_block true x s) (sample_rf_priors x s) env (fun l => map fst l = map fst parts).
Proof.
  intros yb parts H. destruct OK as (_ & (_ & O & _) & (_ & _ & F & _) & _). unfold paid_rf_block, sample_rf_priors. cbv zeta. unfold d in *.
  destruct (d_reach (x_data x)) as [m|].
  2:{ assert (H' : Ok (@nil part) = Ok parts) by (destruct (x_reach_transformer x); exact H). injection H' as <-.
      exists (Ran []), []. split; [reflexivity|]. split; intros; rewrite seq_nil; reflexivity. }
  destruct (x_reach_transformer x) as [t|] eqn:Et; [|contradiction]. cbn [transformer_of] in O.
  rewrite (forward_transform (x_population x) m (Some t) t O F O) in H. cbn [rf_part n_chans] in H.
  destruct (d_frequency (x_data x)) as [f|]; [|discriminate].
  inv_rbind H z Hz. assert (H' : Ok [(z, yb)] = Ok parts) by exact H. injection H' as <-.
  refine (same_lift _ _ _ _ _ _ _ [dummy z] eq_refl _). intros mt Hmt.
  destruct (build_rf_inv _ _ _ _ _ _ _ Hmt) as (tr & Htr & Hs & _).
  change (md_population (equations_of x s)) with (x_population x) in Htr. rewrite Htr in O. injection O as ->.
  pose proof (same_paid (equations_of x s) (j_rf_prior s) "rf" (chans m) (pt_denominator mt)
    (fun p => adstock_hill_rf (x_cx x) (pt_scaled mt) f p (x_decay_rf x) (x_sat_rf x) None)
    (fun p y => counterfactual_difference_rf (equations_of x s) (pt_counterfactual mt) f y p (x_decay_rf x)) env z) as P.
  cbv beta in P. rewrite Hs in P at 1. specialize (P Hz). destruct P as (r & q & Hq & A & B).
  exists r, [q]. split; [cbn; rewrite Hq; reflexivity|]. split; [intros; apply A|intros; apply B].
Qed.
Lemma same_om : forall y parts, media_part (transform_media (d_organic_media d) (x_organic_media_transformer x))
    (fun m => adstock_hill_media (x_cx x) m (block_params "om" (n_chans (d_organic_media d)) env) (x_decay_organic_media x) (x_sat_organic_media x) None) y = Ok parts ->
  same_block (organic_media_block true x s) (sample_organic_media_priors x s) env (fun l => map fst l = map fst parts).
Proof.
  intros yb parts H. destruct OK as (_ & (_ & _ & O & _) & (_ & F & _) & _). unfold organic_media_block, sample_organic_media_priors. cbv zeta. unfold d in *.
  destruct (d_organic_media (x_data x)) as [m|].
  2:{ assert (H' : Ok (@nil part) = Ok parts) by (destruct (x_organic_media_transformer x); exact H). injection H' as <-.
      exists (Ran []), []. split; [reflexivity|]. split; intros; rewrite seq_nil; reflexivity. }
  destruct (x_organic_media_transformer x) as [t|] eqn:Et; [|contradiction]. cbn [transformer_of] in O.
  rewrite (forward_transform (x_population x) m (Some t) t O F O) in H. cbn [media_part n_chans] in H.
  inv_rbind H z Hz. assert (H' : Ok [(z, yb)] = Ok parts) by exact H. injection H' as <-.
  rewrite O. cbn [lift].
  pose proof (same_organic (equations_of x s) (j_organic_media_prior s) "om" (chans m)
    (fun p => adstock_hill_media (x_cx x) (forward3 t m) p (x_decay_organic_media x) (x_sat_organic_media x) None) env z Hz) as P.
  destruct P as (r & q & Hq & A & B).
  exists r, [q]. split; [cbn; rewrite Hq; reflexivity|]. split; [intros; apply A|intros; apply B].
Qed.
Lemma same_orf : forall y parts, (d_organic_reach d = None \/ j_organic_rf_prior s = j_organic_media_prior s) ->
  rf_part (transform_media (d_organic_reach d) (x_organic_reach_transformer x)) (d_organic_frequency d)
    (fun m f => adstock_hill_rf (x_cx x) m f (block_params "orf" (n_chans (d_organic_reach d)) env) (x_decay_organic_rf x) (x_sat_organic_rf x) None) y = Ok parts ->
  same_block (organic_rf_block true x s) (sample_organic_rf_priors x s) env (fun l => map fst l = map fst parts).
Proof.
  intros yb parts HT H. destruct OK as (_ & (_ & _ & _ & O) & (_ & _ & _ & F) & _). unfold organic_rf_block, sample_organic_rf_priors. cbv zeta. unfold d in *.
  destruct (d_organic_reach (x_data x)) as [m|].
  2:{ assert (H' : Ok (@nil part) = Ok parts) by (destruct (x_organic_reach_transformer x); exact H). injection H' as <-.
      exists (Ran []), []. split; [reflexivity|]. split; intros; rewrite seq_nil; reflexivity. }
  destruct HT as [HT|HT]; [discriminate|]. rewrite HT.
  destruct (x_organic_reach_transformer x) as [t|] eqn:Et; [|contradiction]. cbn [transformer_of] in O.
  rewrite (forward_transform (x_population x) m (Some t) t O F O) in H. cbn [rf_part n_chans] in H.
  destruct (d_organic_frequency (x_data x)) as [f|]; [|discriminate].
  inv_rbind H z Hz. assert (H' : Ok [(z, yb)] = Ok parts) by exact H. injection H' as <-.
  rewrite O. cbn [lift].
  pose proof (same_organic (equations_of x s) (j_organic_media_prior s) "orf" (chans m)
    (fun p => adstock_hill_rf (x_cx x) (forward3 t m) f p (x_decay_organic_rf x) (x_sat_organic_rf x) None) env z Hz) as P.
  destruct P as (r & q & Hq & A & B).
  exists r, [q]. split; [cbn; rewrite Hq; reflexivity|]. split; [intros; apply A|intros; apply B].
Qed.
Lemma same_ctl : same_block (controls_block true x) (sample_controls x) env (fun _ : nat -> nat -> R => True).
Proof.
  unfold controls_block, sample_controls.
  assert (E : match transform_centered (d_controls (x_data x)) (controls_transformer x) with
     | Some c => chans c = n_chans (d_controls (x_data x)) | None => d_controls (x_data x) = None end).
  { unfold transform_centered. destruct (d_controls (x_data x)); [|destruct (controls_transformer x); reflexivity].
    destruct (controls_transformer x); reflexivity. }
  destruct (transform_centered _ _) as [c|].
  2:{ rewrite E. cbn [n_chans Nat.eqb]. exists (Ran []), (fun _ _ => 0%R). split; [exact Logic.I|]. split; intros; rewrite seq_nil; reflexivity. }
  rewrite E. cbv zeta. destruct (Nat.eqb (n_chans (d_controls (x_data x))) 0).
  { exists (Ran []), (fun _ _ => 0%R). split; [exact Logic.I|]. split; intros; rewrite seq_nil; reflexivity. }
  do 3 (match goal with |- same_block (fun k => Yield ?a ?d _) (fun k' => Yield _ _ _) _ _ =>
     refine (same_yield _ a d _ _ _ _ _ _); [exact Logic.I|]; cbv beta end).
  refine (same_det _ _ _ _ _ _ _ _ _ _).
  eexists (Ran []), _. split; [exact Logic.I|]. split; intros; rewrite seq_nil; reflexivity.
Qed.
Lemma same_nm : same_block (non_media_block true x s) (sample_non_media_priors x s) env (fun _ : nat -> nat -> R => True).
Proof.
  unfold non_media_block, sample_non_media_priors. cbv zeta.
  destruct (d_non_media (x_data x)) as [raw|] eqn:Er.
  2:{ exists (Ran []), (fun _ _ => 0%R). split; [exact Logic.I|]. split; intros; rewrite seq_nil; reflexivity. }
  assert (E : exists c, transform_centered (Some raw) (non_media_transformer x) = Some c /\ chans c = chans raw).
  { unfold transform_centered. destruct (non_media_transformer x); eexists; split; reflexivity. }
  destruct E as (c & -> & ->).
  do 2 (match goal with |- same_block (fun k => Yield ?a ?d _) (fun k' => Yield _ _ _) _ _ =>
     refine (same_yield _ a d _ _ _ _ _ _); [exact Logic.I|]; cbv beta end).
  assert (G : forall gamma : nat -> R, same_block (fun k : (nat -> nat -> R) -> gen =>
      deterministic true "gamma_gn" (x_n_geos x) (chans raw) (fun g i => (gamma i + vec (env "xi_n") i * env "gamma_gn_dev" g i)%R)
        (k (contract c (fun g i => (gamma i + vec (env "xi_n") i * env "gamma_gn_dev" g i)%R))))
      (fun k' => Yield "gamma_gn" (DDeterministic (x_n_geos x) (chans raw) (fun g i => (gamma i + vec (env "xi_n") i * env "gamma_gn_dev" g i)%R))
        (fun _ => k')) env (fun _ => True)).
  { intros gamma. refine (same_det _ _ _ _ _ _ _ _ _ _).
    eexists (Ran []), _. split; [exact Logic.I|]. split; intros; rewrite seq_nil; reflexivity. }
  destruct (j_non_media_prior s).
  1-2: apply (same_fail _ ValueError _ _ _ _ (fun _ _ => 0%R)); [exact Logic.I|reflexivity|reflexivity].
  - refine (same_yield _ _ (DPrior (chans raw)) _ _ _ _ _ _); [exact Logic.I|]. cbv beta.
    refine (same_lift _ _ _ _ _ _ _ (fun _ _ => 0%R) Logic.I _). intros b _. unfold calculated.
    refine (same_finite _ _ _ _ _ _ _ (fun _ _ => 0%R) Logic.I _). intros gamma.
    refine (same_det _ _ _ _ _ _ _ _ _ _). apply G.
  - refine (same_yield _ _ (DPrior (chans raw)) _ _ _ _ _ _); [exact Logic.I|]. cbv beta. apply G.
  - apply (same_fail _ ValueError _ _ _ _ (fun _ _ => 0%R)); [exact Logic.I|reflexivity|reflexivity].
Qed.
End Blocks.

Lemma concat_same : forall l l' : list part, map fst l = map fst l' -> forall p, concat_parts l = Ok p ->
  exists p', concat_parts l' = Ok p' /\ fst p' = fst p.
Proof.
  induction l as [|a l IH]; intros [|a' l'] E p H; try discriminate.
  injection E as Ea El. cbn [concat_parts] in *. destruct l as [|b l], l' as [|b' l']; try discriminate.
  - exists a'. split; [reflexivity|]. assert (a = p) by congruence. subst. auto.
  - inv_rbind H q Hq. inv_rbind H m Hm. destruct (IH (b' :: l') El q Hq) as (q' & Hq' & Eq).
    rewrite Hq'. cbn [rbind]. rewrite Eq, <- Ea, Hm. cbn [rbind]. eexists. split; [reflexivity|].
    assert (E : p = (m, append_beta (snd a) (snd q))) by congruence. rewrite E. reflexivity.
Qed.

Definition ynode (x : M_Analyzer.model) (s : spec) (env : string -> value) (y : nat -> nat -> R) : node :=
  mkNode "y" (likelihood_dist x s env y) (env "y").
Lemma agree_lemma : forall x s env, model_ok x -> domains x env ->
  (d_organic_reach (x_data x) = None \/ j_organic_rf_prior s = j_organic_media_prior s) ->
  (exists l l' y, run (joint_dist true x s) env = Ran l /\ run (prior_sampler x s) env = Ran l' /\
     Permutation l (l' ++ [ynode x s env y])) \/
  ((forall l, run (joint_dist true x s) env <> Ran l) /\ (forall l, run (prior_sampler x s) env <> Ran l)).
Proof.
  intros x s env OK D HT.
  set (w := mkDraw (fun _ => 0%R) (fun _ => 0%R)
    (block_params "m" (n_chans (d_media (x_data x))) env) (block_params "rf" (n_chans (d_reach (x_data x))) env)
    (block_params "om" (n_chans (d_organic_media (x_data x))) env) (block_params "orf" (n_chans (d_organic_reach (x_data x))) env)
    (fun _ _ => 0%R) (fun _ _ => 0%R) (fun _ _ => 0%R) (fun _ _ => 0%R) (fun _ _ => 0%R) (fun _ _ => 0%R)).
  assert (Dw : draw_ok x w).
  { destruct D as (D1 & D2 & D3 & D4). unfold draw_ok. cbv zeta. do 4 (split; [intros _; reflexivity|]).
    split; [apply (found_params_ok "m" (d_media (x_data x)) env); [exact D1|reflexivity|reflexivity]|].
    split; [apply (found_params_ok "rf" (d_reach (x_data x)) env); [exact D2|reflexivity|reflexivity]|].
    split; [apply (found_params_ok "om" (d_organic_media (x_data x)) env); [exact D3|reflexivity|reflexivity]|].
    apply (found_params_ok "orf" (d_organic_reach (x_data x)) env); [exact D4|reflexivity|reflexivity]. }
  destruct (transformed_runs x (scale_data_tensors x (fill_missing x no_data true true) true) w (proj1 OK) Dw
     (scale_same _ _ (new_data_same x no_data (no_data_ok x)))) as (p & Hp & _).
  unfold transformed_media_and_beta, scale_data_tensors, fill_missing, no_data, orelse in Hp.
  cbn [d_media d_reach d_frequency d_organic_media d_organic_reach d_organic_frequency] in Hp.
  inv_rbind Hp l1 H1. inv_rbind Hp l2 H2. inv_rbind Hp l3 H3. inv_rbind Hp l4 H4. inv_rbind Hp q Hq. clear Hp.
  destruct (same_m x s env OK _ _ H1) as (r1 & q1 & E1 & A1 & B1).
  destruct (same_rf x s env OK _ _ H2) as (r2 & q2 & E2 & A2 & B2).
  destruct (same_om x s env OK _ _ H3) as (r3 & q3 & E3 & A3 & B3).
  destruct (same_orf x s env OK _ _ HT H4) as (r4 & q4 & E4 & A4 & B4).
  destruct (same_ctl x env) as (r5 & q5 & _ & A5 & B5).
  destruct (same_nm x s env) as (r6 & q6 & _ & A6 & B6).
  set (kn := mkNode "knot_values" (DPrior (j_knots s)) (env "knot_values")).
  set (sg := mkNode "sigma" (DPrior (j_sigmas s)) (env "sigma")).
  set (te := mkNode "tau_g_excl_baseline" (DPrior (x_n_geos x - 1)) (env "tau_g_excl_baseline")).
  set (tn := mkNode "tau_g" (DDeterministic 1 (x_n_geos x) (of_vec (tau_of x s env))) (of_vec (tau_of x s env))).
  set (mn := mkNode "mu_t" (DDeterministic 1 (x_n_times x) (of_vec (mu_of s env))) (of_vec (mu_of s env))).
  assert (RP : run (prior_sampler x s) env = seq_run (Ran [te; kn; sg; tn; mn])
      (seq_run r5 (seq_run r1 (seq_run r2 (seq_run r3 (seq_run r4 (seq_run r6 (Ran [])))))))).
  { unfold prior_sampler, sample_base. cbv zeta. rewrite !run_y by exact Logic.I. rewrite !run_d.
    rewrite B5, B1, B2, B3, B4, B6. cbn [run]. unfold te, kn, sg, tn, mn, tau_of, mu_of, get_tau_g, compute_tau_g.
    destruct (seq_run r5 _); reflexivity. }
  assert (RJ : exists y, run (joint_dist true x s) env = seq_run (Ran [kn; sg; te; tn; mn])
      (seq_run r1 (seq_run r2 (seq_run r3 (seq_run r4 (seq_run r5 (seq_run r6 (Ran [ynode x s env y])))))))).
  { unfold joint_dist. cbv zeta.
    assert (C : exists media, forall k, run (combine_media (q1 ++ q2 ++ q3 ++ q4) k) env = run (k media) env).
    { unfold combine_media, part in *. destruct (q1 ++ q2 ++ q3 ++ q4) as [|a r] eqn:Eq.
      - eexists. intros k. reflexivity.
      - destruct (concat_same (l1 ++ l2 ++ l3 ++ l4) (a :: r)) with (p := q) as (p' & Hp' & _); [|exact Hq|].
        + rewrite <- Eq, !map_app, E1, E2, E3, E4. reflexivity.
        + unfold part in *. rewrite Hp'. cbn [lift]. eexists. intros k. reflexivity. }
    destruct C as (media & C).
    exists (fun g t =>
       (nth g (compute_tau_g (entries (x_n_geos x - 1) (env "tau_g_excl_baseline")) (j_baseline_geo_idx s)) 0
         + rsum (j_knots s) (fun i => vec (env "knot_values") i * j_weights s i t) + media g t + q5 g t + q6 g t)%R).
    rewrite !run_y by exact Logic.I. rewrite !run_d2.
    rewrite A1, A2, A3, A4, C, A5, A6. unfold likelihood_node. cbv zeta.
    match goal with |- context [seq_run r6 ?z] => replace z with (Ran [ynode x s env (fun g t =>
       (nth g (compute_tau_g (entries (x_n_geos x - 1) (env "tau_g_excl_baseline")) (j_baseline_geo_idx s)) 0
         + rsum (j_knots s) (fun i => vec (env "knot_values") i * j_weights s i t) + media g t + q5 g t + q6 g t)%R)]) end.
    2:{ unfold ynode, likelihood_dist. destruct (j_holdout s); reflexivity. }
    unfold te, kn, sg, tn, mn, tau_of, mu_of. generalize (seq_run r1 (seq_run r2 (seq_run r3 (seq_run r4 (seq_run r5 (seq_run r6 (Ran [ynode x s env (fun g t =>
       (nth g (compute_tau_g (entries (x_n_geos x - 1) (env "tau_g_excl_baseline")) (j_baseline_geo_idx s)) 0
         + rsum (j_knots s) (fun i => vec (env "knot_values") i * j_weights s i t) + media g t + q5 g t + q6 g t)%R)]))))))). intros z. destruct z; reflexivity. }
  destruct RJ as (y & RJ). rewrite RP, RJ.
  destruct r1 as [n1|e1|]; [|right; split; intros; cbn; destruct r5; discriminate..].
  destruct r2 as [n2|e2|]; [|right; split; intros; cbn; destruct r5; discriminate..].
  destruct r3 as [n3|e3|]; [|right; split; intros; cbn; destruct r5; discriminate..].
  destruct r4 as [n4|e4|]; [|right; split; intros; cbn; destruct r5; discriminate..].
  destruct r5 as [n5|e5|]; [|right; split; intros; cbn; discriminate..].
  destruct r6 as [n6|e6|]; [|right; split; intros; cbn; discriminate..].
  left. cbn [seq_run]. eexists _, _, y. split; [reflexivity|]. split; [reflexivity|].
  rewrite app_nil_r, <- !app_assoc. 
  apply (Permutation_trans (l' := [te; kn; sg; tn; mn] ++ n1 ++ n2 ++ n3 ++ n4 ++ n5 ++ n6 ++ [ynode x s env y])).
  { apply Permutation_app_tail. apply Permutation_sym. apply (perm_trans (l' := [kn; te; sg; tn; mn])); [constructor|].
    constructor. constructor. }
  apply Permutation_app_head. rewrite !app_assoc. do 2 apply Permutation_app_tail.
  rewrite <- !app_assoc. rewrite (app_assoc n1), (app_assoc (n1 ++ n2)), (app_assoc ((n1 ++ n2) ++ n3)).
  rewrite <- !app_assoc. rewrite !(app_assoc _ _ n5). rewrite <- !app_assoc.
  replace (n5 ++ n1 ++ n2 ++ n3 ++ n4) with (n5 ++ (n1 ++ n2 ++ n3 ++ n4)) by reflexivity.
  replace (n1 ++ n2 ++ n3 ++ n4 ++ n5) with ((n1 ++ n2 ++ n3 ++ n4) ++ n5) by (rewrite <- !app_assoc; reflexivity).
  apply Permutation_app_comm.
Qed.

(** Names of the requests of a coroutine are new, whatever the values. *)
Fixpoint fresh (g : gen) (used : list string) : Prop :=
  match g with
  | Yield name _ k => ~ List.In name used /\ forall v, fresh (k v) (name :: used)
  | _ => True
  end.
Lemma fresh_incl : forall g u u', (forall a, List.In a u' -> List.In a u) -> fresh g u -> fresh g u'.
Proof.
  induction g as [| | |name d k IH]; intros u u' H F; cbn [fresh] in *; auto.
  destruct F as [F1 F2]. split; [auto|]. intros v. apply (IH v (name :: u)); auto.
  intros a [->|Ha]; [left; reflexivity|right; auto].
Qed.
Definition unused (l used : list string) : bool := forallb (fun n => negb (existsb (String.eqb n) used)) l.
Lemma unused_In : forall l used n, unused l used = true -> List.In n l -> ~ List.In n used.
Proof.
  intros l used n H Hn Hu. unfold unused in H. rewrite forallb_forall in H. specialize (H n Hn).
  apply negb_true_iff in H. assert (E : existsb (String.eqb n) used = true).
  { apply existsb_exists. exists n. split; [exact Hu|apply String.eqb_refl]. } congruence.
Qed.
Definition kind_names (sfx : string) : list string :=
  map (fun a => String.append a sfx) ["alpha_"; "ec_"; "eta_"; "slope_"; "beta_"; "roi_"; "mroi_"; "contribution_"; "beta_g"]
  ++ [String.append "beta_g" (String.append sfx "_dev")].
Ltac new_name U :=
  lazymatch goal with |- ~ List.In ?a (?b :: ?l) => intros [Hn|Hn]; [discriminate Hn|revert Hn; change (~ List.In a l); new_name U]
  | |- ~ List.In _ _ => apply (unused_In _ _ _ U); cbn; tauto end.
Ltac fresh_steps U F :=
  lazymatch goal with
  | |- fresh (Yield _ _ _) _ => split; [new_name U|intros ?; cbv beta; fresh_steps U F]
  | |- fresh (Raise _) _ => exact Logic.I
  | |- fresh NonFinite _ => exact Logic.I
  | |- fresh (lift ?r _) _ => destruct r; cbn [lift]; fresh_steps U F
  | |- fresh (calculated _ _ _ _ _ _ _ _ _) _ => unfold calculated; fresh_steps U F
  | |- fresh (finite _ ?b _) _ => unfold finite; destruct (forallb _ _); cbv beta; fresh_steps U F
  | |- fresh (match ?o with _ => _ end) _ => destruct o; cbv beta iota; fresh_steps U F
  | |- fresh _ _ => refine (fresh_incl _ _ _ _ F); cbn; intros ?; tauto
  end.
Section Fresh.
Variables (x : M_Analyzer.model) (s : spec).
Ltac block := intros k used U F; 
  unfold sample_media_priors, sample_rf_priors, sample_organic_media_priors, sample_organic_rf_priors, sample_non_media_priors,
    sample_controls, sample_base, media_parameters, paid_prior, organic_prior, geo_coefficients; cbv zeta; cbn [String.append];
  fresh_steps U F.
Lemma fresh_m : forall k used, unused (kind_names "m") used = true -> fresh k (kind_names "m" ++ used) ->
  fresh (sample_media_priors x s k) used.
Proof. block. Qed.
Lemma fresh_rf : forall k used, unused (kind_names "rf") used = true -> fresh k (kind_names "rf" ++ used) ->
  fresh (sample_rf_priors x s k) used.
Proof. block. Qed.
Lemma fresh_om : forall k used, unused (kind_names "om") used = true -> fresh k (kind_names "om" ++ used) ->
  fresh (sample_organic_media_priors x s k) used.
Proof. block. Qed.
Lemma fresh_orf : forall k used, unused (kind_names "orf") used = true -> fresh k (kind_names "orf" ++ used) ->
  fresh (sample_organic_rf_priors x s k) used.
Proof. block. Qed.
Definition nm_names := ["xi_n"; "gamma_gn_dev"; "gamma_n"; "contribution_n"; "gamma_gn"].
Lemma fresh_nm : forall k used, unused nm_names used = true -> fresh k (nm_names ++ used) ->
  fresh (sample_non_media_priors x s k) used.
Proof. block. Qed.
Definition ctl_names := ["gamma_c"; "xi_c"; "gamma_gc_dev"; "gamma_gc"].
Lemma fresh_ctl : forall k used, unused ctl_names used = true -> fresh k (ctl_names ++ used) ->
  fresh (sample_controls x k) used.
Proof. block. Qed.
Definition base_names := ["tau_g_excl_baseline"; "knot_values"; "sigma"; "tau_g"; "mu_t"].
Lemma fresh_base : forall k used, unused base_names used = true -> fresh k (base_names ++ used) ->
  fresh (sample_base x s k) used.
Proof. block. Qed.
Lemma fresh_prior : fresh (prior_sampler x s) ["y"].
Proof.
  unfold prior_sampler. apply fresh_base; [reflexivity|]. apply fresh_ctl; [reflexivity|]. apply fresh_m; [reflexivity|].
  apply fresh_rf; [reflexivity|]. apply fresh_om; [reflexivity|]. apply fresh_orf; [reflexivity|]. apply fresh_nm; [reflexivity|].
  exact Logic.I.
Qed.
End Fresh.

Lemma seeded_names : forall g used rnd i l, fresh g used -> run_seeded g rnd i = Ran l ->
  NoDup (map nd_name l) /\ forall a, List.In a (map nd_name l) -> ~ List.In a used.
Proof.
  induction g as [| | |name d k IH]; intros used rnd i l F H; cbn [run_seeded] in H; try discriminate.
  { injection H as <-. split; [constructor|]. intros a []. }
  destruct F as [F1 F2]. cbv zeta in H. set (v := match d with DDeterministic _ _ u => u | _ => rnd name i end) in H.
  destruct (run_seeded (k v) rnd (S i)) as [l'|e|] eqn:E; cbn [add_node] in H; try discriminate. injection H as <-.
  destruct (IH v _ _ _ _ (F2 v) E) as [N D]. cbn [map nd_name]. split.
  - constructor; [|exact N]. intros Hin. apply (D _ Hin). left; reflexivity.
  - intros a [<-|Ha]; [exact F1|]. intros Hu. apply (D _ Ha). right; exact Hu.
Qed.
Lemma seeded_values : forall g rnd i l, run_seeded g rnd i = Ran l ->
  forall j n, nth_error l j = Some n -> nd_value n = match nd_dist n with DDeterministic _ _ u => u | _ => rnd (nd_name n) (i + j) end.
Proof.
  induction g as [| | |name d k IH]; intros rnd i l H j n Hn; cbn [run_seeded] in H; try discriminate.
  { injection H as <-. destruct j; discriminate. }
  cbv zeta in H. set (v := match d with DDeterministic _ _ u => u | _ => rnd name i end) in H.
  destruct (run_seeded (k v) rnd (S i)) as [l'|e|] eqn:E; cbn [add_node] in H; try discriminate. injection H as <-.
  destruct j as [|j]; cbn [nth_error] in Hn.
  - injection Hn as <-. cbn [nd_value nd_dist nd_name]. rewrite Nat.add_0_r. reflexivity.
  - rewrite (IH v _ _ _ E j n Hn). rewrite Nat.add_succ_r. reflexivity.
Qed.
Lemma seeded_run : forall g rnd i l env, run_seeded g rnd i = Ran l ->
  (forall n, List.In n l -> env (nd_name n) = nd_value n) -> run g env = Ran l.
Proof.
  induction g as [| | |name d k IH]; intros rnd i l env H He; cbn [run_seeded run] in *; try discriminate; [exact H|].
  cbv zeta in H. set (v := match d with DDeterministic _ _ u => u | _ => rnd name i end) in H.
  destruct (run_seeded (k v) rnd (S i)) as [l'|e|] eqn:E; cbn [add_node] in H; try discriminate. injection H as <-.
  assert (Ev : env name = v) by (apply (He (mkNode name d v)); left; reflexivity).
  assert (Ek : run (k v) env = Ran l') by (apply (IH v rnd (S i)); [exact E|intros n Hn; apply He; right; exact Hn]).
  subst v. destruct d; rewrite ?Ev, Ek; reflexivity.
Qed.
Lemma value_in : forall l n, NoDup (map nd_name l) -> List.In n l -> node_value (nd_name n) l = nd_value n.
Proof.
  induction l as [|a l IH]; intros n N Hin; [destruct Hin|]. cbn [map] in N. inversion N as [|? ? Na Nl]; subst.
  unfold node_value. cbn [find]. destruct (String.eqb (nd_name a) (nd_name n)) eqn:E.
  - apply String.eqb_eq in E. destruct Hin as [->|Hin]; [reflexivity|]. exfalso. apply Na. rewrite E. apply in_map. exact Hin.
  - destruct Hin as [->|Hin]; [rewrite String.eqb_refl in E; discriminate|]. apply (IH n Nl Hin).
Qed.
Lemma value_out : forall l a, ~ List.In a (map nd_name l) -> node_value a l = fun _ _ => 0%R.
Proof.
  induction l as [|b l IH]; intros a H; [reflexivity|]. unfold node_value. cbn [find]. cbn [map] in H.
  destruct (String.eqb (nd_name b) a) eqn:E; [apply String.eqb_eq in E; exfalso; apply H; left; exact E|].
  apply IH. intros Hin. apply H. right. exact Hin.
Qed.
Lemma value_perm : forall l l' a, NoDup (map nd_name l') -> Permutation l l' -> node_value a l = node_value a l'.
Proof.
  intros l l' a N P. assert (N' : NoDup (map nd_name l)) by (apply (Permutation_NoDup (l := map nd_name l')); [apply Permutation_map, Permutation_sym, P|exact N]).
  destruct (in_dec string_dec a (map nd_name l)) as [Hin|Hout].
  - apply in_map_iff in Hin as (n & <- & Hn). rewrite (value_in l n N' Hn). symmetry. apply value_in; [exact N|].
    apply (Permutation_in n P Hn).
  - rewrite (value_out l a Hout). symmetry. apply value_out. intros H. apply Hout.
    apply (Permutation_in a (Permutation_sym (Permutation_map nd_name P)) H).
Qed.
Lemma value_last : forall l y a, a <> nd_name y -> node_value a (l ++ [y]) = node_value a l.
Proof.
  induction l as [|b l IH]; intros y a H; unfold node_value in *; cbn [app find].
  - destruct (String.eqb (nd_name y) a) eqn:E; [apply String.eqb_eq in E; congruence|reflexivity].
  - destruct (String.eqb (nd_name b) a); [reflexivity|]. apply IH. exact H.
Qed.


Lemma seeds_lemma : forall x s rnd l, sample_prior x s rnd = Ran l ->
  NoDup (map nd_name l) /\
  (forall i n, nth_error l i = Some n -> sampled n = true -> nd_value n = rnd (nd_name n) i) /\
  run (prior_sampler x s) (drawn l) = Ran l.
Proof.
  intros x s rnd l H. destruct (seeded_names _ _ _ _ _ (fresh_prior x s) H) as [N D]. split; [exact N|]. split.
  - intros i n Hn Hs. rewrite (seeded_values _ _ _ _ H i n Hn). unfold sampled in Hs. destruct (nd_dist n); try discriminate; reflexivity.
  - apply (seeded_run _ rnd 0 l _ H). intros n Hn. apply (value_in l n N Hn).
Qed.

Lemma kseg_latents : forall md sfx pt o env b,
  map latent_of (filter sampled (kseg md sfx pt o env b)) = media_latents (md_geos md) o pt sfx.
Proof. intros md sfx pt [m|] env b; [|reflexivity]. destruct pt; reflexivity. Qed.
Lemma latents_nodes : forall x s env b1 b2 b3 b4 gamma y,
  map latent_of (filter sampled (all_nodes x s env b1 b2 b3 b4 gamma y)) = latents x s ++ [Drawn "y" 0].
Proof.
  intros. unfold all_nodes, latents. cbv zeta. rewrite !filter_app, !map_app, !kseg_latents, <- !app_assoc.
  change (md_geos (equations_of x s)) with (x_n_geos x).
  assert (C : map latent_of (filter sampled (control_nodes x env (gc_of env))) =
    if Nat.eqb (n_chans (d_controls (x_data x))) 0 then [] else
      [Drawn "gamma_c" (n_chans (d_controls (x_data x))); Drawn "xi_c" (n_chans (d_controls (x_data x)));
       Deviations "gamma_gc_dev" (x_n_geos x) (n_chans (d_controls (x_data x)))]).
  { unfold control_nodes. destruct (Nat.eqb _ 0); reflexivity. }
  assert (M : map latent_of (filter sampled (non_media_nodes x s env gamma (gn_of env gamma))) =
    match d_non_media (x_data x) with
      | None => []
      | Some n => [Drawn "xi_n" (chans n); Deviations "gamma_gn_dev" (x_n_geos x) (chans n);
                   Drawn (match j_non_media_prior s with
                              | PtContribution => "contribution_n" | _ => "gamma_n" end) (chans n)]
      end).
  { unfold non_media_nodes. destruct (d_non_media _); [|reflexivity]. destruct (j_non_media_prior s); reflexivity. }
  rewrite C, M. unfold likelihood_dist. destruct (j_holdout s); reflexivity.
Qed.
Lemma filter_perm : forall A (l l' : list A) f, Permutation l l' -> Permutation (filter f l) (filter f l').
Proof.
  intros A l l' f P. induction P; cbn [filter].
  - constructor.
  - destruct (f x); [constructor; exact IHP|exact IHP].
  - destruct (f x), (f y); try reflexivity. constructor.
  - exact (Permutation_trans IHP1 IHP2).
Qed.
Lemma NoDup_app_one : forall A (l : list A) a, NoDup l -> ~ List.In a l -> NoDup (l ++ [a]).
Proof. intros A l a N H. apply (Permutation_NoDup (l := a :: l)); [apply Permutation_cons_append|]. constructor; assumption. Qed.
Lemma prior_lemma : forall x s rnd l, model_ok x -> latents_ok x s (drawn l) -> j_baseline_geo_idx s < x_n_geos x ->
  (d_organic_reach (x_data x) = None \/ j_organic_rf_prior s = j_organic_media_prior s) ->
  sample_prior x s rnd = Ran l ->
  Permutation (map latent_of (filter sampled l)) (latents x s) /\
  saved_from x s (drawn l) (saved_draw x l) /\ draw_ok x (saved_draw x l) /\
  exists lp, run (joint_dist true x s) (pin x s (drawn l)) = Ran lp /\ Permutation (saved lp) (saved l).
Proof.
  intros x s rnd l OK HL Hb HT H. destruct (seeds_lemma _ _ _ _ H) as (N & _ & R).
  destruct (seeded_names _ _ _ _ _ (fresh_prior x s) H) as [_ D].
  pose proof (domains_pin x s (drawn l) HL) as HD.
  assert (Rp : run (prior_sampler x s) (pin x s (drawn l)) = Ran l).
  { apply (seeded_run _ rnd 0 l _ H). intros n Hn. rewrite pin_other; [apply (value_in l n N Hn)|].
    apply String.eqb_neq. intros E. apply (D (nd_name n)); [apply in_map; exact Hn|]. rewrite E. left. reflexivity. }
  destruct (agree_lemma x s (pin x s (drawn l)) OK HD HT) as [(lp & l' & y & Ej & Ep & P)|(_ & C)]; [|destruct (C l Rp)].
  rewrite Rp in Ep. injection Ep as <-.
  assert (V : forall a, a <> "y" -> node_value a lp = node_value a l).
  { intros a Ha. rewrite (value_perm lp (l ++ [ynode x s (pin x s (drawn l)) y]) a).
    - apply value_last. exact Ha.
    - rewrite map_app. apply NoDup_app_one; [exact N|]. intros Hin. apply (D _ Hin). left. reflexivity.
    - exact P. }
  assert (SD : saved_draw x lp = saved_draw x l).
  { unfold saved_draw, params_of. cbn [String.append]. rewrite !V by discriminate. reflexivity. }
  split; [|split; [|split]].
  - destruct (run_joint _ _ _ _ OK Ej) as (b1 & b2 & b3 & b4 & gamma & l1 & l2 & l3 & l4 & y' & El & _).
    assert (Q : Permutation (map latent_of (filter sampled lp)) (latents x s ++ [Drawn "y" 0])).
    { subst lp. rewrite latents_nodes. reflexivity. }
    assert (Q' : Permutation (map latent_of (filter sampled lp)) (map latent_of (filter sampled l) ++ [Drawn "y" 0])).
    { rewrite (filter_perm _ _ _ sampled P). rewrite filter_app, map_app. apply Permutation_app_head. 
      unfold ynode, likelihood_dist. destruct (j_holdout s); reflexivity. }
    apply (Permutation_app_inv_r [Drawn "y" 0]). apply (Permutation_trans (Permutation_sym Q') Q).
  - rewrite <- SD. apply saved_lemma; assumption.
  - rewrite <- SD. apply (usable_lemma x s (drawn l)); assumption.
  - exists lp. split; [exact Ej|]. unfold saved. apply Permutation_map.
    rewrite (filter_perm _ _ _ _ P), filter_app. cbn [filter nd_name ynode]. cbn. rewrite app_nil_r. reflexivity.
Qed.

Lemma seeded_env : forall g env i, run_seeded g (fun name _ => env name) i = run g env.
Proof.
  induction g as [| | |name d k IH]; intros env i; cbn [run_seeded run]; try reflexivity.
  cbv zeta. rewrite IH. destruct d; reflexivity.
Qed.
Lemma run_agree : forall g env env' l, (forall n, List.In n l -> sampled n = true -> env' (nd_name n) = env (nd_name n)) ->
  run g env = Ran l -> run g env' = Ran l.
Proof.
  induction g as [| | |name d k IH]; intros env env' l H E; cbn [run] in *; try discriminate; [exact E|].
  destruct d as [a|a b|a b u|a b u w]; cbv zeta in *;
    match goal with HH : add_node _ ?r = Ran l |- _ => destruct r as [l'|e|] eqn:Er; cbn [add_node] in HH; try discriminate; injection HH as <- end.
  1,2,4: pose proof (H _ (or_introl eq_refl) eq_refl) as En; cbn [nd_name] in En; rewrite En;
    rewrite (IH _ env env' l' (fun n Hn => H n (or_intror Hn)) Er); reflexivity.
  rewrite (IH _ env env' l' (fun n Hn => H n (or_intror Hn)) Er); reflexivity.
Qed.
Lemma run_values : forall g env l, run g env = Ran l -> forall n, List.In n l -> sampled n = true -> nd_value n = env (nd_name n).
Proof.
  induction g as [| | |name d k IH]; intros env l E n Hn Hs; cbn [run] in *; try discriminate.
  { injection E as <-. destruct Hn. }
  cbv zeta in *. match goal with HH : add_node _ ?r = Ran l |- _ => destruct r as [l'|e|] eqn:Er; cbn [add_node] in HH; try discriminate; injection HH as <- end.
  destruct Hn as [<-|Hn]; [|apply (IH _ _ _ Er n Hn Hs)]. unfold sampled in Hs. cbn [nd_dist nd_value nd_name] in *.
  destruct d; try discriminate; reflexivity.
Qed.
Lemma seeded_is_env : forall x s env l, sample_prior x s (fun name _ => env name) = Ran l <-> run (prior_sampler x s) env = Ran l.
Proof. intros. unfold sample_prior. rewrite seeded_env. reflexivity. Qed.
Lemma prior_not_y : forall x s env l n, run (prior_sampler x s) env = Ran l -> List.In n l -> nd_name n <> "y".
Proof.
  intros x s env l n H Hn E. destruct (seeded_names _ _ _ _ _ (fresh_prior x s) (proj2 (seeded_is_env x s env l) H)) as [_ D].
  apply (D (nd_name n)); [apply in_map; exact Hn|]. rewrite E. left. reflexivity.
Qed.
Lemma prior_pin : forall x s env l, run (prior_sampler x s) (pin x s env) = Ran l <-> run (prior_sampler x s) env = Ran l.
Proof.
  intros x s env l. split; intros H; refine (run_agree _ _ _ _ _ H); intros n Hn _;
    rewrite (pin_other x s env) by (apply String.eqb_neq; exact (prior_not_y _ _ _ _ n H Hn)); reflexivity.
Qed.
Lemma env_latents : forall x s env l, model_ok x -> latents_ok x s env ->
  (d_organic_reach (x_data x) = None \/ j_organic_rf_prior s = j_organic_media_prior s) ->
  run (prior_sampler x s) env = Ran l -> Permutation (map latent_of (filter sampled l)) (latents x s).
Proof.
  intros x s env l OK HL HT H. apply prior_pin in H.
  destruct (agree_lemma x s _ OK (domains_pin x s env HL) HT) as [(lp & l' & y & Ej & Ep & P)|(_ & C)]; [|destruct (C l H)].
  rewrite H in Ep. injection Ep as <-.
  destruct (run_joint _ _ _ _ OK Ej) as (b1 & b2 & b3 & b4 & gamma & l1 & l2 & l3 & l4 & y' & El & _).
  assert (Q : Permutation (map latent_of (filter sampled lp)) (latents x s ++ [Drawn "y" 0])).
  { subst lp. rewrite latents_nodes. reflexivity. }
  assert (Q' : Permutation (map latent_of (filter sampled lp)) (map latent_of (filter sampled l) ++ [Drawn "y" 0])).
  { rewrite (filter_perm _ _ _ sampled P). rewrite filter_app, map_app. apply Permutation_app_head. 
    unfold ynode, likelihood_dist. destruct (j_holdout s); reflexivity. }
  apply (Permutation_app_inv_r [Drawn "y" 0]). apply (Permutation_trans (Permutation_sym Q') Q).
Qed.
Lemma drawn_latents_ok : forall x s env l, model_ok x -> latents_ok x s env ->
  (d_organic_reach (x_data x) = None \/ j_organic_rf_prior s = j_organic_media_prior s) ->
  run (prior_sampler x s) env = Ran l -> latents_ok x s (drawn l).
Proof.
  intros x s env l OK HL HT H. pose proof (env_latents x s env l OK HL HT H) as P.
  destruct (seeds_lemma _ _ _ _ (proj2 (seeded_is_env x s env l) H)) as (N & _ & _).
  assert (E : forall a n, List.In (Drawn a n) (latents x s) -> forall i, entry (drawn l) a i = entry env a i).
  { intros a n Hin i. apply (Permutation_in _ (Permutation_sym P)) in Hin. apply in_map_iff in Hin as (m & Em & Hm).
    apply filter_In in Hm as [Hm Hs]. assert (nd_name m = a) by (unfold latent_of in Em; destruct (nd_dist m); congruence). subst a.
    unfold entry, drawn. rewrite (value_in l m N Hm), (run_values _ _ _ H m Hm Hs). reflexivity. }
  unfold latents in E. cbv zeta in E.
  destruct HL as (H1 & H2 & H3 & H4 & H5 & H6).
  assert (K : forall o sfx, in_domain o sfx env ->
    (forall m, o = Some m -> forall pre, List.In pre ["alpha_"; "ec_"; "slope_"] -> forall i, entry (drawn l) (String.append pre sfx) i = entry env (String.append pre sfx) i) ->
    in_domain o sfx (drawn l)).
  { intros [m|] sfx D Hm; [|exact Logic.I]. intros c Hc. rewrite !(Hm m eq_refl) by (cbn; auto). apply D. exact Hc. }
  repeat split; auto.
  - apply K; [exact H1|]. intros m Em pre Hpre i. apply (E _ (chans m)). rewrite Em. rewrite !in_app_iff. right; left.
    cbn in Hpre |- *. destruct Hpre as [<-|[<-|[<-|[]]]]; cbn; auto.
  - apply K; [exact H2|]. intros m Em pre Hpre i. apply (E _ (chans m)). rewrite Em. rewrite !in_app_iff. right; right; left.
    cbn in Hpre |- *. destruct Hpre as [<-|[<-|[<-|[]]]]; cbn; auto.
  - apply K; [exact H3|]. intros m Em pre Hpre i. apply (E _ (chans m)). rewrite Em. rewrite !in_app_iff. right; right; right; left.
    cbn in Hpre |- *. destruct Hpre as [<-|[<-|[<-|[]]]]; cbn; auto.
  - apply K; [exact H4|]. intros m Em pre Hpre i. apply (E _ (chans m)). rewrite Em. rewrite !in_app_iff. right; right; right; right; left.
    cbn in Hpre |- *. destruct Hpre as [<-|[<-|[<-|[]]]]; cbn; auto.
  - intros i Hi. rewrite (E "sigma" (j_sigmas s)); [auto|]. rewrite !in_app_iff. left. cbn. auto.
Qed.
