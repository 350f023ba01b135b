(** Proofs about stored draws. *)
From Coq Require Import String Reals ZArith Lia List Bool Arith Permutation.
From Verif Require Import Lib_Sum M_Base M_AdstockHill M_Equations M_Transformers M_Aggregate
  S_Aggregate S_Adstock S_Media S_Analyzer S_Predictor S_Sampler M_Priors M_Sampler M_Analyzer
  M_Joint S_Joint P_Joint M_PriorDraws S_PriorDraws P_PriorDraws C_PriorDraws M_Restore S_Restore.
Import ListNotations.
Local Open Scope string_scope.
Local Open Scope R_scope.
Local Open Scope nat_scope.
Local Open Scope list_scope.

Definition labels (coords : list (string * list label)) (d : string) : list label :=
  match assoc d coords with Some l => l | None => [] end.
Definition fits (coords : list (string * list label)) (d : string) (n : nat) : Prop :=
  exists l, assoc d coords = Some l /\ length l = n.

Lemma axes_run : forall coords ds shp, Forall2 (fits coords) ds shp ->
  label_axes coords ds shp = Ok (map (fun d => (d, labels coords d)) ds).
Proof.
  intros coords ds shp H. induction H as [|d n ds ns (l & E & L) H IH]; [reflexivity|].
  cbn [label_axes map]. unfold labels at 1. rewrite E. rewrite L, Nat.eqb_refl. rewrite IH. reflexivity.
Qed.

Definition dims_of (dims : list (string * list string)) (name : string) : list string :=
  match assoc name dims with Some d => d | None => ["chain"; "draw"] end.

Lemma convert_run : forall coords dims vars,
  (forall v, In v vars -> Forall2 (fits coords) (dims_of dims (fst v)) (snd v)) ->
  convert coords dims vars =
  Ok (mkGroup (map (fun v => (fst v, dims_of dims (fst v))) vars)
        (concat (map (fun v => map (fun d => (d, labels coords d)) (dims_of dims (fst v))) vars))).
Proof.
  intros coords dims vars H. unfold convert.
  assert (E : mapM (fun v : string * list nat =>
           rbind (label_axes coords (match assoc (fst v) dims with Some d => d | None => ["chain"; "draw"] end) (snd v))
             (fun r => Ok (fst v, r))) vars
     = Ok (map (fun v => (fst v, map (fun d => (d, labels coords d)) (dims_of dims (fst v)))) vars)).
  { induction vars as [|v r IH]; [reflexivity|]. cbn [mapM map].
    change (match assoc (fst v) dims with Some d => d | None => ["chain"; "draw"] end) with (dims_of dims (fst v)).
    rewrite (axes_run coords _ _ (H v (or_introl eq_refl))). cbn [rbind].
    rewrite IH by (intros w Hw; apply H; right; exact Hw). reflexivity. }
  rewrite E. cbn [rbind]. f_equal. f_equal.
  - rewrite map_map. apply map_ext. intros v. cbn [fst snd]. rewrite map_map. cbn [fst]. rewrite map_id. reflexivity.
  - f_equal. rewrite map_map. apply map_ext. reflexivity.
Qed.

Lemma in_coords : forall coords dims (vars : list (string * list nat)) d l,
  In (d, l) (concat (map (fun v => map (fun d => (d, labels coords d)) (dims_of dims (fst v))) vars)) <->
  l = labels coords d /\ exists v, In v vars /\ In d (dims_of dims (fst v)).
Proof.
  intros coords dims vars d l. split.
  - intros H. apply in_concat in H. destruct H as (y & Hy & H). apply in_map_iff in Hy. destruct Hy as (v & <- & Hv).
    apply in_map_iff in H. destruct H as (d' & E & Hd). injection E as -> <-. split; [reflexivity|]. exists v. auto.
  - intros (-> & v & Hv & Hd). apply in_concat. eexists. split; [apply in_map_iff; exists v; split; [reflexivity|exact Hv]|].
    apply in_map_iff. exists d. auto.
Qed.

(** ** Nodes that can be stored *)
Section Store.
Variables (x : M_Analyzer.model) (nm : names) (s : spec) (unique : bool) (n_chains n_draws : nat).
Let coords := create_coords x nm (j_knots s) n_chains n_draws.
Hypothesis Hnames : names_ok x nm.
Hypothesis Hnoise : noise_ok x s unique.
Hypothesis Htimes : length (x_time x) = x_n_times x.

Definition node_fits (n : node) : Prop :=
  exists ds, assoc (nd_name n) (create_dims unique) = Some ("chain" :: "draw" :: ds) /\
    Forall2 (fits coords) ds (node_shape unique n) /\ stands_for x nm s unique (nd_name n) (map (labels coords) ds).

Definition required : list string :=
  ["knot_values"; "tau_g"; "mu_t"]
  ++ (match d_media (x_data x) with Some _ => ["alpha_m"] | None => [] end)
  ++ (match d_reach (x_data x) with Some _ => ["alpha_rf"] | None => [] end)
  ++ (match d_organic_media (x_data x) with Some _ => ["alpha_om"] | None => [] end)
  ++ (match d_organic_reach (x_data x) with Some _ => ["alpha_orf"] | None => [] end)
  ++ (if Nat.eqb (n_chans (d_controls (x_data x))) 0 then [] else ["gamma_c"])
  ++ (match d_non_media (x_data x) with Some _ => ["xi_n"] | None => [] end).

Definition good (l : list node) : Prop :=
  (forall n, In n l -> unsaved (nd_name n) = false -> node_fits n) /\
  (forall c, In c required -> In c (map nd_name l)).

Definition kind_data (k : media_kind) : option T3 :=
  let d := x_data x in
  match k with Media => d_media d | Rf => d_reach d | OrganicMedia => d_organic_media d | OrganicRf => d_organic_reach d end.
Definition allowed (k : media_kind) (pt : prior_type) : Prop :=
  match k with
  | Media | Rf => pt <> PtOther
  | _ => pt = PtCoefficient \/ pt = PtContribution
  end.

Lemma named_some : forall o y, named o (Some y) -> exists l, o = Some l /\ length l = chans y.
Proof. intros [l|] y H; [exists l; auto|destruct H]. Qed.
Lemma names_length : forall o t, named o t -> length (of_names o) = n_chans t.
Proof. intros [l|] [y|] H; cbn in *; try tauto. rewrite map_length. exact H. Qed.

Lemma kind_names : forall k, length (channels_of nm k) = n_chans (kind_data k).
Proof.
  destruct Hnames as (_ & _ & A & B & C & D).
  intros []; unfold channels_of, kind_data; cbv zeta; apply names_length; assumption.
Qed.
Lemma geo_length : length (map LName (x_geo x)) = x_n_geos x.
Proof. rewrite map_length. reflexivity. Qed.

Ltac channel k p := refine (sf_channel x nm s unique k p _); cbn; tauto.
Ltac one_kind k := first
  [ channel k "alpha_" | channel k "ec_" | channel k "eta_" | channel k "slope_" | channel k "beta_"
  | channel k "roi_" | channel k "mroi_" | channel k "contribution_" | exact (sf_geo_channel x nm s unique k) ].

Lemma kind_node_fits : forall k pt y env beta bg n, kind_data k = Some y -> allowed k pt ->
  In n (kind_nodes (x_n_geos x) (suffix k) pt (chans y) env beta bg) -> unsaved (nd_name n) = false -> node_fits n.
Proof.
  intros k pt y env beta bg n Ek Al Hin Hu.
  pose proof (kind_names k) as L. rewrite Ek in L. cbn [n_chans] in L.
  unfold kind_nodes in Hin. apply in_app_or in Hin.
  assert (V : forall nme v, n = mkNode nme (DPrior (chans y)) v \/ (exists u, n = mkNode nme (DDeterministic 1 (chans y) u) v) ->
     by_geo nme = false -> String.eqb nme "sigma" = false ->
     (exists c, assoc nme (create_dims unique) = Some ["chain"; "draw"; c] /\ assoc c coords = Some (channels_of nm k)) ->
     stands_for x nm s unique nme [channels_of nm k] -> node_fits n).
  { intros nme v Hn Hb Hs (c & Ec & Ea) St.
    assert (Sh : node_shape unique n = [chans y]) by
      (destruct Hn as [->|(u & ->)]; cbn [node_shape nd_dist nd_name]; [rewrite Hs|rewrite Hb]; reflexivity).
    assert (Nm : nd_name n = nme) by (destruct Hn as [->|(u & ->)]; reflexivity).
    unfold node_fits. rewrite Nm, Sh. exists [c]. split; [exact Ec|]. split.
    - constructor; [|constructor]. exists (channels_of nm k). auto.
    - cbn [map]. unfold labels. rewrite Ea. exact St. }
  assert (C : forall p, In p channel_parameters -> match k with OrganicMedia | OrganicRf => ~ In p ["roi_"; "mroi_"] | _ => True end ->
     exists c, assoc (String.append p (suffix k)) (create_dims unique) = Some ["chain"; "draw"; c] /\
       assoc c coords = Some (channels_of nm k)).
  { intros p Hp Ho. destruct k; cbn in Hp, Ho;
      repeat (destruct Hp as [<-|Hp]; [first [eexists; split; reflexivity | exfalso; apply Ho; auto]|]); destruct Hp. }
  assert (D : forall p v, In p channel_parameters -> match k with OrganicMedia | OrganicRf => ~ In p ["roi_"; "mroi_"] | _ => True end ->
     n = mkNode (String.append p (suffix k)) (DPrior (chans y)) v \/
     (exists u, n = mkNode (String.append p (suffix k)) (DDeterministic 1 (chans y) u) v) -> node_fits n).
  { intros p v Hp Ho Hn. apply (V (String.append p (suffix k)) v Hn).
    - cbn in Hp. destruct k; repeat (destruct Hp as [<-|Hp]; [reflexivity|]); destruct Hp.
    - cbn in Hp. destruct k; repeat (destruct Hp as [<-|Hp]; [reflexivity|]); destruct Hp.
    - apply C; assumption.
    - apply sf_channel. exact Hp. }
  assert (T : forall p, In p ["alpha_"; "ec_"; "eta_"; "slope_"; "beta_"; "contribution_"] ->
     In p channel_parameters /\ match k with OrganicMedia | OrganicRf => ~ In p ["roi_"; "mroi_"] | _ => True end).
  { intros p Hp. cbn in Hp. split.
    - cbn. intuition.
    - destruct k; try exact Logic.I; intros [<-|[<-|[]]]; intuition discriminate. }
  destruct Hin as [Hin|Hin].
  - cbn [In] in Hin.
    destruct Hin as [<-|[<-|[<-|[<-|[<-|[]]]]]].
    + eapply (D "alpha_"); [apply T; cbn; tauto|apply T; cbn; tauto|left; reflexivity].
    + eapply (D "ec_"); [apply T; cbn; tauto|apply T; cbn; tauto|left; reflexivity].
    + eapply (D "eta_"); [apply T; cbn; tauto|apply T; cbn; tauto|left; reflexivity].
    + eapply (D "slope_"); [apply T; cbn; tauto|apply T; cbn; tauto|left; reflexivity].
    + exfalso. destruct k; discriminate Hu.
  - apply in_app_or in Hin. destruct Hin as [Hin|Hin].
    + unfold coefficient_nodes in Hin. destruct Hin as [<-|Hin].
      * destruct pt; unfold prior_name.
        -- eapply (D "roi_"); [cbn; tauto| |left; reflexivity]. destruct k; try exact Logic.I; destruct Al; discriminate.
        -- eapply (D "mroi_"); [cbn; tauto| |left; reflexivity]. destruct k; try exact Logic.I; destruct Al; discriminate.
        -- eapply (D "contribution_"); [apply T; cbn; tauto|apply T; cbn; tauto|left; reflexivity].
        -- eapply (D "beta_"); [apply T; cbn; tauto|apply T; cbn; tauto|left; reflexivity].
        -- eapply (D "beta_"); [apply T; cbn; tauto|apply T; cbn; tauto|left; reflexivity].
      * assert (Hn : n = mkNode (String.append "beta_" (suffix k)) (DDeterministic 1 (chans y) (of_vec beta)) (of_vec beta))
          by (destruct pt; cbn in Hin; intuition).
        eapply (D "beta_"); [apply T; cbn; tauto|apply T; cbn; tauto|right; eexists; exact Hn].
    + destruct Hin as [<-|[]]. unfold node_fits. cbn [nd_name node_shape nd_dist].
      assert (B : by_geo (String.append "beta_g" (suffix k)) = true) by (destruct k; reflexivity).
      rewrite B.
      assert (E : exists c, assoc (String.append "beta_g" (suffix k)) (create_dims unique) = Some ["chain"; "draw"; "geo"; c] /\
                  assoc c coords = Some (channels_of nm k)) by (destruct k; eexists; split; reflexivity).
      destruct E as (c & E1 & E2). exists ["geo"; c]. split; [exact E1|]. split.
      * constructor; [exists (map LName (x_geo x)); split; [reflexivity|apply geo_length]|].
        constructor; [|constructor]. exists (channels_of nm k). auto.
      * cbn [map]. unfold labels at 2. rewrite E2. exact (sf_geo_channel x nm s unique k).
Qed.

Lemma kseg_fits : forall k pt env beta n, allowed k pt \/ kind_data k = None ->
  In n (kseg (equations_of x s) (suffix k) pt (kind_data k) env beta) -> unsaved (nd_name n) = false -> node_fits n.
Proof.
  intros k pt env beta n Al Hin Hu. unfold kseg in Hin. destruct (kind_data k) as [y|] eqn:Ek; [|destruct Hin].
  destruct Al as [Al|Al]; [|discriminate].
  cbn [n_chans] in Hin. eapply (kind_node_fits k pt y env beta _ n Ek Al); [exact Hin|exact Hu].
Qed.

Lemma vector_fits : forall n name c k v l, n = mkNode name (DPrior k) v \/ (exists u, n = mkNode name (DDeterministic 1 k u) v) ->
  by_geo name = false -> String.eqb name "sigma" = false ->
  assoc name (create_dims unique) = Some ["chain"; "draw"; c] -> assoc c coords = Some l -> length l = k ->
  stands_for x nm s unique name [l] -> node_fits n.
Proof.
  intros n name c k v l Hn Hb Hs Ec Ea El St.
  assert (Sh : node_shape unique n = [k]) by
    (destruct Hn as [->|(u & ->)]; cbn [node_shape nd_dist nd_name]; [rewrite Hs|rewrite Hb]; reflexivity).
  assert (Nm : nd_name n = name) by (destruct Hn as [->|(u & ->)]; reflexivity).
  unfold node_fits. rewrite Nm, Sh. exists [c]. split; [exact Ec|]. split.
  - constructor; [|constructor]. exists l. auto.
  - cbn [map]. unfold labels. rewrite Ea. exact St.
Qed.
Lemma matrix_fits : forall name c k u v l, by_geo name = true ->
  assoc name (create_dims unique) = Some ["chain"; "draw"; "geo"; c] -> assoc c coords = Some l -> length l = k ->
  stands_for x nm s unique name [map LName (x_geo x); l] -> node_fits (mkNode name (DDeterministic (x_n_geos x) k u) v).
Proof.
  intros name c k u v l Hb Ec Ea El St. unfold node_fits. cbn [nd_name node_shape nd_dist]. rewrite Hb.
  exists ["geo"; c]. split; [exact Ec|]. split.
  - constructor; [exists (map LName (x_geo x)); split; [reflexivity|apply geo_length]|].
    constructor; [|constructor]. exists l. auto.
  - cbn [map]. unfold labels at 2. rewrite Ea. exact St.
Qed.

Lemma base_fits : forall env tau mu n, In n (base_nodes x s env tau mu) -> unsaved (nd_name n) = false -> node_fits n.
Proof.
  intros env tau mu n Hin Hu. unfold base_nodes in Hin. cbn [In] in Hin.
  destruct Hin as [<-|[<-|[<-|[<-|[<-|[]]]]]].
  - eapply (vector_fits _ "knot_values" "knots"); [left; reflexivity|reflexivity|reflexivity|reflexivity|reflexivity| |apply sf_knots].
    change (length (arange (j_knots s)) = j_knots s). unfold arange. rewrite map_length, seq_length. reflexivity.
  - unfold node_fits. cbn [nd_name node_shape nd_dist String.eqb].
    pose proof (sf_sigma x nm s unique) as St. pose proof Hnoise as E. unfold noise_ok in E. clear -St E Hnames. destruct unique.
    + exists ["geo"]. split; [reflexivity|]. split; [|exact St]. cbn. constructor; [|constructor].
      exists (map LName (x_geo x)). split; [reflexivity|]. rewrite geo_length. symmetry. exact E.
    + exists []. split; [reflexivity|]. split; [|exact St]. constructor.
  - discriminate Hu.
  - eapply (vector_fits _ "tau_g" "geo"); [right; eexists; reflexivity|reflexivity|reflexivity|reflexivity|reflexivity|apply geo_length|apply sf_tau].
  - eapply (vector_fits _ "mu_t" "time"); [right; eexists; reflexivity|reflexivity|reflexivity|reflexivity|reflexivity| |apply sf_mu].
    change (length (map LName (x_time x)) = x_n_times x). rewrite map_length. exact Htimes.
Qed.

Lemma control_fits : forall env gg n, In n (control_nodes x env gg) -> unsaved (nd_name n) = false -> node_fits n.
Proof.
  intros env gg n Hin Hu. unfold control_nodes in Hin. cbv zeta in Hin. destruct (Nat.eqb _ 0); [destruct Hin|].
  destruct Hnames as (L & _). apply names_length in L.
  destruct Hin as [<-|[<-|[<-|[<-|[]]]]].
  - eapply (vector_fits _ "gamma_c" "control_variable"); [left; reflexivity|reflexivity|reflexivity|reflexivity|reflexivity|exact L|].
    apply sf_control. cbn. tauto.
  - eapply (vector_fits _ "xi_c" "control_variable"); [left; reflexivity|reflexivity|reflexivity|reflexivity|reflexivity|exact L|].
    apply sf_control. cbn. tauto.
  - discriminate Hu.
  - eapply (matrix_fits "gamma_gc" "control_variable"); [reflexivity|reflexivity|reflexivity|exact L|apply sf_geo_control].
Qed.

Lemma non_media_fits : forall env gamma gg n, In n (non_media_nodes x s env gamma gg) -> unsaved (nd_name n) = false -> node_fits n.
Proof.
  intros env gamma gg n Hin Hu. unfold non_media_nodes in Hin. destruct Hnames as (_ & L & _). apply names_length in L.
  destruct (d_non_media (x_data x)) as [y|]; [|destruct Hin]. cbn [n_chans] in L.
  assert (P : forall p v, In p ["gamma_n"; "xi_n"; "contribution_n"] ->
     n = mkNode p (DPrior (chans y)) v \/ (exists u, n = mkNode p (DDeterministic 1 (chans y) u) v) -> node_fits n).
  { intros p v Hp Hn. eapply (vector_fits n p "non_media_channel" (chans y) v); [exact Hn| | | |reflexivity|exact L|apply sf_non_media; exact Hp];
      cbn in Hp; destruct Hp as [<-|[<-|[<-|[]]]]; reflexivity. }
  apply in_app_or in Hin. destruct Hin as [[<-|[<-|[]]]|Hin].
  - eapply P; [|left; reflexivity]. cbn. tauto.
  - discriminate Hu.
  - apply in_app_or in Hin. destruct Hin as [Hin|[<-|[]]].
    + destruct (j_non_media_prior s); cbn [In] in Hin;
        repeat (destruct Hin as [<-|Hin]; [eapply P; [|first [left; reflexivity|right; eexists; reflexivity]]; cbn; tauto|]); destruct Hin.
    + eapply (matrix_fits "gamma_gn" "non_media_channel"); [reflexivity|reflexivity|reflexivity|exact L|apply sf_geo_non_media].
Qed.

Lemma all_good : forall env b1 b2 b3 b4 gamma y,
  (allowed Media (j_media_prior s) \/ kind_data Media = None) -> (allowed Rf (j_rf_prior s) \/ kind_data Rf = None) ->
  (allowed OrganicMedia (j_organic_media_prior s) \/ kind_data OrganicMedia = None) ->
  (allowed OrganicRf (j_organic_rf_prior s) \/ kind_data OrganicRf = None) ->
  good (all_nodes x s env b1 b2 b3 b4 gamma y).
Proof.
  intros env b1 b2 b3 b4 gamma y A1 A2 A3 A4. split.
  - intros n Hin Hu. unfold all_nodes in Hin. cbv zeta in Hin.
    repeat (apply in_app_or in Hin; destruct Hin as [Hin|Hin]).
    + eapply base_fits; eassumption.
    + exact (kseg_fits Media _ _ _ n A1 Hin Hu).
    + exact (kseg_fits Rf _ _ _ n A2 Hin Hu).
    + exact (kseg_fits OrganicMedia _ _ _ n A3 Hin Hu).
    + exact (kseg_fits OrganicRf _ _ _ n A4 Hin Hu).
    + eapply control_fits; eassumption.
    + eapply non_media_fits; eassumption.
    + destruct Hin as [<-|[]]. discriminate Hu.
  - intros c Hc. unfold all_nodes. cbv zeta. rewrite !map_app. unfold required in Hc.
    apply in_app_or in Hc. destruct Hc as [Hc|Hc].
    + apply in_or_app. left. cbn in Hc |- *. tauto.
    + apply in_or_app. right. 
      apply in_app_or in Hc. destruct Hc as [Hc|Hc].
      { apply in_or_app. left. destruct (d_media (x_data x)); [|destruct Hc]. destruct Hc as [<-|[]]. left. reflexivity. }
      apply in_or_app. right. apply in_app_or in Hc. destruct Hc as [Hc|Hc].
      { apply in_or_app. left. destruct (d_reach (x_data x)); [|destruct Hc]. destruct Hc as [<-|[]]. left. reflexivity. }
      apply in_or_app. right. apply in_app_or in Hc. destruct Hc as [Hc|Hc].
      { apply in_or_app. left. destruct (d_organic_media (x_data x)); [|destruct Hc]. destruct Hc as [<-|[]]. left. reflexivity. }
      apply in_or_app. right. apply in_app_or in Hc. destruct Hc as [Hc|Hc].
      { apply in_or_app. left. destruct (d_organic_reach (x_data x)); [|destruct Hc]. destruct Hc as [<-|[]]. left. reflexivity. }
      apply in_or_app. right. apply in_app_or in Hc. destruct Hc as [Hc|Hc].
      { apply in_or_app. left. unfold control_nodes. cbv zeta. destruct (Nat.eqb _ 0); [destruct Hc|]. destruct Hc as [<-|[]]. left. reflexivity. }
      apply in_or_app. right. apply in_or_app. left. unfold non_media_nodes.
      destruct (d_non_media (x_data x)); [|destruct Hc]. destruct Hc as [<-|[]]. left. reflexivity.
Qed.

(** ** The stored group *)
Lemma stored_run : forall l, good l ->
  store x nm s unique n_chains n_draws l =
  Ok (mkGroup (map (fun v => (fst v, dims_of (create_dims unique) (fst v))) (stored_vars unique n_chains n_draws l))
        (concat (map (fun v => map (fun d => (d, labels coords d)) (dims_of (create_dims unique) (fst v)))
                   (stored_vars unique n_chains n_draws l)))).
Proof.
  intros l (G & _). unfold store. apply convert_run. intros v Hv. unfold stored_vars in Hv.
  apply in_map_iff in Hv. destruct Hv as (n & <- & Hn). apply filter_In in Hn. destruct Hn as (Hn & Hu).
  apply negb_true_iff in Hu. destruct (G n Hn Hu) as (ds & E & F & _). cbn [fst snd]. unfold dims_of. rewrite E.
  constructor; [exists (arange n_chains); split; [reflexivity|]; unfold arange; rewrite map_length, seq_length; reflexivity|].
  constructor; [exists (arange n_draws); split; [reflexivity|]; unfold arange; rewrite map_length, seq_length; reflexivity|].
  exact F.
Qed.

Lemma stored_var : forall l v, In v (stored_vars unique n_chains n_draws l) <->
  exists n, In n l /\ unsaved (nd_name n) = false /\ v = (nd_name n, n_chains :: n_draws :: node_shape unique n).
Proof.
  intros l v. unfold stored_vars. rewrite in_map_iff. split.
  - intros (n & <- & Hn). apply filter_In in Hn. destruct Hn as (Hn & Hu). apply negb_true_iff in Hu. exists n. auto.
  - intros (n & Hn & Hu & ->). exists n. split; [reflexivity|]. apply filter_In. split; [exact Hn|]. rewrite Hu. reflexivity.
Qed.

Lemma stored_lemma : forall l, good l ->
  exists g, store x nm s unique n_chains n_draws l = Ok g /\ stored_well x nm s unique n_chains n_draws l g /\ one_labelling g.
Proof.
  intros l G. eexists. split; [exact (stored_run l G)|]. split; [split|].
  - cbn [gr_vars]. unfold stored_vars, saved. rewrite !map_map. apply map_ext. reflexivity.
  - intros name dims H. cbn [gr_vars] in H. apply in_map_iff in H. destruct H as (v & E & Hv). injection E as <- <-.
    pose proof Hv as Hv0. apply stored_var in Hv. destruct Hv as (n & Hn & Hu & ->). destruct G as (G & _).
    destruct (G n Hn Hu) as (ds & E & F & St). cbn [fst] in *. unfold dims_of. rewrite E.
    assert (B : forall d, In d ("chain" :: "draw" :: ds) ->
      labelled_by (mkGroup (map (fun v => (fst v, dims_of (create_dims unique) (fst v))) (stored_vars unique n_chains n_draws l))
        (concat (map (fun v => map (fun d => (d, labels coords d)) (dims_of (create_dims unique) (fst v)))
                   (stored_vars unique n_chains n_draws l)))) d (labels coords d)).
    { intros d Hd. split; cbn [gr_coords].
      - apply in_coords. split; [reflexivity|]. eexists. split; [exact Hv0|]. cbn [fst]. unfold dims_of. rewrite E. exact Hd.
      - intros l' Hl'. apply in_coords in Hl'. exact (proj1 Hl'). }
    exists ds, (map (labels coords) ds). split; [reflexivity|]. split; [exact St|]. split; [|split].
    + assert (Hs : forall d, In d ds -> In d ("chain" :: "draw" :: ds)) by (intros d Hd; right; right; exact Hd).
      clear -B Hs. induction ds as [|d r IH]; [constructor|]. cbn [map]. constructor.
      * apply B. apply Hs. left. reflexivity.
      * assert (K : forall ds', (forall d0, In d0 ds' -> In d0 ("chain" :: "draw" :: d :: r)) -> Forall2 (labelled_by
           (mkGroup (map (fun v => (fst v, dims_of (create_dims unique) (fst v))) (stored_vars unique n_chains n_draws l))
            (concat (map (fun v => map (fun d => (d, labels coords d)) (dims_of (create_dims unique) (fst v)))
                   (stored_vars unique n_chains n_draws l))))) ds' (map (labels coords) ds')).
        { induction ds' as [|e t IH']; intros Hx; [constructor|]. cbn [map]. constructor; [apply B, Hx; left; reflexivity|].
          apply IH'. intros d0 Hd. apply Hx. right. exact Hd. }
        apply K. intros d0 Hd. right. right. right. exact Hd.
    + apply B. left. reflexivity.
    + apply B. right. left. reflexivity.
  - intros d a b Ha Hb. cbn [gr_coords] in *. apply in_coords in Ha, Hb. destruct Ha as [-> _]. destruct Hb as [-> _]. reflexivity.
Qed.

Lemma stored_sizes : forall l g, good l -> store x nm s unique n_chains n_draws l = Ok g -> sizes_agree x (j_knots s) g.
Proof.
  intros l g G E. rewrite (stored_run l G) in E. injection E as <-. destruct G as (G & Rq).
  assert (S : forall d n nme, length (labels coords d) = n ->
     (n = 0 \/ (In nme required /\ unsaved nme = false /\ In d (dims_of (create_dims unique) nme))) ->
     has_size (mkGroup (map (fun v => (fst v, dims_of (create_dims unique) (fst v))) (stored_vars unique n_chains n_draws l))
        (concat (map (fun v => map (fun d => (d, labels coords d)) (dims_of (create_dims unique) (fst v)))
                   (stored_vars unique n_chains n_draws l)))) d n).
  { intros d n nme L H. unfold has_size. cbn [gr_coords].
    destruct (in_dec string_dec d (concat (map (fun v : string * list nat => dims_of (create_dims unique) (fst v)) (stored_vars unique n_chains n_draws l)))) as [Hd|Hd].
    - left. exists (labels coords d). split; [|exact L]. apply in_coords. split; [reflexivity|].
      apply in_concat in Hd. destruct Hd as (ds & Hds & Hd). apply in_map_iff in Hds. destruct Hds as (v & <- & Hv). exists v. auto.
    - right. assert (N : forall a, ~ In (d, a) (concat (map (fun v => map (fun d => (d, labels coords d)) (dims_of (create_dims unique) (fst v)))
                   (stored_vars unique n_chains n_draws l)))).
      { intros a Ha. apply in_coords in Ha. destruct Ha as (_ & v & Hv & Hin). apply Hd. apply in_concat.
        exists (dims_of (create_dims unique) (fst v)). split; [apply in_map_iff; exists v; auto|exact Hin]. }
      split; [|exact N]. destruct H as [H|(Hr & Hu & Hin)]; [exact H|]. exfalso. apply Hd.
      apply Rq in Hr. apply in_map_iff in Hr. destruct Hr as (m & Em & Hm). apply in_concat.
      exists (dims_of (create_dims unique) nme). split; [|exact Hin]. apply in_map_iff.
      exists (nd_name m, n_chains :: n_draws :: node_shape unique m). split; [cbn [fst]; rewrite Em; reflexivity|].
      apply stored_var. exists m. rewrite Em. auto. }
  destruct Hnames as (N1 & N2 & N3 & N4 & N5 & N6). unfold sizes_agree. cbv zeta.
  assert (R0 : forall nme, In nme ["knot_values"; "tau_g"; "mu_t"] -> In nme required) by
    (intros nme Hx; unfold required; apply in_or_app; left; exact Hx).
  split; [apply (S "geo" _ "tau_g"); [apply geo_length|right; split; [apply R0; cbn; tauto|split; [reflexivity|cbn; tauto]]]|].
  split; [apply (S "time" _ "mu_t"); [change (length (map LName (x_time x)) = x_n_times x); rewrite map_length; exact Htimes|right; split; [apply R0; cbn; tauto|split; [reflexivity|cbn; tauto]]]|].
  split; [apply (S "knots" _ "knot_values"); [change (length (arange (j_knots s)) = j_knots s); unfold arange; rewrite map_length, seq_length; reflexivity|right; split; [apply R0; cbn; tauto|split; [reflexivity|cbn; tauto]]]|].
  split.
  { apply (S "control_variable" _ "gamma_c"); [apply (names_length _ _ N1)|].
    destruct (Nat.eqb (n_chans (d_controls (x_data x))) 0) eqn:E0; [left; apply Nat.eqb_eq; exact E0|right].
    split; [|split; [reflexivity|cbn; tauto]]. unfold required. rewrite E0. rewrite !in_app_iff. cbn. tauto. }
  split.
  { apply (S "non_media_channel" _ "xi_n"); [apply (names_length _ _ N2)|].
    destruct (d_non_media (x_data x)) eqn:E0; [right|left; reflexivity].
    split; [|split; [reflexivity|cbn; tauto]]. unfold required. rewrite E0. rewrite !in_app_iff. cbn. tauto. }
  split.
  { apply (S "media_channel" _ "alpha_m"); [apply (names_length _ _ N3)|].
    destruct (d_media (x_data x)) eqn:E0; [right|left; reflexivity].
    split; [|split; [reflexivity|cbn; tauto]]. unfold required. rewrite E0. rewrite !in_app_iff. cbn. tauto. }
  split.
  { apply (S "rf_channel" _ "alpha_rf"); [apply (names_length _ _ N4)|].
    destruct (d_reach (x_data x)) eqn:E0; [right|left; reflexivity].
    split; [|split; [reflexivity|cbn; tauto]]. unfold required. rewrite E0. rewrite !in_app_iff. cbn. tauto. }
  split.
  { apply (S "organic_media_channel" _ "alpha_om"); [apply (names_length _ _ N5)|].
    destruct (d_organic_media (x_data x)) eqn:E0; [right|left; reflexivity].
    split; [|split; [reflexivity|cbn; tauto]]. unfold required. rewrite E0. rewrite !in_app_iff. cbn. tauto. }
  apply (S "organic_rf_channel" _ "alpha_orf"); [apply (names_length _ _ N6)|].
  destruct (d_organic_reach (x_data x)) eqn:E0; [right|left; reflexivity].
  split; [|split; [reflexivity|cbn; tauto]]. unfold required. rewrite E0. rewrite !in_app_iff. cbn. tauto.
Qed.
End Store.

(** ** Draws of the samplers *)
Lemma joint_good : forall x nm s unique n_chains n_draws env l, model_ok x -> names_ok x nm -> noise_ok x s unique ->
  run (joint_dist true x s) env = Ran l -> good x nm s unique n_chains n_draws l.
Proof.
  intros x nm s unique n_chains n_draws env l OK Hn Hs H. pose proof OK as (W & _).
  destruct (run_joint x s env l OK H) as (b1 & b2 & b3 & b4 & gamma & l1 & l2 & l3 & l4 & y & -> & F1 & F2 & F3 & F4 & _).
  apply all_good; [exact Hn|exact Hs|exact (wf_time x W)|..]; unfold kind_data; cbv zeta.
  - destruct (d_media (x_data x)) eqn:E; [left|right; reflexivity]. destruct F1 as (_ & F1). rewrite E in F1. apply F1. discriminate.
  - destruct (d_reach (x_data x)) eqn:E; [left|right; reflexivity]. destruct F2 as (_ & F2). rewrite E in F2. apply F2. discriminate.
  - destruct (d_organic_media (x_data x)) as [m|] eqn:E; [left|right; reflexivity]. destruct F3 as (_ & F3). rewrite E in F3.
    destruct F3 as (N & F3); [discriminate|]. cbn [allowed]. destruct (j_organic_media_prior s); auto; exfalso; try congruence;
    unfold mean_coefficients, organic_media_beta in F3; destruct F3 as (f & F3 & _);
    destruct (media_transformer_init _ _); discriminate.
  - destruct (d_organic_reach (x_data x)) as [m|] eqn:E; [left|right; reflexivity]. destruct F4 as (_ & F4). rewrite E in F4.
    destruct F4 as (N & F4); [discriminate|]. cbn [allowed]. destruct (j_organic_rf_prior s); auto; exfalso; try congruence;
    unfold mean_coefficients, organic_rf_beta in F4; destruct F4 as (f & F4 & _); destruct (d_organic_frequency (x_data x)); try discriminate;
    destruct (media_transformer_init _ _); discriminate.
Qed.

Lemma prior_good : forall x nm s unique n_chains n_draws rnd l, model_ok x -> names_ok x nm -> noise_ok x s unique ->
  latents_ok x s (drawn l) -> same_organic_types x s -> sample_prior x s rnd = Ran l -> good x nm s unique n_chains n_draws l.
Proof.
  intros x nm s unique n_chains n_draws rnd l OK Hn Hs HL HT H.
  destruct (seeds_lemma x s rnd l H) as (_ & _ & R).
  destruct (C78_same_nodes x s (drawn l) OK HL HT) as [(l1 & l2 & y & A & B & P & Ny)|[_ N]].
  - apply (proj1 (prior_pin x s (drawn l) l2)) in B. assert (l2 = l) by congruence. subst l2.
    destruct (joint_good x nm s unique n_chains n_draws _ _ OK Hn Hs A) as (G & Rq). split.
    + intros n Hin. apply G. apply (Permutation_in n (Permutation_sym P)). apply in_or_app. left. exact Hin.
    + intros c Hc. pose proof (Rq c Hc) as I. apply (Permutation_in c (Permutation_map nd_name P)) in I.
      rewrite map_app in I. apply in_app_or in I. destruct I as [I|[I|[]]]; [exact I|]. exfalso. rewrite Ny in I. subst c.
      clear -Hc. unfold required in Hc. repeat (apply in_app_or in Hc; destruct Hc as [Hc|Hc]);
        repeat match goal with
        | Hc : In _ (match ?o with Some _ => _ | None => _ end) |- _ => destruct o
        | Hc : In _ (if ?o then _ else _) |- _ => destruct o
        end; cbn in Hc; intuition discriminate.
  - exfalso. apply (N l). apply prior_pin. exact R.
Qed.

(** ** The checks of sizes *)
Lemma assoc_some : forall (A : Type) k (l : list (string * A)) v, assoc k l = Some v -> In (k, v) l.
Proof.
  intros A k l v H. unfold assoc in H. destruct (find (fun p => String.eqb k (fst p)) l) as [[k' v']|] eqn:E; [|discriminate].
  apply find_some in E. destruct E as (I & E). cbn in *. apply String.eqb_eq in E. injection H as <-. subst k'. exact I.
Qed.
Lemma assoc_none : forall (A : Type) k (l : list (string * A)) v, assoc k l = None -> ~ In (k, v) l.
Proof.
  intros A k l v H I. unfold assoc in H. destruct (find (fun p => String.eqb k (fst p)) l) eqn:E; [discriminate|].
  apply (find_none _ _ E) in I. cbn in I. rewrite String.eqb_refl in I. discriminate.
Qed.
Lemma size_exact : forall g c n, one_labelling g -> (coord_size g c = n <-> has_size g c n).
Proof.
  intros g c n U. unfold coord_size, has_size. destruct (assoc c (gr_coords g)) as [l|] eqn:E.
  - apply assoc_some in E. split.
    + intros H. left. exists l. auto.
    + intros [(l' & I & H)|(_ & H)]; [rewrite (U c l l' E I); exact H|destruct (H l E)].
  - split.
    + intros <-. right. split; [reflexivity|]. intros l. apply assoc_none. exact E.
    + intros [(l & I & _)|(H & _)]; [destruct (assoc_none _ _ _ l E I)|auto].
Qed.
Lemma coord_cases : forall g c n, one_labelling g ->
  (validate_coord g c n = Ok tt /\ has_size g c n) \/ (validate_coord g c n = Err ValueError /\ ~ has_size g c n).
Proof.
  intros g c n U. unfold validate_coord. destruct (Nat.eqb (coord_size g c) n) eqn:E.
  - left. split; [reflexivity|]. apply size_exact; [exact U|]. apply Nat.eqb_eq. exact E.
  - right. split; [reflexivity|]. intros H. apply (size_exact g c n U) in H. apply Nat.eqb_neq in E. contradiction.
Qed.
Lemma group_cases : forall x k g, one_labelling g ->
  (validate_group x k g = Ok tt /\ sizes_agree x k g) \/ (validate_group x k g = Err ValueError /\ ~ sizes_agree x k g).
Proof.
  intros x k g U. unfold validate_group, sizes_agree, x_n_controls, x_n_geos. cbv zeta.
  destruct (coord_cases g "geo" (length (x_geo x)) U) as [(-> & A1)|(-> & A1)]; cbn [rbind]; [|right; split; [reflexivity|tauto]].
  destruct (coord_cases g "control_variable" (n_chans (d_controls (x_data x))) U) as [(-> & A2)|(-> & A2)]; cbn [rbind]; [|right; split; [reflexivity|tauto]].
  destruct (coord_cases g "knots" k U) as [(-> & A3)|(-> & A3)]; cbn [rbind]; [|right; split; [reflexivity|tauto]].
  destruct (coord_cases g "time" (x_n_times x) U) as [(-> & A4)|(-> & A4)]; cbn [rbind]; [|right; split; [reflexivity|tauto]].
  destruct (coord_cases g "media_channel" (n_chans (d_media (x_data x))) U) as [(-> & A5)|(-> & A5)]; cbn [rbind]; [|right; split; [reflexivity|tauto]].
  destruct (coord_cases g "rf_channel" (n_chans (d_reach (x_data x))) U) as [(-> & A6)|(-> & A6)]; cbn [rbind]; [|right; split; [reflexivity|tauto]].
  destruct (coord_cases g "organic_media_channel" (n_chans (d_organic_media (x_data x))) U) as [(-> & A7)|(-> & A7)]; cbn [rbind]; [|right; split; [reflexivity|tauto]].
  destruct (coord_cases g "organic_rf_channel" (n_chans (d_organic_reach (x_data x))) U) as [(-> & A8)|(-> & A8)]; cbn [rbind]; [|right; split; [reflexivity|tauto]].
  destruct (coord_cases g "non_media_channel" (n_chans (d_non_media (x_data x))) U) as [(-> & A9)|(-> & A9)]; [left|right; split; [reflexivity|tauto]].
  split; [reflexivity|tauto].
Qed.
