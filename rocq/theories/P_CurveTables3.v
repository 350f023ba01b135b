(** When the tables of the Hill curves can be made. *)
From Coq Require Import String Reals ZArith List Bool Arith Lia Lra.
From Verif Require Import Lib_Sum Lib_Pow M_Base M_AdstockHill M_Equations M_Transformers M_Aggregate M_Analyzer M_Stats
  M_CurveTables S_Adstock S_Stats S_Transformers S_CurveTables P_Stats P_CurveTables P_CurveTables2.
Import ListNotations.
Local Open Scope R_scope.

Lemma nodup_kind : forall (names : kind -> list string) k,
  NoDup (flat_map names [KMedia; KRf; KOrganicMedia; KOrganicRf]) -> NoDup (names k).
Proof.
  intros names k ND. cbn [flat_map] in ND. rewrite app_nil_r in ND.
  destruct (nodup_app _ _ ND) as (A & ND1 & _). destruct (nodup_app _ _ ND1) as (B & ND2 & _).
  destruct (nodup_app _ _ ND2) as (C & D & _). destruct k; assumption.
Qed.

Lemma hill_values_run : forall k y ws, (forall w, In w ws -> n_par (kind_params k w) = chans y) ->
  exists vs, length vs = length ws /\
  collect (map (fun w => hill_forward y (n_par (kind_params k w)) (p_ec (kind_params k w))
                           (n_par (kind_params k w)) (p_slope (kind_params k w))) ws) = Ok vs.
Proof.
  induction ws as [|w ws IH]; intros H; cbn [map collect].
  - exists []. split; reflexivity.
  - destruct (IH (fun w' H' => H w' (or_intror H'))) as [vs [L E]]. rewrite E.
    unfold hill_forward. rewrite (H w (or_introl eq_refl)), Nat.eqb_refl. cbn [negb rbind].
    rewrite ?Nat.eqb_refl. cbn [negb rbind]. eexists. split; [|reflexivity]. cbn [length]. lia.
Qed.

Lemma hill_rows_run : forall f prior posterior level k y, curve_data f k y -> NoDup (cm_names f k) ->
  prior <> [] -> posterior <> [] -> -1 <= level <= 1 ->
  (forall w, In w (prior ++ posterior) -> n_par (kind_params k w) = chans y) ->
  exists rows, hill_rows f prior posterior level k = Ok rows.
Proof.
  intros f prior posterior level k y Hd ND Np Nq HL Hw.
  destruct (curve_scaled f k y Hd) as (z & Hz & Zg & Zt & Zc & _).
  assert (NL : length (cm_names f k) = chans y) by (destruct Hd as (_ & _ & _ & _ & _ & L & _); exact L).
  unfold hill_rows. rewrite Hz.
  set (expanded := mkT3 1 HILL_NUM_STEPS (chans z) (fun _ s c => linspace z s c)).
  destruct (hill_values_run k expanded prior) as [v1 [L1 E1]].
  { intros w I. cbn [expanded chans]. rewrite Zc. apply Hw. apply in_or_app. auto. }
  destruct (hill_values_run k expanded posterior) as [v2 [L2 E2]].
  { intros w I. cbn [expanded chans]. rewrite Zc. apply Hw. apply in_or_app. auto. }
  rewrite E1, E2. cbn [rbind]. rewrite NL, Zc, Nat.eqb_refl, (proj2 (distinct_spec _) ND). cbn [negb orb raise_if].
  set (g := fun i : nat * nat * bool =>
    rbind (central_tendency_and_ci level (map (fun v => val v 0%nat (snd (fst i)) (fst (fst i))) (if snd i then v2 else v1)))
      (fun st => Ok (nth (fst (fst i)) (cm_names f k) EmptyString, snd i, st))).
  assert (RUN : exists pivot, collect (map g (places (chans y) HILL_NUM_STEPS)) = Ok pivot).
  { apply collect_runs. intros a I. apply in_map_iff in I. destruct I as [i [<- _]]. unfold g.
    destruct (central_runs level (map (fun v => val v 0%nat (snd (fst i)) (fst (fst i))) (if snd i then v2 else v1))) as [s ->].
    - destruct (snd i); [destruct v2; [destruct posterior; [congruence|discriminate]|discriminate]
                        |destruct v1; [destruct prior; [congruence|discriminate]|discriminate]].
    - exact HL.
    - cbn [rbind]. eauto. }
  destruct RUN as [pivot EP]. pose proof EP as EP'. rewrite map_places in EP'. unfold g in EP'. cbn [fst snd] in EP'.
  match goal with |- context [collect ?e] => replace (collect e) with (@Ok (list (string * bool * stats)) pivot) end.
  cbn [rbind].
  change (flat_map (fun v => [v; v]) (flat_map (fun c => map (fun s => match kind_transformer k (cm_x f) with
                     | Some tr => linspace z s c * population_scaled_median_m tr c
                     | None => linspace z s c end) (seq 0 HILL_NUM_STEPS)) (seq 0 (chans y))))
    with (flat_map (fun v => [v; v]) (flat_map (fun c => map (fun s => x_axis f k z s c) (seq 0 HILL_NUM_STEPS)) (seq 0 (chans y)))).
  rewrite doubled_places.
  destruct (combine_collect g (fun i : nat * nat * bool => x_axis f k z (snd (fst i)) (fst (fst i))) _ _ EP) as [L _].
  rewrite map_length, <- L, Nat.eqb_refl. cbn [negb raise_if]. eauto.
Qed.

Lemma histograms_run : forall f n_bins k, (0 < n_bins)%nat -> exists rows, kind_histograms f n_bins k = Ok rows.
Proof.
  intros f n_bins k Hn. unfold kind_histograms. destruct (hist_data k (cm_x f)) as [z|]; [|eauto].
  destruct (collect_runs (map (fun c => channel_histogram k (nth c (cm_names f k) EmptyString) (channel_values z c) n_bins)
        (seq 0 (length (cm_names f k))))) as [t ->]; [|cbn [rbind]; eauto].
  intros a I. apply in_map_iff in I. destruct I as [c [<- _]]. unfold channel_histogram.
  destruct (channel_values z c); [eauto|]. destruct (Nat.eqb n_bins 0) eqn:E; [apply Nat.eqb_eq in E; lia|].
  cbn [raise_if]. eauto.
Qed.

Lemma hill_runs_lemma : forall f level n_bins, hill_request f -> 0 <= level <= 1 -> (0 < n_bins)%nat ->
  exists t, hill_curves f level n_bins = Ok t.
Proof.
  intros f level n_bins ([prior [Hp Np]] & [posterior [Hq Nq]] & ND & HK & HN) HL Hn.
  unfold hill_curves. rewrite Hp, Hq.
  destruct (collect_runs (map (fun k => if Nat.eqb (kind_channels k (cm_x f)) 0 then Ok []
                                    else hill_rows f prior posterior level k)
               [KMedia; KRf; KOrganicMedia; KOrganicRf])) as [c ->].
  { intros a I. apply in_map_iff in I. destruct I as [k [<- _]].
    destruct (HK k) as [[Z _]|[y Hy]].
    - unfold kind_channels. rewrite Z. cbn [n_chans Nat.eqb]. eauto.
    - destruct (Nat.eqb (kind_channels k (cm_x f)) 0); [eauto|].
      apply (hill_rows_run f prior posterior level k y Hy (nodup_kind _ k ND) Np Nq ltac:(lra)).
      intros w I. assert (KC : chans y = kind_channels k (cm_x f)).
      { unfold kind_channels. destruct Hy as (E & _). rewrite E. reflexivity. }
      rewrite KC. apply in_app_or in I. destruct I as [I|I].
      + apply (HN false w k). unfold draws_of. rewrite Hp. exact I.
      + apply (HN true w k). unfold draws_of. rewrite Hq. exact I. }
  cbn [rbind].
  destruct (collect_runs (map (kind_histograms f n_bins) [KRf; KMedia; KOrganicMedia; KOrganicRf])) as [h ->].
  { intros a I. apply in_map_iff in I. destruct I as [k [<- _]]. apply histograms_run. exact Hn. }
  cbn [rbind]. eauto.
Qed.

(** Summaries of one draw. *)
Lemma one_draw : forall level v s, central_tendency_and_ci level [v] = Ok s -> all_equal s v.
Proof.
  intros level v s H. assert (W : v <= st_mean s <= v /\ v <= st_median s <= v /\ v <= st_lo s <= v /\ v <= st_hi s <= v).
  { apply (within_lemma _ _ _ v v H). intros w [<-|[]]. lra. }
  unfold all_equal. lra.
Qed.
