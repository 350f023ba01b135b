(** Proofs about the goodness of fit metrics. *)
From Coq Require Import Reals ZArith String List Bool Arith Lra Lia Permutation.
From Verif Require Import Lib_Sum M_Base M_AdstockHill M_Equations M_Transformers M_Aggregate
  S_Aggregate P_Aggregate S_Adstock S_Media S_Analyzer M_Analyzer P_Analyzer P_AnalyzerIO S_Predictor
  P_Predictor M_Stats M_Accuracy S_Accuracy.
Import ListNotations.
Local Open Scope R_scope.

(** *** Metrics of masked lists *)
Definition somes {A} (l : list (option A)) : list A :=
  flat_map (fun o => match o with Some a => [a] | None => [] end) l.
Lemma present_somes : forall l, present l = somes l.
Proof. reflexivity. Qed.
Lemma somes_map : forall A B (f : A -> B) l, somes (map (option_map f) l) = map f (somes l).
Proof.
  intros A B f l. induction l as [|[a|] l IH]; cbn [somes map flat_map option_map app]; [reflexivity| |exact IH].
  f_equal. exact IH.
Qed.
Lemma combine_map : forall A B C (f : A -> B) (g : A -> C) l,
  combine (map f l) (map g l) = map (fun a => (f a, g a)) l.
Proof. intros. induction l as [|a l IH]; cbn; [reflexivity|]. f_equal. exact IH. Qed.

Definition es (L : list (option (R * R))) := map (option_map fst) L.
Definition acs (L : list (option (R * R))) := map (option_map snd) L.

Lemma pairwise_masked : forall f L,
  pairwise f (es L) (acs L) = map (fun o => match o with Some p => f (fst p) (snd p) | None => None end) L.
Proof.
  intros f L. unfold pairwise, es, acs. rewrite combine_map, map_map. apply map_ext.
  intros [[e a]|]; reflexivity.
Qed.
Lemma pairwise_some : forall k L,
  somes (pairwise (fun e a => Some (k e a)) (es L) (acs L)) = map (fun p => k (fst p) (snd p)) (somes L).
Proof.
  intros k L. rewrite pairwise_masked.
  rewrite <- (somes_map _ _ (fun p => k (fst p) (snd p)) L). reflexivity.
Qed.

Lemma nanmean_none : forall l, somes l = [] -> nanmean l = None.
Proof. intros l H. unfold nanmean. rewrite present_somes, H. reflexivity. Qed.
Lemma nanmean_some : forall l, somes l <> [] -> nanmean l = Some (mean (somes l)).
Proof. intros l H. unfold nanmean. rewrite present_somes. destruct (somes l); [congruence|reflexivity]. Qed.

Lemma avg_mean : forall l, mean l = avg l. Proof. reflexivity. Qed.
Lemma len_pos : forall A (l : list A), l <> [] -> 0 < INR (length l).
Proof. intros A [|a l] H; [congruence|]. apply lt_0_INR. cbn. lia. Qed.

Lemma rsquared_masked : forall L, is_r_squared (somes L) (nan_rsquared (es L) (acs L)).
Proof.
  intros L. unfold nan_rsquared. set (P := somes L).
  assert (Ea : somes (acs L) = map snd P) by apply somes_map.
  pose proof (pairwise_some (fun e a => (e - a) ^ 2) L) as Es. fold P in Es.
  destruct P as [|p0 P0] eqn:EP.
  - rewrite nanmean_none by (rewrite Es; reflexivity). cbn. reflexivity.
  - rewrite <- EP in *. assert (NP : P <> []) by (rewrite EP; discriminate).
    assert (Lm : length P <> 0%nat) by (rewrite EP; cbn; lia).
    rewrite nanmean_some by (rewrite Es; destruct P; [congruence|discriminate]). rewrite Es.
    unfold nanvar. rewrite nanmean_some by (rewrite Ea; destruct P; [congruence|discriminate]). rewrite Ea.
    set (m := mean (map snd P)).
    assert (Ev : somes (map (option_map (fun a => (a - m) ^ 2)) (acs L)) = map (fun p => (snd p - m) ^ 2) P).
    { rewrite somes_map, Ea, map_map. reflexivity. }
    rewrite nanmean_some by (rewrite Ev; destruct P; [congruence|discriminate]). rewrite Ev.
    unfold fdiv.
    assert (E1 : mean (map (fun p => (fst p - snd p) ^ 2) P) = squared_error P / INR (length P))
      by (unfold mean; rewrite map_length; reflexivity).
    assert (E2 : mean (map (fun p => (snd p - m) ^ 2) P) = spread P / INR (length P))
      by (unfold mean; rewrite map_length; reflexivity).
    rewrite E1, E2.
    pose proof (len_pos _ P NP) as HN.
    destruct (Req_EM_T (spread P / INR (length P)) 0) as [Z|Z]; cbn [option_map is_r_squared].
    + apply Rmult_integral in Z. destruct Z as [Z|Z]; [exact Z|]. pose proof (Rinv_0_lt_compat _ HN). lra.
    + assert (S0 : spread P <> 0). { intros E. apply Z. rewrite E. unfold Rdiv. ring. }
      split; [exact S0|]. field. split; lra.
Qed.

Lemma nonzero_true : forall r, nonzero r = true <-> r <> 0.
Proof. intros r. unfold nonzero. destruct (Req_EM_T r 0); split; intros; congruence. Qed.
Lemma nonzero_false : forall r, nonzero r = false <-> r = 0.
Proof. intros r. unfold nonzero. destruct (Req_EM_T r 0); split; intros; congruence. Qed.

Definition some_nonzero (p : R * R) : bool := nonzero (fst p) || nonzero (snd p).
Lemma some_nonzero_spec : forall p, some_nonzero p = false <-> fst p = 0 /\ snd p = 0.
Proof. intros p. unfold some_nonzero. rewrite orb_false_iff, !nonzero_false. reflexivity. Qed.

Lemma filter_nil_all : forall A (f : A -> bool) l, (forall a, In a l -> f a = false) -> filter f l = [].
Proof. intros A f l H. induction l as [|a l IH]; [reflexivity|]. cbn. rewrite (H a) by (left; reflexivity). apply IH. intros b Hb. apply H. right. exact Hb. Qed.
Lemma filter_ext_in' : forall A (f g : A -> bool) l, (forall a, In a l -> f a = g a) -> filter f l = filter g l.
Proof. intros. apply filter_ext_in. assumption. Qed.

Lemma somes_in : forall A (L : list (option A)) a, In a (somes L) <-> In (Some a) L.
Proof.
  intros A L a. unfold somes. rewrite in_flat_map. split.
  - intros ([b|] & H & E); [|contradiction E]. destruct E as [E|E]; [subst; exact H|contradiction E].
  - intros H. exists (Some a). split; [exact H|left; reflexivity].
Qed.

Lemma mape_masked : forall L, is_mape (somes L) (nan_mape (es L) (acs L)).
Proof.
  intros L. unfold nan_mape. set (P := somes L).
  exists (filter some_nonzero P). split; [exists some_nonzero; split; [reflexivity|exact some_nonzero_spec]|].
  unfold es, acs at 1. rewrite combine_map.
  assert (X : existsb (fun p => match p with (Some e, Some a) => is_infinite e a | _ => false end)
                (map (fun a => (option_map fst a, option_map snd a)) L)
              = existsb (fun p => negb (nonzero (snd p)) && some_nonzero p) P).
  { apply eq_true_iff_eq. rewrite !existsb_exists. split.
    - intros (q & Hq & E). apply in_map_iff in Hq. destruct Hq as ([[e a]|] & <- & Hin); [|discriminate].
      cbn in E. unfold is_infinite in E. apply andb_true_iff in E. destruct E as [E1 E2].
      exists (e, a). split; [apply somes_in; exact Hin|]. cbn [snd]. rewrite E1. cbn.
      unfold some_nonzero. cbn [fst snd]. apply negb_true_iff, nonzero_false in E1. apply nonzero_true in E2.
      rewrite orb_true_iff. left. apply nonzero_true. lra.
    - intros ([e a] & Hin & E). apply somes_in in Hin. exists (Some e, Some a).
      split; [apply in_map_iff; exists (Some (e, a)); auto|]. unfold is_infinite.
      cbn [snd] in E. apply andb_true_iff in E. destruct E as [E1 E2]. rewrite E1. cbn.
      apply negb_true_iff, nonzero_false in E1. subst a. unfold some_nonzero in E2. cbn [fst snd] in E2.
      apply orb_true_iff in E2. destruct E2 as [E2|E2]; apply nonzero_true in E2; [|lra].
      apply nonzero_true. lra. }
  rewrite X. clear X.
  destruct (existsb (fun p => negb (nonzero (snd p)) && some_nonzero p) P) eqn:EX.
  - right. apply existsb_exists in EX. destruct EX as (p & Hp & E). apply andb_true_iff in E. destruct E as [E1 E2].
    exists p. split; [apply filter_In; auto|]. apply nonzero_false. apply negb_true_iff. exact E1.
  - assert (Hf : forall p, In p P -> some_nonzero p = nonzero (snd p)).
    { intros p Hp. destruct (nonzero (snd p)) eqn:E; [unfold some_nonzero; rewrite E; apply orb_true_r|].
      destruct (some_nonzero p) eqn:E'; [|reflexivity].
      assert (existsb (fun p => negb (nonzero (snd p)) && some_nonzero p) P = true)
        by (apply existsb_exists; exists p; rewrite E, E'; auto). congruence. }
    assert (Q : somes (pairwise (fun e a => option_map Rabs (fdiv (a - e) a)) (es L) (acs L))
                = map (fun p => Rabs ((snd p - fst p) / snd p)) (filter some_nonzero P)).
    { rewrite pairwise_masked. rewrite (filter_ext_in some_nonzero (fun p => nonzero (snd p)) P Hf). clear Hf EX.
      unfold P. induction L as [|[[e a]|] L IH]; [reflexivity| |exact IH].
      cbn [map fst snd somes flat_map app filter]. fold (somes L).
      unfold fdiv at 1, nonzero at 1. destruct (Req_EM_T a 0); cbn [option_map app map]; [exact IH|].
      f_equal. exact IH. }
    fold (es L) (acs L).
    destruct (filter some_nonzero P) as [|q0 Q0] eqn:EF.
    + rewrite nanmean_none by exact Q. left. reflexivity.
    + rewrite <- EF in *. rewrite nanmean_some by (rewrite Q, EF; discriminate). rewrite Q.
      split; [rewrite EF; discriminate|]. split; [|reflexivity].
      intros p Hp. apply filter_In in Hp. destruct Hp as [Hp Hz]. rewrite (Hf p Hp) in Hz. apply nonzero_true. exact Hz.
Qed.

Lemma wmape_masked : forall L, is_wmape (somes L) (nan_weighted_mape (es L) (acs L)).
Proof.
  intros L. unfold nan_weighted_mape, nansum, fdiv. rewrite !present_somes.
  rewrite (pairwise_some (fun e a => Rabs (a - e))).
  assert (Ea : somes (acs L) = map snd (somes L)) by apply somes_map. rewrite Ea.
  fold (weight (somes L)) (absolute_error (somes L)).
  destruct (Req_EM_T (weight (somes L)) 0) as [Z|Z]; cbn; [exact Z|]. split; [exact Z|reflexivity].
Qed.

(** *** Masked matrices *)
Lemma somes_flat_map : forall A B (F : A -> list (option B)) l,
  somes (flat_map F l) = flat_map (fun a => somes (F a)) l.
Proof.
  intros A B F l. induction l as [|a l IH]; [reflexivity|]. cbn [flat_map]. unfold somes in *.
  rewrite flat_map_app, IH. reflexivity.
Qed.
Lemma somes_if : forall A B (p : A -> bool) (k : A -> B) l,
  somes (map (fun a => if p a then Some (k a) else None) l) = map k (filter p l).
Proof.
  intros. induction l as [|a l IH]; [reflexivity|]. cbn [map filter somes flat_map].
  destruct (p a); cbn [map app]; [f_equal|]; exact IH.
Qed.
Lemma map_nth_seq : forall A (d : A) l, map (fun i => nth i l d) (seq 0 (length l)) = l.
Proof.
  intros A d l. induction l as [|a l IH]; [reflexivity|]. cbn [length seq map]. f_equal.
  rewrite <- seq_shift, map_map. exact IH.
Qed.
Lemma reindex : forall A (d : A) B (F : A -> list B) l,
  flat_map (fun i => F (nth i l d)) (seq 0 (length l)) = flat_map F l.
Proof. intros. rewrite <- (map_nth_seq A d l) at 2. rewrite flat_map_concat_map, flat_map_concat_map, map_map. reflexivity. Qed.
Lemma reindex_map : forall A (d : A) B (F : A -> B) l,
  map (fun i => F (nth i l d)) (seq 0 (length l)) = map F l.
Proof. intros. rewrite <- (map_nth_seq A d l) at 2. rewrite map_map. reflexivity. Qed.
Lemma filter_map : forall A B (f : A -> B) p l, filter p (map f l) = map f (filter (fun a => p (f a)) l).
Proof. intros. induction l as [|a l IH]; [reflexivity|]. cbn. destruct (p (f a)); cbn; rewrite IH; reflexivity. Qed.
Lemma flat_map_ext_in : forall A B (f g : A -> list B) l, (forall a, In a l -> f a = g a) ->
  flat_map f l = flat_map g l.
Proof. intros A B f g l H. induction l as [|a l IH]; [reflexivity|]. cbn. rewrite (H a), IH; auto with datatypes. Qed.

Section Masked.
Variables (gl tl : list nat) (inside : nat -> nat -> bool) (e a : nat -> nat -> R).
Definition sel_cell (f : nat -> nat -> R) (g t : nat) : option R := if inside g t then Some (f g t) else None.
Definition masked_matrix (f : nat -> nat -> R) (m : matrix (option R)) : Prop :=
  m_rows m = length gl /\ m_cols m = length tl /\
  forall i j, (i < length gl)%nat -> (j < length tl)%nat ->
    m_at m i j = sel_cell f (nth i gl 0%nat) (nth j tl 0%nat).

Lemma ravel_masked : forall f m, masked_matrix f m ->
  ravel m = flat_map (fun g => map (sel_cell f g) tl) gl.
Proof.
  intros f m (Hr & Hc & Hm). unfold ravel. rewrite Hr, Hc.
  rewrite <- (reindex nat 0%nat _ (fun g => map (sel_cell f g) tl) gl). apply flat_map_ext_in.
  intros i Hi. apply in_seq in Hi. rewrite <- (reindex_map nat 0%nat _ (sel_cell f (nth i gl 0%nat)) tl). apply map_ext_in.
  intros j Hj. apply in_seq in Hj. apply Hm; lia.
Qed.

Definition geo_list : list (option (R * R)) :=
  flat_map (fun g => map (fun t => if inside g t then Some (e g t, a g t) else None) tl) gl.
Lemma map_flat_map : forall A B C (f : B -> C) (F : A -> list B) l,
  map f (flat_map F l) = flat_map (fun x => map f (F x)) l.
Proof. intros. induction l as [|x l IH]; [reflexivity|]. cbn. rewrite map_app, IH. reflexivity. Qed.
Lemma geo_e : flat_map (fun g => map (sel_cell e g) tl) gl = es geo_list.
Proof.
  unfold es, geo_list. rewrite map_flat_map. apply flat_map_ext. intros g. rewrite map_map. apply map_ext.
  intros t. unfold sel_cell. destruct (inside g t); reflexivity.
Qed.
Lemma geo_a : flat_map (fun g => map (sel_cell a g) tl) gl = acs geo_list.
Proof.
  unfold acs, geo_list. rewrite map_flat_map. apply flat_map_ext. intros g. rewrite map_map. apply map_ext.
  intros t. unfold sel_cell. destruct (inside g t); reflexivity.
Qed.
Lemma geo_somes : somes geo_list
  = flat_map (fun g => map (fun t => (e g t, a g t)) (filter (fun t => inside g t) tl)) gl.
Proof. unfold geo_list. rewrite somes_flat_map. apply flat_map_ext. intros g. apply somes_if. Qed.

Definition nat_list : list (option (R * R)) :=
  map (fun t => match filter (fun g => inside g t) gl with
                | [] => None
                | l => Some (total l (fun g => e g t), total l (fun g => a g t))
                end) tl.
Lemma column_sum : forall f t,
  (let col := map (fun g => sel_cell f g t) gl in
   if forallb (fun o => match o with None => true | Some _ => false end) col then None else Some (nansum col))
  = match filter (fun g => inside g t) gl with
    | [] => None | l => Some (total l (fun g => f g t)) end.
Proof.
  intros f t. cbv zeta. unfold nansum. rewrite present_somes. unfold sel_cell at 2.
  rewrite (somes_if _ _ (fun g => inside g t) (fun g => f g t)). unfold total.
  destruct (filter (fun g => inside g t) gl) as [|g0 l0] eqn:E.
  - assert (F : forallb (fun o => match o with None => true | Some _ => false end)
                  (map (fun g => sel_cell f g t) gl) = true).
    { rewrite forallb_forall. intros o Ho. apply in_map_iff in Ho. destruct Ho as (g & <- & Hg).
      unfold sel_cell. destruct (inside g t) eqn:Ei; [|reflexivity].
      assert (In g (filter (fun g => inside g t) gl)) by (apply filter_In; auto). rewrite E in H. destruct H. }
    rewrite F. reflexivity.
  - assert (F : forallb (fun o => match o with None => true | Some _ => false end)
                  (map (fun g => sel_cell f g t) gl) = false).
    { apply not_true_iff_false. rewrite forallb_forall. intros H.
      assert (Hg : In g0 (filter (fun g => inside g t) gl)) by (rewrite E; left; reflexivity).
      apply filter_In in Hg. destruct Hg as [Hg Hi].
      specialize (H (sel_cell f g0 t) (in_map (fun g => sel_cell f g t) gl g0 Hg)). unfold sel_cell in H. rewrite Hi in H. discriminate. }
    rewrite F. reflexivity.
Qed.
Lemma nansum_masked : forall f m, masked_matrix f m ->
  nansum_geos m = map (fun t => match filter (fun g => inside g t) gl with
                                | [] => None | l => Some (total l (fun g => f g t)) end) tl.
Proof.
  intros f m (Hr & Hc & Hm). unfold nansum_geos. rewrite Hr, Hc.
  rewrite <- (reindex_map nat 0%nat _ (fun t => match filter (fun g => inside g t) gl with
                                | [] => None | l => Some (total l (fun g => f g t)) end) tl).
  apply map_ext_in. intros j Hj. apply in_seq in Hj. rewrite <- column_sum. cbv zeta.
  assert (E : map (fun i => m_at m i j) (seq 0 (length gl)) = map (fun g => sel_cell f g (nth j tl 0%nat)) gl).
  { rewrite <- (reindex_map nat 0%nat _ (fun g => sel_cell f g (nth j tl 0%nat)) gl). apply map_ext_in. intros i Hi. apply in_seq in Hi. apply Hm; lia. }
  rewrite E. reflexivity.
Qed.
Lemma nat_e : map (fun t => match filter (fun g => inside g t) gl with
                            | [] => None | l => Some (total l (fun g => e g t)) end) tl = es nat_list.
Proof. unfold es, nat_list. rewrite map_map. apply map_ext. intros t. destruct (filter (fun g => inside g t) gl); reflexivity. Qed.
Lemma nat_a : map (fun t => match filter (fun g => inside g t) gl with
                            | [] => None | l => Some (total l (fun g => a g t)) end) tl = acs nat_list.
Proof. unfold acs, nat_list. rewrite map_map. apply map_ext. intros t. destruct (filter (fun g => inside g t) gl); reflexivity. Qed.
Lemma nat_somes : somes nat_list
  = flat_map (fun t => match filter (fun g => inside g t) gl with
                       | [] => [] | l => [(total l (fun g => e g t), total l (fun g => a g t))] end) tl.
Proof.
  unfold nat_list. unfold somes. rewrite flat_map_concat_map, map_map, <- flat_map_concat_map.
  apply flat_map_ext. intros t. destruct (filter (fun g => inside g t) gl); reflexivity.
Qed.
End Masked.

Definition geo_pairs (gl tl : list nat) (inside : nat -> nat -> bool) (e a : nat -> nat -> R) : list (R * R) :=
  flat_map (fun g => map (fun t => (e g t, a g t)) (filter (fun t => inside g t) tl)) gl.
Definition nat_pairs (gl tl : list nat) (inside : nat -> nat -> bool) (e a : nat -> nat -> R) : list (R * R) :=
  flat_map (fun t => match filter (fun g => inside g t) gl with
                     | [] => [] | l => [(total l (fun g => e g t), total l (fun g => a g t))] end) tl.

(** The three metrics of a masked matrix, geo by geo and national. *)
Definition metric_no (m : metric) : nat := match m with RSquared => 0 | Mape => 1 | WMape => 2 end.
Definition good (P : list (R * R)) (l : list (option R)) : Prop :=
  length l = 3%nat /\ forall m, is_metric m P (nth (metric_no m) l None).
Lemma helper_good : forall L, good (somes L) (accuracy_helper (acs L) (es L)).
Proof.
  intros L. split; [reflexivity|]. intros [| |]; cbn;
    [apply rsquared_masked|apply mape_masked|apply wmape_masked].
Qed.
Lemma geo_good : forall gl tl inside e a me ma,
  masked_matrix gl tl inside e me -> masked_matrix gl tl inside a ma ->
  good (geo_pairs gl tl inside e a) (accuracy_helper (ravel ma) (ravel me)).
Proof.
  intros gl tl inside e a me ma He Ha. rewrite (ravel_masked _ _ _ _ _ He), (ravel_masked _ _ _ _ _ Ha).
  rewrite (geo_e gl tl inside e a), (geo_a gl tl inside e a). unfold geo_pairs. rewrite <- geo_somes. apply helper_good.
Qed.
Lemma nat_good : forall gl tl inside e a me ma,
  masked_matrix gl tl inside e me -> masked_matrix gl tl inside a ma ->
  good (nat_pairs gl tl inside e a) (accuracy_helper (nansum_geos ma) (nansum_geos me)).
Proof.
  intros gl tl inside e a me ma He Ha. rewrite (nansum_masked _ _ _ _ _ He), (nansum_masked _ _ _ _ _ Ha).
  rewrite (nat_e gl tl inside e a), (nat_a gl tl inside e a). unfold nat_pairs. rewrite <- nat_somes. apply helper_good.
Qed.
