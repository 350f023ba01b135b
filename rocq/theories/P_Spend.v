(** Proofs about the aggregated spend. *)
From Coq Require Import Reals ZArith String List Bool Arith Lra Lia.
From Verif Require Import Lib_Sum M_Base M_AdstockHill M_Equations M_Transformers M_Aggregate
  S_Aggregate S_Adstock S_Media S_Analyzer M_Analyzer S_Predictor S_Paid M_Stats M_Summary S_Roi S_Summary M_Spend S_Spend
  P_Aggregate P_Analyzer P_AnalyzerIO P_Predictor P_Paid P_Roi P_Summary.
Import ListNotations.
Local Open Scope R_scope.

Section One.
Variables (x : model) (gs : option (list string)) (ts : option time_sel) (at' : bool) (gi ti : option (list nat)).
Hypotheses (W : well_formed x) (Hg : geos_ok x gs) (Ht : times_ok x ts)
  (Gi : resolve_geo_indices (x_geo x) gs = Ok gi) (Rg : in_range (x_n_geos x) gi)
  (Ti : resolve_time_indices (x_time x) (x_n_times x) ts = Ok ti) (Rt : in_range (x_n_times x) ti).
Let lead := if at' then [] else [length (chosen_times x ts)].

Lemma aggregate_one : forall y, geos y = x_n_geos x -> times y = x_n_times x ->
  In (chans y) (allowed_channel_dim (counts x)) ->
  exists t, filter_and_aggregate (counts x) (x_n_geos x) (x_n_times x) (of3 y) gi ti true at' true true = Ok t /\
    shape t = lead ++ [chans y] /\
    forall j c, (at' = false -> (j < length (chosen_times x ts))%nat) ->
      at_ t (position at' j ++ [c])
      = total (chosen_geos x gs) (fun g => total (members (chosen_times x ts) at' j) (fun t => val y g t c)).
Proof.
  intros y Gy Ty Cy.
  destruct (filter_media_lemma (counts x) (x_n_geos x) (x_n_times x) (times y) (chans y) (of3 y) []
              gi ti true at' true true) as (out & Ho & So & Vo).
  { cbn. rewrite Gy. reflexivity. }
  { exact Cy. } { exact Rg. } { rewrite Ty. exact Rt. } { reflexivity. }
  exists out. split; [exact Ho|].
  pose proof (chosen_geos_lemma _ _ _ Gi) as Eg. pose proof (chosen_times_lemma _ _ _ W Ht Ti) as Et.
  split.
  { rewrite So. unfold dimension, lead. rewrite Ty, Et. cbn [app]. reflexivity. }
  intros j c Hj. specialize (Vo [] 0%nat j c eq_refl).
  rewrite Ty, Eg, Et in Vo. specialize (Vo ltac:(discriminate) Hj). cbn [app position] in Vo.
  etransitivity; [exact Vo|]. unfold cell. rewrite Eg, Et. reflexivity.
Qed.

Lemma labels_fit : forall names n, length names = n ->
  coords_fit [if at' then None else Some (period_names x ts); Some names] (lead ++ [n]) = true.
Proof.
  intros names n <-. unfold coords_fit, lead, period_names. destruct at'; cbn [flat_map app].
  - apply shape_eqb_refl'.
  - rewrite map_length. apply shape_eqb_refl'.
Qed.

Lemma impute_runs : forall flat y s names y0, geos y = x_n_geos x -> times y = x_n_media_times x ->
  chans y = chans y0 -> In (chans y0) (allowed_channel_dim (counts x)) ->
  spend_fits flat (Some s) (Some y0) (x_n_geos x) (x_n_times x) -> length names = chans y0 ->
  exists t, impute_and_aggregate x y s names gi ti at' (if at' then None else Some (period_names x ts)) = Ok t /\
    tb_channel t = names /\ tb_time t = (if at' then None else Some (period_names x ts)) /\
    forall j c, (at' = false -> (j < length (chosen_times x ts))%nat) ->
      match s with
      | Spend3 z => tb_at t (position at' j ++ [c])
                    = Some (kind_spend (Some s) c (chosen_geos x gs) (members (chosen_times x ts) at' j))
      | Spend1 _ u =>
          is_quotient (tb_at t (position at' j ++ [c]))
            (u c * total (chosen_geos x gs) (fun g => total (members (chosen_times x ts) at' j)
                     (fun t => val y g (x_n_media_times x - x_n_times x + t)%nat c)))
            (total (chosen_geos x None) (fun g => total (chosen_times x None)
                     (fun t => val y g (x_n_media_times x - x_n_times x + t)%nat c)))
      end.
Proof.
  intros flat y s names y0 Gy Ty Cy Al F Hn. unfold impute_and_aggregate. cbv zeta.
  destruct s as [n u|z]; cbn [spend_fits] in F.
  - destruct F as [_ ->]. rewrite Ty, Nat.eqb_refl.
    pose proof (wf_times x W) as Wt.
    set (e := last_times (x_n_times x) y).
    assert (Te : times e = x_n_times x) by (unfold e; cbn; lia).
    assert (Ge : geos e = x_n_geos x) by exact Gy.
    assert (Ce : chans e = chans y0) by exact Cy.
    destruct (aggregate_one e Ge Te) as (t & -> & St & Vt); [rewrite Ce; exact Al|]. cbn [rbind].
    rewrite Ce, Nat.eqb_refl. cbn [negb raise_if rbind fst snd].
    rewrite St, Ce, (labels_fit names _ Hn). cbn [negb raise_if]. eexists. split; [reflexivity|].
    cbn [tb_channel tb_time tb_at]. split; [reflexivity|]. split; [reflexivity|].
    intros j c Hj. rewrite (Vt j c Hj), last_last. rewrite Ge, Te.
    set (N := total (chosen_geos x gs) _).
    assert (EN : N = total (chosen_geos x gs) (fun g => total (members (chosen_times x ts) at' j)
                     (fun t => val y g (x_n_media_times x - x_n_times x + t)%nat c))).
    { unfold N. apply total_ext'. intros g. apply total_ext'. intros v. unfold e. cbn [last_times val]. rewrite Ty. reflexivity. }
    set (D := rsum (x_n_geos x) _).
    assert (ED : D = total (chosen_geos x None) (fun g => total (chosen_times x None)
                     (fun t => val y g (x_n_media_times x - x_n_times x + t)%nat c))).
    { unfold D, chosen_geos, chosen_times, e. cbn [last_times val]. rewrite Ty.
      unfold total. rewrite lsum_seq. apply rsum_ext. intros g _. rewrite lsum_seq. reflexivity. }
    rewrite <- EN, <- ED. unfold fdiv. split; intros H0.
    + destruct (Req_EM_T D 0); [reflexivity|contradiction].
    + destruct (Req_EM_T D 0); [contradiction|]. eexists. split; [reflexivity|]. field. exact H0.
  - destruct F as (_ & Gz & Tz & Cz).
    destruct (aggregate_one z Gz Tz) as (t & -> & St & Vt); [rewrite Cz; exact Al|]. cbn [rbind fst snd].
    rewrite St, Cz, (labels_fit names _ Hn). cbn [negb raise_if]. eexists. split; [reflexivity|].
    cbn [tb_channel tb_time tb_at]. split; [reflexivity|]. split; [reflexivity|].
    intros j c Hj. rewrite (Vt j c Hj). reflexivity.
Qed.
End One.

Section All.
Variables (f : fitted) (fm fr : bool) (nd : new_tensors) (gs : option (list string)) (ts : option time_sel) (at' : bool).
Hypothesis Q : spend_request f fm fr nd gs ts.
Let x := f_x f.
Let s := spend_used f (nt_spend nd).

Lemma fill_used : fill_spend f (nt_spend nd) = s.
Proof. unfold fill_spend, s, spend_used, given_spend, orelse. destruct (s_media (nt_spend nd)), (s_rf (nt_spend nd)); reflexivity. Qed.

Lemma time_dims_lemma : forall ti, resolve_time_indices (x_time x) (x_n_times x) ts = Ok ti ->
  match ti with None => x_time x | Some l => map (fun t => nth t (x_time x) ""%string) l end = period_names x ts.
Proof.
  intros ti Ti. pose proof (chosen_times_lemma x ts ti (sq_model _ _ _ _ _ _ Q) (sq_times _ _ _ _ _ _ Q) Ti) as Et.
  unfold period_names. rewrite <- Et. unfold selection. destruct ti; [reflexivity|].
  rewrite <- (map_nth_seq (x_time x)) at 1. f_equal. f_equal. apply (wf_time x). apply Q.
Qed.

(** One kind of channel: what its table holds. *)
Definition kind_table (on : bool) (kind : nat -> channel) (n : nat) (names : list string) (t : spend_table) : Prop :=
  tb_channel t = (if on then names else []) /\ length (tb_channel t) = (if on then n else 0%nat) /\
  tb_time t = (if at' then None else Some (period_names x ts)) /\
  forall j c, on = true -> (c < n)%nat -> (at' = false -> (j < length (chosen_times x ts))%nat) ->
    is_spent x (nt_data nd) s (kind c) (chosen_geos x gs) (members (chosen_times x ts) at' j)
      (tb_at t (position at' j ++ [c])).

Lemma spend_table_lemma : forall im irf, im || irf = true ->
  exists t, get_aggregated_spend f nd gs ts at' im irf = Ok t /\
    tb_channel t = names_included f im irf /\
    tb_time t = (if at' then None else Some (period_names x ts)) /\
    forall ch j, is_paid x ch -> included im irf ch -> (at' = false -> (j < length (chosen_times x ts))%nat) ->
      is_spent x (nt_data nd) s ch (chosen_geos x gs) (members (chosen_times x ts) at' j)
        (tb_at t (position at' j ++ [column x im ch])).
Proof.
  intros im irf Hon. pose proof Q as [W Hn H Pm Pr Fm Fr Hg Ht]. fold x in W, Hn, H, Pm, Pr, Fm, Fr, Hg, Ht. fold s in Fm, Fr.
  unfold get_aggregated_spend. cbv zeta. fold x.
  replace (negb im && negb irf) with false by (destruct im, irf; auto; discriminate). cbn [raise_if].
  set (d := fill_missing x (nt_data nd) false false).
  assert (M0 : get_modified_times x d = None) by (apply (filled_paid x (nt_data nd) H)).
  destruct (package_runs x d gs ts W M0 Hg Ht) as (i & -> & Gi & Rg & Ti & Rt). cbn [rbind].
  rewrite (time_dims_lemma _ Ti), fill_used.
  pose proof (paid_dims x (nt_data nd) H) as (L1 & L2 & L3).
  pose proof (paid_well_formed x (nt_data nd) W H) as W'.
  pose proof (wf_media _ W') as Dm. pose proof (wf_reach _ W') as Dr. pose proof (wf_freq _ W') as Df.
  pose proof (wf_rf _ W') as Prf.
  cbn [paid_model x_data d_media d_reach d_frequency x_geo x_cx] in Dm, Dr, Df, Prf.
  change (x_n_geos (paid_model x (nt_data nd))) with (x_n_geos x) in *.
  change (x_n_media_times (paid_model x (nt_data nd))) with (x_n_media_times x) in *.
  assert (E0 : d_media d = given d_media (nt_data nd) x /\ d_reach d = given d_reach (nt_data nd) x /\
               d_frequency d = given d_frequency (nt_data nd) x).
  { unfold d, fill_missing. cbn. rewrite !orelse_given. auto. }
  destruct E0 as (-> & -> & ->).
  set (n := n_chans (d_media (x_data x))) in *. set (m := n_chans (d_reach (x_data x))) in *.
  assert (Hnn : length (f_paid_names f) = (n + m)%nat) by exact Hn.
  assert (Am : In n (allowed_channel_dim (counts x))) by (unfold allowed_channel_dim, allowed_n_channels, counts; cbn; tauto).
  assert (Ar : In m (allowed_channel_dim (counts x))) by (unfold allowed_channel_dim, allowed_n_channels, counts; cbn; tauto).
  set (td := if at' then None else Some (period_names x ts)).
  match goal with |- exists t, rbind ?A _ = _ /\ _ => assert (TM : exists t, A = Ok t /\ kind_table im ChMedia n (firstn n (f_paid_names f)) t) end.
  { destruct im; cbn [negb].
    2:{ exists (empty_table td). split; [reflexivity|]. repeat split; try reflexivity. discriminate. }
    destruct (d_media (x_data x)) as [y0|] eqn:Xm.
    - destruct (s_media (f_spend f)) as [s0|] eqn:Sm; [|exfalso; apply Pm; congruence].
      destruct (given d_media (nt_data nd) x) as [y|] eqn:Gm; [|contradiction].
      destruct (s_media s) as [u|] eqn:Us; [|contradiction].
      destruct Dm as [Dm1 Dm2]. destruct L1 as (_ & _ & Lc). cbn [n_chans] in n.
      destruct (impute_runs x gs ts at' (i_geo i) (i_time i) W Ht Gi Rg Ti Rt fm y u (firstn n (f_paid_names f)) y0
                  Dm1 Dm2 Lc Am Fm) as (t & Et & C & T & V).
      { rewrite firstn_length, Hnn. fold n. lia. }
      exists t. split; [exact Et|]. split; [exact C|]. split; [rewrite C, firstn_length, Hnn; lia|]. split; [exact T|].
      intros j c _ Hc Hj. specialize (V j c Hj). unfold is_spent, spend_of, channel_spend, channel_impressions, impressions_at.
      rewrite Us, Gm. destruct u; exact V.
    - exists (empty_table td). split; [reflexivity|]. cbn [n_chans] in n. repeat split; try reflexivity.
      intros j c _ Hc. unfold n in Hc. lia. }
  destruct TM as (ta & -> & Ca & La & Ta & Va). cbn [rbind].
  match goal with |- exists t, rbind ?A _ = _ /\ _ => assert (TR : exists t, A = Ok t /\ kind_table irf ChRf m (skipn n (f_paid_names f)) t) end.
  { destruct irf; cbn [negb].
    2:{ exists (empty_table td). split; [reflexivity|]. repeat split; try reflexivity. discriminate. }
    pose proof (wf_rf x W) as Prf0.
    destruct (d_reach (x_data x)) as [y0|] eqn:Xr.
    - destruct (d_frequency (x_data x)) as [q0|] eqn:Xf; [|contradiction].
      destruct (s_rf (f_spend f)) as [s0|] eqn:Sm; [|exfalso; apply Pr; congruence].
      destruct (given d_reach (nt_data nd) x) as [y|] eqn:Gm; [|contradiction].
      destruct (given d_frequency (nt_data nd) x) as [q|] eqn:Gf; [|contradiction].
      destruct (s_rf s) as [u|] eqn:Us; [|contradiction].
      destruct Dr as [Dr1 Dr2]. destruct Df as [Df1 Df2]. destruct L2 as (_ & _ & Lc). cbn [n_chans] in m.
      unfold times3. rewrite Dr1, Dr2, Df1, Df2, Prf, !Nat.eqb_refl. cbn [andb rbind].
      match goal with |- context [impute_and_aggregate x ?Y _ _ _ _ _ _] => set (e := Y) end.
      destruct (impute_runs x gs ts at' (i_geo i) (i_time i) W Ht Gi Rg Ti Rt fr e u (skipn n (f_paid_names f)) y0
                  eq_refl eq_refl) as (t & Et & C & T & V); auto.
      { unfold e. cbn [chans]. congruence. }
      { rewrite skipn_length, Hnn. fold m. lia. }
      exists t. split; [exact Et|]. split; [exact C|]. split; [rewrite C, skipn_length, Hnn; lia|]. split; [exact T|].
      intros j c _ Hc Hj. specialize (V j c Hj). unfold is_spent, spend_of, channel_spend, channel_impressions, impressions_at.
      rewrite Us, Gm, Gf. destruct u; exact V.
    - exists (empty_table td). split; [reflexivity|]. cbn [n_chans] in m.
      split; [symmetry; apply skipn_all2; lia|]. split; [reflexivity|]. split; [reflexivity|].
      intros j c _ Hc. unfold m in Hc. lia. }
  destruct TR as (tr & -> & Cr & Lr & Tr & Vr). cbn [rbind].
  eexists. split; [reflexivity|]. unfold concat_tables. cbn [tb_channel tb_time tb_at].
  split; [rewrite Ca, Cr; reflexivity|]. split; [exact Ta|].
  intros ch j Hc Hin Hj. rewrite last_last, removelast_last, La. destruct ch as [c|c| | |]; cbn in Hc, Hin; try contradiction.
  - cbn [column]. rewrite Hin. replace (c <? n)%nat with true by (symmetry; apply Nat.ltb_lt; exact Hc).
    apply Va; auto.
  - cbn [column]. fold n.
    set (k := if im then n else 0%nat). replace (k + c <? k)%nat with false by (symmetry; apply Nat.ltb_ge; lia).
    replace (k + c - k)%nat with c by lia. apply Vr; auto.
Qed.
End All.

(** ** Sums over periods and geos *)
Lemma total_singles : forall gl tl F,
  rsum (length tl) (fun j => total gl (fun g => total (members tl false j) (F g)))
  = total gl (fun g => total tl (F g)).
Proof.
  intros gl tl F. induction tl as [|t tl IH].
  - cbn [length rsum total map lsum]. symmetry. apply total_zero.
  - cbn [length]. rewrite rsum_first.
    transitivity (total gl (fun g => F g t) + total gl (fun g => total tl (F g))).
    + f_equal.
      * apply total_ext'. intros g. unfold members, total. cbn. lra.
      * rewrite <- IH. apply rsum_ext. intros j _. reflexivity.
    + rewrite <- total_plus. apply total_ext'. intros g. reflexivity.
Qed.

Definition amount_of (x : model) (nd : data) (s : spend_data) (ch : channel) (gl tl : list nat) : R :=
  match spend_of s ch with
  | Some (Spend1 _ _) => channel_spend s ch gl tl * channel_impressions x nd ch gl tl
      / channel_impressions x nd ch (chosen_geos x None) (chosen_times x None)
  | _ => channel_spend s ch gl tl
  end.

Lemma spent_amount : forall x nd s ch gl tl r, is_spent x nd s ch gl tl (Some r) -> r = amount_of x nd s ch gl tl.
Proof.
  intros x nd s ch gl tl r H. unfold is_spent, amount_of in *. destruct (spend_of s ch) as [[n u|y]|]; try contradiction.
  - destruct H as [H0 H1].
    destruct (Req_EM_T (channel_impressions x nd ch (chosen_geos x None) (chosen_times x None)) 0) as [E|E].
    + specialize (H0 E). discriminate.
    + destruct (H1 E) as (r' & E1 & E2). assert (r' = r) by congruence. subst. rewrite <- E2. field. exact E.
  - congruence.
Qed.

Lemma spent_somewhere : forall x nd s ch gl tl r gl' tl' v,
  is_spent x nd s ch gl tl (Some r) -> is_spent x nd s ch gl' tl' v -> exists r', v = Some r'.
Proof.
  intros x nd s ch gl tl r gl' tl' v H H'. unfold is_spent in *. destruct (spend_of s ch) as [[n u|y]|]; try contradiction.
  - destruct H as [H0 _], H' as [_ H1].
    destruct (Req_EM_T (channel_impressions x nd ch (chosen_geos x None) (chosen_times x None)) 0) as [E|E].
    + specialize (H0 E). discriminate.
    + destruct (H1 E) as (r' & -> & _). eauto.
  - eauto.
Qed.

Lemma amount_sum : forall x nd s ch gl tl, spend_of s ch <> None ->
  rsum (length tl) (fun j => amount_of x nd s ch gl (members tl false j)) = amount_of x nd s ch gl tl.
Proof.
  intros x nd s ch gl tl Hn. unfold amount_of. destruct (spend_of s ch) as [[n u|y]|] eqn:E; [| |congruence].
  - set (D := channel_impressions x nd ch (chosen_geos x None) (chosen_times x None)).
    assert (C : exists k, forall gl tl, channel_spend s ch gl tl = k).
    { unfold spend_of in E. unfold channel_spend. destruct ch as [c|c| | |]; try discriminate; rewrite E; cbn; eauto. }
    destruct C as (k & C). rewrite C.
    rewrite (rsum_ext _ _ (fun j => k / D * channel_impressions x nd ch gl (members tl false j)))
      by (intros j _; rewrite C; unfold Rdiv; ring).
    rewrite rsum_scal.
    assert (S : rsum (length tl) (fun j => channel_impressions x nd ch gl (members tl false j))
                = channel_impressions x nd ch gl tl)
      by (apply (total_singles gl tl (fun g t => impressions_at x nd ch g t))).
    rewrite S. unfold Rdiv. ring.
  - unfold spend_of in E. unfold channel_spend. destruct ch as [c|c| | |]; try discriminate; rewrite E; cbn [kind_spend];
    apply (total_singles gl tl (fun g t => val y g t c)).
Qed.

Lemma total_split : forall (p q : nat -> bool) l F, (forall i, In i l -> q i = negb (p i)) ->
  total (filter p l) F + total (filter q l) F = total l F.
Proof.
  intros p q l F. unfold total. induction l as [|a l IH]; intros H; [cbn; lra|].
  cbn [filter]. rewrite (H a (or_introl eq_refl)).
  specialize (IH (fun i Hi => H i (or_intror Hi))).
  destruct (p a); cbn [negb map lsum] in *; lra.
Qed.

Lemma chosen_split : forall x l1 l2 F,
  (forall g, In g (x_geo x) -> In g l1 <-> ~ In g l2) -> length (x_geo x) = x_n_geos x ->
  total (chosen_geos x (Some l1)) F + total (chosen_geos x (Some l2)) F = total (chosen_geos x None) F.
Proof.
  intros x l1 l2 F H L. unfold chosen_geos. apply total_split. intros i Hi. apply in_seq in Hi.
  assert (Hin : In (nth i (x_geo x) ""%string) (x_geo x)) by (apply nth_In; lia). specialize (H _ Hin).
  destruct (in_dec string_dec _ l1), (in_dec string_dec _ l2); cbn; tauto.
Qed.

Lemma amount_geos : forall x nd s ch l1 l2 tl, spend_of s ch <> None ->
  (forall g, In g (x_geo x) -> In g l1 <-> ~ In g l2) -> length (x_geo x) = x_n_geos x ->
  amount_of x nd s ch (chosen_geos x (Some l1)) tl + amount_of x nd s ch (chosen_geos x (Some l2)) tl
  = amount_of x nd s ch (chosen_geos x None) tl.
Proof.
  intros x nd s ch l1 l2 tl Hn H L. unfold amount_of. destruct (spend_of s ch) as [[n u|y]|] eqn:E; [| |congruence].
  - set (D := channel_impressions x nd ch (chosen_geos x None) (chosen_times x None)).
    assert (C : exists k, forall gl tl, channel_spend s ch gl tl = k).
    { unfold spend_of in E. unfold channel_spend. destruct ch as [c|c| | |]; try discriminate; rewrite E; cbn; eauto. }
    destruct C as (k & C). rewrite !C.
    unfold channel_impressions. rewrite <- (chosen_split x l1 l2 _ H L). unfold Rdiv. ring.
  - unfold spend_of in E. unfold channel_spend. destruct ch as [c|c| | |]; try discriminate; rewrite E; cbn [kind_spend];
    apply (chosen_split x l1 l2 _ H L).
Qed.
