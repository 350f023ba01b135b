(** Proofs of property C73: saving. *)
From Coq Require Import Reals ZArith String List Bool Lia Lra Sorted.
From Verif Require Import M_Base M_Time S_Time P_Time P_Period M_Hyper M_InputData S_InputData P_InputData P_DistSerde M_Marketing S_Marketing P_Marketing.
Import ListNotations.
Local Open Scope string_scope.
Local Open Scope nat_scope.
Local Open Scope list_scope.

(** *** Dates *)
Lemma not_decreasing_nodup : forall l, not_decreasing l -> NoDup l -> increasing l.
Proof.
  intros l H N. induction H as [|a l H IH Ha]; [constructor|]. inversion N; subst. constructor; [apply IH; assumption|].
  rewrite Forall_forall in *. intros x Hx. destruct (date_ltb a x) eqn:E; [apply date_ltb_iff; exact E|].
  apply date_ltb_nlt in E. exfalso. assert (a = x) by (apply before_total; [exact E|apply Ha; exact Hx]). subst. contradiction.
Qed.
Lemma increasing_unique : forall l s, increasing l -> increasing s -> (forall x, In x l <-> In x s) -> l = s.
Proof.
  induction l as [|a l IH]; intros s Hl Hs H.
  - destruct s as [|b s]; [reflexivity|]. exfalso. apply (H b). left. reflexivity.
  - destruct s as [|b s]; [exfalso; apply (H a); left; reflexivity|].
    apply StronglySorted_inv in Hl, Hs. destruct Hl as [Hl Fa], Hs as [Hs Fb]. rewrite Forall_forall in Fa, Fb.
    assert (E : a = b).
    { destruct (proj1 (H a) (or_introl eq_refl)) as [->|Ha]; [reflexivity|]. destruct (proj2 (H b) (or_introl eq_refl)) as [->|Hb]; [reflexivity|].
      exfalso. exact (before_irrefl a (before_trans _ _ _ (Fa b Hb) (Fb a Ha))). }
    subst b. f_equal. apply IH; auto. intros x. split; intros Hx.
    + destruct (proj1 (H x) (or_intror Hx)) as [->|Q]; [exfalso; exact (before_irrefl x (Fa x Hx))|exact Q].
    + destruct (proj2 (H x) (or_intror Hx)) as [->|Q]; [exfalso; exact (before_irrefl x (Fb x Hx))|exact Q].
Qed.
Lemma increasing_filter : forall f l, increasing l -> increasing (filter f l).
Proof.
  intros f l H. induction H as [|a l H IH Ha]; [constructor|]. cbn [filter]. destruct (f a); [|exact IH]. constructor; [exact IH|].
  rewrite Forall_forall in *. intros x Hx. apply filter_In in Hx. apply Ha. tauto.
Qed.
Lemma filter_dates : forall l s, not_decreasing l -> NoDup l -> not_decreasing s -> NoDup s -> incl s l ->
  filter (fun t => date_in t s) l = s.
Proof.
  intros l s Hl Nl Hs Ns I. apply increasing_unique; [apply increasing_filter, not_decreasing_nodup; auto|apply not_decreasing_nodup; auto|].
  intros x. rewrite filter_In, date_in_iff. split; [tauto|]. intros H. split; auto.
Qed.
Lemma bounds_length : forall all l, length (bounds_from all l) = length l.
Proof. intros all l. rewrite <- (map_length fst), bounds_fst, map_length. reflexivity. Qed.
Lemma intervals_ok : forall mt, evenly_spaced mt -> exists iv, date_intervals mt = Ok iv /\ map fst iv = mt.
Proof.
  intros mt (L & N & E). apply is_regular_iff in E. unfold date_intervals.
  destruct (Nat.ltb (length mt) 2) eqn:C; [apply Nat.ltb_lt in C; lia|]. cbn [raise_if].
  rewrite (proj2 (time_coordinates_ok mt) (conj L N)). cbn [rbind]. unfold get_period_bounds. rewrite E. cbn [negb raise_if get_selected_dates rbind].
  rewrite C. cbn [raise_if rbind]. eexists. split; [reflexivity|].
  assert (G : forall (l : list date) (b : list (Z * Z)), length b = length l -> map fst (combine l b) = l).
  { clear. induction l as [|x l IH]; intros [|y b] H; try discriminate; [reflexivity|]. cbn. f_equal. apply IH. injection H; auto. }
  apply G. apply bounds_length.
Qed.
Lemma interval_in : forall t iv, In t (map fst iv) -> exists p, interval_of t iv = Some p.
Proof.
  intros t iv. induction iv as [|[u i] iv IH]; intros H; [destruct H|]. cbn [interval_of].
  destruct (interval_of t iv) as [p|] eqn:E; [eauto|]. destruct H as [H|H]; [|destruct (IH H); congruence].
  cbn in H. subst u. assert (Q : date_eqb t t = true) by (apply date_eqb_iff; auto). rewrite Q. eauto.
Qed.

(** *** Saving one data point *)
Lemma select_in : forall A (eqb : A -> A -> bool) x l, (forall a b, eqb a b = true <-> a = b) -> In x l ->
  exists i, select eqb x l = Ok i /\ position eqb x l = Some i.
Proof. intros A eqb x l S H. destruct (position_in eqb S x l H) as (i & E & _). exists i. unfold select. rewrite E. auto. Qed.

Definition sval (o : option panel) (g : string) (t : date) (n : string) : option (option R) :=
  match o with Some s => if date_in t (p_times s) then Some (pval s g t n) else None | None => None end.
Definition zval (p : panel) (g : string) (t : date) (n : string) : Z := match pval p g t n with Some x => truncate x | None => 0%Z end.
Definition mvars (o sp : option panel) (g : string) (t : date) : list media_variable :=
  match o with Some p => map (fun n => mkMediaVar n (pval p g t n) (sval sp g t n)) (p_names p) | None => [] end.
Definition rvars (r f sp : option panel) (g : string) (t : date) : list rf_variable :=
  match r, f with
  | Some r, Some f => map (fun n => mkRfVar n (zval r g t n) (pval f g t n) (sval sp g t n)) (p_names r)
  | _, _ => []
  end.
Definition nvals (o : option panel) (g : string) (t : date) : list (string * option R) :=
  match o with Some p => if date_in t (p_times p) then map (fun n => (n, pval p g t n)) (p_names p) else [] | None => [] end.

(** Spend that has the labels of an array. *)
Definition covers (sp : option panel) (g : string) (names : list string) : Prop :=
  forall s, sp = Some s -> In g (p_geos s) /\ incl names (p_names s).
Lemma spend_field_ok : forall names c sp g t N, covers sp g N -> In c N -> spend_field names c sp g t = Ok (sval sp g t c).
Proof.
  intros names c [s|] g t N H Hc; [|reflexivity]. destruct (H s eq_refl) as [Hg Hn]. unfold spend_field, sval.
  destruct (date_in t (p_times s)) eqn:E; [|reflexivity]. apply date_in_iff in E. unfold pval.
  destruct (select_in _ String.eqb g (p_geos s) str_spec Hg) as (i & -> & ->).
  destruct (select_in _ date_eqb t (p_times s) date_eqb_iff E) as (j & -> & ->).
  destruct (select_in _ String.eqb c (p_names s) str_spec (Hn c Hc)) as (k & -> & ->). reflexivity.
Qed.
Lemma media_ok : forall g t p sp, NoDup (p_names p) -> In g (p_geos p) -> In t (p_times p) -> covers sp g (p_names p) ->
  media_variables g t p sp = Ok (mvars (Some p) sp g t).
Proof.
  intros g t p sp N Hg Ht Hs. unfold media_variables, mvars.
  destruct (select_in _ String.eqb g (p_geos p) str_spec Hg) as (i & Ei & Pi). rewrite Ei.
  destruct (select_in _ date_eqb t (p_times p) date_eqb_iff Ht) as (j & Ej & Pj). rewrite Ej. cbn [rbind].
  rewrite <- (combine_nth _ _ (fun kc => mkMediaVar (snd kc) (p_at p i j (fst kc)) (sval sp g t (snd kc)))).
  - apply all_ok_map. intros [k c] Hk. apply in_combine_seq in Hk. cbn [fst snd].
    rewrite (spend_field_ok _ c sp g t (p_names p) Hs (nth_error_In _ _ Hk)). reflexivity.
  - intros k c Hk. cbn [fst snd]. f_equal. unfold pval. rewrite Pi, Pj, (position_nth String.eqb str_spec _ _ _ N Hk). reflexivity.
Qed.
Definition fits (x : option R) : Prop := exists a, x = Some a /\ (0 <= a < IZR (2 ^ 63))%R.
Lemma truncate_nonneg : forall a, (0 <= a)%R -> (IZR (truncate a) <= a < IZR (truncate a) + 1)%R.
Proof.
  intros a H. unfold truncate. destruct (Rle_dec 0 a) as [_|N]; [|lra]. destruct (base_Int_part a) as [H1 H2]. split; lra.
Qed.
Lemma to_int64_ok : forall x a, x = Some a -> (0 <= a < IZR (2 ^ 63))%R -> to_int64 x = Ok (truncate a).
Proof.
  intros x a -> [H0 H1]. cbn [to_int64]. destruct (truncate_nonneg a H0) as [L U].
  assert (Z0 : (-1 < truncate a)%Z) by (apply lt_IZR; lra).
  assert (Z1 : (truncate a < 2 ^ 63)%Z) by (apply lt_IZR; lra). change (2 ^ 63)%Z with 9223372036854775808%Z in Z1.
  destruct (truncate a <? -9223372036854775808)%Z eqn:E1; [apply Z.ltb_lt in E1; lia|].
  destruct (9223372036854775807 <? truncate a)%Z eqn:E2; [apply Z.ltb_lt in E2; lia|]. reflexivity.
Qed.
Lemma rf_ok : forall g t r f sp, NoDup (p_names r) -> In g (p_geos r) -> In t (p_times r) -> In g (p_geos f) -> In t (p_times f) ->
  p_names f = p_names r -> (forall x, in_panel r x -> fits x) -> covers sp g (p_names r) ->
  rf_variables g t r f sp = Ok (rvars (Some r) (Some f) sp g t).
Proof.
  intros g t r f sp N Hg Ht Hg' Ht' En Hf Hs. unfold rf_variables, rvars.
  destruct (position_in String.eqb str_spec g (p_geos r) Hg) as (i & Pi & Ni).
  destruct (position_in date_eqb date_eqb_iff t (p_times r) Ht) as (j & Pj & Nj).
  unfold select at 1 2. rewrite Pi, Pj. cbn [rbind].
  destruct (select_in _ String.eqb g (p_geos f) str_spec Hg') as (i' & Ei & Qi). rewrite Ei.
  destruct (select_in _ date_eqb t (p_times f) date_eqb_iff Ht') as (j' & Ej & Qj). rewrite Ej. cbn [rbind].
  rewrite <- (combine_nth _ _ (fun kc => mkRfVar (snd kc) (zval r g t (snd kc)) (pval f g t (snd kc)) (sval sp g t (snd kc)))); [|reflexivity].
  apply all_ok_map. intros [k c] Hk. apply in_combine_seq in Hk. cbn [fst snd].
  assert (F : fits (p_at r i j k)).
  { apply Hf. exists i, j, k. repeat split; try (apply nth_error_Some; congruence). }
  destruct F as (a & Ea & Ha). rewrite (to_int64_ok _ a Ea Ha). cbn [rbind].
  assert (Hc : In c (p_names f)) by (rewrite En; exact (nth_error_In _ _ Hk)).
  destruct (select_in _ String.eqb c (p_names f) str_spec Hc) as (k' & Ek & Qk). rewrite Ek. cbn [rbind].
  rewrite (spend_field_ok _ c sp g t (p_names r) Hs (nth_error_In _ _ Hk)). cbn [rbind]. do 2 f_equal.
  - unfold zval, pval. rewrite Pi, Pj, (position_nth String.eqb str_spec _ _ _ N Hk), Ea. reflexivity.
  - unfold pval. rewrite Qi, Qj, Qk. reflexivity.
Qed.
Lemma named_ok : forall g t p, NoDup (p_names p) -> In g (p_geos p) -> In t (p_times p) ->
  named_values g t p = Ok (map (fun n => (n, pval p g t n)) (p_names p)).
Proof.
  intros g t p N Hg Ht. unfold named_values.
  destruct (select_in _ String.eqb g (p_geos p) str_spec Hg) as (i & -> & Pi).
  destruct (select_in _ date_eqb t (p_times p) date_eqb_iff Ht) as (j & -> & Pj). cbn [rbind]. f_equal.
  apply combine_nth. intros k c Hk. cbn [fst snd]. f_equal. unfold pval.
  rewrite Pi, Pj, (position_nth String.eqb str_spec _ _ _ N Hk). reflexivity.
Qed.
Lemma controls_ok : forall g t o, (forall p, o = Some p -> NoDup (p_names p) /\ In g (p_geos p)) -> controls_field g t o = Ok (nvals o g t).
Proof.
  intros g t [p|] H; [|reflexivity]. destruct (H p eq_refl) as [N Hg]. cbn [controls_field nvals].
  destruct (date_in t (p_times p)) eqn:E; [|reflexivity]. apply named_ok; auto. apply date_in_iff. exact E.
Qed.
Lemma non_media_ok : forall g t o, (forall p, o = Some p -> NoDup (p_names p) /\ In g (p_geos p)) -> non_media_field g t o = Ok (nvals o g t).
Proof.
  intros g t [p|] H; [|reflexivity]. destruct (H p eq_refl) as [N Hg]. cbn [non_media_field nvals].
  rewrite (proj2 (existsb_str g (p_geos p)) Hg). cbn [andb].
  destruct (date_in t (p_times p)) eqn:E; [|reflexivity]. apply named_ok; auto. apply date_in_iff. exact E.
Qed.
Lemma matrix_value_ok : forall g t m, In g (m_geos m) -> In t (m_times m) -> matrix_value g t m = Ok (mval m g t).
Proof.
  intros g t m Hg Ht. unfold matrix_value, mval.
  destruct (select_in _ String.eqb g (m_geos m) str_spec Hg) as (i & -> & ->).
  destruct (select_in _ date_eqb t (m_times m) date_eqb_iff Ht) as (j & -> & ->). reflexivity.
Qed.
Definition kmsg (d : input) (g : string) (t : date) : option kpi_message :=
  if date_in t (m_times (i_kpi d)) then
    Some (if String.eqb (i_kpi_type d) "revenue" then KpiRevenue (mval (i_kpi d) g t)
          else KpiNonRevenue (mval (i_kpi d) g t) (match i_rpk d with Some m => Some (mval m g t) | None => None end))
  else None.
Lemma kpi_field_ok : forall d g t, In g (m_geos (i_kpi d)) ->
  (forall m, i_kpi_type d <> "revenue" -> i_rpk d = Some m -> In g (m_geos m) /\ m_times m = m_times (i_kpi d)) ->
  kpi_field d g t = Ok (kmsg d g t).
Proof.
  intros d g t Hg Hm. unfold kpi_field, kmsg. destruct (date_in t (m_times (i_kpi d))) eqn:E; [|reflexivity].
  apply date_in_iff in E. rewrite (matrix_value_ok g t (i_kpi d) Hg E). cbn [rbind].
  destruct (String.eqb (i_kpi_type d) "revenue") eqn:K; [reflexivity|]. apply String.eqb_neq in K.
  destruct (i_rpk d) as [m|]; [|reflexivity]. destruct (Hm m K eq_refl) as [Hg' Et].
  rewrite (matrix_value_ok g t m Hg') by (rewrite Et; exact E). reflexivity.
Qed.

(** The data point of a geo and a date. *)
Definition popval (d : input) (g : string) : option R :=
  match position String.eqb g (v_geos (i_population d)) with Some i => v_at (i_population d) i | None => None end.
Definition closed (d : input) (iv : list (date * (Z * Z))) (g : string) (t : date) : point :=
  mkPoint (Some (g, popval d g)) t (match interval_of t iv with Some p => snd p | None => 0%Z end)
    (nvals (i_controls d) g t)
    (mvars (i_media d) (granular (i_media_spend d)) g t ++ mvars (i_organic_media d) None g t)
    (rvars (i_reach d) (i_frequency d) (granular (i_rf_spend d)) g t ++ rvars (i_organic_reach d) (i_organic_frequency d) None g t)
    (nvals (i_non_media d) g t) (kmsg d g t).

(** *** Facts about data that can be saved *)
Section Facts.
Variable d : input.
Hypothesis ok : acceptable d.
Hypothesis sv : savable d.
Definition geos_of := m_geos (i_kpi d).
Definition times_of := m_times (i_kpi d).

Lemma geos_nodup : NoDup (m_geos (i_kpi d)).
Proof. apply ok. Qed.
Lemma geos_ne : m_geos (i_kpi d) <> [].
Proof. apply sv. Qed.
Lemma no_empty_geo : forall g, In g (m_geos (i_kpi d)) -> String.eqb g "" = false.
Proof. intros g H. apply String.eqb_neq. intros ->. apply (proj1 (proj2 sv)). exact H. Qed.
Lemma pop_geos : v_geos (i_population d) = m_geos (i_kpi d).
Proof. apply ok. Qed.
Lemma panel_geos : forall p, In (Some p) (panels d) -> p_geos p = m_geos (i_kpi d).
Proof. apply ok. Qed.
Lemma times_nodup : NoDup (m_times (i_kpi d)).
Proof. apply sv. Qed.
Lemma kpi_spaced : evenly_spaced (m_times (i_kpi d)).
Proof. apply ok. Qed.
Lemma times_ne : m_times (i_kpi d) <> [].
Proof. destruct kpi_spaced as [L _]. destruct (m_times (i_kpi d)); [cbn in L; lia|discriminate]. Qed.
Lemma control_times : forall p, In (Some p) [i_controls d; i_non_media d] -> p_times p = m_times (i_kpi d).
Proof. apply sv. Qed.
Lemma rpk_times : forall m, i_rpk d = Some m -> m_times m = m_times (i_kpi d).
Proof. apply sv. Qed.
Lemma rpk_geos : forall m, i_kpi_type d <> "revenue" -> i_rpk d = Some m -> m_geos m = m_geos (i_kpi d).
Proof. apply ok. Qed.
Lemma granular_labels : forall p, In (Some (SpendPanel p)) [i_media_spend d; i_rf_spend d] -> p_geos p = m_geos (i_kpi d) /\ p_times p = m_times (i_kpi d).
Proof. apply sv. Qed.
Lemma names_ne : forall p, In (Some p) (panels d) -> p_names p <> [].
Proof. apply sv. Qed.
Lemma control_names : forall p, i_controls d = Some p -> NoDup (p_names p).
Proof. apply sv. Qed.
Lemma spend_media : i_media d = None -> i_media_spend d = None.
Proof. apply sv. Qed.
Lemma spend_reach : i_reach d = None -> i_rf_spend d = None.
Proof. apply sv. Qed.
Lemma reach_frequency : i_reach d = None <-> i_frequency d = None.
Proof. apply sv. Qed.
Lemma organic_reach_frequency : i_organic_reach d = None <-> i_organic_frequency d = None.
Proof. apply sv. Qed.
Lemma media_spend_names : agree p_names spend_names (i_media d) (i_media_spend d).
Proof. apply ok. Qed.
Lemma reach_spend_names : agree p_names spend_names (i_reach d) (i_rf_spend d).
Proof. apply ok. Qed.
Lemma frequency_names : agree p_names p_names (i_reach d) (i_frequency d).
Proof. apply ok. Qed.
Lemma organic_frequency_names : agree p_names p_names (i_organic_reach d) (i_organic_frequency d).
Proof. apply ok. Qed.
Lemma channels_nodup :
  NoDup (of_option p_names (i_media d) ++ of_option p_names (i_reach d) ++ of_option p_names (i_organic_media d) ++
         of_option p_names (i_organic_reach d) ++ of_option p_names (i_non_media d)).
Proof. apply ok. Qed.

Lemma media_time_ok : exists mt, media_time d = Ok mt /\ evenly_spaced mt /\ NoDup mt /\ incl (m_times (i_kpi d)) mt /\
  (forall p, In (Some p) (media_panels d) -> p_times p = mt).
Proof.
  destruct ok as (_ & _ & _ & _ & _ & _ & _ & _ & _ & _ & _ & _ & Em & Er & Hm & _).
  destruct sv as (_ & _ & Same & Dates & _).
  destruct (i_media d) as [p|] eqn:E.
  - exists (p_times p). unfold media_time. rewrite E. assert (Hin : In (Some p) (media_panels d)) by (left; exact E).
    split; [reflexivity|]. split; [apply Em; reflexivity|]. destruct (Dates p Hin) as [N I]. split; [exact N|]. split; [exact I|].
    intros q Hq. apply Same; auto.
  - destruct (i_reach d) as [p|] eqn:E2; [|exfalso; destruct Hm as [Hm|Hm]; apply Hm; reflexivity].
    exists (p_times p). unfold media_time. rewrite E, E2. assert (Hin : In (Some p) (media_panels d)) by (right; left; exact E2).
    split; [reflexivity|]. split; [apply Er; reflexivity|]. destruct (Dates p Hin) as [N I]. split; [exact N|]. split; [exact I|].
    intros q Hq. apply Same; auto.
Qed.

Lemma reach_fits : forall p x, In (Some p) [i_reach d; i_organic_reach d] -> in_panel p x -> fits x.
Proof.
  intros p x Hp Hx. destruct ok as (_ & _ & Na & Neg & _). destruct sv as (_ & _ & _ & _ & _ & _ & _ & _ & _ & _ & _ & _ & _ & _ & B & _).
  destruct x as [a|].
  - exists a. split; [reflexivity|]. split; [|exact (B p a Hp Hx)]. apply Neg. right. right. left. exists p. split; [|exact Hx].
    destruct Hp as [Hp|[Hp|[]]]; [left; exact Hp|right; right; left; exact Hp].
  - exfalso. apply (Na None); [|reflexivity]. right. right. right. left. exists p. split; [|exact Hx].
    destruct Hp as [Hp|[Hp|[]]]; [right; right; left; exact Hp|right; right; right; right; right; left; exact Hp].
Qed.

Lemma nodup_app : forall A (l1 l2 : list A), NoDup (l1 ++ l2) -> NoDup l1 /\ NoDup l2 /\ forall x, In x l1 -> ~ In x l2.
Proof.
  intros A l1 l2. induction l1 as [|a l1 IH]; cbn [app]; intros H; [repeat split; auto; constructor|].
  inversion H; subst. destruct IH as (N1 & N2 & D); auto. split; [constructor; auto; intros Q; apply H2, in_or_app; auto|].
  split; [exact N2|]. intros x [<-|Hx] Hy; [apply H2, in_or_app; auto|exact (D x Hx Hy)].
Qed.
Lemma media_nodup : forall p, i_media d = Some p -> NoDup (p_names p).
Proof. intros p E. pose proof channels_nodup as H. rewrite E in H. cbn [of_option] in H. apply nodup_app in H. tauto. Qed.
Lemma reach_nodup : forall p, i_reach d = Some p -> NoDup (p_names p).
Proof. intros p E. pose proof channels_nodup as H. apply nodup_app in H. destruct H as (_ & H & _). rewrite E in H. apply nodup_app in H. tauto. Qed.
Lemma organic_nodup : forall p, i_organic_media d = Some p -> NoDup (p_names p).
Proof. intros p E. pose proof channels_nodup as H. do 2 (apply nodup_app in H; destruct H as (_ & H & _)). rewrite E in H. apply nodup_app in H. tauto. Qed.
Lemma organic_reach_nodup : forall p, i_organic_reach d = Some p -> NoDup (p_names p).
Proof. intros p E. pose proof channels_nodup as H. do 3 (apply nodup_app in H; destruct H as (_ & H & _)). rewrite E in H. apply nodup_app in H. tauto. Qed.
Lemma non_media_nodup : forall p, i_non_media d = Some p -> NoDup (p_names p).
Proof. intros p E. pose proof channels_nodup as H. do 4 (apply nodup_app in H; destruct H as (_ & H & _)). rewrite E in H. exact H. Qed.

Ltac inp := cbn; tauto.
Lemma in_panels : forall p, i_controls d = Some p \/ i_media d = Some p \/ i_reach d = Some p \/ i_frequency d = Some p \/ i_organic_media d = Some p \/
  i_organic_reach d = Some p \/ i_organic_frequency d = Some p \/ i_non_media d = Some p -> In (Some p) (panels d).
Proof. intros p H. cbn. intuition auto. Qed.
Lemma in_media_panels : forall p, i_media d = Some p \/ i_reach d = Some p \/ i_frequency d = Some p \/ i_organic_media d = Some p \/
  i_organic_reach d = Some p \/ i_organic_frequency d = Some p -> In (Some p) (media_panels d).
Proof. intros p H. cbn. intuition auto. Qed.

Lemma data_point_ok : forall mt iv g t, (forall p, In (Some p) (media_panels d) -> p_times p = mt) -> map fst iv = mt ->
  In g (m_geos (i_kpi d)) -> In t mt -> data_point d iv g t = Ok (closed d iv g t).
Proof.
  intros mt iv g t Hmt Hiv Hg Ht. unfold data_point, closed.
  assert (Gp : forall p, In (Some p) (panels d) -> In g (p_geos p)) by (intros p Hp; rewrite (panel_geos p Hp); exact Hg).
  assert (Tp : forall p, In (Some p) (media_panels d) -> In t (p_times p)) by (intros p Hp; rewrite (Hmt p Hp); exact Ht).
  assert (Hpop : In g (v_geos (i_population d))) by (rewrite pop_geos; exact Hg).
  destruct (select_in _ String.eqb g _ str_spec Hpop) as (i & Ei & Pi). rewrite Ei. cbn [rbind].
  destruct (interval_in t iv) as [b Eb]; [rewrite Hiv; exact Ht|]. rewrite Eb. cbn [rbind].
  rewrite controls_ok by (intros p E; split; [apply control_names; exact E|apply Gp, in_panels; tauto]). cbn [rbind].
  assert (Em : match i_media d with Some m => media_variables g t m (granular (i_media_spend d)) | None => Ok [] end
    = Ok (mvars (i_media d) (granular (i_media_spend d)) g t)).
  { destruct (i_media d) as [p|] eqn:E; [|reflexivity]. apply media_ok.
    - apply media_nodup; exact E.
    - apply Gp, in_panels; tauto.
    - apply Tp, in_media_panels; tauto.
    - intros s Es. destruct (i_media_spend d) as [[q|]|] eqn:Q; try discriminate. assert (q = s) by (cbn in Es; congruence). subst q.
      destruct (granular_labels s) as [Hgs _]; [left; exact Q|]. split; [rewrite Hgs; exact Hg|].
      rewrite (media_spend_names p _ E Q). apply incl_refl. }
  rewrite Em. cbn [rbind].
  assert (Er : match i_reach d, i_frequency d with Some r, Some f => rf_variables g t r f (granular (i_rf_spend d)) | _, _ => Ok [] end
    = Ok (rvars (i_reach d) (i_frequency d) (granular (i_rf_spend d)) g t)).
  { destruct (i_reach d) as [r|] eqn:E; [|reflexivity]. destruct (i_frequency d) as [f|] eqn:E2; [|reflexivity]. apply rf_ok.
    - apply reach_nodup; exact E.
    - apply Gp, in_panels; tauto.
    - apply Tp, in_media_panels; tauto.
    - apply Gp, in_panels; tauto.
    - apply Tp, in_media_panels; tauto.
    - symmetry. exact (frequency_names r f E E2).
    - intros x Hx. apply (reach_fits r x); [left; exact E|exact Hx].
    - intros s Es. destruct (i_rf_spend d) as [[q|]|] eqn:Q; try discriminate. assert (q = s) by (cbn in Es; congruence). subst q.
      destruct (granular_labels s) as [Hgs _]; [right; left; exact Q|]. split; [rewrite Hgs; exact Hg|].
      rewrite (reach_spend_names r _ E Q). apply incl_refl. }
  rewrite Er. cbn [rbind].
  assert (Eo : match i_organic_media d with Some m => media_variables g t m None | None => Ok [] end = Ok (mvars (i_organic_media d) None g t)).
  { destruct (i_organic_media d) as [p|] eqn:E; [|reflexivity]. apply media_ok.
    - apply organic_nodup; exact E.
    - apply Gp, in_panels; tauto.
    - apply Tp, in_media_panels; tauto.
    - intros s Es. discriminate. }
  rewrite Eo. cbn [rbind].
  assert (Ef : match i_organic_reach d, i_organic_frequency d with Some r, Some f => rf_variables g t r f None | _, _ => Ok [] end
    = Ok (rvars (i_organic_reach d) (i_organic_frequency d) None g t)).
  { destruct (i_organic_reach d) as [r|] eqn:E; [|reflexivity]. destruct (i_organic_frequency d) as [f|] eqn:E2; [|reflexivity]. apply rf_ok.
    - apply organic_reach_nodup; exact E.
    - apply Gp, in_panels; tauto.
    - apply Tp, in_media_panels; tauto.
    - apply Gp, in_panels; tauto.
    - apply Tp, in_media_panels; tauto.
    - symmetry. exact (organic_frequency_names r f E E2).
    - intros x Hx. apply (reach_fits r x); [right; left; exact E|exact Hx].
    - intros s Es. discriminate. }
  rewrite Ef. cbn [rbind].
  rewrite non_media_ok by (intros p E; split; [apply non_media_nodup; exact E|apply Gp, in_panels; tauto]). cbn [rbind].
  rewrite kpi_field_ok; [|exact Hg|intros m K E; split; [rewrite (rpk_geos m K E); exact Hg|apply rpk_times; exact E]]. cbn [rbind].
  f_equal. f_equal. unfold popval. rewrite Pi. reflexivity.
Qed.
End Facts.
