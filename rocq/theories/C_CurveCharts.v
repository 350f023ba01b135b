(** Property C108: the charts of response curves and the range of the waterfall chart. *)
From Coq Require Import Reals QArith ZArith Lia Lra String List Bool Arith Permutation Sorted.
From Verif Require Import Lib_Sum M_Base Lib_Sort M_Stats M_Summary M_Report M_CurveCharts S_CurveCharts P_CurveCharts.
Import ListNotations.
Local Open Scope nat_scope.
Local Open Scope list_scope.

(** ** The chart of a model's curves.  The layered chart asks for 7 channels unless told otherwise, for at most 10 and at
    most all of the input, and for at least one. *)
Theorem C108_count : forall total wanted mult curves n table,
  plot_curves total false wanted mult curves = Ok (n, table) ->
  n = Z.max 1 (Z.min (match wanted with Some k => k | None => 7 end) (Z.min (Z.of_nat total) 10)).
Proof.
  intros total wanted mult curves n table H. unfold plot_curves in H. destruct (chart_table mult curves (shown_count total false wanted)); [|discriminate].
  cbn [rbind] in H. injection H as <- _. apply count_lemma.
Qed.
Print Assumptions C108_count.

(** The channels shown are those that spend most at present; the table has exactly the points of their curves, ordered
    by name, spend and multiplier, and marks those at present spend. *)
Theorem C108_layered : forall total separate wanted mult curves, mult_ok mult ->
  exists n table top,
    plot_curves total separate wanted mult curves = Ok (n, table) /\
    the_most (spends mult) (Z.to_nat n) curves top /\
    (exists rows, Forall2 (fun ci r => is_row mult (fst ci) (snd ci) r) (list_prod top (seq 0 (length mult))) rows /\ Permutation table rows) /\
    StronglySorted row_before table.
Proof.
  intros total separate wanted mult curves H. destruct (layered_lemma total separate wanted mult curves H) as (n & table & top & E & _ & R).
  exists n, table, top. exact (conj E R).
Qed.
Print Assumptions C108_layered.

(** The separate charts show every channel that has a curve, whatever number is asked for. *)
Theorem C108_separate : forall total wanted mult curves, mult_ok mult -> length curves <= total ->
  exists n table,
    plot_curves total true wanted mult curves = Ok (n, table) /\
    exists all rows, Permutation all curves /\
      Forall2 (fun ci r => is_row mult (fst ci) (snd ci) r) (list_prod all (seq 0 (length mult))) rows /\ Permutation table rows.
Proof.
  intros total wanted mult curves H L. destruct (layered_lemma total true wanted mult curves H) as (n & table & top & E & En & (Hl & rest & P & _) & (rows & F & Pr) & _).
  exists n, table. split; [exact E|]. exists top, rows. split; [|split; assumption].
  cbn in En. subst n. rewrite Nat2Z.id in Hl. rewrite Nat.min_r in Hl by exact L.
  assert (rest = []). { apply Permutation_length in P. rewrite app_length in P. destruct rest; [reflexivity|cbn in P; lia]. }
  subst rest. rewrite app_nil_r in P. apply Permutation_sym. exact P.
Qed.
Print Assumptions C108_separate.

Definition ex_mult : list Q := [0; 1; 2]%Q.
Definition ex_curve (name : string) (spend : Q) : curve :=
  mkCurve name (fun i => mkValues (spend * inject_Z (Z.of_nat i)) (inject_Z (Z.of_nat i)) 0 9)%Q.
Definition ex_curves : list curve := [ex_curve "a" 1; ex_curve "c" 5; ex_curve "b" 7]%string.
Example C108_layered_example : mult_ok ex_mult /\ spends ex_mult (ex_curve "c" 5) (5 * inject_Z 1)%Q /\
  exists table, plot_curves 3 false (Some 2%Z) ex_mult ex_curves = Ok (2%Z, table) /\
    map r_name table = ["b"; "b"; "b"; "c"; "c"; "c"]%string /\ map r_current table = [false; true; false; false; true; false].
Proof.
  split; [|split].
  - split; [exists 1; split; [cbn; lia|reflexivity]|]. intros i j Hi Hj E. cbn in Hi, Hj.
    destruct i as [|[|[|i]]]; [| | |lia]; destruct j as [|[|[|j]]]; try lia; cbn in E; try reflexivity; discriminate.
  - exists 1. split; [cbn; lia|]. split; reflexivity.
  - eexists. split; [vm_compute; reflexivity|]. split; reflexivity.
Qed.

(** Refuted: the layered chart shows 7 channels at most (visualizer.py:1074-1078). *)
Theorem C108_cap_refuted : exists curves n table,
  plot_curves (length curves) false (Some 9%Z) ex_mult curves = Ok (n, table) /\ (7 < n)%Z /\ 7 < length (nodup string_dec (map r_name table)).
Proof.
  exists (map (fun a => ex_curve a 1) ["a"; "b"; "c"; "d"; "e"; "f"; "g"; "h"; "i"]%string).
  eexists. eexists. split; [vm_compute; reflexivity|]. split; [lia|]. vm_compute. lia.
Qed.
Print Assumptions C108_cap_refuted.
(** Refuted: the title's number of channels is the number shown.  Channels without spend are counted, and have no curve. *)
Theorem C108_title_refuted : exists total curves n table,
  length curves <= total /\ plot_curves total false None ex_mult curves = Ok (n, table) /\
  n = 7%Z /\ length (nodup string_dec (map r_name table)) = 3.
Proof. exists 8, ex_curves. eexists. eexists. split; [cbn; lia|]. split; [vm_compute; reflexivity|]. split; reflexivity. Qed.
Print Assumptions C108_title_refuted.
(** Refuted: the channels of the table are ordered by their spend (visualizer.py:1457-1460). *)
Theorem C108_order_refuted : exists curves n table a b,
  plot_curves (length curves) false None ex_mult curves = Ok (n, table) /\ map r_name table = [a; a; a; b; b; b] /\
  (exists ca cb v w, In ca curves /\ In cb curves /\ c_name ca = a /\ c_name cb = b /\ spends ex_mult ca v /\ spends ex_mult cb w /\ (v < w)%Q) /\
  exists curves' n' table' ca' cb' v w,
    plot_curves (length curves') false None ex_mult curves' = Ok (n', table') /\ map r_name table' = [a; a; a; b; b; b] /\
    In ca' curves' /\ In cb' curves' /\ c_name ca' = a /\ c_name cb' = b /\ spends ex_mult ca' v /\ spends ex_mult cb' w /\ (w < v)%Q.
Proof.
  exists [ex_curve "a" 1; ex_curve "b" 2]%string. eexists. eexists. exists "a"%string, "b"%string. split; [vm_compute; reflexivity|].
  split; [reflexivity|].
  assert (Sp : forall name s, spends ex_mult (ex_curve name s) (s * inject_Z 1)%Q) by (intros name s; exists 1; split; [cbn; lia|]; split; reflexivity).
  split.
  - exists (ex_curve "a" 1), (ex_curve "b" 2). eexists. eexists. split; [left; reflexivity|]. split; [right; left; reflexivity|].
    split; [reflexivity|]. split; [reflexivity|]. split; [apply Sp|]. split; [apply Sp|]. reflexivity.
  - exists [ex_curve "a" 2; ex_curve "b" 1]%string. eexists. eexists. exists (ex_curve "a" 2), (ex_curve "b" 1). eexists. eexists.
    split; [vm_compute; reflexivity|]. split; [reflexivity|]. split; [left; reflexivity|]. split; [right; left; reflexivity|].
    split; [reflexivity|]. split; [reflexivity|]. split; [apply Sp|]. split; [apply Sp|]. reflexivity.
Qed.
Print Assumptions C108_order_refuted.

(** ** The chart after an optimization.  With a number of channels: those with the largest optimized spend, in that
    order, and exactly their curves and the points of their two plans, each with the limits of its own channel. *)
Theorem C108_optimized : forall channels k, NoDup (map h_name channels) -> (0 < k <= Z.of_nat (length channels))%Z ->
  exists top table,
    plottable channels (Some k) = Ok table /\
    the_most (fun h v => v = fst (h_opt h)) (Z.to_nat k) channels top /\ StronglySorted more_optimized top /\
    Permutation table (flat_map channel_rows top) /\ StronglySorted (in_channel_order top) table.
Proof. exact optimizer_lemma. Qed.
Print Assumptions C108_optimized.
(** Without a number, every channel; with more than there are, an error. *)
Theorem C108_all : forall channels n, NoDup (map h_name channels) -> n = None \/ n = Some 0%Z ->
  exists table, plottable channels n = Ok table /\ Permutation table (flat_map channel_rows channels).
Proof. exact all_lemma. Qed.
Print Assumptions C108_all.
Theorem C108_too_many : forall channels k, (Z.of_nat (length channels) < k)%Z -> plottable channels (Some k) = Err ValueError.
Proof.
  intros channels k H. unfold plottable. cbv zeta. destruct (Z.eqb_spec k 0); [lia|]. unfold top_channels. rewrite map_length.
  destruct (Z.ltb_spec (Z.of_nat (length channels)) k); [reflexivity|lia].
Qed.
Print Assumptions C108_too_many.
Definition ex_chan (name : string) (spend : Q) : chan := mkChan name (1 # 2) 2 (spend, 3%Q) (1%Q, 2%Q) [(0%Q, 0%Q, 0%Q); (1%Q, 4%Q, 2%Q)].
Definition ex_chans : list chan := [ex_chan "a" 1; ex_chan "c" 5; ex_chan "b" 7]%string.
Example C108_optimized_example : NoDup (map h_name ex_chans) /\ (0 < 2 <= Z.of_nat (length ex_chans))%Z /\
  exists table, plottable ex_chans (Some 2%Z) = Ok table /\ map (fun r => m_name (l_mark r)) table = ["b"; "b"; "b"; "b"; "c"; "c"; "c"; "c"]%string.
Proof.
  split; [|split; [cbn; lia|eexists; split; [vm_compute; reflexivity|reflexivity]]].
  cbn. constructor; [intros [H|[H|[]]]; discriminate|]. constructor; [intros [H|[]]; discriminate|]. constructor; [intros []|constructor].
Qed.
(** Refuted: a number that is no number of channels is an error.  With -1 all channels but the one that spends least are shown. *)
Theorem C108_negative_refuted : exists table, plottable ex_chans (Some (-1)%Z) = Ok table /\
  nodup string_dec (map (fun r => m_name (l_mark r)) table) = ["b"; "c"]%string.
Proof. eexists. split; [vm_compute; reflexivity|reflexivity]. Qed.
Print Assumptions C108_negative_refuted.

(** A point of a curve that is not at zero is on the solid line if it is within the limits of its channel, and on the
    dashed line if it is above the upper or not above the lower one. *)
Theorem C108_lines : forall r m, m_mult (l_mark r) = Some m -> ~ (m == 0)%Q -> (l_lower r <= l_upper r)%Q ->
  (solid r = true <-> (l_lower r <= m <= l_upper r)%Q) /\ (dashed r = true <-> (m <= l_lower r \/ l_upper r < m)%Q).
Proof. exact lines_lemma. Qed.
Print Assumptions C108_lines.
(** The rows of the plans are drawn as points, the rows of the curves are not; the plans are on no line. *)
Theorem C108_points : forall h r, In r (channel_rows h) ->
  (point_drawn r = true <-> m_mult (l_mark r) = None) /\ (m_mult (l_mark r) = None -> solid r = false /\ dashed r = false).
Proof.
  intros h r H. unfold channel_rows in H. apply in_app_iff in H. destruct H as [H|H].
  - apply in_map_iff in H. destruct H as (p & <- & _). cbn. split; [split; discriminate|discriminate].
  - destruct H as [<-|[<-|[]]]; cbn; (split; [split; reflexivity|intros _; split; reflexivity]).
Qed.
Print Assumptions C108_points.
Example C108_lines_example : forall r, r = mkLimited (mkMark "a" (Some 1%Q) 4 2 None) (1 # 2) 2 ->
  ~ (1 == 0)%Q /\ (l_lower r <= l_upper r)%Q /\ solid r = true /\ dashed r = false.
Proof. intros r ->. split; [discriminate|]. split; [discriminate|]. split; reflexivity. Qed.
(** Refuted: every point of a curve is on a line.  The point at zero is on none. *)
Theorem C108_zero_refuted : exists h table r, plottable [h] None = Ok table /\ In r table /\
  (l_lower r <= 0 <= l_upper r)%Q /\ m_mult (l_mark r) = Some 0%Q /\ solid r = false /\ dashed r = false /\ point_drawn r = false.
Proof.
  exists (mkChan "a" 0 2 (1%Q, 3%Q) (1%Q, 2%Q) [(0%Q, 0%Q, 0%Q); (1%Q, 4%Q, 2%Q)]). eexists. eexists. split; [vm_compute; reflexivity|].
  split; [left; reflexivity|]. split; [split; discriminate|]. repeat (split; [reflexivity|]). reflexivity.
Qed.
Print Assumptions C108_zero_refuted.

(** ** The range of the waterfall chart.  The axis is padded by a power of ten of the size of the losses. *)
Theorem C108_padding : forall d, (d < 0)%R ->
  (exists z, y_padding d = powerRZ 10 z) /\
  ((1 <= - d)%R -> (y_padding d <= - d < 10 * y_padding d)%R) /\ ((- d < 1)%R -> (y_padding d / 10 < - d <= y_padding d)%R).
Proof.
  intros d H. split; [|exact (padding_lemma d H)]. unfold y_padding. destruct (Rlt_dec d 0); [eexists; reflexivity|contradiction].
Qed.
Print Assumptions C108_padding.
(** If the optimized total is not below the other one, every bar ends within the axis, and starts within it or at zero.
    (By C85 the totals of a report are the sums of its channels.) *)
Theorem C108_domain : forall names ro rn, ~ In "optimized"%string names ->
  rp_total_incremental ro = rsum (length names) (mean_incremental ro) ->
  rp_total_incremental rn = rsum (length names) (mean_incremental rn) ->
  (rp_total_incremental rn <= rp_total_incremental ro)%R ->
  forall name a b, In (name, a, b) (waterfall names ro rn) ->
    let (lo, hi) := domain_scale names ro rn in (lo < b < hi)%R /\ (a = 0 \/ lo < a < hi)%R.
Proof. exact domain_lemma. Qed.
Print Assumptions C108_domain.
Local Open Scope R_scope.
Definition ex_report (v : R) : report :=
  mkReport (fun _ => 1) (fun _ => 1) (fun _ => Some (mkStats v v v v)) (fun _ => None) (fun _ => None)
    (fun _ => None) (fun _ => None) 1 (v - 1) v (Some v) None true.
Example C108_domain_example :
  ~ In "optimized"%string ["tv"%string] /\ rp_total_incremental (ex_report 8) = rsum 1 (mean_incremental (ex_report 8)) /\
  rp_total_incremental (ex_report 7) = rsum 1 (mean_incremental (ex_report 7)) /\
  rp_total_incremental (ex_report 7) <= rp_total_incremental (ex_report 8) /\
  In ("non_optimized"%string, 0, 7) (waterfall ["tv"%string] (ex_report 8) (ex_report 7)).
Proof.
  split; [intros [H|[]]; discriminate|]. split; [cbn; ring|]. split; [cbn; ring|]. split; [cbn; lra|].
  left. cbn. f_equal; [f_equal|]; ring.
Qed.
(** Refuted: for every result the bars are within the axis.  When the budget is cut, the bar of the outcome before is cut off. *)
Theorem C108_clipped_refuted : exists names ro rn b,
  ~ In "optimized"%string names /\ rp_total_incremental ro = rsum (length names) (mean_incremental ro) /\
  rp_total_incremental rn = rsum (length names) (mean_incremental rn) /\
  In ("non_optimized"%string, 0, b) (waterfall names ro rn) /\ snd (domain_scale names ro rn) < b.
Proof.
  exists ["tv"%string], (ex_report 60), (ex_report 100), 100. split; [intros [H|[]]; discriminate|]. split; [cbn; ring|]. split; [cbn; ring|].
  split; [left; cbn; f_equal; [f_equal|]; ring|].
  unfold domain_scale, waterfall_rows, delta_rows, is_negative. cbn [length seq map nth mean_incremental ex_report rp_incremental st_mean filter snd].
  destruct (Rlt_dec (60 - 100) 0) as [_|H]; [|lra]. cbn [negb filter sort_rows insert_row app rp_total_incremental ex_report].
  cbv zeta. set (d := sum_decr _). assert (E : d = - 40).
  { unfold d. cbn [sum_decr fold_right snd]. destruct (Rlt_dec 100 0); [lra|]. destruct (Rlt_dec (60 - 100) 0); [|lra]. destruct (Rlt_dec 0 0); lra. }
  rewrite E. destruct (C108_padding (- 40)) as ((z & Ez) & P & _); [lra|]. destruct P as [P1 P2]; [lra|].
  (* a power of ten that is at most 40 is at most 10 *)
  rewrite Ez in *. assert (Z : (z <= 1)%Z).
  { destruct (Z_le_gt_dec z 1) as [H|H]; [exact H|exfalso]. assert (G : powerRZ 10 2 <= powerRZ 10 z).
    { rewrite !powerRZ_Rpower by lra. apply Rle_Rpower; [lra|]. apply IZR_le. lia. }
    change (powerRZ 10 2) with (10 * (10 * 1)) in G. lra. }
  assert (G : powerRZ 10 z <= powerRZ 10 1).
  { rewrite !powerRZ_Rpower by lra. apply Rle_Rpower; [lra|]. apply IZR_le. exact Z. }
  change (powerRZ 10 1) with (10 * 1) in G. cbn [snd]. lra.
Qed.
Print Assumptions C108_clipped_refuted.
