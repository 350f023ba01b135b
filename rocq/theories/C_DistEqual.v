(** C84: when a prior counts as the default one. *)
From Coq Require Import Reals String List Bool Arith Lia Lra.
From Verif Require Import M_Base M_DistEqual S_DistEqual P_DistEqual.
Import ListNotations.
Local Open Scope string_scope.
Local Open Scope R_scope.
Local Open Scope nat_scope.
Local Open Scope list_scope.

(** C84 (deciding).  For distributions with distinct parameter names whose arrays can be compared,
    the comparison answers, and answers yes exactly for distributions that are the same up to
    rounding. *)
Theorem C84_equal : forall a b, distinct a -> distinct b -> all_comparable a b ->
  exists r, distributions_are_equal a b = Ok r /\ (r = true <-> same a b).
Proof. exact equal_exact. Qed.
Print Assumptions C84_equal.

(** C84 (itself).  A distribution equals itself. *)
Theorem C84_itself : forall a, distinct a -> distributions_are_equal a a = Ok true.
Proof. exact equal_refl. Qed.
Print Assumptions C84_itself.

(** C84 (warnings).  The warnings name exactly the priors of paid media and of paid reach and
    frequency effects that are not read under the chosen types of prior and are not the default
    ones; no warning is empty. *)
Theorem C84_warnings : forall mt rt prior default,
  (forall k, In k (media_effects ++ rf_effects) -> distinct (prior k) /\ distinct (default k) /\ all_comparable (prior k) (default k)) ->
  exists ws, ignored_warnings mt rt prior default = Ok ws /\
    (forall k, (exists w, In w ws /\ In k w) <->
       (In k (media_effects ++ rf_effects) /\ ~ is_read mt rt k /\ ~ same (prior k) (default k))) /\
    (forall w, In w ws -> w <> []).
Proof. exact warnings_exact. Qed.
Print Assumptions C84_warnings.

(** A log-normal distribution with a location, a scale and a name. *)
Definition lognormal (loc scale : pvalue) (name : nat) : distr :=
  Distr "LogNormal" None None [("loc", loc); ("scale", scale); ("validate_args", Number 0%R); ("name", Other name)].

Lemma lognormal_inside : forall x loc scale name, inside x (lognormal loc scale name) -> x = lognormal loc scale name.
Proof. intros x loc scale name I. unfold lognormal in I. inversion I; subst. reflexivity. Qed.

Lemma lognormal_distinct : forall loc scale name, distinct (lognormal loc scale name).
Proof.
  intros loc scale name x I. apply lognormal_inside in I. subst x. cbn [params_of lognormal map fst].
  repeat constructor; cbn [In]; intros H; repeat (destruct H as [H|H]; [discriminate H|]); exact H.
Qed.

Lemma lognormal_equal : forall l s n l' s' n',
  distributions_are_equal (lognormal l s n) (lognormal l' s' n') =
  rbind (values_equal l l') (fun e => if e then rbind (values_equal s s') (fun e => if e then
    (if n =? n' then Ok true else Ok false) else Ok false) else Ok false).
Proof.
  intros. unfold lognormal. cbn -[values_equal rbind Nat.eqb].
  unfold rbind at 1 2. cbn -[values_equal rbind Nat.eqb].
  destruct (values_equal l l') as [[]|]; [|reflexivity|reflexivity]. unfold rbind at 1 3.
  destruct (values_equal s s') as [[]|]; [|reflexivity|reflexivity]. unfold rbind at 1 3.
  rewrite value_refl. unfold rbind at 1. unfold values_equal, rbind. destruct (n =? n'); reflexivity.
Qed.

Lemma close : forall x y, near x y -> values_equal (Number x) (Number y) = Ok true.
Proof. intros x y N. unfold values_equal, allclose. f_equal. apply isclose_near. exact N. Qed.

Lemma far : forall x y, ~ near x y -> values_equal (Number x) (Number y) = Ok false.
Proof.
  intros x y N. unfold values_equal, allclose. f_equal. destruct (isclose x y) eqn:E; [|reflexivity].
  exfalso. apply N. apply isclose_near. exact E.
Qed.

(** C84 (symmetry): refuted.  Nearness is relative to the second distribution. *)
Theorem C84_symmetric_refuted : exists a b, distinct a /\ distinct b /\
  distributions_are_equal a b = Ok true /\ distributions_are_equal b a = Ok false.
Proof.
  exists (lognormal (Number 99999%R) (Number 1%R) 0), (lognormal (Number 100000%R) (Number 1%R) 0).
  split; [apply lognormal_distinct|]. split; [apply lognormal_distinct|].
  rewrite !lognormal_equal, (close 1%R 1%R) by apply near_refl.
  rewrite close, far; [split; reflexivity| |].
  - unfold near. rewrite (Rabs_right (100000 - 99999)) by lra. rewrite (Rabs_right 99999) by lra. lra.
  - unfold near. rewrite (Rabs_left (99999 - 100000)) by lra. rewrite (Rabs_right 100000) by lra. lra.
Qed.
Print Assumptions C84_symmetric_refuted.

(** C84 (transitivity): refuted. *)
Theorem C84_transitive_refuted : exists a b c, distinct a /\ distinct b /\ distinct c /\
  distributions_are_equal a b = Ok true /\ distributions_are_equal b c = Ok true /\ distributions_are_equal a c = Ok false.
Proof.
  exists (lognormal (Number 100000%R) (Number 1%R) 0), (lognormal (Number 100000.6%R) (Number 1%R) 0), (lognormal (Number 100001.2%R) (Number 1%R) 0).
  do 3 (split; [apply lognormal_distinct|]).
  rewrite !lognormal_equal, (close 1%R 1%R) by apply near_refl.
  rewrite (close 100000%R 100000.6%R), (close 100000.6%R 100001.2%R), (far 100000%R 100001.2%R); [repeat split; reflexivity| | |].
  - unfold near. rewrite (Rabs_left (100000 - 100001.2)) by lra. rewrite (Rabs_right 100001.2) by lra. lra.
  - unfold near. rewrite (Rabs_left (100000.6 - 100001.2)) by lra. rewrite (Rabs_right 100001.2) by lra. lra.
  - unfold near. rewrite (Rabs_left (100000 - 100000.6)) by lra. rewrite (Rabs_right 100000.6) by lra. lra.
Qed.
Print Assumptions C84_transitive_refuted.

(** C84 (only the law matters): refuted.  The default law under another name is not the default, so
    that the model takes it for a custom prior. *)
Theorem C84_name_refuted : exists loc scale n n', n <> n' /\
  distributions_are_equal (lognormal loc scale n) (lognormal loc scale n') = Ok false.
Proof.
  exists (Number 0.2%R), (Number 0.9%R), 0, 1. split; [discriminate|].
  rewrite lognormal_equal, !value_refl. reflexivity.
Qed.
Print Assumptions C84_name_refuted.

(** C84 (shape): refuted.  A distribution per channel with the default's numbers is the default, and
    one whose numbers are off by less than the tolerance is, too. *)
Theorem C84_shape_refuted : forall n, exists locs, length locs = n /\ ~ (n <> 0 /\ forall x, In x locs -> x = 0.2%R) /\
  distributions_are_equal (lognormal (Array locs) (Number 0.9%R) 0) (lognormal (Number 0.2%R) (Number 0.9%R) 0) = Ok true.
Proof.
  intros n. exists (repeat 0.200001%R n). split; [apply repeat_length|]. split.
  - intros [N H]. destruct n as [|n]; [apply N; reflexivity|]. specialize (H _ (or_introl eq_refl)). lra.
  - rewrite lognormal_equal, value_refl. unfold values_equal, allclose.
    replace (forallb _ _) with true; [reflexivity|]. symmetry. apply each_l. intros x I. apply repeat_spec in I. subst x.
    unfold near. rewrite (Rabs_right (0.200001 - 0.2)) by lra. rewrite (Rabs_right 0.2) by lra. lra.
Qed.
Print Assumptions C84_shape_refuted.

(** C84 (it answers): refuted.  Arrays of different lengths are an error, not a "no". *)
Theorem C84_answers_refuted : exists a b, distinct a /\ distinct b /\ distributions_are_equal a b = Err ValueError.
Proof.
  exists (lognormal (Array [1%R; 2%R]) (Number 1%R) 0), (lognormal (Array [1%R; 2%R; 3%R]) (Number 1%R) 0).
  split; [apply lognormal_distinct|]. split; [apply lognormal_distinct|]. rewrite lognormal_equal. reflexivity.
Qed.
Print Assumptions C84_answers_refuted.

(** C84 (every ignored prior): refuted.  Whatever the prior of an organic or non-media effect is, and
    whichever type of prior makes the model ignore it, no warning names it. *)
Theorem C84_organic_refuted : forall mt rt prior default ws k,
  In k ["beta_om"; "contribution_om"; "beta_orf"; "contribution_orf"; "gamma_n"; "contribution_n"] ->
  ignored_warnings mt rt prior default = Ok ws -> ~ exists w, In w ws /\ In k w.
Proof.
  intros mt rt prior default ws k K W (w & I & J). unfold ignored_warnings in W.
  assert (sub : forall names r, custom prior default names = Ok r -> forall x, In x r -> In x names).
  { induction names as [|x names IH]; intros r C y Y; cbn [custom] in C.
    - injection C as <-. destruct Y.
    - destruct (distributions_are_equal (prior x) (default x)) as [e|]; [|discriminate C]. unfold rbind at 1 in C.
      destruct (custom prior default names) as [r'|]; [|discriminate C]. unfold rbind in C. injection C as <-.
      destruct e; [right; exact (IH _ eq_refl y Y)|]. destruct Y as [Y|Y]; [left; exact Y | right; exact (IH _ eq_refl y Y)]. }
  destruct (custom prior default (ignored_media mt)) as [m|] eqn:M; [|discriminate W]. unfold rbind at 1 in W.
  destruct (custom prior default (ignored_rf rt)) as [r|] eqn:R; [|discriminate W]. unfold rbind in W. injection W as <-.
  assert (X : In k (ignored_media mt) \/ In k (ignored_rf rt)).
  { apply in_app_or in I. destruct I as [I|I].
    - left. apply (sub _ _ M). destruct m; [destruct I | destruct I as [<-|[]]; exact J].
    - right. apply (sub _ _ R). destruct r; [destruct I | destruct I as [<-|[]]; exact J]. }
  cbn [In] in K. destruct mt, rt; cbn [ignored_media ignored_rf In] in X;
    repeat (destruct K as [K|K]; [subst k; repeat (destruct X as [X|X]); try discriminate X; destruct X|]); destruct K.
Qed.
Print Assumptions C84_organic_refuted.

(** The hypotheses of C84 hold for a truncated distribution holding another, compared with one that
    differs in it. *)
Definition truncated (inner : distr) : distr :=
  Distr "TruncatedDistribution" (Some inner) None [("low", Number 0%R); ("high", Number 10%R); ("name", Other 3)].

Example C84_truncated :
  distinct (truncated (lognormal (Number 0.2%R) (Array [1%R; 2%R]) 0)) /\
  all_comparable (truncated (lognormal (Number 0.2%R) (Array [1%R; 2%R]) 0)) (truncated (lognormal (Number 0.3%R) (Array [1%R; 2%R]) 0)) /\
  ~ same (truncated (lognormal (Number 0.2%R) (Array [1%R; 2%R]) 0)) (truncated (lognormal (Number 0.3%R) (Array [1%R; 2%R]) 0)) /\
  same (truncated (lognormal (Number 0.2%R) (Array [1%R; 2%R]) 0)) (truncated (lognormal (Number 0.2%R) (Array [1%R; 2%R]) 0)).
Proof.
  assert (T : forall d x, inside x (truncated d) -> x = truncated d \/ inside x d).
  { intros d x I. unfold truncated in I. inversion I; subst; [left; reflexivity | right; assumption]. }
  assert (D : forall l s n, distinct (truncated (lognormal l s n))).
  { intros l s n x I. apply T in I. destruct I as [->|I]; [|exact (lognormal_distinct l s n x I)].
    cbn [params_of truncated map fst]. repeat constructor; cbn [In]; intros H; repeat (destruct H as [H|H]; [discriminate H|]); exact H. }
  assert (C : forall x y, all_comparable (truncated (lognormal (Number x) (Array [1%R; 2%R]) 0)) (truncated (lognormal (Number y) (Array [1%R; 2%R]) 0))).
  { intros x y a b k v w A B V W l l' E E'. subst v w. left.
    apply T in A. apply T in B.
    assert (Q : forall d z u, (d = truncated (lognormal (Number z) (Array [1%R; 2%R]) 0) \/ inside d (lognormal (Number z) (Array [1%R; 2%R]) 0)) ->
      In (k, Array u) (params_of d) -> length u = 2).
    { intros d z u [->|I] J.
      - cbn [params_of truncated In] in J. repeat (destruct J as [J|J]; [discriminate J|]). destruct J.
      - apply lognormal_inside in I. subst d. cbn [params_of lognormal In] in J.
        destruct J as [J|[J|J]]; [discriminate J | injection J as _ <-; reflexivity |].
        repeat (destruct J as [J|J]; [discriminate J|]). destruct J. }
    rewrite (Q a x l A V), (Q b y l' B W). reflexivity. }
  split; [apply D|]. split; [apply C|]. split.
  - intros S. destruct (C84_equal _ _ (D _ _ _) (D _ _ _) (C 0.2%R 0.3%R)) as (r & R & E).
    apply E in S. subst r. unfold truncated in R. rewrite step in R. cbn [negb String.eqb Ascii.eqb Bool.eqb] in R.
    rewrite lognormal_equal, far in R; [discriminate R|].
    unfold near. rewrite (Rabs_left (0.2 - 0.3)) by lra. rewrite (Rabs_right 0.3) by lra. lra.
  - destruct (C84_equal _ _ (D (Number 0.2%R) _ _) (D _ _ _) (C 0.2%R 0.2%R)) as (r & R & E).
    rewrite (C84_itself _ (D _ _ _)) in R. apply E. congruence.
Qed.

(** Under ROI priors a custom prior on the coefficients is warned about. *)
Example C84_warned :
  ignored_warnings Roi Roi
    (fun k => if String.eqb k "beta_m" then lognormal (Number 5%R) (Number 1%R) 0 else lognormal (Number 1%R) (Number 1%R) 0)
    (fun _ => lognormal (Number 1%R) (Number 1%R) 0) = Ok [["beta_m"]].
Proof.
  unfold ignored_warnings, ignored_media, ignored_rf. cbn [custom String.eqb Ascii.eqb Bool.eqb].
  rewrite (C84_itself _ (lognormal_distinct _ _ _)). rewrite lognormal_equal, far; [reflexivity|].
  unfold near. rewrite (Rabs_right (5 - 1)) by lra. rewrite (Rabs_right 1) by lra. lra.
Qed.
