(** Tags of buckets: they tell buckets apart, and hold no colon. *)
From Coq Require Import ZArith NArith QArith Ascii String List Bool Sorted Lia Arith Decimal DecimalString DecimalN DecimalFacts DecimalPos.
From Verif Require Import M_Base M_Time S_Time P_Time P_Period M_Format S_Format P_Format M_UiSpecs S_UiSpecs.
Import ListNotations.
Local Open Scope string_scope.
Local Open Scope Z_scope.
Local Open Scope list_scope.

Fixpoint free (c : ascii) (s : string) : Prop := match s with EmptyString => True | String a r => a <> c /\ free c r end.

Lemma free_app : forall c a b, free c (String.append a b) <-> free c a /\ free c b.
Proof. intros c a b. induction a as [|x a IH]; cbn; [tauto|]. rewrite IH. tauto. Qed.

Lemma uint_free : forall c d, ~ In c ["0"; "1"; "2"; "3"; "4"; "5"; "6"; "7"; "8"; "9"]%char -> free c (NilEmpty.string_of_uint d).
Proof.
  intros c d N. induction d; cbn; [exact Logic.I|..]; (split; [intros E; apply N; rewrite <- E; cbn; tauto|exact IHd]).
Qed.
Lemma digits_free : forall c n, ~ In c ["0"; "1"; "2"; "3"; "4"; "5"; "6"; "7"; "8"; "9"]%char -> free c (digits n).
Proof. intros c n N. rewrite digits_empty. apply uint_free. exact N. Qed.

Lemma digits_inj : forall a b, digits a = digits b -> a = b.
Proof.
  intros a b E. destruct (means_digits a) as [d [D1 D2]]. destruct (means_digits b) as [d' [D1' D2']]. rewrite E in D1.
  rewrite D1 in D1'. inversion D1'; subst. congruence.
Qed.

(** A string ends where a character first occurs. *)
Definition stops (c : ascii) (r : string) : Prop := match r with EmptyString => True | String a _ => a = c end.
Lemma split_at : forall c u v r r', free c u -> free c v -> stops c r -> stops c r' -> String.append u r = String.append v r' -> u = v /\ r = r'.
Proof.
  intros c u. induction u as [|x u IH]; intros v r r' Fu Fv Sr Sr' E; destruct v as [|y v]; cbn in *.
  - auto.
  - subst r. cbn in Sr. destruct Fv. contradiction.
  - subst r'. cbn in Sr'. destruct Fu. contradiction.
  - injection E as <- E. destruct (IH v r r' (proj2 Fu) (proj2 Fv) Sr Sr' E) as [-> ->]. auto.
Qed.

Definition months := ["Jan"; "Feb"; "Mar"; "Apr"; "May"; "Jun"; "Jul"; "Aug"; "Sep"; "Oct"; "Nov"; "Dec"].
Lemma month_cases : forall m, 1 <= m <= 12 -> m = 1 \/ m = 2 \/ m = 3 \/ m = 4 \/ m = 5 \/ m = 6 \/ m = 7 \/ m = 8 \/ m = 9 \/ m = 10 \/ m = 11 \/ m = 12.
Proof. intros. lia. Qed.
Lemma month_name_index : forall m, 1 <= m <= 12 -> nth_error months (Z.to_nat (m - 1)) = Some (month_name m).
Proof. intros m H. apply nth_error_nth'. cbn. lia. Qed.
Lemma month_name_inj : forall m m', 1 <= m <= 12 -> 1 <= m' <= 12 -> month_name m = month_name m' -> m = m'.
Proof.
  intros m m' H H' E. pose proof (month_name_index m H) as A. pose proof (month_name_index m' H') as B. rewrite E, <- B in A.
  assert (ND : NoDup months).
  { unfold months. repeat (constructor; [cbn; intuition discriminate|]). constructor. }
  apply (proj1 (NoDup_nth_error _) ND) in A; [lia|]. cbn. lia.
Qed.
Lemma month_name_in : forall m, 1 <= m <= 12 -> In (month_name m) months.
Proof. intros m H. apply (nth_error_In _ _ (month_name_index m H)). Qed.

Lemma tag_colon : forall g d, 1 <= month d <= 12 -> free ":"%char (create_tag g d).
Proof.
  intros g d M. unfold create_tag. cbn [String.append free]. split; [discriminate|]. apply free_app.
  split; [apply digits_free; cbn; intuition discriminate|]. destruct g; cbn [String.append free]; [|split; [discriminate|split; [discriminate|apply digits_free; cbn; intuition discriminate]]|exact Logic.I].
  split; [discriminate|]. pose proof (month_name_in (month d) M) as I. unfold months in I. cbn [In] in I.
  repeat (destruct I as [<-|I]; [cbn; repeat split; discriminate|]). contradiction.
Qed.

Lemma tag_spec : forall g g' a b, valid_date a -> valid_date b -> 0 <= year a -> 0 <= year b ->
  (create_tag g a = create_tag g' b <-> g = g' /\ bucket_no g a = bucket_no g' b).
Proof.
  intros g g' a b Va Vb Ya Yb. apply valid_iff in Va, Vb. destruct Va as [Ma _], Vb as [Mb _]. split.
  - intros E. unfold create_tag in E. cbn [String.append] in E. injection E as E.
    apply (split_at " "%char) in E; [|apply digits_free; cbn; intuition discriminate|apply digits_free; cbn; intuition discriminate|destruct g; reflexivity|destruct g'; reflexivity].
    destruct E as [E1 E2]. apply digits_inj in E1. assert (Y : year a = year b) by lia.
    destruct g, g'; cbn [String.append] in E2; try discriminate.
    + injection E2 as E2. apply month_name_inj in E2; [|assumption|assumption]. split; [reflexivity|]. cbn. unfold month_no. lia.
    + exfalso. injection E2 as E2. pose proof (month_name_in (month a) Ma) as I. rewrite E2 in I. unfold months in I. cbn [In] in I. repeat (destruct I as [I|I]; [discriminate|]). contradiction.
    + exfalso. injection E2 as E2. pose proof (month_name_in (month b) Mb) as I. rewrite <- E2 in I. unfold months in I. cbn [In] in I. repeat (destruct I as [I|I]; [discriminate|]). contradiction.
    + injection E2 as E2. apply digits_inj in E2. split; [reflexivity|]. cbn. unfold quarter_no, month_no.
      assert (0 <= (month a - 1) / 3) by (apply Z.div_pos; lia). assert (0 <= (month b - 1) / 3) by (apply Z.div_pos; lia).
      assert (Q : (month a - 1) / 3 = (month b - 1) / 3) by lia.
      replace (12 * year a + month a - 1) with (month a - 1 + 4 * year a * 3) by ring.
      replace (12 * year b + month b - 1) with (month b - 1 + 4 * year b * 3) by ring. rewrite !Z.div_add by lia. lia.
    + split; [reflexivity|]. cbn. exact Y.
  - intros [<- K]. destruct g; cbn [bucket_no] in K; unfold create_tag.
    + unfold month_no in K. assert (year a = year b) by lia. assert (month a = month b) by lia. congruence.
    + unfold quarter_no, month_no in K.
      replace (12 * year a + month a - 1) with (month a - 1 + 4 * year a * 3) in K by ring.
      replace (12 * year b + month b - 1) with (month b - 1 + 4 * year b * 3) in K by ring. rewrite !Z.div_add in K by lia.
      assert (0 <= (month a - 1) / 3 < 4) by (split; [apply Z.div_pos; lia|apply Z.div_lt_upper_bound; lia]).
      assert (0 <= (month b - 1) / 3 < 4) by (split; [apply Z.div_pos; lia|apply Z.div_lt_upper_bound; lia]).
      assert (year a = year b) by lia. assert ((month a - 1) / 3 = (month b - 1) / 3) by lia. congruence.
    + unfold year_no in K. congruence.
Qed.

(** The last colon of an identifier is before its tag. *)
Fixpoint reversed (s acc : string) : string := match s with EmptyString => acc | String c r => reversed r (String c acc) end.
Lemma reversed_app : forall a b acc, reversed (String.append a b) acc = reversed b (reversed a acc).
Proof. intros a. induction a as [|c a IH]; intros b acc; cbn; [reflexivity|apply IH]. Qed.
Lemma reversed_acc : forall s acc, reversed s acc = String.append (reversed s "") acc.
Proof.
  intros s. induction s as [|c s IH]; intros acc; cbn; [reflexivity|]. rewrite IH, (IH (String c "")). rewrite append_assoc. reflexivity.
Qed.
Lemma reversed_free : forall c s acc, free c s -> free c acc -> free c (reversed s acc).
Proof. intros c s. induction s as [|x s IH]; intros acc F G; cbn; [exact G|]. apply IH; [exact (proj2 F)|]. split; [exact (proj1 F)|exact G]. Qed.
Lemma reversed_involutive : forall s acc, reversed (reversed s acc) "" = String.append (reversed acc "") s.
Proof.
  intros s. induction s as [|c s IH]; intros acc; cbn; [rewrite append_empty; reflexivity|]. rewrite IH. cbn.
  rewrite (reversed_acc acc (String c "")), append_assoc. reflexivity.
Qed.
Lemma reversed_inj : forall a b, reversed a "" = reversed b "" -> a = b.
Proof. intros a b E. pose proof (reversed_involutive a "") as A. pose proof (reversed_involutive b "") as B. cbn in A, B. congruence. Qed.

Lemma group_inj : forall i j s t, free ":"%char s -> free ":"%char t ->
  String.append i (String.append ":" s) = String.append j (String.append ":" t) -> i = j /\ s = t.
Proof.
  intros i j s t Fs Ft E. apply (f_equal (fun x => reversed x "")) in E. rewrite !reversed_app in E. cbn [String.append reversed] in E.
  rewrite (reversed_acc s), (reversed_acc t) in E.
  apply (split_at ":"%char) in E; [|apply reversed_free; [exact Fs|exact Logic.I]|apply reversed_free; [exact Ft|exact Logic.I]|reflexivity|reflexivity].
  destruct E as [E1 E2]. injection E2 as E2. split; apply reversed_inj; assumption.
Qed.
