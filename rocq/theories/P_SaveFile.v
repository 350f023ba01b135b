(** Proofs for property C75. *)
From Coq Require Import NArith ZArith String Ascii List Bool Lia.
From Verif Require Import M_SaveFile S_SaveFile.
Import ListNotations.
Local Open Scope string_scope.
Local Open Scope nat_scope.
Local Open Scope list_scope.

(** *** Varints and fields *)
Lemma varint_read : forall f n r, (n < 128 ^ N.of_nat (S f))%N -> read_varint (S f) (varint (S f) n ++ r) = Some (n, r).
Proof.
  induction f as [|f IH]; intros n r H.
  - assert (X : (n <? 128)%N = true) by (apply N.ltb_lt; exact H). cbn [varint]. rewrite X. cbn [app read_varint]. rewrite X. reflexivity.
  - remember (S f) as g eqn:Eg. cbn [varint]. destruct (N.ltb_spec n 128) as [L|L].
    + cbn [app read_varint]. assert (X : (n <? 128)%N = true) by (apply N.ltb_lt; exact L). rewrite X. reflexivity.
    + cbn [app read_varint]. assert (X : (128 + n mod 128 <? 128)%N = false) by (apply N.ltb_ge; apply N.le_add_r). rewrite X.
      rewrite IH.
      * f_equal. f_equal. pose proof (N.div_mod n 128 ltac:(discriminate)). generalize dependent (n mod 128)%N. generalize (n / 128)%N. intros; lia.
      * rewrite Nat2N.inj_succ, N.pow_succ_r' in H. apply N.div_lt_upper_bound; lia.
Qed.
Lemma varint_truncated : forall f n j, j < length (varint f n) -> read_varint f (firstn j (varint f n)) = None.
Proof.
  induction f as [|f IH]; intros n j H; [reflexivity|]. cbn [varint] in *. destruct (N.ltb_spec n 128) as [L|L].
  - cbn [length] in H. destruct j; [reflexivity|lia].
  - destruct j as [|j]; [reflexivity|]. cbn [firstn read_varint]. assert (X : (128 + n mod 128 <? 128)%N = false) by (apply N.ltb_ge; apply N.le_add_r). rewrite X.
    rewrite IH; [reflexivity|]. cbn [length] in H. lia.
Qed.
Lemma varint_nonempty : forall f n, 0 < length (varint (S f) n).
Proof. intros f n. cbn [varint]. destruct (n <? 128)%N; cbn [length]; lia. Qed.
Definition small_field (k : N) (p : bytes) : Prop := (0 < k < 16)%N /\ (N.of_nat (length p) < limit)%N.
Lemma tag_byte : forall k, (0 < k < 16)%N -> varint 10 (8 * k + 2) = [(8 * k + 2)%N].
Proof. intros k H. cbn [varint]. assert (X : (8 * k + 2 <? 128)%N = true) by (apply N.ltb_lt; lia). rewrite X. reflexivity. Qed.
Lemma tag_parts : forall k, (0 < k < 16)%N -> ((8 * k + 2) / 8 = k /\ (8 * k + 2) mod 8 = 2)%N.
Proof.
  intros k H. split.
  - symmetry. apply (N.div_unique (8 * k + 2) 8 k 2); lia.
  - symmetry. apply (N.mod_unique (8 * k + 2) 8 k 2); lia.
Qed.
Lemma limit_bound : forall n, (n < limit)%N -> (n < 128 ^ N.of_nat 10)%N.
Proof. intros n H. unfold limit in H. assert (X : (2147483648 < 128 ^ N.of_nat 10)%N) by reflexivity. lia. Qed.
Lemma field_cons : forall k p, (0 < k < 16)%N -> field k p = (8 * k + 2)%N :: varint 10 (N.of_nat (length p)) ++ p.
Proof. intros k p H. unfold field. rewrite tag_byte by exact H. reflexivity. Qed.
Local Arguments varint : simpl never.
Local Arguments read_varint : simpl never.
Lemma read_tag : forall k r, (0 < k < 16)%N -> read_varint 10 ((8 * k + 2)%N :: r) = Some ((8 * k + 2)%N, r).
Proof. intros k r H. unfold read_varint. assert (X : (8 * k + 2 <? 128)%N = true) by (apply N.ltb_lt; lia). rewrite X. reflexivity. Qed.
Lemma fields_step : forall f k r, (0 < k < 16)%N ->
  fields (S f) ((8 * k + 2)%N :: r) =
  match read_varint 10 r with
  | Some (n, r') => if (n <=? N.of_nat (length r'))%N then
      match fields f (skipn (N.to_nat n) r') with Some fs => Some ((k, firstn (N.to_nat n) r') :: fs) | None => None end else None
  | None => None
  end.
Proof.
  intros f k r H. cbn [fields]. rewrite read_tag by exact H. destruct (tag_parts k H) as [-> ->].
  assert (X : (k =? 0)%N = false) by (apply N.eqb_neq; lia). rewrite X. reflexivity.
Qed.
Lemma fields_field : forall f k p rest, small_field k p ->
  fields (S f) (field k p ++ rest) = match fields f rest with Some fs => Some ((k, p) :: fs) | None => None end.
Proof.
  intros f k p rest [Hk Hp]. rewrite field_cons by exact Hk. cbn [app]. rewrite fields_step by exact Hk. rewrite <- app_assoc. rewrite varint_read by (apply limit_bound; exact Hp).
  assert (X : (N.of_nat (length p) <=? N.of_nat (length (p ++ rest)))%N = true) by (apply N.leb_le; rewrite app_length; lia). rewrite X.
  rewrite Nnat.Nat2N.id. rewrite skipn_app, skipn_all, Nat.sub_diag. rewrite firstn_app, firstn_all, Nat.sub_diag. cbn [skipn firstn app]. rewrite app_nil_r. reflexivity.
Qed.
Lemma field_truncated : forall f k p j, small_field k p -> 0 < j -> j < length (field k p) -> fields (S f) (firstn j (field k p)) = None.
Proof.
  intros f k p j [Hk Hp] H0 H. rewrite field_cons in * by exact Hk. destruct j as [|j]; [lia|]. cbn [firstn length] in *. rewrite fields_step by exact Hk.
  set (v := varint 10 (N.of_nat (length p))) in *. rewrite firstn_app. destruct (Nat.lt_ge_cases j (length v)) as [L|L].
  - replace (j - length v) with 0 by lia. cbn [firstn]. rewrite app_nil_r. unfold v. rewrite varint_truncated by exact L. reflexivity.
  - rewrite firstn_all2 by lia. unfold v. rewrite varint_read by (apply limit_bound; exact Hp). fold v. rewrite app_length in H.
    assert (X : (N.of_nat (length p) <=? N.of_nat (length (firstn (j - length v) p)))%N = false).
    { apply N.leb_gt. rewrite firstn_length. lia. }
    rewrite X. reflexivity.
Qed.
Lemma fields_none : forall f, fields f [] = Some [].
Proof. intros [|f]; reflexivity. Qed.
Lemma field_length : forall k p, (0 < k < 16)%N -> 2 <= length (field k p).
Proof. intros k p H. rewrite field_cons by exact H. cbn [length]. rewrite app_length. pose proof (varint_nonempty 9 (N.of_nat (length p))). lia. Qed.

(** Two fields, and what is left of them after [n] bytes. *)
Lemma two_fields : forall k1 p1 k2 p2, small_field k1 p1 -> small_field k2 p2 ->
  fields (length (field k1 p1 ++ field k2 p2)) (field k1 p1 ++ field k2 p2) = Some [(k1, p1); (k2, p2)].
Proof.
  intros k1 p1 k2 p2 S1 S2. pose proof (field_length k1 p1 (proj1 S1)). pose proof (field_length k2 p2 (proj1 S2)).
  destruct (length (field k1 p1 ++ field k2 p2)) as [|[|f]] eqn:E; [rewrite app_length in E; lia|rewrite app_length in E; lia|].
  rewrite fields_field by exact S1. rewrite <- (app_nil_r (field k2 p2)). rewrite fields_field by exact S2. rewrite fields_none. reflexivity.
Qed.
Lemma two_truncated : forall k1 p1 k2 p2 n, small_field k1 p1 -> small_field k2 p2 -> n < length (field k1 p1 ++ field k2 p2) ->
  let b := firstn n (field k1 p1 ++ field k2 p2) in
  fields (length b) b = Some [] \/ fields (length b) b = Some [(k1, p1)] \/ fields (length b) b = None.
Proof.
  intros k1 p1 k2 p2 n S1 S2 H b. pose proof (field_length k1 p1 (proj1 S1)) as L1. pose proof (field_length k2 p2 (proj1 S2)) as L2. unfold b in *. clear b.
  rewrite app_length in H. rewrite firstn_app. destruct (Nat.lt_ge_cases n (length (field k1 p1))) as [L|L].
  - replace (n - length (field k1 p1)) with 0 by lia. cbn [firstn]. rewrite app_nil_r. destruct n as [|n]; [left; reflexivity|]. right. right.
    rewrite firstn_length, Nat.min_l by lia. apply field_truncated; [exact S1|lia|exact L].
  - rewrite firstn_all2 by exact L. set (j := n - length (field k1 p1)). assert (J : j < length (field k2 p2)) by (unfold j; lia).
    rewrite app_length. rewrite firstn_length, Nat.min_l by lia.
    destruct (length (field k1 p1) + j) as [|f] eqn:E; [lia|]. rewrite fields_field by exact S1. destruct j as [|j]; [right; left; cbn [firstn]; rewrite fields_none; reflexivity|].
    right. right. destruct f as [|f]; [lia|]. rewrite field_truncated; [reflexivity|exact S2|lia|exact J].
Qed.

(** *** Paths *)
Lemma ends_with_append : forall a suffix, ends_with suffix (String.append a suffix) = true.
Proof.
  intros a suffix. unfold ends_with.
  assert (La : forall x y, String.length (String.append x y) = String.length x + String.length y) by (induction x; intros; cbn; [reflexivity|rewrite IHx; reflexivity]).
  rewrite La. apply andb_true_iff. split; [apply Nat.leb_le; lia|]. apply String.eqb_eq. replace (String.length a + String.length suffix - String.length suffix) with (String.length a) by lia.
  assert (Whole : forall s, String.substring 0 (String.length s) s = s) by (induction s; cbn; [reflexivity|rewrite IHs; reflexivity]).
  induction a as [|c a IH]; cbn [String.append String.length String.substring]; [apply Whole|exact IH].
Qed.
Lemma ends_with_inv : forall suffix s, ends_with suffix s = true -> exists a, s = String.append a suffix.
Proof.
  intros suffix s H. unfold ends_with in H. apply andb_true_iff in H. destruct H as [L E]. apply Nat.leb_le in L. apply String.eqb_eq in E.
  remember (String.length s - String.length suffix) as n eqn:En. assert (Ls : String.length s = n + String.length suffix) by lia. clear En L.
  exists (String.substring 0 n s). revert s E Ls. induction n as [|n IH]; intros s E Ls.
  - assert (Whole : forall s, String.substring 0 (String.length s) s = s) by (induction s0; cbn; [reflexivity|rewrite IHs0; reflexivity]).
    cbn [Nat.add] in Ls. rewrite <- Ls, Whole in E. subst. destruct suffix; reflexivity.
  - destruct s as [|c s]; [cbn in Ls; lia|]. cbn [String.length Nat.add] in Ls. cbn [String.substring String.append] in *. f_equal. apply IH; [exact E|lia].
Qed.
Lemma binary_iff : forall p, ends_with ".binpb" p = true <-> binary p.
Proof. intros p. split; [intros H; apply ends_with_inv in H; exact H|intros [a ->]; apply ends_with_append]. Qed.
Lemma text_iff : forall p, ends_with ".textproto" p || ends_with ".txtpb" p = true <-> text p.
Proof.
  intros p. rewrite orb_true_iff. split.
  - intros [H|H]; apply ends_with_inv in H; destruct H as [a ->]; exists a; auto.
  - intros [a [->| ->]]; [right|left]; apply ends_with_append.
Qed.

Lemma strip_length : forall l, length (strip_slashes l) <= length l.
Proof. induction l as [|c l IH]; cbn [strip_slashes]; [reflexivity|]. destruct (Ascii.eqb c slash); cbn [length]; lia. Qed.
Lemma drop_length : forall l, length (drop_name l) <= length l.
Proof. induction l as [|c l IH]; cbn [drop_name]; [reflexivity|]. destruct (Ascii.eqb c slash); cbn [length]; lia. Qed.
Lemma drop_slash : forall l c r, drop_name l = c :: r -> c = slash.
Proof. induction l as [|a l IH]; cbn [drop_name]; intros c r H; [discriminate|]. destruct (Ascii.eqb_spec a slash); [congruence|exact (IH c r H)]. Qed.
Lemma list_length : forall s, length (list_ascii_of_string s) = String.length s.
Proof. induction s; cbn; [reflexivity|rewrite IHs; reflexivity]. Qed.
Lemma string_length : forall l, String.length (string_of_list_ascii l) = length l.
Proof. induction l; cbn; [reflexivity|rewrite IHl; reflexivity]. Qed.
(** The directory of a path is shorter than the path unless the path is nothing but slashes. *)
Lemma dirname_shorter : forall p, String.length (dirname p) < String.length p \/ dirname p = p.
Proof.
  intros p. unfold dirname. set (l := rev (list_ascii_of_string p)). assert (Ll : length l = String.length p) by (unfold l; rewrite rev_length; apply list_length).
  assert (Back : string_of_list_ascii (rev l) = p) by (unfold l; rewrite rev_involutive; apply string_of_list_ascii_of_string).
  destruct (strip_slashes (drop_name l)) as [|c r] eqn:E.
  - destruct (Nat.eq_dec (length (drop_name l)) (length l)) as [Eq|Ne].
    + right. assert (D : drop_name l = l).
      { clear -Eq. destruct l as [|a l]; [reflexivity|]. cbn [drop_name] in *. destruct (Ascii.eqb a slash); [reflexivity|]. pose proof (drop_length l). cbn [length] in Eq. lia. }
      rewrite D. exact Back.
    + left. rewrite string_length, rev_length. pose proof (drop_length l). lia.
  - left. rewrite string_length, rev_length. pose proof (drop_length l).
    assert (X : length (strip_slashes (drop_name l)) < length (drop_name l)).
    { destruct (drop_name l) as [|a m] eqn:Ed; [discriminate|]. pose proof (drop_slash _ _ _ Ed). subst a. cbn [strip_slashes]. rewrite Ascii.eqb_refl. pose proof (strip_length m). cbn [length]. lia. }
    rewrite E in X. lia.
Qed.

(** *** Directories *)
Lemma there_iff : forall s p, p <> "" -> (exists_ s p = true <-> is_there s p).
Proof.
  intros s p Np. unfold exists_, is_there. apply String.eqb_neq in Np. rewrite Np. cbn [negb andb]. rewrite orb_true_iff. destruct (contents s p); split; intros [H|H]; auto; try discriminate; try congruence.
  right. discriminate.
Qed.
Lemma last_app_one : forall A (l : list A) x d, last (l ++ [x]) d = x.
Proof. intros. apply last_last. Qed.
Definition grown (s s' : fs) : Prop := contents s' = contents s /\ forall q, is_dir s q = true -> is_dir s' q = true.
Lemma makedirs_grown : forall f s d states ok, makedirs f s d = (states, ok) -> forall s', In s' states -> grown s s'.
Proof.
  induction f as [|f IH]; intros s d states ok H s' Hin; cbn [makedirs] in H; [assert (states = []) by congruence; subst; contradiction|].
  match type of H with (let (_, _) := ?t in _) = _ => destruct t as [before ok'] eqn:Eb end.
  assert (G : forall x, In x before -> grown s x).
  { destruct (_ && _)%bool; [exact (IH _ _ _ _ Eb)|]. assert (before = []) by congruence. subst. intros x []. }
  assert (Gl : grown s (last before s)).
  { destruct before as [|x l] using rev_ind; [split; [reflexivity|auto]|]. rewrite last_app_one. apply G. apply in_or_app. right. left. reflexivity. }
  destruct ok'.
  - unfold mkdir in H. destruct (_ || _ || _)%bool; [assert (states = before) by congruence; subst; apply G; exact Hin|].
    match type of H with (?a, _) = _ => assert (states = a) by congruence end. subst states. apply in_app_or in Hin. destruct Hin as [Hin|[<-|[]]]; [apply G; exact Hin|].
    destruct Gl as [G1 G2]. split; [cbn [add_dir contents]; exact G1|]. intros q Hq. cbn [add_dir is_dir]. rewrite (G2 q Hq). apply orb_true_r.
  - assert (states = before) by congruence. subst. apply G. exact Hin.
Qed.
Lemma creatable_not_own : forall s x, creatable s x -> dirname x = x -> False.
Proof.
  intros s x Cx. induction Cx as [x Nx Nt' Hx|x Nx Nt' Hx IHx]; intros Ex; [|apply IHx; congruence]. rewrite Ex in Hx. destruct Hx as [Hx|Hx]; [congruence|]. apply Nt'. left. exact Hx.
Qed.
Lemma makedirs_creates : forall s d, creatable s d -> forall f, String.length d <= f -> exists states,
  makedirs f s d = (states, true) /\ is_dir (last states s) d = true /\
  (forall q, is_dir (last states s) q = true -> is_dir s q = true \/ String.length q <= String.length d).
Proof.
  intros s d C. induction C as [d Nd Nt Hd|d Nd Nt Hd IH]; intros f Hf.
  - destruct f as [|f]; [destruct d; [congruence|cbn in Hf; lia]|]. cbn [makedirs].
    assert (X : negb (String.eqb (dirname d) "") && negb (exists_ s (dirname d)) = false).
    { destruct (String.eqb_spec (dirname d) ""); [reflexivity|]. cbn [negb andb]. apply negb_false_iff. apply there_iff; [assumption|]. destruct Hd as [Hd|Hd]; [congruence|left; exact Hd]. }
    rewrite X. cbn [last]. assert (Ex : exists_ s d = false) by (destruct (exists_ s d) eqn:E; [apply there_iff in E; [contradiction|exact Nd]|reflexivity]).
    assert (Ii : inside s (dirname d) = true) by (unfold inside; destruct Hd as [->| ->]; [reflexivity|apply orb_true_r]).
    unfold mkdir. rewrite Ex, Ii. pose proof Nd as Nd'. apply String.eqb_neq in Nd'. rewrite Nd'. cbn [orb negb app]. exists [add_dir s d]. split; [reflexivity|]. cbn [last add_dir is_dir].
    rewrite String.eqb_refl. split; [reflexivity|]. intros q Hq. apply orb_true_iff in Hq. destruct Hq as [Hq|Hq]; [apply String.eqb_eq in Hq; subst; right; reflexivity|left; exact Hq].
  - destruct f as [|f]; [destruct d; [congruence|cbn in Hf; lia]|]. cbn [makedirs].
    assert (Sh : String.length (dirname d) < String.length d).
    { destruct (dirname_shorter d) as [L|E]; [exact L|]. exfalso. clear IH. rewrite E in Hd.
      exact (creatable_not_own s d Hd E). }
    destruct (IH f) as (states & Em & Dl & Dn); [lia|].
    assert (Nh : dirname d <> "") by (destruct Hd; assumption). assert (Nth : ~ is_there s (dirname d)) by (destruct Hd; assumption).
    assert (X : negb (String.eqb (dirname d) "") && negb (exists_ s (dirname d)) = true).
    { apply andb_true_iff. split; apply negb_true_iff; [apply String.eqb_neq; exact Nh|]. destruct (exists_ s (dirname d)) eqn:E; [apply there_iff in E; [contradiction|exact Nh]|reflexivity]. }
    rewrite X, Em. assert (Gl : grown s (last states s)).
    { destruct states as [|x l] using rev_ind; [split; [reflexivity|auto]|]. rewrite last_app_one. apply (makedirs_grown _ _ _ _ _ Em). apply in_or_app. right. left. reflexivity. }
    destruct Gl as [Gc Gd].
    assert (Ex : exists_ (last states s) d = false).
    { destruct (exists_ (last states s) d) eqn:E; [|reflexivity]. exfalso. apply there_iff in E; [|exact Nd]. destruct E as [E|E].
      - destruct (Dn d E) as [E1|E1]; [apply Nt; left; exact E1|lia].
      - apply Nt. right. rewrite <- Gc. exact E. }
    assert (Ii : inside (last states s) (dirname d) = true) by (unfold inside; rewrite Dl; apply orb_true_r).
    unfold mkdir. rewrite Ex, Ii. pose proof Nd as Nd'. apply String.eqb_neq in Nd'. rewrite Nd'. cbn [orb negb]. exists (states ++ [add_dir (last states s) d]). split; [reflexivity|].
    rewrite last_app_one. cbn [add_dir is_dir]. rewrite String.eqb_refl. split; [reflexivity|]. intros q Hq. apply orb_true_iff in Hq. destruct Hq as [Hq|Hq]; [apply String.eqb_eq in Hq; subst; right; reflexivity|].
    destruct (Dn q Hq) as [H|H]; [left; exact H|right; lia].
Qed.

(** *** Saving *)
Section Files.
Variables Marketing Model Object : Type.
Variable encode_marketing : Marketing -> bytes.
Variable decode_marketing : bytes -> option Marketing.
Variable no_marketing : Marketing.
Variable encode_model : Model -> bytes.
Variable decode_model : bytes -> option Model.
Variable print_text : (Marketing * option Model) -> bytes.
Variable parse_text : bytes -> option (Marketing * option Model).
Variable data_first : bool.
Variable serialize : Object -> M_Base.result (Marketing * option Model).
Variable deserialize : (Marketing * option Model) -> M_Base.result Object.
Notation encode := (encode Marketing Model encode_marketing encode_model data_first).
Notation decode := (decode Marketing Model decode_marketing no_marketing decode_model).
Notation save_open := (save_open Marketing Model Object encode_marketing encode_model print_text data_first serialize).
Notation save := (save Marketing Model Object encode_marketing encode_model print_text data_first serialize).
Notation load := (load Marketing Model Object decode_marketing no_marketing decode_model parse_text deserialize).
Notation after := (after Marketing Model Object encode_marketing encode_model print_text data_first serialize).
Notation history := (history Marketing Model Object encode_marketing encode_model print_text data_first serialize).

(** What every state of a save looks like: directories only grow, other files are as before, the file is as
    before or a beginning of the bytes that are written. *)
Definition goal (path : string) (m : Object) (b : bytes) : Prop :=
  exists k, serialize m = M_Base.Ok k /\
    ((ends_with ".binpb" path = true /\ encode k = Some b) \/
     (ends_with ".binpb" path = false /\ ends_with ".textproto" path || ends_with ".txtpb" path = true /\ b = print_text k)).
Lemma save_open_states : forall s path m states e, save_open s path m = (states, e) -> forall s', In s' states ->
  is_dir s' = is_dir s /\ (forall q, q <> path -> contents s' q = contents s q) /\
  (contents s' path = Some [] \/ (e = None /\ exists b n, goal path m b /\ contents s' path = Some (firstn n b))).
Proof.
  intros s path m states e H s' Hin. unfold M_SaveFile.save_open in H.
  destruct (_ || _)%bool; [assert (states = []) by congruence; subst; contradiction|].
  assert (W : forall b, is_dir (write s path b) = is_dir s /\ (forall q, q <> path -> contents (write s path b) q = contents s q) /\ contents (write s path b) path = Some b).
  { intros b. unfold write. cbn [is_dir contents]. split; [reflexivity|]. rewrite String.eqb_refl. split; [|reflexivity]. intros q Hq. apply String.eqb_neq in Hq. rewrite Hq. reflexivity. }
  assert (One : states = [write s path []] -> is_dir s' = is_dir s /\ (forall q, q <> path -> contents s' q = contents s q) /\ contents s' path = Some []).
  { intros ->. destruct Hin as [<-|[]]. apply W. }
  assert (All : forall b, goal path m b -> states = map (fun n => write s path (firstn n b)) (seq 0 (S (length b))) -> e = None ->
    is_dir s' = is_dir s /\ (forall q, q <> path -> contents s' q = contents s q) /\ (e = None /\ exists b n, goal path m b /\ contents s' path = Some (firstn n b))).
  { intros b G -> He. apply in_map_iff in Hin. destruct Hin as (n & <- & _). destruct (W (firstn n b)) as (A & B & C). split; [exact A|split; [exact B|]]. split; [exact He|]. exists b, n. split; [exact G|exact C]. }
  destruct (serialize m) as [k|x] eqn:Es.
  2: { destruct One as (A & B & C); [congruence|]. auto. }
  destruct (ends_with ".binpb" path) eqn:Eb.
  - destruct (encode k) as [b|] eqn:Ee.
    + destruct (All b) as (A & B & C); [exists k; auto|congruence|congruence|]. auto.
    + destruct One as (A & B & C); [congruence|]. auto.
  - destruct (ends_with ".textproto" path || ends_with ".txtpb" path) eqn:Et.
    + destruct (All (print_text k)) as (A & B & C); [exists k; split; [exact Es|right; auto]|congruence|congruence|]. auto.
    + destruct One as (A & B & C); [congruence|]. auto.
Qed.
Lemma last_map_seq : forall A (f : nat -> A) n d, last (map f (seq 0 (S n))) d = f n.
Proof. intros A f n d. rewrite seq_S, map_app. cbn [map]. apply last_app_one. Qed.
Lemma save_open_done : forall s path m states, save_open s path m = (states, None) ->
  exists b, goal path m b /\ contents (last states s) path = Some b.
Proof.
  intros s path m states H. unfold M_SaveFile.save_open in H. destruct (_ || _)%bool; [discriminate|]. destruct (serialize m) as [k|x] eqn:Es; [|discriminate].
  assert (Fin : forall b, states = map (fun n => write s path (firstn n b)) (seq 0 (S (length b))) -> contents (last states s) path = Some b).
  { intros b ->. rewrite last_map_seq, firstn_all. unfold write. cbn [contents]. rewrite String.eqb_refl. reflexivity. }
  destruct (ends_with ".binpb" path) eqn:Eb.
  - destruct (encode k) as [b|] eqn:Ee; [|discriminate]. exists b. split; [exists k; auto|]. apply Fin. congruence.
  - destruct (ends_with ".textproto" path || ends_with ".txtpb" path) eqn:Et; [|discriminate]. exists (print_text k). split; [exists k; split; [exact Es|right; auto]|]. apply Fin. congruence.
Qed.
Lemma last_of_app : forall A (l l' : list A) d, last (l ++ l') d = last l' (last l d).
Proof.
  intros A l l' d. destruct l' as [|x r] using rev_ind; [rewrite app_nil_r; reflexivity|]. rewrite app_assoc, !last_app_one. reflexivity.
Qed.
Lemma save_states : forall s path m states e, save s path m = (states, e) -> forall s', In s' states ->
  (forall q, is_dir s q = true -> is_dir s' q = true) /\ (forall q, q <> path -> contents s' q = contents s q) /\
  (contents s' path = contents s path \/ contents s' path = Some [] \/ (e = None /\ exists b n, goal path m b /\ contents s' path = Some (firstn n b))).
Proof.
  intros s path m states e H s' Hin. unfold M_SaveFile.save in H. destruct (exists_ s (dirname path)).
  - destruct (save_open_states s path m states e H s' Hin) as (A & B & C). rewrite A. split; [auto|split; [exact B|right; exact C]].
  - destruct (makedirs _ s (dirname path)) as [dirs ok] eqn:Em. pose proof (makedirs_grown _ _ _ _ _ Em) as G.
    assert (Gl : grown s (last dirs s)).
    { destruct dirs as [|x l] using rev_ind; [split; [reflexivity|auto]|]. rewrite last_app_one. apply G. apply in_or_app. right. left. reflexivity. }
    assert (Gs : forall x, grown s x -> (forall q, is_dir s q = true -> is_dir x q = true) /\ (forall q, q <> path -> contents x q = contents s q) /\ contents x path = contents s path).
    { intros x [Gc Gd]. rewrite Gc. split; [exact Gd|split; reflexivity]. }
    destruct ok.
    + destruct (save_open (last dirs s) path m) as [more e'] eqn:Eo. assert (e' = e) by congruence. subst e'. assert (states = dirs ++ more) by congruence. subst states.
      apply in_app_or in Hin. destruct Hin as [Hin|Hin].
      * destruct (Gs s' (G s' Hin)) as (A & B & C). split; [exact A|split; [exact B|left; exact C]].
      * destruct (save_open_states _ path m more e Eo s' Hin) as (A & B & C). destruct Gl as [Gc Gd]. rewrite A. split; [exact Gd|]. split; [intros q Hq; rewrite (B q Hq), Gc; reflexivity|right; exact C].
    + assert (states = dirs) by congruence. subst states. destruct (Gs s' (G s' Hin)) as (A & B & C). split; [exact A|split; [exact B|left; exact C]].
Qed.
Lemma save_done : forall s path m states, save s path m = (states, None) -> exists b, goal path m b /\ contents (last states s) path = Some b.
Proof.
  intros s path m states H. unfold M_SaveFile.save in H. destruct (exists_ s (dirname path)); [exact (save_open_done s path m states H)|].
  destruct (makedirs _ s (dirname path)) as [dirs ok] eqn:Em. destruct ok; [|discriminate].
  destruct (save_open (last dirs s) path m) as [more e'] eqn:Eo. assert (e' = None) by congruence. subst e'. assert (states = dirs ++ more) by congruence. subst states.
  rewrite last_of_app. exact (save_open_done _ path m more Eo).
Qed.

(** Bytes that were written are read. *)
Lemma encode_small : forall mk md b, encode (mk, Some md) = Some b ->
  b = (if data_first then field 1 (encode_marketing mk) ++ field 2 (encode_model md) else field 2 (encode_model md) ++ field 1 (encode_marketing mk)) /\
  small_field 1 (encode_marketing mk) /\ small_field 2 (encode_model md).
Proof.
  intros mk md b H. unfold M_SaveFile.encode in H. cbv zeta in H. cbn [fst snd] in H.
  set (all := if data_first then field 1 (encode_marketing mk) ++ field 2 (encode_model md) else field 2 (encode_model md) ++ field 1 (encode_marketing mk)) in *.
  match type of H with (if ?c then _ else _) = _ => destruct c eqn:L; [|discriminate H] end. apply N.ltb_lt in L.
  split; [injection H as H; symmetry; exact H|].
  assert (La : length all = length (field 1 (encode_marketing mk)) + length (field 2 (encode_model md))) by (unfold all; destruct data_first; rewrite app_length; lia).
  assert (Lf : forall k p, (0 < k < 16)%N -> length p <= length (field k p)) by (intros k p Hk; rewrite field_cons by exact Hk; cbn [length]; rewrite app_length; lia).
  pose proof (Lf 1%N (encode_marketing mk) ltac:(lia)). pose proof (Lf 2%N (encode_model md) ltac:(lia)).
  split; (split; [lia|lia]).
Qed.
Lemma decode_encode : forall mk md b, decode_marketing (encode_marketing mk) = Some mk -> decode_model (encode_model md) = Some md ->
  encode (mk, Some md) = Some b -> decode b = Some (mk, Some md).
Proof.
  intros mk md b C1 C2 H. destruct (encode_small mk md b H) as (-> & S1 & S2). unfold M_SaveFile.decode. destruct data_first; rewrite two_fields by assumption;
    unfold payload; cbn [filter fst N.eqb Pos.eqb flat_map snd]; rewrite !app_nil_r, C1, C2; reflexivity.
Qed.
(** A strict beginning of a file lacks the data or the model. *)
Lemma decode_truncated : forall mk md b n, encode (mk, Some md) = Some b -> n < length b ->
  decode (firstn n b) = None \/ (exists mk', decode (firstn n b) = Some (mk', None)) \/ (exists md', decode (firstn n b) = Some (no_marketing, Some md')).
Proof.
  intros mk md b n H L. destruct (encode_small mk md b H) as (-> & S1 & S2). unfold M_SaveFile.decode. destruct data_first.
  - destruct (two_truncated 1 _ 2 _ n S1 S2 L) as [E|[E|E]]; rewrite E; [| |left; reflexivity].
    + right. left. eexists. reflexivity.
    + unfold payload. cbn [filter fst N.eqb Pos.eqb flat_map snd]. rewrite app_nil_r. destruct (decode_marketing _); [right; left; eexists; reflexivity|left; reflexivity].
  - destruct (two_truncated 2 _ 1 _ n S2 S1 L) as [E|[E|E]]; rewrite E; [| |left; reflexivity].
    + right. left. eexists. reflexivity.
    + unfold payload. cbn [filter fst N.eqb Pos.eqb flat_map snd]. rewrite app_nil_r. destruct (decode_model _); [right; right; eexists; reflexivity|left; reflexivity].
Qed.

(** The messages that are saved have a model in them; those without one, or without data, are refused. *)
Hypothesis has_model : forall m k, serialize m = M_Base.Ok k -> exists mk md, k = (mk, Some md).
Hypothesis no_model_refused : forall mk, exists e, deserialize (mk, None) = M_Base.Err e.
Hypothesis no_data_refused : forall md, exists e, deserialize (no_marketing, Some md) = M_Base.Err e.
Lemma empty_refused : forall s path, contents s path = Some [] -> ends_with ".binpb" path = true -> exists e, load s path = inr e.
Proof.
  intros s path H Eb. unfold M_SaveFile.load. rewrite H, Eb. unfold M_SaveFile.decode. cbn [length fields payload filter]. destruct (no_model_refused no_marketing) as [e ->]. eexists. reflexivity.
Qed.
Notation readable := (readable Marketing Model Object encode_marketing decode_marketing encode_model decode_model print_text parse_text serialize).
Lemma goal_loaded : forall s path m b, readable m -> goal path m b -> contents s path = Some b -> exists k, serialize m = M_Base.Ok k /\ load s path = outcome_of (deserialize k).
Proof.
  intros s path m b Rd (k & Es & G) C. exists k. split; [exact Es|]. unfold M_SaveFile.load. rewrite C. destruct G as [[Eb Ee]|(Eb & Et & ->)].
  - rewrite Eb. destruct (has_model m k Es) as (mk & md & ->). destruct (Rd mk md Es) as (C1 & C2 & _). rewrite (decode_encode mk md b C1 C2 Ee). reflexivity.
  - rewrite Eb, Et. destruct (has_model m k Es) as (mk & md & ->). destruct (Rd mk md Es) as (_ & _ & ->). reflexivity.
Qed.
Lemma crash_lemma : forall s path m states e s', readable m -> save s path m = (states, e) -> ends_with ".binpb" path = true -> In s' (s :: states) ->
  contents s' path = contents s path \/ (exists x, load s' path = inr x) \/
  (e = None /\ exists k, serialize m = M_Base.Ok k /\ load s' path = outcome_of (deserialize k)).
Proof.
  intros s path m states e s' Rd H Eb [<-|Hin]; [left; reflexivity|]. destruct (save_states s path m states e H s' Hin) as (_ & _ & [C|[C|(En & b & n & G & C)]]).
  - left. exact C.
  - right. left. apply empty_refused; assumption.
  - right. destruct (Nat.lt_ge_cases n (length b)) as [L|L].
    + left. destruct G as (k & Es & [[_ Ee]|(X & _)]); [|congruence]. destruct (has_model m k Es) as (mk & md & ->).
      unfold M_SaveFile.load. rewrite C, Eb. destruct (decode_truncated mk md b n Ee L) as [->|[[mk' ->]|[md' ->]]].
      * eexists. reflexivity.
      * destruct (no_model_refused mk') as [x ->]. eexists. reflexivity.
      * destruct (no_data_refused md') as [x ->]. eexists. reflexivity.
    + right. split; [exact En|]. rewrite firstn_all2 in C by exact L. exact (goal_loaded s' path m b Rd G C).
Qed.
Lemma after_in : forall s e, In (after s e) (s :: fst (save s (ev_path Object e) (ev_model Object e))).
Proof.
  intros s e. unfold M_SaveFile.after. set (states := fst (save s (ev_path Object e) (ev_model Object e))).
  assert (L : In (last (s :: states) s) (s :: states)).
  { generalize (s :: states) as l, (@nil_cons _ s states). intros l Hl. destruct l as [|x l] using rev_ind; [congruence|]. rewrite last_app_one. apply in_or_app. right. left. reflexivity. }
  destruct (ev_crash Object e) as [n|]; [|exact L]. destruct (nth_in_or_default n (s :: states) (last (s :: states) s)) as [H|H]; [exact H|rewrite H; exact L].
Qed.
Lemma after_other : forall s e q, q <> ev_path Object e -> contents (after s e) q = contents s q.
Proof.
  intros s e q H. pose proof (after_in s e) as X. destruct (save s (ev_path Object e) (ev_model Object e)) as [states err] eqn:E. cbn [fst] in X. destruct X as [X|X]; [rewrite <- X; reflexivity|].
  apply (save_states s _ _ states err E _ X). exact H.
Qed.
Lemma history_other : forall l s q, (forall e, In e l -> ev_path Object e <> q) -> contents (history s l) q = contents s q.
Proof.
  induction l as [|e l IH]; intros s q H; [reflexivity|]. cbn [M_SaveFile.history fold_left]. change (fold_left after l (after s e)) with (history (after s e) l).
  rewrite IH by (intros e' He'; apply H; right; exact He'). apply after_other. intros E. apply (H e); [left; reflexivity|congruence].
Qed.
Lemma load_contents : forall s s' path, contents s' path = contents s path -> load s' path = load s path.
Proof. intros s s' path H. unfold M_SaveFile.load. rewrite H. reflexivity. Qed.
Lemma latest_lemma : forall s path m states l, readable m -> save s path m = (states, None) -> (forall e, In e l -> ev_path Object e <> path) ->
  exists k, serialize m = M_Base.Ok k /\ load (history (last states s) l) path = outcome_of (deserialize k).
Proof.
  intros s path m states l Rd H Hl. destruct (save_done s path m states H) as (b & G & C). apply (goal_loaded _ path m b Rd G). rewrite history_other by exact Hl. exact C.
Qed.
Lemma only_saved_lemma : forall l s path r, (forall e, In e l -> ev_path Object e = path -> readable (ev_model Object e)) -> ends_with ".binpb" path = true -> load (history s l) path = inl r ->
  contents (history s l) path = contents s path \/
  exists l1 e l2 k, l = l1 ++ e :: l2 /\ ev_path Object e = path /\ serialize (ev_model Object e) = M_Base.Ok k /\ deserialize k = M_Base.Ok r /\
    snd (save (history s l1) path (ev_model Object e)) = None /\ contents (history s l) path = contents (history s (l1 ++ [e])) path.
Proof.
  intros l s path r Rd Eb. induction l as [|e l IH] using rev_ind; intros H; [left; reflexivity|].
  assert (Hs : history s (l ++ [e]) = after (history s l) e) by (unfold M_SaveFile.history; rewrite fold_left_app; reflexivity).
  assert (Ext : contents (after (history s l) e) path = contents (history s l) path -> load (after (history s l) e) path = inl r ->
    contents (history s (l ++ [e])) path = contents s path \/
    exists l1 e0 l2 k, l ++ [e] = l1 ++ e0 :: l2 /\ ev_path Object e0 = path /\ serialize (ev_model Object e0) = M_Base.Ok k /\ deserialize k = M_Base.Ok r /\
      snd (save (history s l1) path (ev_model Object e0)) = None /\ contents (history s (l ++ [e])) path = contents (history s (l1 ++ [e0])) path).
  { intros C L. rewrite (load_contents _ _ _ C) in L. rewrite Hs, C. destruct (IH (fun e' He' => Rd e' (in_or_app _ _ _ (or_introl He'))) L) as [D|(l1 & e0 & l2 & k & El & A & B & D & F & G)]; [left; exact D|].
    right. exists l1, e0, (l2 ++ [e]), k. split; [rewrite El, <- app_assoc; reflexivity|]. auto 8. }
  rewrite Hs in H. destruct (String.eqb_spec (ev_path Object e) path) as [Ep|Np].
  2: { apply Ext; [apply after_other; congruence|exact H]. }
  pose proof (after_in (history s l) e) as X. destruct (save (history s l) (ev_path Object e) (ev_model Object e)) as [states err] eqn:Es. cbn [fst] in X. rewrite Ep in Es.
  destruct (crash_lemma _ path _ states err _ (Rd e ltac:(apply in_or_app; right; left; reflexivity) Ep) Es Eb X) as [C|[[x C]|(En & k & K1 & K2)]].
  - apply Ext; assumption.
  - congruence.
  - right. exists l, e, [], k. split; [reflexivity|]. split; [exact Ep|]. split; [exact K1|]. split.
    { rewrite H in K2. unfold outcome_of in K2. destruct (deserialize k); congruence. }
    rewrite Es. split; [exact En|reflexivity].
Qed.
End Files.
