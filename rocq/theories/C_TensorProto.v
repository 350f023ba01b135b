(** Property C43: tensor serialisation. *)
From Coq Require Import ZArith Lia List Bool.
From Verif Require Import M_Base M_TensorProto.
Import ListNotations.
Local Open Scope list_scope.

(** *** Specification *)
(** What NumPy arrays satisfy: as many elements as the shape says, elements of the width of the
    type; strings without trailing NUL bytes. *)
Definition well_formed (a : array) : Prop :=
  length (a_elements a) = fold_right Nat.mul 1 (a_shape a) /\
  Forall (fun e => if dtype_eqb (a_dtype a) STR then forall b, e <> b ++ [0%Z]
                   else length e = itemsize (a_dtype a)) (a_elements a).
Definition supported (a : array) : Prop := a_dtype a <> OTHER.
(** The arrays that are lost: one element of an unsigned 32- or 64-bit type, and empty arrays with
    some non-zero dimension of a type other than these five. *)
Definition five (d : dtype) : Prop := d = F32 \/ d = F64 \/ d = I32 \/ d = I64 \/ d = BOOL.
Definition lost (a : array) : Prop :=
  ((a_dtype a = U32 \/ a_dtype a = U64) /\ length (a_elements a) = 1) \/
  (a_elements a = [] /\ ~ five (a_dtype a) /\ exists n, In n (a_shape a) /\ n <> 0).
Definition round_trip (a : array) : result array := rbind (make_tensor_proto a) make_ndarray.

(** *** Lemmas *)
Lemma chunks_concat : forall w (l : list element) f, 0 < w -> Forall (fun e => length e = w) l -> length l <= f ->
  chunks f w (concat l) = l.
Proof.
  intros w l. induction l as [|e l IH]; intros f Hw Hl Hf; [destruct f; reflexivity|].
  inversion Hl as [|? ? He Hl']; subst. destruct f as [|f]; [cbn in Hf; lia|].
  cbn [concat chunks]. destruct e as [|b e]; [cbn in Hw; lia|].
  cbn [app]. change (b :: e ++ concat l) with ((b :: e) ++ concat l).
  rewrite firstn_app, firstn_all, Nat.sub_diag, firstn_O, app_nil_r.
  rewrite skipn_app, skipn_all, Nat.sub_diag. cbn [app skipn]. f_equal. apply IH; auto. cbn in Hf. lia.
Qed.
Lemma concat_length : forall w (l : list element), Forall (fun e => length e = w) l -> length (concat l) = length l * w.
Proof. intros w l Hl. induction Hl as [|e l He Hl IH]; [reflexivity|]. cbn [concat]. rewrite app_length, IH. cbn. lia. Qed.
Lemma frombuffer_concat : forall w (l : list element), 0 < w -> Forall (fun e => length e = w) l ->
  frombuffer w (concat l) = Ok l.
Proof.
  intros w l Hw Hl. unfold frombuffer. destruct (Nat.eqb_spec w 0); [lia|]. cbn [raise_if].
  rewrite (concat_length w l Hl). rewrite Nat.mod_mul by lia. cbn [Nat.eqb negb raise_if].
  f_equal. apply chunks_concat; auto. nia.
Qed.
Lemma strip_clean : forall e, (forall b, e <> b ++ [0%Z]) -> strip e = e.
Proof.
  induction e as [|x e IH]; intros H; [reflexivity|]. cbn [strip].
  assert (He : strip e = e) by (apply IH; intros b ->; apply (H (x :: b)); reflexivity).
  rewrite He. destruct e as [|y e]; [|reflexivity]. destruct (Z.eqb_spec x 0); [|reflexivity].
  subst. exfalso. apply (H []). reflexivity.
Qed.
Lemma reshape_ok : forall d s l, length l = prod s -> reshape d s l = Ok (mkArray d s l).
Proof. intros d s l E. unfold reshape. rewrite E, Nat.eqb_refl. reflexivity. Qed.
Lemma zeros : forall s, forallb (fun n => Nat.eqb n 0) s = false <-> exists n, In n s /\ n <> 0.
Proof.
  induction s as [|n s IH]; cbn [forallb].
  - split; [discriminate|intros (n & [] & _)].
  - destruct (Nat.eqb_spec n 0) as [->|Hn]; cbn [andb].
    + rewrite IH. split; intros (m & Hm & Nm); exists m; split; auto; [right; exact Hm|].
      destruct Hm as [<-|Hm]; [congruence|exact Hm].
    + split; auto. intros _. exists n. split; [left; reflexivity|exact Hn].
Qed.
Lemma zeros_prod : forall s, forallb (fun n => Nat.eqb n 0) s = true -> s <> [] -> prod s = 0.
Proof. intros [|n s] E N; [congruence|]. cbn in E. destruct (Nat.eqb_spec n 0) as [->|]; [reflexivity|discriminate]. Qed.

Lemma content_trip : forall d s l, d <> STR -> d <> OTHER -> l <> [] ->
  Forall (fun e => length e = itemsize d) l -> length l = prod s ->
  make_ndarray (mkProto d s (concat l) [] [] [] [] [] [] [] []) = Ok (mkArray d s l).
Proof.
  intros d s l Ns No Nl Hl El. unfold make_ndarray; cbn [p_dtype p_shape p_content].
  assert (W : 0 < itemsize d) by (destruct d; cbn; lia).
  assert (Eo : dtype_eqb d OTHER = false) by (destruct d; congruence || reflexivity).
  assert (Es : dtype_eqb d STR = false) by (destruct d; congruence || reflexivity).
  rewrite Eo, Es. cbn [raise_if andb].
  destruct (concat l) as [|b r] eqn:Ec.
  - exfalso. pose proof (concat_length _ l Hl) as E. rewrite Ec in E. destruct l; [congruence|]. cbn in E. lia.
  - rewrite <- Ec. rewrite (frombuffer_concat _ l W Hl). cbn [rbind]. apply reshape_ok. exact El.
Qed.

(** *** C43 *)
(** For every supported dtype, shape and content the round trip returns the very array - same
    type, same shape, same elements - unless it is one of the arrays described above; these are
    refused, never altered. *)
Theorem C43_round_trip : forall a, well_formed a -> supported a ->
  (round_trip a = Ok a <-> ~ lost a) /\
  (lost a -> round_trip a = Err TypeError \/ round_trip a = Err ValueError).
Proof.
  intros [d s l] [El Hl] Sp. unfold supported in Sp. cbn [a_dtype a_shape a_elements] in *.
  change (length l = prod s) in El.
  assert (Eo : dtype_eqb d OTHER = false) by (destruct d; congruence || reflexivity).
  assert (Main : (~ lost (mkArray d s l) /\ round_trip (mkArray d s l) = Ok (mkArray d s l)) \/
                 (lost (mkArray d s l) /\ (round_trip (mkArray d s l) = Err TypeError \/ round_trip (mkArray d s l) = Err ValueError))).
  2: { destruct Main as [[A B]|[A B]]; split; try tauto; split; intros; try tauto.
       destruct B as [B|B]; rewrite B in *; discriminate. }
  unfold round_trip, make_tensor_proto. cbn [a_dtype a_shape a_elements size]. rewrite Eo. cbn [raise_if rbind].
  unfold size; cbn [a_shape]. rewrite <- El.
  destruct (negb (dtype_eqb d STR) && Nat.ltb 1 (length l)) eqn:Big.
  { apply andb_prop in Big. destruct Big as [B1 B2]. apply Nat.ltb_lt in B2.
    assert (Ns : d <> STR) by (intros ->; discriminate).
    assert (Es : dtype_eqb d STR = false) by (destruct d; congruence || reflexivity). rewrite Es in Hl.
    left. split.
    - intros [[_ L]|[L _]]; cbn [a_elements] in L; [lia|]. subst l. cbn in B2. lia.
    - apply content_trip; auto. intros ->. cbn in B2. lia. }
  assert (Bytes : ~ five d -> d <> U32 -> d <> U64 -> d <> STR ->
     (~ lost (mkArray d s l) /\ make_ndarray (mkProto d s (concat l) [] [] [] [] [] [] [] []) = Ok (mkArray d s l)) \/
     (lost (mkArray d s l) /\ (make_ndarray (mkProto d s (concat l) [] [] [] [] [] [] [] []) = Err TypeError
                               \/ make_ndarray (mkProto d s (concat l) [] [] [] [] [] [] [] []) = Err ValueError))).
  { intros N5 N1 N2 Ns. assert (Es : dtype_eqb d STR = false) by (destruct d; congruence || reflexivity). rewrite Es in Hl, Big.
    destruct l as [|e l].
    - destruct (forallb (fun n => Nat.eqb n 0) s) eqn:Z.
      + left. split.
        * intros [[_ L]|[_ [_ Hn]]]; [cbn in L; lia|]. cbn [a_shape] in Hn. apply zeros in Hn. congruence.
        * unfold make_ndarray; cbn [p_dtype p_shape p_content concat p_string]. rewrite Eo. cbn [raise_if]. rewrite Z.
          rewrite (reshape_ok d s [] El).
          destruct d; try reflexivity; exfalso; apply N5; unfold five; tauto.
      + right. split.
        * right. cbn [a_elements a_dtype a_shape]. split; [reflexivity|split; [exact N5|apply zeros; exact Z]].
        * left. unfold make_ndarray; cbn [p_dtype p_shape p_content concat p_string]. rewrite Eo. cbn [raise_if]. rewrite Z.
          destruct d; try reflexivity; exfalso; apply N5; unfold five; tauto.
    - left. split.
      + intros [[[U|U] _]|[L _]]; cbn [a_dtype] in *; congruence || discriminate.
      + apply content_trip; auto. discriminate. }
  assert (Unsigned : forall q, (d = U32 \/ d = U64) -> p_dtype q = d -> p_shape q = s -> p_content q = [] -> p_string q = [] ->
     (~ lost (mkArray d s l) /\ make_ndarray q = Ok (mkArray d s l)) \/
     (lost (mkArray d s l) /\ (make_ndarray q = Err TypeError \/ make_ndarray q = Err ValueError))).
  { intros q U Q1 Q2 Q3 Q4.
    assert (E : make_ndarray q = if forallb (fun n => Nat.eqb n 0) s then reshape d s [] else Err TypeError).
    { unfold make_ndarray. rewrite Q1, Q2, Q3, Q4, Eo. destruct U as [-> | ->]; reflexivity. }
    rewrite E. assert (Len : length l <= 1).
    { destruct U as [-> | ->]; cbn [dtype_eqb negb andb] in Big; apply Nat.ltb_ge in Big; exact Big. }
    assert (N5 : ~ five d) by (unfold five; destruct U as [-> | ->]; intros F; repeat destruct F as [F|F]; discriminate).
    destruct l as [|e [|e' l]]; [| |cbn in Len; lia].
    - destruct (forallb (fun n => Nat.eqb n 0) s) eqn:Z.
      + left. split; [|apply reshape_ok; exact El].
        intros [[_ L]|[_ [_ Hn]]]; [cbn in L; lia|]. cbn [a_shape] in Hn. apply zeros in Hn. congruence.
      + right. split; [|left; reflexivity]. right. cbn [a_elements a_dtype a_shape].
        split; [reflexivity|split; [exact N5|apply zeros; exact Z]].
    - right. split; [left; cbn [a_dtype a_elements length]; split; [exact U|reflexivity]|].
      destruct (forallb (fun n => Nat.eqb n 0) s) eqn:Z; [|left; reflexivity].
      right. unfold reshape. cbn [length]. cbn in El. rewrite <- El. reflexivity. }
  assert (Vals : five d -> make_ndarray (match d with
            | F32 => mkProto d s [] l [] [] [] [] [] [] []
            | F64 => mkProto d s [] [] l [] [] [] [] [] []
            | I32 => mkProto d s [] [] [] l [] [] [] [] []
            | I64 => mkProto d s [] [] [] [] l [] [] [] []
            | _ => mkProto d s [] [] [] [] [] l [] [] [] end) = reshape d s l).
  { intros [-> |[-> |[-> |[-> | ->]]]]; reflexivity. }
  assert (NL : five d -> ~ lost (mkArray d s l)).
  { intros F [[U _]|[_ [N _]]]; cbn [a_dtype] in *; [|auto].
    unfold five in F. destruct U as [-> | ->]; repeat destruct F as [F|F]; discriminate. }
  destruct d; try (apply Bytes; try congruence; unfold five; intros F; repeat destruct F as [F|F]; discriminate);
    try (left; split; [apply NL; unfold five; tauto|]; cbv iota in Vals; rewrite Vals by (unfold five; tauto); apply reshape_ok; exact El);
    try (apply Unsigned; auto; reflexivity); try congruence.
  (* strings *)
  cbn [dtype_eqb] in Hl.
  assert (Em : map strip l = l).
  { clear -Hl. induction Hl as [|e l He Hl IH]; [reflexivity|]. cbn [map]. rewrite IH, (strip_clean e He). reflexivity. }
  unfold make_ndarray; cbn [p_dtype p_shape p_content p_string dtype_eqb raise_if].
  destruct l as [|e l].
  - destruct (forallb (fun n => Nat.eqb n 0) s) eqn:Z.
    + left. split; [|apply reshape_ok; exact El].
      intros [[_ L]|[_ [_ Hn]]]; [cbn in L; lia|]. cbn [a_shape] in Hn. apply zeros in Hn. congruence.
    + right. split; [|left; reflexivity]. right. cbn [a_elements a_dtype a_shape].
      split; [reflexivity|split; [|apply zeros; exact Z]]. unfold five; intros F; repeat destruct F as [F|F]; discriminate.
  - left. split.
    + intros [[[U|U] _]|[L _]]; cbn [a_dtype] in *; discriminate.
    + rewrite Em. apply reshape_ok. exact El.
Qed.
Print Assumptions C43_round_trip.

(** Hence different arrays that are not lost have different messages. *)
Theorem C43_injective : forall a b, well_formed a -> well_formed b -> supported a -> supported b -> ~ lost a -> ~ lost b ->
  make_tensor_proto a = make_tensor_proto b -> a = b.
Proof.
  intros a b Wa Wb Sa Sb La Lb E.
  pose proof (proj2 (proj1 (C43_round_trip a Wa Sa)) La) as Ea.
  pose proof (proj2 (proj1 (C43_round_trip b Wb Sb)) Lb) as Eb.
  unfold round_trip in *. rewrite E in Ea. congruence.
Qed.
Print Assumptions C43_injective.

(** Other types are refused. *)
Theorem C43_unsupported : forall s l, make_tensor_proto (mkArray OTHER s l) = Err TypeError.
Proof. reflexivity. Qed.
Print Assumptions C43_unsupported.

(** Strings of a common width stored in one block of bytes, as another writer may do, are read back
    as well. *)
Theorem C43_string_block : forall w s (l : list element), 0 < w -> s <> [] -> l <> [] ->
  length l = fold_right Nat.mul 1 s -> Forall (fun e => length e = w /\ forall b, e <> b ++ [0%Z]) l ->
  make_ndarray (mkProto STR s (concat l) [] [] [] [] [] [] [] []) = Ok (mkArray STR s l).
Proof.
  intros w s l Hw Ns Nl El Hl. change (length l = prod s) in El.
  assert (H1 : Forall (fun e => length e = w) l) by (eapply Forall_impl; [|exact Hl]; intros e [A _]; exact A).
  assert (Em : map strip l = l).
  { clear -Hl. induction Hl as [|e l [_ He] Hl IH]; [reflexivity|]. cbn [map]. rewrite IH, (strip_clean e He). reflexivity. }
  pose proof (concat_length w l H1) as Lc.
  unfold make_ndarray; cbn [p_dtype p_shape p_content dtype_eqb raise_if andb].
  destruct (concat l) as [|b r] eqn:Ec; [exfalso; destruct l; [congruence|]; cbn in Lc; lia|].
  rewrite <- Ec in *. replace (match s with [] => 0 | _ :: _ => prod s end) with (prod s) by (destruct s; congruence || reflexivity).
  assert (P : 0 < prod s) by (rewrite <- El; destruct l; [congruence|cbn; lia]).
  destruct (Nat.ltb_spec 0 (prod s)); [|lia]. rewrite Lc, El.
  rewrite (Nat.mul_comm (prod s) w), Nat.div_mul by lia. rewrite Nat.eqb_refl. cbn [negb raise_if].
  rewrite (frombuffer_concat w l Hw H1). cbn [rbind]. rewrite Em. apply reshape_ok. exact El.
Qed.
Print Assumptions C43_string_block.

(** Refuted: every supported array survives.  Witnesses: the unsigned scalar 7, and an empty
    3-by-0 array of bytes. *)
Theorem C43_always_refuted : exists a b, well_formed a /\ supported a /\ well_formed b /\ supported b /\
  round_trip a = Err ValueError /\ round_trip b = Err TypeError.
Proof.
  exists (mkArray U32 [] [[7; 0; 0; 0]%Z]), (mkArray U8 [3; 0] []).
  unfold well_formed, supported; cbn. repeat split; try discriminate; repeat constructor.
Qed.
Print Assumptions C43_always_refuted.

Definition ex_array : array := mkArray I16 [2; 2] [[1; 0]; [2; 0]; [255; 255]; [4; 1]]%Z.
Example C43_example :
  well_formed ex_array /\ supported ex_array /\ ~ lost ex_array /\ round_trip ex_array = Ok ex_array.
Proof.
  assert (W : well_formed ex_array) by (split; [reflexivity|repeat constructor]).
  assert (Sp : supported ex_array) by discriminate.
  assert (N : ~ lost ex_array) by (intros [[[E|E] _]|[E _]]; discriminate).
  split; [exact W|split; [exact Sp|split; [exact N|]]]. apply (C43_round_trip ex_array W Sp). exact N.
Qed.
