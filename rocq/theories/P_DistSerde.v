(** Proofs of property C71. *)
From Coq Require Import Reals ZArith String List Bool Lia.
From Verif Require Import M_Base M_Hyper M_DistSerde S_DistSerde.
Import ListNotations.
Local Open Scope string_scope.
Local Open Scope list_scope.

(** Induction over values. *)
Section Induction.
Variable P : value -> Prop.
Hypothesis Hfloat : forall x, P (VFloat x).
Hypothesis Hint : forall z, P (VInt z).
Hypothesis Hbool : forall b, P (VBool b).
Hypothesis Hstr : forall s, P (VStr s).
Hypothesis Hnone : P VNone.
Hypothesis Hlist : forall l, Forall P l -> P (VList l).
Hypothesis Hdict : forall l, Forall (fun e => P (snd e)) l -> P (VDict l).
Hypothesis Hdist : forall c l, Forall (fun e => P (snd e)) l -> P (VDist c l).
Hypothesis Hbij : forall c l, Forall (fun e => P (snd e)) l -> P (VBij c l).
Hypothesis Hrep : forall b, P (VReparam b).
Hypothesis Hfun : forall f, P (VFun f).
Hypothesis Hother : forall a, P (VOther a).
Fixpoint value_rec' (v : value) : P v :=
  match v with
  | VFloat x => Hfloat x | VInt z => Hint z | VBool b => Hbool b | VStr s => Hstr s | VNone => Hnone
  | VList l => Hlist l ((fix go l : Forall P l :=
      match l with [] => Forall_nil _ | x :: r => Forall_cons x (value_rec' x) (go r) end) l)
  | VDict l => Hdict l ((fix go l : Forall (fun e => P (snd e)) l :=
      match l with [] => Forall_nil _ | (k, x) :: r => Forall_cons (k, x) (value_rec' x) (go r) end) l)
  | VDist c l => Hdist c l ((fix go l : Forall (fun e => P (snd e)) l :=
      match l with [] => Forall_nil _ | (k, x) :: r => Forall_cons (k, x) (value_rec' x) (go r) end) l)
  | VBij c l => Hbij c l ((fix go l : Forall (fun e => P (snd e)) l :=
      match l with [] => Forall_nil _ | (k, x) :: r => Forall_cons (k, x) (value_rec' x) (go r) end) l)
  | VReparam b => Hrep b | VFun f => Hfun f | VOther a => Hother a
  end.
End Induction.

(** [rbind (go l) f] for the loops of the model. *)
Definition entry {A B} (f : string -> A -> result B) (e : string * A) : result (string * B) :=
  rbind (f (fst e) (snd e)) (fun y => Ok (fst e, y)).
Lemma go_list : forall A B (f : A -> result B) l,
  (fix go l := match l with [] => Ok []
     | x :: r => rbind (f x) (fun y => rbind (go r) (fun ys => Ok (y :: ys))) end) l = all_ok f l.
Proof.
  intros A B f l. induction l as [|x l IH]; [reflexivity|]. cbn [all_ok]. rewrite <- IH. reflexivity.
Qed.
Lemma go_entries : forall A B (f : string -> A -> result B) l,
  (fix go (l : list (string * A)) := match l with [] => Ok []
     | (k, x) :: r => rbind (f k x) (fun y => rbind (go r) (fun ys => Ok ((k, y) :: ys))) end) l = all_ok (entry f) l.
Proof.
  intros A B f l. induction l as [|[k x] l IH]; [reflexivity|]. cbn [all_ok]. unfold entry at 1. cbn [fst snd].
  rewrite <- IH. destruct (f k x); [|reflexivity]. cbn [rbind]. reflexivity.
Qed.
Lemma all_ok_forall : forall A B (f : A -> result B) l l', all_ok f l = Ok l' <-> Forall2 (fun x y => f x = Ok y) l l'.
Proof.
  intros A B f l. induction l as [|x l IH]; intros l'; cbn [all_ok].
  - split; intros H; [|inversion H; reflexivity]. assert (l' = []) by congruence. subst. constructor.
  - destruct (f x) as [y|e] eqn:E; cbn [rbind].
    + destruct (all_ok f l) as [ys|e] eqn:El; cbn [rbind].
      * split; intros H.
        -- assert (l' = y :: ys) by congruence. subst. constructor; [exact E|]. apply IH. reflexivity.
        -- inversion H as [|? z ? zs Hz Hzs]; subst. apply IH in Hzs. congruence.
      * split; intros H; [discriminate|]. inversion H as [|? z ? zs Hz Hzs]; subst. apply IH in Hzs. discriminate.
    + split; intros H; [discriminate|]. inversion H as [|? z ? zs Hz Hzs]; subst. congruence.
Qed.
Lemma entry_ok : forall A B (f : string -> A -> result B) e e', entry f e = Ok e' <-> fst e = fst e' /\ f (fst e) (snd e) = Ok (snd e').
Proof.
  intros A B f [k x] [k' y]. unfold entry. cbn [fst snd]. destruct (f k x) as [z|e]; cbn [rbind].
  - split; intros H; [|destruct H as [-> H]; congruence]. split; congruence.
  - split; [discriminate|]. intros [_ H]. discriminate.
Qed.

Lemma lookup_first : forall A (reg : list (string * A)) k v, lookup k reg = Some v -> In (k, v) reg.
Proof.
  intros A reg k v. induction reg as [|[k' v'] reg IH]; cbn [lookup]; [discriminate|].
  destruct (String.eqb_spec k k') as [Ek|Ek]; intros H; [left; congruence|right; auto].
Qed.
Lemma lookup_unique : forall A (reg : list (string * A)) k v, NoDup (map fst reg) -> In (k, v) reg -> lookup k reg = Some v.
Proof.
  intros A reg k v. induction reg as [|[k' v'] reg IH]; cbn [map fst lookup]; intros N H; [contradiction|].
  inversion N as [|? ? Hn Hnd]; subst. destruct H as [H|H].
  - assert (k' = k /\ v' = v) as [-> ->] by (split; congruence). rewrite String.eqb_refl. reflexivity.
  - destruct (String.eqb_spec k k') as [Ek|Ek]; [|auto]. exfalso. subst. apply Hn.
    apply in_map_iff. exists (k', v). split; [reflexivity|exact H].
Qed.

Section Proofs.
Variables f32 fbk : R -> R.
Variable known_dist known_bij : string -> bool.
Variable default_of : bool -> string -> string -> option (option nat).
Variable source : nat -> option string.
Variable hash : string -> string.
Notation to_pvalue := (to_pvalue f32 known_dist known_bij default_of).
Notation of_pvalue := (of_pvalue fbk known_dist known_bij default_of).

Lemma to_list : forall reg b c n l, to_pvalue reg b c n (VList l) = rbind (all_ok (to_pvalue reg b c n) l) (fun ys => Ok (PList ys)).
Proof. intros. rewrite <- go_list. reflexivity. Qed.
Lemma to_dict : forall reg b c n l, to_pvalue reg b c n (VDict l) = rbind (all_ok (entry (fun _ => to_pvalue reg b c n)) l) (fun ys => Ok (PDict ys)).
Proof. intros. rewrite <- go_entries. reflexivity. Qed.
Lemma to_dist : forall reg b c n c' l, to_pvalue reg b c n (VDist c' l) =
  raise_if (negb (custom c' || known_dist c')) AttributeError (rbind (all_ok (entry (fun k => to_pvalue reg false c' k)) l) (fun ys => Ok (PDist c' ys))).
Proof. intros. rewrite <- go_entries. reflexivity. Qed.
Lemma to_bij : forall reg b c n c' l, to_pvalue reg b c n (VBij c' l) =
  raise_if (negb (known_bij c')) AttributeError (rbind (all_ok (entry (fun k => to_pvalue reg true c' k)) l) (fun ys => Ok (PBij c' ys))).
Proof. intros. rewrite <- go_entries. reflexivity. Qed.
Lemma of_list : forall reg b c n l, of_pvalue reg b c n (PList l) = rbind (all_ok (of_pvalue reg b c n) l) (fun ys => Ok (VList ys)).
Proof. intros. rewrite <- go_list. reflexivity. Qed.
Lemma of_dict : forall reg b c n l, of_pvalue reg b c n (PDict l) = rbind (all_ok (entry (fun k => of_pvalue reg b c k)) l) (fun ys => Ok (VDict ys)).
Proof. intros. rewrite <- go_entries. reflexivity. Qed.
Lemma of_dist : forall reg b c n c' l, of_pvalue reg b c n (PDist c' l) =
  raise_if (negb (custom c' || known_dist c')) AttributeError (rbind (all_ok (entry (fun k => of_pvalue reg false c' k)) l) (fun ys => Ok (VDist c' ys))).
Proof. intros. rewrite <- go_entries. reflexivity. Qed.
Lemma of_bij : forall reg b c n c' l, of_pvalue reg b c n (PBij c' l) =
  raise_if (negb (known_bij c')) AttributeError (rbind (all_ok (entry (fun k => of_pvalue reg true c' k)) l) (fun ys => Ok (VBij c' ys))).
Proof. intros. rewrite <- go_entries. reflexivity. Qed.

Lemma key_found : forall (reg : registry) f k, get_function_key reg f = Some k -> In (k, f) reg.
Proof.
  intros reg f k H. unfold get_function_key in H. destruct (find _ reg) as [[k' g]|] eqn:E; [|discriminate].
  apply find_some in E. destruct E as [E1 E2]. apply Nat.eqb_eq in E2. cbn [snd option_map fst] in *.
  assert (k' = k) by congruence. subst. exact E1.
Qed.
Lemma key_exists : forall (reg : registry) f, In f (map snd reg) -> exists k, get_function_key reg f = Some k.
Proof.
  intros reg f H. unfold get_function_key. destruct (find (fun e => Nat.eqb (snd e) f) reg) as [e|] eqn:E; [exists (fst e); reflexivity|].
  exfalso. apply in_map_iff in H. destruct H as ([k g] & Hg & Hin). cbn in Hg. subst.
  pose proof (find_none _ _ E _ Hin) as X. cbn in X. rewrite Nat.eqb_refl in X. discriminate.
Qed.

(** *** Saving what can be saved *)
Lemma forward : forall reg, NoDup (map fst reg) -> forall v b c n n', savable known_dist known_bij default_of reg b c n n' v ->
  exists p v', to_pvalue reg b c n v = Ok p /\ of_pvalue reg b c n' p = Ok v' /\ reloaded f32 fbk eq v v'.
Proof.
  intros reg ND.
  assert (Entries : forall (l : list (string * value)) b c (nm nm' : string -> string),
     Forall (fun e => forall b c n n', savable known_dist known_bij default_of reg b c n n' (snd e) ->
        exists p v', to_pvalue reg b c n (snd e) = Ok p /\ of_pvalue reg b c n' p = Ok v' /\ reloaded f32 fbk eq (snd e) v') l ->
     Forall (fun e => savable known_dist known_bij default_of reg b c (nm (fst e)) (nm' (fst e)) (snd e)) l ->
     exists ps l', all_ok (entry (fun k => to_pvalue reg b c (nm k))) l = Ok ps /\
       all_ok (entry (fun k => of_pvalue reg b c (nm' k))) ps = Ok l' /\
       Forall2 (fun e e' => fst e = fst e' /\ reloaded f32 fbk eq (snd e) (snd e')) l l').
  { intros l b c nm nm' IH Sv. induction l as [|[k v] l IHl].
    - exists [], []. repeat split; constructor.
    - inversion IH as [|? ? I1 I2]; subst. inversion Sv as [|? ? S1 S2]; subst. cbn [fst snd] in *.
      destruct (I1 b c _ _ S1) as (p & v' & E1 & E2 & Rl). destruct (IHl I2 S2) as (ps & l' & E3 & E4 & F).
      exists ((k, p) :: ps), ((k, v') :: l'). cbn [all_ok]. unfold entry at 1 3. cbn [fst snd]. rewrite E1, E2. cbn [rbind].
      rewrite E3, E4. cbn [rbind]. split; [reflexivity|split; [reflexivity|]]. constructor; [split; [reflexivity|exact Rl]|exact F]. }
  intros v. induction v using value_rec'; intros bb cc nn nn' Sv; inversion Sv; subst.
  - exists (PScalar (f32 x)). eexists. split; [reflexivity|split; [reflexivity|constructor]].
  - exists (PInt z). eexists. cbn [M_DistSerde.to_pvalue]. unfold int32.
    destruct (Z.ltb_spec z (-2147483648)); [lia|]. destruct (Z.ltb_spec 2147483647 z); [lia|].
    split; [reflexivity|split; [reflexivity|constructor]].
  - eexists. eexists. split; [reflexivity|split; [reflexivity|constructor]].
  - eexists. eexists. split; [reflexivity|split; [reflexivity|constructor]].
  - eexists. eexists. split; [reflexivity|split; [reflexivity|constructor]].
  - (* list *)
    match goal with Hs : Forall (savable _ _ _ _ _ _ _ _) l |- _ => rename Hs into Sl end.
    assert (X : exists ps l', all_ok (to_pvalue reg bb cc nn) l = Ok ps /\ all_ok (of_pvalue reg bb cc nn') ps = Ok l' /\
                Forall2 (reloaded f32 fbk eq) l l').
    { clear Sv. induction l as [|v l IHl]; [exists [], []; repeat split; constructor|].
      inversion H as [|? ? I1 I2]; subst. inversion Sl as [|? ? S1 S2]; subst.
      destruct (I1 _ _ _ _ S1) as (p & v' & E1 & E2 & Rl). destruct (IHl I2 S2) as (ps & l' & E3 & E4 & F).
      exists (p :: ps), (v' :: l'). cbn [all_ok]. rewrite E1, E2. cbn [rbind]. rewrite E3, E4. cbn [rbind].
      split; [reflexivity|split; [reflexivity|]]. constructor; assumption. }
    destruct X as (ps & l' & E1 & E2 & F). exists (PList ps), (VList l'). rewrite to_list, of_list, E1, E2.
    split; [reflexivity|split; [reflexivity|]]. constructor. exact F.
  - destruct (Entries l bb cc (fun _ => nn) (fun k => k) H ltac:(assumption)) as (ps & l' & E1 & E2 & F).
    exists (PDict ps), (VDict l'). rewrite to_dict, of_dict, E1, E2. split; [reflexivity|split; [reflexivity|]]. constructor. exact F.
  - destruct (Entries l false c (fun k => k) (fun k => k) H ltac:(assumption)) as (ps & l' & E1 & E2 & F).
    exists (PDist c ps), (VDist c l'). rewrite to_dist, of_dist.
    assert (K : custom c || known_dist c = true).
    { unfold custom. match goal with K : _ \/ known_dist _ = true |- _ => destruct K as [-> |K]; [reflexivity|rewrite K; apply orb_true_r] end. }
    rewrite K. cbn [negb raise_if]. rewrite E1, E2. split; [reflexivity|split; [reflexivity|]]. constructor. exact F.
  - destruct (Entries l true c (fun k => k) (fun k => k) H ltac:(assumption)) as (ps & l' & E1 & E2 & F).
    exists (PBij c ps), (VBij c l'). rewrite to_bij, of_bij. match goal with K : known_bij _ = true |- _ => rewrite K end. cbn [negb raise_if]. rewrite E1, E2.
    split; [reflexivity|split; [reflexivity|]]. constructor. exact F.
  - eexists. eexists. split; [reflexivity|split; [reflexivity|constructor]].
  - exists PFunDefault, (VFun f). cbn [M_DistSerde.to_pvalue M_DistSerde.of_pvalue]. rewrite H0, H1, Nat.eqb_refl.
    split; [reflexivity|split; [reflexivity|constructor; reflexivity]].
  - destruct (key_exists reg f H2) as (k & Ek). exists (PFunKey k), (VFun f).
    cbn [M_DistSerde.to_pvalue M_DistSerde.of_pvalue]. rewrite H0.
    assert (Ne : (match d with Some g => Nat.eqb g f | None => false end) = false).
    { destruct d as [g|]; [|reflexivity]. apply Nat.eqb_neq. congruence. }
    rewrite Ne, Ek. rewrite (lookup_unique _ reg k f ND (key_found _ _ _ Ek)).
    split; [reflexivity|split; [reflexivity|constructor; reflexivity]].
  - destruct a0 as [fl s l]. eexists. exists (VOther (Some (mkTensor fl s (if fl then map fbk l else l)))).
    split; [reflexivity|split; [|constructor]]. destruct fl; reflexivity.
Qed.

(** *** Whatever loads *)
Lemma backward : forall reg1 reg2 (same : nat -> nat -> Prop), (forall f, same f f) ->
  (forall f k f', get_function_key reg1 f = Some k -> lookup k reg2 = Some f' -> same f f') ->
  forall v d b c n n' p v', (d = false -> n = n') -> plain_dicts d v ->
  to_pvalue reg1 b c n v = Ok p -> of_pvalue reg2 b c n' p = Ok v' -> reloaded f32 fbk same v v'.
Proof.
  intros reg1 reg2 same Rf Hk.
  assert (Entries : forall (l : list (string * value)) d b c (nm nm' : string -> string) ps l', (d = false -> nm = nm') ->
     Forall (fun e => forall d b c n n' p v', (d = false -> n = n') -> plain_dicts d (snd e) ->
        to_pvalue reg1 b c n (snd e) = Ok p -> of_pvalue reg2 b c n' p = Ok v' -> reloaded f32 fbk same (snd e) v') l ->
     Forall (fun e => plain_dicts d (snd e)) l ->
     all_ok (entry (fun k => to_pvalue reg1 b c (nm k))) l = Ok ps ->
     all_ok (entry (fun k => of_pvalue reg2 b c (nm' k))) ps = Ok l' ->
     Forall2 (fun e e' => fst e = fst e' /\ reloaded f32 fbk same (snd e) (snd e')) l l').
  { intros l d b c nm nm' ps l' Hd IH Pl E1 E2. apply all_ok_forall in E1. apply all_ok_forall in E2.
    revert l' E2. induction E1 as [|[k v] [k1 p] l ps Hp Hps IHl]; intros l' E2; inversion E2 as [|? [k2 v'] ? l2 Hv Hl]; subst; constructor.
    - apply entry_ok in Hp. apply entry_ok in Hv. cbn [fst snd] in *. destruct Hp as [-> Hp]. destruct Hv as [-> Hv].
      split; [reflexivity|]. inversion IH as [|? ? I1 _]; subst. inversion Pl as [|? ? P1 _]; subst. cbn [snd] in *.
      refine (I1 d b c _ _ p v' _ P1 Hp Hv). intros D. rewrite (Hd D). reflexivity.
    - inversion IH; inversion Pl; subst. apply IHl; assumption. }
  intros v. induction v using value_rec'; intros d bb cc nn nn' p v' Hn Pd E1 E2.
  - cbn in E1. assert (p = PScalar (f32 x)) by congruence. subst. cbn in E2. assert (v' = VFloat (fbk (f32 x))) by congruence. subst. constructor.
  - cbn [M_DistSerde.to_pvalue] in E1. unfold int32, raise_if in E1. destruct (_ || _); cbn [rbind] in E1; [discriminate|].
    assert (p = PInt z) by congruence. subst. cbn in E2. assert (v' = VInt z) by congruence. subst. constructor.
  - cbn in E1. assert (p = PInt (if b then 1 else 0)) by congruence. subst. cbn in E2.
    assert (v' = VInt (if b then 1 else 0)) by congruence. subst. constructor.
  - cbn in E1. assert (p = PStr s) by congruence. subst. cbn in E2. assert (v' = VStr s) by congruence. subst. constructor.
  - cbn in E1. assert (p = PNone) by congruence. subst. cbn in E2. assert (v' = VNone) by congruence. subst. constructor.
  - rewrite to_list in E1. destruct (all_ok (to_pvalue reg1 bb cc nn) l) as [ps|e] eqn:Es; cbn [rbind] in E1; [|discriminate].
    assert (p = PList ps) by congruence. subst. rewrite of_list in E2.
    destruct (all_ok (of_pvalue reg2 bb cc nn') ps) as [l'|e] eqn:El; cbn [rbind] in E2; [|discriminate].
    assert (v' = VList l') by congruence. subst. constructor. clear E1 E2. inversion Pd as [| | | | | | | |? ? Pl| | |]; subst.
    apply all_ok_forall in Es. apply all_ok_forall in El. revert l' El. clear Pd.
    induction Es as [|v p l ps Hp Hps IHl]; intros l' El; inversion El as [|? v' ? l2 Hv Hl]; subst; constructor.
    + inversion H as [|? ? I1 _]; subst. inversion Pl as [|? ? P1 _]; subst. exact (I1 d _ _ _ _ _ _ Hn P1 Hp Hv).
    + inversion H; inversion Pl; subst. apply IHl; assumption.
  - rewrite to_dict in E1. destruct (all_ok _ l) as [ps|e] eqn:Es; cbn [rbind] in E1; [|discriminate].
    assert (p = PDict ps) by congruence. subst. rewrite of_dict in E2.
    destruct (all_ok (entry _) ps) as [l'|e] eqn:El; cbn [rbind] in E2; [|discriminate].
    assert (v' = VDict l') by congruence. subst. constructor. inversion Pd as [| | | | | | | | |? ? Pl| |]; subst.
    exact (Entries l true bb cc (fun _ => nn) (fun k => k) ps l' ltac:(discriminate) H Pl Es El).
  - rewrite to_dist in E1. unfold raise_if in E1. destruct (negb (custom c || known_dist c)) eqn:K; [discriminate|].
    destruct (all_ok _ l) as [ps|e] eqn:Es; cbn [rbind] in E1; [|discriminate].
    assert (p = PDist c ps) by congruence. subst. rewrite of_dist, K in E2. cbn [raise_if] in E2.
    destruct (all_ok (entry _) ps) as [l'|e] eqn:El; cbn [rbind] in E2; [|discriminate].
    assert (v' = VDist c l') by congruence. subst. constructor. inversion Pd as [| | | | | | | | | |? ? ? Pl|]; subst.
    exact (Entries l false false c (fun k => k) (fun k => k) ps l' (fun _ => eq_refl) H Pl Es El).
  - rewrite to_bij in E1. unfold raise_if in E1. destruct (negb (known_bij c)) eqn:K; [discriminate|].
    destruct (all_ok _ l) as [ps|e] eqn:Es; cbn [rbind] in E1; [|discriminate].
    assert (p = PBij c ps) by congruence. subst. rewrite of_bij, K in E2. cbn [raise_if] in E2.
    destruct (all_ok (entry _) ps) as [l'|e] eqn:El; cbn [rbind] in E2; [|discriminate].
    assert (v' = VBij c l') by congruence. subst. constructor. inversion Pd as [| | | | | | | | | | |? ? ? Pl]; subst.
    exact (Entries l false true c (fun k => k) (fun k => k) ps l' (fun _ => eq_refl) H Pl Es El).
  - cbn in E1. assert (p = PReparam b) by congruence. subst. cbn in E2. assert (v' = VReparam b) by congruence. subst. constructor.
  - inversion Pd; subst. specialize (Hn eq_refl). subst nn'. cbn [M_DistSerde.to_pvalue] in E1.
    destruct (default_of bb cc nn) as [df|] eqn:Ed; [|discriminate].
    destruct (match df with Some g => Nat.eqb g f | None => false end) eqn:Em.
    + assert (p = PFunDefault) by congruence. subst. cbn [M_DistSerde.of_pvalue] in E2. rewrite Ed in E2.
      destruct df as [g|]; [|discriminate]. apply Nat.eqb_eq in Em. subst g.
      assert (v' = VFun f) by congruence. subst. constructor. apply Rf.
    + destruct (get_function_key reg1 f) as [k|] eqn:Ek; [|discriminate]. assert (p = PFunKey k) by congruence. subst.
      cbn [M_DistSerde.of_pvalue] in E2. destruct (lookup k reg2) as [f'|] eqn:El; [|discriminate].
      assert (v' = VFun f') by congruence. subst. constructor. exact (Hk f k f' Ek El).
  - destruct a as [[fl s l]|]; [|discriminate]. cbn in E1. assert (p = PTensor (mkTensor fl s l)) by congruence. subst.
    cbn in E2. assert (v' = VOther (Some (mkTensor fl s (if fl then map fbk l else l)))) by (destruct fl; congruence). subst. constructor.
Qed.

(** *** Refusals *)
Lemma not_saved : forall reg f, (forall b c n, default_of b c n <> Some (Some f)) -> ~ In f (map snd reg) ->
  forall v b c n p, occurs f v -> to_pvalue reg b c n v <> Ok p.
Proof.
  intros reg f Nd Nr.
  assert (Entries : forall (l : list (string * value)) b c (nm : string -> string) k v ps,
     Forall (fun e => forall b c n p, occurs f (snd e) -> to_pvalue reg b c n (snd e) <> Ok p) l -> In (k, v) l -> occurs f v ->
     all_ok (entry (fun k => to_pvalue reg b c (nm k))) l <> Ok ps).
  { intros l b c nm k v ps IH Hin Ho E. apply all_ok_forall in E. revert IH Hin.
    induction E as [|[k1 v1] [k2 p] l ps Hp Hps IHl]; intros IH Hin; [contradiction|].
    inversion IH as [|? ? I1 I2]; subst. destruct Hin as [Hin|Hin]; [|exact (IHl I2 Hin)].
    assert (k1 = k /\ v1 = v) as [-> ->] by (split; congruence). apply entry_ok in Hp. cbn [fst snd] in *.
    exact (I1 b c _ p Ho (proj2 Hp)). }
  intros v. induction v using value_rec'; intros bb cc nn p Ho; inversion Ho; subst.
  - rewrite to_list. destruct (all_ok (to_pvalue reg bb cc nn) l) as [ps|e] eqn:Es; cbn [rbind]; [|discriminate]. exfalso.
    apply all_ok_forall in Es. match goal with Hi : In ?w l, Hw : occurs f ?w |- _ => rename Hi into Hin; rename Hw into Hv end.
    clear Ho. revert H Hin. induction Es as [|v1 p1 l ps Hp Hps IHl]; intros H Hin; [contradiction|].
    inversion H as [|? ? I1 I2]; subst. destruct Hin as [<-|Hin]; [exact (I1 _ _ _ _ Hv Hp)|exact (IHl I2 Hin)].
  - rewrite to_dict. destruct (all_ok _ l) as [ps|e] eqn:Es; cbn [rbind]; [|discriminate]. exfalso.
    exact (Entries l bb cc (fun _ => nn) k v ps H ltac:(assumption) ltac:(assumption) Es).
  - rewrite to_dist. unfold raise_if. destruct (negb _); [discriminate|].
    destruct (all_ok _ l) as [ps|e] eqn:Es; cbn [rbind]; [|discriminate]. exfalso.
    exact (Entries l false c (fun k => k) k v ps H ltac:(assumption) ltac:(assumption) Es).
  - rewrite to_bij. unfold raise_if. destruct (negb _); [discriminate|].
    destruct (all_ok _ l) as [ps|e] eqn:Es; cbn [rbind]; [|discriminate]. exfalso.
    exact (Entries l true c (fun k => k) k v ps H ltac:(assumption) ltac:(assumption) Es).
  - cbn [M_DistSerde.to_pvalue]. destruct (default_of bb cc nn) as [df|] eqn:Ed; [|discriminate].
    assert (Ne : (match df with Some g => Nat.eqb g f0 | None => false end) = false).
    { destruct df as [g|]; [|reflexivity]. apply Nat.eqb_neq. intros ->. exact (Nd _ _ _ Ed). }
    rewrite Ne. destruct (get_function_key reg f0) as [k|] eqn:Ek; [|discriminate].
    exfalso. apply Nr. apply in_map_iff. exists (k, f0). split; [reflexivity|apply key_found; exact Ek].
Qed.

(** The registry. *)
Lemma hashed_spec : forall reg h, hashed_registry source hash reg = Ok h ->
  Forall2 (fun e e' => fst e = fst e' /\ exists s, source (snd e) = Some s /\ snd e' = hash s) reg h.
Proof.
  intros reg h E. unfold hashed_registry in E. apply all_ok_forall in E.
  induction E as [|[k f] [k' h'] reg h X Hr IH]; constructor; [|exact IH]. cbn [fst snd] in *.
  destruct (source f) as [s|]; [|discriminate]. split; [congruence|exists s; split; [reflexivity|congruence]].
Qed.
Lemma hashed_in : forall reg h k f, hashed_registry source hash reg = Ok h -> In (k, f) reg ->
  exists s, source f = Some s /\ In (k, hash s) h.
Proof.
  intros reg h k f E Hin. pose proof (hashed_spec reg h E) as F. clear E.
  induction F as [|[k1 f1] [k2 h2] reg h He Hr IH]; [contradiction|].
  cbn [fst snd] in *. destruct He as [-> (s & Es & ->)]. destruct Hin as [Hin|Hin].
  - assert (k2 = k /\ f1 = f) as [-> ->] by (split; congruence). exists s. split; [exact Es|left; reflexivity].
  - destruct (IH Hin) as (s' & E1 & E2). exists s'. split; [exact E1|right; exact E2].
Qed.
Lemma validate_entries_ok : forall reg stored, validate_entries source hash reg stored = Ok tt <->
  Forall (fun e => exists f s, lookup (fst e) reg = Some f /\ source f = Some s /\ hash s = snd e) stored.
Proof.
  intros reg stored. induction stored as [|[k h] stored IH]; cbn [validate_entries].
  - split; [constructor|reflexivity].
  - split.
    + destruct (lookup k reg) as [f|] eqn:El; [|discriminate]. destruct (source f) as [s|] eqn:Es; [|discriminate].
      destruct (String.eqb_spec h (hash s)) as [Eh|Eh]; [|discriminate]. intros V. constructor; [|apply IH; exact V].
      exists f, s. cbn [fst snd]. auto.
    + intros F. inversion F as [|? ? (f & s & E1 & E2 & E3) F']; subst. cbn [fst snd] in *. rewrite E1, E2, E3, String.eqb_refl.
      apply IH. exact F'.
Qed.
Lemma validate_entries_err : forall reg stored, validate_entries source hash reg stored = Ok tt \/ validate_entries source hash reg stored = Err ValueError.
Proof.
  intros reg stored. induction stored as [|[k h] stored IH]; cbn [validate_entries]; [left; reflexivity|].
  destruct (lookup k reg) as [f|]; [|right; reflexivity]. destruct (source f) as [s|]; [|right; reflexivity].
  destruct (String.eqb h (hash s)); [exact IH|right; reflexivity].
Qed.
End Proofs.
