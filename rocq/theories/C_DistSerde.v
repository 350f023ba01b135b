(** Property C71: prior distributions survive being saved and loaded, custom functions being checked
    against the registry. *)
From Coq Require Import Reals ZArith String List Bool Lia Lra.
From Verif Require Import M_Base M_Hyper M_DistSerde S_Hyper S_DistSerde P_DistSerde C_Hyper.
Import ListNotations.
Local Open Scope string_scope.
Local Open Scope nat_scope.
Local Open Scope list_scope.

(** A prior whose values can be saved is saved, and loading it with the same registry gives the same
    prior, every function being the very same one. *)
Theorem C71_round_trip : forall f32 fbk known_dist known_bij default_of source hash reg prior,
  NoDup (map fst reg) -> (forall k f, In (k, f) reg -> source f <> None) ->
  Forall (fun e => savable known_dist known_bij default_of reg false "" "" "" (snd e)) prior ->
  exists p prior',
    serialize_prior f32 known_dist known_bij default_of source hash reg prior = Ok p /\
    (forall force, deserialize_prior fbk known_dist known_bij default_of source hash reg force p = Ok prior') /\
    reloaded_prior f32 fbk eq prior prior'.
Proof.
  intros f32 fbk kd kb df source hash reg prior ND Src Sv.
  assert (H : exists h, hashed_registry source hash reg = Ok h).
  { clear ND Sv. induction reg as [|[k f] reg IH]; [exists []; reflexivity|].
    destruct IH as (h & E); [intros k' f' Hin; apply (Src k' f'); right; exact Hin|].
    destruct (source f) as [s|] eqn:Es; [|exfalso; exact (Src k f (or_introl eq_refl) Es)].
    exists ((k, hash s) :: h). unfold hashed_registry in *. cbn [all_ok fst snd]. rewrite Es. cbn [rbind]. rewrite E. reflexivity. }
  destruct H as (h & Eh).
  assert (V : validate source hash reg h = Ok tt).
  { assert (X : validate_entries source hash reg h = Ok tt).
    { apply validate_entries_ok. pose proof (hashed_spec source hash reg h Eh) as F. apply Forall_forall. intros [k hv] Hin.
      assert (Y : exists f s, In (k, f) reg /\ source f = Some s /\ hv = hash s).
      { clear - F Hin. induction F as [|[k1 f1] [k2 h2] reg h X Hr IH]; [contradiction|]. cbn [fst snd] in *.
        destruct X as [-> (s & E1 & E2)]. destruct Hin as [Hin|Hin].
        - exists f1, s. split; [left; congruence|split; [exact E1|congruence]].
        - destruct (IH Hin) as (f & s' & A & B). exists f, s'. split; [right; exact A|exact B]. }
      destruct Y as (f & s & Hf & Es & ->). exists f, s. cbn [fst snd].
      split; [apply lookup_unique; assumption|split; [exact Es|reflexivity]]. }
    unfold validate. destruct h; [destruct reg; [exact X|reflexivity]|exact X]. }
  assert (Main : exists ps prior', all_ok (fun e => rbind (to_pvalue f32 kd kb df reg false "" "" (snd e)) (fun p => Ok (fst e, p))) prior = Ok ps /\
     (forall force, all_ok (fun e => rbind (if force : bool then Ok tt else validate source hash reg h) (fun _ =>
                   rbind (of_pvalue fbk kd kb df reg false "" "" (snd e)) (fun v => Ok (fst e, v)))) ps = Ok prior') /\
     reloaded_prior f32 fbk eq prior prior').
  { induction prior as [|[k v] prior IH].
    - exists [], []. split; [reflexivity|split; [reflexivity|constructor]].
    - inversion Sv as [|? ? S1 S2]; subst. destruct (IH S2) as (ps & prior' & E1 & E2 & Rl). cbn [snd] in S1.
      destruct (forward f32 fbk kd kb df reg ND v _ _ _ _ S1) as (p & v' & E3 & E4 & R1).
      exists ((k, p) :: ps), ((k, v') :: prior'). cbn [all_ok fst snd]. rewrite E3. cbn [rbind]. rewrite E1. cbn [rbind].
      split; [reflexivity|]. split; [|constructor; [split; [reflexivity|exact R1]|exact Rl]].
      intros force. rewrite E4, (E2 force). rewrite V. destruct force; reflexivity. }
  destruct Main as (ps & prior' & E1 & E2 & Rl). exists (mkPriorProto ps h), prior'. unfold serialize_prior. rewrite E1. cbn [rbind].
  rewrite Eh. cbn [rbind]. split; [reflexivity|]. split; [|exact Rl]. intros force. exact (E2 force).
Qed.
Print Assumptions C71_round_trip.

(** Two functions have sources with the same fingerprint. *)
Definition same_source (source : nat -> option string) (hash : string -> string) (f f' : nat) : Prop :=
  f = f' \/ exists s s', source f = Some s /\ source f' = Some s' /\ hash s = hash s'.

(** Whatever was saved with one registry and loads with another, without [force_deserialization], is the
    saved prior, a custom function being replaced only by one whose source has the same fingerprint. *)
Theorem C71_checked : forall f32 fbk known_dist known_bij default_of source hash reg1 reg2 prior p prior',
  Forall (fun e => plain_dicts false (snd e)) prior ->
  serialize_prior f32 known_dist known_bij default_of source hash reg1 prior = Ok p ->
  deserialize_prior fbk known_dist known_bij default_of source hash reg2 false p = Ok prior' ->
  reloaded_prior f32 fbk (same_source source hash) prior prior'.
Proof.
  intros f32 fbk kd kb df source hash reg1 reg2 prior p prior' Pl S D. unfold serialize_prior in S.
  destruct (all_ok _ prior) as [ps|e] eqn:Es; cbn [rbind] in S; [|discriminate].
  destruct (hashed_registry source hash reg1) as [h|e] eqn:Eh; cbn [rbind] in S; [|discriminate].
  assert (p = mkPriorProto ps h) by congruence. subst p. unfold deserialize_prior in D. cbn [pp_params pp_registry] in D.
  assert (Es' : Forall2 (fun e q => fst e = fst q /\ to_pvalue f32 kd kb df reg1 false "" "" (snd e) = Ok (snd q)) prior ps).
  { apply all_ok_forall in Es. clear - Es. induction Es as [|[k v] [k' q] prior ps X Hr IH]; constructor; [|exact IH]. cbn [fst snd] in *.
    destruct (to_pvalue _ _ _ _ _ _ _ _ v) as [q'|e]; cbn [rbind] in X; [|discriminate]. split; congruence. }
  assert (D' : Forall2 (fun q e => fst q = fst e /\ of_pvalue fbk kd kb df reg2 false "" "" (snd q) = Ok (snd e) /\ validate source hash reg2 h = Ok tt) ps prior').
  { apply all_ok_forall in D. clear - D. induction D as [|[k q] [k' v] ps prior' X Hr IH]; constructor; [|exact IH]. cbn [fst snd] in *.
    destruct (validate source hash reg2 h) as [[]|e]; cbn [rbind] in X; [|discriminate].
    destruct (of_pvalue _ _ _ _ _ _ _ _ q) as [v'|e]; cbn [rbind] in X; [|discriminate]. split; [congruence|split; [congruence|reflexivity]]. }
  assert (B : validate source hash reg2 h = Ok tt -> forall v q v', plain_dicts false v -> to_pvalue f32 kd kb df reg1 false "" "" v = Ok q ->
     of_pvalue fbk kd kb df reg2 false "" "" q = Ok v' -> reloaded f32 fbk (same_source source hash) v v').
  { intros V v q v' P1 P2 P3. refine (backward f32 fbk kd kb df reg1 reg2 (same_source source hash) _ _ v false _ _ _ _ q v' (fun _ => eq_refl) P1 P2 P3).
    - intros f. left. reflexivity.
    - intros f k f' Ek El. right. pose proof (key_found reg1 f k Ek) as Hin.
      destruct (hashed_in source hash reg1 h k f Eh Hin) as (s & Esf & Hh). exists s.
      assert (V' : validate_entries source hash reg2 h = Ok tt).
      { unfold validate in V. destruct h; [contradiction|exact V]. }
      apply validate_entries_ok in V'. rewrite Forall_forall in V'. destruct (V' _ Hh) as (g & s' & E1 & E2 & E3). cbn [fst snd] in *.
      assert (g = f') by congruence. subst g. exists s'. auto. }
  clear Es D S. unfold reloaded_prior. revert prior' D' Pl. induction Es' as [|[k v] [k1 q] prior ps X Hr IH]; intros prior' D' Pl;
    inversion D' as [|? [k2 v'] ? prior2 Y Yr]; subst; constructor.
  - cbn [fst snd] in *. destruct X as [-> X]. destruct Y as [-> [Y V]]. inversion Pl as [|? ? P1 _]; subst. split; [reflexivity|].
    exact (B V v q v' P1 X Y).
  - inversion Pl; subst. apply IH; assumption.
Qed.
Print Assumptions C71_checked.

(** A custom function that is not registered - and is no parameter's default - is refused when saving. *)
Theorem C71_unregistered : forall f32 known_dist known_bij default_of source hash reg prior k v f,
  In (k, v) prior -> occurs f v -> ~ In f (map snd reg) -> (forall b c n, default_of b c n <> Some (Some f)) ->
  exists e, serialize_prior f32 known_dist known_bij default_of source hash reg prior = Err e.
Proof.
  intros f32 kd kb df source hash reg prior k v f Hin Ho Nr Nd. unfold serialize_prior.
  destruct (all_ok _ prior) as [ps|e] eqn:Es; cbn [rbind]; [|exists e; reflexivity]. exfalso.
  apply all_ok_forall in Es. revert Hin. induction Es as [|[k1 v1] [k2 q] prior ps X Hr IH]; intros Hin; [contradiction|].
  destruct Hin as [Hin|Hin]; [|exact (IH Hin)]. assert (k1 = k /\ v1 = v) as [-> ->] by (split; congruence). cbn [fst snd] in X.
  destruct (to_pvalue f32 kd kb df reg false "" "" v) as [q'|e] eqn:E; cbn [rbind] in X; [|discriminate].
  exact (not_saved f32 kd kb df reg f Nd Nr v _ _ _ _ Ho E).
Qed.
Print Assumptions C71_unregistered.

(** A registered function that is missing, or whose source has another fingerprint, when loading makes
    the loading fail with ValueError, whether or not the prior uses it. *)
Theorem C71_changed : forall f32 fbk known_dist known_bij default_of source hash reg1 reg2 prior p k f s,
  serialize_prior f32 known_dist known_bij default_of source hash reg1 prior = Ok p -> prior <> [] ->
  In (k, f) reg1 -> source f = Some s ->
  (forall f' s', lookup k reg2 = Some f' -> source f' = Some s' -> hash s' <> hash s) ->
  deserialize_prior fbk known_dist known_bij default_of source hash reg2 false p = Err ValueError.
Proof.
  intros f32 fbk kd kb df source hash reg1 reg2 prior p k f s S Ne Hin Es Hc. unfold serialize_prior in S.
  destruct (all_ok _ prior) as [ps|e] eqn:Ea; cbn [rbind] in S; [|discriminate].
  destruct (hashed_registry source hash reg1) as [h|e] eqn:Eh; cbn [rbind] in S; [|discriminate].
  assert (p = mkPriorProto ps h) by congruence. subst p. unfold deserialize_prior. cbn [pp_params pp_registry].
  destruct (hashed_in source hash reg1 h k f Eh Hin) as (s1 & Es1 & Hh). assert (s1 = s) by congruence. subst s1.
  assert (V : validate source hash reg2 h = Err ValueError).
  { assert (X : validate_entries source hash reg2 h = Err ValueError).
    { destruct (validate_entries_err source hash reg2 h) as [X|X]; [|exact X]. exfalso. apply validate_entries_ok in X.
      rewrite Forall_forall in X. destruct (X _ Hh) as (g & s' & E1 & E2 & E3). exact (Hc g s' E1 E2 E3). }
    unfold validate. destruct h; [contradiction|exact X]. }
  apply all_ok_forall in Ea. destruct Ea as [|e q prior ps]; [contradiction|]. cbn [all_ok]. rewrite V. reflexivity.
Qed.
Print Assumptions C71_changed.

(** [force_deserialization] changes nothing when loading without it succeeds. *)
Theorem C71_force : forall fbk known_dist known_bij default_of source hash reg p prior,
  deserialize_prior fbk known_dist known_bij default_of source hash reg false p = Ok prior ->
  deserialize_prior fbk known_dist known_bij default_of source hash reg true p = Ok prior.
Proof.
  intros fbk kd kb df source hash reg p prior D. unfold deserialize_prior in *. apply all_ok_forall in D. apply all_ok_forall.
  induction D as [|e q ps prior X Hr IH]; constructor; [|exact IH]. cbn [rbind].
  destruct (validate source hash reg (pp_registry p)) as [[]|]; cbn [rbind] in X; [exact X|discriminate].
Qed.
Print Assumptions C71_force.

(** *** What is lost *)

(** A Python bool comes back as an int. *)
Theorem C71_bool_refuted : forall f32 fbk known_dist known_bij default_of source hash,
  exists p,
    serialize_prior f32 known_dist known_bij default_of source hash [] [("beta_m", VDist "IndependentMultivariateDistribution" [("validate_args", VBool true)])] = Ok p /\
    deserialize_prior fbk known_dist known_bij default_of source hash [] false p =
      Ok [("beta_m", VDist "IndependentMultivariateDistribution" [("validate_args", VInt 1)])].
Proof. intros. eexists. split; reflexivity. Qed.
Print Assumptions C71_bool_refuted.

(** A number that single precision cannot hold is not the one that is loaded, even with a double
    precision backend. *)
Theorem C71_precision_refuted : forall f32 known_dist known_bij default_of source hash, (forall x, single_precision (f32 x)) ->
  exists prior p prior', prior = [("alpha_m", VDist "IndependentMultivariateDistribution" [("scale", VFloat 16777217)])] /\
    serialize_prior f32 known_dist known_bij default_of source hash [] prior = Ok p /\
    deserialize_prior (fun x => x) known_dist known_bij default_of source hash [] false p = Ok prior' /\ prior' <> prior.
Proof.
  intros f32 kd kb df source hash F. eexists. eexists. eexists. split; [reflexivity|]. split; [reflexivity|]. split; [reflexivity|].
  intros E. assert (X : f32 16777217%R = 16777217%R) by congruence. apply not_single. rewrite <- X. apply F.
Qed.
Print Assumptions C71_precision_refuted.

(** Functions are told apart by their source text only: two closures with one source text are exchanged
    without any error. *)
Theorem C71_closure_refuted : forall f32 fbk hash,
  exists (source : nat -> option string) (default_of : bool -> string -> string -> option (option nat)) p,
    source 1 = source 2 /\
    serialize_prior f32 (fun _ => true) (fun _ => true) default_of source hash [("shift", 1)] [("knot_values", VDist "Custom" [("fn", VFun 1)])] = Ok p /\
    deserialize_prior fbk (fun _ => true) (fun _ => true) default_of source hash [("shift", 2)] false p =
      Ok [("knot_values", VDist "Custom" [("fn", VFun 2)])].
Proof.
  intros f32 fbk hash. exists (fun _ => Some "lambda x: x + offset"), (fun _ _ _ => Some None). eexists. split; [reflexivity|].
  split; [reflexivity|]. unfold deserialize_prior. cbn [pp_params pp_registry all_ok validate validate_entries lookup String.eqb].
  cbn. rewrite String.eqb_refl. reflexivity.
Qed.
Print Assumptions C71_closure_refuted.

(** A default function inside a dict is written as the default of the parameter and read as the default of
    the dict's key: it cannot be loaded. *)
Theorem C71_dict_refuted : forall f32 fbk source hash,
  exists (default_of : bool -> string -> string -> option (option nat)) p,
    serialize_prior f32 (fun _ => true) (fun _ => true) default_of source hash [] [("tau_g", VDist "Custom" [("options", VDict [("inner", VFun 1)])])] = Ok p /\
    deserialize_prior fbk (fun _ => true) (fun _ => true) default_of source hash [] false p = Err KeyError.
Proof.
  intros f32 fbk source hash. exists (fun _ _ n => if String.eqb n "options" then Some (Some 1) else None). eexists.
  split; reflexivity.
Qed.
Print Assumptions C71_dict_refuted.

(** The hypotheses are met: a transformed distribution with a custom shift, a default function, a list
    and an array, saved with a registry of two functions. *)
Definition ex_default (b : bool) (c n : string) : option (option nat) :=
  if String.eqb n "convert_fn" then Some (Some 7) else if String.eqb n "fn" then Some None else None.
Definition ex_prior : list (string * value) :=
  [("beta_m", VDist "TransformedDistribution"
     [("distribution", VDist "Normal" [("loc", VFloat 0); ("scale", VFloat 5); ("validate_args", VBool false)]);
      ("bijector", VBij "Chain" [("bijectors", VList [VBij "Inline" [("fn", VFun 3)]; VBij "Exp" []])]);
      ("convert_fn", VFun 7); ("shape", VOther (Some (mkTensor true [2] [1%R; 2%R])))]);
   ("ec_m", VDist "Uniform" [("low", VInt (-3)); ("name", VNone); ("meta", VDict [("note", VStr "x")])])].
Example C71_example :
  let reg := [("other", 2); ("shift", 3)] in
  let source f := Some (if Nat.eqb f 3 then "def shift(x): return x + 1" else "def other(x): return x") in
  NoDup (map fst reg) /\ (forall k f, In (k, f) reg -> source f <> None) /\
  Forall (fun e => savable (fun _ => true) (fun _ => true) ex_default reg false "" "" "" (snd e)) ex_prior /\
  Forall (fun e => plain_dicts false (snd e)) ex_prior /\
  In ("beta_m", snd (hd ("", VNone) ex_prior)) ex_prior /\ occurs 3 (snd (hd ("", VNone) ex_prior)) /\
  (forall b c n, ex_default b c n <> Some (Some 3)) /\ ~ In 3 (map snd [("other", 2)]).
Proof.
  intros reg source. split; [|split; [|split; [|split; [|split; [|split; [|split]]]]]].
  - repeat constructor; cbn; intuition discriminate.
  - intros k f _. discriminate.
  - unfold ex_prior. repeat (apply Forall_nil || apply Forall_cons); cbn [snd fst];
    repeat (first [apply Forall_nil | apply Forall_cons | constructor; fail | (apply SV_dist; [right; reflexivity|]) | (apply SV_bij; [reflexivity|]) | apply SV_list | apply SV_dict
      | (apply SV_default; reflexivity) | (apply (SV_registered _ _ _ _ _ _ _ _ 3 None); [reflexivity|discriminate|right; left; reflexivity])
      | (apply SV_int; lia) | apply SV_float | apply SV_bool | apply SV_str | apply SV_none | apply SV_tensor]; cbn [fst snd]).
  - unfold ex_prior. repeat (constructor; cbn [snd fst]).
  - left. reflexivity.
  - cbn [ex_prior hd snd]. eapply O_dist; [right; left; reflexivity|]. eapply O_bij; [left; reflexivity|].
    eapply O_list; [left; reflexivity|]. eapply O_bij; [left; reflexivity|]. constructor.
  - intros b c n. unfold ex_default. destruct (String.eqb n "convert_fn"); [discriminate|]. destruct (String.eqb n "fn"); discriminate.
  - cbn. intuition discriminate.
Qed.
Print Assumptions C71_example.
