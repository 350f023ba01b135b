(** Property C75: model files. *)
From Coq Require Import Reals NArith ZArith String List Bool Lia.
From Verif Require Import M_Base M_Time M_Spec M_Knots M_Hyper S_Hyper M_DistSerde S_DistSerde C_DistSerde
  M_InputData M_Marketing S_Marketing C_Marketing M_ModelSerde S_ModelSerde P_ModelSerde C_ModelSerde.
From Verif Require M_SaveFile S_SaveFile P_SaveFile.
Import ListNotations.
Local Open Scope string_scope.
Local Open Scope nat_scope.
Local Open Scope list_scope.

(** The files of M_SaveFile with the messages of M_ModelSerde: an unset field is an [Any] without a model and
    empty marketing data. *)
Definition no_marketing : marketing := mkMarketing [] (mkMetadata [] [] [] [] [] "" "").
Section Files.
Variable source : nat -> option string.
Variable hash : string -> string.
Variable aks : input -> list Z.
Variables l170 l171 : input -> list Z.
Variable Legacy : Type.
Variables f32 fbk : R -> R.
Variable known_dist known_bij : string -> bool.
Variable default_of : bool -> string -> string -> option (option nat).
Variable read_legacy : Legacy -> result (list (string * value)).
Variable accepts : input -> hyper -> list (string * value) -> eda -> result unit.
Variables backend precision : Z.
Variables dist_reg eda_reg : registry.
Variable force : bool.
Variable encode_marketing : marketing -> M_SaveFile.bytes.
Variable decode_marketing : M_SaveFile.bytes -> option marketing.
Variable encode_model : any Legacy -> M_SaveFile.bytes.
Variable decode_model : M_SaveFile.bytes -> option (any Legacy).
Variable print_text : marketing * option (any Legacy) -> M_SaveFile.bytes.
Variable parse_text : M_SaveFile.bytes -> option (marketing * option (any Legacy)).
Variable data_first : bool.

(** meridian_serde.py:441-447 and 497-503: the message of a model and the model of a message. *)
Definition to_message (m : meridian) : result (marketing * option (any Legacy)) :=
  rbind (serialize_model source hash Legacy f32 known_dist known_bij default_of current_version dist_reg eda_reg m) (fun k => Ok (k_marketing Legacy k, Some (k_model Legacy k))).
Definition of_message (p : marketing * option (any Legacy)) : result meridian :=
  rbind (deserialize_model source hash aks l170 l171 Legacy fbk known_dist known_bij default_of read_legacy accepts backend precision dist_reg eda_reg force
    (mkKernel Legacy (fst p) (match snd p with Some x => x | None => AnyOther Legacy end))) (fun r => Ok (fst r)).
Definition save_meridian := M_SaveFile.save marketing (any Legacy) meridian encode_marketing encode_model print_text data_first to_message.
Definition load_meridian := M_SaveFile.load marketing (any Legacy) meridian decode_marketing no_marketing decode_model parse_text of_message.
Definition history := M_SaveFile.history marketing (any Legacy) meridian encode_marketing encode_model print_text data_first to_message.
Definition readable := S_SaveFile.readable marketing (any Legacy) meridian encode_marketing decode_marketing encode_model decode_model print_text parse_text to_message.

Lemma has_model : forall m k, to_message m = Ok k -> exists mk md, k = (mk, Some md).
Proof. intros m k H. unfold to_message in H. destruct (serialize_model _ _ _ _ _ _ _ _ _ _ _) as [x|]; cbn [rbind] in H; [|discriminate]. exists (k_marketing Legacy x), (k_model Legacy x). congruence. Qed.
Lemma no_model_refused : forall mk, exists e, of_message (mk, None) = Err e.
Proof. intros mk. exists ValueError. reflexivity. Qed.
Lemma no_data_refused : forall md, exists e, of_message (no_marketing, Some md) = Err e.
Proof.
  intros md. destruct (of_message (no_marketing, Some md)) as [m|e] eqn:E; [|exists e; reflexivity]. exfalso. unfold of_message in E. cbn [fst snd] in E.
  match type of E with rbind ?a _ = _ => destruct a as [[m' w]|] eqn:D; cbn [rbind] in E; [|discriminate] end.
  apply loaded_inv in D. destruct D as (mp & v & _ & _ & _ & L & _). cbn [k_marketing] in L. discriminate L.
Qed.

(** C75. After a save that returned, and whatever was saved to other files since, with or without success, the
    file holds that model: loading it gives what its message gives. *)
Theorem C75_latest : forall s path m states l,
  readable m -> save_meridian s path m = (states, None) -> (forall e, In e l -> M_SaveFile.ev_path meridian e <> path) ->
  exists k, to_message m = Ok k /\ load_meridian (history (last states s) l) path = S_SaveFile.outcome_of (of_message k).
Proof.
  intros s path m states l. apply (P_SaveFile.latest_lemma marketing (any Legacy) meridian). exact has_model.
Qed.

(** C75. Whenever a save stops, other files are what they were, no directory is gone, and neither is the file. *)
Theorem C75_isolated : forall s path m states e s', save_meridian s path m = (states, e) -> In s' states ->
  (forall q, q <> path -> M_SaveFile.contents s' q = M_SaveFile.contents s q) /\
  (forall q, M_SaveFile.is_dir s q = true -> M_SaveFile.is_dir s' q = true) /\
  (M_SaveFile.contents s path <> None -> M_SaveFile.contents s' path <> None).
Proof.
  intros s path m states e s' H Hin. destruct (P_SaveFile.save_states _ _ _ _ _ _ _ _ s path m states e H s' Hin) as (A & B & C).
  split; [exact B|split; [exact A|]]. intros N. destruct C as [C|[C|(_ & b & n & _ & C)]]; rewrite C; [exact N|discriminate|discriminate].
Qed.

(** C75. Wherever a save to a binary file is interrupted, the file is what it was, or cannot be loaded, or holds
    the model. *)
Theorem C75_crash : forall s path m states e s', readable m -> save_meridian s path m = (states, e) -> S_SaveFile.binary path -> In s' (s :: states) ->
  M_SaveFile.contents s' path = M_SaveFile.contents s path \/ (exists x, load_meridian s' path = inr x) \/
  (e = None /\ exists k, to_message m = Ok k /\ load_meridian s' path = S_SaveFile.outcome_of (of_message k)).
Proof.
  intros s path m states e s' Rd H B. apply P_SaveFile.binary_iff in B.
  exact (P_SaveFile.crash_lemma marketing (any Legacy) meridian _ _ _ _ _ _ _ _ _ _ has_model no_model_refused no_data_refused s path m states e s' Rd H B).
Qed.

(** C75. Whatever was saved, interrupted or failed, in whatever order: if a binary file loads, it is as it was at
    the beginning or it holds the model of a save to it that could finish, and is as that save left it. *)
Theorem C75_only_saved : forall l s path r, S_SaveFile.binary path ->
  (forall e, In e l -> M_SaveFile.ev_path meridian e = path -> readable (M_SaveFile.ev_model meridian e)) ->
  load_meridian (history s l) path = inl r ->
  M_SaveFile.contents (history s l) path = M_SaveFile.contents s path \/
  exists l1 e l2 k, l = l1 ++ e :: l2 /\ M_SaveFile.ev_path meridian e = path /\ to_message (M_SaveFile.ev_model meridian e) = Ok k /\ of_message k = Ok r /\
    snd (save_meridian (history s l1) path (M_SaveFile.ev_model meridian e)) = None /\
    M_SaveFile.contents (history s l) path = M_SaveFile.contents (history s (l1 ++ [e])) path.
Proof.
  intros l s path r B Rd H. apply P_SaveFile.binary_iff in B.
  exact (P_SaveFile.only_saved_lemma marketing (any Legacy) meridian _ _ _ _ _ _ _ _ _ _ has_model no_model_refused no_data_refused l s path r Rd B H).
Qed.

(** C75. A model that has a message is saved to every path with a known extension, whose directory is there or
    can be made, and which is not a directory, if the message is below 2 GB. *)
Theorem C75_saves : forall s path m k,
  to_message m = Ok k -> M_SaveFile.is_dir s path = false -> S_SaveFile.binary path \/ S_SaveFile.text path ->
  (S_SaveFile.binary path -> M_SaveFile.encode marketing (any Legacy) encode_marketing encode_model data_first k <> None) ->
  (M_SaveFile.dirname path <> "" /\ M_SaveFile.is_dir s (M_SaveFile.dirname path) = true) \/
  S_SaveFile.creatable s (M_SaveFile.dirname path) ->
  exists states, save_meridian s path m = (states, None).
Proof.
  intros s path m k Hm Nd Ext Size Dir.
  assert (Open : forall s0, M_SaveFile.is_dir s0 path = false -> M_SaveFile.is_dir s0 (M_SaveFile.dirname path) = true -> exists states,
    M_SaveFile.save_open marketing (any Legacy) meridian encode_marketing encode_model print_text data_first to_message s0 path m = (states, None)).
  { intros s0 Np Dp. unfold M_SaveFile.save_open. rewrite Np. unfold M_SaveFile.inside. rewrite Dp, orb_true_r. cbn [orb negb]. rewrite Hm.
    destruct (M_SaveFile.ends_with ".binpb" path) eqn:Eb.
    - destruct (M_SaveFile.encode _ _ _ _ _ k) eqn:Ee; [eexists; reflexivity|]. exfalso. apply P_SaveFile.binary_iff in Eb. exact (Size Eb eq_refl).
    - destruct (_ || _)%bool eqn:Et; [eexists; reflexivity|]. exfalso. destruct Ext as [X|X]; [apply P_SaveFile.binary_iff in X; congruence|apply P_SaveFile.text_iff in X; congruence]. }
  unfold save_meridian, M_SaveFile.save. destruct Dir as [[Ne Dp]|Cr].
  - assert (X : M_SaveFile.exists_ s (M_SaveFile.dirname path) = true) by (apply P_SaveFile.there_iff; [exact Ne|left; exact Dp]). rewrite X. exact (Open s Nd Dp).
  - assert (Sh : String.length (M_SaveFile.dirname path) < String.length path).
    { destruct (P_SaveFile.dirname_shorter path) as [L|E]; [exact L|]. exfalso. apply (P_SaveFile.creatable_not_own s _ Cr). congruence. }
    assert (Ne : M_SaveFile.dirname path <> "") by (destruct Cr; assumption). assert (Nt : ~ S_SaveFile.is_there s (M_SaveFile.dirname path)) by (destruct Cr; assumption).
    destruct (M_SaveFile.exists_ s (M_SaveFile.dirname path)) eqn:X; [apply P_SaveFile.there_iff in X; [contradiction|exact Ne]|].
    destruct (P_SaveFile.makedirs_creates s _ Cr _ (le_n _)) as (states & Em & Dl & Dn). rewrite Em.
    destruct (Open (last states s)) as [more Eo].
    + destruct (M_SaveFile.is_dir (last states s) path) eqn:E; [|reflexivity]. destruct (Dn path E) as [E1|E1]; [congruence|lia].
    + exact Dl.
    + rewrite Eo. eexists. reflexivity.
Qed.

(** That a save that fails leaves the file alone: refuted. The file is emptied before the model is turned into a
    message and before the extension is looked at. *)
Theorem C75_failed_save_refuted : forall s path m,
  M_SaveFile.is_dir s path = false -> M_SaveFile.dirname path <> "" -> M_SaveFile.is_dir s (M_SaveFile.dirname path) = true ->
  (exists x, to_message m = Err x) \/ (~ S_SaveFile.binary path /\ ~ S_SaveFile.text path) ->
  exists s' x, save_meridian s path m = ([s'], Some (M_SaveFile.PyError x)) /\ M_SaveFile.contents s' path = Some [] /\
    ((S_SaveFile.binary path \/ ~ S_SaveFile.text path) -> exists y, load_meridian s' path = inr y).
Proof.
  intros s path m Nd Ne Dp Why. unfold save_meridian, M_SaveFile.save.
  assert (X : M_SaveFile.exists_ s (M_SaveFile.dirname path) = true) by (apply P_SaveFile.there_iff; [exact Ne|left; exact Dp]). rewrite X.
  unfold M_SaveFile.save_open. rewrite Nd. unfold M_SaveFile.inside. rewrite Dp, orb_true_r. cbn [orb negb].
  assert (C : M_SaveFile.contents (M_SaveFile.write s path []) path = Some []) by (unfold M_SaveFile.write; cbn [M_SaveFile.contents]; rewrite String.eqb_refl; reflexivity).
  assert (Ld : (S_SaveFile.binary path \/ ~ S_SaveFile.text path) -> exists y, load_meridian (M_SaveFile.write s path []) path = inr y).
  { intros Hb. destruct (M_SaveFile.ends_with ".binpb" path) eqn:Eb.
    - exact (P_SaveFile.empty_refused marketing (any Legacy) meridian _ _ _ _ _ no_model_refused _ _ C Eb).
    - destruct Hb as [Hb|Hb]; [apply P_SaveFile.binary_iff in Hb; congruence|]. unfold load_meridian, M_SaveFile.load. rewrite C, Eb.
      destruct (_ || _)%bool eqn:Et; [apply P_SaveFile.text_iff in Et; contradiction|]. eexists. reflexivity. }
  destruct Why as [[x Hx]|[N1 N2]].
  - rewrite Hx. exists (M_SaveFile.write s path []), x. auto.
  - destruct (to_message m) as [k|x]; [|exists (M_SaveFile.write s path []), x; auto].
    destruct (M_SaveFile.ends_with ".binpb" path) eqn:Eb; [apply P_SaveFile.binary_iff in Eb; contradiction|].
    destruct (M_SaveFile.ends_with ".textproto" path || M_SaveFile.ends_with ".txtpb" path)%bool eqn:Et; [apply P_SaveFile.text_iff in Et; contradiction|].
    exists (M_SaveFile.write s path []), ValueError. auto.
Qed.

(** That an interrupted save leaves the model that was there before: refuted, for every save that gets as far as
    opening the file. *)
Theorem C75_interrupted_refuted : forall s path m, M_SaveFile.is_dir s path = false -> M_SaveFile.dirname path <> "" ->
  M_SaveFile.is_dir s (M_SaveFile.dirname path) = true ->
  exists s', M_SaveFile.after marketing (any Legacy) meridian encode_marketing encode_model print_text data_first to_message s
      (M_SaveFile.mkEvent meridian path m (Some 1)) = s' /\ M_SaveFile.contents s' path = Some [] /\
    (S_SaveFile.binary path -> exists y, load_meridian s' path = inr y).
Proof.
  intros s path m Nd Ne Dp. unfold M_SaveFile.after. cbn [M_SaveFile.ev_path M_SaveFile.ev_model M_SaveFile.ev_crash]. eexists. split; [reflexivity|].
  set (s' := nth 1 _ _).
  assert (C : s' = M_SaveFile.write s path []).
  { unfold s'. unfold M_SaveFile.save.
    assert (X : M_SaveFile.exists_ s (M_SaveFile.dirname path) = true) by (apply P_SaveFile.there_iff; [exact Ne|left; exact Dp]). rewrite X.
    unfold M_SaveFile.save_open. rewrite Nd. unfold M_SaveFile.inside. rewrite Dp, orb_true_r. cbn [orb negb].
    destruct (to_message m); [|reflexivity]. destruct (M_SaveFile.ends_with ".binpb" path); [destruct (M_SaveFile.encode _ _ _ _ _ _); reflexivity|].
    destruct (_ || _)%bool; reflexivity. }
  rewrite C. assert (E : M_SaveFile.contents (M_SaveFile.write s path []) path = Some []) by (unfold M_SaveFile.write; cbn [M_SaveFile.contents]; rewrite String.eqb_refl; reflexivity).
  split; [exact E|]. intros B. apply P_SaveFile.binary_iff in B. exact (P_SaveFile.empty_refused marketing (any Legacy) meridian _ _ _ _ _ no_model_refused _ _ E B).
Qed.

(** That a model can be saved in the current directory by the name of the file: refuted, for every model. *)
Theorem C75_bare_name_refuted : forall s path m, M_SaveFile.dirname path = "" -> save_meridian s path m = ([], Some M_SaveFile.OSError).
Proof. intros s path m E. unfold save_meridian, M_SaveFile.save. rewrite E. reflexivity. Qed.
End Files.
Print Assumptions C75_latest.
Print Assumptions C75_isolated.
Print Assumptions C75_crash.
Print Assumptions C75_only_saved.
Print Assumptions C75_saves.
Print Assumptions C75_failed_save_refuted.
Print Assumptions C75_interrupted_refuted.
Print Assumptions C75_bare_name_refuted.

(** *** The hypotheses are met *)
(** A disk with the directory "/m", and a codec that knows the messages of the model of C74. *)
Definition ex_fs : M_SaveFile.fs := M_SaveFile.mkFs (fun p => String.eqb p "/" || String.eqb p "/m") (fun _ => None).
Example C75_example : forall aks f32 fbk hash, exists k,
  let m := ex_model (KsInt 1) in
  let msg := to_message ex_source hash unit f32 (fun _ => true) (fun _ => true) ex_default ex_reg ex_reg in
  let back := of_message ex_source hash aks (fun _ => []) (fun _ => []) unit fbk (fun _ => true) (fun _ => true) ex_default (fun _ => Err ValueError) (fun _ _ _ _ => Ok tt) 1 1 ex_reg ex_reg false in
  let save := save_meridian ex_source hash unit f32 (fun _ => true) (fun _ => true) ex_default ex_reg ex_reg (fun _ => [7%N]) (fun _ => [8%N; 9%N]) (fun _ => [5%N]) true in
  msg m = Ok k /\
  readable ex_source hash unit f32 (fun _ => true) (fun _ => true) ex_default ex_reg ex_reg (fun _ => [7%N]) (fun b => match b with [7%N] => Some (fst k) | _ => None end)
    (fun _ => [8%N; 9%N]) (fun b => match b with [8%N; 9%N] => snd k | _ => None end) (fun _ => [5%N]) (fun b => match b with [5%N] => Some k | _ => None end) m /\
  (exists m', back k = Ok m' /\ restored (panel_by rounded_down) (mm_input m) (mm_input m')) /\
  (exists states, save ex_fs "/m/a.binpb" m = (states, None) /\ length states = 8) /\
  (exists states, save ex_fs "/m/x/y/a.txtpb" m = (states, None)) /\
  S_SaveFile.binary "/m/a.binpb" /\ S_SaveFile.creatable ex_fs "/m/x/y".
Proof.
  intros aks f32 fbk hash. destruct (C74_example aks f32 fbk) as (Sv & Ck & K & Acc).
  destruct (C74_round_trip ex_source hash aks (fun _ => []) (fun _ => []) unit f32 fbk (fun _ => true) (fun _ => true) ex_default (fun _ => Err ValueError) (fun _ _ _ _ => Ok tt) 1%Z 1%Z ex_reg ex_reg _ Sv Ck K Acc)
    as (k & m' & w & Es & Ed & Ri & _).
  exists (k_marketing unit k, Some (k_model unit k)). cbv zeta.
  assert (Hm : to_message ex_source hash unit f32 (fun _ => true) (fun _ => true) ex_default ex_reg ex_reg (ex_model (KsInt 1)) = Ok (k_marketing unit k, Some (k_model unit k))).
  { unfold to_message. rewrite Es. reflexivity. }
  split; [exact Hm|]. split.
  { intros mk md E. rewrite Hm in E. assert (mk = k_marketing unit k) by congruence. assert (md = k_model unit k) by congruence. subst. auto. }
  split.
  { exists m'. split; [|exact Ri]. unfold of_message. cbn [fst snd]. destruct k as [km kk]. cbn [k_marketing k_model]. rewrite (Ed false). reflexivity. }
  assert (Cr : S_SaveFile.creatable ex_fs "/m/x/y").
  { apply S_SaveFile.in_creatable; [discriminate| |apply S_SaveFile.in_directory; [discriminate| |right; reflexivity]]; intros [H|H]; [discriminate H|apply H; reflexivity|discriminate H|apply H; reflexivity]. }
  split.
  { unfold save_meridian, M_SaveFile.save, M_SaveFile.save_open. change (M_SaveFile.exists_ ex_fs (M_SaveFile.dirname "/m/a.binpb")) with true.
    change (M_SaveFile.is_dir ex_fs "/m/a.binpb" || negb (M_SaveFile.inside ex_fs (M_SaveFile.dirname "/m/a.binpb")))%bool with false. rewrite Hm. cbv iota.
    eexists. split; [reflexivity|reflexivity]. }
  split.
  { eapply C75_saves; [exact Hm|reflexivity|right; exists "/m/x/y/a"; left; reflexivity| |right; exact Cr].
    intros [n E]. exfalso. apply (f_equal (M_SaveFile.ends_with ".binpb")) in E. rewrite P_SaveFile.ends_with_append in E. discriminate E. }
  split; [exists "/m/a"; reflexivity|exact Cr].
Qed.
