From Coq Require Import ZArith NArith QArith String Ascii Lia List Bool Arith DecimalString.
From Verif Require Import M_Base M_Format M_Sheets S_Sheets.
Import ListNotations.
Local Open Scope string_scope.
Local Open Scope nat_scope.
Local Open Scope list_scope.

(** The upload. *)
Section Upload.
Variables (default_title : string) (new_id : list sheet -> N).
Fixpoint grow (st : list sheet) (tabs : list string) : list sheet :=
  match tabs with [] => [] | t :: r => let s := mkSheet (new_id st) t [] in s :: grow (st ++ [s]) r end.
Lemma grow_titles : forall tabs st, map sh_title (grow st tabs) = tabs.
Proof. induction tabs as [|t r IH]; intros st; [reflexivity|]. cbn [grow map]. cbv zeta. cbn [map sh_title]. now rewrite IH. Qed.
Lemma has_title_iff : forall t st, has_title t st = true <-> In t (map sh_title st).
Proof.
  intros t st. unfold has_title. rewrite existsb_exists, in_map_iff. split.
  - intros (s & I & E). apply String.eqb_eq in E. exists s. auto.
  - intros (s & E & I). exists s. split; [exact I|]. apply String.eqb_eq. congruence.
Qed.
Definition added (s : sheet) : reply := Added (sh_title s) (sh_id s).
Lemma adds : forall tabs st rest, NoDup tabs -> (forall t, In t tabs -> ~ In t (map sh_title st)) ->
  do_requests new_id st (map AddSheet tabs ++ rest)
  = rbind (do_requests new_id (st ++ grow st tabs) rest) (fun q => Ok (fst q, map added (grow st tabs) ++ snd q)).
Proof.
  induction tabs as [|t r IH]; intros st rest N F.
  - cbn [map app grow]. rewrite app_nil_r. destruct (do_requests new_id st rest) as [[a b]|]; reflexivity.
  - inversion N as [|? ? Nt Nr]; subst. cbn [map app do_requests do_request grow]. cbv zeta.
    destruct (has_title t st) eqn:E; [exfalso; apply (F t (or_introl eq_refl)), has_title_iff, E|]. cbn [raise_if rbind fst snd].
    rewrite IH; [|exact Nr|].
    + rewrite <- app_assoc. cbn [app map]. unfold added at 2. cbn [sh_title sh_id].
      destruct (do_requests new_id _ rest) as [[a b]|]; reflexivity.
    + intros u Hu. rewrite map_app, in_app_iff. cbn [map sh_title In]. intros [C|[C|[]]]; [exact (F u (or_intror Hu) C)|]. subst u. contradiction.
Qed.
Lemma adds_taken : forall tabs st rest t, In t tabs -> In t (map sh_title st) ->
  do_requests new_id st (map AddSheet tabs ++ rest) = Err RuntimeError.
Proof.
  induction tabs as [|u r IH]; intros st rest t I T; [destruct I|]. cbn [map app do_requests do_request]. cbv zeta.
  destruct (has_title u st) eqn:E; [reflexivity|]. cbn [raise_if rbind fst snd].
  destruct I as [->|I]; [apply has_title_iff in T; congruence|].
  rewrite (IH _ rest t I); [reflexivity|]. rewrite map_app, in_app_iff. left. exact T.
Qed.
Hypothesis fresh : forall st, ~ In (new_id st) (map sh_id st).
Lemma grow_ids : forall tabs st, NoDup (map sh_id (grow st tabs)) /\ forall i, In i (map sh_id st) -> ~ In i (map sh_id (grow st tabs)).
Proof.
  induction tabs as [|t r IH]; intros st; [split; [constructor|intros i _ []]|].
  cbn [grow]. cbv zeta. cbn [map sh_id]. set (s := mkSheet (new_id st) t []). destruct (IH (st ++ [s])) as [A B].
  split.
  - constructor; [|exact A]. apply B. rewrite map_app, in_app_iff. right. left. reflexivity.
  - intros i Hi [C|C]; [subst i; exact (fresh st Hi)|]. apply (B i); [|exact C]. rewrite map_app, in_app_iff. left. exact Hi.
Qed.
Lemma delete_lemma : forall new, ~ In 0%N (map sh_id new) ->
  do_request new_id (new_spreadsheet default_title ++ new) (DeleteSheet 0) =
  match new with [] => Err RuntimeError | _ => Ok (new, Empty) end.
Proof.
  intros new H. unfold do_request, new_spreadsheet. cbv zeta.
  assert (E : filter (fun s => negb (N.eqb 0 (sh_id s))) ([mkSheet 0 default_title []] ++ new) = new).
  { clear fresh. change (filter (fun s => negb (N.eqb 0 (sh_id s))) new = new). induction new as [|s r IH]; [reflexivity|]. cbn [filter]. cbn [map In] in H.
    destruct (N.eqb 0 (sh_id s)) eqn:E; [apply N.eqb_eq in E; exfalso; apply H; left; congruence|]. cbn [negb]. rewrite IH; tauto. }
  rewrite E. cbn [app length]. destruct new as [|s r]; [reflexivity|]. cbn [length Nat.eqb].
  destruct (Nat.eqb (length r) (S (length r))) eqn:C; [apply Nat.eqb_eq in C; lia|]. reflexivity.
Qed.
End Upload.

Fixpoint assoc {A} (t : string) (l : list (string * A)) : option A :=
  match l with [] => None | (u, v) :: r => if String.eqb t u then Some v else assoc t r end.
Definition filled (vals : list (string * list (list entry))) (s : sheet) : sheet :=
  match assoc (sh_title s) vals with Some v => mkSheet (sh_id s) (sh_title s) v | None => s end.
Lemma assoc_none : forall A t (l : list (string * A)), ~ In t (map fst l) -> assoc t l = None.
Proof.
  intros A t l. induction l as [|[u v] r IH]; intros H; [reflexivity|]. cbn [assoc]. cbn [map fst In] in H.
  destruct (String.eqb t u) eqn:E; [apply String.eqb_eq in E; exfalso; apply H; left; congruence|]. apply IH. tauto.
Qed.
Lemma assoc_in : forall A t v (l : list (string * A)), NoDup (map fst l) -> (assoc t l = Some v <-> In (t, v) l).
Proof.
  intros A t v l. induction l as [|[u w] r IH]; intros N; [cbn; split; [discriminate|tauto]|].
  cbn [map fst] in N. inversion N as [|? ? Nu Nr]; subst. cbn [assoc In].
  destruct (String.eqb t u) eqn:E.
  - apply String.eqb_eq in E. subst u. split; [intros H; left; congruence|]. intros [H|H]; [congruence|].
    exfalso. apply Nu. apply in_map_iff. exists (t, v). auto.
  - apply String.eqb_neq in E. rewrite (IH Nr). split; [auto|]. intros [H|H]; [congruence|exact H].
Qed.
Lemma fill_lemma : forall vals st, NoDup (map fst vals) -> (forall t, In t (map fst vals) -> In t (map sh_title st)) ->
  fill st vals = Ok (map (filled vals) st).
Proof.
  induction vals as [|[t v] l IH]; intros st N F.
  - cbn [fill]. f_equal. symmetry. rewrite (map_ext _ (fun s => s)); [apply map_id|]. intros s. reflexivity.
  - cbn [map fst] in N. inversion N as [|? ? Nt Nl]; subst. cbn [fill].
    rewrite (proj2 (has_title_iff t st) (F t (or_introl eq_refl))). cbn [negb raise_if]. rewrite IH; [|exact Nl|].
    + f_equal. rewrite map_map. apply map_ext. intros s. unfold filled at 2. cbn [assoc]. rewrite (String.eqb_sym (sh_title s) t).
      destruct (String.eqb t (sh_title s)) eqn:E; [|reflexivity]. apply String.eqb_eq in E. unfold filled. cbn [sh_title].
      rewrite <- E, assoc_none by exact Nt. reflexivity.
    + intros u Hu. rewrite map_map. replace (map (fun x => sh_title (if String.eqb t (sh_title x) then mkSheet (sh_id x) (sh_title x) v else x)) st) with (map sh_title st).
      * apply F. right. exact Hu.
      * apply map_ext. intros s. destruct (String.eqb t (sh_title s)); reflexivity.
Qed.
Lemma set_tab_new : forall t i acc, ~ In t (map fst acc) -> set_tab t i acc = acc ++ [(t, i)].
Proof.
  intros t i acc. induction acc as [|[u j] r IH]; intros H; [reflexivity|]. cbn [set_tab app]. cbn [map fst In] in H.
  destruct (String.eqb t u) eqn:E; [apply String.eqb_eq in E; exfalso; apply H; left; congruence|]. rewrite IH by tauto. reflexivity.
Qed.
Definition entry_of (s : sheet) : string * N := (sh_title s, sh_id s).
Lemma tab_ids_lemma : forall new acc, NoDup (map sh_title new) -> (forall t, In t (map sh_title new) -> ~ In t (map fst acc)) ->
  tab_ids (map added new ++ [Empty]) acc = acc ++ map entry_of new.
Proof.
  induction new as [|s r IH]; intros acc N F; [cbn; now rewrite app_nil_r|].
  cbn [map] in N. inversion N as [|? ? Ns Nr]; subst. cbn [map app tab_ids added]. rewrite set_tab_new by (apply F; left; reflexivity).
  rewrite IH; [rewrite <- app_assoc; reflexivity|exact Nr|]. intros t Ht. rewrite map_app, in_app_iff. cbn [map fst In].
  intros [C|[C|[]]]; [apply (F t (or_intror Ht)); exact C|]. subst t. contradiction.
Qed.
Lemma sent_shown : forall rows, Forall2 (Forall2 shown_as) rows (map (map sent) rows).
Proof.
  induction rows as [|r rows IH]; [constructor|]. constructor; [|exact IH]. induction r as [|c r IHr]; [constructor|].
  constructor; [|exact IHr]. destruct c; reflexivity.
Qed.

Lemma tables_lemma : forall V (data : list (string * frame)) new, map sh_title new = map fst data ->
  (forall d s, In d data -> sh_title s = fst d -> holds_table (filled V s) (snd d)) ->
  Forall2 (fun d s => holds_table s (snd d)) data (map (filled V) new).
Proof.
  intros V data. induction data as [|d data IH]; intros new Gt K; destruct new as [|s new]; try discriminate; [constructor|].
  cbn [map] in *. injection Gt as E Gt. constructor; [apply K; [left; reflexivity|exact E]|]. apply IH; [exact Gt|].
  intros d' s' I E'. apply K; [right; exact I|exact E'].
Qed.
Lemma upload_lemma : forall default_title new_id url id data,
  (forall st, ~ In (new_id st) (map sh_id st)) -> NoDup (map fst data) -> data <> [] -> ~ In default_title (map fst data) ->
  exists st sp, upload default_title new_id url id data = (st, Ok sp) /\ s_url sp = url /\ s_id sp = id /\
    map sh_title st = map fst data /\ NoDup (map sh_id st) /\ s_tabs sp = map (fun s => (sh_title s, sh_id s)) st /\
    Forall2 (fun d s => holds_table s (snd d)) data st.
Proof.
  intros dt new_id url id data Fr N NE ND. unfold upload, requests.
  replace (map (fun d => AddSheet (fst d)) data) with (map AddSheet (map fst data)) by apply map_map.
  set (tabs := map fst data) in *. set (new := grow new_id (new_spreadsheet dt) tabs).
  rewrite (adds new_id tabs (new_spreadsheet dt) [DeleteSheet 0] N); [|intros t Ht [C|[]]; cbn [sh_title] in C; subst t; contradiction].
  fold new. destruct (grow_ids new_id Fr tabs (new_spreadsheet dt)) as [Gi Gf]. fold new in Gi, Gf.
  assert (Gt : map sh_title new = tabs) by apply grow_titles.
  cbn [do_requests]. rewrite (delete_lemma dt new_id new (Gf 0%N (or_introl eq_refl))).
  destruct new as [|s0 r0] eqn:En.
  { exfalso. apply NE. cbn [map] in Gt. unfold tabs in Gt. destruct data; [reflexivity|discriminate]. }
  rewrite <- En in *. cbn [rbind fst snd]. rewrite tab_ids_lemma; [|rewrite Gt; exact N|intros t _ []]. cbn [app].
  assert (Ev : map fst (values data) = tabs) by (unfold values; rewrite map_map; reflexivity).
  rewrite fill_lemma; [|rewrite Ev; exact N|rewrite Ev, Gt; auto].
  eexists. eexists. split; [reflexivity|]. split; [reflexivity|]. split; [reflexivity|]. cbn [s_tabs].
  assert (Ft : forall s, sh_title (filled (values data) s) = sh_title s) by (intros s; unfold filled; destruct (assoc _ _); reflexivity).
  assert (Fi : forall s, sh_id (filled (values data) s) = sh_id s) by (intros s; unfold filled; destruct (assoc _ _); reflexivity).
  split. { rewrite map_map, (map_ext _ _ Ft). exact Gt. }
  split. { rewrite map_map, (map_ext _ _ Fi). exact Gi. }
  split. { rewrite map_map. apply map_ext. intros s. unfold entry_of. rewrite Ft, Fi. reflexivity. }
  assert (K : forall d s, In d data -> sh_title s = fst d -> holds_table (filled (values data) s) (snd d)).
  { intros d s I E. unfold filled. rewrite E.
    assert (A : assoc (fst d) (values data) = Some (values_of (snd d))).
    { apply assoc_in; [rewrite Ev; exact N|]. unfold values. apply in_map_iff. exists d. auto. }
    rewrite A. exists (map (map sent) (cells (snd d))). split; [reflexivity|apply sent_shown]. }
  apply tables_lemma; [exact Gt|exact K].
Qed.

Lemma upload_refused : forall default_title new_id url id data,
  (forall st, ~ In (new_id st) (map sh_id st)) -> (data = [] \/ In default_title (map fst data)) ->
  upload default_title new_id url id data = (new_spreadsheet default_title, Err RuntimeError).
Proof.
  intros dt new_id url id data Fr [->|I]; [reflexivity|]. unfold upload, requests.
  replace (map (fun d => AddSheet (fst d)) data) with (map AddSheet (map fst data)) by apply map_map.
  rewrite (adds_taken new_id (map fst data) (new_spreadsheet dt) [DeleteSheet 0] dt I (or_introl eq_refl)). reflexivity.
Qed.

(** Reading strings. *)
Definition free (c a : ascii) : bool := negb (Ascii.eqb a c).
Lemma all_app : forall p s t, all_chars p (s ++ t)%string = (all_chars p s && all_chars p t)%bool.
Proof. intros p s t. induction s as [|c s IH]; [reflexivity|]. cbn [append all_chars]. rewrite IH. apply andb_assoc. Qed.
Lemma all_impl : forall (p q : ascii -> bool) s, (forall c, p c = true -> q c = true) -> all_chars p s = true -> all_chars q s = true.
Proof.
  intros p q s H. induction s as [|c s IH]; [reflexivity|]. cbn [all_chars]. intros E. apply andb_prop in E. destruct E as [E F].
  now rewrite (H c E), (IH F).
Qed.
Lemma cut_none : forall c s, all_chars (free c) s = true -> cut c s = (s, None).
Proof.
  intros c s. induction s as [|a s IH]; intros H; [reflexivity|]. cbn [all_chars] in H. apply andb_prop in H. destruct H as [H K].
  unfold free in H. apply negb_true_iff in H. cbn [cut]. rewrite H, (IH K). reflexivity.
Qed.
Lemma cut_some : forall c s t, all_chars (free c) s = true -> cut c (s ++ String c t)%string = (s, Some t).
Proof.
  intros c s t. induction s as [|a s IH]; intros H; [cbn [append cut]; now rewrite Ascii.eqb_refl|].
  cbn [all_chars] in H. apply andb_prop in H. destruct H as [H K]. unfold free in H. apply negb_true_iff in H.
  cbn [append cut]. rewrite H, (IH K). reflexivity.
Qed.
Lemma split_none : forall c s, all_chars (free c) s = true -> split_on c s = [s].
Proof.
  intros c s. induction s as [|a s IH]; intros H; [reflexivity|]. cbn [all_chars] in H. apply andb_prop in H. destruct H as [H K].
  unfold free in H. apply negb_true_iff in H. cbn [split_on]. rewrite H, (IH K). reflexivity.
Qed.
Lemma split_some : forall c s t, all_chars (free c) s = true -> split_on c (s ++ String c t)%string = s :: split_on c t.
Proof.
  intros c s t. induction s as [|a s IH]; intros H; [cbn [append split_on]; now rewrite Ascii.eqb_refl|].
  cbn [all_chars] in H. apply andb_prop in H. destruct H as [H K]. unfold free in H. apply negb_true_iff in H.
  cbn [append split_on]. rewrite H, (IH K). reflexivity.
Qed.
Lemma split_join : forall c l, l <> [] -> Forall (fun s => all_chars (free c) s = true) l ->
  split_on c (String.concat (String c "") l) = l.
Proof.
  intros c l. induction l as [|s l IH]; intros N F; [congruence|]. inversion F as [|? ? Fs Fl]; subst.
  destruct l as [|u l]; [apply split_none; exact Fs|]. change (String.concat (String c "") (s :: u :: l)) with (s ++ String c (String.concat (String c "") (u :: l)))%string.
  rewrite split_some by exact Fs. rewrite IH; [reflexivity|discriminate|exact Fl].
Qed.
Lemma all_join : forall p sep l, all_chars p sep = true -> Forall (fun s => all_chars p s = true) l -> all_chars p (String.concat sep l) = true.
Proof.
  intros p sep l S. induction l as [|s l IH]; intros F; [reflexivity|]. inversion F as [|? ? Fs Fl]; subst.
  destruct l as [|u l]; [exact Fs|].
  change (String.concat sep (s :: u :: l)) with (s ++ sep ++ String.concat sep (u :: l))%string. rewrite !all_app, Fs, S. exact (IH Fl).
Qed.
Definition plain (a : ascii) : bool := free "&" a && free "=" a && free "#" a && free "?" a && free "+" a && free "%" a.
Definition quoted (a : ascii) : bool := free "&" a && free "=" a && free "#" a && free "?" a.
Lemma plain_quoted : forall a, plain a = true -> quoted a = true.
Proof. intros a H. unfold plain in H. apply andb_prop in H. destruct H as [H _]. apply andb_prop in H. exact (proj1 H). Qed.
Lemma decode_plain : forall s, all_chars plain s = true -> decode s = s.
Proof.
  induction s as [|c s IH]; intros H; [reflexivity|]. cbn [all_chars] in H. apply andb_prop in H. destruct H as [H K].
  unfold plain in H. apply andb_prop in H. destruct H as [H H1]. apply andb_prop in H. destruct H as [_ H2].
  unfold free in H1, H2. apply negb_true_iff in H1, H2. cbn [decode]. rewrite H1, H2, (IH K). reflexivity.
Qed.
Lemma decode_char : forall c r, decode (quote_char c ++ r)%string = String c (decode r).
Proof. intros [[] [] [] [] [] [] [] []] r; reflexivity. Qed.
Lemma decode_quote : forall s, decode (quote_plus s) = s.
Proof. induction s as [|c s IH]; [reflexivity|]. cbn [quote_plus]. now rewrite decode_char, IH. Qed.
Lemma quote_char_quoted : forall c, all_chars quoted (quote_char c) = true.
Proof. intros [[] [] [] [] [] [] [] []]; reflexivity. Qed.
Lemma quote_quoted : forall s, all_chars quoted (quote_plus s) = true.
Proof. induction s as [|c s IH]; [reflexivity|]. cbn [quote_plus]. now rewrite all_app, quote_char_quoted, IH. Qed.
Lemma safe_plain : forall c, always_safe c = true -> plain c = true.
Proof. intros [[] [] [] [] [] [] [] []] H; solve [reflexivity|discriminate H]. Qed.
Lemma uint_plain : forall d, all_chars plain (NilEmpty.string_of_uint d) = true.
Proof. induction d; cbn [NilEmpty.string_of_uint all_chars]; try rewrite IHd; reflexivity. Qed.
Lemma digits_plain : forall n, all_chars plain (digits n) = true.
Proof. intros n. unfold digits. destruct (N.to_uint n) eqn:E; try reflexivity; rewrite <- E; unfold NilZero.string_of_uint; rewrite E; apply uint_plain. Qed.

Definition param (p : string * string) : string := (fst p ++ String "=" (snd p))%string.
Lemma quoted_free : forall c s, In c ["&"; "="; "#"; "?"]%char -> all_chars quoted s = true -> all_chars (free c) s = true.
Proof.
  intros c s I. apply all_impl. intros a H. unfold quoted in H. rewrite !andb_true_iff in H.
  cbn [In] in I. destruct H as [[[H1 H2] H3] H4]. destruct I as [<-|[<-|[<-|[<-|[]]]]]; assumption.
Qed.
Lemma read_lemma : forall address kvs, all_chars quoted address = true -> kvs <> [] ->
  Forall (fun p => all_chars quoted (fst p) = true /\ all_chars quoted (snd p) = true) kvs ->
  read_url (address ++ String "?" (String.concat "&" (map param kvs)))%string = (address, map (fun p => (decode (fst p), decode (snd p))) kvs).
Proof.
  intros address kvs A N F. unfold read_url.
  assert (P : forall c, In c ["&"; "#"]%char -> Forall (fun s => all_chars (free c) s = true) (map param kvs)).
  { intros c I. apply Forall_forall. intros s Hs. apply in_map_iff in Hs. destruct Hs as (p & <- & Hp). rewrite Forall_forall in F. destruct (F p Hp) as [K V].
    unfold param. rewrite all_app. cbn [all_chars].
    assert (I4 : In c ["&"; "="; "#"; "?"]%char) by (cbn in *; tauto).
    rewrite (quoted_free c _ I4 K), (quoted_free c _ I4 V). cbn [In] in I. destruct I as [<-|[<-|[]]]; reflexivity. }
  rewrite (cut_none "#").
  2:{ rewrite all_app. cbn [all_chars]. rewrite (quoted_free "#" address) by (cbn; tauto || assumption).
      rewrite (all_join (free "#") "&"); [reflexivity|reflexivity|apply P; cbn; tauto]. }
  cbn [fst]. rewrite (cut_some "?") by (apply quoted_free; [cbn; tauto|exact A]). f_equal.
  rewrite (split_join "&"%char); [|destruct kvs; [congruence|discriminate]|apply P; cbn; tauto].
  rewrite map_map. apply map_ext_in. intros p Hp. rewrite Forall_forall in F. destruct (F p Hp) as [K V].
  unfold read_param, param. rewrite (cut_some "=") by (apply quoted_free; [cbn; tauto|exact K]). reflexivity.
Qed.
