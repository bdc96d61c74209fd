(** CallFacts.v - Extract as a program agrees with Extract as a function; what the programs do
    to the memory when others run at the same time. *)

From Verif Require Import Base BaseFacts Chars Str Net Trie Extract RuleSpec TrieFacts Psl ListSpec ListFacts World Update UpdateSpec
  WorldFacts Calls.
From Coq Require Import ZifyBool ZifyNat ZifyN.
Local Open Scope Z_scope.

(** ** The two versions of Extract *)

Lemma extract_split : forall ext t p,
  extract ext t p = (x <- extract_front ext p ;;
                     match x with inl r => Ret r | inr (u, host) => extract_host t u host (p_ignore_sub_domains p) end).
Proof.
  intros ext t p. unfold extract, extract_front.
  destruct (fast_trim (p_url p) whitespace_rune_set TrimBoth) as [nl| |]; cbn [bind]; [|reflexivity..].
  cbv zeta.
  match goal with |- context [bind ?m (fun '(u, n) => bind (index_last_byte_before n 64 _) _)] => destruct m as [[u nl1]| |] end;
    cbn [bind]; [|reflexivity..].
  destruct (index_last_byte_before nl1 64 invalid_user_info_chars_set) as [at_idx| |]; cbn [bind]; [|reflexivity..].
  match goal with |- bind ?m _ = bind (bind ?m _) _ => destruct m as [[u2 nl2]| |] end; cbn [bind]; [|reflexivity..].
  destruct (scan_host nl2 0 (len nl2) (-1) (-1)) as [e|[[opening closing] host_end]]; [reflexivity|].
  match goal with |- bind ?m _ = bind (bind ?m _) _ => destruct m as [[u3 [e|]]| |] end; cbn [bind]; try reflexivity.
  match goal with |- bind ?m _ = bind (bind ?m _) _ => destruct m as [[after nl3]| |] end; cbn [bind]; try reflexivity.
  destruct (port_path u3 after) as [[u4 [e|]]| |]; cbn [bind]; try reflexivity.
  destruct (r_host_type u4); try reflexivity; destruct (convert_host ext (p_to_punycode p) nl3); reflexivity.
Qed.

(** [answers a t p o]: [p] only reads the trie at address [a], and if that trie is [t], its
    result is [o]. *)
Fixpoint answers (a : nat) (t : trie) {A : Type} (p : prog A) (o : outcome A) : Prop :=
  match p with
  | Done o' => o' = o
  | Sys _ _ => False
  | @Mem _ R op k =>
    match op in mem_op R return (R -> Prop) -> Prop with
    | ReadNode b path => fun K => b = a /\ K (option_map node_info (node_at t path))
    | _ => fun _ => False
    end (fun x => answers a t (k x) o)
  end.

Lemma answers_bind : forall a t A B (p : prog A) (k : A -> prog B) o o', answers a t p o ->
  match o with
  | Ret x => answers a t (k x) o'
  | Panic => o' = Panic
  | OutOfFuel => o' = OutOfFuel
  end -> answers a t (pbind p k) o'.
Proof.
  intros a t A B. induction p as [x|R op c IH|R op c IH]; intros k o o' H K.
  - cbn [answers] in H. subst x. destruct o; cbn [pbind answers]; auto.
  - destruct H.
  - cbn [pbind]. destruct op; cbn [answers] in *; try contradiction. destruct H as (-> & H). split; [reflexivity|].
    eapply IH; eauto.
Qed.
Lemma answers_done : forall a t A B (o : outcome A) (k : A -> prog B) o',
  match o with
  | Ret x => answers a t (k x) o'
  | Panic => o' = Panic
  | OutOfFuel => o' = OutOfFuel
  end -> answers a t (pbind (Done o) k) o'.
Proof. intros. apply (answers_bind a t A B (Done o) k o); [reflexivity|exact H]. Qed.
Lemma answers_read : forall a t A (path : list bytes) (k : option (bool * bool) -> prog A) o,
  answers a t (k (option_map node_info (node_at t path))) o -> answers a t (pbind (mem_do (ReadNode a path)) k) o.
Proof. intros. cbn [pbind mem_do ret answers]. auto. Qed.

Lemma node_at_snoc : forall path t node l, node_at t path = Some node -> node_at t (path ++ [l]) = child node l.
Proof.
  induction path as [|k path IH]; intros t node l H; cbn [node_at app] in *.
  - injection H as ->. destruct (child node l); reflexivity.
  - destruct (child t k) as [t'|]; [|discriminate]. apply IH. exact H.
Qed.

Lemma node_info_matches : forall t, node_info t = (end_of t, negb (len (matches_of t) =? 0)).
Proof. intros t. unfold node_info. destruct (matches_of t) as [|x l]; reflexivity. Qed.

Lemma loop_answers : forall a t fuel netloc path node has_suffix has_labels sep start end_,
  node_at t path = Some node ->
  answers a t (suffix_loop_prog fuel netloc a path has_suffix has_labels sep start end_)
              (suffix_loop fuel netloc node has_suffix has_labels sep start end_).
Proof.
  intros a t. induction fuel as [|fuel IH]; intros netloc path node hs hl sep start en N; [reflexivity|].
  cbn [suffix_loop_prog suffix_loop]. apply answers_done.
  destruct (slice netloc 0 sep) as [head| |]; cbn [bind]; [|reflexivity..]. cbv zeta.
  set (s := last_index_any head label_separators_rune_set). apply answers_done.
  match goal with |- context [bind ?m _] => destruct m as [[label e]| |] end; cbn [bind]; [|reflexivity..].
  destruct (negb (s =? -1) && (len label =? 0)).
  { destruct (negb hl); [apply IH; exact N|reflexivity]. }
  apply answers_read. rewrite (node_at_snoc _ _ _ _ N).
  destruct (child node (str "*")) as [st|]; cbn [option_map].
  { apply answers_read. rewrite (node_at_snoc _ _ _ _ N). destruct (child node (str "!" ++ label)); reflexivity. }
  set (l := match query_unescape label with inl _ => [] | inr l => l end).
  apply answers_read. rewrite (node_at_snoc _ _ _ _ N).
  destruct (child node l) as [val|] eqn:C; cbn [option_map]; [|reflexivity].
  rewrite node_info_matches, negb_involutive.
  destruct (if negb hs && end_of val then (sep, true) else (en, hs)) as [en' hs'].
  destruct ((len (matches_of val) =? 0) || e); [reflexivity|]. apply IH. rewrite (node_at_snoc _ _ _ _ N). exact C.
Qed.

Lemma host_answers : forall a t u netloc ignore,
  answers a t (extract_host_prog a u netloc ignore) (extract_host t u netloc ignore).
Proof.
  intros a t u netloc ignore. unfold extract_host_prog, extract_host.
  eapply answers_bind; [apply (loop_answers a t); reflexivity|].
  destruct (suffix_loop (S (length netloc)) netloc t false false (len netloc) (len netloc) (len netloc)) as [[e|w]| |];
    cbn [bind]; try reflexivity.
  apply answers_done. destruct (ipv4_host netloc) as [[]| |]; cbn [bind]; try reflexivity.
  apply answers_done. destruct (slice netloc 0 (w_previous_sep w)); reflexivity.
Qed.

(** ** Running Extract alone *)

Lemma answers_runs : forall E (step : forall R : Type, sys R -> E -> R -> E -> Prop) a A (p : prog A) o e m tr e' m' r,
  answers a (m_trie m a) p o -> runs step p e m tr e' m' r -> tr = [] /\ e' = e /\ m' = m /\ r = o.
Proof.
  intros E step a A. induction p as [x|R op c IH|R op c IH]; intros o e m tr e' m' r H K.
  - cbn [answers] in H. subst x. exact K.
  - destruct H.
  - destruct op; cbn [answers] in H; try contradiction. destruct H as (-> & H).
    cbn [runs mem_step] in K. eapply IH; eauto.
Qed.

Lemma c43_read_only : forall E (step : forall R : Type, sys R -> E -> R -> E -> Prop) ext f p e m tr e' m' r,
  runs step (extract_prog ext f p) e m tr e' m' r ->
  tr = [] /\ e' = e /\ m' = m /\ r = extract ext (trie_in m f) p.
Proof.
  intros E step ext f p e m tr e' m' r H. rewrite extract_split. unfold extract_prog in H. 
  destruct (extract_front ext p) as [[x|[u host]]| |]; cbn [bind pbind] in *.
  - exact H.
  - cbn [mem_do ret pbind runs mem_step] in H.
    eapply answers_runs; [|exact H]. apply host_answers.
  - exact H.
  - exact H.
Qed.

(** ** Programs and what they own *)

Section Safe.
Variable to_ascii : bytes -> option bytes.
(** The list texts that may be used. *)
Variable src : bytes -> Prop.

(** The finished trie of such a list. *)
Definition finished (private : bool) (t : trie) : Prop :=
  exists text rules, src text /\ used_rules to_ascii text private rules /\ build_trie rules = Ret t.

Definition own_tries := nat -> option trie.
Definition own_extractors := nat -> option extractor.

(** [safe sh Q p ot ox]: starting with the tries [ot] and the extractors [ox] that only it
    knows, and reading only texts of [src], [p] changes no other tries, uses no other extractors
    than those in [sh], gives those only finished tries, and ends in [Q].  [sh] says whether
    they include private rules and whether [p] may change them. *)
Fixpoint safe {A : Type} (sh : nat -> option (bool * bool)) (Q : own_tries -> own_extractors -> outcome A -> Prop)
         (p : prog A) (ot : own_tries) (ox : own_extractors) : Prop :=
  match p with
  | Done r => Q ot ox r
  | Sys o k => forall x, (forall path text, read_of (Event o x) = Some (path, text) -> src text) -> safe sh Q (k x) ot ox
  | @Mem _ R o k =>
    match o in mem_op R return (R -> own_tries -> own_extractors -> Prop) -> Prop with
    | NewTrie => fun K => forall a, ot a = None -> K a (upd ot a (Some empty_trie)) ox
    | Insert a keys => fun K => exists t, ot a = Some t /\ K tt (upd ot a (Some (nested_dict t keys))) ox
    | MarkWildcards a => fun K => exists t, ot a = Some t /\ K tt (upd ot a (Some (mark_wildcard_tlds t))) ox
    | NewExtractor x => fun K => forall f, ox f = None -> K f ot (upd ox f (Some x))
    | ReadExtractor f => fun K =>
        (exists x, ox f = Some x /\ K x ot ox) \/ (ox f = None /\ exists b w, sh f = Some (b, w) /\ forall x, x_private x = b -> K x ot ox)
    | StorePath f path => fun K =>
        (exists x, ox f = Some x /\ K tt ot (upd ox f (Some (mkExtractor path (x_trie x) (x_private x)))))
        \/ (ox f = None /\ (exists b, sh f = Some (b, true)) /\ K tt ot ox)
    | StoreTrie f a => fun K =>
        (exists x, ox f = Some x /\ K tt ot (upd ox f (Some (mkExtractor (x_path x) a (x_private x)))))
        \/ (ox f = None /\ exists b t, sh f = Some (b, true) /\ ot a = Some t /\ finished b t /\ K tt (upd ot a None) ox)
    | ReadNode a path => fun K => forall x, K x ot ox
    end (fun x ot ox => safe sh Q (k x) ot ox)
  end.

Lemma safe_bind : forall A B sh (Q1 : own_tries -> own_extractors -> outcome A -> Prop)
    (Q : own_tries -> own_extractors -> outcome B -> Prop) (p : prog A) (k : A -> prog B) ot ox,
  safe sh Q1 p ot ox ->
  (forall ot ox o, Q1 ot ox o -> match o with
                                 | Ret a => safe sh Q (k a) ot ox
                                 | Panic => Q ot ox Panic
                                 | OutOfFuel => Q ot ox OutOfFuel
                                 end) ->
  safe sh Q (pbind p k) ot ox.
Proof.
  intros A B sh Q1 Q. induction p as [r|R o c IH|R o c IH]; intros k ot ox H K.
  - cbn [safe] in H. specialize (K _ _ _ H). destruct r; cbn [pbind safe]; exact K.
  - cbn [pbind safe] in *. intros x Hx. apply IH; auto.
  - cbn [pbind]. destruct o; cbn [safe] in *; auto.
    + destruct H as (t & E & H). exists t. auto.
    + destruct H as (t & E & H). exists t. auto.
    + destruct H as [(x & E & H)|(E & b & w & S & H)]; [left; exists x; auto|right; split; [exact E|]; exists b, w; auto].
    + destruct H as [(x & E & H)|(E & S & H)]; [left; exists x; auto|right; auto].
    + destruct H as [(x & E & H)|(E & b & t & S & Et & F & H)]; [left; exists x; auto|right].
      split; [exact E|]. exists b, t. auto.
Qed.

Lemma safe_weaken : forall A sh (Q1 Q : own_tries -> own_extractors -> outcome A -> Prop) (p : prog A) ot ox,
  safe sh Q1 p ot ox -> (forall ot ox o, Q1 ot ox o -> Q ot ox o) -> safe sh Q p ot ox.
Proof.
  intros A sh Q1 Q. induction p as [r|R o c IH|R o c IH]; intros ot ox H K.
  - cbn [safe] in *. auto.
  - cbn [safe] in *. intros x Hx. apply IH; auto.
  - destruct o; cbn [safe] in *; auto.
    + destruct H as (t & E & H). exists t. auto.
    + destruct H as (t & E & H). exists t. auto.
    + destruct H as [(x & E & H)|(E & b & w & S & H)]; [left; exists x; auto|right; split; [exact E|]; exists b, w; auto].
    + destruct H as [(x & E & H)|(E & S & H)]; [left; exists x; auto|right; auto].
    + destruct H as [(x & E & H)|(E & b & t & S & Et & F & H)]; [left; exists x; auto|right].
      split; [exact E|]. exists b, t. auto.
Qed.

(** Programs without memory operations. *)
Fixpoint no_mem {A : Type} (p : prog A) : Prop :=
  match p with Done _ => True | Sys _ k => forall x, no_mem (k x) | Mem _ _ => False end.
Lemma no_mem_bind : forall A B (p : prog A) (k : A -> prog B), no_mem p -> (forall a, no_mem (k a)) -> no_mem (pbind p k).
Proof.
  intros A B. induction p as [r|R o c IH|R o c IH]; intros k H K; cbn [pbind no_mem] in *.
  - destruct r; cbn; auto.
  - intros x. auto.
  - exact H.
Qed.
Lemma no_mem_safe : forall A sh (Q : own_tries -> own_extractors -> outcome A -> Prop) (p : prog A) ot ox,
  no_mem p -> (forall o, Q ot ox o) -> safe sh Q p ot ox.
Proof.
  intros A sh Q. induction p as [r|R o c IH|R o c IH]; intros ot ox H K; cbn [no_mem safe] in *; auto. contradiction.
Qed.

Variable hardcoded : bytes.
Hypothesis src_hardcoded : src hardcoded.
Local Notation new := (new to_ascii hardcoded).
Local Notation update := (update to_ascii hardcoded).
Local Notation trie_construct := (trie_construct to_ascii hardcoded).
Local Notation new_hardcoded_psl := (new_hardcoded_psl to_ascii hardcoded).
Local Notation new_from_cache := (new_from_cache to_ascii hardcoded).

Lemma insert_safe : forall sh l a ot ox t, ot a = Some t ->
  safe sh (fun ot' ox' r => r = Ret tt /\ ox' = ox /\ (forall b, b <> a -> ot' b = ot b)
             /\ exists t', ot' a = Some t' /\ insert_all t l = Ret t') (insert_suffixes a l) ot ox.
Proof.
  intros sh. induction l as [|s l IH]; intros a ot ox t E; cbn [insert_suffixes].
  - cbn [ret safe insert_all]. split; [reflexivity|]. split; [reflexivity|]. split; [auto|]. exists t. auto.
  - rewrite reverse_spec. cbn [pbind mem_do ret safe]. exists t. split; [exact E|].
    eapply safe_weaken; [apply IH; apply upd_same|]. cbv beta. intros ot' ox' o (-> & -> & Ho & t' & Et & I).
    split; [reflexivity|]. split; [reflexivity|]. split.
    + intros b Hb. rewrite Ho by exact Hb. apply upd_other. exact Hb.
    + exists t'. split; [exact Et|]. cbn [insert_all]. rewrite reverse_spec. cbn [bind]. exact I.
Qed.

Lemma construct_safe : forall sh private path ot ox,
  safe sh (fun ot' ox' r => exists a e, r = Ret (a, e) /\ ox' = ox /\ ot a = None /\ (forall b, b <> a -> ot' b = ot b)
             /\ exists t, ot' a = Some t /\ (e = None -> finished private t)) (trie_construct private path) ot ox.
Proof.
  intros sh private path ot ox. unfold Update.trie_construct. cbn [pbind mem_do ret safe]. intros a Ea.
  set (ot1 := upd ot a (Some empty_trie)).
  assert (O1 : forall b, b <> a -> ot1 b = ot b) by (intros b Hb; apply upd_other; exact Hb).
  assert (F : forall text, src text -> safe sh
    (fun ot' ox' r => exists a e, r = Ret (a, e) /\ ox' = ox /\ ot a = None /\ (forall b, b <> a -> ot' b = ot b)
             /\ exists t, ot' a = Some t /\ (e = None -> finished private t))
    (_ <~ insert_suffixes a (if private : bool then s_all (parse_list to_ascii text) else s_public (parse_list to_ascii text)) ;;
     _ <~ mem_do (MarkWildcards a) ;; ret (a, @None io_err)) ot1 ox).
  { intros text Tx. eapply safe_bind; [apply insert_safe; apply upd_same|].
    cbv beta. intros ot2 ox2 o (-> & -> & Ho & t' & Et & I). cbn [pbind mem_do ret safe]. exists t'. split; [exact Et|].
    exists a, None. split; [reflexivity|]. split; [reflexivity|]. split; [exact Ea|]. split.
    - intros b Hb. rewrite upd_other by exact Hb. rewrite Ho by exact Hb. apply O1. exact Hb.
    - exists (mark_wildcard_tlds t'). split; [apply upd_same|]. intros _.
      exists text. eexists. split; [exact Tx|]. split; [apply used_rules_iff; reflexivity|]. unfold build_trie. rewrite I. reflexivity. }
  destruct (negb (bytes_eqb path [])).
  - cbn [get_public_suffix_list pbind sys_do ret safe]. intros [text|] Rd; cbn [pbind ret]; [apply F; apply (Rd path); reflexivity|].
    cbn [safe]. exists a, (Some ErrReadList). split; [reflexivity|]. split; [reflexivity|]. split; [exact Ea|].
    split; [exact O1|]. exists empty_trie. split; [apply upd_same|discriminate].
  - cbn [get_hardcoded_public_suffix_list pbind ret]. apply F. exact src_hardcoded.
Qed.

Lemma update_file_no_mem : forall file sources, no_mem (update_file file sources).
Proof.
  intros file. induction sources as [|s rest IH]; cbn [update_file]; [exact I|].
  unfold download_file. cbn [pbind sys_do ret no_mem]. intros [|status body complete]; [exact IH|].
  destruct (status =? 200); [|exact IH]. cbn [pbind ret]. destruct complete; [|exact IH].
  destruct (valid_psl_delimiters body); cbn [negb]; [|exact IH]. cbn [pbind sys_do ret no_mem].
  intros []; cbn [negb]; [|exact IH]. cbn [pbind sys_do ret no_mem]. intros []; cbn [negb]; [exact I|exact IH].
Qed.
Lemma check_no_mem : forall path, no_mem (check_cache_file path).
Proof.
  intros path. unfold check_cache_file. cbn [pbind sys_do ret no_mem]. intros abs st.
  destruct st as [[dir mt]|]; cbn [pbind sys_do ret no_mem]; auto.
Qed.

(** Update of an extractor that others know. *)
Lemma update_safe_shared : forall (sh : nat -> option (bool * bool)) f b ot ox, sh f = Some (b, true) -> ox f = None ->
  safe sh (fun _ _ _ => True) (update f) ot ox.
Proof.
  intros sh f b ot ox Sh E. unfold Update.update. cbn [pbind sys_do mem_do ret safe]. intros temp _. right.
  split; [exact E|]. exists b, true. split; [exact Sh|]. intros x Hx. destruct (negb _); [exact I|]. cbn [pbind sys_do ret safe].
  intros [fd|] _; [|exact I].
  eapply (safe_bind _ _ _ (fun ot' ox' _ => ot' = ot /\ ox' = ox));
    [apply no_mem_safe; [apply update_file_no_mem|auto]|].
  cbv beta. intros ot' ox' o (-> & ->). destruct o as [[er|]| |]; [exact I| |exact I..].
  cbn [pbind mem_do ret safe]. right. split; [exact E|]. exists b, true. split; [exact Sh|]. intros x2 Hx2.
  eapply safe_bind; [apply construct_safe|]. cbv beta. intros ot2 ox2 o (a & e & -> & -> & _ & _ & t & Et & F).
  destruct e as [e|]; [exact I|]. cbn [pbind mem_do ret safe]. right. split; [exact E|]. exists b, t. split; [exact Sh|].
  split; [exact Et|]. split; [rewrite <- Hx2; auto|]. right. split; [exact E|]. split; [eauto|exact I].
Qed.

(** Update of an extractor that only this program knows. *)
Lemma update_safe_own : forall (sh : nat -> option (bool * bool)) f ot ox x, ox f = Some x ->
  safe sh (fun ot' ox' r => (forall g, g <> f -> ox' g = ox g) /\ exists x', ox' f = Some x' /\ x_private x' = x_private x /\
             (r = Ret None -> exists t, ot' (x_trie x') = Some t /\ finished (x_private x) t)) (update f) ot ox.
Proof.
  intros sh f ot ox x E. set (Q := fun _ _ _ => _).
  assert (Keep : forall ot' r, r <> Ret None -> Q ot' ox r).
  { intros ot' r Hr. split; [auto|]. exists x. split; [exact E|]. split; [reflexivity|]. contradiction. }
  unfold Update.update. cbn [pbind sys_do mem_do ret safe]. intros temp _. left.
  exists x. split; [exact E|]. destruct (negb _); [apply Keep; discriminate|]. cbn [pbind sys_do ret safe].
  intros [fd|] _; [|apply Keep; discriminate].
  eapply (safe_bind _ _ _ (fun ot' ox' _ => ot' = ot /\ ox' = ox));
    [apply no_mem_safe; [apply update_file_no_mem|auto]|].
  cbv beta. intros ot' ox' o (-> & ->). destruct o as [[er|]| |]; try (apply Keep; discriminate).
  cbn [pbind mem_do ret safe]. left. exists x. split; [exact E|].
  eapply safe_bind; [apply construct_safe|]. cbv beta. intros ot2 ox2 o (a & e & -> & -> & _ & _ & t & Et & F).
  destruct e as [e|]; [apply Keep; discriminate|]. cbn [pbind mem_do ret safe]. left. exists x. split; [exact E|].
  left. eexists. split; [apply upd_same|]. cbn [x_trie x_path x_private]. split.
  - intros g Hg. rewrite !upd_other by exact Hg. reflexivity.
  - eexists. split; [apply upd_same|]. cbn [x_private]. split; [reflexivity|]. intros _. exists t. cbn [x_trie]. auto.
Qed.

(** New ends with an extractor of its own that has a finished trie. *)
Definition new_post (ot : own_tries) (ox : own_extractors) (r : outcome (nat * option io_err)) : Prop :=
  forall f, r = Ret (f, None) -> exists x t, ox f = Some x /\ ot (x_trie x) = Some t /\ finished (x_private x) t.

Lemma new_hardcoded_safe : forall sh n ot ox, safe sh new_post (new_hardcoded_psl n) ot ox.
Proof.
  intros sh n ot ox. unfold Update.new_hardcoded_psl. eapply safe_bind; [apply construct_safe|].
  cbv beta. intros ot2 ox2 o (a & e & -> & -> & _ & _ & t & Et & F). cbn [pbind mem_do ret safe]. intros f Ef g X.
  injection X as -> ->. eexists. exists t. split; [apply upd_same|]. cbn [x_trie]. auto.
Qed.

Lemma from_cache_safe : forall sh n f path ot ox x, ox f = Some x -> x_private x = lp_private n -> safe sh new_post (new_from_cache n f path) ot ox.
Proof.
  intros sh n f path ot ox x E P. unfold Update.new_from_cache. eapply safe_bind; [apply construct_safe|].
  cbv beta. intros ot2 ox2 o (a & e & -> & -> & _ & _ & t & Et & F). destruct e as [e|]; [apply new_hardcoded_safe|].
  cbn [pbind mem_do ret safe]. left. exists x. split; [exact E|]. intros g X. injection X as ->.
  eexists. exists t. split; [apply upd_same|]. cbn [x_trie x_private]. rewrite P. auto.
Qed.

Lemma new_safe : forall sh n ot ox, safe sh new_post (new n) ot ox.
Proof.
  intros sh n ot ox. unfold Update.new. cbn [pbind mem_do ret safe]. intros a Ea f Ef.
  set (ot1 := upd ot a _). set (ox1 := upd ox f _).
  assert (E1 : exists x, ox1 f = Some x /\ x_private x = lp_private n) by (eexists; split; [apply upd_same|reflexivity]).
  destruct E1 as (x & E1 & P1).
  assert (Chk : forall path ox, safe sh (fun ot' ox' r => ot' = ot1 /\ ox' = ox) (check_cache_file path) ot1 ox).
  { intros path ox'. apply no_mem_safe; [apply check_no_mem|auto]. }
  eapply safe_bind; [apply Chk|]. cbv beta. intros ot' ox' o (-> & ->).
  destruct o as [[valid age]| |]; [|intros g X; discriminate X..].
  destruct valid; cbn [negb]; [eapply from_cache_safe; eauto|]. cbn [pbind sys_do ret safe]. intros temp _ opened _.
  destruct opened; cbn [negb]; [|apply new_hardcoded_safe]. cbn [pbind mem_do ret safe]. left. exists x. split; [exact E1|].
  set (ox2 := upd ox1 f _). eapply safe_bind; [apply Chk|]. cbv beta. intros ot' ox' o (-> & ->).
  destruct o as [[valid' age']| |]; [|intros g X; discriminate X..].
  destruct (negb valid' || (age' >? psl_max_age)); [|eapply from_cache_safe; [apply upd_same|exact P1]].
  eapply safe_bind; [eapply update_safe_own; apply upd_same|]. cbv beta.
  intros ot' ox' o (_ & x' & Ex & Px & F). destruct o as [[er|]| |]; [apply new_hardcoded_safe| |intros g X; discriminate X..].
  cbn [ret safe]. intros g X. injection X as <-. destruct (F eq_refl) as (t & Et & Ft). exists x', t.
  rewrite Px. auto.
Qed.

(** Extract changes nothing. *)
Fixpoint only_reads {A : Type} (p : prog A) : Prop :=
  match p with
  | Done _ => True
  | Sys _ _ => False
  | @Mem _ R op k =>
    match op in mem_op R return (R -> Prop) -> Prop with
    | ReadNode _ _ => fun K => forall x, K x
    | _ => fun _ => False
    end (fun x => only_reads (k x))
  end.
Lemma only_reads_bind : forall A B (p : prog A) (k : A -> prog B), only_reads p -> (forall a, only_reads (k a)) ->
  only_reads (pbind p k).
Proof.
  intros A B. induction p as [r|R o c IH|R o c IH]; intros k H K; cbn [pbind].
  - destruct r; cbn [only_reads]; auto.
  - exact H.
  - destruct o; cbn [only_reads] in *; try contradiction. auto.
Qed.
Lemma only_reads_safe : forall A sh (p : prog A) ot ox, only_reads p -> safe sh (fun _ _ _ => True) p ot ox.
Proof.
  intros A sh. induction p as [r|R o c IH|R o c IH]; intros ot ox H.
  - exact I.
  - destruct H.
  - destruct o; cbn [only_reads safe] in *; try contradiction. auto.
Qed.

Lemma loop_only_reads : forall fuel netloc a path hs hl sep start en,
  only_reads (suffix_loop_prog fuel netloc a path hs hl sep start en).
Proof.
  induction fuel as [|fuel IH]; intros; [exact I|]. cbn [suffix_loop_prog].
  apply only_reads_bind; [exact I|]. intros head. cbv zeta. apply only_reads_bind; [exact I|]. intros [label e].
  set (s := last_index_any head label_separators_rune_set).
  destruct (negb (s =? -1) && (len label =? 0)); [destruct (negb hl); [apply IH|exact I]|].
  apply only_reads_bind; [cbn [mem_do ret only_reads]; auto|]. intros [st|].
  { apply only_reads_bind; [cbn [mem_do ret only_reads]; auto|]. intros ex. exact I. }
  apply only_reads_bind; [cbn [mem_do ret only_reads]; auto|]. intros [[en' m]|]; [|exact I].
  destruct (if negb hs && en' then (sep, true) else (en, hs)) as [e2 h2].
  destruct (negb m || e); [exact I|apply IH].
Qed.
Lemma host_only_reads : forall a u netloc ignore, only_reads (extract_host_prog a u netloc ignore).
Proof.
  intros. unfold extract_host_prog. apply only_reads_bind; [apply loop_only_reads|]. intros [e|w]; [exact I|].
  apply only_reads_bind; [exact I|]. intros []; [|exact I]. apply only_reads_bind; [exact I|]. intros d. exact I.
Qed.
Lemma extract_safe : forall ext (sh : nat -> option (bool * bool)) f b w p ot ox, sh f = Some (b, w) -> ox f = None ->
  safe sh (fun _ _ _ => True) (extract_prog ext f p) ot ox.
Proof.
  intros ext sh f b w p ot ox Sh E. unfold extract_prog. destruct (extract_front ext p) as [[x|[u host]]| |]; try exact I.
  cbn [pbind mem_do ret safe]. right. split; [exact E|]. exists b, w. split; [exact Sh|]. intros x _.
  apply only_reads_safe, host_only_reads.
Qed.
End Safe.
