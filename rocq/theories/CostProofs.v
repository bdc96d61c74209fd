(** CostProofs.v - Extract looks up at most two nodes per label of the host, and at most two per
    label of the longest rule. *)

From Verif Require Import Base BaseFacts Utf8 Chars Utf8Facts Str StrFacts Net Trie Extract Host HostFacts Walk WalkFacts
  RuleSpec TrieFacts UrlSpec Parse ParseFacts UrlFacts ExtractFacts World Update UpdateSpec Calls CallFacts CostSpec.
From Coq Require Import ZifyBool ZifyNat ZifyN.

Lemma looks_done : forall A B (o : outcome A) (k : A -> prog B) m n,
  (forall x, o = Ret x -> length (looks (k x) m) <= n) -> length (looks (pbind (Done o) k) m) <= n.
Proof. intros A B [x| |] k m n H; cbn [pbind looks length]; [apply H; reflexivity|lia..]. Qed.
Lemma looks_read : forall B a path (k : option (bool * bool) -> prog B) m n,
  length (looks (k (option_map node_info (node_at (m_trie m a) path))) m) <= n ->
  length (looks (pbind (mem_do (ReadNode a path)) k) m) <= S n.
Proof. intros B a path k m n H. cbn [mem_do ret pbind looks mem_step fst snd app length]. lia. Qed.
Lemma looks_bind : forall A B (p : prog A) (k : A -> prog B) m n, length (looks p m) <= n ->
  (forall x m', looks (k x) m' = []) -> length (looks (pbind p k) m) <= n.
Proof.
  intros A B. induction p as [o|R o c IH|R o c IH]; intros k m n H K.
  - destruct o; cbn [pbind looks length]; [rewrite K|..]; cbn [length]; lia.
  - cbn [pbind looks length]. lia.
  - cbn [pbind looks] in *. rewrite app_length in *. 
    specialize (IH (fst (mem_step o m)) k (snd (mem_step o m)) (n - length (match o with ReadNode a path => [(a, path)] | _ => [] end))).
    assert (X := IH ltac:(lia) K). lia.
Qed.

(** ** By the labels of the host *)

Section Labels.
Variables (first : bytes) (segs : list seg).
Hypothesis W : well_split first segs.
Notation pos := (pos first segs).
Notation text := (text first segs).

(** Empty labels cost nothing. *)
Definition weight (l : list seg) : nat := S (length (filter (fun g => negb (is_nil (fst g))) l)).

Lemma loop_looks : forall fuel prev a path hs hl start en m, prev <= length segs ->
  length (looks (suffix_loop_prog fuel (host first segs) a path hs hl (pos prev) start en) m) <= 2 * weight (skipn prev segs).
Proof.
  induction fuel as [|fuel IH]; intros prev a path hs hl start en m Hprev; [cbn; lia|].
  cbn [suffix_loop_prog]. apply looks_done. intros head Eh. cbv zeta.
  assert (Hslice : slice (host first segs) 0 (pos prev) = Ret (text prev)).
  { destruct (text_prefix first segs [] prev Hprev) as (q & E). rewrite app_nil_r in E. rewrite E, pos_text by exact Hprev.
    apply slice_prefix. reflexivity. }
  rewrite Hslice in Eh. injection Eh as <-.
  destruct (Nat.eq_dec prev (length segs)) as [Hlast|Hlast].
  - assert (Et : text prev = first) by (rewrite Hlast; apply text_all). rewrite Et.
    rewrite (last_sep_none first (proj1 W)). change (-1 =? -1)%Z with true. cbn [negb andb].
    apply looks_done. intros [label e] El. cbv iota beta zeta.
    assert (Ee : e = true). { rewrite Hslice in El. cbn [bind] in El. injection El as <- <-. reflexivity. } subst e.
    unfold weight. rewrite Hlast, skipn_all. cbn [filter length Nat.mul Nat.add].
    apply looks_read. destruct (option_map _ _) as [x|].
    + apply looks_read. cbn; lia.
    + apply looks_read. destruct (option_map _ _) as [[ve vm]|]; [|cbn; lia].
      destruct (if negb hs && ve then _ else _) as [en' hs']. rewrite orb_true_r. cbn; lia.
  - assert (Hp : prev < length segs) by lia. destruct (seg_ok first segs W prev Hp) as (Hl & Hs).
    pose proof (text_step first segs prev Hp) as Ht. rewrite (skipn_cons_nth _ segs prev ([],[]) Hp).
    set (label := fst (nth prev segs ([],[]))) in *. set (sep := snd (nth prev segs ([],[]))) in *.
    assert (Hli : last_index_any (text prev) label_separators_rune_set = pos (S prev)).
    { rewrite Ht, pos_text by lia. apply last_sep_some; assumption. }
    rewrite Hli. assert (Hnn : (pos (S prev) =? -1)%Z = false).
    { rewrite pos_text by lia. pose proof (len_nonneg _ (text (S prev))). lia. }
    rewrite Hnn. cbn [negb andb]. apply looks_done. intros [label' e] El. cbv iota beta zeta.
    assert (El' : label' = label).
    { destruct (text_prefix first segs [] prev Hprev) as (q & E). rewrite app_nil_r in E.
      destruct (sep_text_size sep Hs) as (b & st & Esep & Hsize).
      assert (Hidx : index (host first segs) (pos (S prev)) = Ret b).
      { rewrite E, Ht, Esep, <- !app_assoc. cbn [app]. apply index_mid. rewrite pos_text by lia. reflexivity. }
      rewrite Hidx in El. cbn [bind] in El. rewrite Hsize in El.
      assert (Hlab : slice (host first segs) (pos (S prev) + len sep) (pos prev) = Ret label).
      { rewrite !pos_text by lia. rewrite E, Ht. replace ((text (S prev) ++ sep ++ label) ++ q) with ((text (S prev) ++ sep) ++ label ++ q)
          by (rewrite <- !app_assoc; reflexivity).
        apply slice_mid; autorewrite with len; lia. }
      rewrite Hlab in El. cbn [bind] in El. congruence. }
    subst label'. rewrite is_nil_len. unfold weight. cbn [filter].
    change (is_nil (fst (nth prev segs ([], [])))) with (is_nil label).
    destruct (is_nil label); cbn [negb].
    + destruct (negb hl); [apply IH; lia|cbn; lia].
    + cbn [length]. assert (Rec : forall a path hs hl start en m,
        length (looks (suffix_loop_prog fuel (host first segs) a path hs hl (pos (S prev)) start en) m) <= 2 * weight (skipn (S prev) segs))
        by (intros; apply IH; lia).
      unfold weight in Rec. match type of Rec with context [length (filter ?g ?l)] => set (n := length (filter g l)) in * end.
      replace (2 * S (S n)) with (S (S (2 * S n))) by lia.
      apply looks_read. destruct (option_map _ _) as [x|].
      * apply looks_read. cbn; lia.
      * apply looks_read. destruct (option_map _ _) as [[ve vm]|]; [|cbn; lia].
        destruct (if negb hs && ve then _ else _) as [en' hs']. destruct (negb vm || e); [cbn; lia|]. apply Rec.
Qed.
End Labels.

Lemma host_looks : forall a u netloc ignore m n,
  length (looks (suffix_loop_prog (S (length netloc)) netloc a [] false false (len netloc) (len netloc) (len netloc)) m) <= n ->
  length (looks (extract_host_prog a u netloc ignore) m) <= n.
Proof.
  intros a u netloc ignore m n H. unfold extract_host_prog. apply looks_bind; [exact H|].
  intros [e|w] m'; [reflexivity|]. destruct (ipv4_host netloc) as [[]| |]; cbn [pbind]; try reflexivity.
  destruct (slice netloc 0 (w_previous_sep w)); reflexivity.
Qed.

(** ** By the labels of the rules *)

Lemma loop_looks_rules : forall (rules : list bytes) d t a m, 1 <= d -> m_trie m a = t ->
  (forall path, path <> [] -> has t path = true -> length path <= d) ->
  forall fuel netloc path node hs hl sep start en, node_at t path = Some node -> length path < d ->
  length (looks (suffix_loop_prog fuel netloc a path hs hl sep start en) m) <= 2 * (d - length path).
Proof.
  intros rules d t a m Hd Et Hh. induction fuel as [|fuel IH]; intros netloc path node hs hl sep start en N Hp; [cbn; lia|].
  cbn [suffix_loop_prog]. apply looks_done. intros head _. cbv zeta. apply looks_done. intros [label e] _. cbv iota beta zeta.
  destruct (negb (last_index_any head label_separators_rune_set =? -1)%Z && (len label =? 0)%Z).
  { destruct (negb hl); [eapply IH; eassumption|cbn; lia]. }
  replace (2 * (d - length path)) with (S (S (2 * (d - S (length path))))) by lia.
  apply looks_read. destruct (option_map _ _) as [x|].
  - apply looks_read. cbn; lia.
  - apply looks_read. rewrite Et, (node_at_snoc _ _ _ _ N).
    set (l := match query_unescape label with inl _ => [] | inr l => l end).
    destruct (child node l) as [val|] eqn:C; cbn [option_map]; [|cbn; lia]. rewrite node_info_matches.
    destruct (if negb hs && end_of val then _ else _) as [en' hs'].
    destruct (negb (negb (len (matches_of val) =? 0)%Z) || e) eqn:Ev; [cbn; lia|].
    apply orb_false_iff in Ev as (Ev & _). rewrite negb_involutive in Ev.
    assert (Nv : node_at t (path ++ [l]) = Some val) by (rewrite (node_at_snoc _ _ _ _ N); exact C).
    destruct (matches_of val) as [|[k c] rest] eqn:Em; [discriminate|].
    assert (Ck : child val k = Some c) by (unfold child; rewrite Em; cbn [get]; rewrite bytes_eqb_refl; reflexivity).
    assert (Hlen : length ((path ++ [l]) ++ [k]) <= d).
    { apply Hh; [destruct (path ++ [l]); discriminate|].
      assert (Nk := node_at_snoc _ _ _ k Nv). rewrite Ck in Nk. unfold has. fold (node_at t ((path ++ [l]) ++ [k])).
      revert Nk. generalize ((path ++ [l]) ++ [k]). clear. intros p. revert t. induction p as [|x p IH]; intros t H; [reflexivity|].
      cbn [node_at descend] in *. destruct (child t x); [apply IH; exact H|discriminate]. }
    rewrite !app_length in Hlen. cbn [length] in Hlen.
    replace (2 * (d - S (length path))) with (2 * (d - length (path ++ [l]))) by (rewrite app_length; cbn [length]; lia).
    eapply IH; [exact Nv|]. rewrite app_length. cbn [length]. lia.
Qed.

(** ** The front *)

Lemma scan_front : forall (h q : bytes), plain_host h -> starts_with (fun b => path_char b \/ b = 58%N) q ->
  scan_host (h ++ q) 0 (len (h ++ q)) (-1) (-1) = inr (-1, -1, match q with [] => -1 | _ => 0 + len h end)%Z.
Proof.
  intros h q H S. pose proof (split_auth_plain h q H S) as X. unfold split_auth in X.
  destruct (has_prefix (h ++ q) [91%N]) eqn:P.
  { exfalso. unfold split_bracketed in X. destruct (span _ (tl (h ++ q))) as [a r]. destruct r as [|b r]; [discriminate|].
    destruct (b =? 91)%N; [discriminate|]. destruct (span _ r) as [mm q2]. destruct (has_prefix q2 [91%N]); [discriminate|].
    destruct (memN 93 mm || negb (v6 a)); [discriminate|]. destruct r as [|c r]; [discriminate|].
    destruct (is_path_char c || (c =? 58)%N); discriminate. }
  destruct (span _ (h ++ q)) as [h' q'] eqn:E. destruct (has_prefix q' [91%N]) eqn:E1; [discriminate|].
  destruct (has_prefix q' [93%N]) eqn:E2; [discriminate|]. injection X as -> ->.
  rewrite (scan_plain _ 0 (len (h ++ q)) h q ltac:(lia) (fun _ => P) E), E1, E2. reflexivity.
Qed.

Lemma front_host : forall ext p scheme user raw h port path u host', url_parts ext p scheme user raw h port path ->
  Calls.extract_front ext p = Ret (inr (u, host')) -> host' = h.
Proof.
  intros ext p scheme user raw h port path u host' (after & F & Hh & A & Cv) H.
  apply front_iff in F as (s1 & E1 & E2). unfold Calls.extract_front in H.
  rewrite (proj1 (trim_ws_spec (p_url p))) in H. cbn [bind] in H.
  rewrite (scheme_spec _ _ _ E1) in H. apply split_scheme_app in E1. rewrite E1 in H.
  match type of H with bind ?m _ = _ => assert (Hs : m = Ret (with_scheme empty_result scheme, s1)) end.
  { destruct scheme as [|c scheme]; [reflexivity|]. cbn [is_nil].
    pose proof (len_nonneg _ (c :: scheme)). replace (len (c :: scheme) =? -1)%Z with false by lia. cbn [negb].
    rewrite slice_prefix by reflexivity. cbn [bind]. rewrite slice_suffix by reflexivity. reflexivity. }
  rewrite Hs in H. cbn [bind] in H. clear Hs.
  destruct (user_spec s1) as (a & Ea & Hu). rewrite Ea in H. cbn [bind] in H. rewrite E2 in Hu.
  match type of H with bind ?m _ = _ =>
    assert (Hs : m = Ret (with_user_info (with_scheme empty_result scheme) (user_text user), raw ++ after)) end.
  { destruct user as [x|]; cbn [user_text].
    - destruct Hu as (-> & ->). pose proof (len_nonneg _ x). replace (len x =? -1)%Z with false by lia. cbn [negb].
      rewrite slice_prefix by reflexivity. cbn [bind]. rewrite app_assoc.
      rewrite slice_suffix by (autorewrite with len; lia). reflexivity.
    - destruct Hu as (-> & <-). reflexivity. }
  rewrite Hs in H. cbn [bind] in H. clear Hs.
  pose proof (after_host_starts _ _ _ A) as St.
  rewrite (scan_front raw after Hh St) in H.
  change (-1 =? -1)%Z with true in H. change (-1 >? -1)%Z with false in H. cbn [negb bind] in H.
  match type of H with bind ?m _ = _ => assert (Hsplit : m = Ret (after, raw)) end.
  { pose proof (len_nonneg _ raw). destruct after as [|c q].
    - rewrite app_nil_r. destruct (-1 =? len raw - 1)%Z; reflexivity.
    - autorewrite with len. pose proof (len_nonneg _ q).
      replace (-1 =? len raw + (1 + len q) - 1)%Z with false by lia. rewrite Z.add_0_l.
      replace (len raw =? -1)%Z with false by lia. cbn [negb].
      rewrite slice_suffix by (autorewrite with len; lia). cbn [bind].
      rewrite slice_prefix by reflexivity. reflexivity. }
  rewrite Hsplit in H. cbn [bind] in H. clear Hsplit.
  destruct (port_path _ after) as [[u4 [e|]]| |]; cbn [bind] in H; try discriminate.
  apply converted_iff in Cv. rewrite Cv in H.
  destruct (r_host_type u4); [..|discriminate]; injection H as _ <-; reflexivity.
Qed.

Lemma c80_labels : forall ext f p m scheme user raw h port path first zs segs,
  url_parts ext p scheme user raw h port path -> labelled h first zs segs ->
  length (looks (extract_prog ext f p) m) <= 2 * S (length segs).
Proof.
  intros ext f p m scheme user raw h port path first zs segs U (-> & W & Z & _). unfold extract_prog.
  apply looks_done. intros [r|[u host']] Ef; [cbn; lia|].
  rewrite (front_host _ _ _ _ _ _ _ _ _ _ U Ef). cbn [mem_do ret pbind looks mem_step fst snd app].
  apply host_looks.
  replace (len (host first (zs ++ segs))) with (pos first (zs ++ segs) 0) by (rewrite pos_text by lia; reflexivity).
  eapply Nat.le_trans; [apply loop_looks; [exact W|lia]|]. cbn [skipn]. unfold weight.
  assert (X : length (filter (fun g => negb (is_nil (fst g))) (zs ++ segs)) <= length segs); [|lia].
  clear W U Ef. induction Z as [|g zs Hg Z IH]; cbn [app filter]; [|rewrite Hg; exact IH].
  clear. induction segs as [|g segs IH]; cbn [filter length]; [lia|]. destruct (negb _); cbn [length]; lia.
Qed.

Lemma c80_rules : forall ext f p m rules d, build_trie rules = Ret (trie_in m f) ->
  Forall (fun rule => length (rule_path rule) <= d) rules ->
  length (looks (extract_prog ext f p) m) <= 2 * Nat.max 1 d.
Proof.
  intros ext f p m rules d B R. unfold extract_prog.
  apply looks_done. intros [r|[u host']] _; [cbn; lia|]. cbn [mem_do ret pbind looks mem_step fst snd app].
  apply host_looks. replace (2 * Nat.max 1 d) with (2 * (Nat.max 1 d - length (@nil bytes))) by (cbn [length]; lia).
  eapply (loop_looks_rules rules (Nat.max 1 d) (trie_in m f)); [lia|reflexivity| |reflexivity|cbn [length]; lia].
  intros path Hne Hh. destruct (build_trie_spec rules) as (t & Bt & Ht & _). rewrite B in Bt. injection Bt as <-.
  rewrite (Ht path Hne) in Hh. apply known_iff in Hh as (rule & rest & Hin & E).
  rewrite Forall_forall in R. specialize (R rule Hin). rewrite E, app_length in R. lia.
Qed.
