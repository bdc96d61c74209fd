(** VariantProofs.v - proofs of the properties about differently written hosts and different
    suffix lists: C24, C25, C26, C30, C48. *)

From Verif Require Import Base BaseFacts Utf8 Utf8Facts Chars Str StrFacts Net Trie Extract Host HostFacts
  Walk WalkFacts Addr NetFacts Parse ParseFacts UrlSpec UrlFacts ExtractFacts OutcomeFacts Rfc UrlProofs CharProofs
  RuleSpec TrieFacts RuleProofs PslProofs.
From Coq Require Import ZifyBool ZifyNat ZifyN.

(** ** C30 *)

Lemma c30 : forall rules, exists t, build_trie rules = Ret t
  /\ (forall path, path <> [] -> has t path = known rules path)
  /\ (forall path, marked t path = is_suffix rules path).
Proof. exact build_trie_spec. Qed.

Lemma c30_monotone : forall rules rules' t t' path, (forall rule, In rule rules -> In rule rules') ->
  build_trie rules = Ret t -> build_trie rules' = Ret t' ->
  (has t path = true -> has t' path = true) /\ (marked t path = true -> marked t' path = true).
Proof.
  intros rules rules' t t' path I B B'. apply build_trie_represents in B as [A1 A2].
  apply build_trie_represents in B' as [A1' A2'].
  assert (K : forall p, known rules p = true -> known rules' p = true).
  { intros p H. apply known_iff in H as (rule & rest & Hr & E). apply known_iff. eauto. }
  split.
  - destruct path as [|k path]; [reflexivity|]. rewrite A1, A1' by discriminate. apply K.
  - rewrite A2, A2'. unfold is_suffix. intros H. apply orb_true_iff in H. apply orb_true_iff. destruct H as [H|H].
    + left. apply is_rule_iff in H as (rule & Hr & E). apply is_rule_iff. eauto.
    + right. destruct path as [|k [|k' path]]; try discriminate. apply K. exact H.
Qed.

(** ** Same labels, other separators *)

Lemma rev_case : forall A (l : list A), l = [] \/ exists a x, l = a ++ [x].
Proof. intros A l. induction l as [|x l _] using rev_ind; [auto|]. right. eauto. Qed.

Lemma labels_text_host : forall a l s, labels_text (a ++ [(l, s)]) = host l a.
Proof.
  induction a as [|[l' s'] a IH]; intros l s; [reflexivity|]. cbn [host]. rewrite <- (IH l s).
  change (((l', s') :: a) ++ [(l, s)]) with ((l', s') :: (a ++ [(l, s)])).
  destruct (a ++ [(l, s)]) as [|g b] eqn:E; [destruct a; discriminate|]. reflexivity.
Qed.

Lemma well_split_snoc : forall first a l s, well_split first (a ++ [(l, s)]) -> well_split l a /\ is_sep_text s.
Proof.
  intros first a l s (_ & F). apply Forall_app in F as [F G]. inversion G as [|? ? (X & Y) _]; subst. split; [split|]; assumption.
Qed.
Lemma well_split_firstn : forall first n segs, well_split first segs -> well_split first (firstn n segs).
Proof.
  intros first n segs (A & F). split; [exact A|]. rewrite <- (firstn_skipn n segs) in F. apply Forall_app in F as [F _]. exact F.
Qed.

Lemma seps_labels_text : forall first segs segs', well_split first segs -> well_split first segs' ->
  map fst segs = map fst segs' -> same_but_seps (labels_text segs) (labels_text segs').
Proof.
  intros first segs segs' W W' E. destruct (rev_case _ segs) as [->|(a & [l s] & ->)].
  - destruct segs'; [|discriminate]. exists [], [], []. repeat split; try constructor; apply no_sep_nil.
  - destruct (rev_case _ segs') as [->|(a' & [l' s'] & ->)]; [destruct a; discriminate|].
    rewrite !map_app in E. cbn [map fst] in E. apply app_inj_tail in E as [E ->].
    apply well_split_snoc in W as [W _]. apply well_split_snoc in W' as [W' _].
    rewrite !labels_text_host. exists l', a, a'. auto.
Qed.

Lemma map_firstn : forall A B (f : A -> B) n l, map f (firstn n l) = firstn n (map f l).
Proof. induction n as [|n IH]; intros [|x l]; cbn [firstn map]; [reflexivity..|]. rewrite IH. reflexivity. Qed.
Lemma map_skipn : forall A B (f : A -> B) n l, map f (skipn n l) = skipn n (map f l).
Proof. induction n as [|n IH]; intros [|x l]; cbn [skipn map]; [reflexivity..|]. apply IH. Qed.

Lemma fst_skipn : forall n (a b : list seg), map fst a = map fst b -> map fst (skipn n a) = map fst (skipn n b).
Proof. intros n a b E. exact (eq_trans (map_skipn _ _ fst n a) (eq_trans (f_equal (skipn n) E) (eq_sym (map_skipn _ _ fst n b)))). Qed.
Lemma fst_firstn : forall n (a b : list seg), map fst a = map fst b -> map fst (firstn n a) = map fst (firstn n b).
Proof. intros n a b E. exact (eq_trans (map_firstn _ _ fst n a) (eq_trans (f_equal (firstn n) E) (eq_sym (map_firstn _ _ fst n b)))). Qed.

Lemma c26 : forall ext rules t p p' r r' scheme user raw h port path first zs segs
    scheme' user' raw' h' port' path' zs' segs', build_trie rules = Ret t ->
  extract ext t p = Ret (r, None) -> extract ext t p' = Ret (r', None) ->
  r_host_type r = HHostName -> r_host_type r' = HHostName ->
  url_parts ext p scheme user raw h port path -> labelled h first zs segs ->
  url_parts ext p' scheme' user' raw' h' port' path' -> labelled h' first zs' segs' ->
  map fst segs = map fst segs' -> p_ignore_sub_domains p = p_ignore_sub_domains p' ->
  r_domain r = r_domain r' /\ same_but_seps (r_suffix r) (r_suffix r')
  /\ same_but_seps (r_sub_domain r) (r_sub_domain r').
Proof.
  intros ext rules t p p' r r' sc us raw h po pa first zs segs sc' us' raw' h' po' pa' zs' segs' B H H' T T' U L U' L' E I.
  destruct (c21_at _ _ _ _ _ _ _ _ _ _ _ _ _ _ B H T U L) as (sub & R & Es).
  destruct (c21_at _ _ _ _ _ _ _ _ _ _ _ _ _ _ B H' T' U' L') as (sub' & R' & Es').
  destruct L as (_ & W & _). destruct L' as (_ & W' & _). apply well_split_app in W. apply well_split_app in W'.
  assert (El : labels first segs = labels first segs') by (unfold labels; rewrite E; reflexivity).
  assert (Len : length segs = length segs') by (pose proof (f_equal (@length bytes) E) as X; rewrite !map_length in X; exact X).
  unfold reported in R, R'. rewrite <- El, <- Len in R'.
  assert (Below : forall n, same_but_seps (if n <=? length segs then host first (skipn n segs) else [])
                                          (if n <=? length segs then host first (skipn n segs') else [])).
  { intros n. destruct (n <=? length segs).
    - exists first, (skipn n segs), (skipn n segs'). split; [reflexivity|]. split; [reflexivity|]. split; [apply fst_skipn; exact E|]. split; apply well_split_skipn; assumption.
    - exists [], [], []. repeat split; try constructor; apply no_sep_nil. }
  assert (Sub : forall n, sub = (if n <=? length segs then host first (skipn n segs) else []) ->
      sub' = (if n <=? length segs then host first (skipn n segs') else []) -> same_but_seps (r_sub_domain r) (r_sub_domain r')).
  { intros n X X'. rewrite Es, Es', <- I. destruct (p_ignore_sub_domains p); [|rewrite X, X'; apply Below].
    exists [], [], []. repeat split; try constructor; apply no_sep_nil. }
  destruct (walk rules [] (labels first segs)) as [[k|] n].
  - destruct R as (_ & A & C & D). destruct R' as (_ & A' & C' & D'). split; [congruence|]. split; [|eapply Sub; eauto].
    rewrite A, A'. apply (seps_labels_text first); try (apply well_split_firstn; apply well_split_skipn; assumption).
    apply fst_firstn. apply fst_skipn. exact E.
  - destruct R as (A & C & D). destruct R' as (A' & C' & D'). split; [congruence|]. split; [|eapply Sub; eauto].
    rewrite A, A'. exists [], [], []. repeat split; try constructor; apply no_sep_nil.
Qed.

(** ** Percent-encoded labels *)

Lemma pct_iff : forall s d, percent_decoded s d <-> pct s = Some d.
Proof.
  intros s d. rewrite percent_decoded_iff.
  assert (X : forall n l, length l <= n -> pct l = match query_unescape l with inr d => Some d | inl _ => None end).
  { clear. induction n as [|n IH]; intros l L; [destruct l; [reflexivity|cbn [length] in L; lia]|].
    destruct l as [|b s]; [reflexivity|]. cbn [length] in L. rewrite query_unescape_cons. cbn [pct].
    destruct (b =? 37)%N.
    - destruct s as [|x [|y s]]; try reflexivity. cbn [length] in L. destruct (is_hex x && is_hex y); [|reflexivity].
      rewrite (IH s) by lia. destruct (query_unescape s); reflexivity.
    - rewrite (IH s) by lia. destruct (b =? 43)%N eqn:E; destruct (query_unescape s); reflexivity. }
  rewrite (X (length s) s (le_n _)). destruct (query_unescape s); split; congruence.
Qed.

Lemma same_decoding_pct : forall l l', same_decoding l l' <-> pct l = pct l'.
Proof.
  intros l l'. unfold same_decoding. split.
  - intros H. destruct (pct l) as [d|] eqn:E.
    + symmetry. apply pct_iff. apply H. apply pct_iff. exact E.
    + destruct (pct l') as [d|] eqn:E'; [|reflexivity]. exfalso. apply pct_iff in E'. apply H in E'. apply pct_iff in E'. congruence.
  - intros H d. rewrite !pct_iff, H. reflexivity.
Qed.

Definition both (x y : option bytes) : option bytes :=
  match x, y with Some a, Some b => Some (a ++ b) | _, _ => None end.

Lemma pct_app : forall (x y : bytes), (forall b z, y = b :: z -> is_hex b = false) -> pct (x ++ y) = both (pct x) (pct y).
Proof.
  assert (X : forall n (x y : bytes), length x <= n -> (forall b z, y = b :: z -> is_hex b = false) -> pct (x ++ y) = both (pct x) (pct y)).
  { induction n as [|n IH]; intros x y L Hy.
    - destruct x; [|cbn [length] in L; lia]. cbn [app pct both]. destruct (pct y); reflexivity.
    - destruct x as [|b x]; [cbn [app pct both]; destruct (pct y); reflexivity|]. cbn [length] in L. cbn [app pct].
      destruct (b =? 37)%N.
      + destruct x as [|c [|d x]].
        * cbn [app both]. destruct y as [|c [|d y]]; [reflexivity..|]. rewrite (Hy c _ eq_refl). reflexivity.
        * cbn [app both]. destruct y as [|d y]; [reflexivity|]. rewrite (Hy d _ eq_refl), andb_false_r. reflexivity.
        * cbn [app length] in *. destruct (is_hex c && is_hex d); [|reflexivity]. rewrite IH by (auto; lia).
          destruct (pct x), (pct y); reflexivity.
      + rewrite IH by (auto; lia). destruct (pct x), (pct y); reflexivity. }
  intros x y. apply (X (length x)). lia.
Qed.

Lemma pct_sep : forall s l, is_sep_text s -> pct (s ++ l) = option_map (app s) (pct l).
Proof. intros s l [->|[->|[->| ->]]]; cbn; destruct (pct l); reflexivity. Qed.

Lemma pct_label : forall x s l, is_sep_text s -> pct (x ++ s ++ l) = both (pct x) (option_map (app s) (pct l)).
Proof.
  intros x s l Hs. rewrite <- pct_sep by exact Hs. apply pct_app.
  intros b z E. destruct Hs as [->|[->|[->| ->]]]; cbn in E; injection E as <- _; reflexivity.
Qed.

Definition seg_decoding (g g' : seg) : Prop := pct (fst g) = pct (fst g') /\ snd g = snd g' /\ is_sep_text (snd g).

Lemma pct_host : forall segs segs' first first', pct first = pct first' -> Forall2 seg_decoding segs segs' ->
  pct (host first segs) = pct (host first' segs').
Proof.
  intros segs segs' first first' E F. induction F as [|[l s] [l' s'] segs segs' (A & C & D) F IH]; [exact E|].
  cbn [fst snd] in *. subst s'. cbn [host]. rewrite !pct_label by exact D. rewrite IH, A. reflexivity.
Qed.

Lemma pct_labels_text : forall segs segs', Forall2 seg_decoding segs segs' -> pct (labels_text segs) = pct (labels_text segs').
Proof.
  intros segs segs' F. destruct (rev_case _ segs) as [->|(a & [l s] & ->)].
  - inversion F. reflexivity.
  - apply Forall2_app_inv_l in F as (a' & x & F & G & ->). inversion G as [|? [l' s'] ? ? (A & _) G']; subst. inversion G'; subst.
    rewrite !labels_text_host. apply pct_host; [exact A|exact F].
Qed.

Lemma Forall2_length : forall A B (P : A -> B -> Prop) l l', Forall2 P l l' -> length l = length l'.
Proof. intros A B P l l' F. induction F; cbn [length]; auto. Qed.
Lemma Forall2_firstn : forall A B (P : A -> B -> Prop) n l l', Forall2 P l l' -> Forall2 P (firstn n l) (firstn n l').
Proof. induction n as [|n IH]; intros l l' F; [constructor|]. destruct F; cbn [firstn]; constructor; auto. Qed.
Lemma Forall2_skipn : forall A B (P : A -> B -> Prop) n l l', Forall2 P l l' -> Forall2 P (skipn n l) (skipn n l').
Proof. induction n as [|n IH]; intros l l' F; [exact F|]. destruct F; cbn [skipn]; auto. Qed.
Lemma Forall2_nth : forall A B (P : A -> B -> Prop) l l' d d', Forall2 P l l' -> P d d' -> forall n, P (nth n l d) (nth n l' d').
Proof. intros A B P l l' d d' F Pd. induction F; intros [|n]; cbn [nth]; auto. Qed.

Lemma walk_decoded : forall rules (labs labs' path : list bytes), Forall2 same_decoding labs labs' ->
  (forall (q : list bytes) (l : bytes), In l labs \/ In l labs' -> known rules (q ++ [str "!" ++ l]) = false) ->
  walk rules path labs = walk rules path labs'.
Proof.
  intros rules. induction labs as [|l labs IH]; intros labs' path F X; inversion F as [|? l' ? more D F']; subst; [reflexivity|].
  cbn [walk]. rewrite (X path l) by (left; left; reflexivity). rewrite (X path l') by (right; left; reflexivity).
  assert (E : decoded l = decoded l') by (unfold decoded; apply same_decoding_pct in D; rewrite D; reflexivity).
  rewrite E. rewrite (IH more); [reflexivity|exact F'|]. intros q k [H|H]; apply X; [left|right]; right; exact H.
Qed.

Lemma labels_segs : forall first segs first' segs', Forall2 same_decoding (labels first segs) (labels first' segs') ->
  map snd segs = map snd segs' -> well_split first segs ->
  pct first = pct first' /\ Forall2 seg_decoding segs segs'.
Proof.
  intros first segs first' segs' F E (_ & W). unfold labels in F.
  assert (X : Forall2 seg_decoding segs segs' /\ Forall2 same_decoding [first] [first']).
  { revert segs' E F. induction segs as [|[l s] segs IH]; intros [|[l' s'] segs'] E F; try discriminate.
    - split; [constructor|exact F].
    - cbn [map fst snd app] in *. injection E as -> E. inversion F; subst. inversion W as [|? ? (A & C) W']; subst.
      destruct (IH W' segs' E H4) as [P Q]. split; [|exact Q]. constructor; [|exact P].
      split; [apply same_decoding_pct; assumption|]. split; [reflexivity|exact C]. }
  destruct X as [X Y]. inversion Y; subst. split; [apply same_decoding_pct; assumption|exact X].
Qed.

Lemma c24 : forall ext rules t p p' r r' scheme user raw h port path first zs segs
    scheme' user' raw' h' port' path' first' zs' segs', build_trie rules = Ret t ->
  extract ext t p = Ret (r, None) -> extract ext t p' = Ret (r', None) ->
  r_host_type r = HHostName -> r_host_type r' = HHostName ->
  url_parts ext p scheme user raw h port path -> labelled h first zs segs ->
  url_parts ext p' scheme' user' raw' h' port' path' -> labelled h' first' zs' segs' ->
  Forall2 same_decoding (labels first segs) (labels first' segs') -> map snd segs = map snd segs' ->
  (forall (q : list bytes) (l : bytes), In l (labels first segs) \/ In l (labels first' segs') -> known rules (q ++ [str "!" ++ l]) = false) ->
  p_ignore_sub_domains p = p_ignore_sub_domains p' ->
  same_decoding (r_domain r) (r_domain r') /\ same_decoding (r_suffix r) (r_suffix r')
  /\ same_decoding (r_sub_domain r) (r_sub_domain r').
Proof.
  intros ext rules t p p' r r' sc us raw h po pa first zs segs sc' us' raw' h' po' pa' first' zs' segs' B H H' T T' U L U' L' F E X I.
  destruct (c21_at _ _ _ _ _ _ _ _ _ _ _ _ _ _ B H T U L) as (sub & R & Es).
  destruct (c21_at _ _ _ _ _ _ _ _ _ _ _ _ _ _ B H' T' U' L') as (sub' & R' & Es').
  destruct L as (_ & W & _). apply well_split_app in W.
  destruct (labels_segs _ _ _ _ F E W) as [Ef G].
  assert (Len : length segs = length segs') by (eapply Forall2_length; exact G).
  unfold reported in R, R'. rewrite <- (walk_decoded rules _ _ [] F X), <- Len in R'.
  assert (Below : forall n, pct (if n <=? length segs then host first (skipn n segs) else [])
                            = pct (if n <=? length segs then host first' (skipn n segs') else [])).
  { intros n. destruct (n <=? length segs); [|reflexivity]. apply pct_host; [exact Ef|]. apply Forall2_skipn. exact G. }
  assert (Sub : forall n, sub = (if n <=? length segs then host first (skipn n segs) else []) ->
      sub' = (if n <=? length segs then host first' (skipn n segs') else []) -> same_decoding (r_sub_domain r) (r_sub_domain r')).
  { intros n Y Y'. rewrite Es, Es', <- I. apply same_decoding_pct. destruct (p_ignore_sub_domains p); [reflexivity|]. rewrite Y, Y'. apply Below. }
  assert (Dom : forall n, same_decoding (nth n (labels first segs) []) (nth n (labels first' segs') [])).
  { apply Forall2_nth; [exact F|]. intros d. reflexivity. }
  destruct (walk rules [] (labels first segs)) as [[k|] n].
  - destruct R as (_ & A & C & D). destruct R' as (_ & A' & C' & D'). split; [rewrite C, C'; apply Dom|]. split; [|eapply Sub; eauto].
    rewrite A, A'. apply same_decoding_pct. apply pct_labels_text. apply Forall2_firstn. apply Forall2_skipn. exact G.
  - destruct R as (A & C & D). destruct R' as (A' & C' & D'). split; [rewrite C, C'; apply Dom|]. split; [|eapply Sub; eauto].
    rewrite A, A'. intros d. reflexivity.
Qed.

(** ** Exception rules *)

Lemma walk_exception : forall rules (above labs0 path : list bytes) (l : bytes) more, Forall2 (fun k x => decoded x = k) above labs0 ->
  (forall (q : list bytes) x y, above = q ++ x :: y -> known rules (path ++ q ++ [str "*"]) = false) ->
  known rules (path ++ above ++ [str "!" ++ l]) = true -> known rules (path ++ above ++ [str "*"]) = true ->
  exists e, walk rules path (labs0 ++ l :: more) = (e, length above)
   /\ ((exists q y : list bytes, above = q ++ y /\ q <> [] /\ is_suffix rules (path ++ q) = true) -> exists k, e = Some k).
Proof.
  intros rules above labs0 path l more F. revert path. induction F as [|k x above labs0 D F IH]; intros path W K1 K2.
  - cbn [app length] in *. exists None. cbn [walk]. rewrite K2, K1. split; [reflexivity|].
    intros (q & y & E & N & _). symmetry in E. apply app_eq_nil in E as [-> _]. contradiction.
  - cbn [app walk length]. pose proof (W [] k above eq_refl) as W0. cbn [app] in W0. rewrite W0. rewrite D.
    assert (Kk : known rules (path ++ [k]) = true).
    { apply (known_prefix rules (path ++ [k]) (above ++ [str "*"])). rewrite <- app_assoc. exact K2. }
    rewrite Kk. destruct (IH (path ++ [k])) as (e & Ew & Hs).
    + intros q x' y E. specialize (W (k :: q) x' y). rewrite <- app_assoc. apply W. rewrite E. reflexivity.
    + rewrite <- app_assoc. exact K1.
    + rewrite <- app_assoc. exact K2.
    + rewrite Ew. eexists. split; [reflexivity|]. intros (q & y & E & N & S).
      destruct (is_suffix rules (path ++ [k])) eqn:Sk; [eauto|]. destruct q as [|k' q]; [contradiction|].
      cbn [app] in E. injection E as <- E. destruct q as [|k2 q].
      * congruence.
      * destruct Hs as (j & ->); [|cbn; eauto]. exists (k2 :: q), y. split; [exact E|]. split; [discriminate|].
        rewrite <- app_assoc. exact S.
Qed.

(** An exception rule whose label is written literally in the host is obeyed: the label is the
    domain. *)
Lemma c25_partial : forall ext rules t p r scheme user raw h port path first zs segs (above labs0 : list bytes) (l : bytes) more,
  build_trie rules = Ret t -> extract ext t p = Ret (r, None) -> r_host_type r = HHostName ->
  url_parts ext p scheme user raw h port path -> labelled h first zs segs ->
  labels first segs = labs0 ++ l :: more -> Forall2 (fun k x => decoded x = k) above labs0 ->
  known rules (above ++ [str "!" ++ l]) = true -> known rules (above ++ [str "*"]) = true ->
  (forall (q : list bytes) x y, above = q ++ x :: y -> known rules (q ++ [str "*"]) = false) ->
  (exists q y : list bytes, above = q ++ y /\ q <> [] /\ is_suffix rules q = true) ->
  r_domain r = l /\ r_suffix r <> [].
Proof.
  intros ext rules t p r sc us raw h po pa first zs segs above labs0 l more B H T U L E F K1 K2 W S.
  destruct (walk_exception rules above labs0 [] l more F W K1 K2) as (e & Ew & Hs). destruct (Hs S) as (k & ->).
  destruct (c21_at _ _ _ _ _ _ _ _ _ _ _ _ _ _ B H T U L) as (sub & R & _). unfold reported in R.
  rewrite E in R. rewrite Ew in R. destruct R as (Hk & A & C & _). split.
  - rewrite C. apply Forall2_length in F. rewrite F. rewrite app_nth2 by lia. rewrite Nat.sub_diag. reflexivity.
  - pose proof (host_name _ _ _ _ H T) as (sc' & us' & raw' & h' & po' & pa' & first' & zs' & segs' & c & U' & _ & _ & L' & Hw & _ & Hc & _ & _ & Er).
    destruct (parts_unique _ _ _ _ _ _ _ _ _ _ _ _ _ _ U U') as (_ & _ & _ & <- & _ & _).
    destruct (stripped_unique _ _ _ _ _ _ _ L L') as (<- & <- & <-).
    apply build_trie_represents in B. rewrite E in Hw. destruct (cwalk_walk t rules B _ [] t _ _ _ _ _ _ _ eq_refl Hw Ew) as (A1 & _).
    cbn [orb] in A1. rewrite Er. cbn [r_suffix]. rewrite <- E in Hw. apply (suffix_nonempty _ _ _ _ Hw A1 (Hc A1)).
Qed.

(** ** Labels left of the domain *)

Lemma walk_prefix : forall rules (a b b' path : list bytes) e n, walk rules path (a ++ b) = (e, n) -> n < length a ->
  walk rules path (a ++ b') = (e, n).
Proof.
  intros rules. induction a as [|l a IH]; intros b b' path e n W N; [cbn [length] in N; lia|].
  cbn [app walk length] in *. destruct (known rules (path ++ [str "*"])); [exact W|].
  destruct (known rules (path ++ [decoded l])); [|exact W].
  destruct (walk rules (path ++ [decoded l]) (a ++ b)) as [e' n'] eqn:W'. injection W as <- <-.
  rewrite (IH _ b' _ _ _ W') by lia. reflexivity.
Qed.

Lemma labels_app : forall first a b, labels first (a ++ b) = map fst a ++ labels first b.
Proof. intros. unfold labels. rewrite map_app, app_assoc. reflexivity. Qed.

Lemma host_mid : forall sg' f' s sg f, host f (sg' ++ (f', s) :: sg) = host f sg ++ s ++ host f' sg'.
Proof.
  intros. rewrite host_app. cbn [host].
  induction sg' as [|[l s0] sg' IH]; cbn [host]; [reflexivity|]. rewrite IH, <- !app_assoc. reflexivity.
Qed.

(** Everything left of the domain can be replaced. *)
Lemma c48_partial : forall ext rules t p p' r r' scheme user raw h port path scheme' user' raw' h' port' path' s s' x' y,
  build_trie rules = Ret t -> extract ext t p = Ret (r, None) -> extract ext t p' = Ret (r', None) ->
  r_host_type r = HHostName -> r_host_type r' = HHostName ->
  p_ignore_sub_domains p = false -> p_ignore_sub_domains p' = false ->
  url_parts ext p scheme user raw h port path -> url_parts ext p' scheme' user' raw' h' port' path' ->
  is_sep_text s -> is_sep_text s' -> r_suffix r <> [] ->
  h = r_sub_domain r ++ s ++ y -> h' = x' ++ s' ++ y ->
  r_domain r' = r_domain r /\ r_suffix r' = r_suffix r /\ r_sub_domain r' = x'.
Proof.
  intros ext rules t p p' r r' sc us raw h po pa sc' us' raw' h' po' pa' s s' x' y B H H' T T' I I' U U' Hs Hs' Hsfx Eh Eh'.
  destruct (labelled_total h) as (first & zs & segs & L).
  destruct (c21_at _ _ _ _ _ _ _ _ _ _ _ _ _ _ B H T U L) as (sub & R & Es). rewrite I in Es.
  unfold reported in R. destruct (walk rules [] (labels first segs)) as [[k|] n] eqn:W.
  2:{ exfalso. apply Hsfx. apply R. }
  destruct R as (Hk & A & C & D). destruct (split_exists y) as (fy & sy & -> & Wy).
  destruct (split_exists x') as (f' & sg' & -> & Wx).
  pose proof L as (EL & WL & ZL & HL). pose proof (well_split_app _ _ _ WL) as Wsegs.
  destruct (S n <=? length segs) eqn:Q.
  2:{ exfalso. apply Nat.leb_gt in Q. assert (En : n = length segs) by lia.
      rewrite Es, D in Eh. rewrite EL in Eh. cbn [app] in Eh.
      change (s ++ host fy sy) with (host [] [] ++ s ++ host fy sy) in Eh. rewrite <- host_mid in Eh.
      apply split_unique in Eh; [|exact WL|apply well_split_host_app; auto; split; [apply no_sep_nil|constructor]].
      destruct Eh as [Ef _]. rewrite En, nth_labels_last in C. subst first.
      destruct (c15 _ _ _ _ _ H) as (X & _). destruct (X eq_refl) as [_ Y]. exact (Y C). }
  apply Nat.leb_le in Q. rewrite Es, D in Eh. rewrite EL in Eh. rewrite <- host_mid in Eh.
  apply split_unique in Eh; [|exact WL|apply well_split_host_app; auto; apply well_split_skipn; exact Wsegs].
  destruct Eh as [_ Eh].
  assert (Eseg : zs ++ firstn n segs = sy /\ nth n segs ([], []) = (fy, s)).
  { rewrite <- (firstn_skipn n segs) in Eh at 1. rewrite (skipn_cons_nth _ segs n ([], [])) in Eh by lia.
    rewrite app_assoc in Eh. change ((fy, s) :: skipn (S n) segs) with ([(fy, s)] ++ skipn (S n) segs) in Eh.
    change (nth n segs ([], []) :: skipn (S n) segs) with ([nth n segs ([], [])] ++ skipn (S n) segs) in Eh.
    rewrite !app_assoc in Eh. apply app_inv_tail in Eh. apply app_inj_tail in Eh. exact Eh. }
  destruct Eseg as [<- Efy].
  rewrite <- host_mid in Eh'. rewrite <- app_assoc in Eh'.
  assert (L' : labelled h' f' zs (firstn n segs ++ (fy, s') :: sg')).
  { split; [exact Eh'|]. split; [|split; [exact ZL|]].
    - rewrite app_assoc. apply well_split_host_app; auto.
    - destruct segs as [|g segs]; [cbn [length] in Q; lia|]. destruct n as [|n]; [lia|]. exact HL. }
  destruct (c21_at _ _ _ _ _ _ _ _ _ _ _ _ _ _ B H' T' U' L') as (sub' & R' & Es'). rewrite I' in Es'.
  assert (Efst : firstn n segs ++ nth n segs ([], []) :: skipn (S n) segs = segs).
  { rewrite <- (skipn_cons_nth _ segs n ([], [])) by lia. apply firstn_skipn. }
  assert (El : labels first segs = (map fst (firstn n segs) ++ [fy]) ++ labels first (skipn (S n) segs)).
  { rewrite <- Efst at 1. rewrite labels_app, Efy, <- app_assoc. reflexivity. }
  assert (El' : labels f' (firstn n segs ++ (fy, s') :: sg') = (map fst (firstn n segs) ++ [fy]) ++ labels f' sg').
  { rewrite labels_app, <- app_assoc. reflexivity. }
  assert (Ln : length (map fst (firstn n segs)) = n) by (rewrite map_length, firstn_length; lia).
  assert (Ln' : length (firstn n segs) = n) by (rewrite firstn_length; lia).
  rewrite El in W. apply (walk_prefix _ _ _ (labels f' sg')) in W; [|rewrite app_length; cbn [length]; lia].
  unfold reported in R'. rewrite El' in R'. rewrite W in R'. destruct R' as (Hk' & A' & C' & D').
  rewrite C', C, A', A, Es', D'. split; [|split].
  - assert (Nth : forall Z : list bytes, nth n ((map fst (firstn n segs) ++ [fy]) ++ Z) [] = fy).
    { intros Z. rewrite <- app_assoc. rewrite app_nth2 by lia. rewrite Ln, Nat.sub_diag. reflexivity. }
    rewrite El. exact (eq_trans (Nth _) (eq_sym (Nth _))).
  - f_equal. rewrite <- Efst at 2. rewrite !skipn_app, !firstn_app. rewrite !skipn_length, Ln'.
    replace (n - k - (n - k)) with 0 by lia. reflexivity.
  - rewrite app_length, Ln'. cbn [length]. destruct (S n <=? n + S (length sg')) eqn:Z; [|apply Nat.leb_gt in Z; lia].
    rewrite skipn_app, Ln'. rewrite skipn_all2 by lia. replace (S n - n) with 1 by lia. reflexivity.
Qed.
