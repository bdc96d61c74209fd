(** HeapProofs.v - executions with pointers are executions with tries as values. *)

From Verif Require Import Base BaseFacts Chars Str Net Trie Extract RuleSpec TrieFacts Psl ListSpec ListFacts World Update UpdateSpec Calls WorldFacts UrlProofs OutcomeFacts CallFacts CallProofs
  RaceSpec RaceProofs Heap HeapSpec HeapFacts.
From Coq Require Import ZifyBool ZifyNat ZifyN.

(** ** A program and its code on the memory *)

(** Node [i] of trie [a] is at the path. *)
Definition fact : Type := nat * list bytes * nat.

(** The node [j] was found; the rest looks at it. *)
Definition looks_len {A : Type} (a j : nat) (l : bool) (Q : hprog A -> Prop) (hp : hprog A) : Prop :=
  exists hk, hp = HHeap (On a (Len j)) hk /\ forall z, negb (z =? 0)%Z = l -> Q (hk z).
Definition looks_at {A : Type} (a j : nat) (e l : bool) (Q : hprog A -> Prop) (hp : hprog A) : Prop :=
  looks_len a j l Q hp \/ exists hk, hp = HHeap (On a (ReadEnd j)) hk /\ looks_len a j l Q (hk e).

(** [coded p D hp]: with the nodes [D] known, [hp] does with pointers what [p] does. *)
Fixpoint coded {A : Type} (p : prog A) (D : list fact) (hp : hprog A) : Prop :=
  match p with
  | Done r => hp = HDone r
  | Sys o k => exists hk, hp = HSys o hk /\ forall x, coded (k x) D (hk x)
  | @Mem _ R o k =>
    match o in mem_op R return (R -> list fact -> hprog A -> Prop) -> Prop with
    | NewTrie => fun K => exists hk, hp = HHeap NewRoot hk /\ forall x, K x D (hk x)
    | Insert a keys => fun K => exists hk, hp = hbind (nested_heap a 0 keys) hk /\ K tt D (hk tt)
    | MarkWildcards a => fun K => exists hk, hp = hbind (mark_heap a) hk /\ K tt D (hk tt)
    | NewExtractor x => fun K => exists hk, hp = HHeap (MakeExtractor x) hk /\ forall x, K x D (hk x)
    | ReadExtractor f => fun K => exists hk, hp = HHeap (GetExtractor f) hk /\ forall x, K x D (hk x)
    | StorePath f path => fun K => exists hk, hp = HHeap (PutPath f path) hk /\ K tt D (hk tt)
    | StoreTrie f a => fun K => exists hk, hp = HHeap (PutTrie f a) hk /\ K tt D (hk tt)
    | ReadNode a path => fun K => exists above key i hk, path = above ++ [key] /\
        ((above = [] /\ i = 0) \/ In (a, above, i) D) /\
        hp = HHeap (On a (Get i key)) hk /\ K None D (hk None) /\
        forall j e l, let Q := K (Some (e, l)) ((a, path, j) :: D) in Q (hk (Some j)) \/ looks_at a j e l Q (hk (Some j))
    end (fun x => coded (k x))
  end.

Lemma looks_mono : forall A a j e l (Q Q' : hprog A -> Prop) hp, (forall hp, Q hp -> Q' hp) -> looks_at a j e l Q hp -> looks_at a j e l Q' hp.
Proof.
  intros A a j e l Q Q' hp W.
  assert (X : forall hp, looks_len a j l Q hp -> looks_len a j l Q' hp).
  { intros hp' (hk & E & H). exists hk. auto. }
  intros [H|(hk & E & H)]; [left; auto|right; exists hk; auto].
Qed.
Lemma looks_bind : forall A B a j e l (Q : hprog A -> Prop) (Q' : hprog B -> Prop) (hk : A -> hprog B) hp,
  (forall hp, Q hp -> Q' (hbind hp hk)) -> looks_at a j e l Q hp -> looks_at a j e l Q' (hbind hp hk).
Proof.
  intros A B a j e l Q Q' hk hp W.
  assert (X : forall hp, looks_len a j l Q hp -> looks_len a j l Q' (hbind hp hk)).
  { intros hp' (c & -> & H). exists (fun x => hbind (c x) hk). split; [reflexivity|auto]. }
  intros [H|(c & -> & H)]; [left; auto|right; exists (fun x => hbind (c x) hk); split; [reflexivity|auto]].
Qed.

Lemma coded_more : forall A (p : prog A) D D' hp, coded p D hp -> incl D D' -> coded p D' hp.
Proof.
  intros A. induction p as [r|R o c IH|R o c IH]; intros D D' hp H L.
  - exact H.
  - destruct H as (hk & -> & H). exists hk. split; [reflexivity|eauto].
  - destruct o; cbn [coded] in *;
      try (destruct H as (hk & -> & H); exists hk; split; [reflexivity|eauto]; fail).
    destruct H as (above & key & i & hk & -> & In1 & -> & H1 & H2). exists above, key, i, hk.
    split; [reflexivity|]. split; [destruct In1; auto|]. split; [reflexivity|]. split; [eauto|].
    intros j e l. assert (L' : incl ((a, above ++ [key], j) :: D) ((a, above ++ [key], j) :: D')).
    { intros y [<- |Y]; [left; reflexivity|right; auto]. }
    destruct (H2 j e l) as [X|X]; [left; eauto|right]. eapply looks_mono; [|exact X]. cbv beta. eauto.
Qed.


Lemma coded_on_heap : forall A (p : prog A) D, no_nodes p -> coded p D (on_heap p).
Proof.
  intros A. induction p as [r|R o c IH|R o c IH]; intros D N.
  - reflexivity.
  - cbn [coded on_heap no_nodes] in *. eexists. split; [reflexivity|]. cbv beta. auto.
  - destruct o; cbn [coded on_heap no_nodes] in *; destruct N as (N1 & N); try contradiction;
      (eexists; split; [reflexivity|]; cbv beta; auto).
Qed.

(** Programs that do not build tries. *)
Fixpoint no_build {A : Type} (p : prog A) : Prop :=
  match p with
  | Done _ => True
  | Sys _ k => forall x, no_build (k x)
  | Mem o k => match o with Insert _ _ | MarkWildcards _ => False | _ => True end /\ forall x, no_build (k x)
  end.
Lemma no_build_reads : forall A (p : prog A), only_reads p -> no_build p.
Proof.
  intros A. induction p as [r|R o c IH|R o c IH]; intros H; cbn [no_build]; [exact I|destruct H|].
  destruct o; cbn [only_reads] in H; try contradiction. split; [exact I|auto].
Qed.
Lemma extract_no_build : forall ext f p, no_build (extract_prog ext f p).
Proof.
  intros ext f p. unfold extract_prog. destruct (extract_front ext p) as [[x|[u host]]| |]; try exact I.
  cbn [pbind mem_do ret no_build]. split; [exact I|]. intros x. apply no_build_reads. apply host_only_reads.
Qed.

Lemma coded_bind : forall A B (p : prog A) (k : A -> prog B) D hp hk, coded p D hp -> no_build p ->
  (forall x D', incl D D' -> coded (k x) D' (hk x)) -> coded (pbind p k) D (hbind hp hk).
Proof.
  intros A B. induction p as [r|R o c IH|R o c IH]; intros k D hp hk H O K.
  - cbn [coded] in H. subst hp. destruct r; cbn [pbind hbind]; [apply K; apply incl_refl|reflexivity|reflexivity].
  - destruct H as (c' & -> & H). cbn [pbind hbind coded]. eexists. split; [reflexivity|]. cbv beta. intros x. apply IH; auto.
  - destruct o; cbn [coded no_build] in *; cbn [pbind]; destruct O as (O1 & O); try contradiction; cbn [coded];
      try (destruct H as (c' & -> & H); eexists; split; [reflexivity|]; cbv beta; try intro; apply IH; auto; fail).
    destruct H as (above & key & i & c' & -> & I1 & -> & H1 & H2). exists above, key, i. eexists.
    split; [reflexivity|]. split; [exact I1|]. split; [reflexivity|]. cbv beta. split; [apply IH; auto|].
    intros j e l. cbv zeta in *.
    assert (W : forall q, coded (c (Some (e, l))) ((a, above ++ [key], j) :: D) q ->
                coded (pbind (c (Some (e, l))) k) ((a, above ++ [key], j) :: D) (hbind q hk)).
    { intros q X. apply IH; auto. intros x D' L. apply K. intros y Y. apply L. right. exact Y. }
    destruct (H2 j e l) as [X|X]; [left; apply W; exact X|right]. eapply looks_bind; [|exact X]. exact W.
Qed.
Lemma coded_done : forall A B (r : outcome A) (k : A -> prog B) D hk,
  (forall x, r = Ret x -> coded (k x) D (hk x)) -> coded (pbind (Done r) k) D (hbind (HDone r) hk).
Proof. intros A B r k D hk K. destruct r; cbn [pbind hbind]; [auto|reflexivity|reflexivity]. Qed.

(** A node is looked up, and only its existence matters. *)
Lemma coded_get : forall B D a above i key (k : option (bool * bool) -> prog B) (hk : option nat -> hprog B),
  ((above = [] /\ i = 0) \/ In (a, above, i) D) ->
  coded (k None) D (hk None) -> (forall j e l, coded (k (Some (e, l))) ((a, above ++ [key], j) :: D) (hk (Some j))) ->
  coded (pbind (mem_do (ReadNode a (above ++ [key]))) k) D (hbind (on a (Get i key)) hk).
Proof.
  intros B D a above i key k hk I1 H1 H2. cbn [mem_do ret pbind on hret hbind coded].
  exists above, key, i. eexists. split; [reflexivity|]. split; [exact I1|]. split; [reflexivity|]. cbv beta. auto.
Qed.

Lemma loop_coded : forall a fuel netloc path i D hs hl sep st en, ((path = [] /\ i = 0) \/ In (a, path, i) D) ->
  coded (suffix_loop_prog fuel netloc a path hs hl sep st en) D (suffix_loop_heap fuel netloc a i hs hl sep st en).
Proof.
  intros a. induction fuel as [|fuel IH]; intros netloc path i D hs hl sep st en I1; [reflexivity|].
  cbn [suffix_loop_prog suffix_loop_heap]. apply coded_done. intros head _. cbv zeta. apply coded_done. intros [label e] _.
  destruct (_ && _); [destruct (negb hl); [apply IH; exact I1|reflexivity]|].
  apply coded_get; [exact I1| |].
  - cbn [mem_do ret pbind on hret hbind coded]. exists path. eexists. exists i. eexists. split; [reflexivity|]. split; [exact I1|].
    split; [reflexivity|]. cbv beta. split; [reflexivity|]. intros j v l. cbv zeta. right.
    assert (X : forall hs' en', looks_len a j l
      (coded (if negb l || e then ret (inr (mkWalk hs' (last_index_any head label_separators_rune_set) (last_index_any head label_separators_rune_set) en' sep))
              else suffix_loop_prog fuel netloc a (path ++ [match query_unescape label with inl _ => [] | inr l => l end]) hs'
                     (hl || negb (last_index_any head label_separators_rune_set =? -1)%Z)
                     (last_index_any head label_separators_rune_set) (last_index_any head label_separators_rune_set) en')
             ((a, path ++ [match query_unescape label with inl _ => [] | inr l => l end], j) :: D))
      (size <== on a (Len j) ;;
          if (size =? 0)%Z || e
          then hret (inr (mkWalk hs' (last_index_any head label_separators_rune_set) (last_index_any head label_separators_rune_set) en' sep))
          else suffix_loop_heap fuel netloc a j hs' (hl || negb (last_index_any head label_separators_rune_set =? -1)%Z)
                     (last_index_any head label_separators_rune_set) (last_index_any head label_separators_rune_set) en')).
    { intros hs' en'. eexists. split; [reflexivity|]. cbn [hbind hret]. intros z <-. rewrite negb_involutive.
      destruct (_ || _); [reflexivity|]. apply IH. right. left. reflexivity. }
    destruct hs; cbn [negb andb hbind hret on].
    + left. apply X.
    + right. eexists. split; [reflexivity|]. cbn [hbind hret]. destruct v; cbv iota beta; apply X.
  - intros j v l. apply coded_get; [destruct I1; auto; right; right; assumption|reflexivity|]. intros j' v' l'. reflexivity.
Qed.
Lemma extract_coded : forall ext f p, coded (extract_prog ext f p) [] (extract_heap ext f p).
Proof.
  intros ext f p. unfold extract_prog, extract_heap. apply coded_done. intros [r|[u h]] _; [reflexivity|].
  cbn [pbind mem_do ret hbind hret coded]. eexists. split; [reflexivity|]. cbv beta. intros x.
  unfold extract_host_prog, extract_host_heap. apply coded_bind; [apply loop_coded; auto|apply no_build_reads, loop_only_reads|].
  intros [e|w] D' L; [reflexivity|]. apply coded_done. intros [] _; [|reflexivity]. apply coded_done. intros d _. reflexivity.
Qed.

Lemma program_coded : forall to_ascii hardcoded ext c,
  coded (program to_ascii hardcoded ext c) [] (heap_program to_ascii hardcoded ext c).
Proof.
  intros to_ascii hardcoded ext [n|f|f p]; cbn [program heap_program].
  - apply coded_on_heap. apply no_nodes_bind; [apply new_nodes|nn].
  - apply coded_on_heap. apply no_nodes_bind; [apply update_nodes|nn].
  - apply coded_bind; [apply extract_coded|apply extract_no_build|]. intros x D L. reflexivity.
Qed.

(** ** Goroutines *)
Definition valid (h : heap) (D : list fact) : Prop :=
  forall a p i, In (a, p, i) D -> a < h_next h /\ reach (h_region h a) 0 p = Some i.

Definition started {A : Type} (p : hprog A) : Prop := match p with HHeap _ _ => True | _ => False end.
(** In the middle of changing trie [a] into [t]. *)
Definition changing (h : heap) (a : nat) (t : trie) (Q : hprog answer -> Prop) (hp : hprog answer) : Prop :=
  exists rest hk, hp = hbind rest hk /\ started rest /\ goes a t rest (h_region h a) /\ Q (hk tt).
Definition has_entries (n : hnode) : bool := match n_matches n with [] => false | _ => true end.
(** In the middle of reading a node. *)
Definition reading (h : heap) (a : nat) (path : list bytes) (D : list fact) (K : bool * bool -> list fact -> hprog answer -> Prop)
           (hp : hprog answer) : Prop :=
  exists j, let n := g_node (h_region h a) j in
    reach (h_region h a) 0 path = Some j /\
    looks_at a j (n_end n) (has_entries n) (K (n_end n, has_entries n) ((a, path, j) :: D)) hp.

Definition status (h : heap) (m : memory) (p : prog answer) (D : list fact) (hp : hprog answer) : Prop :=
  match p with
  | @Mem _ R o k =>
    match o in mem_op R return (R -> list fact -> hprog answer -> Prop) -> Prop with
    | Insert a keys => fun K => changing h a (nested_dict (m_trie m a) keys) (K tt D) hp
    | MarkWildcards a => fun K => changing h a (mark_wildcard_tlds (m_trie m a)) (K tt D) hp
    | ReadNode a path => fun K => coded p D hp \/ reading h a path D (fun x => K (Some x)) hp
    | _ => fun _ => coded p D hp
    end (fun x => coded (k x))
  | _ => coded p D hp
  end.

Lemma status_done : forall h m p D hp r, status h m p D hp -> (hp = HDone r <-> p = Done r).
Proof.
  intros h m p D hp r S. destruct p as [r'|R o k|R o k].
  - cbn [status coded] in S. subst hp. split; intros E; injection E as ->; reflexivity.
  - destruct S as (hk & -> & _). split; discriminate.
  - split; [|discriminate]. intros ->. exfalso.
    destruct o; cbn [status coded] in S; try (destruct S as (hk & E & _); discriminate E).
    + destruct S as (rest & hk & E & St & _). destruct rest; cbn [started] in St; try contradiction. discriminate E.
    + destruct S as (rest & hk & E & St & _). destruct rest; cbn [started] in St; try contradiction. discriminate E.
    + destruct S as [(above & key & i & hk & _ & _ & E & _)|(j & _ & [(hk & E & _)|(hk & E & _)])]; discriminate E.
Qed.

Definition related (h : heap) (m : memory) (ht : hthread) (th : thread) : Prop :=
  ht_number ht = t_number th /\ ht_call ht = t_call th
  /\ exists D, valid h D /\ status h m (t_rest th) D (ht_rest ht).
Definition no_writer (ts : list thread) (a : nat) : Prop := forall th, In th ts -> ~ about_to th (TrieNodes a) true.

Lemma related_frame : forall h m h' m' ht th, related h m ht th -> h_next h <= h_next h' ->
  (forall a, a < h_next h -> keeps (h_region h a) (h_region h' a)) ->
  (forall a w, about_to th (TrieNodes a) w -> h_region h' a = h_region h a /\ m_trie m' a = m_trie m a) ->
  related h' m' ht th.
Proof.
  intros h m h' m' [hn hc hp] [i c p] (E1 & E2 & D & V & S) L K F. unfold about_to in F. cbn [t_rest t_call t_number ht_number ht_call ht_rest] in *.
  split; [exact E1|]. split; [exact E2|]. exists D. split.
  - intros a path j X. destruct (V a path j X) as (A & B). split; [lia|apply K; auto].
  - cbn [t_rest ht_rest]. destruct p as [r|R o k|R o k]; try exact S. destruct o; try exact S; cbn [status touches] in *.
    + destruct (F a true (conj eq_refl eq_refl)) as (F1 & F2). unfold changing in *. rewrite F1, F2. exact S.
    + destruct (F a true (conj eq_refl eq_refl)) as (F1 & F2). unfold changing in *. rewrite F1, F2. exact S.
    + destruct (F a false (conj eq_refl eq_refl)) as (F1 & F2). unfold reading in *. rewrite F1. exact S.
Qed.

Section Pools.
Variable to_ascii : bytes -> option bytes.
Variable hardcoded : bytes.
Variable ext : idna.
Local Notation pool_step := (pool_step to_ascii hardcoded ext).
Local Notation pool_steps := (pool_steps to_ascii hardcoded ext).
Local Notation hpool_step := (hpool_step to_ascii hardcoded ext).
Local Notation hpool_steps := (hpool_steps to_ascii hardcoded ext).

Lemma allocated : forall q th a w, pool_steps first_pool q -> In th (p_threads q) -> about_to th (TrieNodes a) w ->
  a < m_next_trie (p_memory q).
Proof.
  intros q [i c p] a w S I1 A. destruct (nodes_steps to_ascii hardcoded ext q S) as (F & (OT & OX & O & _ & T & _) & Nd).
  destruct (T _ I1) as (_ & b & _ & Sf). specialize (Nd _ I1). unfold thread_nodes, about_to in *. cbn [t_rest t_call t_number] in *.
  destruct O as [H1 H2 H3 H4 H5 H6]. destruct p as [r|R o k|R o k]; try contradiction.
  destruct o; cbn [touches safe no_nodes nodes_ok] in *; try contradiction.
  - destruct A as (E & _). injection E as <-. destruct Sf as (t & E & _). apply (H1 _ _ _ E).
  - destruct A as (E & _). injection E as <-. destruct Sf as (t & E & _). apply (H1 _ _ _ E).
  - destruct A as ([E|[E|E]] & _); discriminate E.
  - destruct A as (E & _). discriminate E.
  - destruct A as (E & _). discriminate E.
  - destruct A as (E & _). injection E as <-. destruct Nd as [(N & _)|(f & p & _ & N & _)]; [destruct N|].
    apply in_map_iff in N as ([a' t'] & Ea & N). cbn in Ea. subst a'. apply (H6 _ _ N).
Qed.

Lemma alone : forall m known ts1 th ts2 n tr th2 a w w2, pool_steps first_pool (mkPool m known (ts1 ++ th :: ts2) n tr) ->
  In th2 (ts1 ++ ts2) -> about_to th (TrieNodes a) w -> about_to th2 (TrieNodes a) w2 -> w = false /\ w2 = false.
Proof.
  intros m known ts1 th ts2 n tr th2 a w w2 S I2 A1 A2. destruct (nodes_steps to_ascii hardcoded ext _ S) as (F & H).
  assert (D : t_number th <> t_number th2).
  { destruct H as ((OT & OX & _ & N & _) & _). cbn [p_threads] in N. rewrite map_app in N. cbn [map] in N. apply NoDup_remove in N as (_ & N).
    intros X. apply N. rewrite X, <- map_app. apply in_map. exact I2. }
  assert (J1 : In th (p_threads (mkPool m known (ts1 ++ th :: ts2) n tr))) by apply in_elt.
  assert (J2 : In th2 (p_threads (mkPool m known (ts1 ++ th :: ts2) n tr))).
  { cbn [p_threads]. apply in_app_or in I2. apply in_or_app. cbn [In]. tauto. }
  split.
  - destruct w; [|reflexivity].
    destruct (race_sided _ _ F _ _ _ _ H J1 J2 D A1 A2) as (f & _ & [E|E] & _); discriminate E.
  - destruct w2; [|reflexivity].
    destruct (race_sided _ _ F _ _ _ _ H J2 J1 (not_eq_sym D) A2 A1) as (f & _ & [E|E] & _); discriminate E.
Qed.

Record inv (hq : hpool) (q : pool) : Prop := {
  i_steps : pool_steps first_pool q;
  i_next : h_next (hp_heap hq) = m_next_trie (p_memory q);
  i_ext : h_extractor (hp_heap hq) = m_extractor (p_memory q);
  i_next_ext : h_next_extractor (hp_heap hq) = m_next_extractor (p_memory q);
  i_known : hp_known hq = p_known q;
  i_count : hp_count hq = p_count q;
  i_trace : hp_trace hq = p_trace q;
  i_threads : Forall2 (related (hp_heap hq) (p_memory q)) (hp_threads hq) (p_threads q);
  i_rep : forall a, a < h_next (hp_heap hq) -> no_writer (p_threads q) a ->
          rept (h_region (hp_heap hq) a) (m_trie (p_memory q) a) }.

(** A call comes to its next operation. *)
Lemma land : forall h m known hts1 hts2 ts1 ts2 i c hp p D n tr,
  pool_steps first_pool (mkPool m known (ts1 ++ mkThread i c p :: ts2) n tr) ->
  h_next h = m_next_trie m -> h_extractor h = m_extractor m -> h_next_extractor h = m_next_extractor m ->
  Forall2 (related h m) hts1 ts1 -> Forall2 (related h m) hts2 ts2 -> valid h D -> coded p D hp ->
  (forall a, a < h_next h -> no_writer (ts1 ++ ts2) a -> rept (h_region h a) (m_trie m a)) ->
  inv (mkHPool h known (hts1 ++ mkHThread i c hp :: hts2) n tr) (mkPool m known (ts1 ++ mkThread i c p :: ts2) n tr).
Proof.
  intros h m known hts1 hts2 ts1 ts2 i c hp p D n tr S E1 E2 E3 F1 F2 V C R.
  split; cbn [hp_heap hp_known hp_count hp_trace hp_threads p_memory p_known p_count p_trace p_threads]; auto.
  - apply Forall2_app; [exact F1|]. constructor; [|exact F2]. split; [reflexivity|]. split; [reflexivity|]. exists D.
    split; [exact V|]. cbn [t_rest ht_rest].
    assert (Al : forall a w, about_to (mkThread i c p) (TrieNodes a) w -> a < h_next h).
    { intros a w A. rewrite E1. apply (allocated _ (mkThread i c p) a w S); [apply in_elt|exact A]. }
    assert (W : forall a, about_to (mkThread i c p) (TrieNodes a) true -> rept (h_region h a) (m_trie m a)).
    { intros a A. apply R; [eauto|]. intros th2 I2 A2. destruct (alone _ _ _ _ _ _ _ _ _ _ _ S I2 A A2) as (X & _). discriminate X. }
    destruct p as [r|R' o k|R' o k]; try exact C. destruct o; try exact C; cbn [status coded] in *.
    + destruct C as (hk & -> & C). exists (nested_heap a 0 keys), hk. split; [reflexivity|]. split; [destruct keys; exact I|].
      split; [|exact C]. apply insert_goes. apply W. split; reflexivity.
    + destruct C as (hk & -> & C). exists (mark_heap a), hk. split; [reflexivity|]. split; [exact I|].
      split; [|exact C]. apply mark_goes. apply W. split; reflexivity.
    + left. exact C.
  - intros a A N. apply R; [exact A|]. intros th X. apply N. apply in_app_or in X. apply in_or_app. cbn [In]. tauto.
Qed.

Lemma upd_id : forall V (f : nat -> V) a b, upd f a (f a) b = f b.
Proof. intros V f a b. unfold upd. destruct (Nat.eqb_spec b a) as [->|]; reflexivity. Qed.

Lemma related_all : forall h m h' m' hts ts, Forall2 (related h m) hts ts -> h_next h <= h_next h' ->
  (forall a, a < h_next h -> keeps (h_region h a) (h_region h' a)) ->
  (forall th a w, In th ts -> about_to th (TrieNodes a) w -> h_region h' a = h_region h a /\ m_trie m' a = m_trie m a) ->
  Forall2 (related h' m') hts ts.
Proof.
  intros h m h' m' hts ts F L K X. induction F as [|ht th hts ts R F IH]; constructor.
  - eapply related_frame; eauto. intros a w. apply X. left. reflexivity.
  - apply IH. intros th' a w I1. apply X. right. exact I1.
Qed.
Lemma valid_frame : forall h h' D, valid h D -> h_next h <= h_next h' ->
  (forall a, a < h_next h -> keeps (h_region h a) (h_region h' a)) -> valid h' D.
Proof. intros h h' D V L K a p i X. destruct (V a p i X) as (A & B). split; [lia|apply K; auto]. Qed.

Lemma stepped : forall m known ts1 i c p ts2 n tr tr' m' p', pool_steps first_pool (mkPool m known (ts1 ++ mkThread i c p :: ts2) n tr) ->
  advance m p tr' m' p' -> pool_steps first_pool (mkPool m' known (ts1 ++ mkThread i c p' :: ts2) n (tr ++ tr')).
Proof. intros. eapply steps_more; [eassumption|]. apply works. assumption. Qed.

(** A call makes no step, or one. *)
Definition worked (i : nat) (tr' : list event) (q q' : pool) : Prop :=
  q' = q /\ tr' = [] \/ exists m known ts1 c p ts2 n tr m' p', q = mkPool m known (ts1 ++ mkThread i c p :: ts2) n tr
    /\ advance m p tr' m' p' /\ q' = mkPool m' known (ts1 ++ mkThread i c p' :: ts2) n (tr ++ tr').
Lemma inv_worked : forall h known hts1 i c hp hts2 n tr tr' h' hp' q,
  inv (mkHPool h known (hts1 ++ mkHThread i c hp :: hts2) n tr) q -> heap_advance h hp tr' h' hp' ->
  exists q', worked i tr' q q' /\ inv (mkHPool h' known (hts1 ++ mkHThread i c hp' :: hts2) n (tr ++ tr')) q'.
Proof.
  intros h known hts1 i c hp hts2 n tr tr' h' hp' [m known' ts n' tr0] [S En Ee Ex Ek Ec Et T R] Ad.
  cbn [hp_heap hp_known hp_count hp_trace hp_threads p_memory p_known p_count p_trace p_threads] in *. subst known' n' tr0.
  apply Forall2_app_inv_l in T as (ts1 & ts' & F1 & F2 & ->). inversion F2 as [|ht [i' c' p] hts' ts2 Rel F3 Eh1 Eh2]; subst ts' ht hts'. clear F2.
  destruct Rel as (Ei & Ec & D & V & St). cbn [ht_number ht_call ht_rest t_number t_call t_rest] in *. subst i' c'.
  assert (Old : forall a, a < h_next h -> no_writer (ts1 ++ ts2) a -> ~ about_to (mkThread i c p) (TrieNodes a) true ->
                rept (h_region h a) (m_trie m a)).
  { intros a A N X. apply R; [exact A|]. intros th I1. apply in_app_or in I1 as [I1|[<- |I1]]; [apply N|exact X|apply N];
      apply in_or_app; auto. }
  assert (Al : forall th a w, In th (ts1 ++ ts2) -> about_to th (TrieNodes a) w -> a < h_next h).
  { intros th a w I1 A. rewrite En. apply (allocated _ th a w S); [|exact A]. apply in_app_or in I1. apply in_or_app. cbn [In]. tauto. }
  (* the call finishes an operation *)
  assert (Next : forall tr' m' p' D', advance m p tr' m' p' ->
     h_next h' = m_next_trie m' -> h_extractor h' = m_extractor m' -> h_next_extractor h' = m_next_extractor m' ->
     h_next h <= h_next h' -> (forall a, a < h_next h -> keeps (h_region h a) (h_region h' a)) ->
     (forall th a w, In th (ts1 ++ ts2) -> about_to th (TrieNodes a) w -> h_region h' a = h_region h a /\ m_trie m' a = m_trie m a) ->
     valid h' D' -> coded p' D' hp' ->
     (forall a, a < h_next h' -> no_writer (ts1 ++ ts2) a -> rept (h_region h' a) (m_trie m' a)) ->
     exists q', worked i tr' (mkPool m known (ts1 ++ mkThread i c p :: ts2) n tr) q' /\
       inv (mkHPool h' known (hts1 ++ mkHThread i c hp' :: hts2) n (tr ++ tr')) q').
  { intros tr1 m' p' D' A1 N1 N2 N3 L K Fr V' C' R'. eexists. split; [right; do 10 eexists; split; [reflexivity|split; [exact A1|reflexivity]]|].
    apply (land _ _ _ _ _ _ _ _ _ _ _ D'); auto.
    - eapply stepped; eauto.
    - eapply related_all; [exact F1|exact L|exact K|]. intros th a w I1. apply Fr. apply in_or_app. auto.
    - eapply related_all; [exact F3|exact L|exact K|]. intros th a w I1. apply Fr. apply in_or_app. auto. }
  (* the call is still in the middle of an operation, and changes at most trie [a] *)
  assert (Stay : forall a g', h' = set_region h a g' -> keeps (h_region h a) g' ->
     (g' = h_region h a \/ about_to (mkThread i c p) (TrieNodes a) true) -> status h' m p D hp' ->
     inv (mkHPool h' known (hts1 ++ mkHThread i c hp' :: hts2) n (tr ++ [])) (mkPool m known (ts1 ++ mkThread i c p :: ts2) n tr)).
  { intros a g' -> K W St'. rewrite app_nil_r.
    assert (Kp : forall b, b < h_next h -> keeps (h_region h b) (h_region (set_region h a g') b)).
    { intros b _. unfold set_region. cbn [h_region]. unfold upd. destruct (Nat.eqb_spec b a) as [->|]; [exact K|apply keeps_refl]. }
    assert (Fr : forall th b w, In th (ts1 ++ ts2) -> about_to th (TrieNodes b) w ->
                 h_region (set_region h a g') b = h_region h b /\ m_trie m b = m_trie m b).
    { intros th b w I1 A. split; [|reflexivity]. unfold set_region. cbn [h_region]. unfold upd. destruct (Nat.eqb_spec b a) as [->|]; [|reflexivity].
      destruct W as [->|W]; [reflexivity|]. destruct (alone _ _ _ _ _ _ _ _ _ _ _ S I1 W A) as (X & _). discriminate X. }
    split; cbn [hp_heap hp_known hp_count hp_trace hp_threads p_memory p_known p_count p_trace p_threads set_region h_next h_extractor h_next_extractor]; auto.
    - apply Forall2_app.
      + eapply related_all; [exact F1|apply le_n|exact Kp|]. intros th b w I1. apply (Fr th b w). apply in_or_app. auto.
      + constructor.
        * split; [reflexivity|]. split; [reflexivity|]. exists D. split; [|exact St']. eapply valid_frame; [exact V|apply le_n|exact Kp].
        * eapply related_all; [exact F3|apply le_n|exact Kp|]. intros th b w I1. apply (Fr th b w). apply in_or_app. auto.
    - intros b B N. specialize (R b B N). change (rept (upd (h_region h) a g' b) (m_trie m b)). unfold upd. destruct (Nat.eqb_spec b a) as [->|]; [|exact R].
      destruct W as [->|W]; [exact R|]. destruct (N (mkThread i c p)); [apply in_elt|exact W]. }
  (* one access of a change of trie [a] *)
  assert (Change : forall a t' (Q : hprog answer -> Prop), about_to (mkThread i c p) (TrieNodes a) true ->
     changing h a t' Q hp -> (forall hp, changing h' a t' Q hp -> status h' m p D hp) ->
     (forall hp, Q hp -> exists p', advance m p [] (set_trie m a t') p' /\ coded p' D hp) ->
     exists q', worked i tr' (mkPool m known (ts1 ++ mkThread i c p :: ts2) n tr) q' /\
       inv (mkHPool h' known (hts1 ++ mkHThread i c hp' :: hts2) n (tr ++ tr')) q').
  { intros a t' Q W (rest & hk & -> & Sd & G & Hq) Mid Fin. destruct rest as [| |R' o kk]; cbn [started] in Sd; try contradiction.
    cbn [hbind heap_advance] in Ad. destruct Ad as (-> & x & Ad & ->).
    destruct o as [R' b o| | | | |]; cbn [goes] in G; try contradiction. destruct G as (-> & G). cbn [heap_step] in Ad.
    destruct Ad as (g' & Rs & ->). destruct (G x g' Rs) as (K & G').
    assert (Ha : a < h_next h) by (rewrite En; apply (allocated _ (mkThread i c p) a true S); [apply in_elt|exact W]).
    assert (Case : started (kk x) \/ kk x = HDone (Ret tt) /\ rept g' t').
    { destruct (kk x) as [[[]| |]| |]; cbn [started goes] in *; auto; contradiction. }
    destruct Case as [Sd'|(Ek & Rp)].
    - eexists. split; [left; split; reflexivity|]. eapply Stay; [reflexivity|exact K|right; exact W|]. apply Mid.
      exists (kk x), hk. split; [reflexivity|]. split; [exact Sd'|]. split; [|exact Hq].
      unfold set_region. cbn [h_region]. rewrite upd_same. exact G'.
    - rewrite Ek. cbn [hbind]. destruct (Fin _ Hq) as (p' & Ad' & C').
      assert (Kp : forall b, b < h_next h -> keeps (h_region h b) (h_region (set_region h a g') b)).
      { intros b _. unfold set_region. cbn [h_region]. unfold upd. destruct (Nat.eqb_spec b a) as [->|]; [exact K|apply keeps_refl]. }
      rewrite Ek in *. cbn [hbind] in *. eapply (Next [] (set_trie m a t') p' D); auto.
      + intros th b w I1 A. unfold set_region, set_trie. cbn [h_region m_trie]. unfold upd. destruct (Nat.eqb_spec b a) as [->|]; [|auto].
        destruct (alone _ _ _ _ _ _ _ _ _ _ _ S I1 W A) as (X & _). discriminate X.
      + eapply valid_frame; [exact V|apply le_n|exact Kp].
      + intros b B N. unfold set_region, set_trie. cbn [h_region m_trie]. unfold upd. destruct (Nat.eqb_spec b a) as [->|Nb]; [exact Rp|].
        apply Old; [exact B|exact N|]. intros X. apply Nb. unfold about_to in *. cbn [t_rest] in *.
        destruct p as [r|R2 o2 k2|R2 o2 k2]; try contradiction. destruct o2; cbn [touches] in *; try contradiction; intuition congruence. }
  destruct p as [r|R' o k|R' o k].
  - cbn [status coded] in St. subst hp. destruct Ad.
  - destruct St as (hk & -> & C). cbn [heap_advance] in Ad. destruct Ad as (-> & x & -> & ->).
    apply (Next _ m (k x) D); auto.
    + split; [reflexivity|]. exists x. auto.
    + intros a _. apply keeps_refl.
  - destruct o as [|a keys|a|x|f|f path|f a|a path]; cbn [status coded] in St.
    + destruct St as (hk & -> & C). cbn [heap_advance heap_step] in Ad. destruct Ad as (-> & x & (-> & ->) & ->).
      assert (Kp : forall b, b < h_next h -> upd (h_region h) (h_next h) new_region b = h_region h b) by (intros b B; apply upd_other; lia).
      apply (Next _ (snd (mem_step NewTrie m)) (k (m_next_trie m)) D); cbn [mem_step snd h_next h_extractor h_next_extractor h_region m_trie m_next_trie m_extractor m_next_extractor]; auto.
      * split; [reflexivity|]. split; reflexivity.
      * intros b B. rewrite Kp by exact B. apply keeps_refl.
      * intros th b w I1 A. pose proof (Al th b w I1 A) as B. split; [apply Kp; exact B|]. apply upd_other. lia.
      * eapply valid_frame; [exact V|cbn; lia|]. intros b B. cbn [h_region]. rewrite Kp by exact B. apply keeps_refl.
      * rewrite En. apply C.
      * intros b B N. rewrite <- En. destruct (Nat.eq_dec b (h_next h)) as [->|Nb]; [rewrite !upd_same; apply rept_new|].
        rewrite !upd_other by exact Nb. apply Old; [lia|exact N|]. unfold about_to. cbn. tauto.
    + eapply Change; [|exact St| |].
      * split; reflexivity.
      * intros hp0 X. exact X.
      * intros hp0 X. exists (k tt). split; [|exact X]. split; [reflexivity|]. split; reflexivity.
    + eapply Change; [|exact St| |].
      * split; reflexivity.
      * intros hp0 X. exact X.
      * intros hp0 X. exists (k tt). split; [|exact X]. split; [reflexivity|]. split; reflexivity.
    + destruct St as (hk & -> & C). cbn [heap_advance heap_step] in Ad. destruct Ad as (-> & x' & (-> & ->) & ->).
      apply (Next _ (snd (mem_step (NewExtractor x) m)) (k (m_next_extractor m)) D); cbn [mem_step snd h_next h_extractor h_next_extractor h_region m_trie m_next_trie m_extractor m_next_extractor]; auto.
      * split; [reflexivity|]. split; reflexivity.
      * rewrite Ee, Ex. reflexivity.
      * intros b _. apply keeps_refl.
      * rewrite Ex. apply C.
    + destruct St as (hk & -> & C). cbn [heap_advance heap_step] in Ad. destruct Ad as (-> & x' & (-> & ->) & ->).
      apply (Next _ m (k (m_extractor m f)) D); auto.
      * split; [reflexivity|]. split; reflexivity.
      * intros b _. apply keeps_refl.
      * rewrite Ee. apply C.
      * intros b B N. apply Old; [exact B|exact N|]. unfold about_to. cbn. intros ([X|[X|X]] & _); discriminate X.
    + destruct St as (hk & -> & C). cbn [heap_advance heap_step] in Ad. destruct Ad as (-> & [] & -> & ->).
      apply (Next _ (snd (mem_step (StorePath f path) m)) (k tt) D); cbn [mem_step snd put_extractor set_extractor h_next h_extractor h_next_extractor h_region m_trie m_next_trie m_extractor m_next_extractor]; auto.
      * split; [reflexivity|]. split; reflexivity.
      * rewrite Ee. reflexivity.
      * intros b _. apply keeps_refl.
      * intros b B N. apply Old; [exact B|exact N|]. unfold about_to. cbn. intros (X & _); discriminate X.
    + destruct St as (hk & -> & C). cbn [heap_advance heap_step] in Ad. destruct Ad as (-> & [] & -> & ->).
      apply (Next _ (snd (mem_step (StoreTrie f a) m)) (k tt) D); cbn [mem_step snd put_extractor set_extractor h_next h_extractor h_next_extractor h_region m_trie m_next_trie m_extractor m_next_extractor]; auto.
      * split; [reflexivity|]. split; reflexivity.
      * rewrite Ee. reflexivity.
      * intros b _. apply keeps_refl.
      * intros b B N. apply Old; [exact B|exact N|]. unfold about_to. cbn. intros (X & _); discriminate X.
    + (* ReadNode *)
      assert (Ha : a < h_next h) by (rewrite En; apply (allocated _ (mkThread i c (Mem (ReadNode a path) k)) a false S); [apply in_elt|split; reflexivity]).
      assert (Rp : rept (h_region h a) (m_trie m a)).
      { apply R; [exact Ha|]. intros th I1 A. assert (I2 : th = mkThread i c (Mem (ReadNode a path) k) \/ In th (ts1 ++ ts2)).
        { apply in_app_or in I1 as [I1|[<- |I1]]; [right; apply in_or_app; auto|left; reflexivity|right; apply in_or_app; auto]. }
        destruct I2 as [->|I2]; [destruct A as (_ & A); discriminate A|].
        destruct (alone _ _ _ _ _ _ _ _ _ _ _ S I2 (conj eq_refl eq_refl : about_to (mkThread i c (Mem (ReadNode a path) k)) (TrieNodes a) false) A) as (_ & X).
        discriminate X. }
      pose proof (rept_read _ _ path Rp) as Rd.
      assert (Hr : forall b, h_region (set_region h a (h_region h a)) b = h_region h b) by (intros b; apply upd_id).
      (* the operation ends here *)
      assert (End_ : forall D', h' = set_region h a (h_region h a) -> tr' = [] -> valid h D' ->
        coded (k (option_map node_info (node_at (m_trie m a) path))) D' hp' ->
        exists q', worked i tr' (mkPool m known (ts1 ++ mkThread i c (Mem (ReadNode a path) k) :: ts2) n tr) q' /\
          inv (mkHPool h' known (hts1 ++ mkHThread i c hp' :: hts2) n (tr ++ tr')) q').
      { intros D' -> -> V' C'. apply (Next _ m (k (option_map node_info (node_at (m_trie m a) path))) D'); auto.
        - split; [reflexivity|]. split; reflexivity.
        - intros b _. rewrite Hr. apply keeps_refl.
        - eapply valid_frame; [exact V'|apply le_n|]. intros b _. rewrite Hr. apply keeps_refl.
        - intros b B N. rewrite Hr. apply Old; [exact B|exact N|]. intros (_ & X). discriminate X. }
      assert (More : forall j, h' = set_region h a (h_region h a) -> tr' = [] -> reach (h_region h a) 0 path = Some j ->
        looks_at a j (n_end (g_node (h_region h a) j)) (has_entries (g_node (h_region h a) j))
          (coded (k (Some (n_end (g_node (h_region h a) j), has_entries (g_node (h_region h a) j)))) ((a, path, j) :: D)) hp' ->
        exists q', worked i tr' (mkPool m known (ts1 ++ mkThread i c (Mem (ReadNode a path) k) :: ts2) n tr) q' /\
          inv (mkHPool h' known (hts1 ++ mkHThread i c hp' :: hts2) n (tr ++ tr')) q').
      { intros j Eh -> Rj Lk. eexists. split; [left; split; reflexivity|]. eapply (Stay a); [exact Eh|apply keeps_refl|left; reflexivity|].
        cbn [status]. right. exists j. cbv zeta. rewrite Eh, Hr. auto. }
      assert (Info : forall j, reach (h_region h a) 0 path = Some j ->
        option_map node_info (node_at (m_trie m a) path) = Some (n_end (g_node (h_region h a) j), has_entries (g_node (h_region h a) j))).
      { intros j Rj. rewrite <- Rd, Rj. reflexivity. }
      assert (Val : forall j, reach (h_region h a) 0 path = Some j -> valid h ((a, path, j) :: D)).
      { intros j Rj b p0 i0 [E|X]; [injection E as <- <- <-; auto|auto]. }
      destruct St as [(above & key & i0 & hk & -> & Ia & -> & H1 & H2)|(j & Rj & [(hk & -> & Lk)|(hk & -> & Lk)])].
      * cbn [heap_advance heap_step region_step] in Ad. destruct Ad as (-> & x & (g' & (-> & ->) & ->) & ->).
        assert (Ri : reach (h_region h a) 0 above = Some i0).
        { destruct Ia as [(-> & ->)|Ia]; [reflexivity|]. apply (V _ _ _ Ia). }
        assert (Rk : reach (h_region h a) 0 (above ++ [key]) = hget (n_matches (g_node (h_region h a) i0)) key) by (rewrite reach_snoc, Ri; reflexivity).
        destruct (hget (n_matches (g_node (h_region h a) i0)) key) as [j|].
        -- destruct (H2 j (n_end (g_node (h_region h a) j)) (has_entries (g_node (h_region h a) j))) as [X|X].
           ++ apply (End_ ((a, above ++ [key], j) :: D)); auto. rewrite (Info j Rk). exact X.
           ++ apply (More j); auto.
        -- apply (End_ D); auto. rewrite Rk in Rd. cbn [option_map] in Rd. rewrite <- Rd. exact H1.
      * cbn [heap_advance heap_step region_step] in Ad. destruct Ad as (-> & x & (g' & (-> & ->) & ->) & ->).
        apply (End_ ((a, path, j) :: D)); auto. rewrite (Info j Rj). apply Lk. unfold has_entries, len.
        destruct (n_matches (g_node (h_region h a) j)); reflexivity.
      * cbn [heap_advance heap_step region_step] in Ad. destruct Ad as (-> & x & (g' & (-> & ->) & ->) & ->).
        apply (More j); auto. left. exact Lk.
Qed.

Lemma inv_works : forall h known hts1 i c hp hts2 n tr tr' h' hp' q,
  inv (mkHPool h known (hts1 ++ mkHThread i c hp :: hts2) n tr) q -> heap_advance h hp tr' h' hp' ->
  exists q', pool_steps q q' /\ inv (mkHPool h' known (hts1 ++ mkHThread i c hp' :: hts2) n (tr ++ tr')) q'.
Proof.
  intros h known hts1 i c hp hts2 n tr tr' h' hp' q I1 Ad. destruct (inv_worked _ _ _ _ _ _ _ _ _ _ _ _ _ I1 Ad) as (q' & W & I2). exists q'.
  split; [|exact I2]. destruct W as [(-> & _)|(m & k & ts1 & c0 & p & ts2 & n0 & tr0 & m' & p' & -> & A & ->)]; [apply steps_none|].
  eapply steps_more; [apply steps_none|]. apply works. exact A.
Qed.

Lemma hsteps_trans : forall q1 q2 q3, hpool_steps q1 q2 -> hpool_steps q2 q3 -> hpool_steps q1 q3.
Proof. intros q1 q2 q3 S1 S2. induction S2 as [|a b c S2 IH St]; [exact S1|]. eapply hsteps_more; [apply IH; exact S1|exact St]. Qed.

Lemma inv_starts : forall h known hts n tr q c, inv (mkHPool h known hts n tr) q -> may_call known c ->
  let q' := mkPool (p_memory q) known (p_threads q ++ [mkThread n c (program to_ascii hardcoded ext c)]) (S n) tr in
  pool_step q q' /\ inv (mkHPool h known (hts ++ [mkHThread n c (heap_program to_ascii hardcoded ext c)]) (S n) tr) q'.
Proof.
  intros h known hts n tr q c I1 M. destruct q as [m known' ts' n' tr0]. destruct I1 as [Sp En Ee Ex Ek Ec Et T R].
  cbn [hp_heap hp_known hp_count hp_trace hp_threads p_memory p_known p_count p_trace p_threads] in *. subst known' n' tr0.
  assert (St : pool_step (mkPool m known ts' n tr) (mkPool m known (ts' ++ [mkThread n c (program to_ascii hardcoded ext c)]) (S n) tr)) by (apply starts; exact M).
  split; [exact St|]. apply (land _ _ _ _ [] _ [] _ _ _ _ []); auto.
  - eapply steps_more; [exact Sp|exact St].
  - intros a p i [].
  - apply program_coded.
  - intros a A N. apply R; [exact A|]. rewrite app_nil_r in N. exact N.
Qed.

Lemma inv_ends : forall h known hts1 i c r hts2 n tr q, inv (mkHPool h known (hts1 ++ mkHThread i c (HDone r) :: hts2) n tr) q ->
  exists m ts1 ts2, q = mkPool m known (ts1 ++ mkThread i c (Done r) :: ts2) n tr
    /\ inv (mkHPool h (returned r ++ known) (hts1 ++ hts2) n tr) (mkPool m (returned r ++ known) (ts1 ++ ts2) n tr).
Proof.
  intros h known hts1 i c r hts2 n tr q I1. destruct q as [m known' ts' n' tr0]. destruct I1 as [S En Ee Ex Ek Ec Et T R].
  cbn [hp_heap hp_known hp_count hp_trace hp_threads p_memory p_known p_count p_trace p_threads] in *. subst known' n' tr0.
  apply Forall2_app_inv_l in T as (ts1 & ts2' & F1 & F2 & ->). inversion F2 as [|ht [i' c' p] hts' ts2 Rel F3 Eh1 Eh2]; subst ts2' ht hts'. clear F2.
  destruct Rel as (Ei & Ec & D & V & St). cbn [ht_number ht_call ht_rest t_number t_call t_rest] in *. subst i' c'.
  pose proof (proj1 (status_done _ _ _ _ _ r St) eq_refl). subst p.
  assert (St' : pool_step (mkPool m known (ts1 ++ mkThread i c (Done r) :: ts2) n tr) (mkPool m (returned r ++ known) (ts1 ++ ts2) n tr)) by apply returns.
  exists m, ts1, ts2. split; [reflexivity|].
  split; cbn [hp_heap hp_known hp_count hp_trace hp_threads p_memory p_known p_count p_trace p_threads]; auto.
  + eapply steps_more; [exact S|exact St'].
  + apply Forall2_app; assumption.
  + intros a A N. apply R; [exact A|]. intros th X. apply in_app_or in X as [X|[<- |X]]; [apply N; apply in_or_app; auto| |apply N; apply in_or_app; auto].
    unfold about_to. cbn. tauto.
Qed.
Lemma inv_step : forall hq hq' q, inv hq q -> hpool_step hq hq' -> exists q', pool_steps q q' /\ inv hq' q'.
Proof.
  intros hq hq' q I1 S. destruct S as [h known ts n tr c M|h known ts1 i c p ts2 n tr tr' h' p' Ad|h known hts1 i c r hts2 n tr].
  - destruct (inv_starts _ _ _ _ _ _ c I1 M) as (St & I2). eexists. split; [eapply steps_more; [apply steps_none|exact St]|exact I2].
  - eapply inv_works; eauto.
  - destruct (inv_ends _ _ _ _ _ _ _ _ _ _ I1) as (m & ts1 & ts2 & -> & I2). eexists.
    split; [eapply steps_more; [apply steps_none|apply returns]|exact I2].
Qed.
Lemma inv_first : inv first_hpool first_pool.
Proof.
  split; cbn; auto; try reflexivity.
  - apply steps_none.
  - intros a A. lia.
Qed.
Lemma inv_more : forall hq hq', hpool_steps hq hq' -> forall q, inv hq q -> exists q', pool_steps q q' /\ inv hq' q'.
Proof.
  intros hq hq' S. induction S as [hq|q1 q2 q3 S IH St]; intros q I1.
  - exists q. split; [apply steps_none|exact I1].
  - destruct (IH q I1) as (q' & Sq & I2). destruct (inv_step _ _ _ I2 St) as (q'' & Sq' & I3). exists q''.
    split; [eapply steps_trans; eauto|exact I3].
Qed.
Lemma inv_steps : forall hq, hpool_steps first_hpool hq -> exists q, inv hq q.
Proof. intros hq S. destruct (inv_more _ _ S _ inv_first) as (q & _ & I1). eauto. Qed.
Lemma inv_same : forall hq q, inv hq q -> same_pool hq q.
Proof.
  intros hq q [S En Ee Ex Ek Ec Et T R]. split; auto.
  - clear - T. induction T as [|ht th hts ts (E1 & E2 & D & V & St) T IH]; constructor; [|exact IH].
    split; [exact E1|]. split; [exact E2|]. intros r. eapply status_done. exact St.
  - intros f. rewrite Ee. reflexivity.
Qed.

Lemma c95_refines : forall hq1 hq2, hpool_steps first_hpool hq1 -> hpool_steps hq1 hq2 ->
  exists q1 q2, pool_steps first_pool q1 /\ pool_steps q1 q2 /\ same_pool hq1 q1 /\ same_pool hq2 q2.
Proof.
  intros hq1 hq2 S1 S2. destruct (inv_steps hq1 S1) as (q1 & I1). destruct (inv_more _ _ S2 _ I1) as (q2 & S & I2). exists q1, q2.
  split; [apply (i_steps _ _ I1)|]. split; [exact S|]. split; apply inv_same; assumption.
Qed.

(** Extract and the list it uses. *)
Lemma private_steps : forall q q' f, pool_steps q q' -> pool_steps first_pool q -> In f (p_known q) ->
  In f (p_known q') /\ x_private (m_extractor (p_memory q') f) = x_private (m_extractor (p_memory q) f).
Proof.
  intros q q' f S. induction S as [|q1 q2 q3 S IH St]; intros S0 K; [auto|].
  destruct (IH S0 K) as (K2 & <-). assert (S2 : pool_steps first_pool q2) by (eapply steps_trans; eauto).
  destruct (nodes_steps to_ascii hardcoded ext _ S2) as (F & (OT & OX & O & _) & _).
  destruct (own_known _ _ _ _ _ _ _ O f K2) as (Lt & _). clear - St K2 Lt.
  destruct St as [m known ts n tr c M|m known ts1 i c p ts2 n tr tr' m' p' Ad|m known ts1 i c r ts2 n tr]; cbn [p_memory p_known] in *.
  - auto.
  - split; [exact K2|]. destruct p as [r|R o k|R o k]; cbn [advance] in Ad; [destruct Ad|destruct Ad as (-> & _); reflexivity|].
    destruct Ad as (_ & -> & _). destruct o; cbn [mem_step snd set_trie set_extractor m_extractor]; try reflexivity; rewrite upd_at.
    + destruct (Nat.eqb_spec f (m_next_extractor m)); [lia|reflexivity].
    + destruct (Nat.eqb_spec f f0) as [->|]; reflexivity.
    + destruct (Nat.eqb_spec f f0) as [->|]; reflexivity.
  - split; [apply in_or_app; auto|reflexivity].
Qed.
Lemma c95_extract : forall h known hts n tr f p hq3 o,
  hpool_steps first_hpool (mkHPool h known hts n tr) -> In f known ->
  let hq2 := mkHPool h known (hts ++ [mkHThread n (CallExtract f p) (heap_program to_ascii hardcoded ext (CallExtract f p))]) (S n) tr in
  hpool_steps hq2 hq3 -> In (mkHThread n (CallExtract f p) (HDone o)) (hp_threads hq3) ->
  exists text rules t r, (text = hardcoded \/ exists path, was_read (hp_trace hq3) path text)
    /\ used_rules to_ascii text (x_private (h_extractor h f)) rules /\ build_trie rules = Ret t
    /\ extract ext t p = Ret r /\ o = Ret (FromExtract r).
Proof.
  intros h known hts n tr f p hq3 o S1 K hq2 S2 I3. destruct (inv_steps _ S1) as ([m known' ts n' tr0] & I1).
  destruct (inv_starts _ _ _ _ _ _ (CallExtract f p) I1 K) as (St & I2). fold hq2 in I2.
  destruct (inv_more _ _ S2 _ I2) as (q3 & S3 & I4).
  pose proof (i_known _ _ I1) as Ek. pose proof (i_count _ _ I1) as Ec. pose proof (i_trace _ _ I1) as Et. pose proof (i_ext _ _ I1) as Ee.
  pose proof (i_steps _ _ I1) as Sp.
  cbn [hp_heap hp_known hp_count hp_trace hp_threads p_memory p_known p_count p_trace p_threads] in *. subst known' n' tr0.
  assert (T : In (mkThread n (CallExtract f p) (Done o)) (p_threads q3)).
  { pose proof (i_threads _ _ I4) as F. apply in_split in I3 as (l1 & l2 & E). rewrite E in F.
    apply Forall2_app_inv_l in F as (ts1 & ts' & _ & F & ->). inversion F as [|ht [i c p0] hts' ts2 Rel F3 Eh1 Eh2]; subst.
    destruct Rel as (E1 & E2 & D & V & Sx). cbn [ht_number ht_call ht_rest t_number t_call t_rest] in *. subst i c.
    rewrite <- (proj1 (status_done _ _ _ _ _ o Sx) eq_refl). apply in_elt. }
  destruct (c43_isolated to_ascii hardcoded ext m known ts n tr f p q3 o Sp K S3 T) as (q & text & r & A & B & Tx & (rules & U & Bt) & Ex & Eo).
  exists text, rules, (trie_in (p_memory q) f), r. split.
  - destruct Tx as [Tx|(path & W)]; [left; exact Tx|right]. exists path. destruct (steps_trace _ _ _ _ _ B) as (tr' & E).
    rewrite (i_trace _ _ I4), E. apply was_read_app_l. exact W.
  - split; [|auto]. rewrite Ee. destruct (private_steps _ _ f A) as (_ & Ep); [eapply steps_more; [exact Sp|exact St]|exact K|].
    cbn [p_memory] in Ep. rewrite <- Ep. exact U.
Qed.

(** The trie of an extractor that New has returned is complete and nobody changes it. *)
Lemma known_quiet : forall q f, pool_steps first_pool q -> In f (p_known q) ->
  x_trie (m_extractor (p_memory q) f) < m_next_trie (p_memory q) /\ no_writer (p_threads q) (x_trie (m_extractor (p_memory q) f)).
Proof.
  intros q f S K. destruct (nodes_steps to_ascii hardcoded ext q S) as (F & (OT & OX & O & _ & T & _) & _).
  destruct O as [H1 H2 H3 H4 H5 H6]. destruct (H5 f K) as (_ & A & _ & N). split; [exact A|].
  intros [i c p] I1 W. destruct (T _ I1) as (_ & b & _ & Sf). unfold about_to in W. cbn [t_rest t_number] in *.
  destruct p as [r|R o k|R o k]; try contradiction. destruct o; cbn [touches safe] in *; try contradiction.
  - destruct W as (E & _). injection E as <-. destruct Sf as (t & E & _). rewrite N in E. discriminate E.
  - destruct W as (E & _). injection E as <-. destruct Sf as (t & E & _). rewrite N in E. discriminate E.
  - destruct W as (_ & E). discriminate E.
  - destruct W as (E & _). discriminate E.
  - destruct W as (E & _). discriminate E.
  - destruct W as (_ & E). discriminate E.
Qed.
Lemma c95_tree : forall hq, hpool_steps first_hpool hq -> exists q, pool_steps first_pool q /\ same_pool hq q /\
  forall f, In f (hp_known hq) -> holds (h_region (hp_heap hq) (x_trie (h_extractor (hp_heap hq) f))) (trie_in (p_memory q) f).
Proof.
  intros hq S. destruct (inv_steps hq S) as (q & I1). exists q. split; [apply (i_steps _ _ I1)|]. split; [apply inv_same; exact I1|].
  intros f K. destruct I1 as [S' En Ee Ex Ek Ec Et T R]. rewrite Ek in K. destruct (known_quiet q f S' K) as (A & N).
  rewrite Ee. apply rept_holds. apply R; [rewrite En; exact A|exact N].
Qed.

(** ** Races *)
Lemma status_next : forall h m p D hp a w i c, status h m p D hp -> next_access hp = Some (a, w) ->
  exists w', about_to (mkThread i c p) (TrieNodes a) w' /\ (w = true -> w' = true).
Proof.
  intros h m p D hp a w i c St N. unfold about_to. cbn [t_rest]. destruct p as [r|R o k|R o k].
  - cbn [status coded] in St. subst hp. discriminate N.
  - destruct St as (hk & -> & _). discriminate N.
  - assert (Ch : forall b t Q, changing h b t Q hp -> a = b).
    { intros b t Q (rest & hk & -> & Sd & G & _). destruct rest as [| |R' o' kk]; cbn [started] in Sd; try contradiction.
      destruct o' as [R' b' o'| | | | |]; cbn [goes] in G; try contradiction. destruct G as (-> & _). cbn [hbind next_access] in N.
      injection N as <- _. reflexivity. }
    destruct o; cbn [status coded touches] in *; try (destruct St as (hk & -> & _); discriminate N).
    + rewrite (Ch _ _ _ St). exists true. auto.
    + rewrite (Ch _ _ _ St). exists true. auto.
    + exists false. destruct St as [(above & key & i0 & hk & _ & _ & -> & _)|(j & _ & [(hk & -> & _)|(hk & -> & _)])];
        cbn [next_access writes] in N; injection N as <- <-; (split; [auto|discriminate]).
Qed.
Lemma c95_races : forall hq ts1 th1 ts2 th2 ts3 a w1 w2, hpool_steps first_hpool hq ->
  hp_threads hq = ts1 ++ th1 :: ts2 ++ th2 :: ts3 ->
  next_access (ht_rest th1) = Some (a, w1) -> next_access (ht_rest th2) = Some (a, w2) -> w1 = false /\ w2 = false.
Proof.
  intros hq ts1 th1 ts2 th2 ts3 a w1 w2 S E N1 N2. destruct (inv_steps hq S) as ([m known ts n tr] & I1).
  pose proof (i_steps _ _ I1) as Sp. pose proof (i_threads _ _ I1) as F. cbn [p_threads p_memory] in F. rewrite E in F.
  apply Forall2_app_inv_l in F as (us1 & us' & _ & F & ->). inversion F as [|? [i c p] ? us2' R1 F' Eh1 Eh2]; subst.
  apply Forall2_app_inv_l in F' as (us2 & us'' & _ & F' & ->). inversion F' as [|? [i2 c2 p2] ? us3 R2 _ Eh1 Eh2]; subst.
  destruct R1 as (_ & _ & D1 & _ & St1). destruct R2 as (_ & _ & D2 & _ & St2). cbn [t_rest] in *.
  destruct (status_next _ _ _ _ _ _ _ i c St1 N1) as (x1 & A1 & X1). destruct (status_next _ _ _ _ _ _ _ i2 c2 St2 N2) as (x2 & A2 & X2).
  assert (J : In (mkThread i2 c2 p2) (us1 ++ us2 ++ mkThread i2 c2 p2 :: us3)) by (apply in_or_app; right; apply in_elt).
  destruct (alone _ _ _ _ _ _ _ (mkThread i2 c2 p2) a x1 x2 Sp J A1 A2) as (-> & ->).
  split; [destruct w1; [discriminate (X1 eq_refl)|reflexivity]|destruct w2; [discriminate (X2 eq_refl)|reflexivity]].
Qed.

(** ** Every execution on values is one with pointers *)
Record clean (hq : hpool) (q : pool) : Prop := {
  c_next : h_next (hp_heap hq) = m_next_trie (p_memory q);
  c_ext : h_extractor (hp_heap hq) = m_extractor (p_memory q);
  c_next_ext : h_next_extractor (hp_heap hq) = m_next_extractor (p_memory q);
  c_known : hp_known hq = p_known q;
  c_count : hp_count hq = p_count q;
  c_trace : hp_trace hq = p_trace q;
  c_threads : Forall2 (fun ht th => ht_number ht = t_number th /\ ht_call ht = t_call th /\
                exists D, valid (hp_heap hq) D /\ coded (t_rest th) D (ht_rest ht)) (hp_threads hq) (p_threads q);
  c_rep : forall a, a < h_next (hp_heap hq) -> rept (h_region (hp_heap hq) a) (m_trie (p_memory q) a) }.

Lemma clean_same : forall hq q, clean hq q -> same_pool hq q.
Proof.
  intros hq q [En Ee Ex Ek Ec Et T R]. split; auto.
  - clear - T. induction T as [|ht th hts ts (E1 & E2 & D & V & St) T IH]; constructor; [|exact IH].
    split; [exact E1|]. split; [exact E2|]. intros r. destruct (t_rest th) as [r'|R o k|R o k]; cbn [coded] in St.
    + rewrite St. split; intros E; injection E as ->; reflexivity.
    + destruct St as (hk & -> & _). split; discriminate.
    + split; [|discriminate]. intros E. rewrite E in St. exfalso. destruct o; try (destruct St as (hk & E' & _); discriminate E').
      * destruct St as (hk & E' & _). destruct keys; discriminate E'.
      * destruct St as (above & key & i & hk & _ & _ & E' & _). discriminate E'.
  - intros f. rewrite Ee. reflexivity.
Qed.

(** One call works alone for a while. *)
Inductive thread_runs : heap -> hprog answer -> heap -> hprog answer -> Prop :=
| truns_none : forall h hp, thread_runs h hp h hp
| truns_more : forall h hp h1 hp1 h2 hp2, heap_advance h hp [] h1 hp1 -> thread_runs h1 hp1 h2 hp2 -> thread_runs h hp h2 hp2.
Lemma lift_runs : forall h hp h' hp', thread_runs h hp h' hp' -> forall known ts1 i c ts2 n tr,
  hpool_steps (mkHPool h known (ts1 ++ mkHThread i c hp :: ts2) n tr) (mkHPool h' known (ts1 ++ mkHThread i c hp' :: ts2) n tr).
Proof.
  intros h hp h' hp' T. induction T as [h hp|h hp h1 hp1 h2 hp2 Ad T IH]; intros; [apply hsteps_none|].
  eapply hsteps_trans; [|apply IH]. eapply hsteps_more; [apply hsteps_none|].
  pose proof (hworks to_ascii hardcoded ext h known ts1 i c hp ts2 n tr [] h1 hp1 Ad) as X. rewrite app_nil_r in X. exact X.
Qed.

Lemma region_total : forall R (o : region_op R) g, exists x g', region_step o g x g'.
Proof.
  intros R o g. destruct o; cbn [region_step]; try (eexists; eexists; split; reflexivity); try (exists tt; eexists; reflexivity).
Qed.
(** The heap after changes of region [a] only. *)
Definition only_region (a : nat) (h h' : heap) : Prop :=
  h_next h' = h_next h /\ h_extractor h' = h_extractor h /\ h_next_extractor h' = h_next_extractor h
  /\ (forall b, b <> a -> h_region h' b = h_region h b) /\ keeps (h_region h a) (h_region h' a).
Lemma only_set : forall a h g, keeps (h_region h a) g -> only_region a h (set_region h a g).
Proof.
  intros a h g K. unfold only_region, set_region. cbn [h_next h_extractor h_next_extractor h_region]. repeat split.
  - intros b N. apply upd_other. exact N.
  - rewrite upd_same. exact K.
Qed.
Lemma only_trans : forall a h1 h2 h3, only_region a h1 h2 -> only_region a h2 h3 -> only_region a h1 h3.
Proof.
  intros a h1 h2 h3 (A1 & A2 & A3 & A4 & A5) (B1 & B2 & B3 & B4 & B5). unfold only_region. repeat split; try congruence.
  - intros b N. rewrite B4, A4 by exact N. reflexivity.
  - intros p i X. auto.
Qed.

Lemma goes_runs : forall a t rest h hk, goes a t rest (h_region h a) ->
  exists h', thread_runs h (hbind rest hk) h' (hk tt) /\ only_region a h h' /\ rept (h_region h' a) t.
Proof.
  intros a t. induction rest as [r|R o c IH|R o c IH]; intros h hk G.
  - destruct r as [[]| |]; cbn [goes] in G; try contradiction. exists h. cbn [hbind]. split; [apply truns_none|]. split; [|exact G].
    unfold only_region. repeat split. apply keeps_refl.
  - destruct G.
  - destruct o as [R b o| | | | |]; cbn [goes] in G; try contradiction. destruct G as (-> & G).
    destruct (region_total R o (h_region h a)) as (x & g' & Rs). destruct (G x g' Rs) as (K & G').
    destruct (IH x (set_region h a g') hk) as (h' & T & O & Rp).
    { unfold set_region. cbn [h_region]. rewrite upd_same. exact G'. }
    exists h'. split; [|split; [eapply only_trans; [apply only_set; exact K|exact O]|exact Rp]].
    cbn [hbind]. eapply truns_more; [|exact T]. cbn [heap_advance]. split; [reflexivity|]. exists x. split; [|reflexivity].
    cbn [heap_step]. exists g'. auto.
Qed.
Lemma read_runs : forall h a R (o : region_op R) (hk : R -> hprog answer) (x : R), region_step o (h_region h a) x (h_region h a) ->
  thread_runs h (HHeap (On a o) hk) (set_region h a (h_region h a)) (hk x).
Proof.
  intros h a R o hk x Rs. eapply truns_more; [|apply truns_none]. cbn [heap_advance]. split; [reflexivity|]. exists x.
  split; [|reflexivity]. cbn [heap_step]. eauto.
Qed.

Lemma read_back : forall h a b, h_region (set_region h a (h_region h a)) b = h_region h b.
Proof. intros h a b. apply upd_id. Qed.

Lemma look_runs : forall h a j n hp (Q : hprog answer -> Prop), n = g_node (h_region h a) j -> looks_at a j (n_end n) (has_entries n) Q hp ->
  exists h' hp', thread_runs h hp h' hp' /\ (forall b, h_region h' b = h_region h b) /\ only_region a h h' /\ Q hp'.
Proof.
  intros h a j n hp Q En L.
  assert (Len_ : forall h, n = g_node (h_region h a) j -> forall hp, looks_len a j (has_entries n) Q hp ->
    exists h' hp', thread_runs h hp h' hp' /\ (forall b, h_region h' b = h_region h b) /\ only_region a h h' /\ Q hp').
  { clear. intros h En hp (hk & -> & L). do 2 eexists. split; [apply (read_runs h a _ (Len j) hk (len (n_matches n)))|].
    - cbn [region_step]. subst n. auto.
    - split; [apply read_back|]. split; [apply only_set; apply keeps_refl|]. apply L. unfold has_entries, len. destruct (n_matches n); reflexivity. }
  destruct L as [L|(hk & -> & L)]; [apply Len_; auto|].
  destruct (Len_ (set_region h a (h_region h a))) with (hp := hk (n_end n)) as (h' & hp' & T & B & O & Hq).
  - rewrite read_back. exact En.
  - exact L.
  - exists h', hp'. split; [|split; [|split; [|exact Hq]]].
    + eapply truns_more; [|exact T]. cbn [heap_advance]. split; [reflexivity|]. exists (n_end n). split; [|reflexivity].
      cbn [heap_step region_step]. exists (h_region h a). subst n. auto.
    + intros b. rewrite B. apply read_back.
    + eapply only_trans; [apply only_set; apply keeps_refl|exact O].
Qed.

Definition by_itself (h : heap) (hp : hprog answer) (tr' : list event) (h' : heap) (hp' : hprog answer) : Prop :=
  heap_advance h hp tr' h' hp' \/ (tr' = [] /\ thread_runs h hp h' hp').
Lemma clean_works : forall h known hts n tr m ts1 i c p ts2 tr' m' p',
  pool_steps first_pool (mkPool m known (ts1 ++ mkThread i c p :: ts2) n tr) ->
  clean (mkHPool h known hts n tr) (mkPool m known (ts1 ++ mkThread i c p :: ts2) n tr) -> advance m p tr' m' p' ->
  exists hts1 hp hts2 h' hp', hts = hts1 ++ mkHThread i c hp :: hts2 /\ by_itself h hp tr' h' hp' /\
    clean (mkHPool h' known (hts1 ++ mkHThread i c hp' :: hts2) n (tr ++ tr')) (mkPool m' known (ts1 ++ mkThread i c p' :: ts2) n (tr ++ tr')).
Proof.
  intros h known hts n tr m ts1 i c p ts2 tr' m' p' Sp [En Ee Ex Ek Ec0 Et T R] Ad.
  cbn [hp_heap hp_known hp_count hp_trace hp_threads p_memory p_known p_count p_trace p_threads] in *. clear Ek Ec0 Et.
  apply Forall2_app_inv_r in T as (hts1 & hts' & F1 & F2 & ->). inversion F2 as [|[i' c' hp] th hts2 ts' Rel F3 Eh1 Eh2]; subst hts' th ts'. clear F2.
  destruct Rel as (Ei & Ec & D & V & C). cbn [ht_number ht_call ht_rest t_number t_call t_rest] in *. subst i' c'.
  (* the steps of the call *)
  assert (Fin : forall h' hp' D', by_itself h hp tr' h' hp' ->
     h_next h' = m_next_trie m' -> h_extractor h' = m_extractor m' -> h_next_extractor h' = m_next_extractor m' ->
     h_next h <= h_next h' -> (forall a, a < h_next h -> keeps (h_region h a) (h_region h' a)) ->
     valid h' D' -> coded p' D' hp' -> (forall a, a < h_next h' -> rept (h_region h' a) (m_trie m' a)) ->
     exists hts1' hp' hts2' h'' hp'', hts1 ++ mkHThread i c hp :: hts2 = hts1' ++ mkHThread i c hp' :: hts2' /\ by_itself h hp' tr' h'' hp'' /\
                 clean (mkHPool h'' known (hts1' ++ mkHThread i c hp'' :: hts2') n (tr ++ tr')) (mkPool m' known (ts1 ++ mkThread i c p' :: ts2) n (tr ++ tr'))).
  { intros h' hp' D' Hs N1 N2 N3 L K V' C' R'. exists hts1, hp, hts2, h', hp'. split; [reflexivity|]. split; [exact Hs|].
    assert (Fr : forall hts ts, Forall2 (fun ht th => ht_number ht = t_number th /\ ht_call ht = t_call th /\
              exists D, valid h D /\ coded (t_rest th) D (ht_rest ht)) hts ts ->
            Forall2 (fun ht th => ht_number ht = t_number th /\ ht_call ht = t_call th /\
              exists D, valid h' D /\ coded (t_rest th) D (ht_rest ht)) hts ts).
    { intros hts ts F. induction F as [|ht th hts ts (E1 & E2 & D0 & V0 & C0) F IH]; constructor; [|exact IH].
      split; [exact E1|]. split; [exact E2|]. exists D0. split; [|exact C0]. eapply valid_frame; eauto. }
    split; cbn [hp_heap hp_known hp_count hp_trace hp_threads p_memory p_known p_count p_trace p_threads]; auto.
    apply Forall2_app; [apply Fr; exact F1|]. constructor; [|apply Fr; exact F3].
    split; [reflexivity|]. split; [reflexivity|]. exists D'. auto. }
  assert (One : forall h' hp', heap_advance h hp tr' h' hp' -> by_itself h hp tr' h' hp') by (intros; left; assumption).
  assert (Many : forall h' hp', tr' = [] -> thread_runs h hp h' hp' -> by_itself h hp tr' h' hp') by (intros; right; auto).
  assert (Change : forall a t' rest hk, a < h_next h -> hp = hbind rest hk -> goes a t' rest (h_region h a) -> tr' = [] ->
     m' = set_trie m a t' -> coded p' D (hk tt) ->
     exists hts1' hp' hts2' h'' hp'', hts1 ++ mkHThread i c hp :: hts2 = hts1' ++ mkHThread i c hp' :: hts2' /\ by_itself h hp' tr' h'' hp'' /\
                 clean (mkHPool h'' known (hts1' ++ mkHThread i c hp'' :: hts2') n (tr ++ tr')) (mkPool m' known (ts1 ++ mkThread i c p' :: ts2) n (tr ++ tr'))).
  { intros a t' rest hk Ha E G Et Em C'. destruct (goes_runs a t' rest h hk G) as (h' & Tr & (O1 & O2 & O3 & O4 & O5) & Rp).
    rewrite <- E in Tr. subst m'.
    assert (Kp : forall b, b < h_next h -> keeps (h_region h b) (h_region h' b)).
    { intros b _. destruct (Nat.eq_dec b a) as [->|N]; [exact O5|]. rewrite O4 by exact N. apply keeps_refl. }
    apply (Fin h' (hk tt) D); cbn [set_trie m_next_trie m_extractor m_next_extractor m_trie]; try congruence; auto.
    - lia.
    - eapply valid_frame; [exact V|lia|exact Kp].
    - intros b B. unfold upd. destruct (Nat.eqb_spec b a) as [->|N]; [exact Rp|]. rewrite O4 by exact N. apply R. lia. }
  assert (Al : forall a w, about_to (mkThread i c p) (TrieNodes a) w -> a < h_next h).
  { intros a w A. rewrite En. apply (allocated _ (mkThread i c p) a w Sp); [apply in_elt|exact A]. }
  destruct p as [r|R' o k|R' o k]; cbn [advance] in Ad; [destruct Ad| |].
  + destruct Ad as (-> & x & -> & ->). destruct C as (hk & -> & C). apply (Fin h (hk x) D); auto.
    * apply One. split; [reflexivity|]. exists x. auto.
    * intros a _. apply keeps_refl.
  + destruct Ad as (-> & -> & ->).
    destruct o as [|a keys|a|x|f|f path|f a|a path]; cbn [coded] in C; cbn [mem_step fst snd] in *.
    * destruct C as (hk & -> & C).
      assert (Kp : forall b, b < h_next h -> upd (h_region h) (h_next h) new_region b = h_region h b) by (intros b B; apply upd_other; lia).
      apply (Fin (mkHeap (upd (h_region h) (h_next h) new_region) (S (h_next h)) (h_extractor h) (h_next_extractor h)) (hk (h_next h)) D);
        cbn [h_next h_extractor h_next_extractor h_region m_trie m_next_trie m_extractor m_next_extractor]; auto.
      -- apply One. split; [reflexivity|]. exists (h_next h). split; [split; reflexivity|reflexivity].
      -- intros b B. rewrite Kp by exact B. apply keeps_refl.
      -- eapply valid_frame; [exact V|cbn; lia|]. intros b B. cbn [h_region]. rewrite Kp by exact B. apply keeps_refl.
      -- rewrite En. apply C.
      -- intros b B. rewrite <- En. destruct (Nat.eq_dec b (h_next h)) as [->|Nb]; [rewrite !upd_same; apply rept_new|].
         rewrite !upd_other by exact Nb. apply R. lia.
    * destruct C as (hk & -> & C). assert (Ha : a < h_next h) by (apply (Al a true); split; reflexivity).
      eapply (Change a); [exact Ha|reflexivity|apply insert_goes; apply R; exact Ha|reflexivity|reflexivity|exact C].
    * destruct C as (hk & -> & C). assert (Ha : a < h_next h) by (apply (Al a true); split; reflexivity).
      eapply (Change a); [exact Ha|reflexivity|apply mark_goes; apply R; exact Ha|reflexivity|reflexivity|exact C].
    * destruct C as (hk & -> & C).
      apply (Fin (mkHeap (h_region h) (h_next h) (upd (h_extractor h) (h_next_extractor h) x) (S (h_next_extractor h))) (hk (h_next_extractor h)) D);
        cbn [h_next h_extractor h_next_extractor h_region m_trie m_next_trie m_extractor m_next_extractor]; auto.
      -- apply One. split; [reflexivity|]. exists (h_next_extractor h). split; [split; reflexivity|reflexivity].
      -- rewrite Ee, Ex. reflexivity.
      -- intros b _. apply keeps_refl.
      -- rewrite Ex. apply C.
    * destruct C as (hk & -> & C). apply (Fin h (hk (h_extractor h f)) D); auto.
      -- apply One. split; [reflexivity|]. exists (h_extractor h f). split; [split; reflexivity|reflexivity].
      -- intros b _. apply keeps_refl.
      -- rewrite Ee. apply C.
    * destruct C as (hk & -> & C).
      apply (Fin (put_extractor h f (mkExtractor path (x_trie (h_extractor h f)) (x_private (h_extractor h f)))) (hk tt) D);
        cbn [put_extractor set_extractor h_next h_extractor h_next_extractor h_region m_trie m_next_trie m_extractor m_next_extractor]; auto.
      -- apply One. split; [reflexivity|]. exists tt. split; reflexivity.
      -- rewrite Ee. reflexivity.
      -- intros b _. apply keeps_refl.
    * destruct C as (hk & -> & C).
      apply (Fin (put_extractor h f (mkExtractor (x_path (h_extractor h f)) a (x_private (h_extractor h f)))) (hk tt) D);
        cbn [put_extractor set_extractor h_next h_extractor h_next_extractor h_region m_trie m_next_trie m_extractor m_next_extractor]; auto.
      -- apply One. split; [reflexivity|]. exists tt. split; reflexivity.
      -- rewrite Ee. reflexivity.
      -- intros b _. apply keeps_refl.
    * assert (Ha : a < h_next h) by (apply (Al a false); split; reflexivity).
      destruct C as (above & key & i0 & hk & -> & Ia & -> & H1 & H2).
      pose proof (rept_read _ _ (above ++ [key]) (R a Ha)) as Rd.
      assert (Ri : reach (h_region h a) 0 above = Some i0).
      { destruct Ia as [(-> & ->)|Ia]; [reflexivity|]. apply (V _ _ _ Ia). }
      assert (Rk : reach (h_region h a) 0 (above ++ [key]) = hget (n_matches (g_node (h_region h a) i0)) key) by (rewrite reach_snoc, Ri; reflexivity).
      pose proof (read_runs h a _ (Get i0 key) hk (hget (n_matches (g_node (h_region h a) i0)) key) (conj eq_refl eq_refl)) as Tr.
      assert (Done_ : forall h' hp' D', (forall b, h_region h' b = h_region h b) -> only_region a h h' ->
        thread_runs h (HHeap (On a (Get i0 key)) hk) h' hp' -> valid h D' ->
        coded (k (option_map node_info (node_at (m_trie m a) (above ++ [key])))) D' hp' ->
        exists hts1' hp' hts2' h'' hp'', hts1 ++ mkHThread i c (HHeap (On a (Get i0 key)) hk) :: hts2 = hts1' ++ mkHThread i c hp' :: hts2' /\ by_itself h hp' [] h'' hp'' /\
          clean (mkHPool h'' known (hts1' ++ mkHThread i c hp'' :: hts2') n (tr ++ [])) (mkPool m known (ts1 ++ mkThread i c (k (option_map node_info (node_at (m_trie m a) (above ++ [key])))) :: ts2) n (tr ++ []))).
      { intros h' hp' D' B (O1 & O2 & O3 & _) Tr' V' C'.
        assert (Kp : forall b, b < h_next h -> keeps (h_region h b) (h_region h' b)) by (intros b _; rewrite B; apply keeps_refl).
        assert (Vp : valid h' D') by (eapply valid_frame; [exact V'|lia|exact Kp]).
        assert (Rp : forall b, b < h_next h' -> rept (h_region h' b) (m_trie m b)) by (intros b L; rewrite B; apply R; lia).
        assert (Lp : h_next h <= h_next h') by lia.
        apply (Fin h' hp' D'); try congruence; auto. }
      assert (Same : only_region a h (set_region h a (h_region h a))) by (apply only_set; apply keeps_refl).
      destruct (hget (n_matches (g_node (h_region h a) i0)) key) as [j|].
      -- assert (V' : valid h ((a, above ++ [key], j) :: D)).
         { intros b p0 i1 [E|X]; [injection E as <- <- <-; auto|auto]. }
         rewrite Rk in Rd. cbn [option_map] in Rd.
         destruct (H2 j (n_end (g_node (h_region h a) j)) (has_entries (g_node (h_region h a) j))) as [X|X].
         ++ apply (Done_ (set_region h a (h_region h a)) (hk (Some j)) ((a, above ++ [key], j) :: D)); auto; [apply read_back|].
            rewrite <- Rd. exact X.
         ++ destruct (look_runs (set_region h a (h_region h a)) a j (g_node (h_region h a) j) (hk (Some j)) _ (f_equal (fun g => g_node g j) (eq_sym (read_back h a a))) X)
              as (h' & hp' & Tr' & B & O & Hq).
            apply (Done_ h' hp' ((a, above ++ [key], j) :: D)); auto.
            ** intros b. rewrite B. apply read_back.
            ** eapply only_trans; [exact Same|exact O].
            ** eapply truns_more; [|exact Tr']. cbn [heap_advance]. split; [reflexivity|]. exists (Some j). split; [|reflexivity].
               cbn [heap_step region_step]. exists (h_region h a). split; [|reflexivity]. split; [|reflexivity]. rewrite reach_snoc, Ri in Rk. symmetry. exact Rk.
            ** rewrite <- Rd. exact Hq.
      -- apply (Done_ (set_region h a (h_region h a)) (hk None) D); auto; [apply read_back|].
         rewrite Rk in Rd. cbn [option_map] in Rd. rewrite <- Rd. exact H1.
Qed.
Lemma by_itself_steps : forall h hp tr' h' hp' known ts1 i c ts2 n tr, by_itself h hp tr' h' hp' ->
  hpool_steps (mkHPool h known (ts1 ++ mkHThread i c hp :: ts2) n tr) (mkHPool h' known (ts1 ++ mkHThread i c hp' :: ts2) n (tr ++ tr')).
Proof.
  intros h hp tr' h' hp' known ts1 i c ts2 n tr [A|(-> & A)].
  - eapply hsteps_more; [apply hsteps_none|]. apply hworks. exact A.
  - rewrite app_nil_r. apply lift_runs. exact A.
Qed.
Lemma clean_starts : forall h known hts n tr m ts c, clean (mkHPool h known hts n tr) (mkPool m known ts n tr) ->
  clean (mkHPool h known (hts ++ [mkHThread n c (heap_program to_ascii hardcoded ext c)]) (S n) tr) (mkPool m known (ts ++ [mkThread n c (program to_ascii hardcoded ext c)]) (S n) tr).
Proof.
  intros h known hts n tr m ts c [En Ee Ex Ek Ec Et T R].
  cbn [hp_heap hp_known hp_count hp_trace hp_threads p_memory p_known p_count p_trace p_threads] in *.
  split; cbn [hp_heap hp_known hp_count hp_trace hp_threads p_memory p_known p_count p_trace p_threads]; auto.
  apply Forall2_app; [exact T|]. constructor; [|constructor]. split; [reflexivity|]. split; [reflexivity|]. exists [].
  split; [intros a p i []|apply program_coded].
Qed.
Lemma clean_ends : forall h known hts n tr m ts1 i c r ts2, clean (mkHPool h known hts n tr) (mkPool m known (ts1 ++ mkThread i c (Done r) :: ts2) n tr) ->
  exists hts1 hts2, hts = hts1 ++ mkHThread i c (HDone r) :: hts2
  /\ clean (mkHPool h (returned r ++ known) (hts1 ++ hts2) n tr) (mkPool m (returned r ++ known) (ts1 ++ ts2) n tr).
Proof.
  intros h known hts n tr m ts1 i c r ts2 [En Ee Ex Ek Ec0 Et T R].
  cbn [hp_heap hp_known hp_count hp_trace hp_threads p_memory p_known p_count p_trace p_threads] in *.
  apply Forall2_app_inv_r in T as (hts1 & hts' & F1 & F2 & ->). inversion F2 as [|[i' c' hp] th hts2 ts' Rel F3 Eh1 Eh2]; subst hts' th ts'. clear F2.
  destruct Rel as (Ei & Ec & D & V & C). cbn [ht_number ht_call ht_rest t_number t_call t_rest coded] in *. subst i' c' hp.
  exists hts1, hts2. split; [reflexivity|].
  split; cbn [hp_heap hp_known hp_count hp_trace hp_threads p_memory p_known p_count p_trace p_threads]; auto.
  apply Forall2_app; assumption.
Qed.

Lemma clean_step : forall hq q q', pool_steps first_pool q -> clean hq q -> pool_step q q' -> exists hq', hpool_steps hq hq' /\ clean hq' q'.
Proof.
  intros [h known0 hts n0 tr0] q q' Sp C St. pose proof (c_known _ _ C) as Ek. pose proof (c_count _ _ C) as Ec. pose proof (c_trace _ _ C) as Et.
  destruct St as [m known ts n tr c M|m known ts1 i c p ts2 n tr tr' m' p' Ad|m known ts1 i c r ts2 n tr];
    cbn [hp_known hp_count hp_trace p_known p_count p_trace] in *; subst known0 n0 tr0.
  - eexists. split; [eapply hsteps_more; [apply hsteps_none|apply hstarts; exact M]|]. apply clean_starts. exact C.
  - destruct (clean_works _ _ _ _ _ _ _ _ _ _ _ _ _ _ Sp C Ad) as (hts1 & hp & hts2 & h' & hp' & -> & A & C').
    eexists. split; [apply by_itself_steps; exact A|exact C'].
  - destruct (clean_ends _ _ _ _ _ _ _ _ _ _ _ C) as (hts1 & hts2 & -> & C').
    eexists. split; [eapply hsteps_more; [apply hsteps_none|apply hreturns]|exact C'].
Qed.

Lemma clean_first : clean first_hpool first_pool.
Proof. split; cbn; auto. intros a A. lia. Qed.
Lemma clean_more : forall q1 q2 hq1, pool_steps q1 q2 -> pool_steps first_pool q1 -> clean hq1 q1 ->
  exists hq2, hpool_steps hq1 hq2 /\ clean hq2 q2.
Proof.
  intros q1 q2 hq1 S. induction S as [q|q1 q2 q3 S IH St]; intros S0 C.
  - exists hq1. split; [apply hsteps_none|exact C].
  - destruct (IH S0 C) as (hq & Hs & C2). destruct (clean_step _ _ _ (steps_trans _ _ _ _ _ _ S0 S) C2 St) as (hq' & Hs' & C').
    exists hq'. split; [eapply hsteps_trans; eauto|exact C'].
Qed.
Lemma c95_complete : forall q1 q2, pool_steps first_pool q1 -> pool_steps q1 q2 ->
  exists hq1 hq2, hpool_steps first_hpool hq1 /\ hpool_steps hq1 hq2 /\ same_pool hq1 q1 /\ same_pool hq2 q2.
Proof.
  intros q1 q2 S1 S2. destruct (clean_more _ _ _ S1 (steps_none _ _ _ _) clean_first) as (hq1 & H1 & C1).
  destruct (clean_more _ _ _ S2 S1 C1) as (hq2 & H2 & C2). exists hq1, hq2. split; [exact H1|]. split; [exact H2|].
  split; apply clean_same; assumption.
Qed.
End Pools.
