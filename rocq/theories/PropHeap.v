(** PropHeap.v - tries as nodes that point to each other: C95. *)

From Verif Require Import Base BaseFacts Chars Str Trie Extract Psl ListSpec World Update UpdateSpec
  Calls CallProofs Heap HeapSpec HeapFacts HeapProofs ExampleBase ExampleDisk PropCalls.
From Coq Require Import Permutation.

(** C95: calls that build and read tries pointer by pointer, with other calls running between any
    two accesses, do what they do when tries are values that change at once: for every two
    moments of an execution with pointers there is an execution with values with the same
    running calls, answers, events and extractors at both moments ... *)
Theorem C95_refines : forall to_ascii hardcoded ext hq1 hq2,
  hpool_steps to_ascii hardcoded ext first_hpool hq1 -> hpool_steps to_ascii hardcoded ext hq1 hq2 ->
  exists q1 q2, pool_steps to_ascii hardcoded ext first_pool q1 /\ pool_steps to_ascii hardcoded ext q1 q2
    /\ same_pool hq1 q1 /\ same_pool hq2 q2.
Proof. exact c95_refines. Qed.
(** ... and the other way round. *)
Theorem C95_complete : forall to_ascii hardcoded ext q1 q2,
  pool_steps to_ascii hardcoded ext first_pool q1 -> pool_steps to_ascii hardcoded ext q1 q2 ->
  exists hq1 hq2, hpool_steps to_ascii hardcoded ext first_hpool hq1 /\ hpool_steps to_ascii hardcoded ext hq1 hq2
    /\ same_pool hq1 q1 /\ same_pool hq2 q2.
Proof. exact c95_complete. Qed.
(** At every moment, the nodes that an extractor points to form a tree, and this tree is the list
    of the extractor in the execution with values. *)
Theorem C95_tree : forall to_ascii hardcoded ext hq, hpool_steps to_ascii hardcoded ext first_hpool hq ->
  exists q, pool_steps to_ascii hardcoded ext first_pool q /\ same_pool hq q /\
    forall f, In f (hp_known hq) -> holds (h_region (hp_heap hq) (x_trie (h_extractor (hp_heap hq) f))) (trie_in (p_memory q) f).
Proof. exact c95_tree. Qed.
(** An Extract that follows the pointers answers as [extract] does with the trie of a complete
    list: one that is built in or that was read from a file. *)
Theorem C95_extract : forall to_ascii hardcoded ext h known hts n tr f p hq3 o,
  hpool_steps to_ascii hardcoded ext first_hpool (mkHPool h known hts n tr) -> In f known ->
  let hq2 := mkHPool h known (hts ++ [mkHThread n (CallExtract f p) (heap_program to_ascii hardcoded ext (CallExtract f p))]) (S n) tr in
  hpool_steps to_ascii hardcoded ext hq2 hq3 -> In (mkHThread n (CallExtract f p) (HDone o)) (hp_threads hq3) ->
  exists text rules t r, (text = hardcoded \/ exists path, was_read (hp_trace hq3) path text)
    /\ used_rules to_ascii text (x_private (h_extractor h f)) rules /\ build_trie rules = Ret t
    /\ extract ext t p = Ret r /\ o = Ret (FromExtract r).
Proof. exact c95_extract. Qed.
(** While one call is about to write a node of a trie, no other is about to use a node of it. *)
Theorem C95_races : forall to_ascii hardcoded ext hq ts1 th1 ts2 th2 ts3 a w1 w2,
  hpool_steps to_ascii hardcoded ext first_hpool hq -> hp_threads hq = ts1 ++ th1 :: ts2 ++ th2 :: ts3 ->
  next_access (ht_rest th1) = Some (a, w1) -> next_access (ht_rest th2) = Some (a, w2) -> w1 = false /\ w2 = false.
Proof. exact c95_races. Qed.

(** ** Schedules for the examples *)
Definition region_answer {R : Type} (o : region_op R) (g : region) : R * region :=
  match o in region_op R return R * region with
  | NewNode => (g_count g, mkRegion (upd (g_node g) (g_count g) (mkNode false [])) (S (g_count g)))
  | Get i key => (hget (n_matches (g_node g i)) key, g)
  | Put i key j => (tt, set_node g i (mkNode (n_end (g_node g i)) (hput (n_matches (g_node g i)) key j)))
  | Scan i => (rev (n_matches (g_node g i)), g)
  | Len i => (len (n_matches (g_node g i)), g)
  | ReadEnd i => (n_end (g_node g i), g)
  | SetEnd i => (tt, set_node g i (mkNode true (n_matches (g_node g i))))
  end.
Definition heap_answer {R : Type} (o : heap_op R) (h : heap) : R * heap :=
  match o in heap_op R return R * heap with
  | On a o => let '(x, g) := region_answer o (h_region h a) in (x, set_region h a g)
  | NewRoot => (h_next h, mkHeap (upd (h_region h) (h_next h) new_region) (S (h_next h)) (h_extractor h) (h_next_extractor h))
  | MakeExtractor v => (h_next_extractor h, mkHeap (h_region h) (h_next h) (upd (h_extractor h) (h_next_extractor h) v) (S (h_next_extractor h)))
  | GetExtractor f => (h_extractor h f, h)
  | PutPath f path => (tt, put_extractor h f (mkExtractor path (x_trie (h_extractor h f)) (x_private (h_extractor h f))))
  | PutTrie f a => (tt, put_extractor h f (mkExtractor (x_path (h_extractor h f)) a (x_private (h_extractor h f))))
  end.
Lemma heap_answers : forall R (o : heap_op R) h, heap_step o h (fst (heap_answer o h)) (snd (heap_answer o h)).
Proof.
  intros R o h. destruct o as [R a o| | | | |]; cbn [heap_answer heap_step]; try (cbn; auto; fail).
  destruct (region_answer o (h_region h a)) as [x g] eqn:E. cbn [fst snd]. exists g. split; [|reflexivity].
  destruct o; cbn [region_answer region_step] in *; injection E as <- <-; auto.
  split; [|reflexivity]. apply Permutation_sym. apply Permutation_rev.
Qed.
Definition hact_step (net : bytes -> response) (a : act) (s : disk * hpool) : disk * hpool :=
  let '(d, q) := s in
  let 'mkHPool h known ts n tr := q in
  match a with
  | Start c =>
    let ok := match c with CallNew _ => true | CallUpdate f | CallExtract f _ => existsb (Nat.eqb f) known end in
    if ok : bool then (d, mkHPool h known (ts ++ [mkHThread n c (heap_program ex_to_ascii ex_built_in ex_idna c)]) (S n) tr) else s
  | Work k =>
    match split_at k ts with
    | Some (ts1, mkHThread i c (HSys o c'), ts2) =>
      let '(x, d') := disk_answer net _ o d in (d', mkHPool h known (ts1 ++ mkHThread i c (c' x) :: ts2) n (tr ++ [Event o x]))
    | Some (ts1, mkHThread i c (HHeap o c'), ts2) =>
      (d, mkHPool (snd (heap_answer o h)) known (ts1 ++ mkHThread i c (c' (fst (heap_answer o h))) :: ts2) n (tr ++ []))
    | _ => s
    end
  | Return k =>
    match split_at k ts with
    | Some (ts1, mkHThread i c (HDone r), ts2) => (d, mkHPool h (returned r ++ known) (ts1 ++ ts2) n tr)
    | _ => s
    end
  end.
Fixpoint hacts (net : bytes -> response) (l : list act) (s : disk * hpool) : disk * hpool :=
  match l with [] => s | a :: l => hacts net l (hact_step net a s) end.
Local Notation ex_steps := (hpool_steps ex_to_ascii ex_built_in ex_idna).
Lemma hact_steps : forall net a s, ex_steps (snd s) (snd (hact_step net a s)).
Proof.
  intros net a s. assert (X : snd (hact_step net a s) = snd s \/ hpool_step ex_to_ascii ex_built_in ex_idna (snd s) (snd (hact_step net a s))).
  { destruct s as [d [h known ts n tr]]. destruct a as [c|k|k]; cbn [hact_step snd].
    - destruct (match c with CallNew _ => true | CallUpdate f | CallExtract f _ => existsb (Nat.eqb f) known end) eqn:E;
        [|auto]. right. apply hstarts.
      destruct c as [l|f|f p]; cbn [may_call]; [exact I| |]; apply existsb_exists in E as (g & G & E);
        apply Nat.eqb_eq in E; subst g; exact G.
    - destruct (split_at k ts) as [[[ts1 [i c p]] ts2]|] eqn:E; [|auto]. apply split_at_spec in E. subst ts.
      destruct p as [r|R o p|R o p]; [auto| |].
      + destruct (disk_answer net R o d) as [x d']. cbn [snd]. right. apply hworks. cbn [heap_advance]. eauto.
      + cbn [snd]. right. apply hworks. cbn [heap_advance]. split; [reflexivity|]. eexists. split; [apply heap_answers|reflexivity].
    - destruct (split_at k ts) as [[[ts1 [i c p]] ts2]|] eqn:E; [|auto]. apply split_at_spec in E. subst ts.
      destruct p as [r|R o p|R o p]; [|auto..]. cbn [snd]. right. apply hreturns. }
  destruct X as [-> |X]; [apply hsteps_none|]. eapply hsteps_more; [apply hsteps_none|exact X].
Qed.
Lemma hacts_steps : forall net l s, ex_steps (snd s) (snd (hacts net l s)).
Proof.
  intros net. induction l as [|a l IH]; intros s; cbn [hacts]; [apply hsteps_none|].
  eapply hsteps_trans; [apply hact_steps|apply IH].
Qed.

(** New reads a cached list with the rule "com"; then Update, which downloads a list with the
    rule "b.com" as well, starts. *)
Definition heap_before : disk * hpool :=
  hacts ex_download ([Start (CallNew (mkListParams [] false))] ++ repeat (Work 0) 60 ++ [Return 0; Start (CallUpdate 0)])
       (ex_disk ex_files, first_hpool).
Definition heap_started : disk * hpool := hacts ex_download [Start (CallExtract 0 ex_url)] heap_before.
(** Update stops before it adds the node for "b" below "com"; the Extract reads the extractor and
    looks for "*" below the root of the old trie. *)
Definition heap_middle : disk * hpool :=
  hacts ex_download (repeat (Work 0) 18 ++ repeat (Work 1) 2) heap_started.
Definition heap_after : disk * hpool :=
  hacts ex_download (repeat (Work 0) 40 ++ repeat (Work 1) 20) heap_middle.
Definition accesses (q : hpool) : list (option (nat * bool)) := map (fun th => next_access (ht_rest th)) (hp_threads q).
Definition heap_results (q : hpool) : list (nat * option (option bytes)) :=
  map (fun th => (ht_number th, match ht_rest th with HDone (Ret (FromUpdate None)) => Some None | HDone o => Some (suffix_of o) | _ => None end)) (hp_threads q).
Definition paths_in (q : hpool) (a : nat) : list (option nat) :=
  map (reach (h_region (hp_heap q) a) 0) [[]; [str "com"]; [str "com"; str "b"]].
Example C95_example :
  let q1 := snd heap_before in let q2 := snd heap_started in let q := snd heap_middle in let q3 := snd heap_after in
  ex_steps first_hpool q1 /\ hp_known q1 = [0%nat] /\ hp_count q1 = 2%nat
  /\ ex_steps q2 q /\ ex_steps q q3
  /\ accesses q = [Some (2%nat, true); Some (1%nat, false)]
  /\ paths_in q 1 = [Some 0%nat; Some 1%nat; None] /\ paths_in q 2 = [Some 0%nat; Some 1%nat; None]
  /\ paths_in q3 2 = [Some 0%nat; Some 1%nat; Some 2%nat]
  /\ heap_results q3 = [(1%nat, Some None); (2%nat, Some (Some (str "com")))].
Proof.
  cbv zeta. split; [exact (hacts_steps ex_download _ (ex_disk ex_files, first_hpool))|].
  split; [vm_compute; reflexivity|]. split; [vm_compute; reflexivity|].
  split; [exact (hacts_steps ex_download _ heap_started)|]. split; [exact (hacts_steps ex_download _ heap_middle)|].
  split; [vm_compute; reflexivity|]. split; [vm_compute; reflexivity|]. split; [vm_compute; reflexivity|].
  split; vm_compute; reflexivity.
Qed.
(** Two Extracts are about to use the same trie. *)
Example C95_races_example :
  let q := snd (hacts ex_download [Start (CallExtract 0 ex_url); Work 1; Work 2] heap_started) in
  ex_steps (snd heap_started) q /\ accesses q = [None; Some (1%nat, false); Some (1%nat, false)].
Proof.
  cbv zeta. split; [exact (hacts_steps ex_download _ heap_started)|]. vm_compute. reflexivity.
Qed.

Print Assumptions C95_refines.
Print Assumptions C95_complete.
Print Assumptions C95_tree.
Print Assumptions C95_extract.
Print Assumptions C95_races.
