(** PropWeak.v - memory that orders nothing by itself: C101, C102. *)

From Verif Require Import Base BaseFacts Chars Str Trie UrlSpec Extract Psl ListSpec ListFacts World Update UpdateSpec
  Calls CallProofs RaceSpec Heap HeapSpec HeapProofs Weak WeakSpec WeakProofs WeakAny ExampleBase ExampleDisk PropCalls.
From Coq Require Import Permutation.

(** C101: as long as no Update runs at the same time as another call on the same extractor, calls
    do on memory that orders nothing by itself what they do when every access sees the previous
    one: for every two moments of such an execution there is one on ordered memory with the same
    running calls, answers, events and extractors at both moments ... *)
Theorem C101_refines : forall to_ascii hardcoded ext q1 q2,
  orderly_steps to_ascii hardcoded ext first_wpool q1 -> orderly_steps to_ascii hardcoded ext q1 q2 ->
  exists hq1 hq2, orderly_hsteps to_ascii hardcoded ext first_hpool hq1 /\ orderly_hsteps to_ascii hardcoded ext hq1 hq2
    /\ same_state q1 hq1 /\ same_state q2 hq2.
Proof. exact c101_refines. Qed.
(** ... and the other way round. *)
Theorem C101_complete : forall to_ascii hardcoded ext hq1 hq2,
  orderly_hsteps to_ascii hardcoded ext first_hpool hq1 -> orderly_hsteps to_ascii hardcoded ext hq1 hq2 ->
  exists q1 q2, orderly_steps to_ascii hardcoded ext first_wpool q1 /\ orderly_steps to_ascii hardcoded ext q1 q2
    /\ same_state q1 hq1 /\ same_state q2 hq2.
Proof. exact c101_complete. Qed.
(** Whatever a call is about to look at, it sees as it was last written. *)
Theorem C101_latest : forall to_ascii hardcoded ext q ts1 i c R (o : heap_op R) k v ts2 l x v',
  orderly_steps to_ascii hardcoded ext first_wpool q -> wp_threads q = ts1 ++ mkWThread i c (HHeap o k) v :: ts2 ->
  reads o l -> weak_read (wp_weak q) v l x v' -> x = latest (w_cell (wp_weak q) l).
Proof. exact c101_latest. Qed.
(** Extract answers as [extract] does with the trie of a complete list: one that is built in or
    that was read from a file. *)
Theorem C101_extract : forall to_ascii hardcoded ext w known ts n tr d f p q3 o v,
  orderly_steps to_ascii hardcoded ext first_wpool (mkWPool w known ts n tr d) -> In f known ->
  let q2 := mkWPool w known (ts ++ [mkWThread n (CallExtract f p) (heap_program to_ascii hardcoded ext (CallExtract f p)) d]) (S n) tr d in
  orderly (map wt_call (wp_threads q2)) ->
  orderly_steps to_ascii hardcoded ext q2 q3 -> In (mkWThread n (CallExtract f p) (HDone o) v) (wp_threads q3) ->
  exists text rules t r, (text = hardcoded \/ exists path, was_read (wp_trace q3) path text)
    /\ used_rules to_ascii text (w_private w f) rules /\ build_trie rules = Ret t
    /\ extract ext t p = Ret r /\ o = Ret (FromExtract r).
Proof. exact c101_extract. Qed.

(** C102: in any execution, Extract returns ... *)
Theorem C102_returns : forall to_ascii hardcoded ext q i f p o v, wpool_steps to_ascii hardcoded ext first_wpool q ->
  In (mkWThread i (CallExtract f p) (HDone o) v) (wp_threads q) -> exists r, o = Ret (FromExtract r).
Proof. exact c102_returns. Qed.
(** ... and, if no part of the host decodes to "*", its answer is that with some trie. *)
Theorem C102_some_trie : forall to_ascii hardcoded ext q i f p o v, wpool_steps to_ascii hardcoded ext first_wpool q ->
  In (mkWThread i (CallExtract f p) (HDone o) v) (wp_threads q) ->
  (forall scheme user raw h port path, url_parts ext p scheme user raw h port path ->
   forall part, has_text h part -> ~ percent_decoded part (str "*")) ->
  exists t r, extract ext t p = Ret r /\ o = Ret (FromExtract r).
Proof. exact c102_any. Qed.

(** ** Schedules for the examples *)

(** [old]: reads give the oldest value that is allowed instead of the latest one. *)
Definition version (old : bool) (w : weak) (v : view) (l : location) : nat := if old then v l else c_last (w_cell w l).
Definition seen_value (old : bool) (w : weak) (v : view) (l : location) : value := c_value (w_cell w l) (version old w v l).
Definition seen_view (old : bool) (w : weak) (v : view) (l : location) : view := put_at v l (version old w v l).
Definition node_answer (old : bool) {R : Type} (a : nat) (o : region_op R) (w : weak) (v : view) : R * weak * view :=
  match o in region_op R return R * weak * view with
  | NewNode =>
      let i := w_count w a in
      let w1 := mkWeak (w_cell w) (upd (w_count w) a (S i)) (w_next w) (w_private w) (w_next_extractor w) in
      (i, weak_write w1 (NodeAt a i) (NodeValue (mkNode false [])), sees_write w v (NodeAt a i))
  | Get i key => (hget (n_matches (as_node (seen_value old w v (NodeAt a i)))) key, w, seen_view old w v (NodeAt a i))
  | Put i key j => let n := as_node (seen_value old w v (NodeAt a i)) in
      (tt, weak_write w (NodeAt a i) (NodeValue (mkNode (n_end n) (hput (n_matches n) key j))),
       sees_write w (seen_view old w v (NodeAt a i)) (NodeAt a i))
  | Scan i => (rev (n_matches (as_node (seen_value old w v (NodeAt a i)))), w, seen_view old w v (NodeAt a i))
  | Len i => (len (n_matches (as_node (seen_value old w v (NodeAt a i)))), w, seen_view old w v (NodeAt a i))
  | ReadEnd i => (n_end (as_node (seen_value old w v (NodeAt a i))), w, seen_view old w v (NodeAt a i))
  | SetEnd i => let n := as_node (seen_value old w v (NodeAt a i)) in
      (tt, weak_write w (NodeAt a i) (NodeValue (mkNode true (n_matches n))), sees_write w (seen_view old w v (NodeAt a i)) (NodeAt a i))
  end.
Definition weak_answer (old : bool) {R : Type} (o : heap_op R) (w : weak) (v : view) : R * weak * view :=
  match o in heap_op R return R * weak * view with
  | On a o => node_answer old a o w v
  | NewRoot =>
      let a := w_next w in
      let w1 := mkWeak (w_cell w) (upd (w_count w) a 1) (S a) (w_private w) (w_next_extractor w) in
      (a, weak_write w1 (NodeAt a 0) (NodeValue (mkNode false [])), sees_write w v (NodeAt a 0))
  | MakeExtractor y =>
      let f := w_next_extractor w in
      let w1 := mkWeak (w_cell w) (w_count w) (w_next w) (upd (w_private w) f (x_private y)) (S f) in
      (f, weak_write (weak_write w1 (PathAt f) (PathValue (x_path y))) (TrieAt f) (TrieValue (x_trie y)),
       sees_write w (sees_write w v (PathAt f)) (TrieAt f))
  | GetExtractor f =>
      let v1 := seen_view old w v (PathAt f) in
      (mkExtractor (as_path (seen_value old w v (PathAt f))) (as_trie (seen_value old w v1 (TrieAt f))) (w_private w f), w,
       seen_view old w v1 (TrieAt f))
  | PutPath f path => (tt, weak_write w (PathAt f) (PathValue path), sees_write w v (PathAt f))
  | PutTrie f a => (tt, weak_write w (TrieAt f) (TrieValue a), sees_write w v (TrieAt f))
  end.
Definition bounded_view (w : weak) (v : view) : Prop := forall l, v l <= c_last (w_cell w l).
Lemma seen_reads : forall old w v l, bounded_view w v -> weak_read w v l (seen_value old w v l) (seen_view old w v l).
Proof. intros old w v l B. exists (version old w v l). specialize (B l). unfold version. destruct old; auto. Qed.
Lemma seen_bounded : forall old w v l, bounded_view w v -> bounded_view w (seen_view old w v l).
Proof.
  intros old w v l B l'. unfold seen_view, put_at. destruct (location_eqb_spec l' l) as [->|]; [|apply B].
  specialize (B l). unfold version. destruct old; auto.
Qed.
Lemma weak_answers : forall old R (o : heap_op R) w v, bounded_view w v ->
  weak_step o w v (fst (fst (weak_answer old o w v))) (snd (fst (weak_answer old o w v))) (snd (weak_answer old o w v)).
Proof.
  intros old R o w v B. destruct o as [R a o| |y|f|f path|f a]; cbn [weak_answer weak_step fst snd]; auto.
  - destruct o; cbn [node_answer weak_on fst snd]; auto; eauto using seen_reads.
    + eexists. eexists. split; [apply seen_reads; exact B|]. split; reflexivity.
    + eexists. split; [apply seen_reads; exact B|]. split; [|reflexivity]. apply Permutation_sym. apply Permutation_rev.
    + eexists. eexists. split; [apply seen_reads; exact B|]. split; reflexivity.
  - eexists. eexists. eexists. split; [apply seen_reads; exact B|]. split; [apply seen_reads, seen_bounded; exact B|]. split; reflexivity.
Qed.

Inductive wact := WStart (c : call) | WWork (position : nat) (old : bool) | WReturn (position : nat).
Section Acts.
Variable built : bytes.
Definition wact_step (net : bytes -> response) (a : wact) (s : disk * wpool) : disk * wpool :=
  let '(dk, q) := s in
  let 'mkWPool w known ts n tr d := q in
  match a with
  | WStart c =>
    let ok := match c with CallNew _ => true | CallUpdate f | CallExtract f _ => existsb (Nat.eqb f) known end in
    if ok : bool then (dk, mkWPool w known (ts ++ [mkWThread n c (heap_program ex_to_ascii built ex_idna c) d]) (S n) tr d) else s
  | WWork k old =>
    match split_at k ts with
    | Some (ts1, mkWThread i c (HSys o c') v, ts2) =>
      let '(x, dk') := disk_answer net _ o dk in (dk', mkWPool w known (ts1 ++ mkWThread i c (c' x) v :: ts2) n (tr ++ [Event o x]) d)
    | Some (ts1, mkWThread i c (HHeap o c') v, ts2) =>
      let a := weak_answer old o w v in
      (dk, mkWPool (snd (fst a)) known (ts1 ++ mkWThread i c (c' (fst (fst a))) (snd a) :: ts2) n (tr ++ []) d)
    | _ => s
    end
  | WReturn k =>
    match split_at k ts with
    | Some (ts1, mkWThread i c (HDone r) v, ts2) => (dk, mkWPool w (returned r ++ known) (ts1 ++ ts2) n tr (join d v))
    | _ => s
    end
  end.
Fixpoint wacts (net : bytes -> response) (l : list wact) (s : disk * wpool) : disk * wpool :=
  match l with [] => s | a :: l => wacts net l (wact_step net a s) end.
Local Notation ex_steps := (wpool_steps ex_to_ascii built ex_idna).
Local Notation ex_orderly := (orderly_steps ex_to_ascii built ex_idna).
Lemma wact_cases : forall net a s, ex_steps first_wpool (snd s) ->
  snd (wact_step net a s) = snd s \/ wpool_step ex_to_ascii built ex_idna (snd s) (snd (wact_step net a s)).
Proof.
  intros net a [dk q] H. apply views_bounded in H. destruct H as (B & _). destruct q as [w known ts n tr d].
  cbn [snd wp_threads wp_weak] in B. destruct a as [c|k old|k]; cbn [wact_step snd].
  - destruct (match c with CallNew _ => true | CallUpdate f | CallExtract f _ => existsb (Nat.eqb f) known end) eqn:E;
      [|auto]. right. apply wstarts.
    destruct c as [l|f|f p]; cbn [may_call]; [exact I| |]; apply existsb_exists in E as (g & G & E);
      apply Nat.eqb_eq in E; subst g; exact G.
  - destruct (split_at k ts) as [[[ts1 [i c p v]] ts2]|] eqn:E; [|auto]. apply split_at_spec in E. subst ts.
    destruct p as [r|R o p|R o p]; [auto| |].
    + destruct (disk_answer net R o dk) as [x d']. cbn [snd]. right. apply wworks. cbn [weak_advance]. eauto.
    + cbn [snd]. right. apply wworks. cbn [weak_advance]. split; [reflexivity|]. eexists. split; [apply weak_answers|reflexivity].
      intros l. apply (B (mkWThread i c (HHeap o p) v)). apply in_app_iff. right. left. reflexivity.
  - destruct (split_at k ts) as [[[ts1 [i c p v]] ts2]|] eqn:E; [|auto]. apply split_at_spec in E. subst ts.
    destruct p as [r|R o p|R o p]; [|auto..]. cbn [snd]. right. apply wreturns.
Qed.
Lemma wsteps_trans : forall q1 q2 q3, ex_steps q1 q2 -> ex_steps q2 q3 -> ex_steps q1 q3.
Proof. intros q1 q2 q3 H K. induction K as [q|q1' q2 q3 K IH S]; [exact H|]. eapply wsteps_more; [apply IH; exact H|exact S]. Qed.
Lemma wacts_steps : forall net l s, ex_steps first_wpool (snd s) -> ex_steps (snd s) (snd (wacts net l s)).
Proof.
  intros net. induction l as [|a l IH]; intros s H; cbn [wacts]; [apply wsteps_none|].
  assert (X : ex_steps (snd s) (snd (wact_step net a s))).
  { destruct (wact_cases net a s H) as [-> |S]; [apply wsteps_none|]. eapply wsteps_more; [apply wsteps_none|exact S]. }
  eapply wsteps_trans; [exact X|]. apply IH. eapply wsteps_trans; eassumption.
Qed.
(** No two running calls are in each other's way after any of the acts. *)
Definition conflictb (c1 c2 : call) : bool :=
  match c1, c2 with
  | CallUpdate f, CallUpdate g | CallUpdate f, CallExtract g _ | CallExtract f _, CallUpdate g => Nat.eqb f g
  | _, _ => false
  end.
Fixpoint orderlyb (l : list call) : bool :=
  match l with [] => true | c :: l => forallb (fun c' => negb (conflictb c c')) l && orderlyb l end.
Lemma orderlyb_orderly : forall l, orderlyb l = true -> orderly l.
Proof.
  induction l as [|c l IH]; intros H; cbn [orderlyb] in H; constructor; apply andb_prop in H as (H1 & H2); [|apply IH; exact H2].
  apply Forall_forall. intros c' I1 (f & C1 & C2 & U). rewrite forallb_forall in H1. specialize (H1 c' I1).
  destruct C1 as [-> |(p1 & ->)], C2 as [-> |(p2 & ->)]; cbn [conflictb] in H1; rewrite ?Nat.eqb_refl in H1; try discriminate H1.
  destruct U as [U|U]; discriminate U.
Qed.
Fixpoint orderly_acts (net : bytes -> response) (l : list wact) (s : disk * wpool) : bool :=
  match l with
  | [] => true
  | a :: l => orderlyb (map wt_call (wp_threads (snd (wact_step net a s)))) && orderly_acts net l (wact_step net a s)
  end.
Lemma orderly_trans : forall q1 q2 q3, ex_orderly q1 q2 -> ex_orderly q2 q3 -> ex_orderly q1 q3.
Proof. intros q1 q2 q3 H K. induction K as [q|q1' q2 q3 K IH S O]; [exact H|]. eapply orderly_more; [apply IH; exact H|exact S|exact O]. Qed.
Lemma orderly_acts_steps : forall net l s, ex_steps first_wpool (snd s) -> orderly_acts net l s = true -> ex_orderly (snd s) (snd (wacts net l s)).
Proof.
  intros net. induction l as [|a l IH]; intros s H O; cbn [wacts orderly_acts] in *; [apply orderly_none|].
  apply andb_prop in O as (O1 & O2). apply orderlyb_orderly in O1. destruct (wact_cases net a s H) as [E|S].
  - rewrite <- E at 1. apply IH; [rewrite E; exact H|exact O2].
  - eapply orderly_trans; [eapply orderly_more; [apply orderly_none|exact S|exact O1]|]. apply IH; [eapply wsteps_more; eassumption|exact O2].
Qed.
End Acts.

Local Notation ex_steps := (wpool_steps ex_to_ascii ex_built_in ex_idna).
Local Notation ex_orderly := (orderly_steps ex_to_ascii ex_built_in ex_idna).
Definition weak_results (q : wpool) : list (nat * option (option bytes)) :=
  map (fun th => (wt_number th, match wt_rest th with HDone (Ret (FromUpdate None)) => Some None | HDone o => Some (suffix_of o) | _ => None end)) (wp_threads q).
(** New reads a cached list with the rule "com"; an Update, which downloads a list with the rule
    "b.com" as well, runs while another extractor is made, and ends. *)
Definition calm_before : disk * wpool :=
  wacts ex_built_in ex_download ([WStart (CallNew (mkListParams [] false))] ++ repeat (WWork 0 true) 60 ++ [WReturn 0; WStart (CallUpdate 0)]
    ++ repeat (WWork 0 true) 20 ++ [WStart (CallNew (mkListParams [] false))] ++ repeat (WWork 1 true) 20 ++ repeat (WWork 0 true) 40
    ++ [WReturn 0] ++ repeat (WWork 0 true) 50 ++ [WReturn 0]) (ex_disk ex_files, first_wpool).
(** Then two Extracts on the first run, with the oldest values that are allowed, while the second
    is updated. *)
Definition calm_started : disk * wpool := wacts ex_built_in ex_download [WStart (CallExtract 0 ex_url)] calm_before.
Definition calm_acts : list wact :=
  [WStart (CallUpdate 1); WStart (CallExtract 0 ex_url)] ++ repeat (WWork 1 true) 30 ++ repeat (WWork 0 true) 20 ++ repeat (WWork 2 true) 20.
Definition calm_after : disk * wpool := wacts ex_built_in ex_download calm_acts calm_started.
Lemma calm_before_steps : ex_orderly first_wpool (snd calm_before).
Proof. apply (orderly_acts_steps ex_built_in ex_download _ (ex_disk ex_files, first_wpool)); [apply wsteps_none|vm_compute; reflexivity]. Qed.
Lemma orderly_are_steps : forall q1 q2, ex_orderly q1 q2 -> ex_steps q1 q2.
Proof. intros q1 q2 H. induction H as [q|q1 q2 q3 H IH S O]; [apply wsteps_none|]. eapply wsteps_more; eassumption. Qed.
Lemma calm_started_steps : ex_steps first_wpool (snd calm_started).
Proof.
  eapply wsteps_trans; [apply orderly_are_steps; exact calm_before_steps|].
  apply (wacts_steps ex_built_in ex_download _ calm_before). apply orderly_are_steps. exact calm_before_steps.
Qed.
Lemma calm_after_steps : ex_orderly (snd calm_started) (snd calm_after).
Proof. apply (orderly_acts_steps ex_built_in ex_download _ calm_started); [exact calm_started_steps|vm_compute; reflexivity]. Qed.
Example C101_example :
  let q1 := snd calm_before in let q2 := snd calm_started in let q3 := snd calm_after in
  ex_orderly first_wpool q1 /\ wp_known q1 = [1; 0]%nat /\ wp_count q1 = 3%nat
  /\ map wt_call (wp_threads q2) = [CallExtract 0 ex_url] /\ ex_orderly q2 q3
  /\ map wt_call (wp_threads q3) = [CallExtract 0 ex_url; CallUpdate 1; CallExtract 0 ex_url]
  /\ weak_results q3 = [(3%nat, Some (Some (str "b.com"))); (4%nat, Some None); (5%nat, Some (Some (str "b.com")))].
Proof.
  cbv zeta. split; [exact calm_before_steps|]. split; [vm_compute; reflexivity|]. split; [vm_compute; reflexivity|].
  split; [vm_compute; reflexivity|]. split; [exact calm_after_steps|]. split; vm_compute; reflexivity.
Qed.
(** The condition of [C101_extract] is needed: an Extract that runs while the extractor is updated
    may find the root of the new trie but not what was written to it, and answer as with no list
    that there is ("a.b.com" without a suffix, though "com" is in the old list and the new). *)
Definition com_list : bytes := ex_list (str "com") [].
Local Notation com_steps := (wpool_steps ex_to_ascii com_list ex_idna).
Definition torn_before : disk * wpool :=
  wacts com_list ex_download ([WStart (CallNew (mkListParams [] false))] ++ repeat (WWork 0 false) 60 ++ [WReturn 0; WStart (CallUpdate 0)])
    (ex_disk ex_files, first_wpool).
Definition torn_started : disk * wpool := wacts com_list ex_download [WStart (CallExtract 0 ex_url)] torn_before.
Definition torn_after : disk * wpool :=
  wacts com_list ex_download (repeat (WWork 0 false) 60 ++ [WWork 1 false] ++ repeat (WWork 1 true) 20) torn_started.
Lemma torn_before_steps : com_steps first_wpool (snd torn_before).
Proof. apply (wacts_steps com_list ex_download _ (ex_disk ex_files, first_wpool)). apply wsteps_none. Qed.
Lemma torn_started_steps : com_steps first_wpool (snd torn_started).
Proof. eapply wsteps_trans; [exact torn_before_steps|]. apply (wacts_steps com_list ex_download _ torn_before). exact torn_before_steps. Qed.
Lemma torn_after_steps : com_steps (snd torn_started) (snd torn_after).
Proof. apply (wacts_steps com_list ex_download _ torn_started). exact torn_started_steps. Qed.
Definition suffix_with (text : bytes) : option bytes :=
  match build_trie (s_public (parse_list ex_to_ascii text)) with
  | Ret t => match extract ex_idna t ex_url with Ret r => suffix_of (Ret (FromExtract r)) | _ => None end
  | _ => None
  end.
Definition no_empty_suffix (text : bytes) : bool := match suffix_with text with Some [] => false | _ => true end.
Lemma lists_all : forall tr text, text = com_list \/ (exists path, was_read tr path text) ->
  forallb no_empty_suffix (com_list :: map (fun e => match read_of e with Some (_, text) => text | None => com_list end) tr) = true ->
  suffix_with text <> Some [].
Proof.
  intros tr text H X E. rewrite forallb_forall in X. assert (Y : no_empty_suffix text = true).
  { apply X. destruct H as [->|(path & e & I & R)]; [left; reflexivity|]. right. apply in_map_iff. exists e. rewrite R. auto. }
  unfold no_empty_suffix in Y. rewrite E in Y. discriminate Y.
Qed.
Lemma torn_lists : forall text, text = com_list \/ (exists path, was_read (wp_trace (snd torn_after)) path text) -> suffix_with text <> Some [].
Proof. intros text H. apply (lists_all _ _ H). vm_compute. reflexivity. Qed.
Lemma wpool_eta : forall q, mkWPool (wp_weak q) (wp_known q) (wp_threads q) (wp_count q) (wp_trace q) (wp_ended q) = q.
Proof. intros [w known ts n tr d]. reflexivity. Qed.
Lemma started_is : forall built net f p s, existsb (Nat.eqb f) (wp_known (snd s)) = true ->
  snd (wact_step built net (WStart (CallExtract f p)) s)
  = let q := snd s in mkWPool (wp_weak q) (wp_known q) (wp_threads q ++ [mkWThread (wp_count q) (CallExtract f p)
      (heap_program ex_to_ascii built ex_idna (CallExtract f p)) (wp_ended q)]) (S (wp_count q)) (wp_trace q) (wp_ended q).
Proof. intros built net f p [dk [w known ts n tr d]] H. cbn [snd wp_known] in H. cbn [wact_step]. rewrite H. reflexivity. Qed.
Lemma torn_started_is : snd torn_started
  = let q := snd torn_before in mkWPool (wp_weak q) (wp_known q) (wp_threads q ++ [mkWThread (wp_count q) (CallExtract 0 ex_url)
      (heap_program ex_to_ascii com_list ex_idna (CallExtract 0 ex_url)) (wp_ended q)]) (S (wp_count q)) (wp_trace q) (wp_ended q).
Proof. apply (started_is com_list ex_download 0 ex_url torn_before). vm_compute. reflexivity. Qed.
Lemma thread_in : forall th l, In th l -> In (mkWThread (wt_number th) (wt_call th) (wt_rest th) (wt_view th)) l.
Proof. intros [i c p v] l H. exact H. Qed.
Definition torn_thread : wthread := nth 1 (wp_threads (snd torn_after)) (mkWThread 0 (CallUpdate 0) (HDone Panic) (fun _ => 0%nat)).
Definition torn_answer : outcome answer := match wt_rest torn_thread with HDone o => o | _ => Panic end.
Theorem C101_overlap_refuted : exists to_ascii hardcoded ext w known ts n tr d f p q3 o v,
  wpool_steps to_ascii hardcoded ext first_wpool (mkWPool w known ts n tr d) /\ In f known
  /\ wpool_steps to_ascii hardcoded ext (mkWPool w known (ts ++ [mkWThread n (CallExtract f p) (heap_program to_ascii hardcoded ext (CallExtract f p)) d]) (S n) tr d) q3
  /\ In (mkWThread n (CallExtract f p) (HDone o) v) (wp_threads q3)
  /\ ~ exists text rules t r, (text = hardcoded \/ exists path, was_read (wp_trace q3) path text)
    /\ used_rules to_ascii text (w_private w f) rules /\ build_trie rules = Ret t
    /\ extract ext t p = Ret r /\ o = Ret (FromExtract r).
Proof.
  exists ex_to_ascii, com_list, ex_idna, (wp_weak (snd torn_before)), (wp_known (snd torn_before)), (wp_threads (snd torn_before)),
    (wp_count (snd torn_before)), (wp_trace (snd torn_before)), (wp_ended (snd torn_before)), 0%nat, ex_url, (snd torn_after).
  exists torn_answer, (wt_view torn_thread). rewrite wpool_eta.
  split; [exact torn_before_steps|]. split; [assert (K : wp_known (snd torn_before) = [0%nat]) by (vm_compute; reflexivity); rewrite K; left; reflexivity|]. split; [pose proof torn_after_steps as K; rewrite torn_started_is in K; cbv zeta in K; exact K|]. split.
  - assert (T1 : wp_count (snd torn_before) = wt_number torn_thread) by (vm_compute; reflexivity).
    assert (T2 : CallExtract 0 ex_url = wt_call torn_thread) by (vm_compute; reflexivity).
    assert (T3 : HDone torn_answer = wt_rest torn_thread) by (vm_compute; reflexivity).
    rewrite T1, T2, T3. clear T1 T2 T3.
    apply thread_in. apply nth_In. assert (L : length (wp_threads (snd torn_after)) = 2%nat) by (vm_compute; reflexivity). rewrite L. repeat constructor.
  - intros (text & rules & t & r & S & U & B & E & O). apply used_rules_iff in U.
    assert (P : w_private (wp_weak (snd torn_before)) 0%nat = false) by (vm_compute; reflexivity). rewrite P in U.
    apply (torn_lists text S). unfold suffix_with. rewrite U, B, E, <- O. vm_compute. reflexivity.
Qed.

(** ** C102 *)

Lemma decodes_itself : forall s d, percent_decoded s d -> ~ In 37%N s -> ~ In 43%N s -> d = s.
Proof.
  intros s d H. induction H as [|a b s t _ _ _ _|s t _ _|b s t _ _ _ IH]; intros P Q; [reflexivity| | |].
  - destruct P. left. reflexivity.
  - destruct Q. left. reflexivity.
  - f_equal. apply IH; intros I; [apply P|apply Q]; right; exact I.
Qed.
Lemma no_star_in : forall ext p u h, Calls.extract_front ext p = Ret (inr (u, h)) ->
  forallb (fun b => negb (b =? 37)%N && negb (b =? 43)%N && negb (b =? 42)%N) h = true ->
  forall scheme user raw h port path, url_parts ext p scheme user raw h port path -> forall part, has_text h part -> ~ percent_decoded part (str "*").
Proof.
  intros ext p u h F B scheme user raw h' port path U part (b & a & E) D.
  rewrite <- (CostProofs.front_host _ _ _ _ _ _ _ _ _ _ U F) in E. subst h. rewrite forallb_forall in B.
  assert (N : forall x, In x part -> x <> 37%N /\ x <> 43%N /\ x <> 42%N).
  { intros x I. specialize (B x). rewrite !in_app_iff in B. specialize (B (or_intror (or_introl I))).
    apply andb_prop in B as (B & B3). apply andb_prop in B as (B1 & B2).
    split; [|split]; intros ->; discriminate. }
  assert (E : str "*" = part).
  { apply (decodes_itself _ _ D); intros I; destruct (N _ I) as (N1 & N2 & N3); [apply N1|apply N2]; reflexivity. }
  destruct (N 42%N) as (_ & _ & N3); [rewrite <- E; left; reflexivity|]. apply N3. reflexivity.
Qed.
(** The answer above is the one without any rules. *)
Example C102_example :
  let q := snd torn_after in
  com_steps first_wpool q /\ In torn_thread (wp_threads q) /\ wt_call torn_thread = CallExtract 0 ex_url
  /\ wt_rest torn_thread = HDone torn_answer
  /\ (forall scheme user raw h port path, url_parts ex_idna ex_url scheme user raw h port path ->
       forall part, has_text h part -> ~ percent_decoded part (str "*"))
  /\ exists r, extract ex_idna (Node false []) ex_url = Ret r /\ torn_answer = Ret (FromExtract r).
Proof.
  cbv zeta. split; [eapply wsteps_trans; [exact torn_started_steps|exact torn_after_steps]|].
  assert (L : length (wp_threads (snd torn_after)) = 2%nat) by (vm_compute; reflexivity).
  split; [apply nth_In; rewrite L; repeat constructor|]. split; [vm_compute; reflexivity|]. split; [vm_compute; reflexivity|].
  split; [eapply no_star_in; [vm_compute; reflexivity|vm_compute; reflexivity]|].
  eexists. split; vm_compute; reflexivity.
Qed.

(** That no part of the host may be "*" is needed: an Extract may miss the rule "*" when it looks
    for it and find it when it looks for the label, and return it as a suffix, which with the label
    "*" no trie gives. *)
Definition star_url := ex_params "a.*".
Definition star_download (url : bytes) : response := Response 200 (ex_list (str "*") []) true.
Definition star_after : disk * wpool :=
  wacts ex_built_in star_download ([WStart (CallNew (mkListParams [] false))] ++ repeat (WWork 0 false) 60
    ++ [WReturn 0; WStart (CallUpdate 0); WStart (CallExtract 0 star_url)]
    ++ repeat (WWork 0 false) 60 ++ [WWork 1 false; WWork 1 true] ++ repeat (WWork 1 false) 20) (ex_disk ex_files, first_wpool).
Lemma star_loop : forall t n, exists w, suffix_loop (S n) (str "a.*") t false false 3 3 3 = Ret (inr w) /\ w_has_suffix w = false.
Proof.
  intros t n. cbn [suffix_loop].
  assert (E1 : slice (str "a.*") 0 3 = Ret (str "a.*")) by (vm_compute; reflexivity). rewrite E1. cbn [bind].
  assert (E2 : last_index_any (str "a.*") label_separators_rune_set = 1%Z) by (vm_compute; reflexivity). rewrite E2.
  match goal with |- context [bind ?m] => assert (E3 : m = Ret (str "*", false)) by (vm_compute; reflexivity) end. rewrite E3. cbn [bind].
  assert (E4 : query_unescape (str "*") = inr (str "*")) by (vm_compute; reflexivity). rewrite E4.
  change (negb (1 =? -1)%Z && (len (str "*") =? 0)%Z) with false. cbv iota zeta.
  destruct (child t (str "*")); eexists; split; reflexivity.
Qed.
Lemma star_suffix : forall t r e, extract ex_idna t star_url = Ret (r, e) -> r_suffix r = [].
Proof.
  intros t r e H. rewrite CallFacts.extract_split in H.
  assert (F : exists u, Calls.extract_front ex_idna star_url = Ret (inr (u, str "a.*")) /\ r_suffix u = [])
    by (eexists; split; vm_compute; reflexivity).
  destruct F as (u & F & Su). rewrite F in H. cbn [bind] in H. unfold extract_host in H.
  destruct (star_loop t (length (str "a.*"))) as (w & L & Hs). change (len (str "a.*")) with 3%Z in H. rewrite L in H. cbn [bind] in H.
  assert (V : ipv4_host (str "a.*") = Ret false) by (vm_compute; reflexivity). rewrite V in H. cbn [bind] in H.
  unfold host_components in H. destruct (if w_sep_idx w =? -1 then _ else _)%Z as [si ss]. rewrite Hs in H.
  destruct (slice _ 0 (w_previous_sep w)) as [ch| |]; cbn [bind] in H; try discriminate H.
  destruct (has_invalid_chars ch). { injection H as <- _. exact Su. }
  destruct (slice _ 0 (w_suffix_end w)) as [hd| |]; cbn [bind] in H; try discriminate H. cbv zeta in H.
  match type of H with bind (bind ?m _) _ = _ => destruct m as [st| |] end; cbn [bind] in H; try discriminate H.
  destruct (slice _ st (w_suffix_end w)) as [dm| |]; cbn [bind] in H; try discriminate H.
  match type of H with bind ?m _ = _ => destruct m as [u2| |] eqn:E2 end; cbn [bind] in H; try discriminate H.
  assert (S2 : r_suffix u2 = []).
  { destruct (_ && _) in E2; [|injection E2 as <-; exact Su]. destruct (slice _ 0 _) as [sb| |] in E2; cbn [bind] in E2; try discriminate E2.
    injection E2 as <-. exact Su. }
  destruct (_ =? 0)%Z in H; injection H as <- _; exact S2.
Qed.
Theorem C102_star_refuted : exists to_ascii hardcoded ext q i f p o v, wpool_steps to_ascii hardcoded ext first_wpool q
  /\ In (mkWThread i (CallExtract f p) (HDone o) v) (wp_threads q)
  /\ ~ exists t r, extract ext t p = Ret r /\ o = Ret (FromExtract r).
Proof.
  pose (th := nth 1 (wp_threads (snd star_after)) (mkWThread 0 (CallUpdate 0) (HDone Panic) (fun _ => 0%nat))).
  pose (o := match wt_rest th with HDone o => o | _ => Panic end).
  exists ex_to_ascii, ex_built_in, ex_idna, (snd star_after), (wt_number th), 0%nat, star_url, o, (wt_view th).
  split; [apply (wacts_steps ex_built_in star_download _ (ex_disk ex_files, first_wpool)); apply wsteps_none|]. split.
  - assert (T2 : CallExtract 0 star_url = wt_call th) by (vm_compute; reflexivity).
    assert (T3 : HDone o = wt_rest th) by (vm_compute; reflexivity).
    rewrite T2, T3. clear T2 T3. apply thread_in. apply nth_In.
    assert (L : length (wp_threads (snd star_after)) = 2%nat) by (vm_compute; reflexivity). rewrite L. repeat constructor.
  - intros (t & [r e] & E & O). apply star_suffix in E.
    assert (S : suffix_of o = Some (str "*")) by (vm_compute; reflexivity). rewrite O in S. destruct e; unfold suffix_of in S; [discriminate S|].
    rewrite E in S. discriminate S.
Qed.

Print Assumptions C101_refines.
Print Assumptions C101_complete.
Print Assumptions C101_latest.
Print Assumptions C101_extract.
Print Assumptions C101_overlap_refuted.
Print Assumptions C102_returns.
Print Assumptions C102_some_trie.
Print Assumptions C102_star_refuted.
