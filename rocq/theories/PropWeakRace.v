(** PropWeakRace.v - what calls that race leave behind on memory that orders nothing by itself: C103. *)

From Verif Require Import Base Trie Extract Psl ListSpec ListFacts World Update UpdateSpec Calls RaceSpec Heap HeapSpec FinishSpec
  Weak WeakSpec WeakProofs WeakAny WeakRace ExampleBase ExampleDisk PropCalls PropWeak.

(** C103: whichever calls run at the same time, New, Update, and each Extract in [T] do on memory
    that orders nothing by itself what they do when every access sees the previous one, if no
    Update of an extractor runs together with an Extract in [T] of the same extractor: for every
    two moments of such an execution there is one on ordered memory with the same running calls,
    events, and extractors, nodes and answers of New, Update and the Extracts in [T]. *)
Theorem C103_refines : forall T to_ascii hardcoded ext q1 q2,
  careful_steps to_ascii hardcoded ext T first_wpool q1 -> careful_steps to_ascii hardcoded ext T q1 q2 ->
  exists hq1 hq2, hpool_steps to_ascii hardcoded ext first_hpool hq1 /\ hpool_steps to_ascii hardcoded ext hq1 hq2
    /\ same_writes T q1 hq1 /\ same_writes T q2 hq2.
Proof. exact c103_refines. Qed.
(** With no Extracts in [T], this is any execution. *)
Theorem C103_writes : forall to_ascii hardcoded ext q1 q2,
  wpool_steps to_ascii hardcoded ext first_wpool q1 -> wpool_steps to_ascii hardcoded ext q1 q2 ->
  exists hq1 hq2, hpool_steps to_ascii hardcoded ext first_hpool hq1 /\ hpool_steps to_ascii hardcoded ext hq1 hq2
    /\ same_writes (fun _ => false) q1 hq1 /\ same_writes (fun _ => false) q2 hq2.
Proof. exact c103_writes. Qed.
(** At every moment of any execution, what was last written to an extractor that New has returned
    and to the nodes it points to is a complete list: one that is built in or that was read from a
    file. *)
Theorem C103_lists : forall to_ascii hardcoded ext q f, wpool_steps to_ascii hardcoded ext first_wpool q -> In f (wp_known q) ->
  exists text rules t, (text = hardcoded \/ exists path, was_read (wp_trace q) path text)
    /\ used_rules to_ascii text (w_private (wp_weak q) f) rules /\ build_trie rules = Ret t
    /\ holds (last_written (wp_weak q) (as_trie (latest (w_cell (wp_weak q) (TrieAt f))))) t.
Proof. exact c103_lists. Qed.
(** After any execution, an Extract with which no Update of its extractor runs together answers as
    [extract] does with the trie of a complete list. *)
Theorem C103_extract : forall to_ascii hardcoded ext w known ts n tr d f p q3 o v,
  wpool_steps to_ascii hardcoded ext first_wpool (mkWPool w known ts n tr d) -> In f known ->
  let q2 := mkWPool w known (ts ++ [mkWThread n (CallExtract f p) (heap_program to_ascii hardcoded ext (CallExtract f p)) d]) (S n) tr d in
  undisturbed (Nat.eqb n) (wp_threads q2) ->
  careful_steps to_ascii hardcoded ext (Nat.eqb n) q2 q3 -> In (mkWThread n (CallExtract f p) (HDone o) v) (wp_threads q3) ->
  exists text rules t r, (text = hardcoded \/ exists path, was_read (wp_trace q3) path text)
    /\ used_rules to_ascii text (w_private w f) rules /\ build_trie rules = Ret t
    /\ extract ext t p = Ret r /\ o = Ret (FromExtract r).
Proof. exact c103_extract. Qed.
(** In any execution, a call that has ended has an answer of its kind, and New gives a new
    extractor. *)
Theorem C103_answers : forall to_ascii hardcoded ext q n c o v, wpool_steps to_ascii hardcoded ext first_wpool q ->
  In (mkWThread n c (HDone o) v) (wp_threads q) -> exists a, o = Ret a /\ answer_for c a.
Proof. exact c103_answers. Qed.
Theorem C103_fresh : forall to_ascii hardcoded ext q n k f v, wpool_steps to_ascii hardcoded ext first_wpool q ->
  In (mkWThread n (CallNew k) (HDone (Ret (FromNew (f, None)))) v) (wp_threads q) -> ~ In f (wp_known q).
Proof. exact c103_fresh. Qed.

(** Two Updates of one extractor run at the same time, and an Extract together with them that
    finds a suffix of no list. *)
Local Notation com_steps := (wpool_steps ex_to_ascii com_list ex_idna).
Definition race_before : disk * wpool :=
  wacts com_list ex_download ([WStart (CallNew (mkListParams [] false))] ++ repeat (WWork 0 false) 60
    ++ [WReturn 0; WStart (CallUpdate 0); WStart (CallExtract 0 ex_url); WStart (CallUpdate 0)]
    ++ concat (repeat [WWork 0 false; WWork 2 true] 60) ++ [WWork 1 false] ++ repeat (WWork 1 true) 20 ++ [WReturn 0; WReturn 1])
    (ex_disk ex_files, first_wpool).
(** Then another Extract, with the oldest values that are allowed, while a New is running. *)
Definition race_started : disk * wpool := wacts com_list ex_download [WStart (CallExtract 0 ex_url)] race_before.
Definition race_acts : list wact := [WStart (CallNew (mkListParams [] true))] ++ concat (repeat [WWork 1 true; WWork 2 true] 20).
Definition race_after : disk * wpool := wacts com_list ex_download race_acts race_started.
Definition disturbs (T : nat -> bool) (t1 t2 : wthread) : bool :=
  T (wt_number t1) && match wt_call t1, wt_call t2 with CallExtract f _, CallUpdate g => Nat.eqb f g | _, _ => false end.
Definition undisturbedb (T : nat -> bool) (ts : list wthread) : bool := forallb (fun t1 => forallb (fun t2 => negb (disturbs T t1 t2)) ts) ts.
Lemma undisturbedb_spec : forall T ts, undisturbedb T ts = true -> undisturbed T ts.
Proof.
  intros T ts H t1 t2 f p I1 I2 Et E1 E2. unfold undisturbedb in H. rewrite forallb_forall in H. specialize (H t1 I1).
  rewrite forallb_forall in H. specialize (H t2 I2). unfold disturbs in H. rewrite Et, E1, E2, Nat.eqb_refl in H. discriminate H.
Qed.
Fixpoint careful_acts (T : nat -> bool) (net : bytes -> response) (l : list wact) (s : disk * wpool) : bool :=
  match l with
  | [] => true
  | a :: l => undisturbedb T (wp_threads (snd (wact_step com_list net a s))) && careful_acts T net l (wact_step com_list net a s)
  end.
Local Notation com_careful := (careful_steps ex_to_ascii com_list ex_idna).
Lemma careful_trans : forall T q1 q2 q3, com_careful T q1 q2 -> com_careful T q2 q3 -> com_careful T q1 q3.
Proof. intros T q1 q2 q3 H K. induction K as [q|q1' q2 q3 K IH S O]; [exact H|]. eapply careful_more; [apply IH; exact H|exact S|exact O]. Qed.
Lemma careful_acts_steps : forall T net l s, com_steps first_wpool (snd s) -> careful_acts T net l s = true -> com_careful T (snd s) (snd (wacts com_list net l s)).
Proof.
  intros T net. induction l as [|a l IH]; intros s H O; cbn [wacts careful_acts] in *; [apply careful_none|].
  apply andb_prop in O as (O1 & O2). apply undisturbedb_spec in O1. destruct (wact_cases com_list net a s H) as [E|S].
  - rewrite <- E at 1. apply IH; [rewrite E; exact H|exact O2].
  - eapply careful_trans; [eapply careful_more; [apply careful_none|exact S|exact O1]|]. apply IH; [eapply wsteps_more; eassumption|exact O2].
Qed.
Lemma race_before_steps : com_steps first_wpool (snd race_before).
Proof. apply (wacts_steps com_list ex_download _ (ex_disk ex_files, first_wpool)). apply wsteps_none. Qed.
Lemma race_started_steps : com_steps first_wpool (snd race_started).
Proof. eapply wsteps_trans; [exact race_before_steps|]. apply (wacts_steps com_list ex_download _ race_before). exact race_before_steps. Qed.
Lemma race_started_is : snd race_started
  = let q := snd race_before in mkWPool (wp_weak q) (wp_known q) (wp_threads q ++ [mkWThread (wp_count q) (CallExtract 0 ex_url)
      (heap_program ex_to_ascii com_list ex_idna (CallExtract 0 ex_url)) (wp_ended q)]) (S (wp_count q)) (wp_trace q) (wp_ended q).
Proof. apply (started_is com_list ex_download 0 ex_url race_before). vm_compute. reflexivity. Qed.
Example C103_example :
  let q1 := snd race_before in let q3 := snd race_after in
  com_steps first_wpool q1 /\ wp_known q1 = [0]%nat /\ wp_count q1 = 4%nat
  /\ weak_results q1 = [(2%nat, Some (Some []))]
  /\ undisturbed (Nat.eqb 4) (wp_threads (snd race_started)) /\ com_careful (Nat.eqb 4) (snd race_started) q3
  /\ weak_results q3 = [(2%nat, Some (Some [])); (4%nat, Some (Some (str "b.com"))); (5%nat, None)].
Proof.
  cbv zeta. split; [exact race_before_steps|]. split; [vm_compute; reflexivity|]. split; [vm_compute; reflexivity|].
  split; [vm_compute; reflexivity|]. split; [apply undisturbedb_spec; vm_compute; reflexivity|].
  split; [apply (careful_acts_steps _ ex_download _ race_started race_started_steps); vm_compute; reflexivity|]. vm_compute. reflexivity.
Qed.

Print Assumptions C103_refines.
Print Assumptions C103_writes.
Print Assumptions C103_lists.
Print Assumptions C103_extract.
Print Assumptions C103_answers.
Print Assumptions C103_fresh.
