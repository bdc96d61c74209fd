(** PropCalls.v - calls of New, Update and Extract running at the same time: C43.

    [pool_steps first_pool q]: a program that uses the package may get to [q], a pool of calls
    of New, Update and Extract running at the same time on one memory; the environment answers
    as it likes. *)

From Verif Require Import Base BaseFacts Chars Str Trie Extract Psl ListSpec ListFacts World Update UpdateSpec WorldFacts
  Calls CallFacts CallProofs ExampleBase ExampleDisk.
Local Open Scope N_scope.

(** C43: Extract changes nothing and does nothing but look at the memory. *)
Theorem C43_read_only : forall E (step : forall R : Type, sys R -> E -> R -> E -> Prop) ext f p e m tr e' m' r,
  runs step (extract_prog ext f p) e m tr e' m' r ->
  tr = [] /\ e' = e /\ m' = m /\ r = extract ext (trie_in m f) p.
Proof. exact c43_read_only. Qed.

(** An Extract among other calls behaves as with the list installed at one moment between its
    start and its end.  This is the complete list of a text that is built in or was read from a
    file before that moment, with or without the private rules as the extractor says. *)
Theorem C43_isolated : forall to_ascii hardcoded ext m known ts n tr f p q3 o,
  pool_steps to_ascii hardcoded ext first_pool (mkPool m known ts n tr) -> In f known ->
  let q2 := mkPool m known (ts ++ [mkThread n (CallExtract f p) (program to_ascii hardcoded ext (CallExtract f p))]) (S n) tr in
  pool_steps to_ascii hardcoded ext q2 q3 -> In (mkThread n (CallExtract f p) (Done o)) (p_threads q3) ->
  exists q text r, pool_steps to_ascii hardcoded ext q2 q /\ pool_steps to_ascii hardcoded ext q q3
    /\ (text = hardcoded \/ exists path, was_read (p_trace q) path text)
    /\ serves to_ascii (p_memory q) f (x_private (m_extractor (p_memory q) f)) text
    /\ extract ext (trie_in (p_memory q) f) p = Ret r /\ o = Ret (FromExtract r).
Proof. exact c43_isolated. Qed.

(** Whatever runs, an extractor that New has returned never has a half-built list: it has all
    rules of a text that is built in or has been read from a file. *)
Theorem C43_installed : forall to_ascii hardcoded ext q f,
  pool_steps to_ascii hardcoded ext first_pool q -> In f (p_known q) ->
  exists text, (text = hardcoded \/ exists path, was_read (p_trace q) path text)
    /\ serves to_ascii (p_memory q) f (x_private (m_extractor (p_memory q) f)) text.
Proof. exact c43_serves. Qed.

(** C52: while no Update of extractor [f] is running, nothing that runs changes [f] or its
    list, and an Extract on [f] behaves as with the list [f] had when it started. *)
Theorem C52_unchanged : forall to_ascii hardcoded ext q q' f,
  pool_steps to_ascii hardcoded ext first_pool q -> In f (p_known q) -> quiet_steps to_ascii hardcoded ext f q q' ->
  m_extractor (p_memory q') f = m_extractor (p_memory q) f /\ trie_in (p_memory q') f = trie_in (p_memory q) f.
Proof. exact c52_quiet. Qed.
Theorem C52_extract : forall to_ascii hardcoded ext m known ts n tr f p q3 o,
  pool_steps to_ascii hardcoded ext first_pool (mkPool m known ts n tr) -> In f known ->
  let q2 := mkPool m known (ts ++ [mkThread n (CallExtract f p) (program to_ascii hardcoded ext (CallExtract f p))]) (S n) tr in
  quiet_steps to_ascii hardcoded ext f q2 q3 -> In (mkThread n (CallExtract f p) (Done o)) (p_threads q3) ->
  exists r, extract ext (trie_in m f) p = Ret r /\ o = Ret (FromExtract r).
Proof. exact c52_extract. Qed.

(** ** Schedules for the examples *)

Inductive act := Start (c : call) | Work (position : nat) | Return (position : nat).
Fixpoint split_at {A} (n : nat) (l : list A) : option (list A * A * list A) :=
  match n, l with
  | _, [] => None
  | O, x :: l => Some ([], x, l)
  | S n, x :: l => match split_at n l with Some (l1, y, l2) => Some (x :: l1, y, l2) | None => None end
  end.
Definition act_step (net : bytes -> response) (a : act) (s : disk * pool) : disk * pool :=
  let '(d, q) := s in
  let 'mkPool m known ts n tr := q in
  match a with
  | Start c =>
    let ok := match c with CallNew _ => true | CallUpdate f | CallExtract f _ => existsb (Nat.eqb f) known end in
    if ok : bool then (d, mkPool m known (ts ++ [mkThread n c (program ex_to_ascii ex_built_in ex_idna c)]) (S n) tr) else s
  | Work k =>
    match split_at k ts with
    | Some (ts1, mkThread i c (Sys o c'), ts2) =>
      let '(x, d') := disk_answer net _ o d in (d', mkPool m known (ts1 ++ mkThread i c (c' x) :: ts2) n (tr ++ [Event o x]))
    | Some (ts1, mkThread i c (Mem o c'), ts2) =>
      (d, mkPool (snd (mem_step o m)) known (ts1 ++ mkThread i c (c' (fst (mem_step o m))) :: ts2) n (tr ++ []))
    | _ => s
    end
  | Return k =>
    match split_at k ts with
    | Some (ts1, mkThread i c (Done r), ts2) => (d, mkPool m (returned r ++ known) (ts1 ++ ts2) n tr)
    | _ => s
    end
  end.
Fixpoint acts (net : bytes -> response) (l : list act) (s : disk * pool) : disk * pool :=
  match l with [] => s | a :: l => acts net l (act_step net a s) end.

Lemma split_at_spec : forall A n (l : list A) l1 x l2, split_at n l = Some (l1, x, l2) -> l = l1 ++ x :: l2.
Proof.
  intros A. induction n as [|n IH]; intros [|y l] l1 x l2 H; cbn [split_at] in H; try discriminate.
  - injection H as <- <- <-. reflexivity.
  - destruct (split_at n l) as [[[a b] c]|] eqn:E; [|discriminate]. injection H as <- <- <-. cbn [app]. f_equal. apply IH. exact E.
Qed.
Lemma act_cases : forall net a s, snd (act_step net a s) = snd s
  \/ pool_step ex_to_ascii ex_built_in ex_idna (snd s) (snd (act_step net a s)).
Proof.
  intros net a [d [m known ts n tr]]. destruct a as [c|k|k]; cbn [act_step snd].
  - destruct (match c with CallNew _ => true | CallUpdate f | CallExtract f _ => existsb (Nat.eqb f) known end) eqn:E;
      [|auto]. right. apply starts.
    destruct c as [l|f|f p]; cbn [may_call]; [exact I| |]; apply existsb_exists in E as (g & G & E);
      apply Nat.eqb_eq in E; subst g; exact G.
  - destruct (split_at k ts) as [[[ts1 [i c p]] ts2]|] eqn:E; [|auto]. apply split_at_spec in E. subst ts.
    destruct p as [r|R o p|R o p]; [auto| |].
    + destruct (disk_answer net R o d) as [x d']. cbn [snd]. right. apply works. cbn [advance]. eauto.
    + cbn [snd]. right. apply works. cbn [advance]. auto.
  - destruct (split_at k ts) as [[[ts1 [i c p]] ts2]|] eqn:E; [|auto]. apply split_at_spec in E. subst ts.
    destruct p as [r|R o p|R o p]; [|auto..]. cbn [snd]. right. apply returns.
Qed.
Lemma act_steps : forall net a s, pool_steps ex_to_ascii ex_built_in ex_idna (snd s) (snd (act_step net a s)).
Proof.
  intros net a s. destruct (act_cases net a s) as [-> | H]; [apply steps_none|]. eapply steps_more; [apply steps_none|exact H].
Qed.
Lemma acts_steps : forall net l s, pool_steps ex_to_ascii ex_built_in ex_idna (snd s) (snd (acts net l s)).
Proof.
  intros net. induction l as [|a l IH]; intros s; cbn [acts]; [apply steps_none|].
  eapply steps_trans; [apply act_steps|apply IH].
Qed.
(** No Update of [f] is running before any of the acts. *)
Fixpoint quiet_acts (net : bytes -> response) (f : nat) (l : list act) (s : disk * pool) : bool :=
  match l with
  | [] => true
  | a :: l =>
    forallb (fun th => match t_call th with CallUpdate g => negb (Nat.eqb g f) | _ => true end) (p_threads (snd s))
    && quiet_acts net f l (act_step net a s)
  end.
Lemma quiet_trans : forall f q1 q2 q3, quiet_steps ex_to_ascii ex_built_in ex_idna f q1 q2 ->
  quiet_steps ex_to_ascii ex_built_in ex_idna f q2 q3 -> quiet_steps ex_to_ascii ex_built_in ex_idna f q1 q3.
Proof.
  intros f q1 q2 q3 H K. induction K as [|q2 q3 q4 K IH L U]; [exact H|]. eapply quiet_more; [apply IH; exact H|exact L|exact U].
Qed.
Lemma quiet_acts_steps : forall net f l s, quiet_acts net f l s = true ->
  quiet_steps ex_to_ascii ex_built_in ex_idna f (snd s) (snd (acts net l s)).
Proof.
  intros net f. induction l as [|a l IH]; intros s H; cbn [acts quiet_acts] in *; [apply quiet_none|].
  apply andb_prop in H as (H & K). eapply quiet_trans; [|apply IH; exact K].
  destruct (act_cases net a s) as [-> | S]; [apply quiet_none|]. eapply quiet_more; [apply quiet_none|exact S|].
  intros th Hi E. rewrite forallb_forall in H. specialize (H th Hi). rewrite E, Nat.eqb_refl in H. discriminate.
Qed.

(** New reads a cached list with the rule "com"; then Update, which downloads a list with the
    rule "b.com" as well, and two Extracts run at the same time. *)
Definition ex_files : list (bytes * entry) :=
  [(str "/tmp/", Directory 0 true);
   (str "/tmp/public_suffix_list.dat", Regular (ex_list (str "com") []) 999999999999999999%Z true true)].
Definition ex_download (url : bytes) : response := Response 200 (ex_list (str "com" ++ nl ++ str "b.com") []) true.
Definition ex_url := ex_params "a.b.com".
Definition before_calls : disk * pool :=
  acts ex_download ([Start (CallNew (mkListParams [] false))] ++ repeat (Work 0) 40 ++ [Return 0; Start (CallUpdate 0)])
       (ex_disk ex_files, first_pool).
(** The first Extract reads the extractor before Update changes it, the second after. *)
Definition during_calls (q : disk * pool) : disk * pool :=
  acts ex_download ([Start (CallExtract 0 ex_url); Work 2] ++ repeat (Work 0) 40 ++ repeat (Work 2) 10 ++ repeat (Work 1) 10) q.
Definition suffix_of (o : outcome answer) : option bytes :=
  match o with Ret (FromExtract (r, None)) => Some (r_suffix r) | _ => None end.
Definition results (q : pool) : list (nat * option (option bytes)) :=
  map (fun th => (t_number th, match t_rest th with Done (Ret (FromUpdate None)) => Some None | Done o => Some (suffix_of o) | _ => None end)) (p_threads q).

Example C43_example :
  let q1 := snd before_calls in let q2 := snd (acts ex_download [Start (CallExtract 0 ex_url)] before_calls) in
  let q3 := snd (during_calls (acts ex_download [Start (CallExtract 0 ex_url)] before_calls)) in
  p_known q1 = [0%nat] /\ trie_in (p_memory q1) 0 = trie_of [str "com"]
  /\ trie_in (p_memory q3) 0 = trie_of [str "com"; str "b.com"]
  /\ pool_steps ex_to_ascii ex_built_in ex_idna first_pool q1 /\ pool_steps ex_to_ascii ex_built_in ex_idna q2 q3
  /\ results q3 = [(1%nat, Some None); (2%nat, Some (Some (str "b.com"))); (3%nat, Some (Some (str "com")))].
Proof.
  cbv zeta. split; [vm_compute; reflexivity|]. split; [vm_compute; reflexivity|]. split; [vm_compute; reflexivity|].
  split; [exact (acts_steps ex_download _ (ex_disk ex_files, first_pool))|].
  split; [exact (acts_steps ex_download _ (acts ex_download [Start (CallExtract 0 ex_url)] before_calls))|]. vm_compute. reflexivity.
Qed.
Example C43_read_only_example : let m := ex_memory1 [] in
  runs any_step (extract_prog ex_idna 0 ex_url) tt m [] tt m (extract ex_idna (trie_in m 0) ex_url).
Proof. vm_compute. auto. Qed.

(** Two extractors; an Extract on the first runs while the second one is updated. *)
Definition two_extractors : disk * pool :=
  acts ex_download ([Start (CallNew (mkListParams [] false))] ++ repeat (Work 0) 40 ++ [Return 0]
                    ++ [Start (CallNew (mkListParams [] false))] ++ repeat (Work 0) 40 ++ [Return 0; Start (CallUpdate 1)])
       (ex_disk ex_files, first_pool).
Definition other_update : list act := Work 1 :: repeat (Work 0) 40 ++ repeat (Work 1) 10.
Example C52_example :
  let q1 := snd two_extractors in
  let s2 := acts ex_download [Start (CallExtract 0 ex_url)] two_extractors in
  let q3 := snd (acts ex_download other_update s2) in
  p_known q1 = [1%nat; 0%nat] /\ pool_steps ex_to_ascii ex_built_in ex_idna first_pool q1
  /\ quiet_steps ex_to_ascii ex_built_in ex_idna 0 (snd s2) q3
  /\ trie_in (p_memory q3) 0 = trie_of [str "com"] /\ trie_in (p_memory q3) 1 = trie_of [str "com"; str "b.com"]
  /\ results q3 = [(2%nat, Some None); (3%nat, Some (Some (str "com")))].
Proof.
  cbv zeta. split; [vm_compute; reflexivity|].
  split; [exact (acts_steps ex_download _ (ex_disk ex_files, first_pool))|].
  split; [apply quiet_acts_steps; vm_compute; reflexivity|]. split; [vm_compute; reflexivity|]. split; vm_compute; reflexivity.
Qed.

Print Assumptions C43_read_only.
Print Assumptions C43_isolated.
Print Assumptions C43_installed.
Print Assumptions C52_unchanged.
Print Assumptions C52_extract.
