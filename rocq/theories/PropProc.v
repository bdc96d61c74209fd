(** PropProc.v - several processes and the cache file: C98.

    [machine_steps (first_machine d) s]: starting with disk [d], processes that use the package
    may bring the machine to [s]; they start, run and are killed at any time, and their reads
    and writes are interleaved piece by piece. *)

From Verif Require Import Base BaseFacts Chars Str Trie Extract Psl ListSpec ListFacts World Update UpdateSpec WorldFacts
  Calls CallProofs Procs ProcSpec ProcProofs ProcExact ExampleBase ExampleDisk.
Local Open Scope N_scope.

(** Every process runs as the theorems about one process (C43, C52, C81, C85, C87) say, and what
    it sees is part of what happens on the machine. *)
Theorem C98_process : forall to_ascii hardcoded ext d s r, machine_steps to_ascii hardcoded ext (first_machine d) s ->
  In r (y_processes s) ->
  pool_steps to_ascii hardcoded ext first_pool (pool_of r) /\ incl (p_trace (pool_of r)) (y_events s).
Proof. intros to_ascii hardcoded ext d s r H. exact (machine_pools to_ascii hardcoded ext d s H r). Qed.

(** The cache file at any moment: a part of the text it had at first, from some position on,
    and before that bytes of the lists that sources have sent, each at its own position. *)
Theorem C98_file : forall to_ascii hardcoded ext d old s text, initial_text d (default_path d) old ->
  machine_steps to_ascii hardcoded ext (first_machine d) s -> initial_text (y_disk s) (default_path d) text ->
  overlaid (offered (y_events s)) old text.
Proof. exact c98_file. Qed.

(** All other files stay as they are. *)
Theorem C98_other_files : forall to_ascii hardcoded ext d old s, initial_text d (default_path d) old ->
  machine_steps to_ascii hardcoded ext (first_machine d) s ->
  d_temp (y_disk s) = d_temp d /\ d_name (y_disk s) = d_name d /\
  forall path, d_name d path <> d_name d (default_path d) -> at_path (y_disk s) path = at_path d path.
Proof. exact c98_others. Qed.

(** Whoever reads the cache file gets, at each position, the byte of the first text or of a list
    that a source has sent; whoever reads another file gets its text. *)
Theorem C98_read : forall to_ascii hardcoded ext d old s path text, initial_text d (default_path d) old ->
  machine_steps to_ascii hardcoded ext (first_machine d) s -> was_read (y_events s) path text ->
  if N.eqb (d_name d path) (d_name d (default_path d)) then patchwork (offered (y_events s)) old text
  else exists mt wr, at_path d path = Regular text mt true wr.
Proof. exact c98_read. Qed.

(** So this is what extractors are built from, in every process at every moment. *)
Theorem C98_serves : forall to_ascii hardcoded ext d old s r f, initial_text d (default_path d) old ->
  machine_steps to_ascii hardcoded ext (first_machine d) s -> In r (y_processes s) -> In f (p_known (pool_of r)) ->
  exists text, serves to_ascii (p_memory (pool_of r)) f (x_private (m_extractor (p_memory (pool_of r)) f)) text /\
    (text = hardcoded \/ patchwork (offered (y_events s)) old text
     \/ exists path mt wr, d_name d path <> d_name d (default_path d) /\ at_path d path = Regular text mt true wr).
Proof. exact c98_serves. Qed.

(** If the sources send but one list, and the file holds a beginning of it at first, then the
    file always holds a beginning of it, never shorter than at first, and whoever reads it gets
    such a beginning.  In particular an update to the same list disturbs nobody. *)
Theorem C98_one_list : forall to_ascii hardcoded ext d list k s, initial_text d (default_path d) (firstn k list) ->
  machine_steps to_ascii hardcoded ext (first_machine d) s -> (forall body, offered (y_events s) body -> body = list) ->
  forall text, (initial_text (y_disk s) (default_path d) text \/
                exists path, d_name d path = d_name d (default_path d) /\ was_read (y_events s) path text) ->
  text = firstn (length text) list /\ (length (firstn k list) <= length text)%nat.
Proof. exact c98_one_list. Qed.

(** Nothing more can be said: all these texts occur, whatever lists the sources send. *)
Theorem C98_file_exact : forall to_ascii hardcoded ext (lists : bytes -> Prop), (forall body, lists body -> has_markers body) ->
  forall d old text mt, disk_ok d -> (exists tm, at_path d (d_temp d) = Directory tm true) ->
  at_path d (default_path d) = Regular old mt true true ->
  ((exists s, machine_steps to_ascii hardcoded ext (first_machine d) s
      /\ (forall body, offered (y_events s) body -> lists body) /\ stored (y_disk s) (default_path d) text)
   <-> overlaid lists old text).
Proof. exact c98_file_exact. Qed.
Theorem C98_read_exact : forall to_ascii hardcoded ext (lists : bytes -> Prop), (forall body, lists body -> has_markers body) ->
  forall d old text mt, disk_ok d -> (exists tm, at_path d (d_temp d) = Directory tm true) ->
  unpadded (default_path d) -> d_abs d (default_path d) <> None -> at_path d (default_path d) = Regular old mt true true -> has_markers old ->
  ((exists s, machine_steps to_ascii hardcoded ext (first_machine d) s
      /\ (forall body, offered (y_events s) body -> lists body) /\ was_read (y_events s) (default_path d) text)
   <-> patchwork lists old text).
Proof. exact c98_read_exact. Qed.
Theorem C98_used_exact : forall to_ascii hardcoded ext (lists : bytes -> Prop), (forall body, lists body -> has_markers body) ->
  forall d old text mt private, disk_ok d -> (exists tm, at_path d (d_temp d) = Directory tm true) ->
  unpadded (default_path d) -> d_abs d (default_path d) <> None -> at_path d (default_path d) = Regular old mt true true -> has_markers old ->
  patchwork lists old text ->
  exists s r f, machine_steps to_ascii hardcoded ext (first_machine d) s /\ (forall body, offered (y_events s) body -> lists body)
    /\ In r (y_processes s) /\ In f (p_known (pool_of r))
    /\ x_private (m_extractor (p_memory (pool_of r)) f) = private /\ serves to_ascii (p_memory (pool_of r)) f private text
    /\ was_read (p_trace (pool_of r)) (default_path d) text.
Proof. exact c98_used_exact. Qed.

(** ** A machine *)

Definition pf_old : bytes := ex_list (str "aaa") [].
Definition pf_new : bytes := ex_list (str "bbb") [].
Definition pf_mixed : bytes := ex_list (str "aba") [].
Definition pf_disk : disk :=
  ex_disk [(str "/tmp/", Directory 0 true); (str "/tmp/public_suffix_list.dat", Regular pf_old 999999999999999999%Z true true);
           (str "/home/list", Regular pf_mixed 0 true false)].
Lemma pf_ok : disk_ok pf_disk.
Proof. apply ex_disk_ok. intros. discriminate. Qed.
Lemma pf_temp : exists tm, at_path pf_disk (d_temp pf_disk) = Directory tm true.
Proof. exists 0%Z. vm_compute. reflexivity. Qed.
Lemma pf_path : unpadded (default_path pf_disk).
Proof. apply trimmed_b. vm_compute. reflexivity. Qed.
Lemma pf_abs : d_abs pf_disk (default_path pf_disk) <> None.
Proof. discriminate. Qed.
Lemma pf_at : at_path pf_disk (default_path pf_disk) = Regular pf_old 999999999999999999%Z true true.
Proof. vm_compute. reflexivity. Qed.
Lemma pf_start : initial_text pf_disk (default_path pf_disk) pf_old.
Proof. left. exists 999999999999999999%Z, true, true. exact pf_at. Qed.
Lemma pf_markers : forall body, body = pf_new -> has_markers body.
Proof. intros body ->. apply markers_b. vm_compute. reflexivity. Qed.

Definition eq_at (a b : option N) : bool := match a, b with Some x, Some y => N.eqb x y | _, _ => false end.
Definition patchwork_b (body old text : bytes) : bool :=
  (length old <=? length text)%nat
  && forallb (fun i => eq_at (nth_error text i) (nth_error old i) || eq_at (nth_error text i) (nth_error body i)) (seq 0 (length text)).
Lemma eq_at_spec : forall a b, eq_at a b = true -> a = b.
Proof. intros [x|] [y|] H; try discriminate H. apply N.eqb_eq in H. subst y. reflexivity. Qed.
Lemma patchwork_by : forall body old text, patchwork_b body old text = true -> patchwork (fun b => b = body) old text.
Proof.
  intros body old text H. apply andb_prop in H as (L & H). split; [apply Nat.leb_le; exact L|]. intros i b N.
  rewrite forallb_forall in H. assert (I : In i (seq 0 (length text))) by (apply in_seq; split; [apply Nat.le_0_l|]; apply nth_error_Some; congruence).
  apply H in I. apply orb_prop in I as [I|I]; apply eq_at_spec in I; rewrite N in I; [left; auto|right; exists body; auto].
Qed.

(** That New uses the list in the file or a list that a source has sent is false: while another
    process updates the cache file with the only list the sources send, a New may use a rule
    that is in neither of the two lists. *)
Theorem C98_mixture_refuted : exists d old new s r f text rule rules rules_old rules_new,
  initial_text d (default_path d) old /\ has_markers old /\ has_markers new
  /\ machine_steps ex_to_ascii ex_built_in ex_idna (first_machine d) s /\ (forall body, offered (y_events s) body -> body = new)
  /\ In r (y_processes s) /\ In f (p_known (pool_of r)) /\ serves ex_to_ascii (p_memory (pool_of r)) f false text
  /\ used_rules ex_to_ascii text false rules /\ used_rules ex_to_ascii old false rules_old
  /\ used_rules ex_to_ascii new false rules_new
  /\ In rule rules /\ ~ In rule rules_old /\ ~ In rule rules_new.
Proof.
  destruct (C98_used_exact ex_to_ascii ex_built_in ex_idna (fun b => b = pf_new) pf_markers pf_disk pf_old pf_mixed 999999999999999999%Z false
    pf_ok pf_temp pf_path pf_abs pf_at) as (s & r & f & St & O & I & K & _ & S & _).
  - apply markers_b. vm_compute. reflexivity.
  - apply patchwork_by. vm_compute. reflexivity.
  - exists pf_disk, pf_old, pf_new, s, r, f, pf_mixed, (str "aba"), [str "aba"], [str "aaa"], [str "bbb"].
    split; [exact pf_start|]. split; [apply markers_b; vm_compute; reflexivity|]. split; [apply pf_markers; reflexivity|].
    split; [exact St|]. split; [exact O|]. split; [exact I|]. split; [exact K|]. split; [exact S|].
    split; [apply used_rules_iff; vm_compute; reflexivity|]. split; [apply used_rules_iff; vm_compute; reflexivity|].
    split; [apply used_rules_iff; vm_compute; reflexivity|]. split; [left; reflexivity|].
    split; intros [X|[]]; vm_compute in X; discriminate X.
Qed.

(** ** Examples *)

(** The file with the mixture, as C98_file says, ... *)
Example ex_file_C98 : exists s, machine_steps ex_to_ascii ex_built_in ex_idna (first_machine pf_disk) s
  /\ stored (y_disk s) (default_path pf_disk) (str "bb" ++ skipn 2 pf_old) /\ overlaid (offered (y_events s)) pf_old (str "bb" ++ skipn 2 pf_old).
Proof.
  destruct (proj2 (C98_file_exact ex_to_ascii ex_built_in ex_idna _ pf_markers pf_disk pf_old (str "bb" ++ skipn 2 pf_old) _ pf_ok pf_temp pf_at))
    as (s & H & _ & S).
  { exists (str "bb"). split; [reflexivity|]. intros i b N. exists pf_new. split; [reflexivity|].
    destruct i as [|[|i]]; [exact N|exact N|]. destruct i; discriminate. }
  exists s. split; [exact H|]. split; [exact S|].
  exact (C98_file ex_to_ascii ex_built_in ex_idna pf_disk pf_old s _ pf_start H (or_introl S)).
Qed.
(** ... but not one that keeps old bytes before new ones. *)
Example ex_not_file_C98 : ~ exists s, machine_steps ex_to_ascii ex_built_in ex_idna (first_machine pf_disk) s
  /\ (forall body, offered (y_events s) body -> body = pf_new) /\ stored (y_disk s) (default_path pf_disk) pf_mixed.
Proof.
  intros H. apply (C98_file_exact ex_to_ascii ex_built_in ex_idna _ pf_markers pf_disk pf_old pf_mixed _ pf_ok pf_temp pf_at) in H.
  destruct H as (top & E & F). destruct top as [|x top]; [vm_compute in E; discriminate E|].
  destruct (F 0%nat x eq_refl) as (body & -> & X). vm_compute in X. injection X as <-. vm_compute in E. discriminate E.
Qed.
(** Reading, however, can get it, ... *)
Example ex_read_C98 : exists s, machine_steps ex_to_ascii ex_built_in ex_idna (first_machine pf_disk) s
  /\ was_read (y_events s) (default_path pf_disk) pf_mixed.
Proof.
  destruct (proj2 (C98_read_exact ex_to_ascii ex_built_in ex_idna _ pf_markers pf_disk pf_old pf_mixed _ pf_ok pf_temp pf_path pf_abs pf_at
    (markers_b pf_old eq_refl))) as (s & H & _ & W).
  { apply patchwork_by. vm_compute. reflexivity. }
  exists s. auto.
Qed.
(** ... but not a byte that is in neither text. *)
Example ex_not_read_C98 : ~ exists s, machine_steps ex_to_ascii ex_built_in ex_idna (first_machine pf_disk) s
  /\ (forall body, offered (y_events s) body -> body = pf_new) /\ was_read (y_events s) (default_path pf_disk) (ex_list (str "aca") []).
Proof.
  intros H. apply (C98_read_exact ex_to_ascii ex_built_in ex_idna _ pf_markers pf_disk pf_old _ _ pf_ok pf_temp pf_path pf_abs pf_at
    (markers_b pf_old eq_refl)) in H. destruct H as (_ & H).
  destruct (H 1%nat 99 eq_refl) as [X|(body & -> & X)]; vm_compute in X; discriminate X.
Qed.
(** A process with an extractor built from the mixture: the hypotheses of C98_process, C98_read
    and C98_serves hold. *)
Example ex_serves_C98 : exists s r f, machine_steps ex_to_ascii ex_built_in ex_idna (first_machine pf_disk) s
  /\ In r (y_processes s) /\ In f (p_known (pool_of r)) /\ serves ex_to_ascii (p_memory (pool_of r)) f true pf_mixed.
Proof.
  destruct (C98_used_exact ex_to_ascii ex_built_in ex_idna _ pf_markers pf_disk pf_old pf_mixed _ true pf_ok pf_temp pf_path pf_abs pf_at
    (markers_b pf_old eq_refl)) as (s & r & f & H & _ & I & K & _ & S & _).
  { apply patchwork_by. vm_compute. reflexivity. }
  exists s, r, f. auto.
Qed.
(** One list only: the new list arrives where there is only a beginning of it. *)
Definition pf_disk1 : disk :=
  ex_disk [(str "/tmp/", Directory 0 true); (str "/tmp/public_suffix_list.dat", Regular (firstn 20 pf_new) 0%Z true true)].
Example ex_one_C98 : exists s, machine_steps ex_to_ascii ex_built_in ex_idna (first_machine pf_disk1) s
  /\ initial_text pf_disk1 (default_path pf_disk1) (firstn 20 pf_new) /\ (forall body, offered (y_events s) body -> body = pf_new)
  /\ stored (y_disk s) (default_path pf_disk1) (firstn 40 pf_new).
Proof.
  assert (Ok : disk_ok pf_disk1) by (apply ex_disk_ok; intros; discriminate).
  destruct (proj2 (C98_file_exact ex_to_ascii ex_built_in ex_idna (fun b => b = pf_new) pf_markers pf_disk1 (firstn 20 pf_new) (firstn 40 pf_new) 0%Z
    Ok (ex_intro _ 0%Z eq_refl) eq_refl)) as (s & H & O & S).
  { exists (firstn 40 pf_new). split; [vm_compute; reflexivity|]. intros i b N. exists pf_new. split; [reflexivity|].
    apply nth_first in N. apply N. }
  exists s. split; [exact H|]. split; [left; exists 0%Z, true, true; reflexivity|]. auto.
Qed.

Print Assumptions C98_process.
Print Assumptions C98_file.
Print Assumptions C98_other_files.
Print Assumptions C98_read.
Print Assumptions C98_serves.
Print Assumptions C98_one_list.
Print Assumptions C98_file_exact.
Print Assumptions C98_read_exact.
Print Assumptions C98_used_exact.
Print Assumptions C98_mixture_refuted.
