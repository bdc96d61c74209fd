(** PropSize.v - property C111: the size of a suffix list in memory. *)

From Verif Require Import Base BaseFacts Str Trie RuleSpec Psl SizeSpec SizeProofs ExampleBase.

(** Besides the root, the trie of a list has exactly one node for each sequence of labels that a
    rule ends in: none twice and none in vain. *)
Theorem C111_nodes : forall rules t l, build_trie rules = Ret t -> NoDup l ->
  (forall p, In p l <-> p = [] \/ leads_to rules p) -> nodes t = length l.
Proof. exact c111_nodes. Qed.

(** So there are at most as many nodes as there are labels in the rules. *)
Theorem C111_labels : forall rules t, build_trie rules = Ret t -> (nodes t <= 1 + labels_in rules)%nat.
Proof. exact c111_labels. Qed.

(** The trie of a file is at most linear in its size, whatever is in it, if the IDNA library makes
    lines longer by at most a factor [k]. *)
Theorem C111_file : forall to_ascii k contents private t,
  (forall l a, to_ascii l = Some a -> (length a <= k * length l)%nat) ->
  build_trie (if private : bool then s_all (parse_list to_ascii contents) else s_public (parse_list to_ascii contents)) = Ret t ->
  (nodes t <= 1 + (k + 3) * length contents)%nat.
Proof. exact c111_file. Qed.

(** ** Examples *)

Definition ex_ends : list (list bytes) :=
  [[]; [str "com"]; [str "uk"]; [str "uk"; str "co"]; [str "ck"]; [str "ck"; str "*"]; [str "ck"; str "!www"]].
Example C111_nodes_example : build_trie ex_rules = Ret ex_trie /\ nodes ex_trie = length ex_ends
  /\ NoDup ex_ends /\ (forall p, In p ex_ends -> p = [] \/ leads_to ex_rules p).
Proof.
  split; [vm_compute; reflexivity|]. split; [vm_compute; reflexivity|]. split.
  - repeat (constructor; [cbn; intuition discriminate|]). constructor.
  - intros p H. repeat (destruct H as [<-|H]); [left; reflexivity|right..|destruct H].
    + exists (str "com"), []. split; [cbn; auto|reflexivity].
    + exists (str "uk"), []. split; [cbn; auto|reflexivity].
    + exists (str "co.uk"), []. split; [cbn; auto|reflexivity].
    + exists (str "*.ck"), [str "*"]. split; [cbn; auto|reflexivity].
    + exists (str "*.ck"), []. split; [cbn; auto 6|reflexivity].
    + exists (str "!www.ck"), []. split; [cbn; auto 7|reflexivity].
Qed.
(** Rules that are there twice, and ends that rules share, need no nodes. *)
Example C111_labels_example : let rules := [str "co.uk"; str "co.uk"; str "uk"; str "a.b.co.uk"] in
  nodes (trie_of rules) = 5%nat /\ labels_in rules = 9%nat.
Proof. vm_compute. auto. Qed.
Example C111_file_example : let contents := str "// ===BEGIN ICANN DOMAINS===
com
co.uk
// ===BEGIN PRIVATE DOMAINS===
a.com
" in
  map (fun private : bool => nodes (trie_of (if private then s_all (parse_list Some contents) else s_public (parse_list Some contents)))) [false; true]
  = [4; 5]%nat
  /\ (forall l a : bytes, Some l = Some a -> (length a <= 1 * length l)%nat).
Proof. split; [vm_compute; reflexivity|]. intros l a H. injection H as ->. lia. Qed.

Print Assumptions C111_nodes.
Print Assumptions C111_labels.
Print Assumptions C111_file.
