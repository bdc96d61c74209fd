(** PropCrash.v - exactly which texts an interrupted Update can leave: C92. *)

From Verif Require Import Base BaseFacts Chars Str StrFacts Trie Extract Psl ListSpec ListFacts World Update Calls UpdateSpec
  WorldFacts UpdateProofs DiskProofs NewSpec NewProofs ExampleBase ExampleDisk PropPsl CrashSpec CrashProofs.
Local Open Scope N_scope.

(** C92: the texts the cache file can have at some moment of an Update, for every IDNA library
    and every network. *)
Theorem C92_texts : forall to_ascii hardcoded f d m old text, x_path (m_extractor m f) = default_path d ->
  can_write d (default_path d) -> initial_text d (default_path d) old ->
  ((exists d', reaches disk_step disk_during (update to_ascii hardcoded f) d m d' /\ initial_text d' (default_path d) text)
   <-> layered 2 old text).
Proof. exact c92. Qed.
Theorem C92_not_shorter : forall to_ascii hardcoded f d m d' old text, x_path (m_extractor m f) = default_path d ->
  can_write d (default_path d) -> initial_text d (default_path d) old ->
  reaches disk_step disk_during (update to_ascii hardcoded f) d m d' -> initial_text d' (default_path d) text ->
  (length old <= length text)%nat.
Proof. exact c92_length. Qed.

(** The write of the first list fails after three bytes, that of the second is interrupted
    after one: the rule is made of three lists.  A text that differs from the old one behind
    the length of all lists that ever were sent would need a longer list; a shorter one never
    occurs. *)
Definition first_list : bytes := ex_list (str "newrule") [].
Definition second_list : bytes := ex_list (str "sec") [].
Example C92_example :
  let d := ex_disk (old_files old_list) in
  let m := ex_memory1 (str "/tmp/public_suffix_list.dat") in
  x_path (m_extractor m 0) = default_path d /\ can_write d (default_path d) /\ initial_text d (default_path d) old_list
  /\ layered 2 old_list (ex_list (str "sewrule") [])
  /\ ~ layered 2 old_list second_list.
Proof.
  cbv zeta. split; [vm_compute; reflexivity|]. split; [vm_compute; reflexivity|].
  split; [left; exists 0%Z, true, true; vm_compute; reflexivity|]. split.
  - cbn [layered]. right. exists first_list. split; [apply markers_b; vm_compute; reflexivity|]. right. exists 3%nat.
    split; [apply Nat.ltb_lt; vm_compute; reflexivity|]. right. exists second_list.
    split; [apply markers_b; vm_compute; reflexivity|]. right. exists 1%nat.
    split; [apply Nat.ltb_lt; vm_compute; reflexivity|]. vm_compute. reflexivity.
  - intros L. apply layered_length in L. apply Nat.leb_le in L. vm_compute in L. discriminate L.
Qed.

Print Assumptions C92_texts.
Print Assumptions C92_not_shorter.
