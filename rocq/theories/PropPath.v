(** PropPath.v - which file New uses, for all paths, also with white space around: C91. *)

From Verif Require Import Base BaseFacts Chars Str StrFacts Trie Extract Psl ListSpec ListFacts World Update Calls UpdateSpec
  WorldFacts UpdateProofs DiskProofs NewSpec NewProofs ExampleBase ExampleDisk PathProofs PropPsl.
Local Open Scope N_scope.

(** C91: New uses the file at the given path [lp_path n] exactly if there is a list at [p],
    the path without the white space around it, and the file at the path as given can be read;
    it then uses what that file contains. *)
Theorem C91_used : forall to_ascii hardcoded n p d m tr d' m' r, disk_ok d -> trimmed white_space (lp_path n) p ->
  lp_path n <> [] -> lp_path n <> default_path d -> runs disk_step (new to_ascii hardcoded n) d m tr d' m' r ->
  exists f, r = Ret (f, None)
    /\ (x_path (m_extractor m' f) = lp_path n
        <-> (exists text mt, list_at d p text mt) /\ exists text, readable d (lp_path n) text)
    /\ (x_path (m_extractor m' f) = lp_path n -> exists text, readable d (lp_path n) text
          /\ serves to_ascii m' f (lp_private n) text /\ ~ downloads tr /\ d_entry d' = d_entry d).
Proof. exact c91_used. Qed.
(** A list without the markers is used only if white space surrounds the path. *)
Theorem C91_markers : forall to_ascii hardcoded n p d m tr d' m' r, disk_ok d -> trimmed white_space (lp_path n) p ->
  unpadded (default_path d) -> runs disk_step (new to_ascii hardcoded n) d m tr d' m' r ->
  exists f, r = Ret (f, None) /\
    (serves to_ascii m' f (lp_private n) hardcoded
     \/ (exists text, has_markers text /\ stored d' (default_path d) text /\ serves to_ascii m' f (lp_private n) text)
     \/ exists text text0 mt, list_at d p text0 mt /\ readable d (lp_path n) text /\ serves to_ascii m' f (lp_private n) text
        /\ (has_markers text \/ lp_path n <> p)).
Proof. exact c91_markers. Qed.

(** The path is " x".  With a list at "x" the file " x" is used, without it the same file is
    not, nor is the list "x" if there is no file " x". *)
Definition padded : list_params := mkListParams (str " x") false.
Definition both_files : list (bytes * entry) :=
  [(str "x", Regular custom 0 true false); (str " x", Regular (str "bad") 0 true true)].
Definition padded_file : list (bytes * entry) := [(str " x", Regular custom 0 true true)].
Definition plain_file : list (bytes * entry) := [(str "x", Regular custom 0 true true)].
Example C91_example :
  disk_ok (ex_disk both_files) /\ disk_ok (ex_disk padded_file) /\ disk_ok (ex_disk plain_file)
  /\ trimmed white_space (lp_path padded) (str "x") /\ unpadded (default_path (ex_disk both_files))
  /\ lp_path padded <> default_path (ex_disk both_files)
  /\ list_at (ex_disk both_files) (str "x") custom 0 /\ readable (ex_disk both_files) (str " x") (str "bad")
  /\ ex_result (ex_new padded both_files ex_net) = Ret (0%nat, None)
  /\ x_path (m_extractor (ex_memory_of (ex_new padded both_files ex_net)) 0) = str " x"
  /\ trie_in (ex_memory_of (ex_new padded both_files ex_net)) 0 = trie_of [str "bad"]
  /\ ex_result (ex_new padded padded_file ex_net) = Ret (1%nat, None)
  /\ x_path (m_extractor (ex_memory_of (ex_new padded padded_file ex_net)) 1) = []
  /\ ex_result (ex_new padded plain_file ex_net) = Ret (1%nat, None)
  /\ x_path (m_extractor (ex_memory_of (ex_new padded plain_file ex_net)) 1) = [].
Proof.
  split; [apply ex_disk_ok; vm_compute; discriminate|]. split; [apply ex_disk_ok; vm_compute; discriminate|].
  split; [apply ex_disk_ok; vm_compute; discriminate|]. split; [apply trimmed_b; vm_compute; reflexivity|].
  split; [apply trimmed_b; vm_compute; reflexivity|]. split; [vm_compute; discriminate|]. split.
  { split; [discriminate|]. split; [apply markers_b; vm_compute; reflexivity|]. exists false. vm_compute. reflexivity. }
  split; [exists 0%Z, true; vm_compute; reflexivity|]. repeat (split; [vm_compute; reflexivity|]). vm_compute. reflexivity.
Qed.

Print Assumptions C91_used.
Print Assumptions C91_markers.
