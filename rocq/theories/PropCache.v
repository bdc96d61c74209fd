(** PropCache.v - when exactly the cache file is what was downloaded: C77. *)

From Verif Require Import Base BaseFacts Chars Str StrFacts Trie Extract Psl ListSpec ListFacts World Update Calls UpdateSpec
  WorldFacts UpdateProofs DiskProofs NewSpec NewProofs ExactDisk ExampleBase ExampleDisk PropPsl PropLib.
Local Open Scope N_scope.

(** C77: after an Update in which seeking and writing do not fail, the file is the first list
    offered exactly if that is not shorter than the old file ... *)
Theorem C77_stored : forall to_ascii hardcoded net f d m tr d' m' old,
  runs disk_step (update to_ascii hardcoded f) d m tr d' m' (Ret None) -> smooth net tr ->
  initial_text d (default_path d) old ->
  exists before url after body, the_sources = before ++ url :: after /\ Forall (offers_none net) before /\ offers net url body
    /\ (stored d' (default_path d) body <-> (length old <= length body)%nat).
Proof. exact c40_exact. Qed.
(** ... and a crash can leave any beginning of any list over the old text. *)
Theorem C77_crash : forall to_ascii hardcoded f d m old body k, x_path (m_extractor m f) = default_path d ->
  can_write d (default_path d) -> initial_text d (default_path d) old -> has_markers body -> (k <= length body)%nat ->
  exists d', reaches disk_step disk_during (update to_ascii hardcoded f) d m d'
    /\ stored d' (default_path d) (firstn k body ++ skipn k old).
Proof. exact c41_every. Qed.

(** The old list is longer than the new one; the other way round in [C40_example]. *)
Example C77_example :
  let m := ex_memory1 (str "/tmp/public_suffix_list.dat") in
  let x := exec ex_mirror (update ex_to_ascii ex_built_in 0) old_disk m in
  ex_result x = Ret None /\ smooth ex_mirror (ex_trace x) /\ initial_text old_disk (default_path old_disk) long_list
  /\ (length custom < length long_list)%nat /\ stored (ex_disk_of x) (default_path old_disk) mixed_text
  /\ x_path (m_extractor m 0) = default_path old_disk /\ can_write old_disk (default_path old_disk) /\ has_markers custom.
Proof.
  cbv zeta. split; [vm_compute; reflexivity|]. split; [apply exec_smooth|].
  split; [left; exists 0%Z, true, true; vm_compute; reflexivity|]. split; [apply Nat.ltb_lt; vm_compute; reflexivity|].
  split; [exists 1000000000000000000%Z, true, true; vm_compute; reflexivity|]. split; [vm_compute; reflexivity|].
  split; [vm_compute; reflexivity|]. apply markers_b. vm_compute. reflexivity.
Qed.

Print Assumptions C77_stored.
Print Assumptions C77_crash.
