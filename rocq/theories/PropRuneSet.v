(** PropRuneSet.v - property C107: the sets of runes. *)

From Verif Require Import Base BaseFacts Utf8 Str Chars RuneSet RuneSetProofs.
Local Open Scope N_scope.

(** Whatever the size of a bucket, the set made of a text holds the characters of the text and no
    others, and counts each once.  No call crashes. *)
Theorem C107_set : forall bucket_size rs, 1 <= bucket_size -> Forall valid_rune rs ->
  exists m, make_intset bucket_size (encode_all rs) = Ret m
    /\ (forall r, In r rs -> iset_exists m r = Ret true)
    /\ (forall r, ~ In r rs -> iset_exists m r = Ret false)
    /\ exists l, NoDup l /\ (forall r, In r l <-> In r rs) /\ i_length m = N.of_nat (length l).
Proof. intros k rs _. exact (c107_set k rs). Qed.

(** For every string, it agrees with the sets that all other properties are about. *)
Theorem C107_bytes : forall bucket_size s, 1 <= bucket_size ->
  exists m, make_intset bucket_size s = Ret m
    /\ forall r, iset_exists m r = Ret (exists_in (make_rune_set s) r).
Proof. intros k s _. exact (c107_model k s). Qed.

(** The three sets of the package (strings.go:71-73). *)
Theorem C107_package : forall bucket_size, 1 <= bucket_size ->
  exists separators spaces invalid,
    make_intset bucket_size (encode_all label_separators_runes) = Ret separators
    /\ make_intset bucket_size (encode_all whitespace_runes) = Ret spaces
    /\ make_intset bucket_size (encode_all invalid_host_name_runes) = Ret invalid
    /\ forall r, iset_exists separators r = Ret (exists_in label_separators_rune_set r)
      /\ iset_exists spaces r = Ret (exists_in whitespace_rune_set r)
      /\ iset_exists invalid r = Ret (exists_in invalid_host_name_chars_rune_set r).
Proof.
  intros k _. destruct (c107_model k (encode_all label_separators_runes)) as (a & A1 & A2).
  destruct (c107_model k (encode_all whitespace_runes)) as (b & B1 & B2).
  destruct (c107_model k (encode_all invalid_host_name_runes)) as (c & D1 & D2).
  exists a, b, c. split; [exact A1|]. split; [exact B1|]. split; [exact D1|]. intros r. split; [apply A2|]. split; [apply B2|apply D2].
Qed.

(** ** Examples *)

(** The four separators, with two in one bucket and the last given twice. *)
Definition ex_separators : list rune := [65377; 12290; 65294; 46; 65377].
Example C107_set_example : Forall valid_rune ex_separators
  /\ exists m, make_intset 16384 (encode_all ex_separators) = Ret m
    /\ m = mkIntset 3 4 [[]; [65377]; [46; 12290; 65294]; []]
    /\ iset_exists m 12290 = Ret true /\ iset_exists m 12294 = Ret false /\ iset_exists m 47 = Ret false.
Proof.
  split; [repeat (constructor; [unfold valid_rune; lia|]); constructor|].
  eexists. split; [vm_compute; reflexivity|]. vm_compute. auto.
Qed.
Example C107_bytes_example : exists m, make_intset 4 [255; 65; 46; 65] = Ret m
  /\ iset_exists m 65533 = Ret true /\ iset_exists m 46 = Ret true /\ iset_exists m 255 = Ret false
  /\ exists_in (make_rune_set [255; 65; 46; 65]) 65533 = true.
Proof. eexists. split; [vm_compute; reflexivity|]. vm_compute. auto. Qed.
Example C107_package_example : match make_intset 4096 (encode_all label_separators_runes) with Ret m => i_length m | _ => 0 end = 4.
Proof. vm_compute. reflexivity. Qed.

Print Assumptions C107_set.
Print Assumptions C107_bytes.
Print Assumptions C107_package.
