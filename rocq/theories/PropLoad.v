(** PropLoad.v - property C112: building the trie of a list takes linear time. *)

From Verif Require Import Base BaseFacts Str Trie Psl Idna SizeSpec LoadSteps LoadStepsProofs LoadIdna ExampleBase.

(** Whatever the file contains, reading its rules and building the trie takes a number of steps
    that is at most linear in its size, if the IDNA library makes lines longer by at most a factor
    [k].  The trie is the one that is built without counting. *)
Theorem C112_load : forall to_ascii k contents private,
  (forall l a, to_ascii l = Some a -> (length a <= k * length l)%nat) ->
  exists t n, load_c to_ascii contents private = Ret (t, n)
  /\ build_trie (if private : bool then s_all (parse_list to_ascii contents) else s_public (parse_list to_ascii contents)) = Ret t
  /\ (n <= (11 * k + 46) * length contents + 9)%nat.
Proof. exact c112_load. Qed.

(** The library's ToASCII does, so that for the library as it is (Idna.v) both the number of nodes
    and the number of steps are linear in the size of the file. *)
Theorem C112_library : forall strict contents private, exists t n, load_c (go_to_ascii strict) contents private = Ret (t, n)
  /\ build_trie (if private : bool then s_all (parse_list (go_to_ascii strict) contents) else s_public (parse_list (go_to_ascii strict) contents)) = Ret t
  /\ (nodes t <= 1 + 140 * length contents)%nat /\ (n <= (11 * 137 + 46) * length contents + 9)%nat.
Proof. exact c112_library. Qed.

(** ** Examples *)

(** A file with [n] rules that share their ends. *)
Definition ex_file (n : nat) : bytes := concat (repeat (str "aa.example.co.uk
") n).
Example C112_load_example :
  map (fun n => (length (ex_file n), match load_c Some (ex_file n) true with Ret (_, k) => k | _ => 0%nat end)) [1; 2; 4; 8]%nat
  = [(17, 196); (34, 370); (68, 718); (136, 1414)]%nat
  /\ (forall l a : bytes, Some l = Some a -> (length a <= 1 * length l)%nat).
Proof. split; [vm_compute; reflexivity|]. intros l a H. injection H as ->. lia. Qed.
(** A rule that is not ASCII (u with diaeresis) is stored in both spellings. *)
Example C112_library_example :
  match load_c (go_to_ascii true) (str "com" ++ [10; 195; 188; 46; 117; 107]%N) true with Ret (t, n) => Some (nodes t, n) | _ => None end
  = Some (5, 169)%nat.
Proof. vm_compute. reflexivity. Qed.

Print Assumptions C112_load.
Print Assumptions C112_library.
