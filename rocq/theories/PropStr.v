(** PropStr.v - properties of the string scanning primitives: C44, C45. *)

From Verif Require Import Base Utf8 Chars Str StrFacts.

(** C44: the set built from a string contains a byte iff it is an ASCII character of it. *)
Theorem C44_ascii_set_exact : forall (chars : bytes) (c : N),
  contains (make_ascii_set chars) c = true <-> (c < 128)%N /\ In c chars.
Proof. exact ascii_set_exact. Qed.

Example C44_example :
  contains (make_ascii_set (str "/\?#" ++ encode_all [12290%N])) 35 = true
  /\ contains (make_ascii_set (str "/\?#" ++ encode_all [12290%N])) 227 = false.
Proof. vm_compute. split; reflexivity. Qed.

(** C45: trimming removes the maximal prefix and/or suffix of set characters, nothing else. *)
Theorem C45_trim_both : forall chars s m, good_set chars ->
  fast_trim s chars TrimBoth = Ret m <-> trimmed chars s m.
Proof. exact trim_both_iff. Qed.
Theorem C45_trim_left : forall chars s m, good_set chars ->
  fast_trim s chars TrimLeft = Ret m <-> trimmed_left chars s m.
Proof. exact trim_left_iff. Qed.
Theorem C45_trim_right : forall chars s m, good_set chars ->
  fast_trim s chars TrimRight = Ret m <-> trimmed_right chars s m.
Proof. exact trim_right_iff. Qed.
(** and trimming always returns *)
Theorem C45_trim_returns : forall chars s mode, good_set chars ->
  exists m, fast_trim s chars mode = Ret m.
Proof. exact trim_returns. Qed.

Example C45_example : good_set [12290; 46]%N
  /\ fast_trim (encode_all [12290; 97; 46; 98; 46; 12290]%N) [12290; 46]%N TrimBoth
     = Ret (encode_all [97; 46; 98]%N).
Proof. split; [|vm_compute; reflexivity]. unfold good_set, valid_rune, rune_error. repeat constructor; lia. Qed.

Print Assumptions C44_ascii_set_exact.
Print Assumptions C45_trim_both.
Print Assumptions C45_trim_left.
Print Assumptions C45_trim_right.
Print Assumptions C45_trim_returns.
