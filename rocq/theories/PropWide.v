(** PropWide.v - property C108: the integers of a machine. *)

From Verif Require Import Base BaseFacts Utf8 Str Net Trie Extract Wide WideSpec WideProofs ExampleBase.
Local Open Scope Z_scope.

(** With ints of 32 or 64 bits, no result of Extract comes from an overflow: the answer is the
    one with integers of any size, on which all other properties are based.  A string of Go is
    shorter than the largest int. *)
Theorem C108_extract : forall w ext t p, w = 32 \/ w = 64 -> len (p_url p) < 2 ^ (w - 1) ->
  (forall h a, idna_to_puny ext h = Some a -> len a < 2 ^ (w - 1)) ->
  extract_w w ext t p = extract ext t p.
Proof. exact c108_extract. Qed.

(** So Extract gives the same answers on 32-bit and 64-bit machines. *)
Theorem C108_widths : forall ext t p, len (p_url p) < 2 ^ 31 ->
  (forall h a, idna_to_puny ext h = Some a -> len a < 2 ^ 31) ->
  extract_w 32 ext t p = extract_w 64 ext t p.
Proof. exact c108_widths. Qed.

(** The numbers in addresses, however long they are. *)
Theorem C108_digits : forall w s, 32 <= w -> len s < 2 ^ (w - 1) ->
  dtoi_w w s = dtoi s /\ xtoi_w w s = xtoi s.
Proof. exact c108_digits. Qed.

(** strconv.Atoi, as the library computes it, accepts the decimal numbers that an int can hold,
    and gives their values. *)
Theorem C108_atoi : forall w s v, w = 32 \/ w = 64 ->
  (atoi_w w s = Some v <-> numeral s v /\ - 2 ^ (w - 1) <= v < 2 ^ (w - 1)).
Proof. exact c108_atoi. Qed.

(** ** Examples *)

Definition ex_long : url_params := ex_params "https://u@a.example.co.uk:00000000000000000000000000000000080/x".
Example C108_extract_example : len (p_url ex_long) < 2 ^ 31
  /\ exists r, extract_w 32 ex_idna ex_trie ex_long = Ret (r, None) /\ extract_w 64 ex_idna ex_trie ex_long = Ret (r, None)
    /\ r_domain r = str "example" /\ r_port r = str "00000000000000000000000000000000080".
Proof. split; [vm_compute; reflexivity|]. eexists. split; [vm_compute; reflexivity|]. vm_compute. auto. Qed.
Example C108_widths_example :
  extract_w 32 ex_idna ex_trie (ex_params "a.com:4294967376") = extract_w 64 ex_idna ex_trie (ex_params "a.com:4294967376")
  /\ exists r, extract_w 32 ex_idna ex_trie (ex_params "a.com:4294967376") = Ret (r, Some ErrInvalidPort).
Proof. split; [vm_compute; reflexivity|]. eexists. vm_compute. reflexivity. Qed.
(** With 16 bits the numbers of an address would overflow. *)
Example C108_digits_example : dtoi_w 32 (str "4294967297") = (big, 7, false)
  /\ is_ipv4_w 32 (str "65537.0.0.1") = Ret false /\ is_ipv4_w 16 (str "65537.0.0.1") = Ret true.
Proof. vm_compute. auto. Qed.
Example C108_atoi_example : atoi_w 32 (str "2147483648") = None /\ atoi_w 64 (str "2147483648") = Some 2147483648
  /\ atoi_w 32 (str "-2147483648") = Some (-2147483648) /\ atoi_w 64 (str "-9223372036854775808") = Some (-9223372036854775808)
  /\ atoi_w 64 (str "18446744073709551616") = None /\ atoi_w 64 (str "+00000000000000000000007") = Some 7
  /\ numeral (str "+42") 42.
Proof. repeat (split; [vm_compute; reflexivity|]). apply (Plus [4; 2]); [discriminate|]. repeat (constructor; [lia|]). constructor. Qed.

Print Assumptions C108_extract.
Print Assumptions C108_widths.
Print Assumptions C108_digits.
Print Assumptions C108_atoi.
