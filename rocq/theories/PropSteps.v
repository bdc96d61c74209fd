(** PropSteps.v - property C110: Extract takes linear time. *)

From Verif Require Import Base BaseFacts Utf8 Str Net Trie Extract Steps StepsProofs ExampleBase.
Local Open Scope Z_scope.

(** The steps counted are those of Extract: counting changes no result. *)
Theorem C110_same : forall ext t p, fst (extract_c ext t p) = extract ext t p.
Proof. exact erase_extract. Qed.

(** Whatever the URL and the list, the number of steps is at most linear in the length of the
    URL.  It does not depend on the size of the list. *)
Theorem C110_linear : forall ext t p, p_to_punycode p = false ->
  snd (extract_c ext t p) <= 45 * len (p_url p) + 20.
Proof. exact extract_plain_bound. Qed.

(** With ToPunycode it is linear too if the IDNA library makes hosts longer by at most a
    factor [k]. *)
Theorem C110_punycode : forall ext t p k, 1 <= k ->
  (p_to_punycode p = true -> forall h a, idna_to_puny ext h = Some a -> len a <= k * len h) ->
  snd (extract_c ext t p) <= (32 + 13 * k) * len (p_url p) + 20.
Proof. exact extract_bound. Qed.

(** The walk over the labels of a host goes through each of its bytes a fixed number of times,
    though it looks for a separator from the right once for every label. *)
Theorem C110_walk : forall fuel netloc node hs hl sep st en, 0 <= sep ->
  snd (suffix_loop_c fuel netloc node hs hl sep st en) <= 6 * sep + 4.
Proof. exact suffix_bound. Qed.

(** ** Examples *)

(** [n] times "a." and then "a.co.uk". *)
Definition ex_labels (n : nat) : url_params := mkParams (concat (repeat (str "a.") n) ++ str "a.co.uk") false false.
Example C110_same_example : exists r, fst (extract_c ex_idna ex_trie (ex_labels 3)) = Ret (r, None) /\ r_sub_domain r = str "a.a.a" /\ r_domain r = str "a".
Proof. eexists. split; [vm_compute; reflexivity|]. vm_compute. auto. Qed.
(** Twice the labels, twice the steps. *)
Example C110_linear_example :
  map (fun n => (len (p_url (ex_labels n)), snd (extract_c ex_idna ex_trie (ex_labels n)))) [0; 100; 200; 400]%nat
  = [(7, 80); (207, 1481); (407, 2881); (807, 5681)].
Proof. vm_compute. reflexivity. Qed.
Example C110_punycode_example : let p := mkParams (str "https://u@a.example.co.uk:80/x") false true in
  snd (extract_c ex_idna ex_trie p) = 155 /\ (forall h a, idna_to_puny ex_idna h = Some a -> len a <= 4 * len h).
Proof. split; [vm_compute; reflexivity|]. intros h a H. change (Some h = Some a) in H. injection H as <-. pose proof (len_nonneg _ h). lia. Qed.
(** Empty labels at the end of the host. *)
Example C110_walk_example : map (fun n => snd (suffix_loop_c (S n) (repeat 46%N n) ex_trie false false (Z.of_nat n) (Z.of_nat n) (Z.of_nat n))) [10; 100; 200]%nat
  = [24; 204; 404].
Proof. vm_compute. reflexivity. Qed.

Print Assumptions C110_same.
Print Assumptions C110_linear.
Print Assumptions C110_punycode.
Print Assumptions C110_walk.
