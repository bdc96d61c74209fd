(** PropColour.v - property C109: what PrintRes shows on a terminal. *)

From Verif Require Import Base BaseFacts Trie Extract Print PrintSpec Colour ColourSpec ColourProofs ExampleBase.
Local Open Scope N_scope.

(** If no component contains the character ESC, a terminal shows the table, with the heading of
    every component that is there in bold yellow, of the others in grey, and is in its default
    style afterwards. *)
Theorem C109_table : forall url r n, no_escapes url r -> exists name, host_type_name n name
  /\ screen (write_pieces false (print_res url r n)) Text default_style
    = (component_lines url r
       ++ seen_line (if (n =? 0)%Z then mkStyle (Some 90) false else mkStyle (Some 94) true) (str "host type") name
       ++ in_style default_style [10], default_style).
Proof. exact c109_table. Qed.

(** The results of Extract contain no ESC if the URL does not (nor the host in ASCII form). *)
Theorem C109_extract : forall ext t p r e, no_escape (p_url p) ->
  (forall h a, idna_to_puny ext h = Some a -> no_escape a) ->
  extract ext t p = Ret (r, e) -> no_escapes (p_url p) r.
Proof. exact c109_extract. Qed.

(** Whatever is printed without ESC in its texts is shown as written without colours, and leaves
    the terminal in its default style. *)
Theorem C109_pieces : forall l, Forall (fun p => no_escape (snd p)) l ->
  exists seen, screen (write_pieces false l) Text default_style = (seen, default_style) /\ map snd seen = plain l.
Proof. exact c109_pieces. Qed.
Theorem C109_plain : forall l, write_pieces true l = plain l.
Proof. exact c109_plain. Qed.

(** Without the condition it is not so: the components are written as they are, and a URL that
    Extract accepts may control the terminal, even if colours are off. *)
Theorem C109_escape_refuted : exists p r l st,
  extract ex_idna ex_trie p = Ret (r, None)
  /\ screen (write_pieces true (print_res (p_url p) r 1)) Text default_style = (l, st)
  /\ st <> default_style /\ map snd l <> plain (print_res (p_url p) r 1).
Proof.
  exists (mkParams (str "example.com/" ++ 27 :: str "[91m") false false). eexists. eexists. eexists.
  split; [vm_compute; reflexivity|]. split; [vm_compute; reflexivity|]. split; vm_compute; discriminate.
Qed.

(** ** Examples *)

Definition ex_shown : result := mkResult [] (str "u") [] (str "b") (str "com") (str "b.com") [] (str "/x") HHostName.
Example C109_table_example : no_escapes (str "u@b.com/x") ex_shown
  /\ firstn 24 (write_pieces false (print_res [] ex_shown 1)) = 27 :: str "[90m              url: "
  /\ firstn 26 (write_pieces false (print_res (str "u@b.com/x") ex_shown 1)) = 27 :: str "[93;1m              url: "
  /\ exists l, screen (write_pieces false (print_res (str "u@b.com/x") ex_shown 1)) Text default_style = (l, default_style)
    /\ In (mkStyle (Some 97) false, 98) l /\ In (mkStyle (Some 94) true, 104) l.
Proof.
  split; [repeat (constructor; [apply no_escape_b; vm_compute; reflexivity|]); constructor|]. split; [vm_compute; reflexivity|]. split; [vm_compute; reflexivity|].
  eexists. split; [vm_compute; reflexivity|]. split; vm_compute; auto 300.
Qed.
Example C109_extract_example : no_escape (p_url (ex_params "u@a.example.co.uk/x"))
  /\ exists r, extract ex_idna ex_trie (ex_params "u@a.example.co.uk/x") = Ret (r, None) /\ r_path r = str "/x".
Proof. split; [apply no_escape_b; vm_compute; reflexivity|]. eexists. vm_compute. split; reflexivity. Qed.
Example C109_pieces_example : Forall (fun p => no_escape (snd p)) (error_line (str "invalid port"))
  /\ write_pieces false (error_line (str "invalid port"))
    = 27 :: str "[91;1mError: " ++ 27 :: str "[0m" ++ 27 :: str "[97minvalid port" ++ 27 :: str "[0m" ++ [10]
  /\ write_pieces true (error_line (str "invalid port")) = str "Error: invalid port" ++ [10].
Proof. split; [repeat (constructor; [apply no_escape_b; vm_compute; reflexivity|]); constructor|]. vm_compute. auto. Qed.

Print Assumptions C109_table.
Print Assumptions C109_extract.
Print Assumptions C109_pieces.
Print Assumptions C109_plain.
Print Assumptions C109_escape_refuted.
