(** PropPrint.v - properties of PrintRes and of the extract command: C46, C47. *)

From Verif Require Import Base BaseFacts Chars Str Trie Extract Psl ListSpec ListFacts World Update UpdateSpec WorldFacts
  Calls Print PrintSpec PrintProofs ExampleBase ExampleDisk.
Local Open Scope N_scope.

(** C46: any url, any components, any number as host type. *)
Theorem C46_table : forall url r n, shows url r n (print_res url r n).
Proof. exact c46. Qed.
(** What is printed determines what was passed, if no component contains a line feed. *)
Theorem C46_recover : forall url1 r1 url2 r2, one_lines url1 r1 -> one_lines url2 r2 ->
  plain (print_res url1 r1 (host_type_number (r_host_type r1))) = plain (print_res url2 r2 (host_type_number (r_host_type r2))) ->
  url1 = url2 /\ r1 = r2.
Proof. exact c46_recover. Qed.
Definition ex_result1 : result :=
  mkResult (str "https://") [] (str "a") (str "b") (str "com") (str "b.com") (str "80") (str "/x") HHostName.
Example C46_example : plain (print_res (str "u") ex_result1 1) =
  str "              url: u" ++ nl ++ str "           scheme: https://" ++ nl ++ str "         userinfo: " ++ nl
  ++ str "        subdomain: a" ++ nl ++ str "           domain: b" ++ nl ++ str "           suffix: com" ++ nl
  ++ str "registered domain: b.com" ++ nl ++ str "             port: 80" ++ nl ++ str "             path: /x" ++ nl
  ++ str "        host type: hostname" ++ nl ++ nl
  /\ one_lines (str "u") ex_result1
  /\ In ([FgHiBlack], str "         userinfo: ") (print_res (str "u") ex_result1 1).
Proof.
  split; [vm_compute; reflexivity|]. split; [|vm_compute; auto 10].
  repeat constructor; intros H; vm_compute in H; repeat (destruct H as [H|H]; [discriminate|]); exact H.
Qed.
(** Without the condition on line feeds it is not so. *)
Example C46_recover_condition : exists url1 r1 url2 r2, url1 <> url2 /\
  plain (print_res url1 r1 (host_type_number (r_host_type r1))) = plain (print_res url2 r2 (host_type_number (r_host_type r2))).
Proof.
  exists (str "u" ++ nl ++ str "           scheme: x"), (mkResult [] [] [] [] [] [] [] [] HNone).
  exists (str "u"), (mkResult (str "x" ++ nl ++ str "           scheme: ") [] [] [] [] [] [] [] HNone).
  split; [vm_compute; discriminate|]. vm_compute. reflexivity.
Qed.

(** C47: the command, in any environment. *)
Theorem C47_command : forall E (step : forall R : Type, sys R -> E -> R -> E -> Prop) to_ascii hardcoded ext quote private ignore puny arg
    e m tr e' m' o,
  runs step (extract_command to_ascii hardcoded ext quote private ignore puny arg) e m tr e' m' o ->
  exists f r er output, runs step (new to_ascii hardcoded (mkListParams [] private)) e m tr e' m' (Ret (f, None))
    /\ extract ext (trie_in m' f) (mkParams arg ignore puny) = Ret (r, er)
    /\ shows arg r (host_type_number (r_host_type r)) output
    /\ o = Ret (Printed (match er with Some er => error_line (err_message quote er) | None => [] end ++ output)).
Proof. exact c47_shows. Qed.
(** With a fresh cache file, the result is that of its list. *)
Theorem C47_cached_list : forall to_ascii hardcoded ext quote private ignore puny arg d m tr d' m' o text mtime,
  disk_ok d -> no_list_at d [] -> unpadded (default_path d) -> can_open d (d_temp d) ->
  list_at d (default_path d) text mtime -> (d_now d' - mtime <= 72 * 3600 * 1000000000)%Z ->
  runs disk_step (extract_command to_ascii hardcoded ext quote private ignore puny arg) d m tr d' m' o ->
  exists rules t r er output, used_rules to_ascii text private rules /\ build_trie rules = Ret t
    /\ extract ext t (mkParams arg ignore puny) = Ret (r, er)
    /\ shows arg r (host_type_number (r_host_type r)) output
    /\ o = Ret (Printed (match er with Some er => error_line (err_message quote er) | None => [] end ++ output)).
Proof. exact c47_fresh. Qed.

Definition ex_cache : list (bytes * entry) :=
  [(str "/tmp/", Directory 0 true);
   (str "/tmp/public_suffix_list.dat", Regular (ex_list (str "com") []) 999999999999999999%Z true true)].
Definition ex_command (arg : String.string) :=
  exec ex_net (extract_command ex_to_ascii ex_built_in ex_idna (fun s => s) false false false (str arg)) (ex_disk ex_cache) ex_memory.
Example C47_example :
  disk_ok (ex_disk ex_cache) /\ no_list_at (ex_disk ex_cache) [] /\ unpadded (default_path (ex_disk ex_cache))
  /\ can_open (ex_disk ex_cache) (d_temp (ex_disk ex_cache))
  /\ list_at (ex_disk ex_cache) (default_path (ex_disk ex_cache)) (ex_list (str "com") []) 999999999999999999%Z
  /\ ex_result (ex_command "a.b.com") = Ret (Printed (print_res (str "a.b.com")
       (mkResult [] [] (str "a") (str "b") (str "com") (str "b.com") [] [] HHostName) 1))
  /\ ex_result (ex_command "http://u@b.com:x") = Ret (Printed (error_line (str "invalid port") ++ print_res (str "http://u@b.com:x")
       (mkResult (str "http://") (str "u") [] [] [] [] [] [] HNone) 0)).
Proof.
  split; [apply ex_disk_ok; vm_compute; discriminate|]. split; [intros text mt (_ & _ & w & X); discriminate X|].
  split; [apply trimmed_b; vm_compute; reflexivity|]. split; [vm_compute; auto|].
  split; [|split; vm_compute; reflexivity].
  split; [discriminate|]. split; [apply markers_b; vm_compute; reflexivity|]. exists true. vm_compute. reflexivity.
Qed.

Print Assumptions C46_table.
Print Assumptions C46_recover.
Print Assumptions C47_command.
Print Assumptions C47_cached_list.
