(** PropCli.v - the command line: C96, C97. *)

From Verif Require Import Base BaseFacts Chars Str Trie Extract Psl ListSpec ListFacts World Update UpdateSpec WorldFacts
  Calls Print PrintSpec PrintProofs Cli CliSpec CliProofs ExampleBase ExampleDisk PropPrint.
Local Open Scope N_scope.

(** C96: how "fasttld extract ..." and "fasttld ext ..." are read. *)
Theorem C96_extract : forall version name args l words, extract_name name -> reads args l words ->
  (is_on l HelpWanted true -> decide version (name :: args) = ShowHelp ExtractCommand)
  /\ (is_on l HelpWanted false -> (forall url, words <> [url]) -> decide version (name :: args) = Fails (WrongNumberOfArgs (len words)))
  /\ forall url p i t, is_on l HelpWanted false -> words = [url] ->
       is_on l IncludePrivateSuffix p -> is_on l IgnoreSubDomains i -> is_on l ToPunyCode t ->
       decide version (name :: args) = RunExtract p i t url.
Proof. exact c96_extract. Qed.
(** There is one reading at most, and every option is on or off, not both. *)
Theorem C96_one_reading : forall args l1 w1 l2 w2, reads args l1 w1 -> reads args l2 w2 -> l1 = l2 /\ w1 = w2.
Proof. exact reads_fun. Qed.
Theorem C96_on_or_off : forall l v, exists b, forall b', is_on l v b' <-> b' = b.
Proof. exact is_on_one. Qed.
(** Arguments that cannot be read are an error. *)
Theorem C96_unreadable : forall version name args, extract_name name -> (forall l words, ~ reads args l words) ->
  exists e, decide version (name :: args) = Fails e.
Proof. exact c96_unreadable. Qed.
(** All command lines that lead to Extract: the name of the command may also stand behind
    arguments that begin with '-'. *)
Theorem C96_iff : forall version args p i t url, decide version args = RunExtract p i t url <->
  exists pre name post l, args = pre ++ name :: post /\ before_command pre /\ extract_name name /\ reads (pre ++ post) l [url]
    /\ is_on l HelpWanted false /\ is_on l IncludePrivateSuffix p /\ is_on l IgnoreSubDomains i /\ is_on l ToPunyCode t.
Proof. exact c96_iff. Qed.
(** Options may stand before and after the URL. *)
Theorem C96_swap : forall version name args1 s l w args2, extract_name name -> spells s l -> word w ->
  decide version (name :: args1 ++ s :: w :: args2) = decide version (name :: args1 ++ w :: s :: args2).
Proof. exact c96_swap. Qed.
(** Every text can be passed as URL, with any options; without "--" it must not begin with '-'. *)
Theorem C96_end : forall version name args l url p i t, extract_name name -> reads args l [] ->
  is_on l HelpWanted false -> is_on l IncludePrivateSuffix p -> is_on l IgnoreSubDomains i -> is_on l ToPunyCode t ->
  (forall u, In u args -> u <> str "--") ->
  decide version (name :: args ++ [str "--"; url]) = RunExtract p i t url.
Proof. exact c96_end. Qed.
Theorem C96_plain : forall version name url, extract_name name -> word url ->
  decide version [name; url] = RunExtract false false false url.
Proof. exact c96_plain. Qed.
Theorem C96_dash : forall version args p i t url, decide version args = RunExtract p i t url ->
  ~ In (str "--") args -> word url.
Proof. exact c96_dash. Qed.
(** Other commands than those of the program and of cobra are an error. *)
Theorem C96_unknown : forall version (name : bytes) (args : list bytes), name <> [] -> (forall t, name <> str "-" ++ t) ->
  ~ In name [str "extract"; str "ext"; str "help"; str "completion"; str "__complete"; str "__completeNoDesc"] ->
  decide version (name :: args) = Fails (UnknownCommand name).
Proof. exact c96_unknown. Qed.
(** Options cannot stand before the name of the command as they can behind it: the first of these
    hides the name. *)
Theorem C96_before_refuted : exists version s l url,
  spells s l /\ word url /\ decide version [str "extract"; s; url] = RunExtract true false false url
  /\ decide version [s; str "extract"; url] = Fails (UnknownCommand url).
Proof.
  exists [], (str "-p"), [(IncludePrivateSuffix, true)], (str "a.com"). split; [|split; [|split; vm_compute; reflexivity]].
  - apply (spells_letters (str "p")); [discriminate|].
    apply (letters_more _ (str "private-suffix") (str "p") []); [left; reflexivity|constructor].
  - right. intros t [=].
Qed.

Definition ex_args : list bytes := [str "-pt"; str "a.com"; str "--ignore-subdomains=1"; str "-t=False"].
Definition ex_settings : list (variable * bool) :=
  [(IncludePrivateSuffix, true); (ToPunyCode, true); (IgnoreSubDomains, true); (ToPunyCode, false)].
Lemma ex_letters : letters (str "pt") [(IncludePrivateSuffix, true); (ToPunyCode, true)].
Proof.
  apply (letters_more _ (str "private-suffix") (str "p") (str "t")); [left; reflexivity|].
  apply (letters_more _ (str "to-punycode") (str "t") []); [right; right; left; reflexivity|constructor].
Qed.
Lemma ex_reads : reads ex_args ex_settings [str "a.com"].
Proof.
  apply (reads_option (str "-pt") [(IncludePrivateSuffix, true); (ToPunyCode, true)] _ [(IgnoreSubDomains, true); (ToPunyCode, false)]).
  { apply (spells_letters (str "pt")); [discriminate|exact ex_letters]. }
  apply reads_word; [right; intros t [=]|].
  apply (reads_option (str "--ignore-subdomains=1") [(IgnoreSubDomains, true)] _ [(ToPunyCode, false)]).
  { apply (spells_value IgnoreSubDomains (str "ignore-subdomains") (str "i") (str "1")); [right; left; reflexivity|].
    apply means_true. left. reflexivity. }
  apply (reads_option (str "-t=False") [(ToPunyCode, false)] [] [] []); [|constructor].
  apply (spells_letters (str "t=False")); [discriminate|].
  apply (letters_value ToPunyCode (str "to-punycode") (str "t") (str "False")); [right; right; left; reflexivity|].
  apply means_false. vm_compute. auto 10.
Qed.
Lemma ex_on : is_on ex_settings HelpWanted false /\ is_on ex_settings IncludePrivateSuffix true
  /\ is_on ex_settings IgnoreSubDomains true /\ is_on ex_settings ToPunyCode false.
Proof. repeat split; apply get_bool_on; vm_compute; reflexivity. Qed.
Example C96_example :
  extract_name (str "ext") /\ reads ex_args ex_settings [str "a.com"] /\ is_on ex_settings HelpWanted false
  /\ decide [] (str "ext" :: ex_args) = RunExtract true true false (str "a.com")
  /\ decide [] [str "extract"; str "-i"; str "--"; str "-p"] = RunExtract false true false (str "-p")
  /\ decide [] [str "extract"; str "-p"] = Fails (WrongNumberOfArgs 0)
  /\ decide [] [str "extract"; str "a.com"; str "--private-suffix=yes"] = Fails (InvalidValue (str "private-suffix") (str "yes"))
  /\ decide [] [str "extract"; str "a.com"; str "-x"] = Fails (UnknownShorthand 120)
  /\ decide [] [str "extract"; str "a.com"; str "-h"] = ShowHelp ExtractCommand
  /\ decide [] [] = RunRoot /\ decide [] [str "a.com"] = Fails (UnknownCommand (str "a.com"))
  /\ decide [] [str "--version"] = Fails (UnknownFlag (str "version")) /\ decide (str "1.0") [str "-v"] = ShowVersion
  (* before the command: a group of letters, and a URL hidden behind an option *)
  /\ decide [] [str "-pi"; str "extract"; str "a.com"] = RunExtract true true false (str "a.com")
  /\ decide [] [str "-p"; str "a.com"; str "extract"] = RunExtract true false false (str "a.com").
Proof.
  split; [right; reflexivity|]. split; [exact ex_reads|]. split; [exact (proj1 ex_on)|]. vm_compute. repeat split; reflexivity.
Qed.
Example C96_unreadable_example : forall l words, ~ reads [str "a.com"; str "-x"] l words.
Proof.
  intros l words R. assert (E : parse_args flags [str "a.com"; str "-x"] [] = inr (rev l ++ [], words)) by (apply parse_args_reads; eauto).
  vm_compute in E. discriminate.
Qed.
Example C96_before_example : before_command [str "-p"; str "a.com"; str "-it"; []].
Proof.
  apply before_hidden.
  - split; [exists 112; left; reflexivity|]. split; [discriminate|]. vm_compute. intuition discriminate.
  - apply before_alone; [right; eexists; reflexivity| |discriminate|].
    + intros ((c & [E|(t & E)]) & _ & _); discriminate.
    + apply before_alone; [left; reflexivity| |discriminate|constructor]. intros ((c & [E|(t & E)]) & _ & _); discriminate.
Qed.

(** C97: the whole program.  In any environment, "fasttld extract" with options and a URL prints
    what Extract finds, in front of it the error if there is one, and exits with status 0. *)
Theorem C97_extract : forall E (step : forall R : Type, sys R -> E -> R -> E -> Prop)
    to_ascii hardcoded ext quote version name args l url p i t e m tr e' m' o,
  extract_name name -> reads args l [url] ->
  is_on l HelpWanted false -> is_on l IncludePrivateSuffix p -> is_on l IgnoreSubDomains i -> is_on l ToPunyCode t ->
  runs step (cmd_main to_ascii hardcoded ext quote version (name :: args)) e m tr e' m' o ->
  exists f r er output, runs step (new to_ascii hardcoded (mkListParams [] p)) e m tr e' m' (Ret (f, None))
    /\ extract ext (trie_in m' f) (mkParams url i t) = Ret (r, er)
    /\ shows url r (host_type_number (r_host_type r)) output
    /\ o = Ret (Exit 0 (match er with Some er => error_line (err_message quote er) | None => [] end ++ output)).
Proof. exact @c97_extract. Qed.
(** If the arguments cannot be read, or contain no URL or several, the program does nothing and
    exits with status 1. *)
Theorem C97_fails : forall E (step : forall R : Type, sys R -> E -> R -> E -> Prop)
    to_ascii hardcoded ext quote version name args e m tr e' m' o, extract_name name ->
  (forall l words, reads args l words -> is_on l HelpWanted false /\ forall url, words <> [url]) ->
  runs step (cmd_main to_ascii hardcoded ext quote version (name :: args)) e m tr e' m' o ->
  tr = [] /\ e' = e /\ m' = m /\ o = Ret (Exit 1 []).
Proof. exact @c97_fails. Qed.
(** Nothing but a command line that leads to Extract reads or changes a file or uses the network. *)
Theorem C97_otherwise : forall E (step : forall R : Type, sys R -> E -> R -> E -> Prop)
    to_ascii hardcoded ext quote version args e m tr e' m' o,
  (forall p i t url, decide version args <> RunExtract p i t url) ->
  runs step (cmd_main to_ascii hardcoded ext quote version args) e m tr e' m' o ->
  tr = [] /\ e' = e /\ m' = m /\ (o = Ret (Exit 0 []) \/ o = Ret (Exit 1 []) \/ exists d, o = Ret (CobraText d)).
Proof. exact @c97_otherwise. Qed.
(** The status tells whether the command line was right, not whether the URL was. *)
Theorem C97_status : forall E (step : forall R : Type, sys R -> E -> R -> E -> Prop)
    to_ascii hardcoded ext quote version args e m tr e' m' o,
  runs step (cmd_main to_ascii hardcoded ext quote version args) e m tr e' m' o ->
  (exists d, o = Ret (CobraText d)) \/ exists s output, o = Ret (Exit s output)
    /\ (s = 0%Z /\ (forall er, decide version args <> Fails er) \/ s = 1%Z /\ output = [] /\ exists er, decide version args = Fails er).
Proof. exact @c97_status. Qed.

Definition ex_main (args : list bytes) :=
  exec ex_net (cmd_main ex_to_ascii ex_built_in ex_idna (fun s => s) [] args) (ex_disk ex_cache) ex_memory.
Example C97_example :
  ex_result (ex_main (str "ext" :: ex_args)) = Ret (Exit 0 (print_res (str "a.com")
       (mkResult [] [] [] (str "a") (str "com") (str "a.com") [] [] HHostName) 1))
  /\ ex_result (ex_main [str "extract"; str "http://u@b.com:x"]) = Ret (Exit 0 (error_line (str "invalid port") ++ print_res (str "http://u@b.com:x")
       (mkResult (str "http://") (str "u") [] [] [] [] [] [] HNone) 0))
  /\ ex_result (ex_main [str "extract"; str "a.com"; str "b.com"]) = Ret (Exit 1 [])
  /\ ex_result (ex_main []) = Ret (Exit 0 []).
Proof. repeat split; vm_compute; reflexivity. Qed.

Print Assumptions C96_extract.
Print Assumptions C96_one_reading.
Print Assumptions C96_on_or_off.
Print Assumptions C96_unreadable.
Print Assumptions C96_iff.
Print Assumptions C96_swap.
Print Assumptions C96_end.
Print Assumptions C96_plain.
Print Assumptions C96_dash.
Print Assumptions C96_unknown.
Print Assumptions C96_before_refuted.
Print Assumptions C97_extract.
Print Assumptions C97_fails.
Print Assumptions C97_otherwise.
Print Assumptions C97_status.
