(** PropDemo.v - what the program examples/demo.go prints: C105. *)

From Verif Require Import Base BaseFacts Str Trie Extract Psl ListSpec World Update Calls UpdateSpec WorldFacts Print PrintSpec Builtin BuiltinSpec
  UpdateProofs EndProofs Demo DemoSpec DemoProofs DemoText ExampleBase ExampleDisk PropBuiltin PropEnd.

(** C105: whatever files and network do, the program neither crashes nor stops early.  It prints ten
    sections, each with what Extract says by a complete list, the built-in one or one that was read;
    only the sixth uses the private section of its list. *)
Theorem C105_demo : forall E (step : forall R : Type, sys R -> E -> R -> E -> Prop) to_ascii hardcoded ext quote e m tr e' m' o, runs step (demo to_ascii hardcoded ext quote) e m tr e' m' o ->
  exists t1 t2 t3 t4 o1 o2 o3 o4 o5 o6 o7 o8 o9 o10,
    of_list to_ascii hardcoded tr false t1 /\ of_list to_ascii hardcoded tr false t2
    /\ of_list to_ascii hardcoded tr true t3 /\ of_list to_ascii hardcoded tr false t4
    /\ section ext t1 "Hostname" (demo_url "https://user@a.subdomain.example.a%63.uk:5000/a/b?id=42") o1
    /\ section ext t1 "IPv4 Address" (demo_url "https://127.0.0.1:5000") o2
    /\ section ext t1 "IPv6 Address" (demo_url "https://[aBcD:ef01:2345:6789:aBcD:ef01:2345:6789]:5000") o3
    /\ section ext t1 "Internationalised label separators" (demo_url "https://brb.i。am．going｡to．be。a｡fk") o4
    /\ section ext t2 "Exclude Private Domains" (demo_url "https://google.blogspot.com") o5
    /\ section ext t3 "Include Private Domains" (demo_url "https://google.blogspot.com") o6
    /\ section ext t4 "Ignore Subdomains" (mkParams (str "https://maps.google.com") true false) o7
    /\ section ext t4 "No Punycode" (demo_url "https://hello.世界.com") o8
    /\ section ext t4 "Punycode" (mkParams (str "https://hello.世界.com") false true) o9
    /\ error_section ext t4 (err_message quote) "Parsing errors" (demo_url "https://example!.com") o10
    /\ o = Ret (Some (o1 ++ o2 ++ o3 ++ o4 ++ o5 ++ o6 ++ o7 ++ o8 ++ o9 ++ o10)).
Proof. exact @c105. Qed.
(** A fresh cache file with two private rules and no network: the suffixes in the first nine sections. *)
Definition ex_demo_files : list (bytes * entry) :=
  [(str "/tmp/", Directory 0 true);
   (str "/tmp/public_suffix_list.dat", Regular (ex_list (str "com" ++ nl ++ str "uk") (str "blogspot.com" ++ nl ++ str "google.com"))
     999999999999999999%Z true true)].
Example C105_demo_example :
  exists o, ex_result (exec ex_net (demo ex_to_ascii ex_built_in ex_idna (fun s => s)) (ex_disk ex_demo_files) ex_memory) = Ret (Some o)
    /\ map (fun i => snd (nth (22 * i + 12) o ([], []))) (seq 0 9)
       = map (fun s => str s ++ nl) ["uk"; ""; ""; ""; "com"; "blogspot.com"; "com"; "com"; "com"]%string.
Proof. eexists. split; vm_compute; reflexivity. Qed.

(** If no file could be read, so that all lists are the built-in one, the program prints exactly
    [demo_text]; [demo_idna] is what the IDNA library has to say about the hosts in it. *)
Theorem C105_text : forall E (step : forall R : Type, sys R -> E -> R -> E -> Prop) to_ascii ext quote e m tr e' m' o,
  idna_on_builtin to_ascii -> demo_idna ext ->
  runs step (demo to_ascii hardcoded_psl ext quote) e m tr e' m' o -> (forall path text, ~ was_read tr path text) ->
  exists output, o = Ret (Some output) /\ plain output = demo_text.
Proof. exact c105_text. Qed.
Definition ex_demo_idna : idna :=
  mkIdna (fun _ => None) (fun s => if bytes_eqb s (str "hello.世界.com") then Some (str "hello.xn--rhqv96g.com") else Some s).
Example C105_text_example : idna_on_builtin ex_ascii /\ demo_idna ex_demo_idna
  /\ exists tr m1 r, runs unreadable (demo ex_ascii hardcoded_psl ex_demo_idna (fun s => s)) tt ex_memory tr tt m1 r
  /\ forall path text, ~ was_read tr path text.
Proof.
  split; [exact ex_ascii_ok|]. split; [split; [intros h _; reflexivity|vm_compute; reflexivity]|].
  destruct (runs_exist unit unreadable) with (A := option (list piece)) (p := demo ex_ascii hardcoded_psl ex_demo_idna (fun s => s))
    (e := tt) (m := ex_memory) as (tr & e' & m1 & r & H).
  - intros R o e. destruct o; cbn [unreadable]; try (exists None; exists tt; reflexivity).
    + exists []. exists tt. exact I.
    + exists 0%Z. exists tt. exact I.
    + exists true. exists tt. exact I.
    + exists true. exists tt. exact I.
    + exists true. exists tt. exact I.
    + exists NoResponse. exists tt. exact I.
  - destruct e'. exists tr, m1, r. split; [exact H|].
    refine (runs_unread unit unreadable _ _ _ _ _ _ _ _ _ H). intros path e x e' S. exact S.
Qed.

Print Assumptions C105_demo.
Print Assumptions C105_text.
