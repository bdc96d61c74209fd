(** PropPsl.v - properties of the list files, of New and of Update: C31-C42.

    [runs step p e m tr e' m' r] says that the program [p] may run from environment [e] and
    memory [m] to [e'] and [m'] with result [r] and the file, network and clock operations
    [tr].  With [disk_step] the environment is a file system without other users, with any
    other [step] it is arbitrary.  [to_ascii] is idna.ToASCII, [hardcoded] the built-in list. *)

From Verif Require Import Base BaseFacts Chars Str Trie Extract Psl ListSpec ListFacts World Update UpdateSpec WorldFacts
  NewFacts UpdateProofs DiskProofs DiskProofs2 FileProofs ExampleBase ExampleDisk.
Local Open Scope N_scope.

(** C31 *)
Theorem C31_sections : forall to_ascii text public private all,
  parse_list to_ascii text = mkSuffixes public private all <->
  list_rules to_ascii text public private /\ all = public ++ private.
Proof. exact c31. Qed.
Example C31_example : parse_list ex_to_ascii
  (str " com " ++ nl ++ str "// comment" ++ nl ++ str "ee" ++ nl ++ str "a?b" ++ nl ++ nl
   ++ str "  // ===BEGIN PRIVATE DOMAINS===" ++ nl ++ str "blog.com" ++ nl ++ str "// ===BEGIN PRIVATE DOMAINS===" ++ nl ++ str "x")
  = mkSuffixes [str "com"; str "xn--ee"; str "ee"] [str "blog.com"; str "x"]
      [str "com"; str "xn--ee"; str "ee"; str "blog.com"; str "x"].
Proof. vm_compute. reflexivity. Qed.

(** C32 *)
Theorem C32_private_invisible : forall to_ascii hardcoded text1 text2 before marker after1 after2
    path1 d1 m1 tr1 d1' m1' a1 mt1 wr1 path2 d2 m2 tr2 d2' m2' a2 mt2 wr2,
  has_lines text1 (before ++ marker :: after1) -> has_lines text2 (before ++ marker :: after2) -> opens_private marker ->
  path1 <> [] -> at_path d1 path1 = Regular text1 mt1 true wr1 ->
  runs disk_step (trie_construct to_ascii hardcoded false path1) d1 m1 tr1 d1' m1' (Ret (a1, None)) ->
  path2 <> [] -> at_path d2 path2 = Regular text2 mt2 true wr2 ->
  runs disk_step (trie_construct to_ascii hardcoded false path2) d2 m2 tr2 d2' m2' (Ret (a2, None)) ->
  forall ext p, extract ext (m_trie m1' a1) p = extract ext (m_trie m2' a2) p.
Proof. exact c32. Qed.
(** The rules of the extractor are the public ones. *)
Theorem C32_public : forall to_ascii text1 text2 before marker after1 after2,
  has_lines text1 (before ++ marker :: after1) -> has_lines text2 (before ++ marker :: after2) -> opens_private marker ->
  s_public (parse_list to_ascii text1) = s_public (parse_list to_ascii text2).
Proof. exact c32_public. Qed.
Example C32_example :
  let marker := str "// ===BEGIN PRIVATE DOMAINS===" in
  let text1 := ex_list (str "com") (str "blog.com") in let text2 := ex_list (str "com") (str "shop.com") in
  let before := [str "com"; str "// ===BEGIN ICANN DOMAINS==="; str "// ===END ICANN DOMAINS==="] in
  let run text := exec ex_net (trie_construct ex_to_ascii ex_built_in false (str "/x")) (ex_disk [(str "/x", Regular text 0 true true)]) ex_memory in
  has_lines text1 (before ++ marker :: [str "blog.com"; str "// ===END PRIVATE DOMAINS==="; []])
  /\ has_lines text2 (before ++ marker :: [str "shop.com"; str "// ===END PRIVATE DOMAINS==="; []])
  /\ opens_private marker /\ ex_result (run text1) = Ret (0%nat, None) /\ ex_result (run text2) = Ret (0%nat, None)
  /\ m_trie (ex_memory_of (run text1)) 0 = trie_of [str "com"]
  /\ s_private (parse_list ex_to_ascii text1) <> s_private (parse_list ex_to_ascii text2).
Proof.
  split; [apply has_lines_b; vm_compute; reflexivity|]. split; [apply has_lines_b; vm_compute; reflexivity|].
  split; [apply trimmed_b; vm_compute; reflexivity|]. split; [vm_compute; reflexivity|]. split; [vm_compute; reflexivity|].
  split; [vm_compute; reflexivity|]. vm_compute. discriminate.
Qed.

(** C33 *)
Theorem C33_comments : forall to_ascii hardcoded private text1 text2 before line after
    path1 d1 m1 tr1 d1' m1' a1 mt1 wr1 path2 d2 m2 tr2 d2' m2' a2 mt2 wr2,
  has_lines text1 (before ++ after) -> has_lines text2 (before ++ line :: after) ->
  ignored_line line -> ~ opens_private line ->
  path1 <> [] -> at_path d1 path1 = Regular text1 mt1 true wr1 ->
  runs disk_step (trie_construct to_ascii hardcoded private path1) d1 m1 tr1 d1' m1' (Ret (a1, None)) ->
  path2 <> [] -> at_path d2 path2 = Regular text2 mt2 true wr2 ->
  runs disk_step (trie_construct to_ascii hardcoded private path2) d2 m2 tr2 d2' m2' (Ret (a2, None)) ->
  forall ext p, extract ext (m_trie m1' a1) p = extract ext (m_trie m2' a2) p.
Proof. exact c33. Qed.
Theorem C33_parse : forall to_ascii text1 text2 before line after,
  has_lines text1 (before ++ after) -> has_lines text2 (before ++ line :: after) ->
  ignored_line line -> ~ opens_private line ->
  parse_list to_ascii text2 = parse_list to_ascii text1.
Proof. exact c33_parse. Qed.
Example C33_example :
  let text1 := str "com" ++ nl ++ str "uk" in let text2 := str "com" ++ nl ++ str "  //x " ++ nl ++ str "uk" in
  has_lines text1 ([str "com"] ++ [str "uk"]) /\ has_lines text2 ([str "com"] ++ str "  //x " :: [str "uk"])
  /\ ignored_line (str "  //x ") /\ ~ opens_private (str "  //x ")
  /\ s_all (parse_list ex_to_ascii text2) = [str "com"; str "uk"].
Proof.
  split; [apply has_lines_b; vm_compute; reflexivity|]. split; [apply has_lines_b; vm_compute; reflexivity|].
  split; [exists (str "//x"); split; [apply trimmed_b; vm_compute; reflexivity|right; exists (str "x"); reflexivity]|].
  split; [|vm_compute; reflexivity]. intros X. apply trim_space_iff in X. vm_compute in X. discriminate X.
Qed.

(** C34: in any environment New returns an extractor and no error; its list is the built-in
    one, or one that was read from the file the extractor remembers.  [C34_total]: New returns
    whenever its operations do. *)
Theorem C34_extractor : forall E (step : forall R : Type, sys R -> E -> R -> E -> Prop) to_ascii hardcoded n e m tr e' m' r,
  runs step (new to_ascii hardcoded n) e m tr e' m' r ->
  exists f, r = Ret (f, None) /\ x_private (m_extractor m' f) = lp_private n /\
    ((serves to_ascii m' f (lp_private n) hardcoded /\ x_path (m_extractor m' f) = [])
     \/ exists text, was_read tr (x_path (m_extractor m' f)) text /\ serves to_ascii m' f (lp_private n) text).
Proof. exact c34. Qed.
Theorem C34_total : forall E (step : forall R : Type, sys R -> E -> R -> E -> Prop),
  (forall R (o : sys R) e, exists x e', step R o e x e') ->
  forall to_ascii hardcoded n e m, exists tr e' m' r, runs step (new to_ascii hardcoded n) e m tr e' m' r.
Proof. intros E step H to_ascii hardcoded n e m. apply runs_exist. exact H. Qed.
(** No file, no network: the built-in list. *)
Example C34_example : let x := ex_new (mkListParams (str "/x") true) [(str "/tmp/", Directory 0 true)] ex_net in
  ex_result x = Ret (1%nat, None) /\ serves ex_to_ascii (ex_memory_of x) 1 true ex_built_in.
Proof.
  split; [vm_compute; reflexivity|]. eapply serves_b; [vm_compute; reflexivity|]. vm_compute. reflexivity.
Qed.

(** C35: full statement: also for paths with surrounding white space.  False there: such a
    path is checked without the white space but read with it. *)
Theorem C35_partial : forall to_ascii hardcoded n d m tr d' m' r text mt,
  disk_ok d -> unpadded (lp_path n) -> list_at d (lp_path n) text mt ->
  runs disk_step (new to_ascii hardcoded n) d m tr d' m' r ->
  exists f, r = Ret (f, None) /\ serves to_ascii m' f (lp_private n) text
    /\ x_path (m_extractor m' f) = lp_path n /\ ~ downloads tr /\ d_entry d' = d_entry d.
Proof. exact c35_partial. Qed.
Definition custom : bytes := ex_list (str "custom") (str "own").
Example C35_example :
  let d := ex_disk [(str "/x", Regular custom 0 true false)] in
  let x := ex_new (mkListParams (str "/x") true) [(str "/x", Regular custom 0 true false)] ex_net in
  disk_ok d /\ unpadded (str "/x") /\ list_at d (str "/x") custom 0
  /\ trie_in (ex_memory_of x) 0 = trie_of [str "custom"; str "own"].
Proof.
  split; [apply ex_disk_ok; vm_compute; discriminate|]. split; [apply trimmed_b; vm_compute; reflexivity|].
  split; [|vm_compute; reflexivity]. split; [discriminate|]. split; [apply markers_b; vm_compute; reflexivity|].
  exists false. vm_compute. reflexivity.
Qed.
Theorem C35_refuted : exists to_ascii hardcoded n d m tr d' m' r f text mt,
  disk_ok d /\ list_at d (lp_path n) text mt
  /\ runs disk_step (new to_ascii hardcoded n) d m tr d' m' r /\ r = Ret (f, None)
  /\ ~ serves to_ascii m' f (lp_private n) text /\ serves to_ascii m' f (lp_private n) hardcoded
  /\ lp_path n = str " x".
Proof.
  pose (files := [(str " x", Regular custom 0 true false)]). pose (n := mkListParams (str " x") false).
  exists ex_to_ascii, ex_built_in, n, (ex_disk files), ex_memory. do 4 eexists. exists 1%nat, custom, 0%Z.
  split; [apply ex_disk_ok; vm_compute; discriminate|]. split.
  { split; [discriminate|]. split; [apply markers_b; vm_compute; reflexivity|]. exists false. vm_compute. reflexivity. }
  split; [apply (exec_runs ex_net)|]. split; [vm_compute; reflexivity|]. split; [|split; [|reflexivity]].
  - intros (rules & U & B). apply used_rules_iff in U. vm_compute in U. subst rules. vm_compute in B. discriminate B.
  - eapply serves_b; [vm_compute; reflexivity|]. vm_compute. reflexivity.
Qed.

(** C36: nothing without the markers is handed over for writing, in any environment. *)
Theorem C36_stored_new : forall E (step : forall R : Type, sys R -> E -> R -> E -> Prop) to_ascii hardcoded n e m tr e' m' r,
  runs step (new to_ascii hardcoded n) e m tr e' m' r -> forall data ok, wrote tr data ok -> has_markers data.
Proof. exact new_wrote. Qed.
Theorem C36_stored_update : forall E (step : forall R : Type, sys R -> E -> R -> E -> Prop) to_ascii hardcoded f e m tr e' m' r,
  runs step (update to_ascii hardcoded f) e m tr e' m' r -> forall data ok, wrote tr data ok -> has_markers data.
Proof. exact update_wrote. Qed.
(** Full statement: New's extractor never uses a list without the markers.  False for paths
    with surrounding white space, for the same reason as C35. *)
Theorem C36_used_partial : forall to_ascii hardcoded n d m tr d' m' r,
  disk_ok d -> unpadded (lp_path n) -> unpadded (default_path d) ->
  runs disk_step (new to_ascii hardcoded n) d m tr d' m' r ->
  exists f, r = Ret (f, None) /\
    (serves to_ascii m' f (lp_private n) hardcoded
     \/ exists text, has_markers text /\ (stored d' (lp_path n) text \/ stored d' (default_path d) text)
        /\ serves to_ascii m' f (lp_private n) text).
Proof. exact c36_used_partial. Qed.
(** A file without the markers at the custom path; the cache is downloaded from the second
    source, since the first one sends no list. *)
Definition ex_mirror (url : bytes) : response :=
  if bytes_eqb url (str "https://publicsuffix.org/list/public_suffix_list.dat") then Response 200 (str "<html>") true
  else Response 200 custom true.
Example C36_example :
  let files := [(str "/x", Regular (str "bad") 0 true false); (str "/tmp/", Directory 0 true);
                (str "/tmp/public_suffix_list.dat", Absent true)] in
  let x := ex_new (mkListParams (str "/x") false) files ex_mirror in
  disk_ok (ex_disk files) /\ unpadded (str "/x") /\ unpadded (default_path (ex_disk files))
  /\ ex_result x = Ret (0%nat, None) /\ trie_in (ex_memory_of x) 0 = trie_of [str "custom"]
  /\ wrote (ex_trace x) custom true.
Proof.
  split; [apply ex_disk_ok; vm_compute; discriminate|]. split; [apply trimmed_b; vm_compute; reflexivity|].
  split; [apply trimmed_b; vm_compute; reflexivity|]. split; [vm_compute; reflexivity|]. split; [vm_compute; reflexivity|].
  exists (Event (Write 0 custom) true). split; [|reflexivity]. apply (nth_error_In _ 14). vm_compute. reflexivity.
Qed.
Theorem C36_used_refuted : exists to_ascii hardcoded n d m tr d' m' r f text mt,
  disk_ok d /\ unpadded (default_path d) /\ runs disk_step (new to_ascii hardcoded n) d m tr d' m' r /\ r = Ret (f, None)
  /\ at_path d (lp_path n) = Regular text mt true true /\ ~ has_markers text
  /\ serves to_ascii m' f (lp_private n) text /\ ~ serves to_ascii m' f (lp_private n) hardcoded
  /\ lp_path n = str " x" /\ text = str "bad".
Proof.
  pose (files := [(str "x", Regular custom 0 true false); (str " x", Regular (str "bad") 0 true true)]).
  pose (n := mkListParams (str " x") false).
  exists ex_to_ascii, ex_built_in, n, (ex_disk files), ex_memory. do 4 eexists. exists 0%nat, (str "bad"), 0%Z.
  split; [apply ex_disk_ok; vm_compute; discriminate|]. split; [apply trimmed_b; vm_compute; reflexivity|].
  split; [apply (exec_runs ex_net)|]. split; [vm_compute; reflexivity|]. split; [vm_compute; reflexivity|].
  split; [apply no_markers_b; vm_compute; reflexivity|]. split; [|split; [|auto]].
  - eapply serves_b; [vm_compute; reflexivity|]. vm_compute. reflexivity.
  - intros (rules & U & B). apply used_rules_iff in U. vm_compute in U. subst rules. vm_compute in B. discriminate B.
Qed.

(** C37: [t] is the moment at which the age is determined. *)
Theorem C37_refresh : forall to_ascii hardcoded n p d m tr d' m' r,
  disk_ok d -> trimmed white_space (lp_path n) p -> no_list_at d p ->
  unpadded (default_path d) -> runs disk_step (new to_ascii hardcoded n) d m tr d' m' r ->
  exists t, (d_now d <= t <= d_now d')%Z /\
    (downloads tr <-> can_open d (d_temp d) /\ can_write d (default_path d)
       /\ ~ exists text mtime, list_at d (default_path d) text mtime /\ (t - mtime <= 72 * 3600 * 1000000000)%Z).
Proof. exact c37. Qed.
Theorem C37_fresh : forall to_ascii hardcoded n p d m tr d' m' r text mtime,
  disk_ok d -> trimmed white_space (lp_path n) p -> no_list_at d p ->
  unpadded (default_path d) -> can_open d (d_temp d) ->
  runs disk_step (new to_ascii hardcoded n) d m tr d' m' r ->
  list_at d (default_path d) text mtime -> (d_now d' - mtime <= 72 * 3600 * 1000000000)%Z ->
  exists f, r = Ret (f, None) /\ serves to_ascii m' f (lp_private n) text /\ ~ downloads tr /\ d_entry d' = d_entry d.
Proof. exact c37_fresh. Qed.
(** A cache of exactly 72 hours is fresh, one nanosecond later it is not. *)
Definition cache_files (age : Z) : list (bytes * entry) :=
  [(str "/tmp/", Directory 0 true);
   (str "/tmp/public_suffix_list.dat", Regular (ex_list (str "cached") []) (1000000000000000000 - age) true true)].
Example C37_example :
  let n := mkListParams [] false in
  let x age := ex_new n (cache_files age) ex_mirror in
  (forall age, disk_ok (ex_disk (cache_files age))) /\ trimmed white_space (lp_path n) []
  /\ (forall age, no_list_at (ex_disk (cache_files age)) []) /\ (forall age, unpadded (default_path (ex_disk (cache_files age))))
  /\ trie_in (ex_memory_of (x (72 * 3600 * 1000000000)%Z)) 0 = trie_of [str "cached"]
  /\ trie_in (ex_memory_of (x (72 * 3600 * 1000000000 + 1)%Z)) 0 = trie_of [str "custom"].
Proof.
  split; [intros age; apply ex_disk_ok; vm_compute; discriminate|]. split; [apply trimmed_b; vm_compute; reflexivity|].
  split; [intros age text mt (_ & _ & w & X); discriminate X|].
  split; [intros age; apply trimmed_b; vm_compute; reflexivity|]. split; vm_compute; reflexivity.
Qed.

(** C38 *)
Theorem C38_no_op : forall to_ascii hardcoded f d m tr d' m' r,
  runs disk_step (update to_ascii hardcoded f) d m tr d' m' r -> x_path (m_extractor m f) <> default_path d ->
  r = Ret (Some ErrNoOp) /\ m' = m /\ d' = d /\ ~ downloads tr.
Proof. exact c38. Qed.
(** An extractor with the built-in list stays as it is through all calls of New and Update,
    whatever happens in the environment. *)
Theorem C38_built_in : forall to_ascii hardcoded m m' f, memory_ok m -> (f < m_next_extractor m)%nat ->
  x_path (m_extractor m f) = [] -> calls to_ascii hardcoded m m' ->
  (forall ext p, extract ext (trie_in m' f) p = extract ext (trie_in m f) p)
  /\ forall tr m'' r, runs any_step (update to_ascii hardcoded f) tt m' tr tt m'' r ->
     r = Ret (Some ErrNoOp) /\ m'' = m' /\ ~ downloads tr /\ forall data ok, ~ wrote tr data ok.
Proof. exact c38_fallback. Qed.
(** So does one that New has made from the built-in list. *)
Theorem C38_fallback : forall E (step : forall R : Type, sys R -> E -> R -> E -> Prop) to_ascii hardcoded n e m tr e' m1 r, memory_ok m ->
  runs step (new to_ascii hardcoded n) e m tr e' m1 r ->
  exists f, r = Ret (f, None) /\
    ((exists text, was_read tr (x_path (m_extractor m1 f)) text /\ serves to_ascii m1 f (lp_private n) text)
     \/ (serves to_ascii m1 f (lp_private n) hardcoded
        /\ forall m2, calls to_ascii hardcoded m1 m2 ->
           (forall ext p, extract ext (trie_in m2 f) p = extract ext (trie_in m1 f) p)
           /\ forall tr' m3 r', runs any_step (update to_ascii hardcoded f) tt m2 tr' tt m3 r' ->
              r' = Ret (Some ErrNoOp) /\ m3 = m2 /\ ~ downloads tr' /\ forall data ok, ~ wrote tr' data ok)).
Proof. exact c38_new. Qed.
Example C38_example : let x := exec ex_mirror (update ex_to_ascii ex_built_in 0) (ex_disk (cache_files 0)) (ex_memory1 (str "/x")) in
  x_path (m_extractor (ex_memory1 (str "/x")) 0) <> default_path (ex_disk (cache_files 0)) /\ ex_result x = Ret (Some ErrNoOp)
  /\ memory_ok (ex_memory1 []) /\ x_path (m_extractor (ex_memory1 []) 0) = [].
Proof.
  split; [vm_compute; discriminate|]. split; [vm_compute; reflexivity|]. split; [|reflexivity].
  intros f _. cbn. apply Nat.lt_0_1.
Qed.

(** C39 *)
Theorem C39_failed_update : forall E (step : forall R : Type, sys R -> E -> R -> E -> Prop) to_ascii hardcoded f e m tr e' m' er,
  memory_ok m -> runs step (update to_ascii hardcoded f) e m tr e' m' (Ret (Some er)) ->
  forall g, (g < m_next_extractor m)%nat ->
    m_extractor m' g = m_extractor m g /\
    forall ext p, extract ext (trie_in m' g) p = extract ext (trie_in m g) p.
Proof. exact c39. Qed.
(** Update never affects other extractors. *)
Theorem C39_others : forall E (step : forall R : Type, sys R -> E -> R -> E -> Prop) to_ascii hardcoded f e m tr e' m' r,
  memory_ok m -> runs step (update to_ascii hardcoded f) e m tr e' m' r ->
  forall g, (g < m_next_extractor m)%nat -> g <> f ->
    m_extractor m' g = m_extractor m g /\
    forall ext p, extract ext (trie_in m' g) p = extract ext (trie_in m g) p.
Proof. exact c39_others. Qed.
(** All sources fail. *)
Example C39_example :
  let m := ex_memory1 (str "/tmp/public_suffix_list.dat") in
  let x := exec ex_net (update ex_to_ascii ex_built_in 0) (ex_disk (cache_files 0)) m in
  memory_ok m /\ ex_result x = Ret (Some ErrNoSource) /\ trie_in (ex_memory_of x) 0 = ex_trie /\ length (ex_trace x) = 4%nat.
Proof.
  split; [intros f _; cbn; apply Nat.lt_0_1|]. split; [vm_compute; reflexivity|]. split; vm_compute; reflexivity.
Qed.

(** C51 *)
Theorem C51_new_separate : forall E (step : forall R : Type, sys R -> E -> R -> E -> Prop) to_ascii hardcoded n e m tr e' m' r,
  memory_ok m -> runs step (new to_ascii hardcoded n) e m tr e' m' r ->
  (exists f, r = Ret (f, None) /\ (m_next_extractor m <= f)%nat)
  /\ forall g, (g < m_next_extractor m)%nat ->
    m_extractor m' g = m_extractor m g /\
    forall ext p, extract ext (trie_in m' g) p = extract ext (trie_in m g) p.
Proof. exact c51. Qed.
(** An extractor with the list of [ex_memory1] is there; New makes another one from a file. *)
Example C51_example :
  let m := ex_memory1 (str "/tmp/public_suffix_list.dat") in
  let x := exec ex_net (new ex_to_ascii ex_built_in (mkListParams [] false)) (ex_disk (cache_files 0)) m in
  memory_ok m /\ ex_result x = Ret (1%nat, None) /\ trie_in (ex_memory_of x) 1 = trie_of [str "cached"]
  /\ trie_in (ex_memory_of x) 0 = ex_trie.
Proof.
  split; [intros f _; cbn; apply Nat.lt_0_1|]. split; [vm_compute; reflexivity|]. split; vm_compute; reflexivity.
Qed.

(** C40: full statement: the file is exactly the downloaded body.  False: the file is not
    truncated, so the end of a longer old file stays ([C40_refuted]).  It holds if no write
    failed and nothing shorter than the old file was written; [C40_stored] says what holds
    always. *)
Theorem C40_partial : forall to_ascii hardcoded f d m tr d' m' old,
  runs disk_step (update to_ascii hardcoded f) d m tr d' m' (Ret None) ->
  initial_text d (default_path d) old ->
  (forall data ok, wrote tr data ok -> ok = true /\ (length old <= length data)%nat) ->
  exists body, downloaded tr body /\ stored d' (default_path d) body
    /\ serves to_ascii m' f (x_private (m_extractor m f)) body.
Proof. exact c40_partial. Qed.
Theorem C40_stored : forall to_ascii hardcoded f d m tr d' m',
  runs disk_step (update to_ascii hardcoded f) d m tr d' m' (Ret None) ->
  exists body before old, downloaded tr body /\ has_markers body /\ initial_text d (default_path d) old /\ patched old before
    /\ stored d' (default_path d) (body ++ skipn (length body) before)
    /\ serves to_ascii m' f (x_private (m_extractor m f)) (body ++ skipn (length body) before)
    /\ forall path, d_name d path <> d_name d (default_path d) -> at_path d' path = at_path d path.
Proof. exact c40_stored. Qed.
Definition old_files (old : bytes) : list (bytes * entry) :=
  [(str "/tmp/", Directory 0 true); (str "/tmp/public_suffix_list.dat", Regular old 0 true true)].
Definition ex_update (old : bytes) := exec ex_mirror (update ex_to_ascii ex_built_in 0) (ex_disk (old_files old))
  (ex_memory1 (str "/tmp/public_suffix_list.dat")).
Example C40_example : let x := ex_update (ex_list (str "old") []) in
  ex_result x = Ret None /\ at_path (ex_disk_of x) (str "/tmp/public_suffix_list.dat") = Regular custom 1000000000000000000 true true
  /\ (length (ex_list (str "old") []) <= length custom)%nat /\ trie_in (ex_memory_of x) 0 = trie_of [str "custom"].
Proof.
  split; [vm_compute; reflexivity|]. split; [vm_compute; reflexivity|]. split; [|vm_compute; reflexivity].
  apply Nat.leb_le. vm_compute. reflexivity.
Qed.
(** A rule at the end of the old file survives, as a private rule; the new list does not have it. *)
Theorem C40_refuted : exists to_ascii hardcoded f d m tr d' m' text,
  disk_ok d /\ memory_ok m /\ runs disk_step (update to_ascii hardcoded f) d m tr d' m' (Ret None)
  /\ stored d' (default_path d) text /\ ~ downloaded tr text
  /\ serves to_ascii m' f true text /\ used_rules to_ascii text true [str "custom"; str "own"; str "stale"]
  /\ (forall body, downloaded tr body -> has_markers body -> used_rules to_ascii body true [str "custom"; str "own"]).
Proof.
  pose (old := custom ++ str "stale" ++ nl).
  pose (m := mkMemory (fun _ => ex_trie) 1 (fun _ => mkExtractor (str "/tmp/public_suffix_list.dat") 0 true) 1).
  exists ex_to_ascii, ex_built_in, 0%nat, (ex_disk (old_files old)), m. do 3 eexists. exists old.
  split; [apply ex_disk_ok; vm_compute; discriminate|]. split; [intros f _; cbn; apply Nat.lt_0_1|].
  split.
  { change (Ret None) with (ex_result (exec ex_mirror (update ex_to_ascii ex_built_in 0) (ex_disk (old_files old)) m)).
    apply (exec_runs ex_mirror). }
  assert (B : forall body, downloaded (ex_trace (exec ex_mirror (update ex_to_ascii ex_built_in 0) (ex_disk (old_files old)) m)) body ->
    body = str "<html>" \/ body = custom).
  { intros body (e & Hi & D). vm_compute in Hi. repeat (destruct Hi as [<-|Hi]); try discriminate D; try contradiction.
    - left. injection D as <-. reflexivity.
    - right. injection D as <-. reflexivity. }
  split; [exists 1000000000000000000%Z, true, true; vm_compute; reflexivity|].
  split; [intros D; apply B in D as [D|D]; vm_compute in D; discriminate D|].
  split; [eapply serves_b; [vm_compute; reflexivity|]; vm_compute; reflexivity|].
  split; [apply used_rules_iff; vm_compute; reflexivity|].
  intros body D M. apply B in D as [-> | ->]; [|apply used_rules_iff; vm_compute; reflexivity].
  exfalso. apply delimiters_iff in M. vm_compute in M. discriminate M.
Qed.

(** C41: full statement: after a crash the cache file is the complete old or the complete new
    list.  False: the new list is written over the old one in place ([C41_refuted]).  What
    holds: the file is absent as before, or the old text with its beginning overwritten by
    pieces of downloaded lists; other files stay. *)
Theorem C41_partial : forall to_ascii hardcoded f d m d', reaches disk_step disk_during (update to_ascii hardcoded f) d m d' ->
  (at_path d' (default_path d) = at_path d (default_path d)
   \/ exists old new, initial_text d (default_path d) old /\ patched old new /\ stored d' (default_path d) new)
  /\ forall path, d_name d path <> d_name d (default_path d) -> at_path d' path = at_path d path.
Proof. exact c41_partial. Qed.
(** The write of "newrule..." over "oldrule..." is interrupted after two bytes.  The file then
    has the rule "nedrule", of neither list, and all markers, and the next New uses it. *)
Definition old_list : bytes := ex_list (str "oldrule") [].
Definition new_list : bytes := ex_list (str "newrule") [].
Definition ex_new_list (url : bytes) : response := Response 200 new_list true.
Definition ex_crash (k : nat) : disk :=
  crash ex_new_list k (update ex_to_ascii ex_built_in 0) (ex_disk (old_files old_list)) (ex_memory1 (str "/tmp/public_suffix_list.dat")).
Example C41_example :
  stored (ex_crash 2) (str "/tmp/public_suffix_list.dat") (ex_list (str "nedrule") [])
  /\ patched old_list (ex_list (str "nedrule") []).
Proof.
  split; [exists 1000000000000000000%Z, true, true; vm_compute; reflexivity|].
  change (ex_list (str "nedrule") []) with (firstn 2 new_list ++ skipn 2 old_list).
  apply patched_piece; [apply patched_same|apply markers_b; vm_compute; reflexivity|].
  apply Nat.leb_le. vm_compute. reflexivity.
Qed.
Theorem C41_refuted : exists to_ascii hardcoded f d m d' old_text new_text text tr1 d1 m1 tr d'' m'' g,
  disk_ok d /\ memory_ok m /\ reaches disk_step disk_during (update to_ascii hardcoded f) d m d'
  /\ stored d (default_path d) old_text /\ has_markers old_text
  /\ runs disk_step (update to_ascii hardcoded f) d m tr1 d1 m1 (Ret None) /\ stored d1 (default_path d) new_text
  /\ used_rules to_ascii old_text false [str "oldrule"] /\ used_rules to_ascii new_text false [str "newrule"]
  /\ stored d' (default_path d) text /\ used_rules to_ascii text false [str "nedrule"]
  /\ runs disk_step (new to_ascii hardcoded (mkListParams [] false)) d' ex_memory tr d'' m'' (Ret (g, None))
  /\ serves to_ascii m'' g false text.
Proof.
  pose (d := ex_disk (old_files old_list)). pose (m := ex_memory1 (str "/tmp/public_suffix_list.dat")).
  exists ex_to_ascii, ex_built_in, 0%nat, d, m, (ex_crash 2), old_list, new_list, (ex_list (str "nedrule") []).
  do 6 eexists. exists 0%nat.
  split; [apply ex_disk_ok; vm_compute; discriminate|]. split; [intros f _; cbn; apply Nat.lt_0_1|].
  split; [apply crash_reaches|]. split; [exists 0%Z, true, true; vm_compute; reflexivity|].
  split; [apply markers_b; vm_compute; reflexivity|]. split.
  { change (Ret None) with (ex_result (exec ex_new_list (update ex_to_ascii ex_built_in 0) d m)). apply (exec_runs ex_new_list). }
  split; [exists 1000000000000000000%Z, true, true; vm_compute; reflexivity|].
  split; [apply used_rules_iff; vm_compute; reflexivity|]. split; [apply used_rules_iff; vm_compute; reflexivity|].
  split; [exists 1000000000000000000%Z, true, true; vm_compute; reflexivity|].
  split; [apply used_rules_iff; vm_compute; reflexivity|]. split.
  { change (Ret (0%nat, None)) with (ex_result (exec ex_net (new ex_to_ascii ex_built_in (mkListParams [] false)) (ex_crash 2) ex_memory)).
    apply (exec_runs ex_net). }
  eapply serves_b; [vm_compute; reflexivity|]. vm_compute. reflexivity.
Qed.

(** C42: [C42_sources] for any list of sources, in any environment; [C42_update] for Update
    with the two sources of the code.  Besides the sources, Update needs to open the file and
    to read it again. *)
Theorem C42_sources : forall E (step : forall R : Type, sys R -> E -> R -> E -> Prop) file sources e m tr e' m' r,
  runs step (update_file file sources) e m tr e' m' r ->
  m' = m /\
  ((r = Ret None /\ exists before s after trs trl, sources = before ++ s :: after
      /\ Forall2 (fun s t => attempt file s t false) before trs /\ attempt file s trl true /\ tr = concat trs ++ trl)
   \/ (r = Ret (Some ErrNoSource) /\ exists trs, Forall2 (fun s t => attempt file s t false) sources trs /\ tr = concat trs)).
Proof. exact update_file_runs. Qed.
Theorem C42_update : forall E (step : forall R : Type, sys R -> E -> R -> E -> Prop) to_ascii hardcoded f e m tr e' m' r,
  runs step (update to_ascii hardcoded f) e m tr e' m' r -> exists temp tr1, tr = Event TempDir temp :: tr1 /\
  let path := temp ++ str "public_suffix_list.dat" in
  let source1 := str "https://publicsuffix.org/list/public_suffix_list.dat" in
  let source2 := str "https://raw.githubusercontent.com/publicsuffix/list/master/public_suffix_list.dat" in
  (x_path (m_extractor m f) <> path /\ tr1 = [] /\ r = Ret (Some ErrNoOp))
  \/ (x_path (m_extractor m f) = path /\
      ((tr1 = [Event (OpenWrite path) None] /\ r = Ret (Some ErrOpenCache))
       \/ exists fd,
         (exists t1 t2, attempt fd source1 t1 false /\ attempt fd source2 t2 false
            /\ tr1 = Event (OpenWrite path) (Some fd) :: t1 ++ t2 /\ r = Ret (Some ErrNoSource))
         \/ (exists ts text, (attempt fd source1 ts true
                             \/ exists t1 t2, ts = t1 ++ t2 /\ attempt fd source1 t1 false /\ attempt fd source2 t2 true)
            /\ tr1 = Event (OpenWrite path) (Some fd) :: ts ++ [Event (ReadFile path) text]
            /\ r = Ret (match text with Some _ => None | None => Some ErrReadList end)))).
Proof. exact c42_update. Qed.
(** The first source sends no list, the second one is used. *)
Example C42_example : exists t1 t2,
  let x := exec ex_mirror (update_file 0 public_suffix_list_sources) (ex_disk (old_files [])) ex_memory in
  ex_result x = Ret None /\ attempt 0 (str "https://publicsuffix.org/list/public_suffix_list.dat") t1 false
  /\ attempt 0 (str "https://raw.githubusercontent.com/publicsuffix/list/master/public_suffix_list.dat") t2 true
  /\ ex_trace x = t1 ++ t2.
Proof.
  exists [Event (HttpGet (str "https://publicsuffix.org/list/public_suffix_list.dat")) (Response 200 (str "<html>") true)].
  eexists. cbv zeta. split; [vm_compute; reflexivity|].
  split; [apply no_list, no_markers_b; vm_compute; reflexivity|].
  split; [apply (installed _ _ custom), markers_b; vm_compute; reflexivity|vm_compute; reflexivity].
Qed.

Print Assumptions C31_sections.
Print Assumptions C32_private_invisible.
Print Assumptions C32_public.
Print Assumptions C33_comments.
Print Assumptions C33_parse.
Print Assumptions C34_extractor.
Print Assumptions C34_total.
Print Assumptions C35_partial.
Print Assumptions C35_refuted.
Print Assumptions C36_stored_new.
Print Assumptions C36_stored_update.
Print Assumptions C36_used_partial.
Print Assumptions C36_used_refuted.
Print Assumptions C37_refresh.
Print Assumptions C37_fresh.
Print Assumptions C38_no_op.
Print Assumptions C38_built_in.
Print Assumptions C38_fallback.
Print Assumptions C51_new_separate.
Print Assumptions C39_failed_update.
Print Assumptions C39_others.
Print Assumptions C40_partial.
Print Assumptions C40_stored.
Print Assumptions C40_refuted.
Print Assumptions C41_partial.
Print Assumptions C41_refuted.
Print Assumptions C42_sources.
Print Assumptions C42_update.
