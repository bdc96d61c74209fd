(** PropRuleChars.v - which characters an accepted host name can contain, and what it means for
    tabs and newlines in URLs: C90 and more about C88. *)

From Verif Require Import Base BaseFacts Utf8 Chars Str StrFacts Net Trie Extract Host Addr NetFacts Parse ParseFacts
  UrlSpec UrlFacts ExtractFacts UrlProofs Rfc RuleSpec TrieFacts ErrSpec ExampleBase PropRules ListSpec PropBuiltin Builtin BuiltinSpec BuiltinProofs BrowserSpec BrowserProofs
  RuleCharProofs PropBrowser.
Local Open Scope N_scope.

(** C90: a label of an accepted host name with a forbidden character belongs, with the labels on
    the right of it, to the beginning of a rule, and no wildcard stands for one of these labels.
    U+0378, U+206B and U+2A74 are excepted (C19). *)
Theorem C90_forbidden_in_rule : forall ext rules t p r scheme user raw h port path first zs segs c i,
  build_trie rules = Ret t -> extract ext t p = Ret (r, None) -> r_host_type r = HHostName ->
  url_parts ext p scheme user raw h port path -> labelled h first zs segs ->
  seen_char c -> (i <= length segs)%nat -> has_char c (nth i (labels first segs) []) ->
  known rules (reach (labels first segs) (S i)) = true
  /\ forall j, (j <= i)%nat -> known rules (reach (labels first segs) j ++ [str "*"]) = false.
Proof. exact c90. Qed.

(** A rule with a blank. *)
Definition blank_rules : list bytes := [str "com"; str "x y.com"].
Example C90_example : exists r, build_trie blank_rules = Ret (trie_of blank_rules)
  /\ extract ex_idna (trie_of blank_rules) (ex_params "a.x y.com") = Ret (r, None) /\ r_host_type r = HHostName
  /\ r_suffix r = str "x y.com"
  /\ url_parts ex_idna (ex_params "a.x y.com") [] None (str "a.x y.com") (str "a.x y.com") None []
  /\ labelled (str "a.x y.com") (str "a") [] [(str "com", str "."); (str "x y", str ".")]
  /\ seen_char 32 /\ has_char 32 (nth 1 [str "com"; str "x y"; str "a"] [])
  /\ known blank_rules (reach [str "com"; str "x y"; str "a"] 2) = true.
Proof.
  eexists. split; [vm_compute; reflexivity|]. split; [vm_compute; reflexivity|]. split; [reflexivity|]. split; [reflexivity|].
  split; [ex_parts|]. split; [ex_labelled|]. split; [split; [apply memN_In; vm_compute; reflexivity|repeat split; discriminate]|].
  split; [exists (str "x"), (str "y"); reflexivity|vm_compute; reflexivity].
Qed.
(** Under a wildcard it is rejected. *)
Example C90_wildcard : exists r, extract ex_idna ex_trie (ex_params "a.x y.ck") = Ret (r, Some ErrInvalidChars).
Proof. eexists. vm_compute. reflexivity. Qed.

(** Without conversion to Punycode: if it is a character below '%', it occurs in a rule. *)
Theorem C90_byte : forall ext rules t p r scheme user raw h port path b, build_trie rules = Ret t ->
  extract ext t p = Ret (r, None) -> r_host_type r = HHostName -> p_to_punycode p = false ->
  url_parts ext p scheme user raw h port path -> seen_char b -> b < 37 -> In b raw ->
  exists rule, In rule rules /\ In b rule.
Proof. exact c90_byte. Qed.

(** C88 with tabs and newlines in the URL, which a browser removes: if no rule contains one, they
    are in the path or in the user information. *)
Local Notation without_tabs := (filter (fun b => negb (tab_or_newline b))).
Theorem C88_tabs : forall ext rules t p r u d, build_trie rules = Ret t ->
  (forall rule b, In rule rules -> In b rule -> tab_or_newline b = false) ->
  extract ext t p = Ret (r, None) -> p_to_punycode p = false -> r_scheme r <> [] ->
  trimmed ws_chars (p_url p) u -> trimmed c0_or_space (p_url p) u -> browser (p_url p) d ->
  host_in_url ext p r (d_host d) /\ d_port d = r_port r /\ d_rest d = without_tabs (r_path r)
  /\ user_of (d_user d) = without_tabs (r_user_info r).
Proof. exact c88_tabs. Qed.

Definition tab : bytes := [9].
Definition tab_url : bytes := str "http://u" ++ tab ++ str "@a.co.uk:80/b" ++ tab ++ str "c".
Example C88_tabs_example : exists r d, build_trie ex_rules = Ret ex_trie
  /\ (forall rule b, In rule ex_rules -> In b rule -> tab_or_newline b = false)
  /\ extract ex_idna ex_trie (mkParams tab_url false false) = Ret (r, None) /\ r_scheme r = str "http://"
  /\ trimmed ws_chars tab_url tab_url /\ trimmed c0_or_space tab_url tab_url /\ browser tab_url d
  /\ r_path r = str "/b" ++ tab ++ str "c"
  /\ d = mkDivided (Some (str "u")) (str "a.co.uk") (str "80") (str "/bc").
Proof.
  eexists. eexists. split; [vm_compute; reflexivity|]. split.
  { assert (X : forallb (fun rule => forallb (fun b => negb (tab_or_newline b)) rule) ex_rules = true) by (vm_compute; reflexivity).
    rewrite forallb_forall in X. intros rule b Hr Hb. specialize (X rule Hr). rewrite forallb_forall in X.
    apply negb_true_iff. auto. }
  split; [vm_compute; reflexivity|]. split; [reflexivity|]. split; [ex_ws|]. split; [ex_c0|]. split; [ex_browser|].
  split; reflexivity.
Qed.

(** The built-in list has no such rule. *)
Lemma builtin_no_tab : forall private rule b, In rule (builtin_rules private) -> In b rule -> tab_or_newline b = false.
Proof.
  intros private rule b Hr Hb.
  assert (X : forallb (fun rule => forallb (fun b => negb (tab_or_newline b)) rule) (builtin_rules private) = true)
    by (destruct private; vm_compute; reflexivity).
  rewrite forallb_forall in X. specialize (X rule Hr). rewrite forallb_forall in X. apply negb_true_iff. auto.
Qed.
Theorem C88_builtin : forall to_ascii ext private rules t p r u d,
  idna_on_builtin to_ascii -> used_rules to_ascii hardcoded_psl private rules -> build_trie rules = Ret t ->
  extract ext t p = Ret (r, None) -> p_to_punycode p = false -> r_scheme r <> [] ->
  trimmed ws_chars (p_url p) u -> trimmed c0_or_space (p_url p) u -> browser (p_url p) d ->
  host_in_url ext p r (d_host d) /\ d_port d = r_port r /\ d_rest d = without_tabs (r_path r)
  /\ user_of (d_user d) = without_tabs (r_user_info r).
Proof.
  intros to_ascii ext private rules t p r u d Id Us B. rewrite (builtin_used _ _ _ Id Us) in B.
  exact (c88_tabs ext _ t p r u d B (builtin_no_tab private)).
Qed.
(** The path has a tab after the slash. *)
Definition tab_string : String.string := "http://a.com/	b".
Example C88_builtin_example : idna_on_builtin ex_ascii /\ used_rules ex_ascii hardcoded_psl false (builtin_rules false)
  /\ exists t r d, build_trie (builtin_rules false) = Ret t
  /\ extract ex_idna t (ex_params tab_string) = Ret (r, None) /\ r_scheme r = str "http://" /\ r_suffix r = str "com"
  /\ r_path r = str "/" ++ tab ++ str "b"
  /\ browser (str tab_string) d /\ d = mkDivided None (str "a.com") [] (str "/b").
Proof.
  split; [exact ex_ascii_ok|]. split; [apply ex_used|].
  destruct (ex_real false tab_string (str "com") (extract ex_idna (trie_of [str "com"]) (ex_params tab_string))) as (t & B & E).
  { ex_tld (str "http://") (@None bytes) (str "a.com") (str "a.com") (@None bytes) (str "/" ++ tab ++ str "b") (str "a") (@nil seg) [(str "com", str ".")]. }
  { vm_compute. reflexivity. }
  exists t. eexists. eexists. split; [exact B|]. split; [rewrite E; vm_compute; reflexivity|].
  split; [reflexivity|]. split; [reflexivity|]. split; [reflexivity|]. split; [ex_browser|reflexivity].
Qed.

Print Assumptions C90_forbidden_in_rule.
Print Assumptions C90_byte.
Print Assumptions C88_tabs.
Print Assumptions C88_builtin.
