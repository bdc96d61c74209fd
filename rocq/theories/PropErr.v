(** PropErr.v - when Extract fails, and a complete description of what it returns: C65-C67. *)

From Verif Require Import Base BaseFacts Utf8 Chars Str StrFacts Net Trie Extract Host HostFacts Walk WalkFacts Addr NetFacts Parse
  ParseFacts UrlSpec UrlFacts ExtractFacts OutcomeFacts Rfc RuleSpec TrieFacts RuleProofs ErrSpec InvalidProofs ErrProofs
  CompleteProofs ExampleBase PropRules.
Local Open Scope N_scope.

Lemma ex_represents : represents ex_trie ex_rules.
Proof. apply build_trie_represents. vm_compute. reflexivity. Qed.
Lemma checked_b : forall first zs segs c text, cwalk ex_trie false 0 0 0 (labels first segs) = Some c ->
  text = text_of first zs segs c -> checked ex_rules first zs segs text.
Proof. intros first zs segs c text H E. apply (text_checked _ _ _ _ _ _ _ ex_represents H). exact E. Qed.
Lemma empty_seen_b : forall first segs, cwalk ex_trie false 0 0 0 (labels first segs) = None -> empty_seen ex_rules (labels first segs).
Proof. intros first segs H. pose proof (counts_looked ex_trie ex_rules first segs ex_represents) as K. rewrite H in K. exact K. Qed.
Lemma no_empty_b : forall first segs c, cwalk ex_trie false 0 0 0 (labels first segs) = Some c -> ~ empty_seen ex_rules (labels first segs).
Proof. intros first segs c H. pose proof (counts_looked ex_trie ex_rules first segs ex_represents) as K. rewrite H in K. exact (proj1 K). Qed.
Lemma not_v4_b : forall h, v4 h = false -> ~ ipv4_text h.
Proof. intros h H X. apply v4_iff in X. congruence. Qed.
Lemma no_bracket_b : forall h, forallb (fun b => negb (is_bracket b)) h = true -> no_bracket h.
Proof. intros h H. apply no_bracket_iff. rewrite forallb_forall in H. apply Forall_forall. exact H. Qed.

(** C65: which error the labels of a host that is not an IPv4 address lead to: an empty label that
    is looked at, a character or hyphen that is refused in the text that is checked, or no label
    left for the domain; and with none of them the host is accepted. *)
Theorem C65_errors : forall ext rules t p r e scheme user raw h port path first zs segs, build_trie rules = Ret t ->
  extract ext t p = Ret (r, e) -> url_parts ext p scheme user raw h port path -> port_accepted port ->
  labelled h first zs segs -> ~ ipv4_text h ->
  (empty_seen rules (labels first segs) /\ e = Some ErrConsecutiveSeparators)
  \/ (~ empty_seen rules (labels first segs) /\ exists text, checked rules first zs segs text /\
      (forall text', checked rules first zs segs text' -> text' = text) /\
      ((bad_text text /\ e = Some ErrInvalidChars)
       \/ (~ bad_text text /\ no_domain rules (labels first segs) /\ e = Some ErrEmptyDomain)
       \/ (~ bad_text text /\ ~ no_domain rules (labels first segs) /\ e = None /\ r_host_type r = HHostName))).
Proof. exact c65. Qed.
(** The check itself (strings.go:161-197), for all byte strings. *)
Theorem C65_check : forall s, has_invalid_chars s = true <-> bad_text s.
Proof. exact invalid_iff. Qed.
Example C65_invalid_example : exists r, extract ex_idna ex_trie (ex_params "-x.example.co.uk") = Ret (r, Some ErrInvalidChars)
  /\ url_parts ex_idna (ex_params "-x.example.co.uk") [] None (str "-x.example.co.uk") (str "-x.example.co.uk") None []
  /\ labelled (str "-x.example.co.uk") (str "-x") [] [(str "uk", str "."); (str "co", str "."); (str "example", str ".")]
  /\ ~ ipv4_text (str "-x.example.co.uk")
  /\ checked ex_rules (str "-x") [] [(str "uk", str "."); (str "co", str "."); (str "example", str ".")] (str "-x.example")
  /\ bad_text (str "-x.example").
Proof.
  eexists. split; [vm_compute; reflexivity|]. split; [ex_parts|]. split; [ex_labelled|]. split; [apply not_v4_b; vm_compute; reflexivity|].
  split; [eapply checked_b; vm_compute; reflexivity|]. apply invalid_iff. vm_compute. reflexivity.
Qed.
(** The hyphen of the suffix and of the middle labels is not refused. *)
Example C65_accepted_example : exists r, extract ex_idna ex_trie (ex_params "x.-example-.co.uk") = Ret (r, Some ErrInvalidChars)
  /\ exists r', extract ex_idna ex_trie (ex_params "x.-example-.y.co.uk") = Ret (r', None)
  /\ checked ex_rules (str "x") [] [(str "uk", str "."); (str "co", str "."); (str "y", str "."); (str "-example-", str ".")] (str "x.-example-.y").
Proof.
  eexists. split; [vm_compute; reflexivity|]. eexists. split; [vm_compute; reflexivity|]. eapply checked_b; vm_compute; reflexivity.
Qed.
Example C65_consecutive_example : exists r, extract ex_idna ex_trie (ex_params "x..uk") = Ret (r, Some ErrConsecutiveSeparators)
  /\ empty_seen ex_rules (labels (str "x") [(str "uk", str "."); ([], str ".")])
  /\ exists r', extract ex_idna ex_trie (ex_params "x..co.uk") = Ret (r', Some ErrEmptyDomain)
  /\ ~ empty_seen ex_rules (labels (str "x") [(str "uk", str "."); (str "co", str "."); ([], str ".")]).
Proof.
  eexists. split; [vm_compute; reflexivity|]. split; [apply empty_seen_b; vm_compute; reflexivity|].
  eexists. split; [vm_compute; reflexivity|]. eapply no_empty_b. vm_compute. reflexivity.
Qed.

(** C66: which errors brackets lead to, and what is reported besides. *)
Theorem C66_brackets : forall ext t p r e scheme user rest, extract ext t p = Ret (r, e) -> front (p_url p) scheme user rest ->
  (forall x, bracket_error rest x -> r = mkResult scheme (user_of user) [] [] [] [] [] [] HNone /\ e = Some x)
  /\ (forall x, In x [ErrOpeningBracket; ErrClosingBracket; ErrIncompleteBrackets; ErrInvalidIPv6; ErrTrailingAfterIPv6] ->
        e = Some x -> bracket_error rest x).
Proof. exact c66. Qed.
Example C66_example : extract ex_idna ex_trie (ex_params "https://me@[::1]x[/") = Ret (mkResult (str "https://") (str "me") [] [] [] [] [] [] HNone, Some ErrOpeningBracket)
  /\ front (str "https://me@[::1]x[/") (str "https://") (Some (str "me")) (str "[::1]x[/")
  /\ bracket_error (str "[::1]x[/") ErrOpeningBracket /\ bracket_error (str "[::1]x/") ErrTrailingAfterIPv6
  /\ bracket_error (str "[::1/") ErrIncompleteBrackets /\ bracket_error (str "[::1]]/") ErrInvalidIPv6.
Proof.
  split; [vm_compute; reflexivity|]. split; [ex_front|]. split.
  { apply (be_later (str "::1") (str "x") (str "/")); [apply no_bracket_b; reflexivity|apply no_path_char_b; reflexivity|].
    intros [X|[]]. discriminate. }
  split.
  { apply (be_trailing (str "::1") 120 [] (str "/")); [apply ipv6_b; vm_compute; reflexivity|discriminate|apply no_path_char_b; reflexivity
      |apply no_bracket_b; reflexivity|apply path_char_iff; reflexivity]. }
  split; [apply (be_incomplete (str "::1/")); apply no_bracket_b; reflexivity|].
  apply (be_literal (str "::1") (str "]") (str "/")); [apply no_bracket_b; reflexivity|apply no_path_char_b; reflexivity| |apply path_char_iff; reflexivity|].
  - intros [X|[]]. discriminate.
  - left. left. reflexivity.
Qed.

(** C67: Extract returns exactly what [extracts] describes, which mentions neither the trie nor
    any cursor: fields and error are determined by the rule list, the flags, the IDNA library and
    the URL alone. *)
Theorem C67_complete : forall ext rules t p r e, build_trie rules = Ret t ->
  (extract ext t p = Ret (r, e) <-> extracts ext rules p r e).
Proof. exact c67. Qed.
(** Hence the description is neither contradictory nor incomplete. *)
Theorem C67_consistent : forall ext rules p, exists r e, extracts ext rules p r e /\ forall r' e', extracts ext rules p r' e' -> r' = r /\ e' = e.
Proof. exact c67_consistent. Qed.
Example C67_example : extracts ex_idna ex_rules (ex_params "https://me:pw@x.y.example.co.uk:80/p")
  (mkResult (str "https://") (str "me:pw") (str "x.y") (str "example") (str "co.uk") (str "example.co.uk") (str "80") (str "/p") HHostName) None.
Proof.
  eapply (ex_host _ _ _ (str "https://") (Some (str "me:pw")) (str "x.y.example.co.uk") (str "x.y.example.co.uk") (Some (str "80")) (str "/p")
    (str "x") [] [(str "uk", str "."); (str "co", str "."); (str "example", str "."); (str "y", str ".")]); [ex_parts|ex_port|ex_labelled|].
  apply (hs_suffix ex_rules false (str "https://") (str "me:pw") (str "80") (str "/p") (str "x") []
    [(str "uk", str "."); (str "co", str "."); (str "example", str "."); (str "y", str ".")] (str "x.y.example") 0 2 (str "example") (str "x.y") (str "co.uk")); try reflexivity.
  - apply not_v4_b. vm_compute. reflexivity.
  - eapply no_empty_b. vm_compute. reflexivity.
  - eapply checked_b; vm_compute; reflexivity.
  - apply valid_iff. vm_compute. reflexivity.
  - cbn [length]. lia.
Qed.
Example C67_error_example : extracts ex_idna ex_rules (ex_params "//x.ex%41mple%4.uk/p")
  (mkResult (str "//") [] [] [] [] [] [] (str "/p") HNone) (Some (ErrUnescape (str "%4."))).
Proof.
  eapply (ex_escape _ _ _ (str "//") None (str "x.ex%41mple%4.uk") (str "/p") None (str "/p")); [ex_front|ex_plain|ex_after|ex_port|].
  apply bad_escape_first. vm_compute. reflexivity.
Qed.

Print Assumptions C65_errors.
Print Assumptions C65_check.
Print Assumptions C66_brackets.
Print Assumptions C67_complete.
Print Assumptions C67_consistent.
