(** PropExact.v - for which inputs exactly the properties that do not always hold do hold:
    C70-C77.  C70 belongs to C04, C71 to C06, C72 to C08, C73 to C11, C74 to C14, C75 to C19,
    C76 to C20, C77 to C40 and C41. *)

From Verif Require Import Base BaseFacts Utf8 Chars Str StrFacts Net Trie Extract Host HostFacts Walk WalkFacts Addr NetFacts Parse
  ParseFacts UrlSpec UrlFacts ExtractFacts OutcomeFacts Rfc RuleSpec TrieFacts RuleProofs HostProofs ErrSpec InvalidProofs ErrProofs
  CompleteProofs ExactSpec ExactProofs ExampleBase PropRules.
Local Open Scope N_scope.

Lemma last_looked_b : forall rules t first segs c, build_trie rules = Ret t -> cwalk t false 0 0 0 (labels first segs) = Some c ->
  last_looked rules (labels first segs) (c_prev c).
Proof.
  intros rules t first segs c B H. pose proof (counts_looked t rules first segs (build_trie_represents _ _ B)) as K. rewrite H in K. apply K.
Qed.
Ltac ex_last := eapply last_looked_b with (first := _) (segs := _); vm_compute; reflexivity.

(** C70: Scheme is something without colon and slash at its start exactly if the URL starts with
    a name directly followed by two slashes; it then is that text, with all its slashes. *)
Theorem C70_scheme : forall ext t p r e u, extract ext t p = Ret (r, e) -> trimmed ws_chars (p_url p) u ->
  (odd_scheme (r_scheme r) <-> exists s q, u = s ++ q /\ name_slashes s)
  /\ forall s q, u = s ++ q -> name_slashes s -> starts_with (fun b => ~ slash b) q -> r_scheme r = s.
Proof. exact c04_exact. Qed.
Example C70_example : name_slashes (str "http/\")
  /\ (exists r e, extract ex_idna ex_trie (ex_params "http/\a.com") = Ret (r, e) /\ r_scheme r = str "http/\")
  /\ odd_scheme (str "http/\") /\ ~ odd_scheme (str "http://") /\ ~ odd_scheme (str "//") /\ ~ odd_scheme [].
Proof.
  assert (N : name_slashes (str "http/\")).
  { exists 104, (str "ttp"), (str "/\"). split; [reflexivity|]. split; [unfold letter; vm_compute; intuition discriminate|].
    split; [repeat (apply Forall_cons; [left; unfold letter; vm_compute; intuition discriminate|]); apply Forall_nil|].
    split; [repeat (apply Forall_cons; [unfold slash; cbn; auto|]); apply Forall_nil|]. cbn. lia. }
  split; [exact N|]. split; [do 2 eexists; split; vm_compute; reflexivity|]. split.
  - split; [discriminate|]. split; [cbn; intuition discriminate|]. cbn. unfold slash. cbn. intuition discriminate.
  - split; [intros (_ & X & _); apply X; cbn; auto 8|]. split; [intros (_ & _ & X); apply X; unfold slash; cbn; auto|]. intros (X & _). contradiction.
Qed.

(** C71: the URL can be put together from the reported components exactly if no label at the
    right end of the host was dropped; with an IPv6 literal always. *)
Theorem C71_lossless : forall ext rules t p r scheme user raw h port path first zs segs, build_trie rules = Ret t ->
  extract ext t p = Ret (r, None) -> url_parts ext p scheme user raw h port path -> labelled h first zs segs ->
  p_to_punycode p = false -> p_ignore_sub_domains p = false ->
  assembled p r <-> ~ dropped rules h (labels first segs).
Proof. exact c06_exact. Qed.
Theorem C71_ipv6 : forall ext t p r, extract ext t p = Ret (r, None) -> r_host_type r = HIPv6 -> assembled p r.
Proof. exact c06_ipv6. Qed.
Example C71_example : let rules := [str "co.zz"; str "com"] in exists r,
  build_trie rules = Ret (trie_of rules) /\ extract ex_idna (trie_of rules) (ex_params "a.b.co.zz") = Ret (r, None)
  /\ url_parts ex_idna (ex_params "a.b.co.zz") [] None (str "a.b.co.zz") (str "a.b.co.zz") None []
  /\ labelled (str "a.b.co.zz") (str "a") [] [(str "zz", str "."); (str "co", str "."); (str "b", str ".")]
  /\ dropped rules (str "a.b.co.zz") (map str ["zz"; "co"; "b"; "a"]%string) /\ r_suffix r = str "co"
  /\ ~ dropped rules (str "a.b.com") (map str ["com"; "b"; "a"]%string).
Proof.
  eexists. split; [vm_compute; reflexivity|]. split; [vm_compute; reflexivity|]. split; [ex_parts|]. split; [ex_labelled|]. split.
  - right. split; [intros X; apply v4_iff in X; vm_compute in X; discriminate X|]. exists 0%nat, 2%nat. vm_compute. reflexivity.
  - split; [reflexivity|]. intros [(X & _)|(_ & k & n & X)]; [apply v4_iff in X; vm_compute in X; discriminate X|vm_compute in X; discriminate X].
Qed.
Example C71_ipv6_example : exists r, extract ex_idna ex_trie (ex_params "https://u@[::1]:80/p") = Ret (r, None) /\ r_host_type r = HIPv6.
Proof. eexists. split; [vm_compute; reflexivity|reflexivity]. Qed.

(** C72: Port consists of digits exactly if it does not start with a sign. *)
Theorem C72_port : forall ext t p r, extract ext t p = Ret (r, None) ->
  all_digits (r_port r) <-> forall sign d, r_port r = sign ++ d -> sign <> str "+" /\ sign <> str "-".
Proof. exact c08_exact. Qed.
Example C72_example : (exists r, extract ex_idna ex_trie (ex_params "a.com:+80") = Ret (r, None) /\ r_port r = str "+" ++ str "80")
  /\ exists r, extract ex_idna ex_trie (ex_params "a.com:080") = Ret (r, None) /\ r_port r = str "080".
Proof. split; eexists; split; vm_compute; reflexivity. Qed.

(** C73: the text of an accepted IPv6 literal is one of RFC 4291 exactly if it has no group of
    more than four hexadecimal digits, only ASCII characters, and no dot at its end. *)
Theorem C73_literal : forall ext t p r e, extract ext t p = Ret (r, e) -> r_host_type r = HIPv6 ->
  rfc_literal (r_domain r) <->
  ~ long_group (r_domain r) /\ ascii (r_domain r) /\ forall x, r_domain r <> x ++ str ".".
Proof. exact c11_exact. Qed.
Example C73_example : (exists r, extract ex_idna ex_trie (ex_params "[::1.2.3.4.]") = Ret (r, None) /\ r_host_type r = HIPv6
    /\ r_domain r = str "::1.2.3.4" ++ str ".")
  /\ (exists r, extract ex_idna ex_trie (ex_params "[::00001]") = Ret (r, None) /\ r_host_type r = HIPv6 /\ long_group (r_domain r))
  /\ exists r, extract ex_idna ex_trie (ex_params "[1::ffff:1.2.3.4]") = Ret (r, None) /\ r_host_type r = HIPv6.
Proof.
  split; [eexists; split; [vm_compute; reflexivity|split; reflexivity]|]. split.
  - eexists. split; [vm_compute; reflexivity|]. split; [reflexivity|]. cbn [r_domain].
    exists (str "::"), (str "00001"), []. split; [reflexivity|]. split; [repeat constructor|reflexivity].
  - eexists. split; [vm_compute; reflexivity|reflexivity].
Qed.

(** C74: the Domain of an IPv4 address is all of it, up to separators at its end, exactly if its
    last octet is not the beginning of a rule. *)
Theorem C74_ipv4 : forall ext rules t p r scheme user raw h port path first zs segs, build_trie rules = Ret t ->
  extract ext t p = Ret (r, None) -> url_parts ext p scheme user raw h port path -> labelled h first zs segs -> ipv4_text h ->
  (exists w, h = r_domain r ++ w /\ seps w) <-> ~ looked_at rules (labels first segs) 1.
Proof. exact c14_exact. Qed.
Example C74_example : let rules := [str "x.4"; str "com"] in exists r,
  build_trie rules = Ret (trie_of rules) /\ extract ex_idna (trie_of rules) (ex_params "1.2.3.4") = Ret (r, None)
  /\ url_parts ex_idna (ex_params "1.2.3.4") [] None (str "1.2.3.4") (str "1.2.3.4") None []
  /\ labelled (str "1.2.3.4") (str "1") [] [(str "4", str "."); (str "3", str "."); (str "2", str ".")]
  /\ ipv4_text (str "1.2.3.4") /\ looked_at rules (map str ["4"; "3"; "2"; "1"]%string) 1 /\ r_domain r = str "1.2.3".
Proof.
  eexists. split; [vm_compute; reflexivity|]. split; [vm_compute; reflexivity|]. split; [ex_parts|]. split; [ex_labelled|].
  split; [apply ipv4_b; vm_compute; reflexivity|]. split; [|reflexivity].
  split; [cbn; lia|]. intros j Hj. assert (j = 0%nat) by lia. subst j. split; [vm_compute; reflexivity|]. exists (str "x"). vm_compute. reflexivity.
Qed.

(** C75: where a forbidden character gets into Domain or SubDomain (the three characters apart
    that are taken for letters, see C19): exactly in host names without suffix, from a label to
    the right of the last one looked at. *)
Theorem C75_characters : forall ext rules t p r scheme user raw h port path first zs segs c, build_trie rules = Ret t ->
  extract ext t p = Ret (r, None) -> r_host_type r = HHostName ->
  url_parts ext p scheme user raw h port path -> labelled h first zs segs -> seen_char c ->
  (has_char c (r_domain r) \/ has_char c (r_sub_domain r))
  <-> r_suffix r = [] /\ exists i m, last_looked rules (labels first segs) m /\ (i < m)%nat
        /\ has_char c (nth i (labels first segs) []) /\ (i = 0%nat \/ p_ignore_sub_domains p = false).
Proof. exact c19_exact. Qed.
Example C75_example : let rules := [str "c.b_.x"; str "com"] in exists r,
  build_trie rules = Ret (trie_of rules) /\ extract ex_idna (trie_of rules) (ex_params "a.b_.x") = Ret (r, None) /\ r_host_type r = HHostName
  /\ url_parts ex_idna (ex_params "a.b_.x") [] None (str "a.b_.x") (str "a.b_.x") None []
  /\ labelled (str "a.b_.x") (str "a") [] [(str "x", str "."); (str "b_", str ".")] /\ seen_char 95
  /\ last_looked rules (labels (str "a") [(str "x", str "."); (str "b_", str ".")]) 2
  /\ has_char 95 (nth 1 (map str ["x"; "b_"; "a"]%string) []) /\ r_sub_domain r = str "a.b_".
Proof.
  eexists. split; [vm_compute; reflexivity|]. split; [vm_compute; reflexivity|]. split; [reflexivity|]. split; [ex_parts|]. split; [ex_labelled|].
  split; [split; [apply memN_In; vm_compute; reflexivity|repeat split; discriminate]|].
  split; [apply (last_looked_b _ (trie_of [str "c.b_.x"; str "com"]) (str "a") [(str "x", str "."); (str "b_", str ".")] (mkCounts false 0 2 2 2)); vm_compute; reflexivity|].
  split; [exists (str "b"), []; reflexivity|]. reflexivity.
Qed.

(** C76: which labels of an accepted host name can be empty (trailing separators apart): the
    leftmost one if there is no suffix and it was looked at, or one beside the separator U+FF61. *)
Theorem C76_empty : forall ext rules t p r scheme user raw h port path first zs segs i, build_trie rules = Ret t ->
  extract ext t p = Ret (r, None) -> r_host_type r = HHostName ->
  url_parts ext p scheme user raw h port path -> labelled h first zs segs ->
  (i <= length segs)%nat -> nth i (labels first segs) [] = [] ->
  (r_suffix r = [] /\ i = length segs /\ i <> 0%nat /\ looked_at rules (labels first segs) i)
  \/ ((1 <= i)%nat /\ snd (nth (i - 1) segs ([], [])) = half_sep)
  \/ ((i < length segs)%nat /\ snd (nth i segs ([], [])) = half_sep).
Proof. exact c20_only. Qed.
Example C76_example : let rules := [str "foo.bar"] in exists r,
  build_trie rules = Ret (trie_of rules) /\ extract ex_idna (trie_of rules) (ex_params ".bar") = Ret (r, None) /\ r_host_type r = HHostName
  /\ url_parts ex_idna (ex_params ".bar") [] None (str ".bar") (str ".bar") None []
  /\ labelled (str ".bar") [] [] [(str "bar", str ".")] /\ nth 1 (labels [] [(str "bar", str ".")]) [] = [].
Proof.
  eexists. split; [vm_compute; reflexivity|]. split; [vm_compute; reflexivity|]. split; [reflexivity|]. split; [ex_parts|]. split; [ex_labelled|].
  reflexivity.
Qed.

Print Assumptions C70_scheme.
Print Assumptions C71_lossless.
Print Assumptions C71_ipv6.
Print Assumptions C72_port.
Print Assumptions C73_literal.
Print Assumptions C74_ipv4.
Print Assumptions C75_characters.
Print Assumptions C76_empty.
