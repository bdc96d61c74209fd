(** PropRel.v - properties relating two calls of Extract: C56-C58. *)

From Verif Require Import Base BaseFacts Utf8 Chars Str StrFacts Net Trie Extract Host HostFacts Walk WalkFacts
  Addr NetFacts Parse ParseFacts UrlSpec UrlFacts ExtractFacts OutcomeFacts RuleSpec TrieFacts
  Psl ListSpec Builtin BuiltinSpec BuiltinProofs RelSpec RelProofs ExampleBase PropRules PropBuiltin.
Local Open Scope N_scope.

(** C56: scheme, user information, port and path do not influence the host components, nor does
    the way the host is written matter if it is converted to the same text. *)
Theorem C56_host_decides : forall ext t p p' r e r' e' scheme user raw scheme' user' raw' h port path port' path',
  url_parts ext p scheme user raw h port path -> url_parts ext p' scheme' user' raw' h port' path' ->
  port_accepted port -> port_accepted port' -> p_ignore_sub_domains p' = p_ignore_sub_domains p ->
  extract ext t p = Ret (r, e) -> extract ext t p' = Ret (r', e') ->
  e' = e /\ same_host r r'.
Proof. exact c56. Qed.
Example C56_example : exists r r',
  url_parts ex_idna (ex_params "ftp://me@a.example.co.uk:8080/x") (str "ftp://") (Some (str "me")) (str "a.example.co.uk")
    (str "a.example.co.uk") (Some (str "8080")) (str "/x")
  /\ url_parts ex_idna (mkParams (str "a.e%78ample.co.uk") false true) [] None (str "a.e%78ample.co.uk") (str "a.example.co.uk") None []
  /\ port_accepted (Some (str "8080"))
  /\ extract ex_idna ex_trie (ex_params "ftp://me@a.example.co.uk:8080/x") = Ret (r, None)
  /\ extract ex_idna ex_trie (mkParams (str "a.e%78ample.co.uk") false true) = Ret (r', None)
  /\ same_host r r' /\ r_registered_domain r' = str "example.co.uk".
Proof.
  do 2 eexists. split; [ex_parts|]. split; [ex_parts|]. split; [ex_port|]. split; [vm_compute; reflexivity|].
  split; [vm_compute; reflexivity|]. repeat split.
Qed.

(** C57: label separators at the end of the host do not matter. *)
Theorem C57_trailing : forall ext t p p' r scheme user raw scheme' user' raw' h w w' port path port' path',
  url_parts ext p scheme user raw (h ++ w) port path -> url_parts ext p' scheme' user' raw' (h ++ w') port' path' ->
  seps w -> seps w' -> port_accepted port' -> p_ignore_sub_domains p' = p_ignore_sub_domains p ->
  extract ext t p = Ret (r, None) -> exists r', extract ext t p' = Ret (r', None) /\ same_host r r'.
Proof. exact c57. Qed.
Example C57_example : exists r,
  url_parts ex_idna (ex_params "example.co.uk/") [] None (str "example.co.uk") (str "example.co.uk" ++ []) None (str "/")
  /\ url_parts ex_idna (mkParams (str "example.co.uk." ++ [227; 128; 130]) false false) [] None
       (str "example.co.uk." ++ [227; 128; 130]) (str "example.co.uk" ++ (str "." ++ [227; 128; 130] ++ [])) None []
  /\ seps [] /\ seps (str "." ++ [227; 128; 130] ++ [])
  /\ extract ex_idna ex_trie (ex_params "example.co.uk/") = Ret (r, None) /\ r_suffix r = str "co.uk".
Proof.
  eexists. split; [ex_parts|]. split; [ex_parts|]. split; [constructor|].
  split; [repeat (apply seps_cons; [unfold is_sep_text; cbn; auto|]); constructor|]. split; [vm_compute; reflexivity|reflexivity].
Qed.
(** With a host that is a suffix, trailing separators decide which error is reported. *)
Theorem C57_errors_differ : exists r r' e e',
  extract ex_idna ex_trie (ex_params "co.uk") = Ret (r, Some e)
  /\ extract ex_idna ex_trie (ex_params "co.uk..") = Ret (r', Some e') /\ e <> e'.
Proof. do 4 eexists. split; [vm_compute; reflexivity|]. split; [vm_compute; reflexivity|]. discriminate. Qed.

(** C58: the registered domain of a host name, extracted again. *)
Theorem C58_again : forall ext rules t p r p' scheme user raw port path, build_trie rules = Ret t ->
  extract ext t p = Ret (r, None) -> r_host_type r = HHostName -> r_suffix r <> [] ->
  (forall tld, host_tld ext p tld -> tld_is_suffix rules tld) ->
  ~ ipv4_text (r_registered_domain r) -> (forall q, r_domain r <> str "-" ++ q) ->
  url_parts ext p' scheme user raw (r_registered_domain r) port path -> port_accepted port ->
  exists r', extract ext t p' = Ret (r', None) /\ r_host_type r' = HHostName /\ r_sub_domain r' = []
    /\ r_domain r' = r_domain r /\ r_suffix r' = r_suffix r /\ r_registered_domain r' = r_registered_domain r.
Proof. exact c58_partial. Qed.
Example C58_example : exists r, build_trie ex_rules = Ret ex_trie
  /\ extract ex_idna ex_trie (ex_params "https://a.b.example.co.uk/x") = Ret (r, None) /\ r_host_type r = HHostName /\ r_suffix r <> []
  /\ (forall tld, host_tld ex_idna (ex_params "https://a.b.example.co.uk/x") tld -> tld_is_suffix ex_rules tld)
  /\ ~ ipv4_text (r_registered_domain r) /\ (forall q, r_domain r <> str "-" ++ q)
  /\ url_parts ex_idna (ex_params "example.co.uk") [] None (str "example.co.uk") (r_registered_domain r) None [].
Proof.
  eexists. split; [vm_compute; reflexivity|]. split; [vm_compute; reflexivity|]. split; [reflexivity|]. split; [discriminate|].
  split; [ex_tlds|]. split; [intros X; apply v4_iff in X; vm_compute in X; discriminate X|].
  split; [intros q X; vm_compute in X; discriminate X|]. ex_parts.
Qed.
Lemma c58_builtin : forall to_ascii ext private rules t p r p' scheme user raw port path, idna_on_builtin to_ascii ->
  used_rules to_ascii hardcoded_psl private rules -> build_trie rules = Ret t ->
  extract ext t p = Ret (r, None) -> r_host_type r = HHostName -> r_suffix r <> [] ->
  (forall tld, host_tld ext p tld -> decoded tld <> str "za") -> (forall q, r_domain r <> str "-" ++ q) ->
  url_parts ext p' scheme user raw (r_registered_domain r) port path -> port_accepted port ->
  exists r', extract ext t p' = Ret (r', None) /\ r_host_type r' = HHostName /\ r_sub_domain r' = []
    /\ r_domain r' = r_domain r /\ r_suffix r' = r_suffix r /\ r_registered_domain r' = r_registered_domain r.
Proof.
  intros to_ascii ext private rules t p r p' sc us raw po pa Id Us B H T Sx Nz Nd U A.
  assert (Tl : forall tld, host_tld ext p tld -> tld_is_suffix rules tld)
    by (intros tld Ht; exact (builtin_tld _ _ _ _ Id Us (Nz tld Ht))).
  refine (c58_partial ext rules t p r p' sc us raw po pa B H T Sx Tl _ Nd U A).
  exact (registered_not_ipv4 ext rules t p r B (builtin_numeric _ _ _ Id Us) H T Sx Tl).
Qed.
(** With the built-in list only the hyphen and the hosts under za remain. *)
Theorem C58_builtin : forall to_ascii ext private rules t p r p' scheme user raw port path, idna_on_builtin to_ascii ->
  used_rules to_ascii hardcoded_psl private rules -> build_trie rules = Ret t ->
  extract ext t p = Ret (r, None) -> r_host_type r = HHostName -> r_suffix r <> [] ->
  (forall tld, host_tld ext p tld -> decoded tld <> str "za") -> (forall q, r_domain r <> str "-" ++ q) ->
  url_parts ext p' scheme user raw (r_registered_domain r) port path -> port_accepted port ->
  exists r', extract ext t p' = Ret (r', None) /\ r_host_type r' = HHostName /\ r_sub_domain r' = []
    /\ r_domain r' = r_domain r /\ r_suffix r' = r_suffix r /\ r_registered_domain r' = r_registered_domain r.
Proof. exact c58_builtin. Qed.
Example C58_builtin_example : exists private rules t r, used_rules ex_ascii hardcoded_psl private rules /\ build_trie rules = Ret t
  /\ extract ex_idna t (ex_params "a.example.co.uk") = Ret (r, None) /\ r_host_type r = HHostName /\ r_suffix r <> []
  /\ (forall tld, host_tld ex_idna (ex_params "a.example.co.uk") tld -> decoded tld <> str "za")
  /\ (forall q, r_domain r <> str "-" ++ q)
  /\ url_parts ex_idna (ex_params "example.co.uk") [] None (str "example.co.uk") (r_registered_domain r) None [].
Proof.
  assert (T : host_tld ex_idna (ex_params "a.example.co.uk") (str "uk")).
  { ex_tld (@nil N) (@None bytes) (str "a.example.co.uk") (str "a.example.co.uk") (@None bytes) (@nil N) (str "a") (@nil seg)
      [(str "uk", str "."); (str "co", str "."); (str "example", str ".")]. }
  destruct (ex_real false "a.example.co.uk" (str "uk") (Ret (mkResult [] [] (str "a") (str "example") (str "co.uk")
    (str "example.co.uk") [] [] HHostName, None)) T) as (t & Bt & E).
  - vm_compute. reflexivity.
  - exists false, (builtin_rules false), t. eexists. split; [apply ex_used|]. split; [exact Bt|]. split; [exact E|].
    split; [reflexivity|]. split; [discriminate|]. split.
    { intros tld Ht. rewrite (host_tld_unique _ _ _ _ Ht T). vm_compute. discriminate. }
    split; [intros q X; vm_compute in X; discriminate X|]. ex_parts.
Qed.
(** The condition on the hyphen is needed: a.-b.com is accepted, -b.com is not. *)
Theorem C58_refuted_hyphen : exists r r', build_trie ex_rules = Ret ex_trie
  /\ extract ex_idna ex_trie (ex_params "a.-b.com") = Ret (r, None) /\ r_registered_domain r = str "-b.com"
  /\ extract ex_idna ex_trie (ex_params "-b.com") = Ret (r', Some ErrInvalidChars).
Proof. do 2 eexists. repeat (split; [vm_compute; reflexivity|]). vm_compute. reflexivity. Qed.
(** So is the one on IPv4 addresses. *)
Theorem C58_refuted_ipv4 : exists t r r', build_trie [str "1"; str "0.0.1"] = Ret t
  /\ extract ex_idna t (ex_params "x.1.0.0.1") = Ret (r, None) /\ r_host_type r = HHostName
  /\ r_registered_domain r = str "1.0.0.1"
  /\ extract ex_idna t (ex_params "1.0.0.1") = Ret (r', None) /\ r_host_type r' = HIPv4.
Proof.
  do 3 eexists. split; [vm_compute; reflexivity|]. split; [vm_compute; reflexivity|]. split; [reflexivity|].
  split; [reflexivity|]. split; [vm_compute; reflexivity|]. reflexivity.
Qed.
(** And the one on the TLD: with the rule co.za alone x.a.co.za has RegisteredDomain a.co, whose suffix is empty. *)
Theorem C58_refuted_tld : exists t r r', build_trie [str "co.za"] = Ret t
  /\ extract ex_idna t (ex_params "x.a.co.za") = Ret (r, None) /\ r_host_type r = HHostName
  /\ r_registered_domain r = str "a.co"
  /\ extract ex_idna t (ex_params "a.co") = Ret (r', None) /\ r_registered_domain r' = [].
Proof.
  do 3 eexists. split; [vm_compute; reflexivity|]. split; [vm_compute; reflexivity|]. split; [reflexivity|].
  split; [reflexivity|]. split; [vm_compute; reflexivity|]. reflexivity.
Qed.

Print Assumptions C56_host_decides.
Print Assumptions C57_trailing.
Print Assumptions C57_errors_differ.
Print Assumptions C58_again.
Print Assumptions C58_builtin.
Print Assumptions C58_refuted_hyphen.
Print Assumptions C58_refuted_ipv4.
Print Assumptions C58_refuted_tld.
