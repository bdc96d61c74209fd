(** PropRules.v - properties of Extract concerning the suffix list: C06, C14, C19-C26, C29,
    C30, C48, C49.

    [build_trie rules = Ret t] says that [t] is the trie made from the rule list [rules] (any
    list of byte strings); [url_parts] and [labelled] give the host of the URL and its labels. *)

From Verif Require Import Base BaseFacts Utf8 Chars Str StrFacts Net Trie Extract Host HostFacts Walk WalkFacts
  Addr NetFacts Parse ParseFacts UrlSpec UrlFacts ExtractFacts OutcomeFacts Rfc RuleSpec TrieFacts RuleProofs PslProofs
  HostProofs VariantProofs GapProofs ExampleBase.
Local Open Scope N_scope.

Lemma labelled_b : forall h first s0 zs segs, split_host h = (first, s0) -> strip_empty s0 = (zs, segs) ->
  labelled h first zs segs.
Proof.
  intros h first s0 zs segs H Z. apply split_host_spec in H as (-> & W). apply strip_empty_spec in Z as (-> & A & B).
  repeat split; auto; apply W.
Qed.
Ltac ex_labelled := eapply labelled_b; vm_compute; reflexivity.
Lemma plain_label_b : forall l, forallb (fun b => negb (memN b (str "%+"))) l = true ->
  same l (str "*") = false -> has_prefix l (str "!") = false -> plain_label l.
Proof.
  intros l H A B. rewrite forallb_forall in H. split; [|split; [|split]].
  - intros X. specialize (H _ X). discriminate.
  - intros X. specialize (H _ X). discriminate.
  - intros ->. vm_compute in A. discriminate A.
  - intros k ->. cbn in B. destruct k; discriminate B.
Qed.
Ltac ex_plain_labels := repeat (apply Forall_cons; [apply plain_label_b; vm_compute; reflexivity|]); apply Forall_nil.
Ltac ex_no_numeric :=
  let d := fresh in let k := fresh in let N := fresh in let D := fresh in let K := fresh in
  intros d k (N & D & _); destruct d as [|? d]; [contradiction|]; inversion D; subst;
  match goal with |- ?x = false => destruct x eqn:K; [exfalso|reflexivity] end;
  apply known_iff in K as (? & ? & K & ?);
  repeat (destruct K as [<-|K]; [match goal with H : _ = _ ++ _ |- _ => vm_compute in H; injection H; intros; subst; discriminate end|]);
  destruct K.
Ltac ex_tlds :=
  let K := fresh in
  intros ? _ K; apply known_iff in K as (? & ? & K & ?);
  repeat (destruct K as [<-|K]; [match goal with H : rule_path ?r = _ |- _ => let v := eval vm_compute in (rule_path r) in change (rule_path r) with v in H; cbn [app] in H; injection H as <- _; vm_compute; reflexivity end|]);
  destruct K.
Lemma ex_trie_built : build_trie ex_rules = Ret ex_trie.
Proof. vm_compute. reflexivity. Qed.

(** C05: all the parts of a URL are determined by it. *)
Theorem C05_parts : forall ext p scheme user raw h port path scheme' user' raw' h' port' path',
  url_parts ext p scheme user raw h port path -> url_parts ext p scheme' user' raw' h' port' path' ->
  scheme = scheme' /\ user = user' /\ raw = raw' /\ h = h' /\ port = port' /\ path = path'.
Proof. exact parts_unique. Qed.
Example C05_parts_example : url_parts ex_idna (ex_params "http://u@x:1@a.com:80/") (str "http://") (Some (str "u@x:1"))
  (str "a.com") (str "a.com") (Some (str "80")) (str "/").
Proof. ex_parts. Qed.

(** C06: full statement: the URL without surrounding whitespace is Scheme, UserInfo, host, Port
    and Path, and the host consists of the reported components.  False when the suffix list has
    a rule whose TLD is not a rule (the suffix then lacks its TLD), and for IPv4 addresses when
    it has a rule with a numeric TLD.  It holds for all other URLs, without Punycode conversion
    and with subdomains. *)
Theorem C06_partial : forall ext rules t p r, build_trie rules = Ret t -> extract ext t p = Ret (r, None) ->
  p_to_punycode p = false -> p_ignore_sub_domains p = false -> no_numeric_tld rules ->
  (forall tld, host_tld ext p tld -> tld_is_suffix rules tld) -> assembled p r.
Proof. exact c06_partial. Qed.
Lemma example_co_za_lost : ~ assembled (ex_params "example.co.za")
  (mkResult [] [] [] (str "example") (str "co") (str "example.co") [] [] HHostName).
Proof.
  intros (user & text & port & T & U & Po & F). unfold host_form in F. cbn [r_host_type r_sub_domain r_domain r_suffix] in F.
  destruct F as (d1 & d2 & w & -> & D1 & D2 & W). cbn [r_scheme r_path] in T. apply trim_ws_iff in T.
  assert (X : trim_ws (p_url (ex_params "example.co.za")) = str "example.co.za") by (vm_compute; reflexivity).
  rewrite X in T. clear X.
  destruct user as [us|]; [cbn in U; subst us; cbn in T; discriminate|].
  destruct port as [q|]; cbn in Po; [subst q|]; cbn [user_at port_text app] in T.
  - rewrite app_nil_r in T. apply (f_equal (@rev N)) in T. rewrite rev_app_distr in T. discriminate.
  - rewrite !app_nil_r in T. destruct D2 as [(_ & D2)|(D2 & _)]; [|discriminate].
    destruct D1 as [[->|[->|[->| ->]]]|(-> & _)]; try discriminate.
    cbn [app] in T. destruct D2 as [->|[->|[->| ->]]]; try discriminate.
    cbn in T. injection T as T. destruct W as [|s w Hs W]; [discriminate|].
    destruct Hs as [->|[->|[->| ->]]]; try discriminate. cbn in T. injection T as T. subst w.
    inversion W as [|s w Hs _ E]. destruct Hs as [->|[->|[->| ->]]]; discriminate.
Qed.
Theorem C06_refuted : exists ext rules t p r, build_trie rules = Ret t /\ extract ext t p = Ret (r, None)
  /\ p_to_punycode p = false /\ p_ignore_sub_domains p = false /\ no_numeric_tld rules /\ ~ assembled p r
  /\ rules = [str "co.za"; str "com"] /\ p_url p = str "example.co.za"
  /\ r_sub_domain r = [] /\ r_domain r = str "example" /\ r_suffix r = str "co".
Proof.
  exists ex_idna, [str "co.za"; str "com"], (trie_of [str "co.za"; str "com"]), (ex_params "example.co.za").
  eexists. split; [vm_compute; reflexivity|]. split; [vm_compute; reflexivity|]. split; [reflexivity|].
  split; [reflexivity|]. split.
  { ex_no_numeric. }
  split; [|repeat split].
  exact example_co_za_lost.
Qed.
Example C06_example : exists r, extract ex_idna ex_trie (ex_params " https://u@a.b.example.co.uk.:80/x?y ") = Ret (r, None)
  /\ assembled (ex_params " https://u@a.b.example.co.uk.:80/x?y ") r.
Proof.
  eexists. split; [vm_compute; reflexivity|].
  eapply (C06_partial ex_idna ex_rules ex_trie); [apply ex_trie_built|vm_compute; reflexivity|reflexivity|reflexivity| |].
  - ex_no_numeric.
  - ex_tlds.
Qed.

(** C14: full statement: for an IPv4 host Domain is the whole address.  False when the suffix
    list has a rule of several labels ending in a number; true otherwise. *)
Theorem C14_partial : forall ext rules t p r, build_trie rules = Ret t -> no_numeric_tld rules ->
  extract ext t p = Ret (r, None) -> r_host_type r = HIPv4 ->
  ipv4_address (r_domain r) /\ r_registered_domain r = r_domain r /\ r_sub_domain r = [] /\ r_suffix r = []
  /\ exists scheme user raw h port path w, url_parts ext p scheme user raw h port path /\ port_accepted port
       /\ h = r_domain r ++ w /\ seps w
       /\ r_scheme r = scheme /\ r_user_info r = user_of user /\ r_port r = port_of port /\ r_path r = path.
Proof. exact c14_partial. Qed.
Theorem C14_refuted : exists ext rules t p r, build_trie rules = Ret t /\ extract ext t p = Ret (r, None)
  /\ rules = [str "0.1"] /\ p_url p = str "127.0.0.1" /\ r_host_type r = HIPv4 /\ r_domain r = str "127.0.0".
Proof.
  exists ex_idna, [str "0.1"], (trie_of [str "0.1"]), (ex_params "127.0.0.1"). eexists.
  split; [vm_compute; reflexivity|]. split; [vm_compute; reflexivity|]. repeat split.
Qed.
Example C14_example : exists r, extract ex_idna ex_trie (ex_params "http://127.0.0.1.:8080/x") = Ret (r, None)
  /\ r_host_type r = HIPv4 /\ r_domain r = str "127.0.0.1".
Proof. eexists. split; [vm_compute; reflexivity|]. split; reflexivity. Qed.

(** C19, C20 (see also PropUrl.v): with a list in which the TLD of the host is a suffix or
    unknown, no condition on the result is needed. *)
Theorem C19_tld_partial : forall ext rules t p r c, build_trie rules = Ret t -> extract ext t p = Ret (r, None) ->
  r_host_type r = HHostName -> (forall tld, host_tld ext p tld -> tld_is_suffix rules tld) ->
  In c forbidden -> c <> 888 -> c <> 8299 -> c <> 10868 ->
  ~ has_char c (r_domain r) /\ ~ has_char c (r_sub_domain r).
Proof. exact c19_tld. Qed.
Theorem C20_tld_partial : forall ext rules t p r, build_trie rules = Ret t -> extract ext t p = Ret (r, None) ->
  r_host_type r = HHostName -> (forall tld, host_tld ext p tld -> tld_is_suffix rules tld) ->
  exists scheme user raw h port path, url_parts ext p scheme user raw h port path
    /\ ((forall x y, h <> x ++ [239; 189; 161] ++ y) -> no_empty_label h).
Proof. exact c20_tld. Qed.
Example C19_C20_tld_example : (exists r, extract ex_idna ex_trie (ex_params "a-b.localhost") = Ret (r, None)
    /\ r_host_type r = HHostName /\ r_suffix r = [] /\ forall tld, host_tld ex_idna (ex_params "a-b.localhost") tld -> tld_is_suffix ex_rules tld)
  /\ (exists r, extract ex_idna ex_trie (ex_params "a_b.localhost") = Ret (r, Some ErrInvalidChars))
  /\ exists r, extract ex_idna ex_trie (ex_params ".localhost") = Ret (r, Some ErrInvalidChars).
Proof.
  split; [|split; eexists; vm_compute; reflexivity].
  eexists. split; [vm_compute; reflexivity|]. split; [reflexivity|]. split; [reflexivity|].
  ex_tlds.
Qed.

(** C21: the components of an accepted host name are those of the walk over its labels ... *)
Theorem C21_walk : forall ext rules t p r scheme user raw h port path first zs segs, build_trie rules = Ret t ->
  extract ext t p = Ret (r, None) -> r_host_type r = HHostName ->
  url_parts ext p scheme user raw h port path -> labelled h first zs segs ->
  exists sub, reported rules first segs sub (r_domain r) (r_suffix r)
    /\ r_sub_domain r = (if p_ignore_sub_domains p then [] else sub).
Proof. exact c21_at. Qed.
(** ... and host names of letters, digits and hyphens are accepted unless the walk uses up all
    their labels. *)
Theorem C21_complete : forall ext rules t p r e scheme user raw h port path first zs segs, build_trie rules = Ret t ->
  extract ext t p = Ret (r, e) -> url_parts ext p scheme user raw h port path -> port_accepted port ->
  labelled h first zs segs -> Forall ldh (labels first segs) -> ~ ipv4_text h ->
  (e = None <-> (forall k, walk rules [] (labels first segs) <> (Some k, S (length segs))))
  /\ (e = None -> r_host_type r = HHostName).
Proof. exact c21_complete. Qed.
(** Every host has labels. *)
Theorem C21_labels : forall h, exists first zs segs, labelled h first zs segs.
Proof. exact labelled_total. Qed.
Example C21_example : (exists r, extract ex_idna ex_trie (ex_params "https://a.b.c.ck./") = Ret (r, None)
    /\ r_host_type r = HHostName
    /\ url_parts ex_idna (ex_params "https://a.b.c.ck./") (str "https://") None (str "a.b.c.ck.") (str "a.b.c.ck.") None (str "/")
    /\ labelled (str "a.b.c.ck.") (str "a") [([], str ".")] [(str "ck", str "."); (str "c", str "."); (str "b", str ".")]
    /\ walk ex_rules [] (map str ["ck"; "c"; "b"; "a"]%string) = (Some 0, 2)%nat
    /\ r_suffix r = str "c.ck" /\ r_domain r = str "b")
  /\ Forall ldh (map str ["ck"; "c"; "b"; "a"]%string).
Proof.
  split.
  - eexists. split; [vm_compute; reflexivity|]. split; [reflexivity|]. split; [ex_parts|]. split; [ex_labelled|].
    repeat split; vm_compute; reflexivity.
  - repeat (apply Forall_cons; [split; [repeat (apply Forall_cons; [left; unfold letter; vm_compute; intuition discriminate|]); apply Forall_nil
      |split; vm_compute; discriminate]|]). apply Forall_nil.
Qed.

(** C22: on lists that are regular along the labels of the host the suffix is that of the
    algorithm of publicsuffix.org. *)
Theorem C22_regular : forall ext rules t p r scheme user raw h port path first zs segs, build_trie rules = Ret t ->
  extract ext t p = Ret (r, None) -> r_host_type r = HHostName ->
  url_parts ext p scheme user raw h port path -> labelled h first zs segs ->
  Forall plain_label (labels first segs) -> regular rules (labels first segs) ->
  exists n, psl_suffix rules (labels first segs) n /\ (n <= length segs)%nat
    /\ r_suffix r = labels_text (firstn n segs) /\ r_domain r = nth n (labels first segs) [].
Proof. exact c22. Qed.
(** The algorithm has one answer there. *)
Theorem C22_unique : forall rules labs n n', regular rules labs ->
  psl_suffix rules labs n -> psl_suffix rules labs n' -> n = n'.
Proof. exact psl_unique. Qed.
(** On every list it has an answer. *)
Theorem C22_total : forall rules labs, exists n, psl_suffix rules labs n.
Proof. exact psl_total. Qed.
(** A check that a list is regular along the labels of every host. *)
Theorem C22_regular_list : forall rules labs, regular_list rules = true -> regular rules labs.
Proof. exact regular_list_sound. Qed.
Example C22_example : regular_list ex_rules = true
  /\ (exists r, extract ex_idna ex_trie (ex_params "a.b.c.ck") = Ret (r, None) /\ r_host_type r = HHostName
      /\ r_suffix r = str "c.ck" /\ r_domain r = str "b")
  /\ (exists r, extract ex_idna ex_trie (ex_params "a.www.ck") = Ret (r, None) /\ r_host_type r = HHostName
      /\ r_suffix r = str "ck" /\ r_domain r = str "www")
  /\ url_parts ex_idna (ex_params "a.www.ck") [] None (str "a.www.ck") (str "a.www.ck") None []
  /\ labelled (str "a.www.ck") (str "a") [] [(str "ck", str "."); (str "www", str ".")]
  /\ Forall plain_label (labels (str "a") [(str "ck", str "."); (str "www", str ".")]).
Proof.
  split; [vm_compute; reflexivity|]. split; [eexists; split; [vm_compute; reflexivity|]; repeat split|].
  split; [eexists; split; [vm_compute; reflexivity|]; repeat split|]. split; [ex_parts|]. split; [ex_labelled|].
  unfold labels. cbn [map fst app]. ex_plain_labels.
Qed.

(** C23: full statement: the suffix is that of the algorithm for every list.  False: with rule
    co.za but no rule za (as in the real list) the suffix of example.co.za is "co". *)
Theorem C23_refuted : exists ext rules t p r first segs, build_trie rules = Ret t /\ extract ext t p = Ret (r, None)
  /\ r_host_type r = HHostName /\ p_url p = str "example.co.za" /\ rules = [str "co.za"; str "com"]
  /\ url_parts ext p [] None (p_url p) (p_url p) None [] /\ labelled (p_url p) first [] segs
  /\ Forall plain_label (labels first segs)
  /\ psl_suffix rules (labels first segs) 2 /\ labels_text (firstn 2 segs) = str "co.za"
  /\ r_suffix r = str "co" /\ r_registered_domain r = str "example.co".
Proof.
  exists ex_idna, [str "co.za"; str "com"], (trie_of [str "co.za"; str "com"]), (ex_params "example.co.za"). eexists.
  exists (str "example"), [(str "za", str "."); (str "co", str ".")].
  split; [vm_compute; reflexivity|]. split; [vm_compute; reflexivity|]. split; [reflexivity|]. split; [reflexivity|].
  split; [reflexivity|]. split; [ex_parts|]. split; [ex_labelled|]. split; [unfold labels; cbn [map fst app]; ex_plain_labels|].
  split; [|repeat split].
  right. split.
  - intros rule Hr (above & k & top & rest & E & _). apply (f_equal (fun l => last l [])) in E. rewrite last_last in E.
    destruct Hr as [<-|[<-|[]]]; vm_compute in E; discriminate.
  - left. exists (str "co.za"). split; [left; reflexivity|]. split; [|split; [|split]].
    + intros (above & k & E). apply (f_equal (fun l => last l [])) in E. rewrite last_last in E. vm_compute in E. discriminate.
    + exists [str "za"; str "co"], [str "example"]. split; [reflexivity|].
      vm_compute. repeat (apply Forall2_cons; [right; reflexivity|]). apply Forall2_nil.
    + reflexivity.
    + intros rule Hr _ _. destruct Hr as [<-|[<-|[]]]; vm_compute; lia.
Qed.

(** C24: escaping bytes of labels does not change the components (up to decoding), unless an
    exception rule names one of the labels. *)
Theorem C24_escaped_labels : forall ext rules t p p' r r' scheme user raw h port path first zs segs
    scheme' user' raw' h' port' path' first' zs' segs', build_trie rules = Ret t ->
  extract ext t p = Ret (r, None) -> extract ext t p' = Ret (r', None) ->
  r_host_type r = HHostName -> r_host_type r' = HHostName ->
  url_parts ext p scheme user raw h port path -> labelled h first zs segs ->
  url_parts ext p' scheme' user' raw' h' port' path' -> labelled h' first' zs' segs' ->
  Forall2 same_decoding (labels first segs) (labels first' segs') -> map snd segs = map snd segs' ->
  (forall (q : list bytes) (l : bytes), In l (labels first segs) \/ In l (labels first' segs') ->
     known rules (q ++ [str "!" ++ l]) = false) ->
  p_ignore_sub_domains p = p_ignore_sub_domains p' ->
  same_decoding (r_domain r) (r_domain r') /\ same_decoding (r_suffix r) (r_suffix r')
  /\ same_decoding (r_sub_domain r) (r_sub_domain r').
Proof. exact c24. Qed.
Example C24_example : same_decoding (str "uk") (str "%75k")
  /\ exists r r', extract ex_idna ex_trie (ex_params "a.co.uk") = Ret (r, None)
  /\ extract ex_idna ex_trie (ex_params "a.co.%75k") = Ret (r', None)
  /\ r_suffix r = str "co.uk" /\ r_suffix r' = str "co.%75k" /\ r_domain r = r_domain r'.
Proof.
  split; [apply same_decoding_pct; vm_compute; reflexivity|].
  do 2 eexists. split; [vm_compute; reflexivity|]. split; [vm_compute; reflexivity|]. repeat split.
Qed.

(** C25: full statement: an exception rule also applies to a label that is percent-encoded.
    False: the wildcard and exception look-ups use the label as written. *)
Theorem C25_refuted : exists ext t p p' r r', t = ex_trie /\ extract ext t p = Ret (r, None) /\ extract ext t p' = Ret (r', None)
  /\ p_url p = str "a.www.ck" /\ p_url p' = str "a.%77ww.ck" /\ same_decoding (p_url p) (p_url p')
  /\ r_domain r = str "www" /\ r_suffix r = str "ck" /\ r_domain r' = str "a" /\ r_suffix r' = str "%77ww.ck".
Proof.
  exists ex_idna, ex_trie, (ex_params "a.www.ck"), (ex_params "a.%77ww.ck"). do 2 eexists. split; [reflexivity|].
  split; [vm_compute; reflexivity|]. split; [vm_compute; reflexivity|]. repeat split; apply same_decoding_pct; vm_compute; reflexivity.
Qed.
(** It holds for a label written literally, below labels that may be escaped. *)
Theorem C25_partial : forall ext rules t p r scheme user raw h port path first zs segs (above labs0 : list bytes) (l : bytes) more,
  build_trie rules = Ret t -> extract ext t p = Ret (r, None) -> r_host_type r = HHostName ->
  url_parts ext p scheme user raw h port path -> labelled h first zs segs ->
  labels first segs = labs0 ++ l :: more -> Forall2 (fun k x => decoded x = k) above labs0 ->
  known rules (above ++ [str "!" ++ l]) = true -> known rules (above ++ [str "*"]) = true ->
  (forall (q : list bytes) x y, above = q ++ x :: y -> known rules (q ++ [str "*"]) = false) ->
  (exists q y : list bytes, above = q ++ y /\ q <> [] /\ is_suffix rules q = true) ->
  r_domain r = l /\ r_suffix r <> [].
Proof. exact c25_partial. Qed.
Example C25_example : (exists r, extract ex_idna ex_trie (ex_params "a.www.c%6B") = Ret (r, None)
    /\ r_host_type r = HHostName /\ r_domain r = str "www")
  /\ decoded (str "c%6B") = str "ck" /\ known ex_rules [str "ck"; str "!www"] = true
  /\ known ex_rules [str "ck"; str "*"] = true /\ known ex_rules [str "*"] = false /\ is_suffix ex_rules [str "ck"] = true.
Proof. split; [eexists; split; [vm_compute; reflexivity|]; repeat split|]. repeat split; vm_compute; reflexivity. Qed.

(** C26 *)
Theorem C26_separators : forall ext rules t p p' r r' scheme user raw h port path first zs segs
    scheme' user' raw' h' port' path' zs' segs', build_trie rules = Ret t ->
  extract ext t p = Ret (r, None) -> extract ext t p' = Ret (r', None) ->
  r_host_type r = HHostName -> r_host_type r' = HHostName ->
  url_parts ext p scheme user raw h port path -> labelled h first zs segs ->
  url_parts ext p' scheme' user' raw' h' port' path' -> labelled h' first zs' segs' ->
  map fst segs = map fst segs' -> p_ignore_sub_domains p = p_ignore_sub_domains p' ->
  r_domain r = r_domain r' /\ same_but_seps (r_suffix r) (r_suffix r')
  /\ same_but_seps (r_sub_domain r) (r_sub_domain r').
Proof. exact c26. Qed.
Example C26_example : exists r r', extract ex_idna ex_trie (ex_params "x.a.co.uk") = Ret (r, None)
  /\ extract ex_idna ex_trie (mkParams (str "x" ++ encode 12290 ++ str "a.co" ++ encode 65294 ++ str "uk" ++ encode 65377) false false) = Ret (r', None)
  /\ r_domain r = r_domain r' /\ r_suffix r = str "co.uk" /\ r_suffix r' = str "co" ++ encode 65294 ++ str "uk"
  /\ labelled (str "x" ++ encode 12290 ++ str "a.co" ++ encode 65294 ++ str "uk" ++ encode 65377) (str "x")
       [([], encode 65377)] [(str "uk", encode 65294); (str "co", str "."); (str "a", encode 12290)].
Proof.
  do 2 eexists. split; [vm_compute; reflexivity|]. split; [vm_compute; reflexivity|]. split; [reflexivity|].
  split; [reflexivity|]. split; [reflexivity|]. ex_labelled.
Qed.

(** C29 *)
Theorem C29_order_irrelevant : forall ext rules rules' t t' p, (forall rule, In rule rules <-> In rule rules') ->
  build_trie rules = Ret t -> build_trie rules' = Ret t' -> extract ext t p = extract ext t' p.
Proof. exact c29. Qed.
Example C29_example : let rules' := rev ex_rules ++ [str "uk"] in
  (forall rule, In rule ex_rules <-> In rule rules') /\ trie_of rules' <> ex_trie.
Proof. split; [intros rule; cbn; tauto|]. vm_compute. discriminate. Qed.

(** C30: [has t path] says that the path leads to a node of the trie, [marked t path] that the
    node is marked as the end of a suffix. *)
Theorem C30_trie_is_rules : forall rules, exists t, build_trie rules = Ret t
  /\ (forall path, path <> [] -> has t path = known rules path)
  /\ (forall path, marked t path = is_suffix rules path).
Proof. exact c30. Qed.
Theorem C30_monotone : forall rules rules' t t' path, (forall rule, In rule rules -> In rule rules') ->
  build_trie rules = Ret t -> build_trie rules' = Ret t' ->
  (has t path = true -> has t' path = true) /\ (marked t path = true -> marked t' path = true).
Proof. exact c30_monotone. Qed.
(** The specification of rules in terms of their texts. *)
Theorem C30_rules : forall rules path,
  (known rules path = true <-> exists rule rest, In rule rules /\ rule_path rule = path ++ rest)
  /\ (is_rule rules path = true <-> exists rule, In rule rules /\ rule_path rule = path).
Proof. intros rules path. split; [apply known_iff|apply is_rule_iff]. Qed.
Example C30_example : has ex_trie [str "uk"; str "co"] = true /\ marked ex_trie [str "uk"; str "co"] = true
  /\ marked ex_trie [str "ck"] = true /\ marked ex_trie [str "ck"; str "www"] = false
  /\ rule_path (str "a.b.c") = [str "c"; str "b"; str "a"].
Proof. repeat split; vm_compute; reflexivity. Qed.

(** C48: full statement: letter case does not matter for the suffix.  False. *)
Theorem C48_refuted : exists ext t p p' r r', t = ex_trie /\ extract ext t p = Ret (r, None) /\ extract ext t p' = Ret (r', None)
  /\ p_url p = str "example.com" /\ p_url p' = str "example.COM" /\ r_suffix r = str "com" /\ r_domain r = str "example"
  /\ r_suffix r' = [] /\ r_domain r' = str "COM" /\ r_host_type r' = HHostName.
Proof.
  exists ex_idna, ex_trie, (ex_params "example.com"), (ex_params "example.COM"). do 2 eexists. split; [reflexivity|].
  split; [vm_compute; reflexivity|]. split; [vm_compute; reflexivity|]. repeat split.
Qed.
(** It holds for the letters of the subdomain, which can be replaced by any other text. *)
Theorem C48_partial : forall ext rules t p p' r r' scheme user raw h port path scheme' user' raw' h' port' path' s s' x' y,
  build_trie rules = Ret t -> extract ext t p = Ret (r, None) -> extract ext t p' = Ret (r', None) ->
  r_host_type r = HHostName -> r_host_type r' = HHostName ->
  p_ignore_sub_domains p = false -> p_ignore_sub_domains p' = false ->
  url_parts ext p scheme user raw h port path -> url_parts ext p' scheme' user' raw' h' port' path' ->
  is_sep_text s -> is_sep_text s' -> r_suffix r <> [] ->
  h = r_sub_domain r ++ s ++ y -> h' = x' ++ s' ++ y ->
  r_domain r' = r_domain r /\ r_suffix r' = r_suffix r /\ r_sub_domain r' = x'.
Proof. exact c48_partial. Qed.
Example C48_example : exists r r', extract ex_idna ex_trie (ex_params "A.b.example.co.uk") = Ret (r, None)
  /\ extract ex_idna ex_trie (ex_params "a.B.example.co.uk") = Ret (r', None)
  /\ r_suffix r = str "co.uk" /\ r_suffix r' = str "co.uk" /\ r_domain r' = str "example" /\ r_sub_domain r' = str "a.B".
Proof. do 2 eexists. split; [vm_compute; reflexivity|]. split; [vm_compute; reflexivity|]. repeat split. Qed.

(** C49 *)
Theorem C49_unknown_tld : forall ext rules t p r scheme user raw h port path first zs segs, build_trie rules = Ret t ->
  extract ext t p = Ret (r, None) -> r_host_type r = HHostName ->
  url_parts ext p scheme user raw h port path -> labelled h first zs segs ->
  known rules [decoded (nth 0 (labels first segs) [])] = false -> known rules [str "*"] = false ->
  r_suffix r = [] /\ r_registered_domain r = [] /\ r_domain r = nth 0 (labels first segs) [].
Proof. exact c49. Qed.
Example C49_example : exists r, extract ex_idna ex_trie (ex_params "x.example.local.") = Ret (r, None)
  /\ r_host_type r = HHostName
  /\ url_parts ex_idna (ex_params "x.example.local.") [] None (str "x.example.local.") (str "x.example.local.") None []
  /\ labelled (str "x.example.local.") (str "x") [([], str ".")] [(str "local", str "."); (str "example", str ".")]
  /\ known ex_rules [decoded (str "local")] = false /\ known ex_rules [str "*"] = false /\ r_domain r = str "local".
Proof.
  eexists. split; [vm_compute; reflexivity|]. split; [reflexivity|]. split; [ex_parts|]. split; [ex_labelled|].
  repeat split; vm_compute; reflexivity.
Qed.

Print Assumptions C06_partial.
Print Assumptions C06_refuted.
Print Assumptions C14_partial.
Print Assumptions C14_refuted.
Print Assumptions C19_tld_partial.
Print Assumptions C20_tld_partial.
Print Assumptions C21_walk.
Print Assumptions C21_complete.
Print Assumptions C21_labels.
Print Assumptions C22_regular.
Print Assumptions C22_unique.
Print Assumptions C22_total.
Print Assumptions C22_regular_list.
Print Assumptions C05_parts.
Print Assumptions C23_refuted.
Print Assumptions C24_escaped_labels.
Print Assumptions C25_refuted.
Print Assumptions C25_partial.
Print Assumptions C26_separators.
Print Assumptions C29_order_irrelevant.
Print Assumptions C30_trie_is_rules.
Print Assumptions C30_monotone.
Print Assumptions C30_rules.
Print Assumptions C48_refuted.
Print Assumptions C48_partial.
Print Assumptions C49_unknown_tld.
