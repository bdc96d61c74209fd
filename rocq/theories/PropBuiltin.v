(** PropBuiltin.v - properties of Extract with the list built into the library (fallback.go), and
    which rules matter for a host: C53, C54, C55.

    [used_rules to_ascii hardcoded_psl private rules]: [rules] are the rules of the built-in list,
    with or without those of the private section; [build_trie rules = Ret t] makes the trie that
    New and Update put into extractors with this list. *)

From Verif Require Import Base BaseFacts Utf8 Chars Str StrFacts Net Trie Extract Psl Host HostFacts Walk WalkFacts
  Addr NetFacts Parse ParseFacts UrlSpec UrlFacts ExtractFacts OutcomeFacts Rfc RuleSpec TrieFacts RuleProofs PslProofs
  HostProofs VariantProofs ListSpec ListFacts ExampleBase PropRules GapProofs Builtin BuiltinSpec BuiltinProofs.
Local Open Scope N_scope.

(** For the examples: IDNA conversion by table, and the results with the built-in list, which by
    C54 are those with the rules of the TLD. *)
Definition ex_ascii (l : bytes) : option bytes :=
  match assoc unicode_rules l with Some a => Some a | None => Some l end.
Lemma ex_ascii_ok : idna_on_builtin ex_ascii.
Proof.
  split.
  - intros line _ A. unfold ex_ascii. destruct (assoc unicode_rules line) as [a|] eqn:E; [|reflexivity]. exfalso.
    apply assoc_in in E.
    assert (X : forallb (fun x => negb (ascii_b (fst x))) unicode_rules = true) by (vm_compute; reflexivity).
    rewrite forallb_forall in X. specialize (X _ E). cbn [fst] in X. apply negb_true_iff in X.
    assert (Y : ascii_b line = true); [|congruence]. unfold ascii_b. rewrite forallb_forall. rewrite Forall_forall in A.
    intros b Hb. apply N.ltb_lt. auto.
  - apply Forall_forall. assert (X : forallb (fun x => match ex_ascii (fst x) with Some a => bytes_eqb a (snd x) | None => false end)
      unicode_rules = true) by (vm_compute; reflexivity).
    rewrite forallb_forall in X. intros x Hx. specialize (X x Hx). cbv beta in X.
    destruct (ex_ascii (fst x)) as [a|]; [|discriminate]. apply bytes_eqb_eq in X. subst a. reflexivity.
Qed.
Lemma ex_used : forall private, used_rules ex_ascii hardcoded_psl private (builtin_rules private).
Proof.
  intros private. apply used_rules_iff. pose proof (builtin_parse _ ex_ascii_ok) as P. revert P.
  unfold builtin_rules. generalize builtin_public builtin_private. intros a b P. rewrite P. reflexivity.
Qed.
Definition concerns_b (tld rule : bytes) : bool :=
  match rule_path rule with
  | k :: _ => same k (decoded tld) || same k (str "*") || same k (str "!" ++ tld)
  | [] => false
  end.
Lemma concerns_b_ok : forall tld rule, concerns tld rule -> concerns_b tld rule = true.
Proof.
  intros tld rule (k & rest & E & H). unfold concerns_b. rewrite E.
  destruct H as [->|[->| ->]]; rewrite same_refl, ?orb_true_r; reflexivity.
Qed.

(** C54: only the rules with the TLD of the host, wildcards and exceptions there, matter. *)
Theorem C54_other_tlds : forall ext rules rules' t t' p tld, host_tld ext p tld ->
  (forall rule, concerns tld rule -> (In rule rules <-> In rule rules')) ->
  build_trie rules = Ret t -> build_trie rules' = Ret t' -> extract ext t p = extract ext t' p.
Proof. exact c54. Qed.
Example C54_example : host_tld ex_idna (ex_params "a.b.ck") (str "ck")
  /\ (forall rule, concerns (str "ck") rule -> (In rule ex_rules <-> In rule [str "!www.ck"; str "*.ck"; str "de"]))
  /\ ~ concerns (str "ck") (str "co.uk").
Proof.
  split; [|split].
  - exists [], None, (str "a.b.ck"), (str "a.b.ck"), None, [], (str "a"), [], [(str "ck", str "."); (str "b", str ".")].
    split; [ex_parts|]. split; [ex_labelled|reflexivity].
  - intros rule C. apply concerns_b_ok in C. cbn [In ex_rules].
    split; intros H; repeat (destruct H as [<-|H]; [vm_compute in C; (discriminate C || tauto)|]); destruct H.
  - intros C. apply concerns_b_ok in C. vm_compute in C. discriminate C.
Qed.

Lemma ex_real : forall private url tld x, host_tld ex_idna (ex_params url) tld ->
  extract ex_idna (trie_of (filter (concerns_b tld) (builtin_rules private))) (ex_params url) = x ->
  exists t, build_trie (builtin_rules private) = Ret t /\ extract ex_idna t (ex_params url) = x.
Proof.
  intros private url tld x H E. destruct (build_trie_spec (builtin_rules private)) as (t & Bt & _).
  exists t. split; [exact Bt|]. subst x. unfold trie_of.
  destruct (build_trie_spec (filter (concerns_b tld) (builtin_rules private))) as (t' & Bt' & _). rewrite Bt'.
  refine (c54 _ _ _ _ _ _ _ H _ Bt Bt'). intros rule C. rewrite filter_In. apply concerns_b_ok in C. tauto.
Qed.
Ltac ex_tld sc us raw ho po pa fi zs se :=
  exists sc, us, raw, ho, po, pa, fi, zs, se; split; [ex_parts|]; split; [ex_labelled|reflexivity].

(** C53: where the built-in list is not regular, and what Extract reports there. *)
Theorem C53_gaps : forall to_ascii private rules path, idna_on_builtin to_ascii -> used_rules to_ascii hardcoded_psl private rules ->
  (gap rules path <-> In path (map rule_path (builtin_gaps private)))
  /\ (hidden rules path <-> In path (map rule_path (builtin_hidden private)))
  /\ exceptions_ok rules /\ known rules [str "*"] = false.
Proof. exact c53_gaps. Qed.
(** The suffix is that of the algorithm of publicsuffix.org exactly for the hosts that do not
    stop in a gap. *)
Theorem C53_exact : forall to_ascii ext private rules t p r scheme user raw h port path first zs segs,
  idna_on_builtin to_ascii -> used_rules to_ascii hardcoded_psl private rules -> build_trie rules = Ret t ->
  extract ext t p = Ret (r, None) -> r_host_type r = HHostName ->
  url_parts ext p scheme user raw h port path -> labelled h first zs segs -> Forall plain_label (labels first segs) ->
  nth 0 (labels first segs) [] <> str "za" ->
  (forall name rest, In name (builtin_hidden private) -> labels first segs <> rule_path name ++ rest) ->
  ((exists n, psl_suffix rules (labels first segs) n /\ r_suffix r = labels_text (firstn n segs)
       /\ r_domain r = nth n (labels first segs) [])
   <-> ~ stops_in_gap rules (labels first segs)).
Proof. exact c53. Qed.
(** Those that do get the labels of the gap as suffix, more than the algorithm says. *)
Theorem C53_at_gap : forall to_ascii ext private rules t p r scheme user raw h port path first zs segs name l more,
  idna_on_builtin to_ascii -> used_rules to_ascii hardcoded_psl private rules -> build_trie rules = Ret t ->
  extract ext t p = Ret (r, None) -> r_host_type r = HHostName ->
  url_parts ext p scheme user raw h port path -> labelled h first zs segs -> Forall plain_label (labels first segs) ->
  nth 0 (labels first segs) [] <> str "za" ->
  (forall name rest, In name (builtin_hidden private) -> labels first segs <> rule_path name ++ rest) ->
  In name (builtin_gaps private) -> labels first segs = rule_path name ++ l :: more -> known rules (rule_path name ++ [l]) = false ->
  r_suffix r = labels_text (firstn (length (rule_path name)) segs) /\ r_domain r = l
  /\ forall n, psl_suffix rules (labels first segs) n -> (n < length (rule_path name))%nat.
Proof. exact c53_at_gap. Qed.
(** Under "za", the only TLD of a rule that is not a rule itself, the last label is missing from
    the suffix. *)
Theorem C53_za : forall to_ascii ext private rules t p r scheme user raw h port path first zs segs,
  idna_on_builtin to_ascii -> used_rules to_ascii hardcoded_psl private rules -> build_trie rules = Ret t ->
  extract ext t p = Ret (r, None) -> r_host_type r = HHostName ->
  url_parts ext p scheme user raw h port path -> labelled h first zs segs -> Forall plain_label (labels first segs) ->
  nth 0 (labels first segs) [] = str "za" ->
  (psl_suffix rules (labels first segs) 2 /\ r_suffix r = nth 1 (labels first segs) []
     /\ r_domain r = nth 2 (labels first segs) [])
  \/ (psl_suffix rules (labels first segs) 0 /\ r_suffix r = [] /\ r_domain r = str "za").
Proof. exact c53_za. Qed.
(** Below the names beside a wildcard the suffix ends with them, while the algorithm says one
    label more unless there is an exception. *)
Theorem C53_hidden : forall to_ascii ext private rules t p r scheme user raw h port path first zs segs name rest,
  idna_on_builtin to_ascii -> used_rules to_ascii hardcoded_psl private rules -> build_trie rules = Ret t ->
  extract ext t p = Ret (r, None) -> r_host_type r = HHostName ->
  url_parts ext p scheme user raw h port path -> labelled h first zs segs -> Forall plain_label (labels first segs) ->
  In name (builtin_hidden private) -> labels first segs = rule_path name ++ rest ->
  exists l more, rest = l :: more /\
  r_suffix r = labels_text (firstn (length (rule_path name)) segs) /\ r_domain r = l
  /\ forall n, psl_suffix rules (labels first segs) n <->
       n = if known rules (rule_path name ++ [str "!" ++ l]) then length (rule_path name) else S (length (rule_path name)).
Proof. exact c53_hidden. Qed.
(** Hosts of each kind, with the real list: foo.akershus.no has the suffix no, since akershus.no
    is no rule but nes.akershus.no is; a.nes.akershus.no and example.co.uk are right. *)
Example C53_example_gap : exists t r, build_trie (builtin_rules false) = Ret t
  /\ extract ex_idna t (ex_params "foo.akershus.no") = Ret (r, None) /\ r_host_type r = HHostName
  /\ r_suffix r = str "akershus.no" /\ r_domain r = str "foo"
  /\ In (str "akershus.no") (builtin_gaps false)
  /\ known (builtin_rules false) [str "no"; str "akershus"; str "foo"] = false
  /\ Forall plain_label (labels (str "foo") [(str "no", str "."); (str "akershus", str ".")])
  /\ stops_in_gap (builtin_rules false) [str "no"; str "akershus"; str "foo"].
Proof.
  destruct (ex_real false "foo.akershus.no" (str "no") (Ret (mkResult [] [] [] (str "foo") (str "akershus.no")
    (str "foo.akershus.no") [] [] HHostName, None))) as (t & Bt & E).
  - ex_tld (@nil N) (@None bytes) (str "foo.akershus.no") (str "foo.akershus.no") (@None bytes) (@nil N) (str "foo") (@nil seg)
      [(str "no", str "."); (str "akershus", str ".")].
  - vm_compute. reflexivity.
  - eexists. eexists. split; [exact Bt|]. split; [exact E|].
    split; [reflexivity|]. split; [reflexivity|]. split; [reflexivity|].
    assert (I : In (str "akershus.no") (builtin_gaps false)) by (left; reflexivity). split; [exact I|].
    assert (K : known (builtin_rules false) [str "no"; str "akershus"; str "foo"] = false) by (vm_compute; reflexivity).
    split; [exact K|]. split; [unfold labels; cbn [map fst app]; ex_plain_labels|].
    exists [str "no"; str "akershus"], (str "foo"), []. split; [reflexivity|]. split; [|exact K].
    destruct (c53_gaps ex_ascii false _ [str "no"; str "akershus"] ex_ascii_ok (ex_used false)) as (G & _).
    apply G. apply (in_map rule_path) in I. exact I.
Qed.
(** a.nes.akershus.no does not stop in a gap. *)
Example C53_example_exact : exists t r, build_trie (builtin_rules false) = Ret t
  /\ extract ex_idna t (ex_params "a.nes.akershus.no") = Ret (r, None) /\ r_host_type r = HHostName
  /\ r_suffix r = str "nes.akershus.no" /\ r_domain r = str "a"
  /\ Forall plain_label (labels (str "a") [(str "no", str "."); (str "akershus", str "."); (str "nes", str ".")])
  /\ ~ stops_in_gap (builtin_rules false) [str "no"; str "akershus"; str "nes"; str "a"].
Proof.
  destruct (ex_real false "a.nes.akershus.no" (str "no") (Ret (mkResult [] [] [] (str "a") (str "nes.akershus.no")
    (str "a.nes.akershus.no") [] [] HHostName, None))) as (t & Bt & E).
  - ex_tld (@nil N) (@None bytes) (str "a.nes.akershus.no") (str "a.nes.akershus.no") (@None bytes) (@nil N) (str "a") (@nil seg)
      [(str "no", str "."); (str "akershus", str "."); (str "nes", str ".")].
  - vm_compute. reflexivity.
  - eexists. eexists. split; [exact Bt|]. split; [exact E|].
    split; [reflexivity|]. split; [reflexivity|]. split; [reflexivity|].
    split; [unfold labels; cbn [map fst app]; ex_plain_labels|].
    intros (path & l & more & El & (Ne & Kp & Rp & _) & Kl).
    destruct path as [|a [|b [|c [|d path]]]]; cbn [app] in El.
    + contradiction.
    + injection El as <- <- _. clear - Rp. vm_compute in Rp. discriminate.
    + injection El as <- <- <- _. clear - Kl. vm_compute in Kl. discriminate.
    + injection El as <- <- <- _ _. clear - Rp. vm_compute in Rp. discriminate.
    + injection El as _ _ _ _ El. destruct path; discriminate El.
Qed.
Example C53_example_za : exists t r, build_trie (builtin_rules false) = Ret t
  /\ extract ex_idna t (ex_params "www.example.co.za") = Ret (r, None) /\ r_host_type r = HHostName
  /\ r_suffix r = str "co" /\ r_domain r = str "example" /\ r_registered_domain r = str "example.co"
  /\ Forall plain_label (labels (str "www") [(str "za", str "."); (str "co", str "."); (str "example", str ".")]).
Proof.
  destruct (ex_real false "www.example.co.za" (str "za") (Ret (mkResult [] [] (str "www") (str "example") (str "co")
    (str "example.co") [] [] HHostName, None))) as (t & Bt & E).
  - ex_tld (@nil N) (@None bytes) (str "www.example.co.za") (str "www.example.co.za") (@None bytes) (@nil N) (str "www") (@nil seg)
      [(str "za", str "."); (str "co", str "."); (str "example", str ".")].
  - vm_compute. reflexivity.
  - eexists. eexists. split; [exact Bt|]. split; [exact E|]. do 4 (split; [reflexivity|]).
    unfold labels; cbn [map fst app]; ex_plain_labels.
Qed.
Example C53_example_hidden : exists t r, build_trie (builtin_rules true) = Ret t
  /\ extract ex_idna t (ex_params "a.b.svc.firenet.ch") = Ret (r, None) /\ r_host_type r = HHostName
  /\ r_suffix r = str "svc.firenet.ch" /\ r_domain r = str "b"
  /\ Forall plain_label (labels (str "a") [(str "ch", str "."); (str "firenet", str "."); (str "svc", str "."); (str "b", str ".")])
  /\ In (str "svc.firenet.ch") (builtin_hidden true)
  /\ psl_suffix (builtin_rules true) [str "ch"; str "firenet"; str "svc"; str "b"; str "a"] 4.
Proof.
  destruct (ex_real true "a.b.svc.firenet.ch" (str "ch") (Ret (mkResult [] [] (str "a") (str "b") (str "svc.firenet.ch")
    (str "b.svc.firenet.ch") [] [] HHostName, None))) as (t & Bt & E).
  - ex_tld (@nil N) (@None bytes) (str "a.b.svc.firenet.ch") (str "a.b.svc.firenet.ch") (@None bytes) (@nil N) (str "a") (@nil seg)
      [(str "ch", str "."); (str "firenet", str "."); (str "svc", str "."); (str "b", str ".")].
  - vm_compute. reflexivity.
  - eexists. eexists. split; [exact Bt|]. split; [exact E|]. do 3 (split; [reflexivity|]).
    assert (P : Forall plain_label (labels (str "a") [(str "ch", str "."); (str "firenet", str "."); (str "svc", str "."); (str "b", str ".")]))
      by (unfold labels; cbn [map fst app]; ex_plain_labels).
    split; [exact P|].
    assert (I : In (str "svc.firenet.ch") (builtin_hidden true)).
    { assert (X : existsb (same (str "svc.firenet.ch")) (builtin_hidden true) = true) by (vm_compute; reflexivity).
      apply existsb_exists in X as (x & Hx & Ex). apply same_eq in Ex. subst x. exact Hx. }
    split; [exact I|].
    destruct (c53_hidden ex_ascii ex_idna true (builtin_rules true) t (ex_params "a.b.svc.firenet.ch") _ [] None
      (str "a.b.svc.firenet.ch") (str "a.b.svc.firenet.ch") None [] (str "a") []
      [(str "ch", str "."); (str "firenet", str "."); (str "svc", str "."); (str "b", str ".")]
      (str "svc.firenet.ch") [str "b"; str "a"] ex_ascii_ok (ex_used true) Bt E eq_refl)
      as (l & more & El & _ & _ & Ps); [ex_parts|ex_labelled|exact P|exact I|reflexivity|].
    injection El as <- _. apply Ps.
    assert (K : known (builtin_rules true) (rule_path (str "svc.firenet.ch") ++ [str "!" ++ str "b"]) = false) by (vm_compute; reflexivity).
    rewrite K. reflexivity.
Qed.

(** C55: with the built-in list C06, C14, C19 and C20 hold for all hosts whose TLD is not za
    (percent-decoded), C14 for all hosts. *)
Theorem C55_ipv4 : forall to_ascii ext private rules t p r, idna_on_builtin to_ascii ->
  used_rules to_ascii hardcoded_psl private rules -> build_trie rules = Ret t ->
  extract ext t p = Ret (r, None) -> r_host_type r = HIPv4 ->
  ipv4_address (r_domain r) /\ r_registered_domain r = r_domain r /\ r_sub_domain r = [] /\ r_suffix r = []
  /\ exists scheme user raw h port path w, url_parts ext p scheme user raw h port path /\ port_accepted port
       /\ h = r_domain r ++ w /\ seps w
       /\ r_scheme r = scheme /\ r_user_info r = user_of user /\ r_port r = port_of port /\ r_path r = path.
Proof. exact c55_ipv4. Qed.
Theorem C55_lossless : forall to_ascii ext private rules t p r, idna_on_builtin to_ascii ->
  used_rules to_ascii hardcoded_psl private rules -> build_trie rules = Ret t ->
  extract ext t p = Ret (r, None) -> p_to_punycode p = false -> p_ignore_sub_domains p = false ->
  (forall tld, host_tld ext p tld -> decoded tld <> str "za") -> assembled p r.
Proof. exact c55_lossless. Qed.
Theorem C55_characters : forall to_ascii ext private rules t p r c, idna_on_builtin to_ascii ->
  used_rules to_ascii hardcoded_psl private rules -> build_trie rules = Ret t ->
  extract ext t p = Ret (r, None) -> r_host_type r = HHostName ->
  (forall tld, host_tld ext p tld -> decoded tld <> str "za") ->
  In c forbidden -> c <> 888 -> c <> 8299 -> c <> 10868 ->
  ~ has_char c (r_domain r) /\ ~ has_char c (r_sub_domain r).
Proof. exact c55_characters. Qed.
Theorem C55_labels : forall to_ascii ext private rules t p r, idna_on_builtin to_ascii ->
  used_rules to_ascii hardcoded_psl private rules -> build_trie rules = Ret t ->
  extract ext t p = Ret (r, None) -> r_host_type r = HHostName ->
  (forall tld, host_tld ext p tld -> decoded tld <> str "za") ->
  exists scheme user raw h port path, url_parts ext p scheme user raw h port path
    /\ ((forall x y, h <> x ++ [239; 189; 161] ++ y) -> no_empty_label h).
Proof. exact c55_labels. Qed.
(** The condition on the TLD is needed. *)
Theorem C55_refuted_za : exists rules t p r, used_rules ex_ascii hardcoded_psl false rules /\ build_trie rules = Ret t
  /\ p_url p = str "example.co.za" /\ p_to_punycode p = false /\ p_ignore_sub_domains p = false
  /\ extract ex_idna t p = Ret (r, None) /\ ~ assembled p r.
Proof.
  destruct (ex_real false "example.co.za" (str "za") (Ret (mkResult [] [] [] (str "example") (str "co")
    (str "example.co") [] [] HHostName, None))) as (t & Bt & E).
  - ex_tld (@nil N) (@None bytes) (str "example.co.za") (str "example.co.za") (@None bytes) (@nil N) (str "example") (@nil seg)
      [(str "za", str "."); (str "co", str ".")].
  - vm_compute. reflexivity.
  - eexists. exists t, (ex_params "example.co.za"). eexists. split; [apply ex_used|]. split; [exact Bt|].
    do 3 (split; [reflexivity|]). split; [exact E|]. exact example_co_za_lost.
Qed.

Example C55_example_lossless : exists t r, build_trie (builtin_rules false) = Ret t
  /\ extract ex_idna t (ex_params "www.example.co.uk") = Ret (r, None) /\ r_host_type r = HHostName
  /\ r_sub_domain r = str "www" /\ r_domain r = str "example" /\ r_suffix r = str "co.uk"
  /\ (forall tld, host_tld ex_idna (ex_params "www.example.co.uk") tld -> decoded tld <> str "za").
Proof.
  assert (T : host_tld ex_idna (ex_params "www.example.co.uk") (str "uk")).
  { ex_tld (@nil N) (@None bytes) (str "www.example.co.uk") (str "www.example.co.uk") (@None bytes) (@nil N) (str "www") (@nil seg)
      [(str "uk", str "."); (str "co", str "."); (str "example", str ".")]. }
  destruct (ex_real false "www.example.co.uk" (str "uk") (Ret (mkResult [] [] (str "www") (str "example") (str "co.uk")
    (str "example.co.uk") [] [] HHostName, None)) T) as (t & Bt & E).
  - vm_compute. reflexivity.
  - eexists. eexists. split; [exact Bt|]. split; [exact E|]. do 4 (split; [reflexivity|]).
    intros tld Ht. rewrite (host_tld_unique _ _ _ _ Ht T). vm_compute. discriminate.
Qed.
Example C55_example_ipv4 : exists t r, build_trie (builtin_rules false) = Ret t
  /\ extract ex_idna t (ex_params "http://127.0.0.1.:80/") = Ret (r, None) /\ r_host_type r = HIPv4
  /\ r_domain r = str "127.0.0.1".
Proof.
  destruct (ex_real false "http://127.0.0.1.:80/" (str "1") (Ret (mkResult (str "http://") [] [] (str "127.0.0.1") []
    (str "127.0.0.1") (str "80") (str "/") HIPv4, None))) as (t & Bt & E).
  - ex_tld (str "http://") (@None bytes) (str "127.0.0.1.") (str "127.0.0.1.") (Some (str "80")) (str "/") (str "127") [(@nil N, str ".")]
      [(str "1", str "."); (str "0", str "."); (str "0", str ".")].
  - vm_compute. reflexivity.
  - eexists. eexists. split; [exact Bt|]. split; [exact E|]. split; reflexivity.
Qed.

Print Assumptions C54_other_tlds.
Print Assumptions C53_gaps.
Print Assumptions C53_exact.
Print Assumptions C53_at_gap.
Print Assumptions C53_za.
Print Assumptions C53_hidden.
Print Assumptions C55_ipv4.
Print Assumptions C55_lossless.
Print Assumptions C55_characters.
Print Assumptions C55_labels.
Print Assumptions C55_refuted_za.
