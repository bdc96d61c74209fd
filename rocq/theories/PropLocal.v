(** PropLocal.v - a rule changes nothing for the hosts it does not concern, nor does
    IncludePrivateSuffix: C93, C94. *)

From Verif Require Import Base BaseFacts Utf8 Chars Str StrFacts Net Trie Extract Psl Host HostFacts Addr NetFacts Parse ParseFacts
  UrlSpec UrlFacts ExtractFacts OutcomeFacts Rfc RuleSpec TrieFacts RuleProofs HostProofs VariantProofs ListSpec ListFacts ExampleBase
  PropRules Builtin BuiltinSpec BuiltinProofs PropBuiltin DivergeSpec LocalSpec LocalProofs LocalBuiltin.
Local Open Scope N_scope.

(** For the examples: the labels of the host of a URL, and a check that nothing concerns them. *)
Lemma host_labels_is : forall ext p sc us raw h po pa first zs segs labs, url_parts ext p sc us raw h po pa -> labelled h first zs segs ->
  host_labels ext p labs -> labs = labels first segs.
Proof.
  intros ext p sc us raw h po pa first zs segs labs U L (sc' & us' & raw' & h' & po' & pa' & f' & z' & s' & U' & L' & ->).
  destruct (parts_unique _ _ _ _ _ _ _ _ _ _ _ _ _ _ U U') as (_ & _ & _ & <- & _ & _).
  destruct (stripped_unique _ _ _ _ _ _ _ L L') as (<- & _ & <-). reflexivity.
Qed.
Fixpoint fits_b (p labs : list bytes) : bool :=
  match p, labs with
  | [], _ => true
  | k :: p', l :: labs' => (same k (str "*") || same k (decoded l) || same k (str "!" ++ l)) && fits_b p' labs'
  | _, _ => false
  end.
Definition concerned_b (p labs : list bytes) : bool :=
  fits_b p labs || match p, labs with [t; _], [l] => same t (decoded l) | _, _ => false end.
Lemma fits_b_ok : forall top p labs, Forall2 label_matches p (map decoded top) -> fits_b p (top ++ labs) = true.
Proof.
  induction top as [|l top IH]; intros p labs F; inversion F as [|k ? p' ? M F']; subst; [reflexivity|]. cbn [app fits_b].
  rewrite (IH p' labs F'). destruct M as [->| ->]; rewrite same_refl, ?orb_true_r; reflexivity.
Qed.
Lemma fits_b_app : forall top p q labs, Forall2 label_matches p (map decoded top) -> fits_b q labs = true -> fits_b (p ++ q) (top ++ labs) = true.
Proof.
  induction top as [|l top IH]; intros p q labs F H; inversion F as [|k ? p' ? M F']; subst; [exact H|]. cbn [app fits_b].
  rewrite (IH p' q labs F' H). destruct M as [->| ->]; rewrite same_refl, ?orb_true_r; reflexivity.
Qed.
Lemma concerned_b_ok : forall p labs, concerned p labs -> concerned_b p labs = true.
Proof.
  intros p labs [(top & rest & E & F)|[(above & l & top & rest & -> & -> & F)|(t & -> & E)]]; unfold concerned_b.
  - assert (X : fits_b p labs = true); [|rewrite X; reflexivity].
    apply map_eq_app in E as (a & b & -> & <- & _). apply fits_b_ok. exact F.
  - apply orb_true_iff. left. apply (fits_b_app top above [str "!" ++ l] (l :: rest) F). cbn [fits_b].
    apply andb_true_iff. split; [|reflexivity]. apply orb_true_iff. right. apply same_refl.
  - destruct labs as [|l [|x labs]]; try discriminate. injection E as E. rewrite E, same_refl. apply orb_true_r.
Qed.

(** C93: adding [rule] to a list changes no successful result for the URLs whose host is not
    concerned by what the rule adds ... *)
Theorem C93_rule : forall ext rules rule t t' p r new, build_trie rules = Ret t -> build_trie (rule :: rules) = Ret t' ->
  new_part rules rule new -> (forall labs, host_labels ext p labs -> ~ concerned new labs) ->
  r_host_type r <> HIPv4 \/ no_numeric_tld (rule :: rules) ->
  (extract ext t' p = Ret (r, None) <-> extract ext t p = Ret (r, None)).
Proof. exact c93_rule. Qed.
(** ... which is the whole rule if the rest of it begins a rule. *)
Theorem C93_whole : forall rules rule above k, rule_path rule = above ++ [k] -> above = [] \/ known rules above = true ->
  new_part rules rule (rule_path rule).
Proof. exact new_part_whole. Qed.
Theorem C93_new_part : forall rules rule, exists p, new_part rules rule p /\ forall p', new_part rules rule p' -> p' = p.
Proof. exact new_part_one. Qed.
(** The same for several rules. *)
Theorem C93_more_rules : forall ext rules rules' t t' p r, build_trie rules = Ret t -> build_trie rules' = Ret t' -> incl rules rules' ->
  (forall rule part labs, In rule rules' -> ~ In rule rules -> new_part rules rule part -> host_labels ext p labs -> ~ concerned part labs) ->
  r_host_type r <> HIPv4 \/ no_numeric_tld rules' ->
  (extract ext t' p = Ret (r, None) <-> extract ext t p = Ret (r, None)).
Proof. exact c93_more_rules. Qed.

(** The result for www.example.co.uk is the same with and without the rule "ac.uk"; the rule
    "nes.akershus.no" adds "akershus.no" to a list that only has "no". *)
Definition uk_url : url_params := ex_params "www.example.co.uk".
Lemma uk_labels : forall labs, host_labels ex_idna uk_url labs -> labs = map str ["uk"; "co"; "example"; "www"]%string.
Proof.
  intros labs H. refine (host_labels_is ex_idna uk_url [] None (str "www.example.co.uk") (str "www.example.co.uk") None []
    (str "www") [] [(str "uk", str "."); (str "co", str "."); (str "example", str ".")] labs _ _ H); [ex_parts|ex_labelled].
Qed.
Example C93_example : new_part ex_rules (str "ac.uk") (map str ["uk"; "ac"]%string)
  /\ (forall labs, host_labels ex_idna uk_url labs -> ~ concerned (map str ["uk"; "ac"]%string) labs)
  /\ (exists r, extract ex_idna ex_trie uk_url = Ret (r, None) /\ r_host_type r = HHostName /\ r_suffix r = str "co.uk"
       /\ extract ex_idna (trie_of (str "ac.uk" :: ex_rules)) uk_url = Ret (r, None))
  /\ new_part [str "no"] (str "nes.akershus.no") (map str ["no"; "akershus"]%string)
  /\ no_numeric_tld (str "ac.uk" :: ex_rules).
Proof.
  split; [apply (new_part_whole ex_rules (str "ac.uk") [str "uk"] (str "ac")); [reflexivity|right; vm_compute; reflexivity]|].
  split; [intros labs H C; apply uk_labels in H; subst; apply concerned_b_ok in C; vm_compute in C; discriminate C|].
  split; [eexists; split; [vm_compute; reflexivity|]; repeat split; vm_compute; reflexivity|].
  split; [|ex_no_numeric]. split; [discriminate|]. split; [exists [str "nes"]; reflexivity|]. split; [right; vm_compute; reflexivity|].
  intros q x E. change (map str ["no"; "akershus"]%string) with ([str "no"] ++ [str "akershus"]) in E. apply app_inj_tail in E as [<- _].
  right. vm_compute. reflexivity.
Qed.

(** It is not enough that the rule does not match the host: with "nes.akershus.no" the suffix of
    x.akershus.no is no longer "no". *)
Theorem C93_matching_refuted : exists ext rules rule t t' p r, build_trie rules = Ret t /\ build_trie (rule :: rules) = Ret t'
  /\ (forall labs, host_labels ext p labs -> ~ concerned (rule_path rule) labs)
  /\ r_host_type r = HHostName /\ extract ext t p = Ret (r, None) /\ extract ext t' p <> Ret (r, None).
Proof.
  exists ex_idna, [str "no"], (str "nes.akershus.no"). do 2 eexists. exists (ex_params "x.akershus.no"). eexists.
  split; [vm_compute; reflexivity|]. split; [vm_compute; reflexivity|]. split.
  - intros labs H C. assert (E : labs = map str ["no"; "akershus"; "x"]%string).
    { refine (host_labels_is _ _ [] None (str "x.akershus.no") (str "x.akershus.no") None []
        (str "x") [] [(str "no", str "."); (str "akershus", str ".")] labs _ _ H); [ex_parts|ex_labelled]. }
    subst labs. apply concerned_b_ok in C. vm_compute in C. discriminate C.
  - split; [|split; [vm_compute; reflexivity|]]; [reflexivity|vm_compute; discriminate].
Qed.
(** For IPv4 addresses a rule must not end in a number: with "5.1" beside "1" the domain of
    127.0.0.1 is 127.0.0, though the rule does not match it. *)
Theorem C93_numeric_refuted : exists ext rules rule t t' p r, build_trie rules = Ret t /\ build_trie (rule :: rules) = Ret t'
  /\ new_part rules rule (rule_path rule) /\ (forall labs, host_labels ext p labs -> ~ concerned (rule_path rule) labs)
  /\ extract ext t p = Ret (r, None) /\ r_host_type r = HIPv4 /\ extract ext t' p <> Ret (r, None).
Proof.
  exists ex_idna, [str "1"], (str "5.1"). do 2 eexists. exists (ex_params "127.0.0.1"). eexists.
  split; [vm_compute; reflexivity|]. split; [vm_compute; reflexivity|].
  split; [apply (new_part_whole _ (str "5.1") [str "1"] (str "5")); [reflexivity|right; vm_compute; reflexivity]|]. split.
  - intros labs H C. assert (E : labs = map str ["1"; "0"; "0"; "127"]%string).
    { refine (host_labels_is _ _ [] None (str "127.0.0.1") (str "127.0.0.1") None []
        (str "127") [] [(str "1", str "."); (str "0", str "."); (str "0", str ".")] labs _ _ H); [ex_parts|ex_labelled]. }
    subst labs. apply concerned_b_ok in C. vm_compute in C. discriminate C.
  - split; [vm_compute; reflexivity|]. split; [reflexivity|vm_compute; discriminate].
Qed.

(** C94: whether private rules are included makes no difference for successful results unless
    something that they add concerns the host, for every suffix list ... *)
Theorem C94_text : forall to_ascii ext text public all t t' p r, used_rules to_ascii text false public -> used_rules to_ascii text true all ->
  build_trie public = Ret t -> build_trie all = Ret t' ->
  (forall rule part labs, In rule all -> ~ In rule public -> new_part public rule part -> host_labels ext p labs -> ~ concerned part labs) ->
  r_host_type r <> HIPv4 \/ no_numeric_tld all ->
  (extract ext t' p = Ret (r, None) <-> extract ext t p = Ret (r, None)).
Proof. exact c94_text. Qed.
(** ... and for the built-in list: no private rule matches the host, it is not a private
    wildcard rule without its wildcard, and it does not end in one of the listed names. *)
Theorem C94_builtin : forall to_ascii ext public all t t' p r, idna_on_builtin to_ascii ->
  used_rules to_ascii hardcoded_psl false public -> used_rules to_ascii hardcoded_psl true all ->
  build_trie public = Ret t -> build_trie all = Ret t' ->
  (forall rule labs, In rule all -> ~ In rule public -> host_labels ext p labs ->
     ~ concerned (rule_path rule) labs /\ forall base, rule_path rule = base ++ [str "*"] -> map decoded labs <> base) ->
  (forall stem labs, In stem private_gaps -> host_labels ext p labs -> ~ rule_matches (rule_path stem) (map decoded labs)) ->
  (extract ext t' p = Ret (r, None) <-> extract ext t p = Ret (r, None)).
Proof. exact c94_builtin. Qed.

(** www.example.co.uk is such a host. *)
Definition uk_list : list bytes := map str ["uk"; "co"; "example"; "www"]%string.
Lemma uk_free : forall rules, forallb (fun rule => negb (concerned_b (rule_path rule) uk_list)
    && negb (same_path (uk_list ++ [str "*"]) (rule_path rule))) rules = true ->
  forall rule labs, In rule rules -> host_labels ex_idna uk_url labs ->
  ~ concerned (rule_path rule) labs /\ forall base, rule_path rule = base ++ [str "*"] -> map decoded labs <> base.
Proof.
  intros rules X rule labs Hp H. apply uk_labels in H. subst labs. rewrite forallb_forall in X. specialize (X rule Hp). cbv beta in X.
  apply andb_true_iff in X as [X1 X2]. apply negb_true_iff in X1, X2. split.
  - intros C. apply concerned_b_ok in C. unfold uk_list in X1. rewrite C in X1. discriminate X1.
  - intros base E Y. apply not_true_iff_false in X2. apply X2. apply same_path_iff. rewrite E, <- Y. vm_compute. reflexivity.
Qed.
Lemma in_private : forall rule, In rule (builtin_rules true) -> ~ In rule (builtin_rules false) -> In rule builtin_private.
Proof.
  unfold builtin_rules. generalize builtin_public builtin_private. intros public private rule H N.
  apply in_app_iff in H as [H|H]; [contradiction|exact H].
Qed.
Example C94_example : (forall rule labs, In rule (builtin_rules true) -> ~ In rule (builtin_rules false) -> host_labels ex_idna uk_url labs ->
     ~ concerned (rule_path rule) labs /\ forall base, rule_path rule = base ++ [str "*"] -> map decoded labs <> base)
  /\ (forall stem labs, In stem private_gaps -> host_labels ex_idna uk_url labs -> ~ rule_matches (rule_path stem) (map decoded labs))
  /\ exists t r, build_trie (builtin_rules true) = Ret t /\ extract ex_idna t uk_url = Ret (r, None) /\ r_suffix r = str "co.uk".
Proof.
  split; [|split].
  - intros rule labs Hi Hn. apply (uk_free builtin_private); [vm_compute; reflexivity|]. exact (in_private rule Hi Hn).
  - intros stem labs Hi H C.
    assert (X : forallb (fun rule => negb (concerned_b (rule_path rule) uk_list)
      && negb (same_path (uk_list ++ [str "*"]) (rule_path rule))) private_gaps = true) by (vm_compute; reflexivity).
    destruct (uk_free private_gaps X stem labs Hi H) as (Y & _). apply Y. left. exact C.
  - assert (H : host_tld ex_idna (ex_params "www.example.co.uk") (str "uk")).
    { ex_tld (@nil N) (@None bytes) (str "www.example.co.uk") (str "www.example.co.uk") (@None bytes) (@nil N) (str "www") (@nil seg)
        [(str "uk", str "."); (str "co", str "."); (str "example", str ".")]. }
    assert (X : exists r, extract ex_idna (trie_of (filter (concerns_b (str "uk")) (builtin_rules true))) (ex_params "www.example.co.uk") = Ret (r, None)
      /\ r_suffix r = str "co.uk") by (eexists; split; [vm_compute; reflexivity|reflexivity]).
    destruct X as (r & X & S). destruct (ex_real true _ _ _ H X) as (t & B & E). exists t, r. auto.
Qed.

Print Assumptions C93_rule.
Print Assumptions C93_whole.
Print Assumptions C93_new_part.
Print Assumptions C93_more_rules.
Print Assumptions C93_matching_refuted.
Print Assumptions C93_numeric_refuted.
Print Assumptions C94_text.
Print Assumptions C94_builtin.
