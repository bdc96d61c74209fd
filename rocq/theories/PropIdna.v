(** PropIdna.v - internationalised rules and hosts: C61, C62, C63.

    Here the IDNA library is the model of Idna.v: [go_to_ascii strict] is idna.ToASCII, used for
    the rules of lists; [rejects_like strict ext] says that the library used by Extract rejects
    the same hosts as idna.ToUnicode.  All theorems hold for both values of [strict]. *)

From Verif Require Import Base BaseFacts Utf8 Chars Str StrFacts Net Trie Extract Psl Host HostFacts Walk WalkFacts
  Addr NetFacts Parse ParseFacts UrlSpec UrlFacts ExtractFacts OutcomeFacts Rfc RuleSpec TrieFacts RuleProofs PslProofs
  HostProofs VariantProofs ListSpec ListFacts ExampleBase PropRules Idna IdnaSpec IdnaProofs Builtin BuiltinSpec BuiltinProofs
  IdnaBuiltin CaseProofs AceProofs.
Local Open Scope N_scope.

(** C61: a rule with Unicode labels has an ASCII form, from which it can be recovered. *)
Theorem C61_roundtrip : forall strict rule, unicode_rule rule ->
  exists a, go_to_ascii strict rule = Some a /\ all_ascii a /\ go_to_unicode strict a = Some rule.
Proof. exact c61_roundtrip. Qed.
Theorem C61_injective : forall strict rule rule' a, unicode_rule rule -> unicode_rule rule' ->
  go_to_ascii strict rule = Some a -> go_to_ascii strict rule' = Some a -> rule = rule'.
Proof. exact c61_injective. Qed.
(** The case of Punycode digits does not matter. *)
Theorem C61_case : forall strict h h', Forall2 same_digits (rule_path h) (rule_path h') ->
  go_to_unicode strict h = go_to_unicode strict h' /\ go_to_ascii strict h = go_to_ascii strict h'.
Proof. exact c61_case. Qed.
Example C61_case_example : Forall2 same_digits (rule_path (str "www.xn--a-0fA.com")) (rule_path (str "www.xn--a-0Fa.com"))
  /\ go_to_unicode true (str "www.xn--a-0fA.com") = Some (str "www." ++ encode_all [97; 228] ++ str ".com").
Proof.
  split; [|vm_compute; reflexivity].
  change (rule_path (str "www.xn--a-0fA.com")) with (map str ["com"; "xn--a-0fA"; "www"]%string).
  change (rule_path (str "www.xn--a-0Fa.com")) with (map str ["com"; "xn--a-0Fa"; "www"]%string).
  constructor; [left; reflexivity|]. constructor; [|constructor; [left; reflexivity|constructor]].
  right. exists (str "a"), (str "0fA"), (str "0Fa"). split; [intros X; vm_compute in X; intuition discriminate|].
  split; [|right; split; reflexivity].
  constructor; [left; reflexivity|]. constructor; [right; right; vm_compute; intuition discriminate|].
  constructor; [right; left; vm_compute; intuition discriminate|constructor].
Qed.
(** The ASCII forms of the rules of the built-in list are those listed in [unicode_rules] and its
    ASCII rules are unchanged: what C53 and C55 suppose about the library. *)
Theorem C61_builtin : forall strict, idna_on_builtin (go_to_ascii strict).
Proof. exact go_builtin. Qed.
(** The TLD of Hong Kong, and the rule for companies there. *)
Definition hk : bytes := encode_all [39321; 28207].
Definition co_hk : bytes := encode_all [20844; 21496] ++ str "." ++ hk.
Example C61_example : unicode_rule co_hk /\ go_to_ascii true co_hk = Some (str "xn--55qx5d.xn--j6w193g")
  /\ go_to_unicode true (str "xn--55qx5d.xn--j6w193g") = Some co_hk /\ In (co_hk, str "xn--55qx5d.xn--j6w193g") unicode_rules.
Proof.
  split; [|split; [vm_compute; reflexivity|]; split; [vm_compute; reflexivity|]].
  - apply Forall_forall. intros l H.
    assert (X : forallb label_b (rule_path co_hk) = true) by (vm_compute; reflexivity).
    rewrite forallb_forall in X. apply label_b_ok. auto.
  - apply assoc_in. vm_compute. reflexivity.
Qed.

(** C62: the two spellings of a host give the two spellings of each part. *)
Theorem C62_ascii : forall strict text private rules t ext p p' r r' scheme user raw h port path scheme' user' raw' h' port' path',
  used_rules (go_to_ascii strict) text private rules -> unicode_list text -> build_trie rules = Ret t ->
  extract ext t p = Ret (r, None) -> extract ext t p' = Ret (r', None) ->
  r_host_type r = HHostName -> r_host_type r' = HHostName ->
  url_parts ext p scheme user raw h port path -> url_parts ext p' scheme' user' raw' h' port' path' ->
  dotted h -> unicode_rule h -> go_to_ascii strict h = Some h' -> p_ignore_sub_domains p = p_ignore_sub_domains p' ->
  go_to_ascii strict (r_suffix r) = Some (r_suffix r') /\ go_to_ascii strict (r_domain r) = Some (r_domain r')
  /\ go_to_ascii strict (r_sub_domain r) = Some (r_sub_domain r').
Proof. exact c62. Qed.
(** If the host in Unicode form is accepted, so is its ASCII form. *)
Theorem C62_accepted : forall strict text private rules t ext p p' r scheme user raw h port path scheme' user' raw' h' port' path',
  used_rules (go_to_ascii strict) text private rules -> unicode_list text -> build_trie rules = Ret t ->
  extract ext t p = Ret (r, None) -> r_host_type r = HHostName ->
  url_parts ext p scheme user raw h port path -> url_parts ext p' scheme' user' raw' h' port' path' -> port_accepted port' ->
  dotted h -> unicode_rule h -> go_to_ascii strict h = Some h' ->
  exists r', extract ext t p' = Ret (r', None) /\ r_host_type r' = HHostName.
Proof. exact c62_accepted. Qed.
(** The built-in list is of this kind. *)
Theorem C62_builtin : unicode_list hardcoded_psl.
Proof. exact unicode_builtin. Qed.

Definition list_b (text : bytes) : bool := forallb (fun l => rule_b (trim_space l)) (split_byte text 10).
Lemma list_b_ok : forall text, list_b text = true -> unicode_list text.
Proof.
  intros text H lines line rule L Hl T I. apply has_lines_iff in L. subst lines. unfold list_b in H. rewrite forallb_forall in H.
  specialize (H _ Hl). apply trim_space_iff in T. rewrite T in H. apply rule_b_ok; assumption.
Qed.
Fixpoint dotted_b (h : bytes) : bool :=
  match h with
  | [] => true
  | b :: rest => negb (b =? 37) && negb (b =? 43)
      && forallb (fun r => negb (has_prefix h (encode r))) [12290; 65294; 65377] && dotted_b rest
  end.
Lemma dotted_b_ok : forall h, dotted_b h = true -> dotted h.
Proof.
  intros h H. split; [|split].
  - intros p. revert h H. induction p as [|x p IH]; intros h H sep q S E.
    + destruct S as [->|S]; [reflexivity|]. exfalso. destruct h as [|b h]; [destruct S as [->|[->| ->]]; discriminate|].
      cbn [dotted_b] in H. apply andb_true_iff in H as [H _]. apply andb_true_iff in H as [_ H]. rewrite forallb_forall in H.
      rewrite E in H. cbn [app] in H. destruct S as [->|[->| ->]].
      * specialize (H 12290 (or_introl eq_refl)). discriminate (eq_trans (eq_sym (f_equal negb (proj2 (has_prefix_iff _ _) (ex_intro _ q eq_refl)))) H).
      * specialize (H 65294 (or_intror (or_introl eq_refl))). discriminate (eq_trans (eq_sym (f_equal negb (proj2 (has_prefix_iff _ _) (ex_intro _ q eq_refl)))) H).
      * specialize (H 65377 (or_intror (or_intror (or_introl eq_refl)))). discriminate (eq_trans (eq_sym (f_equal negb (proj2 (has_prefix_iff _ _) (ex_intro _ q eq_refl)))) H).
    + destruct h as [|b h]; [discriminate|]. cbn [dotted_b] in H. apply andb_true_iff in H as [_ H].
      cbn [app] in E. injection E as _ E. exact (IH h H sep q S E).
  - induction h as [|b h IH]; intros I; [destruct I|]. cbn [dotted_b] in H. destruct I as [->|I]; [discriminate|]. apply andb_true_iff in H as [_ H]. exact (IH H I).
  - induction h as [|b h IH]; intros I; [destruct I|]. cbn [dotted_b] in H. destruct I as [->|I]; [discriminate|].
    apply andb_true_iff in H as [_ H]. exact (IH H I).
Qed.
Lemma unicode_b_ok : forall h, forallb label_b (rule_path h) = true -> unicode_rule h.
Proof. intros h H. rewrite forallb_forall in H. apply Forall_forall. intros l I. apply label_b_ok. auto. Qed.
Definition ex_url (url : bytes) : url_params := mkParams url false false.

(** With the list of these two rules, www.b.<co.hk>. *)
Definition hk_list : bytes := hk ++ [10] ++ co_hk.
Definition hk_rules : list bytes := [str "xn--j6w193g"; hk; str "xn--55qx5d.xn--j6w193g"; co_hk].
Lemma hk_used : used_rules (go_to_ascii true) hk_list true hk_rules.
Proof. apply used_rules_iff. vm_compute. reflexivity. Qed.
Example C62_example : let h := str "www.b." ++ co_hk in exists t r r',
  used_rules (go_to_ascii true) hk_list true hk_rules /\ unicode_list hk_list /\ build_trie hk_rules = Ret t
  /\ extract ex_idna t (ex_url h) = Ret (r, None) /\ extract ex_idna t (ex_url (str "www.b.xn--55qx5d.xn--j6w193g")) = Ret (r', None)
  /\ r_host_type r = HHostName /\ r_host_type r' = HHostName
  /\ url_parts ex_idna (ex_url h) [] None h h None []
  /\ url_parts ex_idna (ex_url (str "www.b.xn--55qx5d.xn--j6w193g")) [] None (str "www.b.xn--55qx5d.xn--j6w193g")
       (str "www.b.xn--55qx5d.xn--j6w193g") None []
  /\ dotted h /\ unicode_rule h /\ go_to_ascii true h = Some (str "www.b.xn--55qx5d.xn--j6w193g")
  /\ r_suffix r = co_hk /\ r_suffix r' = str "xn--55qx5d.xn--j6w193g" /\ r_domain r = str "b".
Proof.
  intros h. eexists. eexists. eexists. split; [exact hk_used|]. split; [apply list_b_ok; vm_compute; reflexivity|].
  split; [vm_compute; reflexivity|]. split; [vm_compute; reflexivity|]. split; [vm_compute; reflexivity|].
  split; [reflexivity|]. split; [reflexivity|]. split; [ex_parts|]. split; [ex_parts|].
  split; [apply dotted_b_ok; vm_compute; reflexivity|]. split; [apply unicode_b_ok; vm_compute; reflexivity|].
  split; [vm_compute; reflexivity|]. split; [vm_compute; reflexivity|]. split; vm_compute; reflexivity.
Qed.
(** The converse of C62_accepted is false: Punycode hides characters that are refused. *)
Theorem C62_refuted_converse : exists p p' h h' r',
  used_rules (go_to_ascii true) hk_list true hk_rules /\ unicode_list hk_list
  /\ exists t r, build_trie hk_rules = Ret t /\ extract ex_idna t p' = Ret (r', None) /\ r_host_type r' = HHostName
  /\ url_parts ex_idna p [] None h h None [] /\ url_parts ex_idna p' [] None h' h' None []
  /\ dotted h /\ unicode_rule h /\ go_to_ascii true h = Some h' /\ extract ex_idna t p = Ret (r, Some ErrInvalidChars).
Proof.
  pose (h := str "b" ++ encode_all [1216] ++ str "." ++ hk). pose (h' := match go_to_ascii true h with Some x => x | None => [] end).
  exists (ex_url h), (ex_url h'), h, h'. eexists. split; [exact hk_used|]. split; [apply list_b_ok; vm_compute; reflexivity|].
  eexists. eexists. split; [vm_compute; reflexivity|]. split; [vm_compute; reflexivity|]. split; [reflexivity|].
  split; [ex_parts|]. split; [ex_parts|]. split; [apply dotted_b_ok; vm_compute; reflexivity|]. split; [apply unicode_b_ok; vm_compute; reflexivity|].
  split; vm_compute; reflexivity.
Qed.
(** Not if some labels of the host are in one form and some in the other: the rule is not found. *)
Theorem C62_refuted_mixed : exists text rules t p p' r r' h h',
  used_rules (go_to_ascii true) text true rules /\ unicode_list text /\ build_trie rules = Ret t
  /\ extract ex_idna t p = Ret (r, None) /\ extract ex_idna t p' = Ret (r', None)
  /\ r_host_type r = HHostName /\ r_host_type r' = HHostName
  /\ url_parts ex_idna p [] None h h None [] /\ url_parts ex_idna p' [] None h' h' None []
  /\ dotted h /\ go_to_ascii true h = Some h' /\ p_ignore_sub_domains p = p_ignore_sub_domains p'
  /\ go_to_ascii true (r_suffix r) <> Some (r_suffix r').
Proof.
  pose (h := str "b." ++ encode_all [20844; 21496] ++ str ".xn--j6w193g"). pose (h' := str "b.xn--55qx5d.xn--j6w193g").
  exists hk_list, hk_rules. eexists. exists (ex_url h), (ex_url h'). eexists. eexists. exists h, h'.
  split; [exact hk_used|]. split; [apply list_b_ok; vm_compute; reflexivity|].
  split; [vm_compute; reflexivity|]. split; [vm_compute; reflexivity|]. split; [vm_compute; reflexivity|].
  split; [reflexivity|]. split; [reflexivity|]. split; [ex_parts|]. split; [ex_parts|].
  split; [apply dotted_b_ok; vm_compute; reflexivity|]. split; [vm_compute; reflexivity|]. split; [reflexivity|].
  vm_compute. discriminate.
Qed.
(** Nor with exception rules for labels outside ASCII: "!" becomes part of the encoded label, and
    there is no exception for the ASCII form. *)
Theorem C62_refuted_exception : exists text rules t p p' r r' h h',
  used_rules (go_to_ascii true) text true rules /\ build_trie rules = Ret t
  /\ extract ex_idna t p = Ret (r, None) /\ extract ex_idna t p' = Ret (r', None)
  /\ r_host_type r = HHostName /\ r_host_type r' = HHostName
  /\ url_parts ex_idna p [] None h h None [] /\ url_parts ex_idna p' [] None h' h' None []
  /\ dotted h /\ unicode_rule h /\ go_to_ascii true h = Some h' /\ p_ignore_sub_domains p = p_ignore_sub_domains p'
  /\ (forall lines line rule, has_lines text lines -> In line lines -> trimmed white_space line rule -> ~ ignored_text rule ->
        unicode_rule rule)
  /\ go_to_ascii true (r_suffix r) <> Some (r_suffix r').
Proof.
  pose (h := str "a.b." ++ co_hk). pose (h' := str "a.b.xn--55qx5d.xn--j6w193g").
  exists (str "*." ++ hk ++ [10] ++ str "!" ++ co_hk). eexists. eexists. exists (ex_url h), (ex_url h'). eexists. eexists. exists h, h'.
  split; [apply used_rules_iff; vm_compute; reflexivity|].
  split; [vm_compute; reflexivity|]. split; [vm_compute; reflexivity|]. split; [vm_compute; reflexivity|].
  split; [reflexivity|]. split; [reflexivity|]. split; [ex_parts|]. split; [ex_parts|].
  split; [apply dotted_b_ok; vm_compute; reflexivity|]. split; [apply unicode_b_ok; vm_compute; reflexivity|].
  split; [vm_compute; reflexivity|]. split; [reflexivity|]. split.
  - intros lines line rule L Hl T I. apply has_lines_iff in L. subst lines. apply unicode_b_ok.
    apply trim_space_iff in T. subst rule. clear I.
    vm_compute in Hl. destruct Hl as [<-|[<-|[]]]; vm_compute; reflexivity.
  - vm_compute. discriminate.
Qed.

(** C63: Extract reports an IDNA error exactly if conversion to Punycode is not requested and the
    library rejects the percent-decoded host. *)
Theorem C63_errors : forall ext t p r e scheme user raw after port path d, extract ext t p = Ret (r, e) ->
  front (p_url p) scheme user (raw ++ after) -> plain_host raw -> after_host after port path ->
  port_accepted port -> percent_decoded raw d ->
  forall x, e = Some (ErrIdna x) <-> p_to_punycode p = false /\ idna_to_unicode_err ext d = Some x.
Proof. exact c63. Qed.
(** With x/net/idna, never for hosts without ACE labels (those that begin with "xn--"), and
    never for the ASCII forms of hosts in Unicode. *)
Theorem C63_accepted : forall strict ext t p r e scheme user raw after port path d, rejects_like strict ext ->
  extract ext t p = Ret (r, e) -> front (p_url p) scheme user (raw ++ after) -> plain_host raw -> after_host after port path ->
  port_accepted port -> percent_decoded raw d ->
  (forall l, In l (rule_path d) -> ~ starts_with l (str "xn--")) \/ (exists u, unicode_rule u /\ go_to_ascii strict u = Some d) ->
  forall x, e <> Some (ErrIdna x).
Proof. exact c63_none. Qed.
(** Always if after "xn--" and the last "-" of a label there is a byte that is no letter or digit. *)
Theorem C63_rejected : forall strict ext t p r e scheme user raw after port path d l s u v c, rejects_like strict ext ->
  extract ext t p = Ret (r, e) -> front (p_url p) scheme user (raw ++ after) -> plain_host raw -> after_host after port path ->
  port_accepted port -> percent_decoded raw d -> p_to_punycode p = false ->
  In l (rule_path d) -> l = str "xn--" ++ s -> s = v \/ s = u ++ str "-" ++ v -> ~ In 45 v -> In c v -> ~ letter c -> ~ digit c ->
  exists x, e = Some (ErrIdna x).
Proof. exact c63_bad. Qed.
(** The case of Punycode digits does not matter. *)
Theorem C63_case : forall strict ext t p r e scheme user raw after port path d p' r' e' scheme' user' raw' after' port' path' d',
  rejects_like strict ext ->
  extract ext t p = Ret (r, e) -> front (p_url p) scheme user (raw ++ after) -> plain_host raw -> after_host after port path ->
  port_accepted port -> percent_decoded raw d ->
  extract ext t p' = Ret (r', e') -> front (p_url p') scheme' user' (raw' ++ after') -> plain_host raw' -> after_host after' port' path' ->
  port_accepted port' -> percent_decoded raw' d' ->
  p_to_punycode p = p_to_punycode p' -> Forall2 same_digits (rule_path d) (rule_path d') ->
  (exists x, e = Some (ErrIdna x)) <-> (exists x, e' = Some (ErrIdna x)).
Proof. exact c63_case. Qed.
(** The library as modelled; a host it accepts and one it rejects. *)
Definition go_idna : idna := mkIdna (go_to_unicode_err true) (go_to_ascii true).
Lemma go_idna_like : rejects_like true go_idna.
Proof. intros s. reflexivity. Qed.
Example C63_example : rejects_like true go_idna
  /\ (exists r, extract go_idna ex_trie (ex_url (str "a.xn--55qx5d.com")) = Ret (r, None))
  /\ front (str "a.xn--55qx5d.com") [] None (str "a.xn--55qx5d.com" ++ []) /\ plain_host (str "a.xn--55qx5d.com")
  /\ after_host [] None [] /\ percent_decoded (str "a.xn--55qx5d.com") (str "a.xn--55qx5d.com")
  /\ (exists u, unicode_rule u /\ go_to_ascii true u = Some (str "a.xn--55qx5d.com"))
  /\ (exists r, extract go_idna ex_trie (ex_url (str "a.xn--55_x5d.com")) = Ret (r, Some (ErrIdna (str "55_x5d"))))
  /\ front (str "a.xn--55_x5d.com") [] None (str "a.xn--55_x5d.com" ++ []) /\ plain_host (str "a.xn--55_x5d.com")
  /\ In (str "xn--55_x5d") (rule_path (str "a.xn--55_x5d.com")) /\ ~ letter 95 /\ ~ digit 95.
Proof.
  split; [exact go_idna_like|]. split; [eexists; vm_compute; reflexivity|]. split; [ex_front|]. split; [ex_plain|]. split; [ex_after|].
  split; [apply percent_decoded_iff; vm_compute; reflexivity|].
  split. { exists (str "a." ++ encode_all [20844; 21496] ++ str ".com"). split; [apply unicode_b_ok; vm_compute; reflexivity|vm_compute; reflexivity]. }
  split; [eexists; vm_compute; reflexivity|]. split; [ex_front|]. split; [ex_plain|].
  split; [vm_compute; auto|]. split; unfold letter, digit; lia.
Qed.

Example C63_case_example :
  (exists r, extract go_idna ex_trie (ex_url (str "www.xn--a-0fA.com")) = Ret (r, None))
  /\ (exists r, extract go_idna ex_trie (ex_url (str "www.xn--a-0Fa.com")) = Ret (r, None))
  /\ front (str "www.xn--a-0fA.com") [] None (str "www.xn--a-0fA.com" ++ []) /\ plain_host (str "www.xn--a-0fA.com")
  /\ front (str "www.xn--a-0Fa.com") [] None (str "www.xn--a-0Fa.com" ++ []) /\ plain_host (str "www.xn--a-0Fa.com")
  /\ percent_decoded (str "www.xn--a-0fA.com") (str "www.xn--a-0fA.com").
Proof.
  split; [eexists; vm_compute; reflexivity|]. split; [eexists; vm_compute; reflexivity|]. split; [ex_front|]. split; [ex_plain|].
  split; [ex_front|]. split; [ex_plain|]. apply percent_decoded_iff. vm_compute. reflexivity.
Qed.

Print Assumptions C61_roundtrip.
Print Assumptions C61_injective.
Print Assumptions C61_case.
Print Assumptions C61_builtin.
Print Assumptions C62_ascii.
Print Assumptions C62_accepted.
Print Assumptions C62_refuted_converse.
Print Assumptions C62_builtin.
Print Assumptions C62_refuted_mixed.
Print Assumptions C62_refuted_exception.
Print Assumptions C63_errors.
Print Assumptions C63_accepted.
Print Assumptions C63_rejected.
Print Assumptions C63_case.
