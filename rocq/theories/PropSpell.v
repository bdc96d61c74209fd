(** PropSpell.v - where Extract departs from the algorithm of publicsuffix.org on hosts with escapes: C86. *)

From Verif Require Import Base BaseFacts Chars Str Trie Extract Psl Host UrlSpec RuleSpec ListSpec Builtin BuiltinSpec
  TrieFacts RuleProofs DivergeSpec DivergeProofs DivergeBuiltin SplitSpec SpellProofs ExampleBase PropUrl PropRules PropDiverge.
From Coq Require Import Lia.

(** C86: on a list of well-formed rules, the components of a host in any spelling are those at the
    labels that the algorithm gives for the decoded host exactly if the decoded host is in none of
    the three situations of C82 and the label beside the first wildcard is not misspelt. *)
Theorem C86_exact : forall ext rules t p r scheme user raw h port path first zs segs, well_formed rules -> build_trie rules = Ret t ->
  extract ext t p = Ret (r, None) -> r_host_type r = HHostName -> p_ignore_sub_domains p = false ->
  url_parts ext p scheme user raw h port path -> labelled h first zs segs -> Forall plain_label (map decoded (labels first segs)) ->
  (as_published_decoded rules first segs r
   <-> ~ diverges rules (map decoded (labels first segs)) /\ ~ misspelt rules (labels first segs)).
Proof. exact c86. Qed.

(** [x.%79.n%65s.akershus.no]: the suffix is a rule of three labels. *)
Definition esc : list seg := [(str "no", str "."); (str "akershus", str "."); (str "n%65s", str "."); (str "%79", str ".")].
Example C86_example : well_formed_b ex_odd = true
  /\ (exists r, extract ex_idna (trie_of ex_odd) (ex_params "x.%79.n%65s.akershus.no") = Ret (r, None) /\ r_host_type r = HHostName
      /\ r_suffix r = str "n%65s.akershus.no" /\ r_domain r = str "%79" /\ r_sub_domain r = str "x")
  /\ url_parts ex_idna (ex_params "x.%79.n%65s.akershus.no") [] None (str "x.%79.n%65s.akershus.no") (str "x.%79.n%65s.akershus.no") None []
  /\ labelled (str "x.%79.n%65s.akershus.no") (str "x") [] esc
  /\ map decoded (labels (str "x") esc) = labels (str "x") nes
  /\ Forall plain_label (map decoded (labels (str "x") esc)).
Proof.
  split; [vm_compute; reflexivity|]. split; [eexists; split; [vm_compute; reflexivity|]; repeat split|].
  split; [ex_parts|]. split; [ex_labelled|].
  assert (E : map decoded (labels (str "x") esc) = labels (str "x") nes) by (vm_compute; reflexivity).
  split; [exact E|]. rewrite E. unfold labels, nes. cbn [map fst app]. ex_plain_labels.
Qed.
(** [x.%77ww.ck]: [www] is named by an exception, but not in this spelling. *)
Definition esc_www : list seg := [(str "ck", str "."); (str "%77ww", str "."); (str "x", str ".")].
Example C86_example_misspelt :
  (exists r, extract ex_idna (trie_of ex_odd) (ex_params "z.x.%77ww.ck") = Ret (r, None) /\ r_host_type r = HHostName
      /\ r_suffix r = str "%77ww.ck" /\ r_domain r = str "x")
  /\ url_parts ex_idna (ex_params "z.x.%77ww.ck") [] None (str "z.x.%77ww.ck") (str "z.x.%77ww.ck") None []
  /\ labelled (str "z.x.%77ww.ck") (str "z") [] esc_www
  /\ Forall plain_label (map decoded (labels (str "z") esc_www))
  /\ misspelt ex_odd (labels (str "z") esc_www).
Proof.
  split; [eexists; split; [vm_compute; reflexivity|]; repeat split|].
  split; [ex_parts|]. split; [ex_labelled|]. split.
  - assert (E : map decoded (labels (str "z") esc_www) = [str "ck"; str "www"; str "x"; str "z"]) by (vm_compute; reflexivity).
    rewrite E. ex_plain_labels.
  - exists [str "ck"], (str "%77ww"), [str "x"; str "z"]. split; [reflexivity|]. split; [|split; [ex_rule|]].
    + intros q x y E. destruct q as [|q1 q].
      * ex_rule.
      * apply (f_equal (@length _)) in E. cbn [length app map] in E. rewrite app_length in E. cbn [length] in E. lia.
    + right. split; [ex_rule|]. split; [ex_rule|]. intros (path & R & (a & k & top & rest & -> & _) & L).
      apply is_rule_iff in R as (rule & Hr & E). rewrite <- E in L. apply (f_equal (fun l => last l [])) in E. rewrite last_last in E.
      repeat (destruct Hr as [<-|Hr]; [vm_compute in E, L; discriminate|]). destruct Hr.
Qed.

Print Assumptions C86_exact.
