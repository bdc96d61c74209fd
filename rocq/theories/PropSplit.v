(** PropSplit.v - for which hosts percent-encoding and letter case matter: C83, C84. *)

From Verif Require Import Base BaseFacts Chars Str Trie Extract Psl Host UrlSpec RuleSpec ListSpec Builtin BuiltinSpec
  TrieFacts RuleProofs VariantProofs DivergeSpec SplitSpec SplitProofs SplitBuiltin ExampleBase PropUrl PropRules.
From Coq Require Import Lia.

(** C83: two accepted host names whose labels are the same up to percent-encoding are divided in
    the same way exactly if they have no suffix or the label beside the first wildcard is named
    by an exception in both spellings or in none. *)
Theorem C83_exact : forall ext rules t p p' r r' scheme user raw h port path first zs segs
    scheme' user' raw' h' port' path' first' zs' segs', build_trie rules = Ret t ->
  extract ext t p = Ret (r, None) -> extract ext t p' = Ret (r', None) ->
  r_host_type r = HHostName -> r_host_type r' = HHostName -> p_ignore_sub_domains p = false -> p_ignore_sub_domains p' = false ->
  url_parts ext p scheme user raw h port path -> labelled h first zs segs ->
  url_parts ext p' scheme' user' raw' h' port' path' -> labelled h' first' zs' segs' ->
  Forall2 same_decoding (labels first segs) (labels first' segs') ->
  (same_division first segs r first' segs' r' <-> r_suffix r = [] \/ ~ escape_matters rules (labels first segs) (labels first' segs')).
Proof. exact c83. Qed.

Ltac ex_rule := vm_compute; reflexivity.
Ltac ex_same := repeat (constructor; [apply same_decoding_pct; vm_compute; reflexivity|]); constructor.
Definition ck : list seg := [(str "ck", str "."); (str "www", str ".")].
Definition ck' : list seg := [(str "ck", str "."); (str "%77ww", str ".")].
Example C83_example_matters :
  (exists r, extract ex_idna ex_trie (ex_params "a.www.ck") = Ret (r, None) /\ r_host_type r = HHostName /\ divided (str "a") ck r 0 1)
  /\ (exists r', extract ex_idna ex_trie (ex_params "a.%77ww.ck") = Ret (r', None) /\ r_host_type r' = HHostName /\ divided (str "a") ck' r' 0 2)
  /\ url_parts ex_idna (ex_params "a.www.ck") [] None (str "a.www.ck") (str "a.www.ck") None []
  /\ url_parts ex_idna (ex_params "a.%77ww.ck") [] None (str "a.%77ww.ck") (str "a.%77ww.ck") None []
  /\ labelled (str "a.www.ck") (str "a") [] ck /\ labelled (str "a.%77ww.ck") (str "a") [] ck'
  /\ Forall2 same_decoding (labels (str "a") ck) (labels (str "a") ck')
  /\ escape_matters ex_rules (labels (str "a") ck) (labels (str "a") ck').
Proof.
  split; [eexists; split; [vm_compute; reflexivity|]; split; [reflexivity|]; repeat split; vm_compute; lia|].
  split; [eexists; split; [vm_compute; reflexivity|]; split; [reflexivity|]; repeat split; vm_compute; lia|].
  split; [ex_parts|]. split; [ex_parts|]. split; [ex_labelled|]. split; [ex_labelled|].
  split; [unfold labels, ck, ck'; cbn [map fst app]; ex_same|].
  exists [str "ck"], (str "www"), [str "a"], [str "ck"], (str "%77ww"), [str "a"]. repeat (split; [reflexivity|]).
  split; [|split; [ex_rule|]].
  - intros q x y E. destruct q as [|q1 q].
    + ex_rule.
    + apply (f_equal (@length _)) in E. cbn [length app map] in E. rewrite app_length in E. cbn [length] in E. lia.
  - vm_compute. discriminate.
Qed.
(** The same above the wildcard and below the exception does not matter. *)
Definition ckk : list seg := [(str "%63k", str "."); (str "www", str ".")].
Example C83_example_same :
  (exists r', extract ex_idna ex_trie (ex_params "%61.www.%63k") = Ret (r', None) /\ r_host_type r' = HHostName /\ divided (str "%61") ckk r' 0 1)
  /\ url_parts ex_idna (ex_params "%61.www.%63k") [] None (str "%61.www.%63k") (str "%61.www.%63k") None []
  /\ labelled (str "%61.www.%63k") (str "%61") [] ckk
  /\ Forall2 same_decoding (labels (str "a") ck) (labels (str "%61") ckk).
Proof.
  split; [eexists; split; [vm_compute; reflexivity|]; split; [reflexivity|]; repeat split; vm_compute; lia|].
  split; [ex_parts|]. split; [ex_labelled|]. unfold labels, ck, ckk; cbn [map fst app]; ex_same.
Qed.

(** C84: on a list in lower case, an accepted host name and the one with all labels in lower case
    are divided in the same way exactly if the latter has no suffix or the first label with an
    upper-case letter neither continues a rule nor is named by an exception when in lower case. *)
Theorem C84_exact : forall ext rules t p p' r r' scheme user raw h port path first zs segs
    scheme' user' raw' h' port' path' first' zs' segs', build_trie rules = Ret t -> Forall (fun rule => lower rule = rule) rules ->
  extract ext t p = Ret (r, None) -> extract ext t p' = Ret (r', None) ->
  r_host_type r = HHostName -> r_host_type r' = HHostName -> p_ignore_sub_domains p = false -> p_ignore_sub_domains p' = false ->
  url_parts ext p scheme user raw h port path -> labelled h first zs segs ->
  url_parts ext p' scheme' user' raw' h' port' path' -> labelled h' first' zs' segs' ->
  Forall plain_label (labels first segs) -> labels first' segs' = map lower (labels first segs) ->
  (same_division first segs r first' segs' r' <-> r_suffix r' = [] \/ ~ case_matters rules (labels first segs)).
Proof. exact c84. Qed.
Theorem C84_builtin : forall to_ascii private rules, idna_on_builtin to_ascii -> used_rules to_ascii hardcoded_psl private rules ->
  Forall (fun rule => lower rule = rule) rules.
Proof. exact c84_builtin. Qed.

(** [example.Co.uk]: [Co] is no part of a rule, [co] is. *)
Definition uk : list seg := [(str "uk", str "."); (str "Co", str "."); (str "example", str ".")].
Definition uk' : list seg := [(str "uk", str "."); (str "co", str "."); (str "example", str ".")].
Example C84_example_matters :
  Forall (fun rule => lower rule = rule) ex_rules
  /\ (exists r, extract ex_idna ex_trie (ex_params "a.example.Co.uk") = Ret (r, None) /\ r_host_type r = HHostName /\ divided (str "a") uk r 0 1)
  /\ (exists r', extract ex_idna ex_trie (ex_params "a.example.co.uk") = Ret (r', None) /\ r_host_type r' = HHostName /\ divided (str "a") uk' r' 0 2)
  /\ url_parts ex_idna (ex_params "a.example.Co.uk") [] None (str "a.example.Co.uk") (str "a.example.Co.uk") None []
  /\ url_parts ex_idna (ex_params "a.example.co.uk") [] None (str "a.example.co.uk") (str "a.example.co.uk") None []
  /\ labelled (str "a.example.Co.uk") (str "a") [] uk /\ labelled (str "a.example.co.uk") (str "a") [] uk'
  /\ Forall plain_label (labels (str "a") uk) /\ labels (str "a") uk' = map lower (labels (str "a") uk)
  /\ case_matters ex_rules (labels (str "a") uk).
Proof.
  split; [apply lower_sound; vm_compute; reflexivity|].
  split; [eexists; split; [vm_compute; reflexivity|]; split; [reflexivity|]; repeat split; vm_compute; lia|].
  split; [eexists; split; [vm_compute; reflexivity|]; split; [reflexivity|]; repeat split; vm_compute; lia|].
  split; [ex_parts|]. split; [ex_parts|]. split; [ex_labelled|]. split; [ex_labelled|].
  split; [unfold labels, uk; cbn [map fst app]; ex_plain_labels|]. split; [vm_compute; reflexivity|].
  exists [str "uk"], (str "Co"), [str "example"; str "a"]. split; [reflexivity|]. split; [constructor; [reflexivity|constructor]|].
  split; [vm_compute; discriminate|]. split; [|ex_rule].
  intros q x y E. destruct q as [|q1 q].
  - ex_rule.
  - apply (f_equal (@length _)) in E. cbn [length app] in E. rewrite app_length in E. cbn [length] in E. lia.
Qed.
(** [A.Example.co.uk]: upper case in the domain and the subdomain does not matter. *)
Definition uk2 : list seg := [(str "uk", str "."); (str "co", str "."); (str "Example", str ".")].
Example C84_example_same :
  (exists r, extract ex_idna ex_trie (ex_params "A.Example.co.uk") = Ret (r, None) /\ r_host_type r = HHostName /\ divided (str "A") uk2 r 0 2)
  /\ url_parts ex_idna (ex_params "A.Example.co.uk") [] None (str "A.Example.co.uk") (str "A.Example.co.uk") None []
  /\ labelled (str "A.Example.co.uk") (str "A") [] uk2 /\ Forall plain_label (labels (str "A") uk2)
  /\ labels (str "a") uk' = map lower (labels (str "A") uk2).
Proof.
  split; [eexists; split; [vm_compute; reflexivity|]; split; [reflexivity|]; repeat split; vm_compute; lia|].
  split; [ex_parts|]. split; [ex_labelled|].
  split; [unfold labels, uk2; cbn [map fst app]; ex_plain_labels|]. vm_compute; reflexivity.
Qed.

(** [a.Www.ck]: [Www] is not named by an exception, [www] is. *)
Definition ck2 : list seg := [(str "ck", str "."); (str "Www", str ".")].
Example C84_example_exception :
  (exists r, extract ex_idna ex_trie (ex_params "a.Www.ck") = Ret (r, None) /\ r_host_type r = HHostName /\ divided (str "a") ck2 r 0 2)
  /\ (exists r', extract ex_idna ex_trie (ex_params "a.www.ck") = Ret (r', None) /\ r_host_type r' = HHostName /\ divided (str "a") ck r' 0 1)
  /\ url_parts ex_idna (ex_params "a.Www.ck") [] None (str "a.Www.ck") (str "a.Www.ck") None []
  /\ labelled (str "a.Www.ck") (str "a") [] ck2 /\ Forall plain_label (labels (str "a") ck2)
  /\ labels (str "a") ck = map lower (labels (str "a") ck2) /\ case_matters ex_rules (labels (str "a") ck2).
Proof.
  split; [eexists; split; [vm_compute; reflexivity|]; split; [reflexivity|]; repeat split; vm_compute; lia|].
  split; [eexists; split; [vm_compute; reflexivity|]; split; [reflexivity|]; repeat split; vm_compute; lia|].
  split; [ex_parts|]. split; [ex_labelled|].
  split; [unfold labels, ck2; cbn [map fst app]; ex_plain_labels|]. split; [vm_compute; reflexivity|].
  exists [str "ck"], (str "Www"), [str "a"]. split; [reflexivity|]. split; [constructor; [reflexivity|constructor]|].
  split; [vm_compute; discriminate|]. split; [|ex_rule].
  intros q x y E. destruct q as [|q1 q].
  - ex_rule.
  - apply (f_equal (@length _)) in E. cbn [length app] in E. rewrite app_length in E. cbn [length] in E. lia.
Qed.

Print Assumptions C83_exact.
Print Assumptions C84_exact.
Print Assumptions C84_builtin.
