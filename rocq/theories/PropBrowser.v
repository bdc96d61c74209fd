(** PropBrowser.v - the host that Extract works on and the host that a browser or Go's net/url
    finds in the same URL: C88, C89.  A program that checks a URL with Extract and hands it on
    relies on their being the same. *)

From Verif Require Import Base BaseFacts Utf8 Chars Str StrFacts Net Trie Extract Host Addr NetFacts Parse ParseFacts
  UrlSpec UrlFacts ExtractFacts UrlProofs ExampleBase BrowserSpec BrowserProofs.
Local Open Scope N_scope.

(** C88: if Extract returns no error, found a scheme, and a browser accepts the URL (schemes
    ftp, http, https, ws, wss), both found the same host, port, path and user information.  The
    hypotheses about [u]: neither surrounding characters that only Extract takes for whitespace
    (such as U+00A0) nor tabs and newlines within. *)
Theorem C88_browser : forall ext t p r u d, extract ext t p = Ret (r, None) -> r_scheme r <> [] ->
  trimmed ws_chars (p_url p) u -> trimmed c0_or_space (p_url p) u ->
  (forall b, In b u -> tab_or_newline b = false) -> browser (p_url p) d ->
  host_in_url ext p r (d_host d) /\ d_port d = r_port r /\ d_rest d = r_path r
  /\ user_of (d_user d) = r_user_info r.
Proof. exact c88. Qed.

Lemma trimmed_c0 : forall s m, fast_trim s c0_or_space TrimBoth = Ret m -> trimmed c0_or_space s m.
Proof. intros s m. apply fast_trim_both_iff. exact c0_good. Qed.
Lemma no_tab_b : forall (u : bytes), existsb tab_or_newline u = false -> forall b, In b u -> tab_or_newline b = false.
Proof.
  intros u H b Hb. apply not_true_iff_false. intros X. rewrite <- not_true_iff_false in H. apply H, existsb_exists. eauto.
Qed.
Ltac ex_c0 := apply trimmed_c0; vm_compute; reflexivity.
Ltac ex_ws := apply trim_ws_iff; vm_compute; reflexivity.
Ltac ex_no_tab := apply no_tab_b; vm_compute; reflexivity.
Ltac ex_browser := eexists; split; [ex_c0|vm_compute; reflexivity].

Definition ex_url : String.string := " https:\/u:p@x@a.example.co.uk:81\b@c/d".
Definition ex_trimmed : bytes := str "https:\/u:p@x@a.example.co.uk:81\b@c/d".
Example C88_example : exists r d, extract ex_idna ex_trie (ex_params ex_url) = Ret (r, None)
  /\ r_scheme r = str "https:\/" /\ trimmed ws_chars (str ex_url) ex_trimmed
  /\ trimmed c0_or_space (str ex_url) ex_trimmed
  /\ (forall b, In b ex_trimmed -> tab_or_newline b = false) /\ browser (str ex_url) d
  /\ d = mkDivided (Some (str "u:p@x")) (str "a.example.co.uk") (str "81") (str "\b@c/d")
  /\ r_domain r = str "example" /\ r_suffix r = str "co.uk".
Proof.
  eexists. eexists. split; [vm_compute; reflexivity|]. split; [reflexivity|]. split; [ex_ws|]. split; [ex_c0|].
  split; [ex_no_tab|]. split; [ex_browser|]. repeat split.
Qed.
(** An IPv6 literal. *)
Example C88_example_ipv6 : exists r d, extract ex_idna ex_trie (ex_params "http://[::1]:80/") = Ret (r, None)
  /\ r_scheme r = str "http://" /\ browser (str "http://[::1]:80/") d
  /\ d = mkDivided None (str "[::1]") (str "80") (str "/").
Proof. eexists. eexists. split; [vm_compute; reflexivity|]. split; [reflexivity|]. split; [ex_browser|reflexivity]. Qed.
(** Other schemes are out of scope: there '\' is a character of the user information for a browser,
    which would find b.com, and the end of the host for Extract. *)
Example C88_other_scheme : exists r, extract ex_idna ex_trie (ex_params "git://a.com\@b.com") = Ret (r, None)
  /\ r_domain r = str "a".
Proof. eexists. split; [vm_compute; reflexivity|]. reflexivity. Qed.

(** Tabs: Extract takes them for part of the host, here of a rule with a tab; a browser removes them. *)
Example C88_tab : let url := str "http://x.a" ++ [9] ++ str "b" in exists r d,
  extract ex_idna (trie_of [str "a" ++ [9] ++ str "b"]) (mkParams url false false) = Ret (r, None)
  /\ r_domain r = str "x" /\ browser url d /\ d_host d = str "x.ab".
Proof. eexists. eexists. split; [vm_compute; reflexivity|]. split; [reflexivity|]. split; [ex_browser|reflexivity]. Qed.

(** Without scheme there is one exception: a browser takes the host for the scheme and the port
    for the host. *)
Theorem C88_no_scheme : forall ext t p r u d, extract ext t p = Ret (r, None) ->
  trimmed ws_chars (p_url p) u -> trimmed c0_or_space (p_url p) u ->
  (forall b, In b u -> tab_or_newline b = false) -> browser (p_url p) d ->
  exists raw, host_in_url ext p r raw /\
  ((d_host d = raw /\ d_port d = r_port r /\ d_rest d = r_path r
      /\ (r_scheme r <> [] -> user_of (d_user d) = r_user_info r))
   \/ (r_scheme r = [] /\ r_user_info r = [] /\ u = raw ++ str ":" ++ r_port r ++ r_path r
       /\ d_host d = r_port r /\ d_port d = [])).
Proof. exact c88_all. Qed.
(** Both cases. *)
Example C88_no_scheme_example : exists r d, extract ex_idna ex_trie (ex_params "http:u@a.com") = Ret (r, None)
  /\ r_scheme r = [] /\ r_user_info r = str "http:u" /\ browser (str "http:u@a.com") d
  /\ d = mkDivided (Some (str "u")) (str "a.com") [] [].
Proof.
  eexists. eexists. split; [vm_compute; reflexivity|]. split; [reflexivity|]. split; [reflexivity|].
  split; [ex_browser|reflexivity].
Qed.
(** The host is not always the same: "http:80/". *)
Theorem C88_no_scheme_refuted : exists ext t p r u d, extract ext t p = Ret (r, None)
  /\ trimmed ws_chars (p_url p) u /\ trimmed c0_or_space (p_url p) u
  /\ (forall b, In b u -> tab_or_newline b = false) /\ browser (p_url p) d
  /\ ~ host_in_url ext p r (d_host d).
Proof.
  exists ex_idna, ex_trie, (ex_params "http:80/"). eexists. exists (str "http:80/"). eexists.
  split; [vm_compute; reflexivity|]. split; [ex_ws|]. split; [ex_c0|]. split; [ex_no_tab|]. split; [ex_browser|].
  intros [(E & _)|(_ & us & h & po & pa & af & F & _)]; [discriminate|].
  apply front_iff in F as (s & S & U). vm_compute in S. injection S as <-. vm_compute in U. injection U as _ U.
  discriminate.
Qed.

(** C89: if Extract returns no error on a URL without surrounding whitespace, and net/url.Parse
    finds a host in it, it is the same one, with the same port and user information. *)
Theorem C89_net_url : forall ext t p r d, extract ext t p = Ret (r, None) -> trimmed ws_chars (p_url p) (p_url p) ->
  url_parse (p_url p) = Some d -> d_host d <> [] ->
  host_in_url ext p r (d_host d) /\ d_port d = r_port r /\ user_of (d_user d) = r_user_info r.
Proof. exact c89. Qed.
Example C89_example : exists r d, extract ex_idna ex_trie (ex_params "x+y://u:p@a.example.co.uk:81?b@c/d") = Ret (r, None)
  /\ trimmed ws_chars (str "x+y://u:p@a.example.co.uk:81?b@c/d") (str "x+y://u:p@a.example.co.uk:81?b@c/d")
  /\ url_parse (str "x+y://u:p@a.example.co.uk:81?b@c/d") = Some d
  /\ d = mkDivided (Some (str "u:p")) (str "a.example.co.uk") (str "81") [].
Proof. eexists. eexists. split; [vm_compute; reflexivity|]. split; [ex_ws|]. split; [vm_compute; reflexivity|]. reflexivity. Qed.
(** Where net/url finds no host Extract may find one. *)
Example C89_no_host : exists r d, extract ex_idna ex_trie (ex_params "http:///a.com") = Ret (r, None)
  /\ r_domain r = str "a" /\ url_parse (str "http:///a.com") = Some d /\ d_host d = [].
Proof. eexists. eexists. split; [vm_compute; reflexivity|]. split; [reflexivity|]. split; [vm_compute; reflexivity|]. reflexivity. Qed.

Print Assumptions C88_browser.
Print Assumptions C88_no_scheme.
Print Assumptions C88_no_scheme_refuted.
Print Assumptions C89_net_url.
