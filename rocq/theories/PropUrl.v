(** PropUrl.v - properties of Extract concerning scheme, user information, port, path, addresses,
    escapes and the shape of the result: C01-C05, C07-C13, C15-C20, C27, C28, C50.

    Every theorem is about [extract ext t p], the model of [FastTLD.Extract] on a suffix trie
    [t]: any trie, not only those made from a rule list.  [ext] is any behaviour of the IDNA
    library, [p] any byte string as URL with any options. *)

From Verif Require Import Base BaseFacts Utf8 Chars Str StrFacts Net Trie Extract Host Addr NetFacts Parse ParseFacts
  UrlSpec UrlFacts ExtractFacts Rfc UrlProofs CharProofs ExampleBase.
Local Open Scope N_scope.

(** The digit classes used by the specification. *)
Theorem C12_digit_classes : forall b,
  (is_digit b = true <-> 48 <= b <= 57)
  /\ (is_hex b = true <-> 48 <= b <= 57 \/ 97 <= b <= 102 \/ 65 <= b <= 70)
  /\ (48 <= b <= 57 -> unhex b = b - 48)
  /\ (97 <= b <= 102 -> unhex b = b - 97 + 10)
  /\ (65 <= b <= 70 -> unhex b = b - 65 + 10).
Proof. exact digit_classes. Qed.

(** C01: Extract returns; it neither panics nor runs forever (the model is a total function
    into [outcome], whose other values are a Go panic and exhausted fuel). *)
Theorem C01_returns : forall ext t p, exists r e, extract ext t p = Ret (r, e).
Proof. exact c01. Qed.
Example C01_example : extract ex_idna ex_trie (ex_params "[::%.]..@:/") <> Panic
  /\ exists r, extract ex_idna ex_trie (ex_params "https://u@a.example.co.uk:80/x") = Ret (r, None).
Proof. split; [vm_compute; discriminate|]. eexists. vm_compute. reflexivity. Qed.

(** C02: whitespace on either side is irrelevant. *)
Theorem C02_whitespace : forall ext t l url r ignore puny, star ws_chars l -> star ws_chars r ->
  extract ext t (mkParams (l ++ url ++ r) ignore puny) = extract ext t (mkParams url ignore puny).
Proof. exact c02. Qed.
Example C02_example : star ws_chars (encode 8203 ++ str " ")
  /\ extract ex_idna ex_trie (mkParams ((encode 8203 ++ str " ") ++ str "a.com" ++ []) false false)
     = extract ex_idna ex_trie (ex_params "a.com").
Proof.
  split; [|vm_compute; reflexivity]. rewrite <- (app_nil_r (str " ")).
  apply star_cons; [cbn; auto 60|]. apply (star_cons _ 32); [cbn; auto 60|constructor].
Qed.

(** C03: Scheme is the longest prefix matching ([A-Za-z][A-Za-z0-9+.-]*:?)?[/\]{2,}, and
    empty iff no prefix matches. *)
Theorem C03_scheme : forall ext t p r e u, extract ext t p = Ret (r, e) -> trimmed ws_chars (p_url p) u ->
  exists rest, scheme_split u (r_scheme r) rest.
Proof. exact c03. Qed.
Theorem C03_no_scheme : forall ext t p r e u, extract ext t p = Ret (r, e) -> trimmed ws_chars (p_url p) u ->
  r_scheme r = [] <-> ~ exists a b, u = a ++ b /\ is_scheme a.
Proof. exact c03_none. Qed.
Example C03_example : exists r, extract ex_idna ex_trie (ex_params " ht+tp:/\//a.com/x//y") = Ret (r, None)
  /\ r_scheme r = str "ht+tp:/\//" /\ trimmed ws_chars (str " ht+tp:/\//a.com/x//y") (str "ht+tp:/\//a.com/x//y").
Proof.
  eexists. split; [vm_compute; reflexivity|]. split; [reflexivity|]. apply trim_ws_iff. vm_compute. reflexivity.
Qed.

(** C04: full statement: a non-empty Scheme starts with a slash or contains a colon.  False:
    the colon is optional in fasttld.go:22, so the host of "example.com//path" is taken for a
    scheme.  It holds when the first run of slashes of the URL has length one. *)
Theorem C04_refuted : exists ext t p r, extract ext t p = Ret (r, None)
  /\ p_url p = str "example.com//path" /\ r_scheme r = str "example.com//" /\ r_domain r = str "path".
Proof.
  exists ex_idna, ex_trie, (ex_params "example.com//path"). eexists. split; [vm_compute; reflexivity|]. auto.
Qed.
Theorem C04_partial : forall ext t p r e a b, extract ext t p = Ret (r, e) ->
  trimmed ws_chars (p_url p) (a ++ b) -> Forall (fun c => ~ slash c) a ->
  (b = [] \/ exists s q, b = s :: q /\ slash s /\ starts_with (fun c => ~ slash c) q) -> r_scheme r = [].
Proof. exact c04_partial. Qed.
Example C04_example : exists r, extract ex_idna ex_trie (ex_params "example.com/a//b") = Ret (r, None)
  /\ trimmed ws_chars (str "example.com/a//b") (str "example.com" ++ str "/a//b")
  /\ r_scheme r = [] /\ r_path r = str "/a//b".
Proof.
  eexists. split; [vm_compute; reflexivity|]. split; [apply trim_ws_iff; vm_compute; reflexivity|]. split; reflexivity.
Qed.

(** C05: UserInfo is the text before the last '@' before the first of / \ ? # [ ] ([front]
    determines its arguments, see [C05_front]); what follows has no '@' before those. *)
Theorem C05_user_info : forall ext t p r e scheme user rest, extract ext t p = Ret (r, e) ->
  front (p_url p) scheme user rest ->
  r_user_info r = user_of user
  /\ Forall (fun b => ~ path_char b /\ ~ bracket b) (r_user_info r)
  /\ exists v q, rest = v ++ q /\ ~ In 64 v /\ starts_with (fun b => path_char b \/ bracket b) q.
Proof. exact c05. Qed.
(** Every URL has exactly one such decomposition, and it loses nothing. *)
Theorem C05_front : forall url,
  (exists scheme user rest, front url scheme user rest)
  /\ (forall scheme user rest scheme' user' rest', front url scheme user rest ->
        front url scheme' user' rest' -> scheme = scheme' /\ user = user' /\ rest = rest')
  /\ (forall scheme user rest, front url scheme user rest ->
        trimmed ws_chars url (scheme ++ user_at user ++ rest)).
Proof.
  intros url. split; [apply front_total|]. split; [apply front_unique|]. exact (front_text url).
Qed.
Example C05_example : front (str "//a@b:c@x.com/@") (str "//") (Some (str "a@b:c")) (str "x.com/@")
  /\ exists r, extract ex_idna ex_trie (ex_params "//a@b:c@x.com/@") = Ret (r, None) /\ r_user_info r = str "a@b:c".
Proof. split; [ex_front|]. eexists. split; vm_compute; reflexivity. Qed.

(** C07: ports.  [port_number] is what strconv.Atoi accepts with a value in 0..65535. *)
Theorem C07_accepted_port : forall ext t p r, extract ext t p = Ret (r, None) ->
  r_port r <> [] -> port_number (r_port r).
Proof. exact c07_success. Qed.
Theorem C07_plain_host : forall ext t p r e scheme user raw after port path, extract ext t p = Ret (r, e) ->
  front (p_url p) scheme user (raw ++ after) -> plain_host raw -> after_host after port path ->
  (port_accepted port -> r_port r = port_of port /\ r_path r = path /\ e <> Some ErrInvalidPort)
  /\ (~ port_accepted port ->
      r = mkResult scheme (user_of user) [] [] [] [] [] [] HNone /\ e = Some ErrInvalidPort).
Proof. exact c07_plain. Qed.
Theorem C07_bracketed_host : forall ext t p r e scheme user a after port path, extract ext t p = Ret (r, e) ->
  front (p_url p) scheme user (str "[" ++ a ++ str "]" ++ after) -> ipv6_literal a ->
  after_host after port path ->
  (port_accepted port -> r_port r = port_of port /\ r_path r = path /\ e = None)
  /\ (~ port_accepted port -> r_port r = [] /\ r_path r = [] /\ e <> None
      /\ (Forall (fun b => ~ bracket b) (port_of port) -> e = Some ErrInvalidPort)).
Proof. exact c07_bracketed. Qed.
Example C07_example :
  front (str "a.com:65535/x") [] None (str "a.com" ++ str ":65535/x") /\ plain_host (str "a.com")
  /\ after_host (str ":65535/x") (Some (str "65535")) (str "/x") /\ port_accepted (Some (str "65535"))
  /\ after_host (str ":65536/x") (Some (str "65536")) (str "/x") /\ ~ port_accepted (Some (str "65536"))
  /\ ~ port_accepted (Some [])
  /\ (exists r, extract ex_idna ex_trie (ex_params "a.com:65536/x") = Ret (r, Some ErrInvalidPort))
  /\ (exists r, extract ex_idna ex_trie (ex_params "a.com:") = Ret (r, Some ErrInvalidPort)).
Proof.
  split; [ex_front|]. split; [ex_plain|]. split; [ex_after|]. split; [ex_port|]. split; [ex_after|].
  split; [|split; [|split; eexists; vm_compute; reflexivity]];
    cbn [port_accepted]; rewrite <- port_ok_iff; vm_compute; discriminate.
Qed.
Example C07_example_bracketed :
  front (str "[::1]:80?q") [] None (str "[" ++ str "::1" ++ str "]" ++ str ":80?q")
  /\ ipv6_literal (str "::1") /\ after_host (str ":80?q") (Some (str "80")) (str "?q").
Proof. split; [ex_front|]. split; [apply ipv6_b; vm_compute; reflexivity|ex_after]. Qed.

(** C08: full statement: a non-empty Port of a success consists of digits.  False: signs are
    accepted.  Except for them it holds. *)
Theorem C08_refuted : exists ext t p r, extract ext t p = Ret (r, None)
  /\ r_port r = str "+80" /\ ~ all_digits (r_port r).
Proof.
  exists ex_idna, ex_trie, (ex_params "example.com:+80"). eexists. split; [vm_compute; reflexivity|].
  split; [reflexivity|]. intros H. inversion H. discriminate.
Qed.
Theorem C08_partial : forall ext t p r b q, extract ext t p = Ret (r, None) -> r_port r = b :: q ->
  b <> 43 -> b <> 45 -> all_digits (r_port r) /\ (decimal (r_port r) <= 65535)%Z.
Proof. exact c08_partial. Qed.
Example C08_example : exists r, extract ex_idna ex_trie (ex_params "example.com:00080") = Ret (r, None)
  /\ r_port r = str "00080".
Proof. eexists. split; vm_compute; reflexivity. Qed.

(** C09: the path influences nothing but Path. *)
Theorem C09_path_independent : forall ext t ignore puny scheme user a url1 url2 path1 path2 r1 e1 r2 e2,
  complete a ->
  front url1 scheme user (a ++ path1) -> front url2 scheme user (a ++ path2) ->
  is_path path1 -> is_path path2 ->
  extract ext t (mkParams url1 ignore puny) = Ret (r1, e1) ->
  extract ext t (mkParams url2 ignore puny) = Ret (r2, e2) ->
  e1 = e2 /\ with_path r1 [] = with_path r2 []
  /\ ((r_path r1 = path1 /\ r_path r2 = path2) \/ (e1 <> None /\ r_path r1 = [] /\ r_path r2 = [])).
Proof. exact c09. Qed.
Example C09_example : complete (str "[::1]:80")
  /\ front (str "//u@[::1]:80/a") (str "//") (Some (str "u")) (str "[::1]:80" ++ str "/a")
  /\ front (str "//u@[::1]:80?]@:x") (str "//") (Some (str "u")) (str "[::1]:80" ++ str "?]@:x").
Proof.
  split; [split; [apply no_path_char_b; reflexivity|]|split; ex_front].
  intros s E. cbn in E. injection E as <-. cbn. auto.
Qed.

(** C10: bracketed hosts. *)
Theorem C10_bracketed : forall ext t p r e scheme user s, extract ext t p = Ret (r, e) ->
  front (p_url p) scheme user (str "[" ++ s) ->
  (e = None <-> exists a after port path, s = a ++ str "]" ++ after /\ ipv6_literal a
                  /\ after_host after port path /\ port_accepted port)
  /\ (forall a after port path, s = a ++ str "]" ++ after -> ipv6_literal a ->
        after_host after port path -> port_accepted port ->
        r = mkResult scheme (user_of user) [] a [] a (port_of port) path HIPv6).
Proof. exact c10. Qed.
Example C10_example : front (str "x://[1::2:3]:7/") (str "x://") None (str "[" ++ str "1::2:3]:7/")
  /\ ipv6_literal (str "1::2:3")
  /\ extract ex_idna ex_trie (ex_params "x://[1::2:3]:7/")
     = Ret (mkResult (str "x://") [] [] (str "1::2:3") [] (str "1::2:3") (str "7") (str "/") HIPv6, None).
Proof. split; [ex_front|]. split; [apply ipv6_b|]; vm_compute; reflexivity. Qed.

(** C11: full statement: the contents of the brackets of an accepted URL are an RFC 4291
    literal.  False: groups may have any number of leading zeros and label separators may
    follow an embedded IPv4 address.  Without these it holds; and every RFC 4291 literal is
    accepted. *)
Theorem C11_refuted_zeros : exists ext t p r, extract ext t p = Ret (r, None) /\ r_host_type r = HIPv6
  /\ r_domain r = str "::00000001" /\ long_group (r_domain r).
Proof.
  exists ex_idna, ex_trie, (ex_params "[::00000001]"). eexists. split; [vm_compute; reflexivity|].
  split; [reflexivity|]. split; [reflexivity|]. exists (str "::"), (str "00000"), (str "001").
  split; [reflexivity|]. split; [repeat constructor|reflexivity].
Qed.
Theorem C11_refuted_trailing : exists ext t p r, extract ext t p = Ret (r, None) /\ r_host_type r = HIPv6
  /\ r_domain r = str "::1.2.3.4..".
Proof.
  exists ex_idna, ex_trie, (ex_params "[::1.2.3.4..]"). eexists. split; [vm_compute; reflexivity|]. auto.
Qed.
Theorem C11_partial : forall ext t p r e, extract ext t p = Ret (r, e) -> r_host_type r = HIPv6 ->
  ~ long_group (r_domain r) -> ascii (r_domain r) -> (forall x, r_domain r <> x ++ str ".") ->
  rfc_literal (r_domain r).
Proof. exact c11_partial. Qed.
Theorem C11_complete : forall ext t p r e scheme user a, extract ext t p = Ret (r, e) ->
  front (p_url p) scheme user (str "[" ++ a ++ str "]") -> rfc_literal a ->
  e = None /\ r_host_type r = HIPv6 /\ r_domain r = a.
Proof. exact c11_complete. Qed.
Example C11_example : rfc_literal (str "1::ff:1.2.3.4")
  /\ front (str "[1::ff:1.2.3.4]") [] None (str "[" ++ str "1::ff:1.2.3.4" ++ str "]").
Proof.
  split; [|ex_front]. right. exists 1%nat, (str "1"), 3%nat, (str "ff:1.2.3.4"). split; [reflexivity|]. split; [lia|].
  split; right.
  - constructor. split; [discriminate|]. split; [repeat constructor|cbn; lia].
  - apply (rfc_pieces_more (str "ff") 2 (str "1.2.3.4")).
    + split; [discriminate|]. split; [repeat constructor|cbn; lia].
    + apply rfc_pieces_ipv4. exists (str "1"), (str "2"), (str "3"), (str "4"). split; [reflexivity|].
      assert (O : forall b, 49 <= b <= 57 -> octet [b]).
      { intros b Hb. split; [discriminate|]. split; [constructor; [apply digit_classes; lia|constructor]|].
        split; [cbn; lia|]. right. exists b, []. split; [reflexivity|lia]. }
      split; [apply (O 49); lia|]. split; [apply (O 50); lia|]. split; [apply (O 51)|apply (O 52)]; lia.
Qed.

(** C12: the IPv4 recogniser (net.go:32-68). *)
Theorem C12_ipv4_exact : forall s, exists b, is_ipv4 s = Ret b /\ (b = true <-> ipv4_text s).
Proof. exact is_ipv4_spec. Qed.
Example C12_example : is_ipv4 (str "255.0.10.1" ++ encode 12290) = Ret true
  /\ is_ipv4 (str "255.0.010.1") = Ret false /\ is_ipv4 (str "256.0.0.1") = Ret false
  /\ is_ipv4 (str "1.2..3.4") = Ret false.
Proof. vm_compute. auto. Qed.

(** C13: HostType is IPv4 iff the converted host is an IPv4 address. *)
Theorem C13_ipv4_hosts : forall ext t p r e scheme user raw h port path, extract ext t p = Ret (r, e) ->
  url_parts ext p scheme user raw h port path -> port_accepted port ->
  (ipv4_text h -> e = None /\ r_host_type r = HIPv4) /\ (r_host_type r = HIPv4 -> ipv4_text h).
Proof. exact c13. Qed.
Theorem C13_ipv4_only : forall ext t p r e, extract ext t p = Ret (r, e) -> r_host_type r = HIPv4 ->
  e = None /\ exists scheme user raw h port path,
    url_parts ext p scheme user raw h port path /\ port_accepted port /\ ipv4_text h.
Proof. exact c13_only. Qed.
Example C13_example : url_parts ex_idna (ex_params "//127.0.0.1.:1/a") (str "//") None (str "127.0.0.1.") (str "127.0.0.1.")
    (Some (str "1")) (str "/a")
  /\ ipv4_text (str "127.0.0.1.")
  /\ exists r, extract ex_idna ex_trie (ex_params "//127.0.0.1.:1/a") = Ret (r, None) /\ r_domain r = str "127.0.0.1".
Proof.
  split; [exists (str ":1/a"); split; [ex_front|]; split; [ex_plain|]; split; [ex_after|apply converted_iff; vm_compute; reflexivity]|].
  split; [apply ipv4_b; vm_compute; reflexivity|]. eexists. split; vm_compute; reflexivity.
Qed.

(** C15 *)
Theorem C15_success_has_host : forall ext t p r e, extract ext t p = Ret (r, e) ->
  (e = None -> r_host_type r <> HNone /\ r_domain r <> [])
  /\ (e <> None -> r_host_type r = HNone
      \/ (r_host_type r = HIPv6 /\ e = Some ErrInvalidPort
          /\ exists scheme user a after, front (p_url p) scheme user (str "[" ++ a ++ str "]" ++ after)
               /\ ipv6_literal a /\ r_domain r = a)).
Proof. exact c15. Qed.
Example C15_example :
  (exists r, extract ex_idna ex_trie (ex_params "[::1]:99999") = Ret (r, Some ErrInvalidPort) /\ r_host_type r = HIPv6)
  /\ (exists r, extract ex_idna ex_trie (ex_params "co.uk") = Ret (r, Some ErrEmptyDomain) /\ r_host_type r = HNone).
Proof. split; eexists; split; vm_compute; reflexivity. Qed.

(** C16 *)
Theorem C16_registered_domain : forall ext t p r, extract ext t p = Ret (r, None) -> r_host_type r = HHostName ->
  (r_suffix r <> [] -> exists sep, is_sep_text sep /\ r_registered_domain r = r_domain r ++ sep ++ r_suffix r)
  /\ (r_suffix r = [] -> r_registered_domain r = []).
Proof. exact c16. Qed.
Example C16_example : exists r, extract ex_idna ex_trie (mkParams (str "a.b" ++ encode 12290 ++ str "co.uk") false false) = Ret (r, None)
  /\ r_host_type r = HHostName /\ r_suffix r = str "co.uk"
  /\ r_registered_domain r = str "b" ++ encode 12290 ++ str "co.uk".
Proof. eexists. split; [vm_compute; reflexivity|]. repeat split. Qed.

(** C17 *)
Theorem C17_domain_is_label : forall ext t p r, extract ext t p = Ret (r, None) -> r_host_type r = HHostName ->
  r_domain r <> [] /\ no_sep (r_domain r) /\
  exists scheme user raw h port path pre post, url_parts ext p scheme user raw h port path
    /\ h = pre ++ r_domain r ++ post
    /\ (pre = [] \/ exists x s, is_sep_text s /\ pre = x ++ s)
    /\ (post = [] \/ exists s x, is_sep_text s /\ post = s ++ x).
Proof. exact c17. Qed.
Example C17_example : exists r, extract ex_idna ex_trie (ex_params "x.y.a.b.ck..") = Ret (r, None)
  /\ r_host_type r = HHostName /\ r_domain r = str "a" /\ r_suffix r = str "b.ck" /\ r_sub_domain r = str "x.y".
Proof. eexists. split; [vm_compute; reflexivity|]. repeat split. Qed.

(** C18 *)
Theorem C18_ignore_sub_domains : forall ext t url puny r e,
  extract ext t (mkParams url false puny) = Ret (r, e) ->
  extract ext t (mkParams url true puny) = Ret (with_sub_domain r [], e).
Proof. exact c18. Qed.
Example C18_example : exists r, extract ex_idna ex_trie (ex_params "x.a.com") = Ret (r, None)
  /\ r_sub_domain r = str "x".
Proof. eexists. split; vm_compute; reflexivity. Qed.

(** C19: full statement: Domain and SubDomain of an accepted host name contain no forbidden
    character.  False: hasInvalidChars (fasttld.go) converts runes to bytes before looking for
    letters and digits, so that U+0378, U+206B and U+2A74 are taken for 'x', 'k' and 't'; and
    the characters are not checked in a host name without a suffix whose last labels begin a
    rule.  Apart from that it holds. *)
Theorem C19_refuted_runes : exists ext t p r, extract ext t p = Ret (r, None) /\ r_host_type r = HHostName
  /\ has_char 888 (r_domain r) /\ has_char 8299 (r_domain r) /\ has_char 10868 (r_domain r).
Proof.
  exists ex_idna, ex_trie, (mkParams (encode_all [888; 8299; 10868] ++ str ".com") false false).
  eexists. split; [vm_compute; reflexivity|]. split; [reflexivity|]. cbn [r_domain].
  split; [exists [], (encode_all [8299; 10868]); reflexivity|].
  split; [exists (encode_all [888]), (encode_all [10868]); reflexivity|].
  exists (encode_all [888; 8299]), []. reflexivity.
Qed.
Theorem C19_refuted_no_suffix : exists ext t p r, extract ext t p = Ret (r, None) /\ r_host_type r = HHostName
  /\ t = trie_of [str "c.b_.x"; str "com"] /\ p_url p = str "a.b_.x" /\ r_domain r = str "x"
  /\ r_sub_domain r = str "a.b_" /\ has_char 95 (r_sub_domain r).
Proof.
  exists ex_idna, (trie_of [str "c.b_.x"; str "com"]), (ex_params "a.b_.x").
  eexists. split; [vm_compute; reflexivity|]. repeat split. exists (str "a.b"), []. reflexivity.
Qed.
Theorem C19_partial : forall ext t p r c, extract ext t p = Ret (r, None) -> r_host_type r = HHostName ->
  r_suffix r <> [] -> In c forbidden -> c <> 888 -> c <> 8299 -> c <> 10868 ->
  ~ has_char c (r_domain r) /\ ~ has_char c (r_sub_domain r).
Proof. exact c19_partial. Qed.
Example C19_example : (exists r, extract ex_idna ex_trie (ex_params "x.a-b.com") = Ret (r, None)
    /\ r_host_type r = HHostName /\ r_suffix r <> [])
  /\ exists r, extract ex_idna ex_trie (ex_params "x_y.ab.com") = Ret (r, Some ErrInvalidChars).
Proof. split; eexists; [split; [vm_compute; reflexivity|]; split; [reflexivity|discriminate]|vm_compute; reflexivity]. Qed.

(** C20: full statement: an accepted host name has no empty labels.  False with the separator
    U+FF61, whose low byte is 'a', and in a host without a suffix.  Apart from that it holds. *)
Theorem C20_refuted_separator : exists ext t p r, extract ext t p = Ret (r, None) /\ r_host_type r = HHostName
  /\ p_url p = encode 65377 ++ str "a" ++ encode 65377 ++ encode 65377 ++ str "example.com"
  /\ r_sub_domain r = encode 65377 ++ str "a" ++ encode 65377.
Proof.
  exists ex_idna, ex_trie, (mkParams (encode 65377 ++ str "a" ++ encode 65377 ++ encode 65377 ++ str "example.com") false false).
  eexists. split; [vm_compute; reflexivity|]. repeat split.
Qed.
Theorem C20_refuted_no_suffix : exists ext t p r, extract ext t p = Ret (r, None) /\ r_host_type r = HHostName
  /\ t = trie_of [str "foo.bar"] /\ p_url p = str ".bar" /\ r_domain r = str "bar".
Proof.
  exists ex_idna, (trie_of [str "foo.bar"]), (ex_params ".bar").
  eexists. split; [vm_compute; reflexivity|]. repeat split.
Qed.
Theorem C20_partial : forall ext t p r, extract ext t p = Ret (r, None) -> r_host_type r = HHostName ->
  r_suffix r <> [] ->
  exists scheme user raw h port path, url_parts ext p scheme user raw h port path
    /\ ((forall x y, h <> x ++ [239; 189; 161] ++ y) -> no_empty_label h).
Proof. exact c20_partial. Qed.
Example C20_example : (exists r, extract ex_idna ex_trie (ex_params "x.y.com..") = Ret (r, None)
    /\ r_host_type r = HHostName /\ r_suffix r <> [])
  /\ (exists r, extract ex_idna ex_trie (ex_params "x..y.com") = Ret (r, Some ErrInvalidChars)).
Proof. split; eexists; [split; [vm_compute; reflexivity|]; split; [reflexivity|discriminate]|vm_compute; reflexivity]. Qed.

(** C27 *)
Theorem C27_escapes : forall ext t p r e scheme user raw after port path, extract ext t p = Ret (r, e) ->
  front (p_url p) scheme user (raw ++ after) -> plain_host raw -> after_host after port path ->
  port_accepted port ->
  (bad_escape raw -> exists x, e = Some (ErrUnescape x) /\ r_domain r = [] /\ r_suffix r = [])
  /\ (~ bad_escape raw -> forall x, e <> Some (ErrUnescape x)).
Proof. exact c27. Qed.
Example C27_example : front (str "a%4.com/") [] None (str "a%4.com" ++ str "/") /\ plain_host (str "a%4.com")
  /\ after_host (str "/") None (str "/") /\ bad_escape (str "a%4.com")
  /\ exists r, extract ex_idna ex_trie (ex_params "a%4.com/") = Ret (r, Some (ErrUnescape (str "%4."))).
Proof.
  split; [ex_front|]. split; [ex_plain|]. split; [ex_after|]. split; [|eexists; vm_compute; reflexivity].
  exists (str "a"), (str "4.com"). split; [reflexivity|]. intros (a & b & q & E & _ & H). cbn in E. injection E as <- <- _.
  discriminate.
Qed.

(** C28: Extract depends on the host only through the converted host, whether it is converted
    by the Punycode option or was written like that; if the library rejects it, the domain is
    empty; the other components do not depend on the option. *)
Theorem C28_converted_host : forall ext t p p' scheme user raw raw' h port path,
  url_parts ext p scheme user raw h port path -> url_parts ext p' scheme user raw' h port path ->
  p_ignore_sub_domains p = p_ignore_sub_domains p' -> port_accepted port ->
  extract ext t p = extract ext t p'.
Proof. exact c28_same. Qed.
Theorem C28_rejected_host : forall ext t p r e scheme user raw d after port path, extract ext t p = Ret (r, e) ->
  p_to_punycode p = true -> front (p_url p) scheme user (raw ++ after) -> plain_host raw ->
  after_host after port path -> port_accepted port -> percent_decoded raw d -> idna_to_puny ext d = None ->
  e = Some ErrEmptyDomain /\ r_domain r = [].
Proof. exact c28_rejected. Qed.
Theorem C28_other_components : forall ext t url ignore r e r' e',
  extract ext t (mkParams url ignore false) = Ret (r, e) ->
  extract ext t (mkParams url ignore true) = Ret (r', e') ->
  r_scheme r = r_scheme r' /\ r_user_info r = r_user_info r' /\ r_port r = r_port r' /\ r_path r = r_path r'.
Proof. exact c28_others. Qed.
(** A library that converts "\u00e9.com" only. *)
Definition ex_idna_puny : idna :=
  mkIdna (fun _ => None) (fun s => if bytes_eqb s (encode 233 ++ str ".com") then Some (str "xn--9ca.com")
                                   else if bytes_eqb s (str "!") then None else Some s).
Example C28_example :
  url_parts ex_idna_puny (mkParams (str "%C3%A9.com") false true) [] None (str "%C3%A9.com") (str "xn--9ca.com") None []
  /\ url_parts ex_idna_puny (mkParams (str "xn--9ca.com") false false) [] None (str "xn--9ca.com") (str "xn--9ca.com") None []
  /\ percent_decoded (str "!") (str "!") /\ idna_to_puny ex_idna_puny (str "!") = None.
Proof.
  split; [exists []; split; [ex_front|]; split; [ex_plain|]; split; [ex_after|apply converted_iff; vm_compute; reflexivity]|].
  split; [exists []; split; [ex_front|]; split; [ex_plain|]; split; [ex_after|apply converted_iff; vm_compute; reflexivity]|].
  split; [apply percent_decoded_iff|]; vm_compute; reflexivity.
Qed.

(** C50 *)
Theorem C50_errors_without_domain : forall ext t p r x, extract ext t p = Ret (r, Some x) ->
  r_domain r = [] \/ (x = ErrInvalidPort /\ r_host_type r = HIPv6
    /\ exists scheme user a after, front (p_url p) scheme user (str "[" ++ a ++ str "]" ++ after) /\ ipv6_literal a).
Proof. exact c50. Qed.
Example C50_example : exists r, extract ex_idna ex_trie (ex_params "x..y.com") = Ret (r, Some ErrInvalidChars) /\ r_domain r = [].
Proof. eexists. split; vm_compute; reflexivity. Qed.

Print Assumptions C12_digit_classes.
Print Assumptions C01_returns.
Print Assumptions C02_whitespace.
Print Assumptions C03_scheme.
Print Assumptions C03_no_scheme.
Print Assumptions C04_refuted.
Print Assumptions C04_partial.
Print Assumptions C05_user_info.
Print Assumptions C05_front.
Print Assumptions C07_accepted_port.
Print Assumptions C07_plain_host.
Print Assumptions C07_bracketed_host.
Print Assumptions C08_refuted.
Print Assumptions C08_partial.
Print Assumptions C09_path_independent.
Print Assumptions C10_bracketed.
Print Assumptions C11_refuted_zeros.
Print Assumptions C11_refuted_trailing.
Print Assumptions C11_partial.
Print Assumptions C11_complete.
Print Assumptions C12_ipv4_exact.
Print Assumptions C13_ipv4_hosts.
Print Assumptions C13_ipv4_only.
Print Assumptions C15_success_has_host.
Print Assumptions C16_registered_domain.
Print Assumptions C17_domain_is_label.
Print Assumptions C18_ignore_sub_domains.
Print Assumptions C19_refuted_runes.
Print Assumptions C19_refuted_no_suffix.
Print Assumptions C19_partial.
Print Assumptions C20_refuted_separator.
Print Assumptions C20_refuted_no_suffix.
Print Assumptions C20_partial.
Print Assumptions C27_escapes.
Print Assumptions C28_converted_host.
Print Assumptions C28_rejected_host.
Print Assumptions C28_other_components.
Print Assumptions C50_errors_without_domain.
