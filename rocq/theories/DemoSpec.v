(** DemoSpec.v - what examples/demo.go should print (C105). *)

From Verif Require Import Base Trie Extract ListSpec World UpdateSpec Print PrintSpec.

(** A line by itself. *)
Definition title (s : String.string) : list piece := [([FgHiWhite; Bold], str s ++ [10%N])].

(** A section for a URL: title, error if it is shown, and the table of the result of Extract. *)
Definition section (ext : idna) (t : trie) (name : String.string) (p : url_params) (output : list piece) : Prop :=
  exists r e table, extract ext t p = Ret (r, e) /\ shows (p_url p) r (host_type_number (r_host_type r)) table
    /\ output = title name ++ table.
Definition error_section (ext : idna) (t : trie) (message : err -> bytes) (name : String.string) (p : url_params) (output : list piece) : Prop :=
  exists r e table, extract ext t p = Ret (r, e) /\ shows (p_url p) r (host_type_number (r_host_type r)) table
    /\ output = title name ++ [([], str "The following line should be an error message" ++ [10%N])]
                ++ match e with Some e => error_line (message e) | None => [] end ++ table.

(** The trie of the built-in list or of one that was read. *)
Definition of_list (to_ascii : bytes -> option bytes) (hardcoded : bytes) (tr : list event) (private : bool) (t : trie) : Prop :=
  exists text rules, (text = hardcoded \/ exists path, was_read tr path text)
    /\ used_rules to_ascii text private rules /\ build_trie rules = Ret t.

Definition demo_url (url : String.string) : url_params := mkParams (str url) false false.

(** What the IDNA library says about the hosts of the program. *)
Definition demo_idna (ext : idna) : Prop :=
  (forall h, In h [str "a.subdomain.example.ac.uk"; str "127.0.0.1"; str "brb.i。am．going｡to．be。a｡fk"; str "google.blogspot.com";
                   str "maps.google.com"; str "hello.世界.com"; str "example!.com"] -> idna_to_unicode_err ext h = None)
  /\ idna_to_puny ext (str "hello.世界.com") = Some (str "hello.xn--rhqv96g.com").

(** The whole output with the built-in list, without colours. *)
Definition demo_text : bytes := concat (map (fun l => str l ++ [10%N]) [
   "Hostname";
   "              url: https://user@a.subdomain.example.a%63.uk:5000/a/b?id=42";
   "           scheme: https://";
   "         userinfo: user";
   "        subdomain: a.subdomain";
   "           domain: example";
   "           suffix: a%63.uk";
   "registered domain: example.a%63.uk";
   "             port: 5000";
   "             path: /a/b?id=42";
   "        host type: hostname";
   "";
   "IPv4 Address";
   "              url: https://127.0.0.1:5000";
   "           scheme: https://";
   "         userinfo: ";
   "        subdomain: ";
   "           domain: 127.0.0.1";
   "           suffix: ";
   "registered domain: 127.0.0.1";
   "             port: 5000";
   "             path: ";
   "        host type: ipv4 address";
   "";
   "IPv6 Address";
   "              url: https://[aBcD:ef01:2345:6789:aBcD:ef01:2345:6789]:5000";
   "           scheme: https://";
   "         userinfo: ";
   "        subdomain: ";
   "           domain: aBcD:ef01:2345:6789:aBcD:ef01:2345:6789";
   "           suffix: ";
   "registered domain: aBcD:ef01:2345:6789:aBcD:ef01:2345:6789";
   "             port: 5000";
   "             path: ";
   "        host type: ipv6 address";
   "";
   "Internationalised label separators";
   "              url: https://brb.i。am．going｡to．be。a｡fk";
   "           scheme: https://";
   "         userinfo: ";
   "        subdomain: brb.i。am．going｡to";
   "           domain: be";
   "           suffix: a｡fk";
   "registered domain: be。a｡fk";
   "             port: ";
   "             path: ";
   "        host type: hostname";
   "";
   "Exclude Private Domains";
   "              url: https://google.blogspot.com";
   "           scheme: https://";
   "         userinfo: ";
   "        subdomain: google";
   "           domain: blogspot";
   "           suffix: com";
   "registered domain: blogspot.com";
   "             port: ";
   "             path: ";
   "        host type: hostname";
   "";
   "Include Private Domains";
   "              url: https://google.blogspot.com";
   "           scheme: https://";
   "         userinfo: ";
   "        subdomain: ";
   "           domain: google";
   "           suffix: blogspot.com";
   "registered domain: google.blogspot.com";
   "             port: ";
   "             path: ";
   "        host type: hostname";
   "";
   "Ignore Subdomains";
   "              url: https://maps.google.com";
   "           scheme: https://";
   "         userinfo: ";
   "        subdomain: ";
   "           domain: google";
   "           suffix: com";
   "registered domain: google.com";
   "             port: ";
   "             path: ";
   "        host type: hostname";
   "";
   "No Punycode";
   "              url: https://hello.世界.com";
   "           scheme: https://";
   "         userinfo: ";
   "        subdomain: hello";
   "           domain: 世界";
   "           suffix: com";
   "registered domain: 世界.com";
   "             port: ";
   "             path: ";
   "        host type: hostname";
   "";
   "Punycode";
   "              url: https://hello.世界.com";
   "           scheme: https://";
   "         userinfo: ";
   "        subdomain: hello";
   "           domain: xn--rhqv96g";
   "           suffix: com";
   "registered domain: xn--rhqv96g.com";
   "             port: ";
   "             path: ";
   "        host type: hostname";
   "";
   "Parsing errors";
   "The following line should be an error message";
   "Error: invalid characters in hostname";
   "              url: https://example!.com";
   "           scheme: https://";
   "         userinfo: ";
   "        subdomain: ";
   "           domain: ";
   "           suffix: ";
   "registered domain: ";
   "             port: ";
   "             path: ";
   "        host type: ";
   ""
  ]%string).
