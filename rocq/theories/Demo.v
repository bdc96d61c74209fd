(** Demo.v - the program examples/demo.go. *)

From Verif Require Import Base Str Extract Psl World Update Calls Print.

(** demo.go:11 *)
Definition font_style : list attribute := [FgHiWhite; Bold].

Section Demo.
Variable to_ascii : bytes -> option bytes.
Variable hardcoded : bytes.
Variable ext : idna.
Variable quote : bytes -> bytes.

(** res, _ = extractor.Extract(...), the heading and fasttld.PrintRes; for example demo.go:23-25.
    The calls are made before the heading is printed, which does not show. *)
Definition demo_section (f : nat) (heading : bytes) (p : url_params) : prog (list piece) :=
  '(res, _) <~ extract_prog ext f p ;;
  ret (println font_style heading ++ print_res (p_url p) res (host_type_number (r_host_type res))).

(** extractor, _ = fasttld.New(...); for example demo.go:57.  If New failed, extractor would be nil
    and the next call of Extract would panic. *)
Definition demo_new (private : bool) : prog nat :=
  '(f, e) <~ new to_ascii hardcoded (mkListParams [] private) ;;
  match e with Some _ => Done Panic | None => ret f end.

(** demo.go:10-95.  The result is what is printed on the standard output, or [None] after log.Fatal
    (line 20).  What is written to the log (line 51) is not modelled. *)
Definition demo : prog (option (list piece)) :=
  '(f, e) <~ new to_ascii hardcoded (mkListParams [] false) ;;
  match e with
  | Some _ => ret None
  | None =>
    o1 <~ demo_section f (str "Hostname") (mkParams (str "https://user@a.subdomain.example.a%63.uk:5000/a/b?id=42") false false) ;;
    o2 <~ demo_section f (str "IPv4 Address") (mkParams (str "https://127.0.0.1:5000") false false) ;;
    o3 <~ demo_section f (str "IPv6 Address") (mkParams (str "https://[aBcD:ef01:2345:6789:aBcD:ef01:2345:6789]:5000") false false) ;;
    o4 <~ demo_section f (str "Internationalised label separators") (mkParams (str "https://brb.i。am．going｡to．be。a｡fk") false false) ;;
    _ <~ update to_ascii hardcoded f ;;
    f <~ demo_new false ;;
    o5 <~ demo_section f (str "Exclude Private Domains") (mkParams (str "https://google.blogspot.com") false false) ;;
    f <~ demo_new true ;;
    o6 <~ demo_section f (str "Include Private Domains") (mkParams (str "https://google.blogspot.com") false false) ;;
    f <~ demo_new false ;;
    o7 <~ demo_section f (str "Ignore Subdomains") (mkParams (str "https://maps.google.com") true false) ;;
    o8 <~ demo_section f (str "No Punycode") (mkParams (str "https://hello.世界.com") false false) ;;
    o9 <~ demo_section f (str "Punycode") (mkParams (str "https://hello.世界.com") false true) ;;
    (* 84-94 *)
    let url := str "https://example!.com" in
    '(res, err) <~ extract_prog ext f (mkParams url false false) ;;
    let o10 := println font_style (str "Parsing errors") ++ println [] (str "The following line should be an error message")
               ++ match err with
                  | Some err => print [FgHiRed; Bold] (str "Error: ") ++ println [FgHiWhite] (err_message quote err)
                  | None => []
                  end
               ++ print_res url res (host_type_number (r_host_type res)) in
    ret (Some (o1 ++ o2 ++ o3 ++ o4 ++ o5 ++ o6 ++ o7 ++ o8 ++ o9 ++ o10))
  end.
End Demo.
