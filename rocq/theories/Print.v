(** Print.v - model of print.go and of the extract command (cmd/fasttld/extract.go).

    Output is a list of pieces, each with the colour attributes it is printed with.  What
    github.com/fatih/color makes of the attributes (escape sequences, or nothing if the output
    is no terminal) is in Colour.v; without colours the output is the texts one after the
    other. *)

From Verif Require Import Base Str Net Trie Extract World Update Calls.
Local Open Scope N_scope.

Inductive attribute := FgHiYellow | FgHiBlack | FgHiWhite | FgHiBlue | FgHiRed | Bold.
Definition piece := (list attribute * bytes)%type.

(** color.New(attrs...).Print(s) and color.New(attrs...).Println(s) *)
Definition print (attrs : list attribute) (s : bytes) : list piece := [(attrs, s)].
Definition println (attrs : list attribute) (s : bytes) : list piece := [(attrs, s ++ [10])].

(** print.go:9-11 *)
Definition left_attrs_filled := [FgHiYellow; Bold].
Definition left_attrs_blank := [FgHiBlack].
Definition right_attrs := [FgHiWhite].

(** fasttld.go:43-48: the numbers of the host types *)
Definition host_type_number (h : host_type) : Z :=
  match h with HNone => 0 | HHostName => 1 | HIPv4 => 2 | HIPv6 => 3 end%Z.

(** print.go:8-94 PrintRes.  HostType is an int in Go, any number may be passed; it is the
    separate argument [host_type], and [r_host_type res] is not used. *)
Definition print_res (url : bytes) (res : result) (host_type : Z) : list piece :=
  (* 13-18 *)
  (if negb (len url =? 0)%Z then print left_attrs_filled (str "              url: ")
   else print left_attrs_blank (str "              url: "))
  ++ println right_attrs url
  (* 20-25 *)
  ++ (if negb (len (r_scheme res) =? 0)%Z then print left_attrs_filled (str "           scheme: ")
      else print left_attrs_blank (str "           scheme: "))
  ++ println right_attrs (r_scheme res)
  (* 27-32 *)
  ++ (if negb (len (r_user_info res) =? 0)%Z then print left_attrs_filled (str "         userinfo: ")
      else print left_attrs_blank (str "         userinfo: "))
  ++ println right_attrs (r_user_info res)
  (* 34-39 *)
  ++ (if negb (len (r_sub_domain res) =? 0)%Z then print left_attrs_filled (str "        subdomain: ")
      else print left_attrs_blank (str "        subdomain: "))
  ++ println right_attrs (r_sub_domain res)
  (* 41-46 *)
  ++ (if negb (len (r_domain res) =? 0)%Z then print left_attrs_filled (str "           domain: ")
      else print left_attrs_blank (str "           domain: "))
  ++ println right_attrs (r_domain res)
  (* 48-53 *)
  ++ (if negb (len (r_suffix res) =? 0)%Z then print left_attrs_filled (str "           suffix: ")
      else print left_attrs_blank (str "           suffix: "))
  ++ println right_attrs (r_suffix res)
  (* 55-60 *)
  ++ (if negb (len (r_registered_domain res) =? 0)%Z then print left_attrs_filled (str "registered domain: ")
      else print left_attrs_blank (str "registered domain: "))
  ++ println right_attrs (r_registered_domain res)
  (* 62-67 *)
  ++ (if negb (len (r_port res) =? 0)%Z then print left_attrs_filled (str "             port: ")
      else print left_attrs_blank (str "             port: "))
  ++ println right_attrs (r_port res)
  (* 69-74 *)
  ++ (if negb (len (r_path res) =? 0)%Z then print left_attrs_filled (str "             path: ")
      else print left_attrs_blank (str "             path: "))
  ++ println right_attrs (r_path res)
  (* 76-80 *)
  ++ (if negb (host_type =? 0)%Z then print [FgHiBlue; Bold] (str "        host type: ")
      else print left_attrs_blank (str "        host type: "))
  (* 81-90 *)
  ++ (if (host_type =? 1)%Z then println right_attrs (str "hostname")
      else if (host_type =? 2)%Z then println right_attrs (str "ipv4 address")
      else if (host_type =? 3)%Z then println right_attrs (str "ipv6 address")
      else println right_attrs [])
  (* 92 *)
  ++ println [] [].

(** The messages of Extract's errors (fasttld.go, lines as in [err]).  url.EscapeError puts
    strconv.Quote of the offending text into its message; [quote] stands for that function. *)
Definition err_message (quote : bytes -> bytes) (e : err) : bytes :=
  match e with
  | ErrOpeningBracket => str "opening square bracket is not first character of hostname"
  | ErrClosingBracket => str "closing square bracket present but no opening square bracket"
  | ErrIncompleteBrackets => str "incomplete square bracket pair"
  | ErrInvalidIPv6 => str "invalid IPv6 address"
  | ErrTrailingAfterIPv6 => str "invalid trailing characters after IPv6 address"
  | ErrInvalidPort => str "invalid port"
  | ErrUnescape t => str "invalid URL escape " ++ quote t
  | ErrIdna message => message
  | ErrConsecutiveSeparators => str "invalid consecutive label separators on left-hand side of a label"
  | ErrInvalidChars => str "invalid characters in hostname"
  | ErrEmptyDomain => str "empty domain"
  end.

(** What a run of the command does: it ends by log.Fatal, or it prints. *)
Inductive command_result := Fatal (e : io_err) | Printed (output : list piece).

(** cmd/fasttld/extract.go:25-36, the command with its flags and its argument.  Parsing the
    command line is in Cli.v.  What is written to the log (standard error) is not modelled. *)
Definition extract_command (to_ascii : bytes -> option bytes) (hardcoded : bytes) (ext : idna) (quote : bytes -> bytes)
    (include_private_suffix ignore_sub_domains to_punycode : bool) (arg : bytes) : prog command_result :=
  '(f, e) <~ new to_ascii hardcoded (mkListParams [] include_private_suffix) ;;
  match e with
  | Some e => ret (Fatal e)
  | None =>
    '(res, e) <~ extract_prog ext f (mkParams arg ignore_sub_domains to_punycode) ;;
    let error := match e with
                 | Some e => print [FgHiRed; Bold] (str "Error: ") ++ println [FgHiWhite] (err_message quote e)
                 | None => []
                 end in
    ret (Printed (error ++ print_res arg res (host_type_number (r_host_type res))))
  end.
