(** BrowserSpec.v - how two other parsers divide a URL: browsers (URL Standard, url.spec.whatwg.org,
    section 4.4 "basic URL parser", without base URL, for the special schemes but file) and Go's
    net/url.Parse (src/net/url/url.go).  Both as far as the host; neither is part of the model.
    Where they reject more than is said here (forbidden characters, malformed escapes), they do
    not find another host. *)

From Verif Require Import Base Utf8 Chars Host Addr Extract UrlSpec.
Local Open Scope N_scope.

(** The parts of a URL as written; the host with its brackets. *)
Record divided := mkDivided { d_user : option bytes; d_host : bytes; d_port : bytes; d_rest : bytes }.

(** ** The URL Standard *)

Definition c0_or_space : list rune :=
  [0;1;2;3;4;5;6;7;8;9;10;11;12;13;14;15;16;17;18;19;20;21;22;23;24;25;26;27;28;29;30;31;32].
Definition tab_or_newline (b : N) : bool := memN b [9; 10; 13].
Definition ascii_lower (b : N) : N := if (65 <=? b) && (b <=? 90) then b + 32 else b.
Definition ascii_alpha (b : N) : bool := ((65 <=? b) && (b <=? 90)) || ((97 <=? b) && (b <=? 122)).
Definition special_schemes : list bytes := map str ["ftp"; "http"; "https"; "ws"; "wss"]%string.
(** EOF is treated where the input ends. *)
Definition ends_authority (b : N) : bool := memN b (str "/\?#").

(** scheme start state and scheme state *)
Fixpoint scheme_state (s buffer : bytes) : option (bytes * bytes) :=
  match s with
  | [] => None
  | c :: t =>
    if c =? 58 then Some (buffer, t)
    else if ascii_alpha c || is_digit c || memN c (str "+-.") then scheme_state t (buffer ++ [ascii_lower c])
    else None
  end.
Definition scheme_start_state (s : bytes) : option (bytes * bytes) :=
  match s with
  | c :: _ => if ascii_alpha c then scheme_state s [] else None
  | [] => None
  end.
(** special authority slashes state and special authority ignore slashes state *)
Fixpoint ignore_slashes (s : bytes) : bytes :=
  match s with
  | c :: t => if memN c (str "/\") then ignore_slashes t else s
  | [] => []
  end.
(** authority state: the credentials, and the text at which the host state starts *)
Fixpoint authority_state (s buffer : bytes) (creds : option bytes) : option (option bytes * bytes) :=
  let at_end := match creds, buffer with Some _, [] => None | _, _ => Some (creds, buffer ++ s) end in
  match s with
  | [] => at_end
  | c :: t =>
    if c =? 64 then authority_state t [] (Some (match creds with Some x => x ++ str "@" ++ buffer | None => buffer end))
    else if ends_authority c then at_end
    else authority_state t (buffer ++ [c]) creds
  end.
(** host state: the host, whether a port follows, and the rest *)
Fixpoint host_state (s buffer : bytes) (inside_brackets : bool) : option (bytes * bool * bytes) :=
  match s with
  | [] => match buffer with [] => None | _ => Some (buffer, false, s) end
  | c :: t =>
    if (c =? 58) && negb inside_brackets then match buffer with [] => None | _ => Some (buffer, true, t) end
    else if ends_authority c then match buffer with [] => None | _ => Some (buffer, false, s) end
    else host_state t (buffer ++ [c]) (if c =? 91 then true else if c =? 93 then false else inside_brackets)
  end.
(** port state *)
Fixpoint port_state (s buffer : bytes) : option (bytes * bytes) :=
  let at_end := if (65535 <? decimal buffer)%Z then None else Some (buffer, s) in
  match s with
  | [] => at_end
  | c :: t => if is_digit c then port_state t (buffer ++ [c]) else if ends_authority c then at_end else None
  end.
Definition basic_url_parser (s : bytes) : option divided :=
  match scheme_start_state s with
  | None => None
  | Some (scheme, rest) =>
    if existsb (bytes_eqb scheme) special_schemes then
      match authority_state (ignore_slashes rest) [] None with
      | None => None
      | Some (user, s) =>
        match host_state s [] false with
        | None => None
        | Some (h, false, rest) => Some (mkDivided user h [] rest)
        | Some (h, true, s) =>
          match port_state s [] with None => None | Some (port, rest) => Some (mkDivided user h port rest) end
        end
      end
    else None
  end.
(** Control characters and spaces around the URL and tabs and newlines in it are removed first. *)
Definition browser (url : bytes) (d : divided) : Prop :=
  exists u, trimmed c0_or_space url u /\ basic_url_parser (filter (fun b => negb (tab_or_newline b)) u) = Some d.

(** ** net/url.Parse *)

(** strings.Cut, the part before *)
Fixpoint cut_before (c : N) (s : bytes) : bytes :=
  match s with [] => [] | b :: t => if b =? c then [] else b :: cut_before c t end.
(** The parts before and from the last [c] on. *)
Fixpoint cut_last (c : N) (s : bytes) : option (bytes * bytes) :=
  match s with
  | [] => None
  | b :: t =>
    match cut_last c t with
    | Some (x, y) => Some (b :: x, y)
    | None => if b =? c then Some ([], s) else None
    end
  end.
(** getScheme *)
Fixpoint get_scheme_loop (s rest : bytes) (first : bool) (raw : bytes) : option (bytes * bytes) :=
  match rest with
  | [] => Some ([], raw)
  | c :: t =>
    if ascii_alpha c then get_scheme_loop (s ++ [c]) t false raw
    else if is_digit c || memN c (str "+-.") then if first then Some ([], raw) else get_scheme_loop (s ++ [c]) t false raw
    else if c =? 58 then if first then None else Some (s, t)
    else Some ([], raw)
  end.
Definition get_scheme (raw : bytes) : option (bytes * bytes) := get_scheme_loop [] raw true raw.
(** validOptionalPort *)
Definition valid_optional_port (p : bytes) : bool :=
  match p with [] => true | c :: t => (c =? 58) && forallb is_digit t end.
(** validUserinfo *)
Definition valid_user_info (s : bytes) : bool :=
  forallb (fun c => ascii_alpha c || is_digit c || memN c (str "-._:~!$&'()*+,;=%@")) s.
(** shouldEscape with encodeHost, and bytes of other characters and of escapes *)
Definition host_byte (c : N) : bool :=
  ascii_alpha c || is_digit c || (128 <=? c) || memN c (34 :: str "-_.~!$&'()*+,;=:[]<>%").
(** parseHost: host and port *)
Definition parse_host (h : bytes) : option (bytes * bytes) :=
  let divided :=
    if has_prefix h (str "[") then
      match cut_last 93 h with
      | None => None
      | Some (x, y) => if valid_optional_port (tl y) then Some (x ++ str "]", tl (tl y)) else None
      end
    else match cut_last 58 h with
         | None => Some (h, [])
         | Some (x, y) => if valid_optional_port y then Some (x, tl y) else None
         end in
  if forallb host_byte h then divided else None.
(** parseAuthority and the part of parse that finds it; [None] also if there is no authority. *)
Definition url_parse (url : bytes) : option divided :=
  let raw := cut_before 35 url in
  if existsb (fun b => (b <? 32) || (b =? 127)) raw then None
  else
    match get_scheme raw with
    | None => None
    | Some (scheme, rest) =>
      let rest := cut_before 63 rest in
      if has_prefix rest (str "//") && (negb (bytes_eqb scheme []) || negb (has_prefix rest (str "///"))) then
        let authority := cut_before 47 (skipn 2 rest) in
        match cut_last 64 authority with
        | None =>
          match parse_host authority with
          | Some (h, port) => Some (mkDivided None h port (skipn (length authority) (skipn 2 rest)))
          | None => None
          end
        | Some (user, y) =>
          match parse_host (tl y) with
          | Some (h, port) =>
            if valid_user_info user then Some (mkDivided (Some user) h port (skipn (length authority) (skipn 2 rest))) else None
          | None => None
          end
        end
      else None
    end.

(** ** Comparison *)

(** [raw] is the host in the URL that Extract divides in labels, or an IPv6 literal in brackets. *)
Definition host_in_url (ext : idna) (p : url_params) (r : result) (raw : bytes) : Prop :=
  (r_host_type r = HIPv6 /\ raw = str "[" ++ r_domain r ++ str "]"
     /\ exists user after, front (p_url p) (r_scheme r) user (raw ++ after))
  \/ (r_host_type r <> HIPv6 /\ exists user h port path, url_parts ext p (r_scheme r) user raw h port path).
