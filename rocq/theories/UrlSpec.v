(** UrlSpec.v - specification vocabulary for URLs: which part of the input is the scheme,
    the user information, the host, the port and the path.  Nothing here is used by the
    model; from the model only the types of parameters and results are used. *)

From Verif Require Import Base Utf8 Chars Host Addr Extract.
Local Open Scope N_scope.

(** Control characters and space, U+0085, U+0086, no-break space, U+1680, zero width space,
    non-joiner and joiner, and the byte order mark. *)
Definition ws_chars : list rune :=
  [0;1;2;3;4;5;6;7;8;9;10;11;12;13;14;15;16;17;18;19;20;21;22;23;24;25;26;27;28;29;30;31;
   32;133;134;160;5760;8203;8204;8205;65279].

Definition letter (b : N) : Prop := 65 <= b <= 90 \/ 97 <= b <= 122.
Definition digit (b : N) : Prop := 48 <= b <= 57.
Definition scheme_name_char (b : N) : Prop := letter b \/ digit b \/ In b (str "+-.").
Definition slash (b : N) : Prop := In b (str "/\").
Definition path_char (b : N) : Prop := In b (str "/\?#").
Definition bracket (b : N) : Prop := In b (str "[]").

(** ([A-Za-z][A-Za-z0-9+.-]*:?)?[/\]{2,} *)
Definition is_scheme (s : bytes) : Prop :=
  exists body sl, s = body ++ sl /\ Forall slash sl /\ (2 <= length sl)%nat
  /\ (body = [] \/ exists c name colon, body = c :: name ++ colon
        /\ letter c /\ Forall scheme_name_char name /\ (colon = [] \/ colon = str ":")).

(** [scheme] is the longest prefix of [u] that matches, empty if none does. *)
Definition scheme_split (u scheme rest : bytes) : Prop :=
  u = scheme ++ rest /\ (scheme = [] \/ is_scheme scheme)
  /\ forall a b, u = a ++ b -> is_scheme a -> exists c, scheme = a ++ c.

(** [q] is empty or its first byte satisfies [P]. *)
Definition starts_with (P : N -> Prop) (q : bytes) : Prop :=
  match q with [] => True | b :: _ => P b end.

(** [user] is the text before the last '@' that precedes the first of / \ ? # [ ]. *)
Definition user_split (s : bytes) (user : option bytes) (rest : bytes) : Prop :=
  exists pre q, s = pre ++ q
  /\ Forall (fun b => ~ path_char b /\ ~ bracket b) pre /\ starts_with (fun b => path_char b \/ bracket b) q
  /\ match user with
     | None => ~ In 64 pre /\ rest = s
     | Some u => exists v, pre = u ++ str "@" ++ v /\ ~ In 64 v /\ rest = v ++ q
     end.

(** [url] is, up to surrounding whitespace, scheme, user information and [rest], the latter
    starting with the host. *)
Definition front (url scheme : bytes) (user : option bytes) (rest : bytes) : Prop :=
  exists u s, trimmed ws_chars url u /\ scheme_split u scheme s /\ user_split s user rest.

Definition user_of (user : option bytes) : bytes := match user with Some u => u | None => [] end.
Definition user_at (user : option bytes) : bytes := match user with Some u => u ++ str "@" | None => [] end.

(** Characters that end a host that is not in brackets, or are not allowed in it. *)
Definition plain_host (h : bytes) : Prop :=
  Forall (fun b => ~ path_char b /\ ~ bracket b /\ b <> 58) h.

(** What strconv.Atoi accepts with a value in 0..65535: decimal digits with optional sign. *)
Definition port_number (p : bytes) : Prop :=
  exists sign d, p = sign ++ d /\ d <> [] /\ all_digits d
  /\ (((sign = [] \/ sign = str "+") /\ (decimal d <= 65535)%Z) \/ (sign = str "-" /\ decimal d = 0%Z)).

(** The text after the host: nothing, a path, or ':', port and path. *)
Definition is_path (path : bytes) : Prop := starts_with path_char path.
Definition no_path_char (s : bytes) : Prop := Forall (fun b => ~ path_char b) s.
(** [after_host after port path]: [port] is None if there is no colon. *)
Definition after_host (after : bytes) (port : option bytes) (path : bytes) : Prop :=
  is_path path /\
  match port with
  | None => after = path
  | Some p => after = str ":" ++ p ++ path /\ no_path_char p
  end.
Definition port_of (port : option bytes) : bytes := match port with Some p => p | None => [] end.
Definition port_accepted (port : option bytes) : Prop :=
  match port with Some p => port_number p | None => True end.

(** An authority (host and port) before the path: no path character, and no unclosed bracket. *)
Definition complete (a : bytes) : Prop :=
  no_path_char a /\ (forall t, a = str "[" ++ t -> In 93 t).

(** Percent decoding as in net/url.QueryUnescape: %XY is the byte XY, '+' is a space. *)
Inductive percent_decoded : bytes -> bytes -> Prop :=
| pd_nil : percent_decoded [] []
| pd_escape : forall a b s t, is_hex a = true -> is_hex b = true -> percent_decoded s t ->
    percent_decoded (37 :: a :: b :: s) ((16 * unhex a + unhex b) :: t)
| pd_plus : forall s t, percent_decoded s t -> percent_decoded (43 :: s) (32 :: t)
| pd_other : forall b s t, b <> 37 -> b <> 43 -> percent_decoded s t ->
    percent_decoded (b :: s) (b :: t).

(** A '%' that is not followed by two hexadecimal digits. *)
Definition bad_escape (s : bytes) : Prop :=
  exists p q, s = p ++ str "%" ++ q
    /\ ~ exists a b q', q = a :: b :: q' /\ is_hex a = true /\ is_hex b = true.

(** The host string whose labels are looked at: the host as written if it can be decoded and
    the IDNA library accepts it, or with the Punycode option what the library makes of it. *)
Definition converted (ext : idna) (puny : bool) (raw h : bytes) : Prop :=
  exists d, percent_decoded raw d /\
  if puny then idna_to_puny ext d = Some h \/ (idna_to_puny ext d = None /\ h = [])
  else idna_to_unicode_err ext d = None /\ h = raw.

(** The parts of a URL with an unbracketed host; [raw] is the host as written, [h] after
    conversion. *)
Definition url_parts (ext : idna) (p : url_params) (scheme : bytes) (user : option bytes)
           (raw h : bytes) (port : option bytes) (path : bytes) : Prop :=
  exists after, front (p_url p) scheme user (raw ++ after) /\ plain_host raw
    /\ after_host after port path /\ converted ext (p_to_punycode p) raw h.
