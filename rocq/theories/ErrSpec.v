(** ErrSpec.v - which hosts are rejected, and with which error.  Nothing here is used by the
    model. *)

From Verif Require Import Base Utf8 Chars Host Addr Extract Rfc UrlSpec RuleSpec.
Local Open Scope N_scope.

(** ** Characters *)

(** The separators but U+FF61, and the characters of [forbidden] but U+0378, U+206B and U+2A74:
    the low byte of those is a letter or a digit, so that the library takes them for one. *)
Definition seen_sep (s : bytes) : Prop := s = [46] \/ s = [227; 128; 130] \/ s = [239; 188; 142].
Definition seen_char (c : rune) : Prop := In c forbidden /\ c <> 888 /\ c <> 8299 /\ c <> 10868.

(** A text with a forbidden character, beginning with a hyphen or a separator, ending with a
    hyphen, or with two separators in a row. *)
Definition bad_text (s : bytes) : Prop :=
  (exists c, seen_char c /\ has_char c s)
  \/ (exists q, s = str "-" ++ q) \/ (exists x q, seen_sep x /\ s = x ++ q)
  \/ (exists p, s = p ++ str "-")
  \/ (exists p x y q, seen_sep x /\ seen_sep y /\ s = p ++ x ++ y ++ q).

(** ** The labels the library looks at *)

Definition reach (labs : list bytes) (i : nat) : list bytes := map decoded (firstn i labs).
(** Label [i], counted from the right, is looked at if the labels on the right of it begin a
    longer rule and no wildcard stands for one of them. *)
Definition looked_at (rules labs : list bytes) (i : nat) : Prop :=
  (i < length labs)%nat
  /\ forall j, (j < i)%nat -> known rules (reach labs j ++ [str "*"]) = false
                              /\ exists k, known rules (reach labs (S j) ++ [k]) = true.
Definition last_looked (rules labs : list bytes) (m : nat) : Prop :=
  looked_at rules labs m /\ ~ looked_at rules labs (S m).
(** A label that is looked at, but not the leftmost one, is empty. *)
Definition empty_seen (rules labs : list bytes) : Prop :=
  exists i, looked_at rules labs i /\ (S i < length labs)%nat /\ nth i labs [] = [].

(** ** The text that is checked *)

(** The labels to the left of those matched by a rule other than by a wildcard; all if nothing is
    left for the domain; without suffix, those to the left of the last one looked at, and it. *)
Definition checked (rules : list bytes) (first : bytes) (zs segs : list seg) (text : bytes) : Prop :=
  let labs := labels first segs in
  exists m, last_looked rules labs m /\
  match walk rules [] labs with
  | (Some _, n) =>
    if (n <=? length segs)%nat then
      text = host first (skipn (if known rules (reach labs m ++ [str "*"]) then m
                                else if known rules (reach labs (S m)) then S m else m) segs)
    else text = host first (zs ++ segs)
  | (None, _) => text = host first (skipn m segs)
  end.
(** Nothing is left for the domain. *)
Definition no_domain (rules labs : list bytes) : Prop :=
  match walk rules [] labs with
  | (Some _, n) => nth n labs [] = []
  | (None, _) => nth 0 labs [] = []
  end.

(** ** Brackets *)

Definition no_bracket (s : bytes) : Prop := Forall (fun b => ~ bracket b) s.
(** Errors about brackets, for the text that starts with the host. *)
Inductive bracket_error : bytes -> err -> Prop :=
| be_not_first : forall h s, h <> [] -> plain_host h -> bracket_error (h ++ str "[" ++ s) ErrOpeningBracket
| be_second : forall a s, no_bracket a -> bracket_error (str "[" ++ a ++ str "[" ++ s) ErrOpeningBracket
| be_later : forall a m s, no_bracket a -> no_path_char m -> ~ In 91 m ->
    bracket_error (str "[" ++ a ++ str "]" ++ m ++ str "[" ++ s) ErrOpeningBracket
| be_no_opening : forall h s, plain_host h -> bracket_error (h ++ str "]" ++ s) ErrClosingBracket
| be_incomplete : forall a, no_bracket a -> bracket_error (str "[" ++ a) ErrIncompleteBrackets
| be_literal : forall a m path, no_bracket a -> no_path_char m -> ~ In 91 m -> is_path path ->
    In 93 m \/ ~ ipv6_literal a -> bracket_error (str "[" ++ a ++ str "]" ++ m ++ path) ErrInvalidIPv6
| be_trailing : forall a c m path, ipv6_literal a -> c <> 58 -> no_path_char (c :: m) -> no_bracket (c :: m) -> is_path path ->
    bracket_error (str "[" ++ a ++ str "]" ++ (c :: m) ++ path) ErrTrailingAfterIPv6.

(** ** The outcome of Extract *)

(** The first malformed escape, as it is reported. *)
Definition first_bad_escape (s x : bytes) : Prop :=
  exists p d q, s = p ++ str "%" ++ q /\ percent_decoded p d
    /\ (~ exists a b q', q = a :: b :: q' /\ is_hex a = true /\ is_hex b = true) /\ x = firstn 3 (str "%" ++ q).

Definition type_of (dom : bytes) : host_type := match dom with [] => HNone | _ => HHostName end.
Definition error_of (dom : bytes) : option err := match dom with [] => Some ErrEmptyDomain | _ => None end.

Section Outcome.
Variables (rules : list bytes) (ignore : bool) (scheme user port path : bytes).

(** The outcome for a host that is not in brackets. *)
Inductive host_says (first : bytes) (zs segs : list seg) : result -> option err -> Prop :=
| hs_ipv4 : forall m, ipv4_text (host first (zs ++ segs)) -> last_looked rules (labels first segs) m ->
    host_says first zs segs
      (mkResult scheme user [] (host first (skipn m segs)) [] (host first (skipn m segs)) port path HIPv4) None
| hs_consecutive : ~ ipv4_text (host first (zs ++ segs)) -> empty_seen rules (labels first segs) ->
    host_says first zs segs (mkResult scheme user [] [] [] [] port path HNone) (Some ErrConsecutiveSeparators)
| hs_invalid : forall text, ~ ipv4_text (host first (zs ++ segs)) -> ~ empty_seen rules (labels first segs) ->
    checked rules first zs segs text -> bad_text text ->
    host_says first zs segs (mkResult scheme user [] [] [] [] port path HNone) (Some ErrInvalidChars)
| hs_no_suffix : forall text n dom sub, ~ ipv4_text (host first (zs ++ segs)) -> ~ empty_seen rules (labels first segs) ->
    checked rules first zs segs text -> ~ bad_text text -> walk rules [] (labels first segs) = (None, n) ->
    dom = nth 0 (labels first segs) [] ->
    sub = (if ignore then [] else if (1 <=? length segs)%nat then host first (skipn 1 segs) else []) ->
    host_says first zs segs (mkResult scheme user sub dom [] [] port path (type_of dom)) (error_of dom)
| hs_suffix : forall text k n dom sub sfx, ~ ipv4_text (host first (zs ++ segs)) -> ~ empty_seen rules (labels first segs) ->
    checked rules first zs segs text -> ~ bad_text text -> walk rules [] (labels first segs) = (Some k, n) ->
    (n <= length segs)%nat -> dom = nth n (labels first segs) [] -> sfx = labels_text (firstn (n - k) (skipn k segs)) ->
    sub = (if ignore then [] else if (S n <=? length segs)%nat then host first (skipn (S n) segs) else []) ->
    host_says first zs segs
      (mkResult scheme user sub dom sfx (dom ++ snd (nth (n - 1) segs ([], [])) ++ sfx) port path (type_of dom)) (error_of dom)
| hs_only_suffix : forall text k n, ~ ipv4_text (host first (zs ++ segs)) -> ~ empty_seen rules (labels first segs) ->
    checked rules first zs segs text -> ~ bad_text text -> walk rules [] (labels first segs) = (Some k, n) ->
    (length segs < n)%nat ->
    host_says first zs segs
      (mkResult scheme user [] [] (host first (skipn k segs)) [] port path HNone) (Some ErrEmptyDomain).
End Outcome.

(** What Extract returns. *)
Inductive extracts (ext : idna) (rules : list bytes) (p : url_params) : result -> option err -> Prop :=
| ex_brackets : forall scheme user rest x, front (p_url p) scheme user rest -> bracket_error rest x ->
    extracts ext rules p (mkResult scheme (user_of user) [] [] [] [] [] [] HNone) (Some x)
| ex_ipv6 : forall scheme user a after port path, front (p_url p) scheme user (str "[" ++ a ++ str "]" ++ after) ->
    ipv6_literal a -> after_host after port path -> port_accepted port ->
    extracts ext rules p (mkResult scheme (user_of user) [] a [] a (port_of port) path HIPv6) None
| ex_ipv6_port : forall scheme user a after port path, front (p_url p) scheme user (str "[" ++ a ++ str "]" ++ after) ->
    ipv6_literal a -> after_host after port path -> ~ port_accepted port -> no_bracket (port_of port) ->
    extracts ext rules p (mkResult scheme (user_of user) [] a [] a [] [] HIPv6) (Some ErrInvalidPort)
| ex_port : forall scheme user raw after port path, front (p_url p) scheme user (raw ++ after) -> plain_host raw ->
    after_host after port path -> ~ port_accepted port ->
    extracts ext rules p (mkResult scheme (user_of user) [] [] [] [] [] [] HNone) (Some ErrInvalidPort)
| ex_escape : forall scheme user raw after port path x, front (p_url p) scheme user (raw ++ after) -> plain_host raw ->
    after_host after port path -> port_accepted port -> first_bad_escape raw x ->
    extracts ext rules p (mkResult scheme (user_of user) [] [] [] [] (port_of port) path HNone) (Some (ErrUnescape x))
| ex_idna : forall scheme user raw after port path d x, front (p_url p) scheme user (raw ++ after) -> plain_host raw ->
    after_host after port path -> port_accepted port -> percent_decoded raw d ->
    p_to_punycode p = false -> idna_to_unicode_err ext d = Some x ->
    extracts ext rules p (mkResult scheme (user_of user) [] [] [] [] (port_of port) path HNone) (Some (ErrIdna x))
| ex_host : forall scheme user raw h port path first zs segs r e, url_parts ext p scheme user raw h port path ->
    port_accepted port -> labelled h first zs segs ->
    host_says rules (p_ignore_sub_domains p) scheme (user_of user) (port_of port) path first zs segs r e ->
    extracts ext rules p r e.
