(** Extract.v - model of FastTLD.Extract (fasttld.go:141-400). *)

From Verif Require Import Base Utf8 Str Net Trie.
Local Open Scope Z_scope.

(** fasttld.go:23 *)
Definition largest_port_number : Z := 65535.

(** fasttld.go:38-48 *)
Inductive host_type := HNone | HHostName | HIPv4 | HIPv6.

(** fasttld.go:51-54 ExtractResult *)
Record result := mkResult {
  r_scheme : bytes; r_user_info : bytes; r_sub_domain : bytes; r_domain : bytes;
  r_suffix : bytes; r_registered_domain : bytes; r_port : bytes; r_path : bytes;
  r_host_type : host_type }.
Definition empty_result : result := mkResult [] [] [] [] [] [] [] [] HNone.

Definition with_scheme (r : result) v := mkResult v (r_user_info r) (r_sub_domain r) (r_domain r) (r_suffix r) (r_registered_domain r) (r_port r) (r_path r) (r_host_type r).
Definition with_user_info (r : result) v := mkResult (r_scheme r) v (r_sub_domain r) (r_domain r) (r_suffix r) (r_registered_domain r) (r_port r) (r_path r) (r_host_type r).
Definition with_sub_domain (r : result) v := mkResult (r_scheme r) (r_user_info r) v (r_domain r) (r_suffix r) (r_registered_domain r) (r_port r) (r_path r) (r_host_type r).
Definition with_domain (r : result) v := mkResult (r_scheme r) (r_user_info r) (r_sub_domain r) v (r_suffix r) (r_registered_domain r) (r_port r) (r_path r) (r_host_type r).
Definition with_suffix (r : result) v := mkResult (r_scheme r) (r_user_info r) (r_sub_domain r) (r_domain r) v (r_registered_domain r) (r_port r) (r_path r) (r_host_type r).
Definition with_registered_domain (r : result) v := mkResult (r_scheme r) (r_user_info r) (r_sub_domain r) (r_domain r) (r_suffix r) v (r_port r) (r_path r) (r_host_type r).
Definition with_port (r : result) v := mkResult (r_scheme r) (r_user_info r) (r_sub_domain r) (r_domain r) (r_suffix r) (r_registered_domain r) v (r_path r) (r_host_type r).
Definition with_path (r : result) v := mkResult (r_scheme r) (r_user_info r) (r_sub_domain r) (r_domain r) (r_suffix r) (r_registered_domain r) (r_port r) v (r_host_type r).
Definition with_host_type (r : result) v := mkResult (r_scheme r) (r_user_info r) (r_sub_domain r) (r_domain r) (r_suffix r) (r_registered_domain r) (r_port r) (r_path r) v.

(** fasttld.go:68-72 URLParams *)
Record url_params := mkParams { p_url : bytes; p_ignore_sub_domains : bool; p_to_punycode : bool }.

(** The errors Extract returns, one constructor per message. *)
Inductive err :=
| ErrOpeningBracket          (* fasttld.go:168 *)
| ErrClosingBracket          (* fasttld.go:180 *)
| ErrIncompleteBrackets      (* fasttld.go:197 *)
| ErrInvalidIPv6             (* fasttld.go:211 *)
| ErrTrailingAfterIPv6       (* fasttld.go:217 *)
| ErrInvalidPort             (* fasttld.go:246 *)
| ErrUnescape (e : bytes)    (* fasttld.go:264, url.EscapeError *)
| ErrIdna (e : bytes)        (* fasttld.go:274, message of the IDNA library *)
| ErrConsecutiveSeparators   (* fasttld.go:301 *)
| ErrInvalidChars            (* fasttld.go:358, 362 *)
| ErrEmptyDomain.            (* fasttld.go:396 *)

(** The IDNA library.  [idna_to_unicode s] is the error message of idna.ToUnicode(s), if
    any (its other result is discarded by the code); [idna_to_puny s] is the result of
    idnaToPuny.ToASCII(s), [None] if it fails. *)
Record idna := mkIdna {
  idna_to_unicode_err : bytes -> option bytes;
  idna_to_puny : bytes -> option bytes }.

(** fasttld.go:163-199: the loop over the bytes of netloc; [n] is len(netloc).  Returns an
    error or (openingSquareBracketIdx, closingSquareBracketIdx, hostEndIdx). *)
Fixpoint scan_host (s : bytes) (i n opening closing : Z) : err + (Z * Z * Z) :=
  match s with
  | [] => inr (opening, closing, -1)
  | r :: t =>
    if (r =? 91)%N && (i >? 0) then inl ErrOpeningBracket
    else
      let opening := if (r =? 91)%N then i else opening in
      let closing := if (r =? 93)%N then i else closing in
      let continue_ :=
        if (i =? n - 1) && (closing <? opening) then inl ErrIncompleteBrackets
        else scan_host t (i + 1) n opening closing in
      if opening =? -1 then
        if negb (closing =? -1) then inl ErrClosingBracket
        else if contains end_of_host_delimiters_set r then inr (opening, closing, i)
        else continue_
      else if (closing >? opening) && contains end_of_host_with_port_delimiters_set r
      then inr (opening, closing, i)
      else continue_
  end.

(** fasttld.go:233-255: port and path from the text after the host. *)
Definition port_path (u : result) (after_host : bytes) : outcome (result * option err) :=
  if negb (len after_host =? 0) then
    let path_start := index_any_ascii after_host end_of_host_with_port_delimiters_set in
    c <- index after_host 0 ;;
    '(u, e) <-
      (if (c =? 58)%N then
         maybe_port <- (if path_start =? -1 then slice after_host 1 (len after_host)
                        else slice after_host 1 path_start) ;;
         match atoi maybe_port with
         | Some port =>
           if (0 <=? port) && (port <=? largest_port_number)
           then Ret (with_port u maybe_port, None)
           else Ret (u, Some ErrInvalidPort)
         | None => Ret (u, Some ErrInvalidPort)
         end
       else Ret (u, None)) ;;
    match e with
    | Some e => Ret (u, Some e)
    | None =>
      if negb (path_start =? -1) && negb (path_start =? len after_host)
      then p <- slice after_host path_start (len after_host) ;; Ret (with_path u p, None)
      else Ret (u, None)
    end
  else Ret (u, None).

(** State of the suffix loop after it has been left. *)
Record walk := mkWalk {
  w_has_suffix : bool; w_sep_idx : Z; w_suffix_start : Z; w_suffix_end : Z; w_previous_sep : Z }.

(** fasttld.go:288-338: the suffix loop. Each iteration with [end] = false lowers sepIdx, so
    len(netloc)+1 iterations are enough. *)
Fixpoint suffix_loop (fuel : nat) (netloc : bytes) (node : trie) (has_suffix has_labels : bool)
         (sep_idx suffix_start suffix_end : Z) : outcome (err + walk) :=
  match fuel with
  | O => OutOfFuel
  | S f =>
    let previous_sep := sep_idx in
    head <- slice netloc 0 sep_idx ;;
    let sep_idx := last_index_any head label_separators_rune_set in
    (* label of this iteration, and whether this is the last one (variable [end]) *)
    '(label, end_) <-
      (if negb (sep_idx =? -1)
       then x <- index netloc sep_idx ;;
            l <- slice netloc (sep_idx + sep_size x) previous_sep ;; Ret (l, false)
       else l <- slice netloc 0 previous_sep ;; Ret (l, true)) ;;
    if negb (sep_idx =? -1) && (len label =? 0) then
      if negb has_labels
      then suffix_loop f netloc node has_suffix has_labels sep_idx suffix_start sep_idx
      else Ret (inl ErrConsecutiveSeparators)
    else
      let has_labels := has_labels || negb (sep_idx =? -1) in
      match child node (str "*") with
      | Some _ =>
        let sep_idx := match child node (str "!" ++ label) with
                       | Some _ => previous_sep
                       | None => sep_idx
                       end in
        Ret (inr (mkWalk has_suffix sep_idx suffix_start suffix_end previous_sep))
      | None =>
        let label := match query_unescape label with inr l => l | inl _ => [] end in
        match child node label with
        | Some val =>
          let suffix_start := sep_idx in
          let '(suffix_end, has_suffix) :=
            if negb has_suffix && end_of val then (previous_sep, true)
            else (suffix_end, has_suffix) in
          if (len (matches_of val) =? 0) || end_
          then Ret (inr (mkWalk has_suffix sep_idx suffix_start suffix_end previous_sep))
          else suffix_loop f netloc val has_suffix has_labels sep_idx suffix_start suffix_end
        | None =>
          let sep_idx := if negb (previous_sep =? len netloc) then previous_sep else sep_idx in
          Ret (inr (mkWalk has_suffix sep_idx suffix_start suffix_end previous_sep))
        end
      end
  end.

(** fasttld.go:340-348: the IPv4 test. *)
Definition ipv4_host (netloc : bytes) : outcome bool :=
  if len netloc >=? 7 then
    c <- index netloc 0 ;;
    if contains numeric_set c then is_ipv4 netloc else Ret false
  else Ret false.

(** fasttld.go:350-399: components of a host name. *)
Definition host_components (u : result) (netloc : bytes) (ignore : bool) (w : walk)
  : outcome (result * option err) :=
  let '(sep_idx, suffix_start) :=
    if w_sep_idx w =? -1 then (len netloc, len netloc) else (w_sep_idx w, w_suffix_start w) in
  checked <- slice netloc 0 (if w_has_suffix w then suffix_start else w_previous_sep w) ;;
  if has_invalid_chars checked then Ret (u, Some ErrInvalidChars)
  else
    '(u, domain_start_sep) <-
      (if w_has_suffix w then
         if sep_idx <? len netloc then
           x <- index netloc sep_idx ;;
           sfx <- slice netloc (sep_idx + sep_size x) (w_suffix_end w) ;;
           head <- slice netloc 0 sep_idx ;;
           let d := last_index_any head label_separators_rune_set in
           if negb (d =? -1) then
             y <- index netloc d ;;
             dom <- slice netloc (d + sep_size y) sep_idx ;;
             reg <- slice netloc (d + sep_size y) (w_suffix_end w) ;;
             Ret (with_registered_domain (with_domain (with_suffix u sfx) dom) reg, d)
           else
             dom <- slice netloc 0 sep_idx ;;
             reg <- slice netloc 0 (w_suffix_end w) ;;
             Ret (with_registered_domain (with_domain (with_suffix u sfx) dom) reg, d)
         else
           sfx <- slice netloc 0 (w_suffix_end w) ;;
           Ret (with_suffix u sfx, 0)
       else
         head <- slice netloc 0 (w_suffix_end w) ;;
         let d := last_index_any head label_separators_rune_set in
         start <- (if negb (d =? -1) then y <- index netloc d ;; Ret (d + sep_size y)
                   else Ret 0) ;;
         dom <- slice netloc start (w_suffix_end w) ;;
         Ret (with_domain u dom, d)) ;;
    u <- (if negb ignore && negb (domain_start_sep =? -1)
          then sub <- slice netloc 0 domain_start_sep ;; Ret (with_sub_domain u sub)
          else Ret u) ;;
    if len (r_domain u) =? 0 then Ret (u, Some ErrEmptyDomain)
    else Ret (with_host_type u HHostName, None).

(** fasttld.go:277-399: everything that happens with the final host string. *)
Definition extract_host (tld_trie : trie) (u : result) (netloc : bytes) (ignore : bool)
  : outcome (result * option err) :=
  m <- suffix_loop (S (length netloc)) netloc tld_trie false false
                   (len netloc) (len netloc) (len netloc) ;;
  match m with
  | inl e => Ret (u, Some e)
  | inr w =>
    v4 <- ipv4_host netloc ;;
    if v4 then
      dom <- slice netloc 0 (w_previous_sep w) ;;
      Ret (with_host_type (with_registered_domain (with_domain u dom) dom) HIPv4, None)
    else host_components u netloc ignore w
  end.

(** fasttld.go:261-275: percent-decoding and IDNA; yields the final host string. *)
Definition convert_host (ext : idna) (puny : bool) (netloc : bytes) : err + bytes :=
  match query_unescape netloc with
  | inl e => inl (ErrUnescape e)
  | inr unescaped =>
    if puny then inr (format_as_punycode (idna_to_puny ext) unescaped)
    else match idna_to_unicode_err ext unescaped with
         | Some e => inl (ErrIdna e)
         | None => inr netloc
         end
  end.

(** fasttld.go:142-400 Extract *)
Definition extract (ext : idna) (tld_trie : trie) (p : url_params) : outcome (result * option err) :=
  let u := empty_result in
  (* 145-150 *)
  netloc <- fast_trim (p_url p) whitespace_rune_set TrimBoth ;;
  let scheme_end := get_scheme_end_index netloc in
  '(u, netloc) <-
    (if negb (scheme_end =? -1)
     then a <- slice netloc 0 scheme_end ;; b <- slice netloc scheme_end (len netloc) ;;
          Ret (with_scheme u a, b)
     else Ret (u, netloc)) ;;
  (* 152-156 *)
  at_idx <- index_last_byte_before netloc 64 invalid_user_info_chars_set ;;
  '(u, netloc) <-
    (if negb (at_idx =? -1)
     then a <- slice netloc 0 at_idx ;; b <- slice netloc (at_idx + 1) (len netloc) ;;
          Ret (with_user_info u a, b)
     else Ret (u, netloc)) ;;
  (* 158-199 *)
  match scan_host netloc 0 (len netloc) (-1) (-1) with
  | inl e => Ret (u, Some e)
  | inr (opening, closing, host_end) =>
    (* 201-205 *)
    let host_end := if closing =? len netloc - 1 then -1
                    else if negb (closing =? -1) then closing + 1 else host_end in
    (* 207-224 *)
    '(u, e) <-
      (if closing >? opening then
         inner <- slice netloc 1 closing ;;
         v6 <- is_ipv6 inner ;;
         if negb v6 then Ret (u, Some ErrInvalidIPv6)
         else
           trailing_ok <- (if negb (host_end =? -1)
                           then a <- slice netloc host_end (len netloc) ;;
                                Ret (index_any_ascii a end_of_host_delimiters_set =? 0)
                           else Ret true) ;;
           if negb trailing_ok then Ret (u, Some ErrTrailingAfterIPv6)
           else Ret (with_registered_domain (with_domain (with_host_type u HIPv6) inner) inner,
                     None)
       else Ret (u, None)) ;;
    match e with
    | Some e => Ret (u, Some e)
    | None =>
      (* 226-231 *)
      '(after_host, netloc) <-
        (if negb (host_end =? -1)
         then a <- slice netloc host_end (len netloc) ;; b <- slice netloc 0 host_end ;; Ret (a, b)
         else Ret ([], netloc)) ;;
      (* 233-255 *)
      '(u, e) <- port_path u after_host ;;
      match e with
      | Some e => Ret (u, Some e)
      | None =>
        match r_host_type u with
        | HIPv6 => Ret (u, None)
        | _ =>
          match convert_host ext (p_to_punycode p) netloc with
          | inl e => Ret (u, Some e)
          | inr host => extract_host tld_trie u host (p_ignore_sub_domains p)
          end
        end
      end
    end
  end.
