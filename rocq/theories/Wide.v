(** Wide.v - Extract with the integers of a machine.

    In the other files an int of Go is an integer of any size.  Here it has w bits, and the result
    of every addition, subtraction and multiplication of the code is reduced to w bits with a
    sign.  Positions that the range loops and library functions of Go hand out are no results of
    the code and stay as they are; the loops that go backwards through a string count in [nat], as
    in Str.v.  strconv.Atoi, a library function, is written down as it is, with its fast path and
    the 64-bit numbers without sign of ParseUint. *)

From Verif Require Import Base Utf8 Str Net Trie Extract.
Local Open Scope Z_scope.

(** The value of the lowest w bits, read with a sign. *)
Definition wrap (w z : Z) : Z := (z + 2 ^ (w - 1)) mod 2 ^ w - 2 ^ (w - 1).
(** An uint64. *)
Definition unsigned (z : Z) : Z := z mod 2 ^ 64.

(** strings.go:95-145 getSchemeEndIndex *)
Fixpoint scheme_loop_w (w : Z) (s : bytes) (i : Z) (n : Z) (colon : bool) (slash_count : Z) : Z :=
  match s with
  | [] => if (slash_count >=? 2)%Z then n else (-1)%Z
  | c :: t =>
    if (i =? 0)%Z then
      if contains scheme_first_char_set c then scheme_loop_w w t (wrap w (i + 1)) n colon slash_count
      else if contains slashes c then scheme_loop_w w t (wrap w (i + 1)) n colon (wrap w (slash_count + 1))
      else (-1)%Z
    else if (slash_count =? 0)%Z then
      if negb colon && contains scheme_remaining_char_set c
      then scheme_loop_w w t (wrap w (i + 1)) n colon slash_count
      else if negb colon && (c =? 58)%N then scheme_loop_w w t (wrap w (i + 1)) n true slash_count
      else if contains slashes c then scheme_loop_w w t (wrap w (i + 1)) n colon (wrap w (slash_count + 1))
      else (-1)%Z
    else if contains slashes c then scheme_loop_w w t (wrap w (i + 1)) n colon (wrap w (slash_count + 1))
    else if (slash_count <? 2)%Z then (-1)%Z
    else i
  end.
Definition get_scheme_end_index_w (w : Z) (s : bytes) : Z := scheme_loop_w w s 0 (len s) false 0.

(** strings.go:166-197 hasInvalidChars *)
Definition has_invalid_chars_w (w : Z) (s : bytes) : bool := invalid_loop (range_str s) (wrap w (len s - 1)) false.

(** strings.go:204-213 lastIndexAny *)
Fixpoint last_index_from_w (w : Z) (s : bytes) (i : nat) (skip : nat) (chars : rune_set) : Z :=
  match i with
  | O => -1
  | S k =>
    match skip with
    | S sk => last_index_from_w w s k sk chars
    | O =>
      let '(r, size) := decode_last (firstn i s) in
      if exists_in chars r then wrap w (Z.of_nat i - Z.of_nat size)
      else last_index_from_w w s k (size - 1) chars
    end
  end.
Definition last_index_any_w (w : Z) (s : bytes) (chars : rune_set) : Z :=
  last_index_from_w w s (length s) 0 chars.

(** net.go:17-29 dtoi *)
Fixpoint dtoi_loop_w (w : Z) (s : bytes) (n i : Z) : Z * Z * bool :=
  let fin := if i =? 0 then (0, 0, false) else (n, i, true) in
  match s with
  | b :: t =>
    if is_digit b then
      let n' := wrap w (wrap w (n * 10) + (Z.of_N b - 48)) in
      if n' >=? big then (big, i, false) else dtoi_loop_w w t n' (wrap w (i + 1))
    else fin
  | [] => fin
  end.
Definition dtoi_w (w : Z) (s : bytes) : Z * Z * bool := dtoi_loop_w w s 0 0.

(** net.go:33-56 xtoi *)
Fixpoint xtoi_loop_w (w : Z) (s : bytes) (n i : Z) : Z * Z * bool :=
  let fin := if i =? 0 then (0, i, false) else (n, i, true) in
  match s with
  | b :: t =>
    match hex_value b with
    | Some d =>
      let n' := wrap w (wrap w (n * 16) + d) in
      if n' >=? big then (0, i, false) else xtoi_loop_w w t n' (wrap w (i + 1))
    | None => fin
    end
  | [] => fin
  end.
Definition xtoi_w (w : Z) (s : bytes) : Z * Z * bool := xtoi_loop_w w s 0 0.

(** net.go:61-86 isIPv4 *)
Fixpoint ipv4_loop_w (w : Z) (count : nat) (first : bool) (s : bytes) : outcome bool :=
  match count with
  | O => Ret (len s =? 0)
  | S k =>
    if len s =? 0 then Ret false
    else
      let after_sep :=
        if first then Ret (Some s)
        else let '(r, size) := decode_rune s in
             if exists_in label_separators_rune_set r
             then t <- slice s (Z.of_nat size) (len s) ;; Ret (Some t)
             else Ret None in
      m <- after_sep ;;
      match m with
      | None => Ret false
      | Some s =>
        let '(n, c, ok) := dtoi_w w s in
        if negb ok || (n >? 255) then Ret false
        else
          (* c > 1 && s[0] == '0' *)
          lead <- (if c >? 1 then x <- index s 0 ;; Ret (x =? 48)%N else Ret false) ;;
          if lead then Ret false
          else t <- slice s c (len s) ;; ipv4_loop_w w k false t
      end
  end.
Definition is_ipv4_w (w : Z) (s : bytes) : outcome bool :=
  t <- fast_trim s label_separators_rune_set TrimRight ;;
  ipv4_loop_w w (Z.to_nat ipv4_len) true t.

(** net.go:105-156 *)
Fixpoint ipv6_loop_w (w : Z) (fuel : nat) (s : bytes) (i ellipsis : Z) : outcome (option (bytes * Z * Z)) :=
  if i <? ipv6_len then
    match fuel with
    | O => OutOfFuel
    | S f =>
      let '(n, c, ok) := xtoi_w w s in
      if negb ok || (n >? 65535) then Ret None
      else
        sep_follows <- (if c <? len s
                        then t <- slice s c (len s) ;;
                             Ret (exists_in label_separators_rune_set (fst (decode_rune t)))
                        else Ret false) ;;
        if sep_follows then
          if (ellipsis <? 0) && negb (i =? len_diff) then Ret None
          else if i >? len_diff then Ret None
          else v4 <- is_ipv4_w w s ;;
               if negb v4 then Ret None
               else Ret (Some ([], wrap w (i + ipv4_len), ellipsis))
        else
          let i := wrap w (i + 2) in
          s <- slice s c (len s) ;;
          if len s =? 0 then Ret (Some (s, i, ellipsis))
          else
            x <- index s 0 ;;
            if negb (x =? 58)%N || (len s =? 1) then Ret None
            else
              s <- slice s 1 (len s) ;;
              x <- index s 0 ;;
              if (x =? 58)%N then
                if ellipsis >=? 0 then Ret None
                else
                  let ellipsis := i in
                  s <- slice s 1 (len s) ;;
                  if len s =? 0 then Ret (Some (s, i, ellipsis))
                  else ipv6_loop_w w f s i ellipsis
              else ipv6_loop_w w f s i ellipsis
    end
  else Ret (Some (s, i, ellipsis)).

(** net.go:90-173 isIPv6 *)
Definition is_ipv6_w (w : Z) (s : bytes) : outcome bool :=
  (* leading ellipsis: len(s) >= 2 && s[0] == ':' && s[1] == ':' *)
  '(s, ellipsis, only) <-
    (if len s >=? 2 then
       x <- index s 0 ;; y <- index s 1 ;;
       if ((x =? 58) && (y =? 58))%N then
         t <- slice s 2 (len s) ;; Ret (t, 0, len t =? 0)
       else Ret (s, -1, false)
     else Ret (s, -1, false)) ;;
  if (only : bool) then Ret true
  else
    m <- ipv6_loop_w w 8 s 0 ellipsis ;;
    match m with
    | None => Ret false
    | Some (s, i, ellipsis) =>
      if negb (len s =? 0) then Ret false
      else if i <? ipv6_len then Ret (negb (ellipsis <? 0))
      else Ret (negb (ellipsis >=? 0))
    end.

(** strconv.Atoi, the fast path: len(s) < 10 (32 bits) or len(s) < 19 (64 bits). *)
Fixpoint atoi_fast (w : Z) (s : bytes) (n : Z) : option Z :=
  match s with
  | [] => Some n
  | b :: s' => if is_digit b then atoi_fast w s' (wrap w (wrap w (n * 10) + (Z.of_N b - 48))) else None
  end.
(** strconv.ParseUint(s, 10, w): the loop.  Letters are digits above 9 there, which are refused
    for base 10; an underscore is refused too.  [None] is a syntax or range error. *)
Definition cutoff : Z := (2 ^ 64 - 1) / 10 + 1.
Fixpoint parse_uint (w : Z) (s : bytes) (n : Z) : option Z :=
  match s with
  | [] => Some n
  | b :: s' =>
    if is_digit b then
      if n >=? cutoff then None
      else
        let n := unsigned (n * 10) in
        let n1 := unsigned (n + (Z.of_N b - 48)) in
        if (n1 <? n) || (n1 >? 2 ^ w - 1) then None else parse_uint w s' n1
    else None
  end.
Definition sign (s : bytes) : bool * bytes :=
  match s with
  | 45%N :: t => (true, t)
  | 43%N :: t => (false, t)
  | _ => (false, s)
  end.
(** strconv.ParseInt(s, 10, 0) *)
Definition parse_int (w : Z) (s : bytes) : option Z :=
  match s with
  | [] => None
  | _ =>
    let '(neg, body) := sign s in
    match body with
    | [] => None
    | _ =>
      match parse_uint w body 0 with
      | None => None
      | Some un =>
        if negb neg && (un >=? 2 ^ (w - 1)) then None
        else if neg && (un >? 2 ^ (w - 1)) then None
        else let n := wrap 64 un in Some (if neg then wrap 64 (- n) else n)
      end
    end
  end.
Definition atoi_w (w : Z) (s : bytes) : option Z :=
  if ((w =? 32) && (0 <? len s) && (len s <? 10)) || ((w =? 64) && (0 <? len s) && (len s <? 19)) then
    let '(neg, body) := sign s in
    match body with
    | [] => None
    | _ => match atoi_fast w body 0 with None => None | Some n => Some (if neg then wrap w (- n) else n) end
    end
  else match parse_int w s with None => None | Some n => Some (wrap w n) end.

(** fasttld.go:163-199; the position is that of a range loop. *)
Fixpoint scan_host_w (w : Z) (s : bytes) (i n opening closing : Z) : err + (Z * Z * Z) :=
  match s with
  | [] => inr (opening, closing, -1)
  | r :: t =>
    if (r =? 91)%N && (i >? 0) then inl ErrOpeningBracket
    else
      let opening := if (r =? 91)%N then i else opening in
      let closing := if (r =? 93)%N then i else closing in
      let continue_ :=
        if (i =? wrap w (n - 1)) && (closing <? opening) then inl ErrIncompleteBrackets
        else scan_host_w w t (i + 1) n opening closing in
      if opening =? -1 then
        if negb (closing =? -1) then inl ErrClosingBracket
        else if contains end_of_host_delimiters_set r then inr (opening, closing, i)
        else continue_
      else if (closing >? opening) && contains end_of_host_with_port_delimiters_set r
      then inr (opening, closing, i)
      else continue_
  end.

(** fasttld.go:233-255 *)
Definition port_path_w (w : Z) (u : result) (after_host : bytes) : outcome (result * option err) :=
  if negb (len after_host =? 0) then
    let path_start := index_any_ascii after_host end_of_host_with_port_delimiters_set in
    c <- index after_host 0 ;;
    '(u, e) <-
      (if (c =? 58)%N then
         maybe_port <- (if path_start =? -1 then slice after_host 1 (len after_host)
                        else slice after_host 1 path_start) ;;
         match atoi_w w maybe_port with
         | Some port =>
           if (0 <=? port) && (port <=? largest_port_number)
           then Ret (with_port u maybe_port, None)
           else Ret (u, Some ErrInvalidPort)
         | None => Ret (u, Some ErrInvalidPort)
         end
       else Ret (u, None)) ;;
    match e with
    | Some e => Ret (u, Some e)
    | None =>
      if negb (path_start =? -1) && negb (path_start =? len after_host)
      then p <- slice after_host path_start (len after_host) ;; Ret (with_path u p, None)
      else Ret (u, None)
    end
  else Ret (u, None).

(** fasttld.go:288-338 *)
Fixpoint suffix_loop_w (w : Z) (fuel : nat) (netloc : bytes) (node : trie) (has_suffix has_labels : bool)
         (sep_idx suffix_start suffix_end : Z) : outcome (err + walk) :=
  match fuel with
  | O => OutOfFuel
  | S f =>
    let previous_sep := sep_idx in
    head <- slice netloc 0 sep_idx ;;
    let sep_idx := last_index_any_w w head label_separators_rune_set in
    (* label of this iteration, and whether this is the last one (variable [end]) *)
    '(label, end_) <-
      (if negb (sep_idx =? -1)
       then x <- index netloc sep_idx ;;
            l <- slice netloc (wrap w (sep_idx + sep_size x)) previous_sep ;; Ret (l, false)
       else l <- slice netloc 0 previous_sep ;; Ret (l, true)) ;;
    if negb (sep_idx =? -1) && (len label =? 0) then
      if negb has_labels
      then suffix_loop_w w f netloc node has_suffix has_labels sep_idx suffix_start sep_idx
      else Ret (inl ErrConsecutiveSeparators)
    else
      let has_labels := has_labels || negb (sep_idx =? -1) in
      match child node (str "*") with
      | Some _ =>
        let sep_idx := match child node (str "!" ++ label) with
                       | Some _ => previous_sep
                       | None => sep_idx
                       end in
        Ret (inr (mkWalk has_suffix sep_idx suffix_start suffix_end previous_sep))
      | None =>
        let label := match query_unescape label with inr l => l | inl _ => [] end in
        match child node label with
        | Some val =>
          let suffix_start := sep_idx in
          let '(suffix_end, has_suffix) :=
            if negb has_suffix && end_of val then (previous_sep, true)
            else (suffix_end, has_suffix) in
          if (len (matches_of val) =? 0) || end_
          then Ret (inr (mkWalk has_suffix sep_idx suffix_start suffix_end previous_sep))
          else suffix_loop_w w f netloc val has_suffix has_labels sep_idx suffix_start suffix_end
        | None =>
          let sep_idx := if negb (previous_sep =? len netloc) then previous_sep else sep_idx in
          Ret (inr (mkWalk has_suffix sep_idx suffix_start suffix_end previous_sep))
        end
      end
  end.

(** fasttld.go:340-348 *)
Definition ipv4_host_w (w : Z) (netloc : bytes) : outcome bool :=
  if len netloc >=? 7 then
    c <- index netloc 0 ;;
    if contains numeric_set c then is_ipv4_w w netloc else Ret false
  else Ret false.

(** fasttld.go:350-399 *)
Definition host_components_w (w : Z) (u : result) (netloc : bytes) (ignore : bool) (k : walk)
  : outcome (result * option err) :=
  let '(sep_idx, suffix_start) :=
    if w_sep_idx k =? -1 then (len netloc, len netloc) else (w_sep_idx k, w_suffix_start k) in
  checked <- slice netloc 0 (if w_has_suffix k then suffix_start else w_previous_sep k) ;;
  if has_invalid_chars_w w checked then Ret (u, Some ErrInvalidChars)
  else
    '(u, domain_start_sep) <-
      (if w_has_suffix k then
         if sep_idx <? len netloc then
           x <- index netloc sep_idx ;;
           sfx <- slice netloc (wrap w (sep_idx + sep_size x)) (w_suffix_end k) ;;
           head <- slice netloc 0 sep_idx ;;
           let d := last_index_any_w w head label_separators_rune_set in
           if negb (d =? -1) then
             y <- index netloc d ;;
             dom <- slice netloc (wrap w (d + sep_size y)) sep_idx ;;
             reg <- slice netloc (wrap w (d + sep_size y)) (w_suffix_end k) ;;
             Ret (with_registered_domain (with_domain (with_suffix u sfx) dom) reg, d)
           else
             dom <- slice netloc 0 sep_idx ;;
             reg <- slice netloc 0 (w_suffix_end k) ;;
             Ret (with_registered_domain (with_domain (with_suffix u sfx) dom) reg, d)
         else
           sfx <- slice netloc 0 (w_suffix_end k) ;;
           Ret (with_suffix u sfx, 0)
       else
         head <- slice netloc 0 (w_suffix_end k) ;;
         let d := last_index_any_w w head label_separators_rune_set in
         start <- (if negb (d =? -1) then y <- index netloc d ;; Ret (wrap w (d + sep_size y))
                   else Ret 0) ;;
         dom <- slice netloc start (w_suffix_end k) ;;
         Ret (with_domain u dom, d)) ;;
    u <- (if negb ignore && negb (domain_start_sep =? -1)
          then sub <- slice netloc 0 domain_start_sep ;; Ret (with_sub_domain u sub)
          else Ret u) ;;
    if len (r_domain u) =? 0 then Ret (u, Some ErrEmptyDomain)
    else Ret (with_host_type u HHostName, None).

(** fasttld.go:277-399 *)
Definition extract_host_w (w : Z) (tld_trie : trie) (u : result) (netloc : bytes) (ignore : bool)
  : outcome (result * option err) :=
  m <- suffix_loop_w w (S (length netloc)) netloc tld_trie false false
                   (len netloc) (len netloc) (len netloc) ;;
  match m with
  | inl e => Ret (u, Some e)
  | inr k =>
    v4 <- ipv4_host_w w netloc ;;
    if v4 then
      dom <- slice netloc 0 (w_previous_sep k) ;;
      Ret (with_host_type (with_registered_domain (with_domain u dom) dom) HIPv4, None)
    else host_components_w w u netloc ignore k
  end.

(** fasttld.go:142-400 Extract *)
Definition extract_w (w : Z) (ext : idna) (tld_trie : trie) (p : url_params) : outcome (result * option err) :=
  let u := empty_result in
  (* 145-150 *)
  netloc <- fast_trim (p_url p) whitespace_rune_set TrimBoth ;;
  let scheme_end := get_scheme_end_index_w w netloc in
  '(u, netloc) <-
    (if negb (scheme_end =? -1)
     then a <- slice netloc 0 scheme_end ;; b <- slice netloc scheme_end (len netloc) ;;
          Ret (with_scheme u a, b)
     else Ret (u, netloc)) ;;
  (* 152-156 *)
  at_idx <- index_last_byte_before netloc 64 invalid_user_info_chars_set ;;
  '(u, netloc) <-
    (if negb (at_idx =? -1)
     then a <- slice netloc 0 at_idx ;; b <- slice netloc (wrap w (at_idx + 1)) (len netloc) ;;
          Ret (with_user_info u a, b)
     else Ret (u, netloc)) ;;
  (* 158-199 *)
  match scan_host_w w netloc 0 (len netloc) (-1) (-1) with
  | inl e => Ret (u, Some e)
  | inr (opening, closing, host_end) =>
    (* 201-205 *)
    let host_end := if closing =? wrap w (len netloc - 1) then -1
                    else if negb (closing =? -1) then wrap w (closing + 1) else host_end in
    (* 207-224 *)
    '(u, e) <-
      (if closing >? opening then
         inner <- slice netloc 1 closing ;;
         v6 <- is_ipv6_w w inner ;;
         if negb v6 then Ret (u, Some ErrInvalidIPv6)
         else
           trailing_ok <- (if negb (host_end =? -1)
                           then a <- slice netloc host_end (len netloc) ;;
                                Ret (index_any_ascii a end_of_host_delimiters_set =? 0)
                           else Ret true) ;;
           if negb trailing_ok then Ret (u, Some ErrTrailingAfterIPv6)
           else Ret (with_registered_domain (with_domain (with_host_type u HIPv6) inner) inner,
                     None)
       else Ret (u, None)) ;;
    match e with
    | Some e => Ret (u, Some e)
    | None =>
      (* 226-231 *)
      '(after_host, netloc) <-
        (if negb (host_end =? -1)
         then a <- slice netloc host_end (len netloc) ;; b <- slice netloc 0 host_end ;; Ret (a, b)
         else Ret ([], netloc)) ;;
      (* 233-255 *)
      '(u, e) <- port_path_w w u after_host ;;
      match e with
      | Some e => Ret (u, Some e)
      | None =>
        match r_host_type u with
        | HIPv6 => Ret (u, None)
        | _ =>
          match convert_host ext (p_to_punycode p) netloc with
          | inl e => Ret (u, Some e)
          | inr host => extract_host_w w tld_trie u host (p_ignore_sub_domains p)
          end
        end
      end
    end
  end.
