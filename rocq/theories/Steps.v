(** Steps.v - how many steps Extract takes.

    A step is one iteration of a loop of the code, with the operations of constant time in it.
    Library functions that go through a string take a step for each of its bytes: QueryUnescape,
    LastIndexByte, Atoi, the conversion of a string to a slice of runes, the concatenation of
    strings, and looking up a key in a map, which hashes and compares it (that few keys share a
    hash is assumed here).  What the IDNA library does is not counted. *)

From Verif Require Import Base Utf8 Str Net Trie Extract.
Local Open Scope Z_scope.

(** A computation with the number of its steps. *)
Definition counted (A : Type) : Type := (outcome A * Z)%type.
Definition cret {A} (x : A) : counted A := (Ret x, 0).
Definition cbind {A B} (o : counted A) (f : A -> counted B) : counted B :=
  match fst o with
  | Ret x => let r := f x in (fst r, snd o + snd r)
  | Panic => (Panic, snd o)
  | OutOfFuel => (OutOfFuel, snd o)
  end.
(** Constant time. *)
Definition at_once {A} (o : outcome A) : counted A := (o, 0).
Definition with_steps {A} (n : Z) (o : counted A) : counted A := (fst o, n + snd o).
Notation "x <~ m ;; k" := (cbind m (fun x => k))
  (at level 61, m at next level, right associativity).
Notation "' p <~ m ;; k" := (cbind m (fun p => k))
  (at level 61, p pattern, m at next level, right associativity).

(** strings.go:95-145 getSchemeEndIndex *)
Fixpoint scheme_steps (s : bytes) (i : Z) (colon : bool) (slash_count : Z) : Z :=
  match s with
  | [] => 0
  | c :: t =>
    1 + (if i =? 0 then
           if contains scheme_first_char_set c then scheme_steps t (i + 1) colon slash_count
           else if contains slashes c then scheme_steps t (i + 1) colon (slash_count + 1)
           else 0
         else if slash_count =? 0 then
           if negb colon && contains scheme_remaining_char_set c then scheme_steps t (i + 1) colon slash_count
           else if negb colon && (c =? 58)%N then scheme_steps t (i + 1) true slash_count
           else if contains slashes c then scheme_steps t (i + 1) colon (slash_count + 1)
           else 0
         else if contains slashes c then scheme_steps t (i + 1) colon (slash_count + 1)
         else 0)
  end.
(** strings.go:152-159 indexAnyASCII *)
Fixpoint index_any_steps (s : bytes) (as_ : ascii_set) : Z :=
  match s with
  | [] => 0
  | b :: t => 1 + (if contains as_ b then 0 else index_any_steps t as_)
  end.
(** strings.go:166-197 hasInvalidChars *)
Fixpoint invalid_steps (rs : list (Z * rune)) (last_byte_idx : Z) (is_sep : bool) : Z :=
  match rs with
  | [] => 0
  | (idx, c) :: rs' =>
    1 + (if contains alpha_numeric_set (c mod 256) then invalid_steps rs' last_byte_idx false
         else if (idx =? 0) && ((c =? 45)%N || exists_in label_separators_rune_set c) then 0
         else if (idx =? last_byte_idx) && (c =? 45)%N then 0
         else if exists_in label_separators_rune_set c then
           if is_sep then 0
           else if exists_in invalid_host_name_chars_rune_set c then 0
           else invalid_steps rs' last_byte_idx true
         else if exists_in invalid_host_name_chars_rune_set c then 0
         else invalid_steps rs' last_byte_idx false)
  end.
(** strings.go:204-213 lastIndexAny: one step for every rune. *)
Fixpoint last_index_steps (s : bytes) (i : nat) (skip : nat) (chars : rune_set) : Z :=
  match i with
  | O => 0
  | S k =>
    match skip with
    | S sk => last_index_steps s k sk chars
    | O =>
      let '(r, size) := decode_last (firstn i s) in
      1 + (if exists_in chars r then 0 else last_index_steps s k (size - 1) chars)
    end
  end.
(** strings.go:249-254 indexLastByteBefore *)
Definition last_byte_before_steps (s : bytes) (not_after : ascii_set) : Z :=
  let first := index_any_ascii s not_after in
  index_any_steps s not_after + (if first =? -1 then len s else first).
(** strings.go:266-307 fastTrim *)
Fixpoint trim_left_steps (rs : list (Z * rune)) (chars : rune_set) : Z :=
  match rs with
  | [] => 0
  | (_, c) :: rs' => 1 + (if exists_in chars c then trim_left_steps rs' chars else 0)
  end.
Fixpoint trim_right_steps (s : bytes) (i : nat) (skip : nat) (chars : rune_set) : Z :=
  match i with
  | O => 0
  | S k =>
    match skip with
    | S sk => trim_right_steps s k sk chars
    | O =>
      let '(r, size) := decode_last (firstn i s) in
      1 + (if exists_in chars r then trim_right_steps s k (size - 1) chars else 0)
    end
  end.
Definition trim_steps (s : bytes) (chars : rune_set) (mode : trim_mode) : Z :=
  (if negb (trim_mode_eqb mode TrimRight) then trim_left_steps (range_str s) chars else 0)
  + (if negb (trim_mode_eqb mode TrimLeft) then trim_right_steps s (length s) 0 chars else 0).
(** net.go:17-56 dtoi and xtoi *)
Fixpoint dtoi_steps (s : bytes) (n : Z) : Z :=
  match s with
  | b :: t =>
    if is_digit b then
      let n' := n * 10 + (Z.of_N b - 48) in
      1 + (if n' >=? big then 0 else dtoi_steps t n')
    else 0
  | [] => 0
  end.
Fixpoint xtoi_steps (s : bytes) (n : Z) : Z :=
  match s with
  | b :: t =>
    match hex_value b with
    | Some d =>
      let n' := n * 16 + d in
      1 + (if n' >=? big then 0 else xtoi_steps t n')
    | None => 1
    end
  | [] => 0
  end.

(** net.go:61-86 isIPv4 *)
Fixpoint ipv4_loop_c (count : nat) (first : bool) (s : bytes) : counted bool :=
  match count with
  | O => cret (len s =? 0)
  | S k =>
    with_steps 1 (
    if len s =? 0 then cret false
    else
      let after_sep :=
        if first then cret (Some s)
        else let '(r, size) := decode_rune s in
             if exists_in label_separators_rune_set r
             then t <~ at_once (slice s (Z.of_nat size) (len s)) ;; cret (Some t)
             else cret None in
      m <~ after_sep ;;
      match m with
      | None => cret false
      | Some s =>
        with_steps (dtoi_steps s 0) (
        let '(n, c, ok) := dtoi s in
        if negb ok || (n >? 255) then cret false
        else
          (* c > 1 && s[0] == '0' *)
          lead <~ (if c >? 1 then x <~ at_once (index s 0) ;; cret (x =? 48)%N else cret false) ;;
          if lead then cret false
          else t <~ at_once (slice s c (len s)) ;; ipv4_loop_c k false t)
      end)
  end.
Definition is_ipv4_c (s : bytes) : counted bool :=
  t <~ with_steps (trim_steps s label_separators_rune_set TrimRight) (at_once (fast_trim s label_separators_rune_set TrimRight)) ;;
  ipv4_loop_c (Z.to_nat ipv4_len) true t.

(** net.go:105-156; the rest of the string is converted to runes to look at its first one. *)
Fixpoint ipv6_loop_c (fuel : nat) (s : bytes) (i ellipsis : Z) : counted (option (bytes * Z * Z)) :=
  if i <? ipv6_len then
    match fuel with
    | O => (OutOfFuel, 0)
    | S f =>
      with_steps (1 + xtoi_steps s 0) (
      let '(n, c, ok) := xtoi s in
      if negb ok || (n >? 65535) then cret None
      else
        sep_follows <~ (if c <? len s
                        then t <~ at_once (slice s c (len s)) ;;
                             with_steps (len t) (cret (exists_in label_separators_rune_set (fst (decode_rune t))))
                        else cret false) ;;
        if sep_follows then
          if (ellipsis <? 0) && negb (i =? len_diff) then cret None
          else if i >? len_diff then cret None
          else v4 <~ is_ipv4_c s ;;
               if negb v4 then cret None
               else cret (Some ([], i + ipv4_len, ellipsis))
        else
          let i := i + 2 in
          s <~ at_once (slice s c (len s)) ;;
          if len s =? 0 then cret (Some (s, i, ellipsis))
          else
            x <~ at_once (index s 0) ;;
            if negb (x =? 58)%N || (len s =? 1) then cret None
            else
              s <~ at_once (slice s 1 (len s)) ;;
              x <~ at_once (index s 0) ;;
              if (x =? 58)%N then
                if ellipsis >=? 0 then cret None
                else
                  let ellipsis := i in
                  s <~ at_once (slice s 1 (len s)) ;;
                  if len s =? 0 then cret (Some (s, i, ellipsis))
                  else ipv6_loop_c f s i ellipsis
              else ipv6_loop_c f s i ellipsis)
    end
  else cret (Some (s, i, ellipsis)).

(** net.go:90-173 isIPv6 *)
Definition is_ipv6_c (s : bytes) : counted bool :=
  (* leading ellipsis: len(s) >= 2 && s[0] == ':' && s[1] == ':' *)
  '(s, ellipsis, only) <~
    (if len s >=? 2 then
       x <~ at_once (index s 0) ;; y <~ at_once (index s 1) ;;
       if ((x =? 58) && (y =? 58))%N then
         t <~ at_once (slice s 2 (len s)) ;; cret (t, 0, len t =? 0)
       else cret (s, -1, false)
     else cret (s, -1, false)) ;;
  if (only : bool) then cret true
  else
    m <~ ipv6_loop_c 8 s 0 ellipsis ;;
    match m with
    | None => cret false
    | Some (s, i, ellipsis) =>
      if negb (len s =? 0) then cret false
      else if i <? ipv6_len then cret (negb (ellipsis <? 0))
      else cret (negb (ellipsis >=? 0))
    end.

(** fasttld.go:163-199 *)
Fixpoint scan_steps (s : bytes) (i n opening closing : Z) : Z :=
  match s with
  | [] => 0
  | r :: t =>
    1 + (if (r =? 91)%N && (i >? 0) then 0
         else
           let opening := if (r =? 91)%N then i else opening in
           let closing := if (r =? 93)%N then i else closing in
           let continue_ :=
             if (i =? n - 1) && (closing <? opening) then 0
             else scan_steps t (i + 1) n opening closing in
           if opening =? -1 then
             if negb (closing =? -1) then 0
             else if contains end_of_host_delimiters_set r then 0
             else continue_
           else if (closing >? opening) && contains end_of_host_with_port_delimiters_set r
           then 0
           else continue_)
  end.

(** fasttld.go:233-255 *)
Definition port_path_c (u : result) (after_host : bytes) : counted (result * option err) :=
  if negb (len after_host =? 0) then
    with_steps (index_any_steps after_host end_of_host_with_port_delimiters_set) (
    let path_start := index_any_ascii after_host end_of_host_with_port_delimiters_set in
    c <~ at_once (index after_host 0) ;;
    '(u, e) <~
      (if (c =? 58)%N then
         maybe_port <~ (if path_start =? -1 then at_once (slice after_host 1 (len after_host))
                        else at_once (slice after_host 1 path_start)) ;;
         with_steps (len maybe_port) match atoi maybe_port with
         | Some port =>
           if (0 <=? port) && (port <=? largest_port_number)
           then cret (with_port u maybe_port, None)
           else cret (u, Some ErrInvalidPort)
         | None => cret (u, Some ErrInvalidPort)
         end
       else cret (u, None)) ;;
    match e with
    | Some e => cret (u, Some e)
    | None =>
      if negb (path_start =? -1) && negb (path_start =? len after_host)
      then p <~ at_once (slice after_host path_start (len after_host)) ;; cret (with_path u p, None)
      else cret (u, None)
    end)
  else cret (u, None).

(** fasttld.go:288-338.  The three lookups of a label, its decoding (at most its length in two
    passes) and the concatenation are counted whether they are all made or not. *)
Fixpoint suffix_loop_c (fuel : nat) (netloc : bytes) (node : trie) (has_suffix has_labels : bool)
         (sep_idx suffix_start suffix_end : Z) : counted (err + walk) :=
  match fuel with
  | O => (OutOfFuel, 0)
  | S f =>
    let previous_sep := sep_idx in
    head <~ at_once (slice netloc 0 sep_idx) ;;
    with_steps (1 + last_index_steps head (length head) 0 label_separators_rune_set) (
    let sep_idx := last_index_any head label_separators_rune_set in
    (* label of this iteration, and whether this is the last one (variable [end]) *)
    '(label, end_) <~
      (if negb (sep_idx =? -1)
       then x <~ at_once (index netloc sep_idx) ;;
            l <~ at_once (slice netloc (sep_idx + sep_size x) previous_sep) ;; cret (l, false)
       else l <~ at_once (slice netloc 0 previous_sep) ;; cret (l, true)) ;;
    if negb (sep_idx =? -1) && (len label =? 0) then
      if negb has_labels
      then suffix_loop_c f netloc node has_suffix has_labels sep_idx suffix_start sep_idx
      else cret (inl ErrConsecutiveSeparators)
    else
      let has_labels := has_labels || negb (sep_idx =? -1) in
      (* "*", "!" + label, and the label, decoded *)
      with_steps (1 + (2 * len label + 2) + (2 * len label + len label)) match child node (str "*") with
      | Some _ =>
        let sep_idx := match child node (str "!" ++ label) with
                       | Some _ => previous_sep
                       | None => sep_idx
                       end in
        cret (inr (mkWalk has_suffix sep_idx suffix_start suffix_end previous_sep))
      | None =>
        let label := match query_unescape label with inr l => l | inl _ => [] end in
        match child node label with
        | Some val =>
          let suffix_start := sep_idx in
          let '(suffix_end, has_suffix) :=
            if negb has_suffix && end_of val then (previous_sep, true)
            else (suffix_end, has_suffix) in
          if (len (matches_of val) =? 0) || end_
          then cret (inr (mkWalk has_suffix sep_idx suffix_start suffix_end previous_sep))
          else suffix_loop_c f netloc val has_suffix has_labels sep_idx suffix_start suffix_end
        | None =>
          let sep_idx := if negb (previous_sep =? len netloc) then previous_sep else sep_idx in
          cret (inr (mkWalk has_suffix sep_idx suffix_start suffix_end previous_sep))
        end
      end)
  end.

(** fasttld.go:340-348 *)
Definition ipv4_host_c (netloc : bytes) : counted bool :=
  if len netloc >=? 7 then
    c <~ at_once (index netloc 0) ;;
    if contains numeric_set c then is_ipv4_c netloc else cret false
  else cret false.

(** fasttld.go:350-399 *)
Definition host_components_c (u : result) (netloc : bytes) (ignore : bool) (w : walk)
  : counted (result * option err) :=
  let '(sep_idx, suffix_start) :=
    if w_sep_idx w =? -1 then (len netloc, len netloc) else (w_sep_idx w, w_suffix_start w) in
  checked <~ at_once (slice netloc 0 (if w_has_suffix w then suffix_start else w_previous_sep w)) ;;
  with_steps (invalid_steps (range_str checked) (len checked - 1) false) (
  if has_invalid_chars checked then cret (u, Some ErrInvalidChars)
  else
    '(u, domain_start_sep) <~
      (if w_has_suffix w then
         if sep_idx <? len netloc then
           x <~ at_once (index netloc sep_idx) ;;
           sfx <~ at_once (slice netloc (sep_idx + sep_size x) (w_suffix_end w)) ;;
           head <~ at_once (slice netloc 0 sep_idx) ;;
           with_steps (last_index_steps head (length head) 0 label_separators_rune_set) (let d := last_index_any head label_separators_rune_set in
           if negb (d =? -1) then
             y <~ at_once (index netloc d) ;;
             dom <~ at_once (slice netloc (d + sep_size y) sep_idx) ;;
             reg <~ at_once (slice netloc (d + sep_size y) (w_suffix_end w)) ;;
             cret (with_registered_domain (with_domain (with_suffix u sfx) dom) reg, d)
           else
             dom <~ at_once (slice netloc 0 sep_idx) ;;
             reg <~ at_once (slice netloc 0 (w_suffix_end w)) ;;
             cret (with_registered_domain (with_domain (with_suffix u sfx) dom) reg, d))
         else
           sfx <~ at_once (slice netloc 0 (w_suffix_end w)) ;;
           cret (with_suffix u sfx, 0)
       else
         head <~ at_once (slice netloc 0 (w_suffix_end w)) ;;
         with_steps (last_index_steps head (length head) 0 label_separators_rune_set) (let d := last_index_any head label_separators_rune_set in
         start <~ (if negb (d =? -1) then y <~ at_once (index netloc d) ;; cret (d + sep_size y)
                   else cret 0) ;;
         dom <~ at_once (slice netloc start (w_suffix_end w)) ;;
         cret (with_domain u dom, d))) ;;
    u <~ (if negb ignore && negb (domain_start_sep =? -1)
          then sub <~ at_once (slice netloc 0 domain_start_sep) ;; cret (with_sub_domain u sub)
          else cret u) ;;
    if len (r_domain u) =? 0 then cret (u, Some ErrEmptyDomain)
    else cret (with_host_type u HHostName, None)).

(** fasttld.go:277-399 *)
Definition extract_host_c (tld_trie : trie) (u : result) (netloc : bytes) (ignore : bool)
  : counted (result * option err) :=
  m <~ suffix_loop_c (S (length netloc)) netloc tld_trie false false
                   (len netloc) (len netloc) (len netloc) ;;
  match m with
  | inl e => cret (u, Some e)
  | inr w =>
    v4 <~ ipv4_host_c netloc ;;
    if v4 then
      dom <~ at_once (slice netloc 0 (w_previous_sep w)) ;;
      cret (with_host_type (with_registered_domain (with_domain u dom) dom) HIPv4, None)
    else host_components_c u netloc ignore w
  end.

(** fasttld.go:142-400 Extract; QueryUnescape takes two passes. *)
Definition extract_c (ext : idna) (tld_trie : trie) (p : url_params) : counted (result * option err) :=
  let u := empty_result in
  (* 145-150 *)
  netloc <~ with_steps (trim_steps (p_url p) whitespace_rune_set TrimBoth) (at_once (fast_trim (p_url p) whitespace_rune_set TrimBoth)) ;;
  with_steps (scheme_steps netloc 0 false 0) (
  let scheme_end := get_scheme_end_index netloc in
  '(u, netloc) <~
    (if negb (scheme_end =? -1)
     then a <~ at_once (slice netloc 0 scheme_end) ;; b <~ at_once (slice netloc scheme_end (len netloc)) ;;
          cret (with_scheme u a, b)
     else cret (u, netloc)) ;;
  (* 152-156 *)
  at_idx <~ with_steps (last_byte_before_steps netloc invalid_user_info_chars_set) (at_once (index_last_byte_before netloc 64 invalid_user_info_chars_set)) ;;
  '(u, netloc) <~
    (if negb (at_idx =? -1)
     then a <~ at_once (slice netloc 0 at_idx) ;; b <~ at_once (slice netloc (at_idx + 1) (len netloc)) ;;
          cret (with_user_info u a, b)
     else cret (u, netloc)) ;;
  (* 158-199 *)
  with_steps (scan_steps netloc 0 (len netloc) (-1) (-1)) match scan_host netloc 0 (len netloc) (-1) (-1) with
  | inl e => cret (u, Some e)
  | inr (opening, closing, host_end) =>
    (* 201-205 *)
    let host_end := if closing =? len netloc - 1 then -1
                    else if negb (closing =? -1) then closing + 1 else host_end in
    (* 207-224 *)
    '(u, e) <~
      (if closing >? opening then
         inner <~ at_once (slice netloc 1 closing) ;;
         v6 <~ is_ipv6_c inner ;;
         if negb v6 then cret (u, Some ErrInvalidIPv6)
         else
           trailing_ok <~ (if negb (host_end =? -1)
                           then a <~ at_once (slice netloc host_end (len netloc)) ;;
                                with_steps (index_any_steps a end_of_host_delimiters_set) (cret (index_any_ascii a end_of_host_delimiters_set =? 0))
                           else cret true) ;;
           if negb trailing_ok then cret (u, Some ErrTrailingAfterIPv6)
           else cret (with_registered_domain (with_domain (with_host_type u HIPv6) inner) inner,
                     None)
       else cret (u, None)) ;;
    match e with
    | Some e => cret (u, Some e)
    | None =>
      (* 226-231 *)
      '(after_host, netloc) <~
        (if negb (host_end =? -1)
         then a <~ at_once (slice netloc host_end (len netloc)) ;; b <~ at_once (slice netloc 0 host_end) ;; cret (a, b)
         else cret ([], netloc)) ;;
      (* 233-255 *)
      '(u, e) <~ port_path_c u after_host ;;
      match e with
      | Some e => cret (u, Some e)
      | None =>
        match r_host_type u with
        | HIPv6 => cret (u, None)
        | _ =>
          with_steps (2 * len netloc) match convert_host ext (p_to_punycode p) netloc with
          | inl e => cret (u, Some e)
          | inr host => extract_host_c tld_trie u host (p_ignore_sub_domains p)
          end
        end
      end
    end
  end).
