(** Idna.v - model of golang.org/x/net/idna as far as psl.go:38 (idna.ToASCII) and
    fasttld.go:269 (idna.ToUnicode) use it.  Both are [Punycode.process]: the profile without
    mapping, validation and length checks.  The library is not part of /repo; this file follows
    RFC 3492 and the structure of the library's punycode.go and idna10.0.0.go from memory (see
    DESIGN.md).  No other model file uses it: theorems elsewhere hold for every IDNA library,
    those of PropIdna.v for this one.  Simplified: numbers are unbounded with the library's
    overflow checks; the texts of error messages are reduced to the rejected label. *)

From Verif Require Import Base Utf8.
Local Open Scope N_scope.

(** punycode.go, parameters of RFC 3492 section 5: base 36, tmin 1, tmax 26, skew 38, damp 700,
    initial_bias 72, initial_n 128; and math.MaxInt32. *)
Definition max_int32 : N := 2147483647.

(** punycode.go madd: a + b*c, or an overflow of int32. *)
Definition madd (a b c : N) : option N := if b * c <=? max_int32 - a then Some (a + b * c) else None.

(** punycode.go decodeDigit, encodeDigit (the latter is only called with digits below 36). *)
Definition decode_digit (x : N) : option N :=
  if (48 <=? x) && (x <=? 57) then Some (x - 48 + 26)
  else if (65 <=? x) && (x <=? 90) then Some (x - 65)
  else if (97 <=? x) && (x <=? 122) then Some (x - 97)
  else None.
Definition encode_digit (digit : N) : N := if digit <? 26 then digit + 97 else digit + 22.

(** punycode.go adapt, RFC 3492 section 6.1.  The loop divides delta by 35, so that 7 rounds are
    enough for an int32; more are allowed here. *)
Fixpoint adapt_loop (fuel : nat) (delta k : N) : N :=
  match fuel with
  | O => k + 36 * delta / (delta + 38)
  | S f => if 455 <? delta then adapt_loop f (delta / 35) (k + 36) else k + 36 * delta / (delta + 38)
  end.
Definition adapt (delta num_points : N) (first_time : bool) : N :=
  let delta := if first_time then delta / 700 else delta / 2 in
  adapt_loop 32 (delta + delta / num_points) 0.

(** The threshold t of the digit loops. *)
Definition threshold (k bias : N) : N := if k <=? bias then 1 else if bias + 26 <=? k then 26 else k - bias.

(** ** Decoding, RFC 3492 section 6.2 *)

(** The inner loop: reads one number; returns i and the rest of the text. *)
Fixpoint decode_number (s : bytes) (i w k bias : N) : option (N * bytes) :=
  match s with
  | [] => None
  | c :: rest =>
    match decode_digit c with
    | None => None
    | Some digit =>
      match madd i digit w with
      | None => None
      | Some i =>
        let t := threshold k bias in
        if digit <? t then Some (i, rest)
        else match madd 0 w (36 - t) with
             | None => None
             | Some w => decode_number rest i w (k + 36) bias
             end
      end
    end
  end.

Definition insert_at (i : nat) (r : rune) (l : list rune) : list rune := firstn i l ++ r :: skipn i l.

(** One round of the outer loop: the state is output, i, n, bias. *)
Record decoder := mkDecoder { d_output : list rune; d_i : N; d_n : N; d_bias : N }.
Definition decode_round (s : bytes) (d : decoder) : option (decoder * bytes) :=
  match decode_number s (d_i d) 1 36 (d_bias d) with
  | None => None
  | Some (i, rest) =>
    if (1024 <=? length (d_output d))%nat then None
    else
      let x := N.of_nat (length (d_output d)) + 1 in
      let bias := adapt (i - d_i d) x (d_i d =? 0) in
      let n := d_n d + i / x in
      let i := i mod x in
      if 1114111 <? n then None
      else Some (mkDecoder (insert_at (N.to_nat i) n (d_output d)) (i + 1) n bias, rest)
  end.
(** Each round reads at least one byte; [fuel] is the length of the text. *)
Fixpoint decode_rounds (fuel : nat) (s : bytes) (d : decoder) : option (list rune) :=
  match s with
  | [] => Some (d_output d)
  | _ :: _ =>
    match fuel with
    | O => None
    | S f => match decode_round s d with None => None | Some (d, rest) => decode_rounds f rest d end
    end
  end.

(** Conversion of runes to a string: surrogates become U+FFFD. *)
Definition rune_text (r : rune) : bytes :=
  encode (if (55296 <=? r) && (r <=? 57343) then rune_error else r).

(** punycode.go decode; None for an error. *)
Definition puny_decode (encoded : bytes) : option bytes :=
  match encoded with
  | [] => Some []
  | _ =>
    let pos := Z.to_nat (1 + last_index_byte encoded 45) in
    if (pos =? 1)%nat then None
    else if (pos =? length encoded)%nat then Some (firstn (length encoded - 1) encoded)
    else
      let basic := if (pos =? 0)%nat then [] else map snd (range_str (firstn (pos - 1) encoded)) in
      let rest := skipn pos encoded in
      option_map (flat_map rune_text) (decode_rounds (length rest) rest (mkDecoder basic 0 128 72))
  end.

(** ** Encoding, RFC 3492 section 6.3 *)

(** The digits of a number. Each round divides by at least 10. *)
Fixpoint encode_number (fuel : nat) (q k bias : N) : bytes :=
  let t := threshold k bias in
  match fuel with
  | O => [encode_digit q]
  | S f => if q <? t then [encode_digit q]
           else encode_digit (t + (q - t) mod (36 - t)) :: encode_number f ((q - t) / (36 - t)) (k + 36) bias
  end.

(** The inner loop over the runes of the text: the state is delta, bias, h; [b] is the number
    of ASCII characters. *)
Record encoder := mkEncoder { e_delta : N; e_bias : N; e_h : N }.
Fixpoint encode_pass (s : list rune) (n b : N) (e : encoder) : option (bytes * encoder) :=
  match s with
  | [] => Some ([], e)
  | r :: rest =>
    if r <? n then
      if max_int32 <? e_delta e + 1 then None
      else encode_pass rest n b (mkEncoder (e_delta e + 1) (e_bias e) (e_h e))
    else if n <? r then encode_pass rest n b e
    else
      let out := encode_number 32 (e_delta e) 36 (e_bias e) in
      let e := mkEncoder 0 (adapt (e_delta e) (e_h e + 1) (e_h e =? b)) (e_h e + 1) in
      match encode_pass rest n b e with
      | None => None
      | Some (out', e) => Some (out ++ out', e)
      end
  end.

(** The least rune that is at least [n]. *)
Definition next_rune (s : list rune) (n : N) : N :=
  fold_left (fun m r => if (r <? m) && (n <=? r) then r else m) s max_int32.

(** The outer loop; [remaining] runes are still to be encoded, and each round encodes at least
    one of them. *)
Fixpoint encode_rounds (fuel : nat) (s : list rune) (remaining : N) (n b : N) (e : encoder) : option bytes :=
  if remaining =? 0 then Some []
  else
    match fuel with
    | O => None
    | S f =>
      let m := next_rune s n in
      match madd (e_delta e) (m - n) (e_h e + 1) with
      | None => None
      | Some delta =>
        match encode_pass s m b (mkEncoder delta (e_bias e) (e_h e)) with
        | None => None
        | Some (out, e') =>
          match encode_rounds f s (remaining - (e_h e' - e_h e)) (m + 1) b (mkEncoder (e_delta e' + 1) (e_bias e') (e_h e')) with
          | None => None
          | Some out' => Some (out ++ out')
          end
        end
      end
    end.

(** punycode.go encode; None for an error. *)
Definition puny_encode (prefix s : bytes) : option bytes :=
  let rs := map snd (range_str s) in
  let basic := filter (fun r => r <? 128) rs in
  let b := N.of_nat (length basic) in
  let remaining := N.of_nat (length rs) - b in
  option_map (fun out => prefix ++ basic ++ (if 0 <? b then [45] else []) ++ out)
    (encode_rounds (length rs) rs remaining 128 b (mkEncoder 0 72 b)).

(** ** Profile.process *)

Definition ace_prefix : bytes := str "xn--".
Definition is_ascii (s : bytes) : bool := forallb (fun c => c <? 128) s.

Section Process.
(** Whether labels whose Punycode decodes to an ASCII text are rejected; this depends on the
    version of the library. *)
Variable strict : bool.

(** idna10.0.0.go process, first loop: the label after decoding; inl for a rejected label. *)
Definition decode_label (label : bytes) : bytes + bytes :=
  if has_prefix label ace_prefix then
    match puny_decode (skipn 4 label) with
    | None => inl (skipn 4 label)
    | Some u => if strict && is_ascii u then inl label else inr u
    end
  else inr label.
Fixpoint decode_labels (ls : list bytes) : bytes + list bytes :=
  match ls with
  | [] => inr []
  | l :: rest =>
    match decode_label l with
    | inl e => inl e
    | inr u => match decode_labels rest with inl e => inl e | inr us => inr (u :: us) end
    end
  end.
(** Second loop, if toASCII. *)
Definition encode_label (label : bytes) : option bytes :=
  if is_ascii label then Some label else puny_encode ace_prefix label.
Fixpoint encode_labels (ls : list bytes) : option (list bytes) :=
  match ls with
  | [] => Some []
  | l :: rest =>
    match encode_label l, encode_labels rest with
    | Some a, Some r => Some (a :: r)
    | _, _ => None
    end
  end.
(** strings.Join with "." *)
Fixpoint join_dots (ls : list bytes) : bytes :=
  match ls with
  | [] => []
  | [l] => l
  | l :: rest => l ++ 46 :: join_dots rest
  end.

(** idna.ToASCII; None for an error. *)
Definition go_to_ascii (s : bytes) : option bytes :=
  match decode_labels (split_byte s 46) with
  | inl _ => None
  | inr us => option_map join_dots (encode_labels us)
  end.
(** idna.ToUnicode; None for an error. *)
Definition go_to_unicode (s : bytes) : option bytes :=
  match decode_labels (split_byte s 46) with
  | inl _ => None
  | inr us => Some (join_dots us)
  end.
(** The label rejected by idna.ToUnicode, if any. *)
Definition go_to_unicode_err (s : bytes) : option bytes :=
  match decode_labels (split_byte s 46) with
  | inl e => Some e
  | inr _ => None
  end.
End Process.
