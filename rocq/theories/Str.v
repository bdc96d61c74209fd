(** Str.v - model of strings.go. *)

From Verif Require Import Base Utf8.
Local Open Scope N_scope.

(** strings.go:14-27 string constants. *)
Definition alphabets : bytes := str "ABCDEFGHIJKLMNOPQRSTUVWXYZabcdefghijklmnopqrstuvwxyz".
Definition numbers : bytes := str "0123456789".
(** strings.go:18  ".。．｡" *)
Definition label_separators_runes : list rune := [46; 12290; 65294; 65377].
(** strings.go:20-21: U+0000 .. U+001F *)
Definition control_chars_runes : list rune :=
  [0;1;2;3;4;5;6;7;8;9;10;11;12;13;14;15;16;17;18;19;20;21;22;23;24;25;26;27;28;29;30;31].
(** strings.go:22  controlChars + " \u0085\u0086  ​‌‍﻿" *)
Definition whitespace_runes : list rune :=
  control_chars_runes ++ [32; 133; 134; 160; 5760; 8203; 8204; 8205; 65279].
(** strings.go:23 *)
Definition invalid_host_name_runes : list rune :=
  whitespace_runes
  ++ [33; 34; 35; 36; 38; 39; 40; 41; 42; 43; 44; 47; 58; 59; 60; 61; 62; 63; 64;
      91; 92; 93; 94; 95; 96; 123; 124; 125; 126](* the ASCII punctuation of the literal: 33-36, 38-44, 47, 58-64, 91-96, 123-126 *)
  ++ [888; 1216; 1757; 6158; 8229; 8238; 8299; 8579; 10868; 12272; 64976; 65285; 65295; 65306; 65530].
                              (* u0378 u04c0 u06dd u180e u2025 u202e u206b u2183 u2a74 u2ff0 ufdd0 uff05 uff0f uff1a ufffa *)
Definition end_of_host_with_port_delimiters : bytes := str "/\?#".
Definition end_of_host_delimiters : bytes := end_of_host_with_port_delimiters ++ str ":".
Definition invalid_user_info_chars : bytes := end_of_host_with_port_delimiters ++ str "[]".

(** strings.go:49 asciiSet [8]uint32, as a list of eight words. *)
Definition ascii_set : Type := list N.

Fixpoint update_nth (n : nat) (f : N -> N) (l : list N) : list N :=
  match l, n with
  | [], _ => []
  | x :: l', O => f x :: l'
  | x :: l', S n' => x :: update_nth n' f l'
  end.

(** strings.go:53-60 makeASCIISet; [<<] on uint32 cannot overflow since c%32 < 32. *)
Definition make_ascii_set (chars : bytes) : ascii_set :=
  fold_left (fun as_ '(_, c) =>
               if c <? 128
               then update_nth (N.to_nat (c / 32)) (fun w => N.lor w (N.shiftl 1 (c mod 32))) as_
               else as_)
            (range_str chars) [0;0;0;0;0;0;0;0].

(** strings.go:65-67 contains; c is a byte, so c/32 is at most 7. *)
Definition contains (as_ : ascii_set) (c : N) : bool :=
  negb (N.land (nth (N.to_nat (c / 32)) as_ 0) (N.shiftl 1 (c mod 32)) =? 0).

(** strings.go:31-39 *)
Definition numeric_set := make_ascii_set numbers.
Definition alpha_numeric_set := make_ascii_set (alphabets ++ numbers).
Definition end_of_host_with_port_delimiters_set := make_ascii_set end_of_host_with_port_delimiters.
Definition end_of_host_delimiters_set := make_ascii_set end_of_host_delimiters.
Definition invalid_user_info_chars_set := make_ascii_set invalid_user_info_chars.
Definition scheme_first_char_set := make_ascii_set alphabets.
Definition scheme_remaining_char_set := make_ascii_set (alphabets ++ numbers ++ str "+-.").
Definition slashes := make_ascii_set (str "/\").

(** strings.go:71-89 *intset.Rune built by makeRuneSet: the set of runes of a string,
    modelled as a list with membership.  RuneSet.v has the structure of the library
    (github.com/karlseguin/intset). *)
Definition rune_set : Type := list rune.
Definition exists_in (set : rune_set) (r : rune) : bool := memN r set.
Definition make_rune_set (s : bytes) : rune_set := map snd (range_str s).
Definition label_separators_rune_set : rune_set := make_rune_set (encode_all label_separators_runes).
Definition whitespace_rune_set : rune_set := make_rune_set (encode_all whitespace_runes).
Definition invalid_host_name_chars_rune_set : rune_set :=
  make_rune_set (encode_all invalid_host_name_runes).

(** strings.go:95-145 getSchemeEndIndex.  [scheme_loop] is the loop from index i on;
    [s] is the rest of the string, [n] its total length. *)
Fixpoint scheme_loop (s : bytes) (i : Z) (n : Z) (colon : bool) (slash_count : Z) : Z :=
  match s with
  | [] => if (slash_count >=? 2)%Z then n else (-1)%Z
  | c :: t =>
    if (i =? 0)%Z then
      if contains scheme_first_char_set c then scheme_loop t (i + 1) n colon slash_count
      else if contains slashes c then scheme_loop t (i + 1) n colon (slash_count + 1)
      else (-1)%Z
    else if (slash_count =? 0)%Z then
      if negb colon && contains scheme_remaining_char_set c
      then scheme_loop t (i + 1) n colon slash_count
      else if negb colon && (c =? 58) then scheme_loop t (i + 1) n true slash_count
      else if contains slashes c then scheme_loop t (i + 1) n colon (slash_count + 1)
      else (-1)%Z
    else if contains slashes c then scheme_loop t (i + 1) n colon (slash_count + 1)
    else if (slash_count <? 2)%Z then (-1)%Z
    else i
  end.
Definition get_scheme_end_index (s : bytes) : Z := scheme_loop s 0 (len s) false 0.

(** strings.go:152-159 indexAnyASCII *)
Fixpoint index_any_ascii_from (s : bytes) (as_ : ascii_set) (i : Z) : Z :=
  match s with
  | [] => (-1)%Z
  | b :: t => if contains as_ b then i else index_any_ascii_from t as_ (i + 1)%Z
  end.
Definition index_any_ascii (s : bytes) (as_ : ascii_set) : Z := index_any_ascii_from s as_ 0.

(** strings.go:166-197 hasInvalidChars.  [byte(c)] truncates the rune to its low byte. *)
Fixpoint invalid_loop (rs : list (Z * rune)) (last_byte_idx : Z) (is_sep : bool) : bool :=
  match rs with
  | [] => false
  | (idx, c) :: rs' =>
    if contains alpha_numeric_set (c mod 256) then invalid_loop rs' last_byte_idx false
    else if (idx =? 0)%Z && ((c =? 45) || exists_in label_separators_rune_set c) then true
    else if (idx =? last_byte_idx)%Z && (c =? 45) then true
    else if exists_in label_separators_rune_set c then
      if is_sep then true
      else if exists_in invalid_host_name_chars_rune_set c then true
      else invalid_loop rs' last_byte_idx true
    else if exists_in invalid_host_name_chars_rune_set c then true
    else invalid_loop rs' last_byte_idx false
  end.
Definition has_invalid_chars (s : bytes) : bool := invalid_loop (range_str s) (len s - 1)%Z false.

(** strings.go:204-213 lastIndexAny.  The loop variable i of the Go code runs through the
    rune boundaries from the end; here i runs through all byte positions and [skip] passes
    over the inner bytes of a decoded rune. *)
Fixpoint last_index_from (s : bytes) (i : nat) (skip : nat) (chars : rune_set) : Z :=
  match i with
  | O => (-1)%Z
  | S k =>
    match skip with
    | S sk => last_index_from s k sk chars
    | O =>
      let '(r, size) := decode_last (firstn i s) in
      if exists_in chars r then (Z.of_nat i - Z.of_nat size)%Z
      else last_index_from s k (size - 1) chars
    end
  end.
Definition last_index_any (s : bytes) (chars : rune_set) : Z :=
  last_index_from s (length s) 0 chars.

(** strings.go:216-220 reverse: in place swaps of positions i and j, i < j. *)
Definition swap {A : Type} (l : list A) (i j : nat) : list A :=
  match nth_error l i, nth_error l j with
  | Some x, Some y =>
    firstn i l ++ [y] ++ firstn (j - i - 1) (skipn (i + 1) l) ++ [x] ++ skipn (j + 1) l
  | _, _ => l
  end.
Fixpoint reverse_loop {A : Type} (fuel : nat) (l : list A) (i j : Z) : outcome (list A) :=
  if (i <? j)%Z then
    match fuel with
    | O => OutOfFuel
    | S f =>
      if ((0 <=? i) && (j <? len l))%Z
      then reverse_loop f (swap l (Z.to_nat i) (Z.to_nat j)) (i + 1)%Z (j - 1)%Z
      else Panic
    end
  else Ret l.
Definition reverse {A : Type} (l : list A) : outcome (list A) :=
  reverse_loop (length l) l 0 (len l - 1)%Z.

(** strings.go:223-233 sepSize *)
Definition sep_size (r : N) : Z := if r =? 46 then 1%Z else 3%Z.

(** strings.go:238-245 formatAsPunycode; [to_ascii] is idnaToPuny.ToASCII, [None] its
    error result.  Logging is not modelled. *)
Definition format_as_punycode (to_ascii : bytes -> option bytes) (s : bytes) : bytes :=
  match to_ascii s with
  | Some t => t
  | None => []
  end.

(** strings.go:249-254 indexLastByteBefore *)
Definition index_last_byte_before (s : bytes) (b : N) (not_after : ascii_set) : outcome Z :=
  let first := index_any_ascii s not_after in
  if (first =? -1)%Z then Ret (last_index_byte s b)
  else p <- slice s 0 first ;; Ret (last_index_byte p b).

(** strings.go:259-263 trimMode *)
Inductive trim_mode := TrimBoth | TrimLeft | TrimRight.
Definition trim_mode_eqb (a b : trim_mode) : bool :=
  match a, b with
  | TrimBoth, TrimBoth | TrimLeft, TrimLeft | TrimRight, TrimRight => true
  | _, _ => false
  end.

(** strings.go:272-279, the left loop: returns (startIdx, trimCharsExist, broken). *)
Fixpoint trim_left_loop (rs : list (Z * rune)) (chars : rune_set) (start_idx : Z) (found : bool)
  : Z * bool * bool :=
  match rs with
  | [] => (start_idx, found, false)
  | (idx, c) :: rs' =>
    if exists_in chars c then trim_left_loop rs' chars idx true
    else (idx, found, true)
  end.

(** strings.go:289-298, the right loop: returns (endIdx, trimCharsExist, broken). *)
Fixpoint trim_right_loop (s : bytes) (i : nat) (skip : nat) (chars : rune_set) (end_idx : Z)
         (found : bool) : Z * bool * bool :=
  match i with
  | O => (end_idx, found, false)
  | S k =>
    match skip with
    | S sk => trim_right_loop s k sk chars end_idx found
    | O =>
      let '(r, size) := decode_last (firstn i s) in
      if exists_in chars r then trim_right_loop s k (size - 1) chars (Z.of_nat i) true
      else (Z.of_nat i, found, true)
    end
  end.

(** strings.go:266-307 fastTrim *)
Definition fast_trim (s : bytes) (chars : rune_set) (mode : trim_mode) : outcome bytes :=
  let '(start_idx, all_left) :=
    if negb (trim_mode_eqb mode TrimRight)
    then let '(st, found, broken) := trim_left_loop (range_str s) chars 0 false in
         (st, found && negb broken)
    else (0%Z, false) in
  if all_left then Ret []
  else
    let '(end_idx, all_right) :=
      if negb (trim_mode_eqb mode TrimLeft)
      then let '(en, found, broken) := trim_right_loop s (length s) 0 chars 0 false in
           (en, found && negb broken)
      else (len s, false) in
    if all_right then Ret []
    else slice s start_idx end_idx.
