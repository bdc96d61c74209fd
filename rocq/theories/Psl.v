(** Psl.v - model of the parsing of Public Suffix List files (psl.go:24-100, 168-173). *)

From Verif Require Import Base Utf8 Str Trie.
Local Open Scope N_scope.

(** unicode.IsSpace: '\t', '\n', '\v', '\f', '\r', ' ', U+0085, U+00A0 and the characters
    with the White_Space property above U+00FF. *)
Definition space_runes : list rune :=
  [9; 10; 11; 12; 13; 32; 133; 160; 5760; 8192; 8193; 8194; 8195; 8196; 8197; 8198; 8199;
   8200; 8201; 8202; 8232; 8233; 8239; 8287; 12288].
Definition is_space (r : rune) : bool := memN r space_runes.

(** strings.TrimLeftFunc(s, unicode.IsSpace) *)
Fixpoint trim_left_space (fuel : nat) (s : bytes) : bytes :=
  match fuel, s with
  | S f, _ :: _ =>
    let '(r, n) := decode_rune s in
    if is_space r then trim_left_space f (skipn n s) else s
  | _, _ => s
  end.

(** strings.TrimRightFunc(s, unicode.IsSpace) *)
Fixpoint trim_right_space (fuel : nat) (s : bytes) : bytes :=
  match fuel, s with
  | S f, _ :: _ =>
    let '(r, n) := decode_last s in
    if is_space r then trim_right_space f (firstn (length s - n) s) else s
  | _, _ => s
  end.

(** strings.TrimSpace.  Its fast path for ASCII computes the same result. *)
Definition trim_space (s : bytes) : bytes :=
  let t := trim_left_space (length s) s in trim_right_space (length t) t.

(** psl.go:24-28 *)
Record suffixes := mkSuffixes {
  s_public : list bytes; s_private : list bytes; s_all : list bytes }.
Definition no_suffixes : suffixes := mkSuffixes [] [] [].

Definition private_marker : bytes := str "// ===BEGIN PRIVATE DOMAINS===".

(** psl.go:30-63 processLine.  [to_ascii] is idna.ToASCII, [None] its error result; the
    log message is not modelled. *)
Definition process_line (to_ascii : bytes -> option bytes) (raw_line : bytes) (psl : suffixes)
           (is_private : bool) : suffixes * bool :=
  let line := trim_space raw_line in
  let is_private := if bytes_eqb private_marker line then true else is_private in
  if (len line =? 0)%Z || has_prefix line (str "//") then (psl, is_private)
  else
    match to_ascii line with
    | None => (psl, is_private)
    | Some suffix =>
      let add l := let l := l ++ [suffix] in
                   if negb (bytes_eqb suffix line) then l ++ [line] else l in
      let psl :=
        if is_private then mkSuffixes (s_public psl) (add (s_private psl)) (s_all psl)
        else mkSuffixes (add (s_public psl)) (s_private psl) (s_all psl) in
      (mkSuffixes (s_public psl) (s_private psl) (add (s_all psl)), is_private)
    end.

(** psl.go:79-82 and 95-98: the loop over the lines of a list. *)
Fixpoint process_lines (to_ascii : bytes -> option bytes) (lines : list bytes) (psl : suffixes)
         (is_private : bool) : suffixes :=
  match lines with
  | [] => psl
  | line :: rest =>
    let '(psl, is_private) := process_line to_ascii line psl is_private in
    process_lines to_ascii rest psl is_private
  end.
Definition parse_list (to_ascii : bytes -> option bytes) (contents : bytes) : suffixes :=
  process_lines to_ascii (split_byte contents 10) no_suffixes false.

(** psl.go:168-173 validPSLDelimiters *)
Definition valid_psl_delimiters (contents : bytes) : bool :=
  contains_sub contents (str "// ===BEGIN ICANN DOMAINS===") &&
  contains_sub contents (str "// ===END ICANN DOMAINS===") &&
  contains_sub contents (str "// ===BEGIN PRIVATE DOMAINS===") &&
  contains_sub contents (str "// ===END PRIVATE DOMAINS===").
