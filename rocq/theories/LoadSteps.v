(** LoadSteps.v - how many steps building the trie of a list file takes.

    Steps are counted as in Steps.v: iterations of loops, a step per byte for library functions
    that go through a string and for map operations on a key (amortised, like append).  What the
    IDNA library does, and reading the file itself, is not counted. *)

From Verif Require Import Base Str Trie Psl.

(** fasttld.go:85-96 nestedDict: two lookups of each key, and a Set if it is missing. *)
Fixpoint nested_dict_c (dic : trie) (keys : list bytes) : trie * nat :=
  match keys with
  | [] => (set_end dic, 0)
  | key :: keys' =>
    let '(sub, n) := match child dic key with
                     | Some t => (t, 2 * (1 + length key))
                     | None => (empty_trie, 3 * (1 + length key))
                     end in
    let '(sub, n') := nested_dict_c sub keys' in
    (Node (end_of dic) (put (matches_of dic) key sub), n + n')
  end.

(** fasttld.go:125-129; strings.Split counts the separators first. *)
Fixpoint insert_all_c (t : trie) (suffix_list : list bytes) : outcome (trie * nat) :=
  match suffix_list with
  | [] => Ret (t, 0)
  | suffix :: rest =>
    sp <- reverse (split_byte suffix 46) ;;
    let '(t, n) := nested_dict_c t sp in
    '(t, n') <- insert_all_c t rest ;;
    Ret (t, 1 + 2 * length suffix + Nat.div2 (length sp) + n + n')
  end.

(** fasttld.go:102-138 without reading the list; the last loop is over the top level nodes. *)
Definition build_trie_c (suffix_list : list bytes) : outcome (trie * nat) :=
  '(t, n) <- insert_all_c empty_trie suffix_list ;;
  Ret (mark_wildcard_tlds t, n + 2 * length (matches_of t)).

(** psl.go:30-63 processLine: TrimSpace, the comparison with the marker and HasPrefix, and if the
    line is a rule two comparisons and at most four appends. *)
Definition process_line_c (to_ascii : bytes -> option bytes) (raw_line : bytes) (psl : suffixes)
           (is_private : bool) : suffixes * bool * nat :=
  let line := trim_space raw_line in
  let n := length raw_line + length line + 2 in
  let n := if (len line =? 0)%Z || has_prefix line (str "//") then n
           else match to_ascii line with None => n | Some _ => n + 2 * length line + 4 end in
  (process_line to_ascii raw_line psl is_private, n).

(** psl.go:79-82 and 95-98 *)
Fixpoint process_lines_c (to_ascii : bytes -> option bytes) (lines : list bytes) (psl : suffixes)
         (is_private : bool) : suffixes * nat :=
  match lines with
  | [] => (psl, 0)
  | line :: rest =>
    let '(psl, is_private, n) := process_line_c to_ascii line psl is_private in
    let '(psl, n') := process_lines_c to_ascii rest psl is_private in
    (psl, 1 + n + n')
  end.

(** psl.go:72-100 and fasttld.go:101-139 trieConstruct, for a file or the built-in list with these
    contents. *)
Definition load_c (to_ascii : bytes -> option bytes) (contents : bytes) (private : bool) : outcome (trie * nat) :=
  let '(psl, n) := process_lines_c to_ascii (split_byte contents 10) no_suffixes false in
  '(t, n') <- build_trie_c (if private then s_all psl else s_public psl) ;;
  Ret (t, 2 * length contents + n + n').
