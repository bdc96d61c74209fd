(** Update.v - model of the functions of psl.go and fasttld.go that use files, network, clock
    and memory: trieConstruct, checkCacheFile, update, Update, New and their helpers.  Log
    messages and closing of files are not modelled. *)

From Verif Require Import Base Str Trie Psl World.
Local Open Scope Z_scope.

(** The errors these functions return, one constructor per place. *)
Inductive io_err :=
| ErrReadList        (* psl.go:77, os.ReadFile *)
| ErrDownload        (* psl.go:115, 120, 122 *)
| ErrNoSource        (* psl.go:165 *)
| ErrNoOp            (* psl.go:197 *)
| ErrOpenCache.      (* psl.go:201, os.OpenFile *)

(** fasttld.go:22 *)
Definition default_psl_file_name : bytes := str "public_suffix_list.dat".
(** fasttld.go:24, in nanoseconds.  The code compares time.Duration.Hours(), a float64, with
    72; the float is the sum of the whole hours, which are exact, and of the rest divided by
    an hour, of which the smallest positive one, 1/3.6e12, is larger than the spacing of
    floats at 72.  So the comparison is exact. *)
Definition psl_max_age : Z := 72 * 3600 * 1000000000.

(** psl.go:19-22 *)
Definition public_suffix_list_sources : list bytes :=
  [str "https://publicsuffix.org/list/public_suffix_list.dat";
   str "https://raw.githubusercontent.com/publicsuffix/list/master/public_suffix_list.dat"].

(** fasttld.go:58-61 SuffixListParams *)
Record list_params := mkListParams { lp_path : bytes; lp_private : bool }.

Section Update.
(** idna.ToASCII, and the constant hardcodedPSL of fallback.go. *)
Variable to_ascii : bytes -> option bytes.
Variable hardcoded_psl : bytes.

(** psl.go:72-84 getPublicSuffixList *)
Definition get_public_suffix_list (path : bytes) : prog (suffixes * option io_err) :=
  b <~ sys_do (ReadFile path) ;;
  match b with
  | None => ret (no_suffixes, Some ErrReadList)
  | Some contents => ret (parse_list to_ascii contents, None)
  end.

(** psl.go:93-100 getHardcodedPublicSuffixList *)
Definition get_hardcoded_public_suffix_list : prog (suffixes * option io_err) :=
  ret (parse_list to_ascii hardcoded_psl, None).

(** fasttld.go:125-129 *)
Fixpoint insert_suffixes (a : nat) (suffix_list : list bytes) : prog unit :=
  match suffix_list with
  | [] => ret tt
  | suffix :: rest =>
    sp <~ Done (reverse (split_byte suffix 46)) ;;
    _ <~ mem_do (Insert a sp) ;;
    insert_suffixes a rest
  end.

(** fasttld.go:101-139 trieConstruct *)
Definition trie_construct (private : bool) (path : bytes) : prog (nat * option io_err) :=
  a <~ mem_do NewTrie ;;
  '(lists, e) <~ (if negb (bytes_eqb path []) then get_public_suffix_list path
                  else get_hardcoded_public_suffix_list) ;;
  match e with
  | Some e => ret (a, Some e)
  | None =>
    let suffix_list := if private : bool then s_all lists else s_public lists in
    _ <~ insert_suffixes a suffix_list ;;
    _ <~ mem_do (MarkWildcards a) ;;
    ret (a, None)
  end.

(** psl.go:103-107 newHardcodedPSL *)
Definition new_hardcoded_psl (n : list_params) : prog (nat * option io_err) :=
  '(a, e) <~ trie_construct (lp_private n) [] ;;
  f <~ mem_do (NewExtractor (mkExtractor [] a (lp_private n))) ;;
  ret (f, e).

(** psl.go:110-125 downloadFile *)
Definition download_file (url : bytes) : prog (bytes * option io_err) :=
  resp <~ sys_do (HttpGet url) ;;
  match resp with
  | NoResponse => ret ([], Some ErrDownload)
  | Response status body complete =>
    if status =? 200
    then ret (body, if complete : bool then None else Some ErrDownload)
    else ret ([], Some ErrDownload)
  end.

(** psl.go:143-166 update *)
Fixpoint update_file (file : nat) (sources : list bytes) : prog (option io_err) :=
  match sources with
  | [] => ret (Some ErrNoSource)
  | source :: rest =>
    '(body, e) <~ download_file source ;;
    match e with
    | Some _ => update_file file rest
    | None =>
      if negb (valid_psl_delimiters body) then update_file file rest
      else
        sought <~ sys_do (SeekStart file) ;;
        if negb sought then update_file file rest
        else
          wrote <~ sys_do (Write file body) ;;
          if negb wrote then update_file file rest
          else ret None
    end
  end.

(** psl.go:175-188 checkCacheFile; the age is in nanoseconds. *)
Definition check_cache_file (path : bytes) : prog (bool * Z) :=
  abs <~ sys_do (Abs (trim_space path)) ;;
  let path := match abs with Some p => p | None => [] end in
  stat <~ sys_do (Stat path) ;;
  age <~ match stat with
         | Some (_, mtime) => now <~ sys_do Now ;; ret (now - mtime)
         | None => ret 0
         end ;;
  contents <~ sys_do (ReadFile path) ;;
  let valid_delimiters := match contents with Some c => valid_psl_delimiters c | None => false end in
  ret (match abs with
       | None => false
       | Some _ =>
         match stat with
         | None => false
         | Some (is_dir, _) => negb is_dir && valid_delimiters
         end
       end, age).

(** psl.go:192-213 Update *)
Definition update (f : nat) : prog (option io_err) :=
  temp <~ sys_do TempDir ;;
  let default_cache_file_path := temp ++ default_psl_file_name in
  x <~ mem_do (ReadExtractor f) ;;
  if negb (bytes_eqb (x_path x) default_cache_file_path) then ret (Some ErrNoOp)
  else
    file <~ sys_do (OpenWrite default_cache_file_path) ;;
    match file with
    | None => ret (Some ErrOpenCache)
    | Some file =>
      update_err <~ update_file file public_suffix_list_sources ;;
      match update_err with
      | Some e => ret (Some e)
      | None =>
        x <~ mem_do (ReadExtractor f) ;;
        '(a, e) <~ trie_construct (x_private x) default_cache_file_path ;;
        match e with
        | None =>
          _ <~ mem_do (StoreTrie f a) ;;
          _ <~ mem_do (StorePath f default_cache_file_path) ;;
          ret None
        | Some e => ret (Some e)
        end
      end
    end.

(** fasttld.go:428-433, the end of New. *)
Definition new_from_cache (n : list_params) (f : nat) (path : bytes) : prog (nat * option io_err) :=
  '(a, e) <~ trie_construct (lp_private n) path ;;
  match e with
  | Some _ => new_hardcoded_psl n
  | None => _ <~ mem_do (StoreTrie f a) ;; ret (f, None)
  end.

(** fasttld.go:403-434 New *)
Definition new (n : list_params) : prog (nat * option io_err) :=
  a <~ mem_do NewTrie ;;
  f <~ mem_do (NewExtractor (mkExtractor (lp_path n) a (lp_private n))) ;;
  '(is_valid, _) <~ check_cache_file (lp_path n) ;;
  if negb is_valid then
    temp <~ sys_do TempDir ;;
    let default_cache_file_path := temp ++ default_psl_file_name in
    opened <~ sys_do (OpenDir temp) ;;
    if negb opened then new_hardcoded_psl n
    else
      _ <~ mem_do (StorePath f default_cache_file_path) ;;
      '(is_valid, age) <~ check_cache_file default_cache_file_path ;;
      if negb is_valid || (age >? psl_max_age) then
        update_err <~ update f ;;
        match update_err with
        | Some _ => new_hardcoded_psl n
        | None => ret (f, None)
        end
      else new_from_cache n f default_cache_file_path
  else new_from_cache n f (lp_path n).
End Update.
