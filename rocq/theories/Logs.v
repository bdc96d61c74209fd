(** Logs.v - New, Update and Extract with what they log and which handles they close.

    The other models leave this out.  Here the same functions are written down once more, with
    the calls of log.Println and Close, and with errors that say what has failed. *)

From Verif Require Import Base Utf8 Str Net Trie Extract Psl World Update Calls.
Local Open Scope Z_scope.

(** Errors, as far as they differ in what is logged. *)
Inductive failure :=
| ReadFailed (path : bytes)      (* psl.go:74, os.ReadFile *)
| GetFailed (url : bytes)        (* psl.go:113, http.Get *)
| BodyFailed (url : bytes)       (* psl.go:120, afero.ReadAll *)
| BadStatus (status : Z)         (* psl.go:122 *)
| SeekFailed                     (* psl.go:153, file.Seek *)
| WriteFailed                    (* psl.go:157, file.Write *)
| NoSource                       (* psl.go:165 *)
| NoOp                           (* psl.go:197 *)
| OpenFailed (path : bytes)      (* psl.go:199, os.OpenFile *)
| FolderFailed (path : bytes)    (* fasttld.go:410, filesystem.Open *)
| NotAscii (line : bytes)        (* psl.go:38, idna.ToASCII *)
| NotUnicode (message : bytes)   (* fasttld.go:269, idna.ToUnicode *)
| NotPuny (host : bytes).        (* strings.go:239, idnaToPuny.ToASCII *)

(** The arguments of log.Println. *)
Inductive item :=
| Text (s : bytes)
| Number (n : N)                 (* a rune constant is printed as a number *)
| NilError                       (* printed as <nil> *)
| Error (e : failure)
| ErrorStart (e : failure).      (* the message up to and including "idna: invalid label" *)

(** What has to be closed: the folder New opens, the file Update opens, the body of a response. *)
Inductive handle := Folder | File (fd : nat) | Body.

(** Programs that also close handles and log. *)
Inductive work (A : Type) : Type :=
| WDone (a : outcome A)
| WSys {R : Type} (o : sys R) (k : R -> work A)
| WMem {R : Type} (o : mem_op R) (k : R -> work A)
| WClose (h : handle) (k : work A)
| WLog (line : list item) (k : work A).
Arguments WDone {A} a.
Arguments WSys {A R} o k.
Arguments WMem {A R} o k.
Arguments WClose {A} h k.
Arguments WLog {A} line k.

Definition wret {A : Type} (a : A) : work A := WDone (Ret a).
Fixpoint wbind {A B : Type} (p : work A) (k : A -> work B) : work B :=
  match p with
  | WDone (Ret a) => k a
  | WDone Panic => WDone Panic
  | WDone OutOfFuel => WDone OutOfFuel
  | WSys o c => WSys o (fun r => wbind (c r) k)
  | WMem o c => WMem o (fun r => wbind (c r) k)
  | WClose h c => WClose h (wbind c k)
  | WLog line c => WLog line (wbind c k)
  end.
Definition wsys {R : Type} (o : sys R) : work R := WSys o wret.
Definition wmem {R : Type} (o : mem_op R) : work R := WMem o wret.
Definition log_println (line : list item) : work unit := WLog line (wret tt).

(** defer h.Close() in front of the rest [p] of a function: the handle is closed when the
    function returns or panics. *)
Fixpoint deferred {A : Type} (h : handle) (p : work A) : work A :=
  match p with
  | WDone a => WClose h (WDone a)
  | WSys o c => WSys o (fun r => deferred h (c r))
  | WMem o c => WMem o (fun r => deferred h (c r))
  | WClose h' c => WClose h' (deferred h c)
  | WLog line c => WLog line (deferred h c)
  end.

(** Code that neither closes nor logs. *)
Fixpoint lifted {A : Type} (p : prog A) : work A :=
  match p with
  | Done a => WDone a
  | Sys o k => WSys o (fun r => lifted (k r))
  | Mem o k => WMem o (fun r => lifted (k r))
  end.

Notation "x <<~ m ;; k" := (wbind m (fun x => k))
  (at level 61, m at next level, right associativity).
Notation "' p <<~ m ;; k" := (wbind m (fun p => k))
  (at level 61, p pattern, m at next level, right associativity).

(** ** Runs *)

Inductive work_event :=
| Did (e : event)
| WasClosed (h : handle)
| Logged (line : list item).

(** [work_runs] is [runs] of World.v for these programs. *)
Section Runs.
Variable E : Type.
Variable step : forall R : Type, sys R -> E -> R -> E -> Prop.
Fixpoint work_runs {A : Type} (p : work A) (e : E) (m : memory) (tr : list work_event) (e' : E)
         (m' : memory) (r : outcome A) : Prop :=
  match p with
  | WDone a => tr = [] /\ e' = e /\ m' = m /\ r = a
  | WSys o k =>
    exists x e1 tr1, step _ o e x e1 /\ tr = Did (Event o x) :: tr1 /\ work_runs (k x) e1 m tr1 e' m' r
  | WMem o k => let '(x, m1) := mem_step o m in work_runs (k x) e m1 tr e' m' r
  | WClose h k => exists tr1, tr = WasClosed h :: tr1 /\ work_runs k e m tr1 e' m' r
  | WLog line k => exists tr1, tr = Logged line :: tr1 /\ work_runs k e m tr1 e' m' r
  end.
End Runs.
Arguments work_runs {E} step {A} p e m tr e' m' r.

(** ** New and Update *)

Section Logs.
Variable to_ascii : bytes -> option bytes.
Variable hardcoded_psl : bytes.

(** psl.go:30-63 processLine *)
Definition process_line_log (raw_line : bytes) (psl : suffixes) (is_private : bool) : work (suffixes * bool) :=
  let line := trim_space raw_line in
  let is_private := if bytes_eqb private_marker line then true else is_private in
  if (len line =? 0) || has_prefix line (str "//") then wret (psl, is_private)
  else
    match to_ascii line with
    | None =>
      _ <<~ log_println [Text line; Number 124; Error (NotAscii line)] ;;
      wret (psl, is_private)
    | Some suffix =>
      let add l := let l := l ++ [suffix] in
                   if negb (bytes_eqb suffix line) then l ++ [line] else l in
      let psl :=
        if is_private then mkSuffixes (s_public psl) (add (s_private psl)) (s_all psl)
        else mkSuffixes (add (s_public psl)) (s_private psl) (s_all psl) in
      wret (mkSuffixes (s_public psl) (s_private psl) (add (s_all psl)), is_private)
    end.

(** psl.go:79-82 and 95-98 *)
Fixpoint process_lines_log (lines : list bytes) (psl : suffixes) (is_private : bool) : work suffixes :=
  match lines with
  | [] => wret psl
  | line :: rest =>
    '(psl, is_private) <<~ process_line_log line psl is_private ;;
    process_lines_log rest psl is_private
  end.
Definition parse_list_log (contents : bytes) : work suffixes :=
  process_lines_log (split_byte contents 10) no_suffixes false.

(** psl.go:72-84 getPublicSuffixList *)
Definition get_public_suffix_list_log (path : bytes) : work (suffixes * option failure) :=
  b <<~ wsys (ReadFile path) ;;
  match b with
  | None =>
    _ <<~ log_println [Error (ReadFailed path)] ;;
    wret (no_suffixes, Some (ReadFailed path))
  | Some contents => psl <<~ parse_list_log contents ;; wret (psl, None)
  end.

(** psl.go:93-100 getHardcodedPublicSuffixList *)
Definition get_hardcoded_public_suffix_list_log : work (suffixes * option failure) :=
  psl <<~ parse_list_log hardcoded_psl ;; wret (psl, None).

(** fasttld.go:101-139 trieConstruct *)
Definition trie_construct_log (private : bool) (path : bytes) : work (nat * option failure) :=
  a <<~ wmem NewTrie ;;
  '(lists, e) <<~ (if negb (bytes_eqb path []) then get_public_suffix_list_log path
                   else get_hardcoded_public_suffix_list_log) ;;
  match e with
  | Some e =>
    _ <<~ log_println [Error e] ;;
    wret (a, Some e)
  | None =>
    let suffix_list := if private : bool then s_all lists else s_public lists in
    _ <<~ lifted (insert_suffixes a suffix_list) ;;
    _ <<~ wmem (MarkWildcards a) ;;
    wret (a, None)
  end.

(** psl.go:103-107 newHardcodedPSL; [err] is its first argument. *)
Definition new_hardcoded_psl_log (err : option failure) (n : list_params) : work (nat * option failure) :=
  _ <<~ log_println [match err with Some e => Error e | None => NilError end;
                     Text (str "Fallback to hardcoded Public Suffix List")] ;;
  '(a, e) <<~ trie_construct_log (lp_private n) [] ;;
  f <<~ wmem (NewExtractor (mkExtractor [] a (lp_private n))) ;;
  wret (f, e).

(** psl.go:110-125 downloadFile; [HttpGet] includes reading the body (psl.go:120), which is in
    any case read before it is closed. *)
Definition download_file_log (url : bytes) : work (bytes * option failure) :=
  resp <<~ wsys (HttpGet url) ;;
  match resp with
  | NoResponse => wret ([], Some (GetFailed url))
  | Response status body complete =>
    deferred Body
      (if status =? 200
       then wret (body, if complete : bool then None else Some (BodyFailed url))
       else wret ([], Some (BadStatus status)))
  end.

(** psl.go:143-166 update *)
Fixpoint update_file_log (file : nat) (sources : list bytes) : work (option failure) :=
  match sources with
  | [] => wret (Some NoSource)
  | source :: rest =>
    '(body, e) <<~ download_file_log source ;;
    match e with
    | Some e =>
      _ <<~ log_println [Error e] ;;
      update_file_log file rest
    | None =>
      if negb (valid_psl_delimiters body) then update_file_log file rest
      else
        sought <<~ wsys (SeekStart file) ;;
        if negb sought then
          _ <<~ log_println [Error SeekFailed] ;;
          update_file_log file rest
        else
          wrote <<~ wsys (Write file body) ;;
          if negb wrote then
            _ <<~ log_println [Error WriteFailed] ;;
            update_file_log file rest
          else
            _ <<~ log_println [Text (str "Public Suffix List updated.")] ;;
            wret None
    end
  end.

(** psl.go:192-213 Update *)
Definition update_log (f : nat) : work (option failure) :=
  temp <<~ wsys TempDir ;;
  let default_cache_file_path := temp ++ default_psl_file_name in
  x <<~ wmem (ReadExtractor f) ;;
  if negb (bytes_eqb (x_path x) default_cache_file_path) then wret (Some NoOp)
  else
    file <<~ wsys (OpenWrite default_cache_file_path) ;;
    match file with
    | None => wret (Some (OpenFailed default_cache_file_path))
    | Some file =>
      deferred (File file) (
        update_err <<~ update_file_log file public_suffix_list_sources ;;
        match update_err with
        | Some e => wret (Some e)
        | None =>
          x <<~ wmem (ReadExtractor f) ;;
          '(a, e) <<~ trie_construct_log (x_private x) default_cache_file_path ;;
          match e with
          | None =>
            _ <<~ wmem (StoreTrie f a) ;;
            _ <<~ wmem (StorePath f default_cache_file_path) ;;
            wret None
          | Some e => wret (Some e)
          end
        end)
    end.

(** fasttld.go:428-433, the end of New. *)
Definition new_from_cache_log (n : list_params) (f : nat) (path : bytes) : work (nat * option failure) :=
  '(a, e) <<~ trie_construct_log (lp_private n) path ;;
  match e with
  | Some e => new_hardcoded_psl_log (Some e) n
  | None => _ <<~ wmem (StoreTrie f a) ;; wret (f, None)
  end.

(** fasttld.go:403-434 New.  When Update fails (fasttld.go:421) newHardcodedPSL gets [err], the
    error of opening the folder, which is nil there. *)
Definition new_log (n : list_params) : work (nat * option failure) :=
  a <<~ wmem NewTrie ;;
  f <<~ wmem (NewExtractor (mkExtractor (lp_path n) a (lp_private n))) ;;
  '(is_valid, _) <<~ lifted (check_cache_file (lp_path n)) ;;
  if negb is_valid then
    temp <<~ wsys TempDir ;;
    let default_cache_file_path := temp ++ default_psl_file_name in
    opened <<~ wsys (OpenDir temp) ;;
    if negb opened then new_hardcoded_psl_log (Some (FolderFailed temp)) n
    else
      deferred Folder (
        _ <<~ wmem (StorePath f default_cache_file_path) ;;
        '(is_valid, age) <<~ lifted (check_cache_file default_cache_file_path) ;;
        if negb is_valid || (age >? psl_max_age) then
          update_err <<~ update_log f ;;
          match update_err with
          | Some _ => new_hardcoded_psl_log None n
          | None => wret (f, None)
          end
        else new_from_cache_log n f default_cache_file_path)
  else new_from_cache_log n f (lp_path n).
End Logs.

(** ** Extract *)

(** fasttld.go:261-275, and strings.go:238-245 formatAsPunycode *)
Definition convert_host_log (ext : idna) (puny : bool) (netloc : bytes) : work (err + bytes) :=
  match query_unescape netloc with
  | inl e => wret (inl (ErrUnescape e))
  | inr unescaped =>
    if puny then
      match idna_to_puny ext unescaped with
      | Some t => wret (inr t)
      | None =>
        _ <<~ log_println [ErrorStart (NotPuny unescaped)] ;;
        wret (inr [])
      end
    else match idna_to_unicode_err ext unescaped with
         | Some e =>
           _ <<~ log_println [ErrorStart (NotUnicode e)] ;;
           wret (inl (ErrIdna e))
         | None => wret (inr netloc)
         end
  end.

(** fasttld.go:142-275, as [Calls.extract_front]. *)
Definition extract_front_log (ext : idna) (p : url_params)
  : work ((result * option err) + (result * bytes)) :=
  let u := empty_result in
  netloc <<~ WDone (fast_trim (p_url p) whitespace_rune_set TrimBoth) ;;
  let scheme_end := get_scheme_end_index netloc in
  '(u, netloc) <<~ WDone
    (if negb (scheme_end =? -1)
     then a <- slice netloc 0 scheme_end ;; b <- slice netloc scheme_end (len netloc) ;;
          Ret (with_scheme u a, b)
     else Ret (u, netloc)) ;;
  at_idx <<~ WDone (index_last_byte_before netloc 64 invalid_user_info_chars_set) ;;
  '(u, netloc) <<~ WDone
    (if negb (at_idx =? -1)
     then a <- slice netloc 0 at_idx ;; b <- slice netloc (at_idx + 1) (len netloc) ;;
          Ret (with_user_info u a, b)
     else Ret (u, netloc)) ;;
  match scan_host netloc 0 (len netloc) (-1) (-1) with
  | inl e => wret (inl (u, Some e))
  | inr (opening, closing, host_end) =>
    let host_end := if closing =? len netloc - 1 then -1
                    else if negb (closing =? -1) then closing + 1 else host_end in
    '(u, e) <<~ WDone
      (if closing >? opening then
         inner <- slice netloc 1 closing ;;
         v6 <- is_ipv6 inner ;;
         if negb v6 then Ret (u, Some ErrInvalidIPv6)
         else
           trailing_ok <- (if negb (host_end =? -1)
                           then a <- slice netloc host_end (len netloc) ;;
                                Ret (index_any_ascii a end_of_host_delimiters_set =? 0)
                           else Ret true) ;;
           if negb trailing_ok then Ret (u, Some ErrTrailingAfterIPv6)
           else Ret (with_registered_domain (with_domain (with_host_type u HIPv6) inner) inner,
                     None)
       else Ret (u, None)) ;;
    match e with
    | Some e => wret (inl (u, Some e))
    | None =>
      '(after_host, netloc) <<~ WDone
        (if negb (host_end =? -1)
         then a <- slice netloc host_end (len netloc) ;; b <- slice netloc 0 host_end ;; Ret (a, b)
         else Ret ([], netloc)) ;;
      '(u, e) <<~ WDone (port_path u after_host) ;;
      match e with
      | Some e => wret (inl (u, Some e))
      | None =>
        match r_host_type u with
        | HIPv6 => wret (inl (u, None))
        | _ =>
          r <<~ convert_host_log ext (p_to_punycode p) netloc ;;
          match r with
          | inl e => wret (inl (u, Some e))
          | inr host => wret (inr (u, host))
          end
        end
      end
    end
  end.

(** fasttld.go:142-400 Extract, as [Calls.extract_prog]. *)
Definition extract_log (ext : idna) (f : nat) (p : url_params) : work (result * option err) :=
  front <<~ extract_front_log ext p ;;
  match front with
  | inl r => wret r
  | inr (u, host) =>
    x <<~ wmem (ReadExtractor f) ;;
    lifted (extract_host_prog (x_trie x) u host (p_ignore_sub_domains p))
  end.
