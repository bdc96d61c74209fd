(** LogSpec.v - which handles are open, and what is to be logged. *)

From Verif Require Import Base Chars Extract World Update Rfc UrlSpec RuleSpec ListSpec UpdateSpec Logs.
Local Open Scope Z_scope.

(** ** Handles *)

(** What an event opens, and what it needs to be open. *)
Definition opens (e : event) : list handle :=
  match e with
  | Event o x => match o in sys R return R -> list handle with
                 | OpenDir _ => fun ok => if ok then [Folder] else []
                 | OpenWrite _ => fun fd => match fd with Some fd => [File fd] | None => [] end
                 | HttpGet _ => fun resp => match resp with Response _ _ _ => [Body] | NoResponse => [] end
                 | _ => fun _ => []
                 end x
  end.
Definition needs (e : event) : list handle :=
  match e with Event o _ => match o with SeekStart fd => [File fd] | Write fd _ => [File fd] | _ => [] end end.

(** [held tr hs]: after [tr] the handles [hs] are open, the last one first.  Only what was opened
    last is closed, and only what is open is used. *)
Inductive held : list work_event -> list handle -> Prop :=
| held_none : held [] []
| held_did : forall tr hs e, held tr hs -> incl (needs e) hs -> held (tr ++ [Did e]) (opens e ++ hs)
| held_closed : forall tr hs h, held tr (h :: hs) -> held (tr ++ [WasClosed h]) hs
| held_logged : forall tr hs line, held tr hs -> held (tr ++ [Logged line]) hs.

(** ** The events of the other models, and the log *)

Definition did_of (w : work_event) : list event := match w with Did e => [e] | _ => [] end.
Definition plain (tr : list work_event) : list event := flat_map did_of tr.
Definition line_of (w : work_event) : list (list item) := match w with Logged line => [line] | _ => [] end.
Definition log_of (tr : list work_event) : list (list item) := flat_map line_of tr.

(** The errors of Update.v tell apart less. *)
Definition io_of (e : failure) : io_err :=
  match e with
  | ReadFailed _ => ErrReadList
  | NoSource => ErrNoSource
  | NoOp => ErrNoOp
  | OpenFailed _ => ErrOpenCache
  | _ => ErrDownload
  end.
Definition same_result {A B : Type} (g : A -> B) (r : outcome A) : outcome B :=
  match r with Ret a => Ret (g a) | Panic => Panic | OutOfFuel => OutOfFuel end.
Definition new_result (r : nat * option failure) : nat * option io_err := (fst r, option_map io_of (snd r)).

(** ** What is to be logged *)

Definition updated_line : list item := [Text (str "Public Suffix List updated.")].
Definition fallback_line (reason : item) : list item := [reason; Text (str "Fallback to hardcoded Public Suffix List")].

(** A line of a list is logged if it is a rule that has no ASCII form; 124 is the code of '|'. *)
Inductive line_tells (to_ascii : bytes -> option bytes) (line : bytes) : list (list item) -> Prop :=
| line_in_order : ignored_line line \/ (exists text, trimmed white_space line text /\ to_ascii text <> None) ->
    line_tells to_ascii line []
| line_dropped : forall text, trimmed white_space line text -> ~ ignored_text text -> to_ascii text = None ->
    line_tells to_ascii line [[Text text; Number 124; Error (NotAscii text)]].
Definition text_tells (to_ascii : bytes -> option bytes) (text : bytes) (log : list (list item)) : Prop :=
  exists lines logs, has_lines text lines /\ Forall2 (line_tells to_ascii) lines logs /\ log = concat logs.

(** What each event of an Update is answered with in the log. *)
Definition tells (to_ascii : bytes -> option bytes) (e : event) (log : list (list item)) : Prop :=
  match e with
  | Event o x => match o in sys R return R -> Prop with
                 | ReadFile path => fun c =>
                     match c with
                     | Some text => text_tells to_ascii text log
                     | None => log = [[Error (ReadFailed path)]; [Error (ReadFailed path)]]
                     end
                 | SeekStart _ => fun ok => log = if ok : bool then [] else [[Error SeekFailed]]
                 | Write _ _ => fun ok => log = if ok : bool then [updated_line] else [[Error WriteFailed]]
                 | HttpGet url => fun resp =>
                     log = match resp with
                           | NoResponse => [[Error (GetFailed url)]]
                           | Response status _ complete =>
                             if status =? 200 then if complete : bool then [] else [[Error (BodyFailed url)]]
                             else [[Error (BadStatus status)]]
                           end
                 | _ => fun _ => log = []
                 end x
  end.
Definition all_tell (to_ascii : bytes -> option bytes) (tr : list event) (log : list (list item)) : Prop :=
  exists logs, Forall2 (tells to_ascii) tr logs /\ log = concat logs.

(** Looking for a list file, which leaves no trace in the log. *)
Definition looking (e : event) : Prop :=
  match e with
  | Event o _ => match o with
                 | TempDir | Abs _ | Stat _ | Now | ReadFile _ | OpenDir _ => True
                 | _ => False
                 end
  end.
(** The beginning of an Update that is not a no-op, or the whole of one that is. *)
Definition updating (tr : list event) : Prop :=
  exists temp, tr = [Event TempDir temp] \/ exists path fd rest, tr = Event TempDir temp :: Event (OpenWrite path) fd :: rest.
Definition ends_in_list (tr : list event) (text : bytes) : Prop :=
  exists before path, tr = before ++ [Event (ReadFile path) (Some text)].

(** [new_tells … tr log text fallback]: New logs [log] when [tr] happens, it uses the list [text],
    and [fallback] says whether it is for want of another list. *)
Inductive new_tells (to_ascii : bytes -> option bytes) (hardcoded : bytes) (n : list_params)
  : list event -> list (list item) -> bytes -> bool -> Prop :=
| new_list : forall looks path text log, Forall looking looks -> text_tells to_ascii text log ->
    new_tells to_ascii hardcoded n (looks ++ [Event (ReadFile path) (Some text)]) log text false
| new_updated : forall looks rest text log, Forall looking looks -> updating rest -> ends_in_list rest text ->
    all_tell to_ascii rest log ->
    new_tells to_ascii hardcoded n (looks ++ rest) log text false
| new_no_path : forall looks log, Forall looking looks -> lp_path n = [] -> text_tells to_ascii hardcoded log ->
    new_tells to_ascii hardcoded n looks log hardcoded false
| new_no_folder : forall looks temp log, Forall looking looks -> text_tells to_ascii hardcoded log ->
    new_tells to_ascii hardcoded n (looks ++ [Event (OpenDir temp) false])
      (fallback_line (Error (FolderFailed temp)) :: log) hardcoded true
| new_not_read : forall looks path log, Forall looking looks -> text_tells to_ascii hardcoded log ->
    new_tells to_ascii hardcoded n (looks ++ [Event (ReadFile path) None])
      ([Error (ReadFailed path)] :: [Error (ReadFailed path)] :: fallback_line (Error (ReadFailed path)) :: log) hardcoded true
| new_no_update : forall looks rest log1 log2, Forall looking looks -> updating rest -> (forall text, ~ ends_in_list rest text) ->
    all_tell to_ascii rest log1 -> text_tells to_ascii hardcoded log2 ->
    new_tells to_ascii hardcoded n (looks ++ rest) (log1 ++ fallback_line NilError :: log2) hardcoded true.

(** The host of a URL with its percent-escapes replaced. *)
Definition host_text (p : url_params) (d : bytes) : Prop :=
  exists scheme user raw after port path,
    front (p_url p) scheme user (raw ++ after) /\ plain_host raw /\ after_host after port path /\ port_accepted port
    /\ percent_decoded raw d.
(** What Extract logs: why the IDNA library rejects the host. *)
Inductive extract_tells (ext : idna) (p : url_params) : list (list item) -> Prop :=
| tells_not_unicode : forall d x, host_text p d -> p_to_punycode p = false -> idna_to_unicode_err ext d = Some x ->
    extract_tells ext p [[ErrorStart (NotUnicode x)]]
| tells_not_puny : forall d, host_text p d -> p_to_punycode p = true -> idna_to_puny ext d = None ->
    extract_tells ext p [[ErrorStart (NotPuny d)]]
| tells_nothing : (forall d, host_text p d -> if p_to_punycode p then idna_to_puny ext d <> None else idna_to_unicode_err ext d = None) ->
    extract_tells ext p [].
