(** NewSpec.v - what New and Update do on a file system, completely: which list is used, which
    URLs are asked, what becomes of the cache file.  Independent of the model of New and Update;
    seeking and writing are supposed to succeed, the network to have one answer for each URL. *)

From Verif Require Import Base Chars World ListSpec UpdateSpec.
Local Open Scope Z_scope.

(** The sources, in the order they are tried. *)
Definition the_sources : list bytes :=
  [str "https://publicsuffix.org/list/public_suffix_list.dat";
   str "https://raw.githubusercontent.com/publicsuffix/list/master/public_suffix_list.dat"].

(** The network, and the list it has at a URL. *)
Definition offers (net : bytes -> response) (url body : bytes) : Prop := net url = Response 200 body true /\ has_markers body.
Definition offers_none (net : bytes -> response) (url : bytes) : Prop := forall body, ~ offers net url body.

(** The URLs asked in a run. *)
Definition asked_of (e : event) : list bytes :=
  match e with Event o _ => match o with HttpGet url => [url] | _ => [] end end.
Definition asked (tr : list event) : list bytes := flat_map asked_of tr.

(** Seeking and writing succeeded, and the network answered like [net]. *)
Definition smooth_event (net : bytes -> response) (e : event) : Prop :=
  match e with
  | Event o x => match o in sys R return R -> Prop with
                 | SeekStart _ => fun ok => ok = true
                 | Write _ _ => fun ok => ok = true
                 | HttpGet url => fun resp => resp = net url
                 | _ => fun _ => True
                 end x
  end.
Definition smooth (net : bytes -> response) (tr : list event) : Prop := Forall (smooth_event net) tr.

(** ** Refreshing the cache file *)

Inductive refresh :=
| Closed                  (* the file cannot be opened for writing *)
| NotOffered              (* no source has a list *)
| NewText (text : bytes). (* the file now has this text *)

(** What happens and which URLs are asked: the text of the first list offered is written over
    the beginning of the old text. *)
Inductive refreshes (d : disk) (net : bytes -> response) : refresh -> list bytes -> Prop :=
| refresh_closed : ~ can_write d (default_path d) -> refreshes d net Closed []
| refresh_none : can_write d (default_path d) -> Forall (offers_none net) the_sources ->
    refreshes d net NotOffered the_sources
| refresh_some : forall before url after body old, can_write d (default_path d) ->
    the_sources = before ++ url :: after -> Forall (offers_none net) before -> offers net url body ->
    initial_text d (default_path d) old ->
    refreshes d net (NewText (body ++ skipn (length body) old)) (before ++ [url]).

(** The files after it.  Where there was no cache file, there may be an empty one. *)
Definition files_after (d d' : disk) (x : refresh) : Prop :=
  match x with
  | Closed => d_entry d' = d_entry d
  | NotOffered => forall path,
      (d_name d path <> d_name d (default_path d) /\ at_path d' path = at_path d path)
      \/ (d_name d path = d_name d (default_path d) /\
          ((exists b, at_path d path = Absent b) /\ (exists rd, at_path d' path = Regular [] (d_now d') rd true)
           \/ (exists text mtime rd wr, at_path d path = Regular text mtime rd wr) /\ at_path d' path = at_path d path))
  | NewText text => forall path,
      (d_name d path <> d_name d (default_path d) /\ at_path d' path = at_path d path)
      \/ (d_name d path = d_name d (default_path d) /\ exists rd, at_path d' path = Regular text (d_now d') rd true
          /\ forall text0 mtime0 rd0 wr0, at_path d path = Regular text0 mtime0 rd0 wr0 -> rd = rd0)
  end.

(** The path leads to a readable file with this text. *)
Definition readable (d : disk) (path text : bytes) : Prop := exists mtime wr, at_path d path = Regular text mtime true wr.

(** ** New *)

(** The list of the extractor: the built-in one, or the text of a file, with its path. *)
Inductive list_used :=
| BuiltIn
| ListFile (path text : bytes).

(** [uses d d' path net x y urls]: on disk [d], New with this path uses the list [x] after the
    refresh [y], if any, and asks [urls]; [d'] is the disk at the end, which tells the time, and
    whether a file just created can be read. *)
Inductive uses (d d' : disk) (path : bytes) (net : bytes -> response) : list_used -> option refresh -> list bytes -> Prop :=
| uses_custom : forall p text0 mtime text, trimmed white_space path p -> list_at d p text0 mtime ->
    readable d path text -> uses d d' path net (ListFile path text) None []
| uses_not_custom : forall p text0 mtime, trimmed white_space path p -> list_at d p text0 mtime ->
    (forall text, ~ readable d path text) -> uses d d' path net BuiltIn None []
| uses_no_folder : forall p, trimmed white_space path p -> no_list_at d p ->
    ~ can_open d (d_temp d) -> uses d d' path net BuiltIn None []
| uses_cache : forall p text mtime, trimmed white_space path p -> no_list_at d p -> can_open d (d_temp d) ->
    list_at d (default_path d) text mtime -> d_now d' - mtime <= 72 * 3600 * 1000000000 ->
    uses d d' path net (ListFile (default_path d) text) None []
| uses_refreshed : forall p text urls, trimmed white_space path p -> no_list_at d p -> can_open d (d_temp d) ->
    (forall text mtime, list_at d (default_path d) text mtime -> 72 * 3600 * 1000000000 < d_now d' - mtime) ->
    refreshes d net (NewText text) urls -> readable d' (default_path d) text ->
    uses d d' path net (ListFile (default_path d) text) (Some (NewText text)) urls
| uses_not_refreshed : forall p y urls, trimmed white_space path p -> no_list_at d p -> can_open d (d_temp d) ->
    (forall text mtime, list_at d (default_path d) text mtime -> 72 * 3600 * 1000000000 < d_now d' - mtime) ->
    refreshes d net y urls -> (forall text, y = NewText text -> ~ readable d' (default_path d) text) ->
    uses d d' path net BuiltIn (Some y) urls.

(** Extractor [f] has this list, and remembers its path. *)
Definition holds_list (to_ascii : bytes -> option bytes) (hardcoded : bytes) (m : memory) (f : nat) (private : bool)
    (x : list_used) : Prop :=
  match x with
  | BuiltIn => serves to_ascii m f private hardcoded /\ x_path (m_extractor m f) = []
  | ListFile path text => serves to_ascii m f private text /\ x_path (m_extractor m f) = path
  end.
