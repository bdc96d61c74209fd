(** UpdateSpec.v - notions for stating properties of New and Update. *)

From Verif Require Import Base Utf8 Chars Trie World Update ListSpec.
Local Open Scope N_scope.

(** The trie an extractor uses. *)
Definition trie_in (m : memory) (f : nat) : trie := m_trie m (x_trie (m_extractor m f)).

(** Extractor [f] is built from exactly the rules of a list file with this text. *)
Definition serves (to_ascii : bytes -> option bytes) (m : memory) (f : nat) (private : bool) (text : bytes) : Prop :=
  exists rules, used_rules to_ascii text private rules /\ build_trie rules = Ret (trie_in m f).

(** Addresses in use have been handed out before. *)
Definition memory_ok (m : memory) : Prop :=
  forall f, (f < m_next_extractor m)%nat -> (x_trie (m_extractor m f) < m_next_trie m)%nat.

(** What an event did: a download was tried; data was handed over for writing; a file was
    read. *)
Definition download_of (e : event) : option response :=
  match e with
  | Event o x => match o in sys R return R -> option response with
                 | HttpGet _ => fun resp => Some resp
                 | _ => fun _ => None
                 end x
  end.
Definition write_of (e : event) : option (bytes * bool) :=
  match e with
  | Event o x => match o in sys R return R -> option (bytes * bool) with
                 | Write _ data => fun ok => Some (data, ok)
                 | _ => fun _ => None
                 end x
  end.
Definition read_of (e : event) : option (bytes * bytes) :=
  match e with
  | Event o x => match o in sys R return R -> option (bytes * bytes) with
                 | ReadFile path => fun c => match c with Some text => Some (path, text) | None => None end
                 | _ => fun _ => None
                 end x
  end.
Definition downloads (tr : list event) : Prop := exists e resp, In e tr /\ download_of e = Some resp.
Definition downloaded (tr : list event) (body : bytes) : Prop :=
  exists e, In e tr /\ download_of e = Some (Response 200 body true).
Definition wrote (tr : list event) (data : bytes) (ok : bool) : Prop :=
  exists e, In e tr /\ write_of e = Some (data, ok).
Definition was_read (tr : list event) (path text : bytes) : Prop :=
  exists e, In e tr /\ read_of e = Some (path, text).

(** The default cache file. *)
Definition default_path (d : disk) : bytes := d_temp d ++ str "public_suffix_list.dat".

(** A path without surrounding white space. *)
Definition unpadded (path : bytes) : Prop := trimmed white_space path path.

(** Absolute paths lead where the path leads; the empty path leads nowhere, and its absolute
    path, the working directory, is not a file. *)
Definition disk_ok (d : disk) : Prop :=
  (forall p q, p <> [] -> d_abs d p = Some q -> d_name d q = d_name d p)
  /\ at_path d [] = Absent false
  /\ forall q text mtime rd wr, d_abs d [] = Some q -> at_path d q <> Regular text mtime rd wr.

(** The path leads to a readable list file with the section markers, last changed at [mtime]. *)
Definition list_at (d : disk) (path text : bytes) (mtime : Z) : Prop :=
  d_abs d path <> None /\ has_markers text /\ exists w, at_path d path = Regular text mtime true w.
Definition no_list_at (d : disk) (path : bytes) : Prop := forall text mtime, ~ list_at d path text mtime.

(** The temporary folder can be opened; the default cache file can be opened for writing. *)
Definition can_open (d : disk) (path : bytes) : Prop :=
  match at_path d path with Absent _ => False | Directory _ b => b = true | Regular _ _ rd _ => rd = true end.
Definition can_write (d : disk) (path : bytes) : Prop :=
  match at_path d path with Absent b => b = true | Directory _ _ => False | Regular _ _ _ w => w = true end.

(** The text stored at a path, and whether a path leads to a file. *)
Definition stored (d : disk) (path text : bytes) : Prop :=
  exists mtime rd wr, at_path d path = Regular text mtime rd wr.
(** The text an update starts from: that of the file, or nothing if there is none yet. *)
Definition initial_text (d : disk) (path text : bytes) : Prop :=
  stored d path text \/ ((exists b, at_path d path = Absent b) /\ text = []).

(** Sequences of calls of New and Update, with anything happening in the environment. *)
Inductive calls (to_ascii : bytes -> option bytes) (hardcoded : bytes) : memory -> memory -> Prop :=
| no_call : forall m, calls to_ascii hardcoded m m
| call_new : forall m m1 m2 n tr r, calls to_ascii hardcoded m m1 ->
    runs any_step (new to_ascii hardcoded n) tt m1 tr tt m2 r -> calls to_ascii hardcoded m m2
| call_update : forall m m1 m2 f tr r, calls to_ascii hardcoded m m1 -> (f < m_next_extractor m1)%nat ->
    runs any_step (update to_ascii hardcoded f) tt m1 tr tt m2 r -> calls to_ascii hardcoded m m2.

(** One attempt to install the list of a source: the events and whether it succeeded. *)
Inductive attempt (file : nat) (source : bytes) : list event -> bool -> Prop :=
| no_download : forall resp, (forall body, resp <> Response 200 body true) ->
    attempt file source [Event (HttpGet source) resp] false
| no_list : forall body, ~ has_markers body ->
    attempt file source [Event (HttpGet source) (Response 200 body true)] false
| no_seek : forall body, has_markers body ->
    attempt file source [Event (HttpGet source) (Response 200 body true); Event (SeekStart file) false] false
| no_write : forall body, has_markers body ->
    attempt file source [Event (HttpGet source) (Response 200 body true); Event (SeekStart file) true;
                         Event (Write file body) false] false
| installed : forall body, has_markers body ->
    attempt file source [Event (HttpGet source) (Response 200 body true); Event (SeekStart file) true;
                         Event (Write file body) true] true.

(** [patched old new]: [new] arises from [old] by overwriting its beginning with pieces of
    downloaded lists, any number of times. *)
Inductive patched (old : bytes) : bytes -> Prop :=
| patched_same : patched old old
| patched_piece : forall text body k, patched old text -> has_markers body -> (k <= length body)%nat ->
    patched old (firstn k body ++ skipn k text).
