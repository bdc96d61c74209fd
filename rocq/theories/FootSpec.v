(** FootSpec.v - which files and which URLs a call touches, whatever the environment answers. *)

From Verif Require Import Base Chars World ListSpec UpdateSpec NewSpec.

(** The answers for the temporary folder and for absolute paths. *)
Definition temp_of (e : event) : list bytes :=
  match e with
  | Event o x => match o in sys R return R -> list bytes with TempDir => fun t => [t] | _ => fun _ => [] end x
  end.
Definition abs_of (e : event) : list bytes :=
  match e with
  | Event o x => match o in sys R return R -> list bytes with
                 | Abs _ => fun p => match p with Some p => [p] | None => [] end
                 | _ => fun _ => []
                 end x
  end.
(** A file opened for writing, and its handle if this succeeded. *)
Definition open_of (e : event) : list (bytes * option nat) :=
  match e with
  | Event o x => match o in sys R return R -> list (bytes * option nat) with
                 | OpenWrite path => fun fd => [(path, fd)]
                 | _ => fun _ => []
                 end x
  end.
(** The handle used for seeking or writing. *)
Definition handle_of (e : event) : option nat :=
  match e with Event o _ => match o with SeekStart fd => Some fd | Write fd _ => Some fd | _ => None end end.
(** The file whose contents are asked for. *)
Definition read_path_of (e : event) : option bytes :=
  match e with Event o _ => match o with ReadFile path => Some path | _ => None end end.

Definition cache_path (tr : list event) (path : bytes) : Prop :=
  exists temp, In temp (flat_map temp_of tr) /\ path = temp ++ str "public_suffix_list.dat".

(** What happened before an event, and the event, in a run of New or Update. *)
Record modest_event (may_read : list event -> bytes -> Prop) (tr : list event) (e : event) : Prop := {
  modest_open : forall path fd, In (path, fd) (open_of e) -> cache_path tr path /\ flat_map open_of tr = [];
  modest_handle : forall fd, handle_of e = Some fd -> exists path, In (path, Some fd) (flat_map open_of tr);
  modest_write : forall data ok, write_of e = Some (data, ok) -> has_markers data /\ downloaded tr data;
  modest_read : forall path, read_path_of e = Some path -> may_read tr path
}.
(** The sources are asked in order and at most once each; at most one file is opened for
    writing, namely the default cache file; nothing is written anywhere else, and nothing but
    lists with the markers that have been downloaded in this run. *)
Definition modest (may_read : list event -> bytes -> Prop) (tr : list event) : Prop :=
  (exists k, asked tr = firstn k the_sources) /\
  forall tr1 e tr2, tr = tr1 ++ e :: tr2 -> modest_event may_read tr1 e.

(** The files New may read: the one given, its absolute path, the cache file and its absolute
    path.  Where there is no absolute path, the empty path is tried. *)
Definition new_reads (given : bytes) (tr : list event) (path : bytes) : Prop :=
  path = given \/ In path (flat_map abs_of tr) \/ path = [] \/ cache_path tr path.
