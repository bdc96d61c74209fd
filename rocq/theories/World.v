(** World.v - programs that use the file system, the network, the clock and the memory, and
    what it means to run them.

    A Go function with effects is modelled as a [prog]: a tree of operations, each followed
    by the rest of the function for every possible answer.  Since programs are inductive,
    every modelled function returns as soon as its operations do. *)

From Verif Require Import Base Trie.

(** Answer of http.Get and of reading the body: no response, or a status code, the bytes
    of the body that arrived, and whether reading it succeeded. *)
Inductive response := NoResponse | Response (status : Z) (body : bytes) (complete : bool).

(** Operations on the environment.  [None] and [false] are error results. *)
Inductive sys : Type -> Type :=
| TempDir : sys bytes                                  (* afero.GetTempDir(fs, "") *)
| Abs (path : bytes) : sys (option bytes)              (* filepath.Abs *)
| Stat (path : bytes) : sys (option (bool * Z))        (* os.Stat: IsDir, ModTime in ns *)
| Now : sys Z                                          (* time.Now in ns *)
| ReadFile (path : bytes) : sys (option bytes)         (* os.ReadFile *)
| OpenDir (path : bytes) : sys bool                    (* afero.OsFs.Open *)
| OpenWrite (path : bytes) : sys (option nat)          (* os.OpenFile, O_CREATE|O_WRONLY *)
| SeekStart (fd : nat) : sys bool                      (* file.Seek(0, 0) *)
| Write (fd : nat) (data : bytes) : sys bool           (* file.Write *)
| HttpGet (url : bytes) : sys response.                (* http.Get, afero.ReadAll *)

(** fasttld.go:29-33 FastTLD; tldTrie is the address of a trie. *)
Record extractor := mkExtractor { x_path : bytes; x_trie : nat; x_private : bool }.

(** Operations on the memory.  Addresses are numbers.  A trie is reached through the address
    of its root; [ReadNode a path] reads the node below root [a] that the labels [path] lead
    to: whether it is an end, and whether it has children. *)
Inductive mem_op : Type -> Type :=
| NewTrie : mem_op nat                                 (* &trie{} *)
| Insert (a : nat) (keys : list bytes) : mem_op unit   (* nestedDict *)
| MarkWildcards (a : nat) : mem_op unit                (* fasttld.go:131-136 *)
| NewExtractor (x : extractor) : mem_op nat            (* &FastTLD{...} *)
| ReadExtractor (f : nat) : mem_op extractor
| StorePath (f : nat) (path : bytes) : mem_op unit     (* f.cacheFilePath = path *)
| StoreTrie (f : nat) (a : nat) : mem_op unit          (* f.tldTrie = a *)
| ReadNode (a : nat) (path : list bytes) : mem_op (option (bool * bool)).

Inductive prog (A : Type) : Type :=
| Done (a : outcome A)
| Sys {R : Type} (o : sys R) (k : R -> prog A)
| Mem {R : Type} (o : mem_op R) (k : R -> prog A).
Arguments Done {A} a.
Arguments Sys {A R} o k.
Arguments Mem {A R} o k.

Definition ret {A : Type} (a : A) : prog A := Done (Ret a).

Fixpoint pbind {A B : Type} (p : prog A) (k : A -> prog B) : prog B :=
  match p with
  | Done (Ret a) => k a
  | Done Panic => Done Panic
  | Done OutOfFuel => Done OutOfFuel
  | Sys o c => Sys o (fun r => pbind (c r) k)
  | Mem o c => Mem o (fun r => pbind (c r) k)
  end.

Definition sys_do {R : Type} (o : sys R) : prog R := Sys o ret.
Definition mem_do {R : Type} (o : mem_op R) : prog R := Mem o ret.

Notation "x <~ m ;; k" := (pbind m (fun x => k))
  (at level 61, m at next level, right associativity).
Notation "' p <~ m ;; k" := (pbind m (fun p => k))
  (at level 61, p pattern, m at next level, right associativity).

(** ** Memory *)

Record memory := mkMemory {
  m_trie : nat -> trie; m_next_trie : nat;
  m_extractor : nat -> extractor; m_next_extractor : nat }.

Definition upd {A : Type} (f : nat -> A) (a : nat) (v : A) : nat -> A :=
  fun b => if Nat.eqb b a then v else f b.
Definition set_trie (m : memory) (a : nat) (t : trie) : memory :=
  mkMemory (upd (m_trie m) a t) (m_next_trie m) (m_extractor m) (m_next_extractor m).
Definition set_extractor (m : memory) (f : nat) (x : extractor) : memory :=
  mkMemory (m_trie m) (m_next_trie m) (upd (m_extractor m) f x) (m_next_extractor m).

Fixpoint node_at (t : trie) (path : list bytes) : option trie :=
  match path with
  | [] => Some t
  | k :: rest => match child t k with Some t' => node_at t' rest | None => None end
  end.
Definition node_info (t : trie) : bool * bool :=
  (end_of t, match matches_of t with [] => false | _ => true end).

Definition mem_step {R : Type} (o : mem_op R) (m : memory) : R * memory :=
  match o in mem_op R return R * memory with
  | NewTrie =>
    let a := m_next_trie m in
    (a, mkMemory (upd (m_trie m) a empty_trie) (S a) (m_extractor m) (m_next_extractor m))
  | Insert a keys => (tt, set_trie m a (nested_dict (m_trie m a) keys))
  | MarkWildcards a => (tt, set_trie m a (mark_wildcard_tlds (m_trie m a)))
  | NewExtractor x =>
    let f := m_next_extractor m in
    (f, mkMemory (m_trie m) (m_next_trie m) (upd (m_extractor m) f x) (S f))
  | ReadExtractor f => (m_extractor m f, m)
  | StorePath f path =>
    let x := m_extractor m f in
    (tt, set_extractor m f (mkExtractor path (x_trie x) (x_private x)))
  | StoreTrie f a =>
    let x := m_extractor m f in
    (tt, set_extractor m f (mkExtractor (x_path x) a (x_private x)))
  | ReadNode a path => (option_map node_info (node_at (m_trie m a) path), m)
  end.

(** ** Runs *)

(** What happened: an operation on the environment and its answer. *)
Inductive event :=
| Event {R : Type} (o : sys R) (answer : R).

Section Runs.
Variable E : Type.
(** [step o e r e']: operation [o] in environment [e] may answer [r] and leave [e']. *)
Variable step : forall R : Type, sys R -> E -> R -> E -> Prop.

(** [runs p e m tr e' m' r]: program [p], started in environment [e] and memory [m], may end
    with outcome [r] in [e'] and [m'] after the events [tr]. *)
Fixpoint runs {A : Type} (p : prog A) (e : E) (m : memory) (tr : list event) (e' : E)
         (m' : memory) (r : outcome A) : Prop :=
  match p with
  | Done a => tr = [] /\ e' = e /\ m' = m /\ r = a
  | Sys o k =>
    exists x e1 tr1, step _ o e x e1 /\ tr = Event o x :: tr1 /\ runs (k x) e1 m tr1 e' m' r
  | Mem o k => let '(x, m1) := mem_step o m in runs (k x) e m1 tr e' m' r
  end.

(** [reaches p e m e']: [e'] is the environment at some moment of a run of [p], including the
    moments inside an operation: [during o e e'] says that [e'] may be seen while [o] is at
    work. *)
Variable during : forall R : Type, sys R -> E -> E -> Prop.
Fixpoint reaches {A : Type} (p : prog A) (e : E) (m : memory) (e' : E) : Prop :=
  e' = e \/
  match p with
  | Done _ => False
  | Sys o k =>
    during _ o e e' \/ exists x e1, step _ o e x e1 /\ reaches (k x) e1 m e'
  | Mem o k => let '(x, m1) := mem_step o m in reaches (k x) e m1 e'
  end.
End Runs.
Arguments runs {E} step {A} p e m tr e' m' r.
Arguments reaches {E} step during {A} p e m e'.

(** An environment about which nothing is known: every answer is possible at any time.  It
    includes failing disks, other processes, moving clocks. *)
Definition any_step (R : Type) (o : sys R) (e : unit) (x : R) (e' : unit) : Prop := True.

(** ** A file system *)

(** What a path leads to.  [creatable]: a file can be created there. *)
Inductive entry :=
| Absent (creatable : bool)
| Directory (mtime : Z) (openable : bool)
| Regular (contents : bytes) (mtime : Z) (readable writable : bool).

Record disk := mkDisk {
  d_temp : bytes;                  (* temporary folder, with trailing separator *)
  d_abs : bytes -> option bytes;   (* filepath.Abs *)
  d_name : bytes -> N;             (* the object a path leads to (links, relative paths, ...) *)
  d_entry : N -> entry;
  d_fd : nat -> N * nat;           (* open files: object and offset *)
  d_next_fd : nat;
  d_now : Z }.

Definition upd_entry (f : N -> entry) (n : N) (x : entry) : N -> entry :=
  fun n' => if N.eqb n' n then x else f n'.
Definition with_entry (d : disk) (n : N) (x : entry) : disk :=
  mkDisk (d_temp d) (d_abs d) (d_name d) (upd_entry (d_entry d) n x) (d_fd d) (d_next_fd d) (d_now d).
Definition with_fd (d : disk) (fd : nat) (x : N * nat) : disk :=
  mkDisk (d_temp d) (d_abs d) (d_name d) (d_entry d) (upd (d_fd d) fd x) (d_next_fd d) (d_now d).
Definition with_new_fd (d : disk) (x : N * nat) : disk :=
  mkDisk (d_temp d) (d_abs d) (d_name d) (d_entry d) (upd (d_fd d) (d_next_fd d) x)
         (S (d_next_fd d)) (d_now d).
Definition with_now (d : disk) (t : Z) : disk :=
  mkDisk (d_temp d) (d_abs d) (d_name d) (d_entry d) (d_fd d) (d_next_fd d) t.
Definition at_path (d : disk) (path : bytes) : entry := d_entry d (d_name d path).

(** Writing [data] at [offset]: bytes before and after stay, a gap is filled with zeros. *)
Definition overwrite (old : bytes) (offset : nat) (data : bytes) : bytes :=
  firstn offset (old ++ repeat 0%N (offset - length old)) ++ data
  ++ skipn (offset + length data) old.

(** [data] is written through [fd]. *)
Definition written (d : disk) (fd : nat) (data : bytes) : disk :=
  let '(n, offset) := d_fd d fd in
  match d_entry d n with
  | Regular old _ rd wr =>
    with_fd (with_entry d n (Regular (overwrite old offset data) (d_now d) rd wr))
            fd (n, (offset + length data)%nat)
  | _ => d
  end.

(** The disk does what it is told, except that seeking and writing may fail (a failed write
    may have written a part), a created file may be unreadable, time passes when it is looked
    at, and the network is free to answer anything.  No other process interferes. *)
Definition disk_step (R : Type) (o : sys R) : disk -> R -> disk -> Prop :=
  match o in sys R return disk -> R -> disk -> Prop with
  | TempDir => fun d x d' => x = d_temp d /\ d' = d
  | Abs p => fun d x d' => x = d_abs d p /\ d' = d
  | Stat p => fun d x d' => d' = d /\
      x = match at_path d p with
          | Absent _ => None
          | Directory t _ => Some (true, t)
          | Regular _ t _ _ => Some (false, t)
          end
  | Now => fun d x d' => (d_now d <= x)%Z /\ d' = with_now d x
  | ReadFile p => fun d x d' => d' = d /\
      x = match at_path d p with Regular c _ true _ => Some c | _ => None end
  | OpenDir p => fun d x d' => d' = d /\
      x = match at_path d p with
          | Absent _ => false
          | Directory _ b => b
          | Regular _ _ rd _ => rd
          end
  | OpenWrite p => fun d x d' =>
      match at_path d p with
      | Absent true => exists rd,
          x = Some (d_next_fd d) /\
          d' = with_new_fd (with_entry d (d_name d p) (Regular [] (d_now d) rd true)) (d_name d p, 0%nat)
      | Regular _ _ _ true => x = Some (d_next_fd d) /\ d' = with_new_fd d (d_name d p, 0%nat)
      | _ => x = None /\ d' = d
      end
  | SeekStart fd => fun d x d' =>
      (x = true /\ d' = with_fd d fd (fst (d_fd d fd), 0%nat)) \/ (x = false /\ d' = d)
  | Write fd data => fun d x d' =>
      (x = true /\ d' = written d fd data)
      \/ (x = false /\ exists k, (k < length data)%nat /\ d' = written d fd (firstn k data))
      \/ (x = false /\ d' = d)
  | HttpGet url => fun d x d' => d' = d
  end.

(** While data is being written, a part of it is on the disk. *)
Definition disk_during (R : Type) (o : sys R) (d d' : disk) : Prop :=
  match o with
  | Write fd data => exists k, (k <= length data)%nat /\ d' = written d fd (firstn k data)
  | _ => False
  end.
