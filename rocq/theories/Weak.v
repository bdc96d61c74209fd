(** Weak.v - calls that run at the same time on a memory that orders nothing by itself.

    In Calls.v and Heap.v every access sees the effect of the previous one.  Neither the Go memory
    model nor the processors promise that: the package has no locks (psl.go:192-213 Update writes
    f.tldTrie and f.cacheFilePath, fasttld.go:142-400 Extract reads f.tldTrie and the nodes, with
    nothing between them), so that a goroutine may see an object as it was before other
    goroutines have written it, and may see their writes to different objects in any order.

    Here the memory keeps all the values an object has had, and every goroutine has a view that
    says which of them it can no longer miss: those it has written or read, and those written in
    calls that had ended before its own began.  The programs are those of Heap.v. *)

From Verif Require Import Base Utf8 Str Net Trie Extract Psl World Update Calls Heap.
From Coq Require Import Permutation.

(** The objects: nodes (fasttld.go:76-79), and the fields of extractors that change after they
    were made (fasttld.go:29-33).  includePrivateSuffix is written once, before New returns. *)
Inductive location :=
| NodeAt (a i : nat)
| PathAt (f : nat)
| TrieAt (f : nat).
Definition location_eqb (l l' : location) : bool :=
  match l, l' with
  | NodeAt a i, NodeAt a' i' => Nat.eqb a a' && Nat.eqb i i'
  | PathAt f, PathAt f' | TrieAt f, TrieAt f' => Nat.eqb f f'
  | _, _ => false
  end.
Definition put_at {V : Type} (m : location -> V) (l : location) (v : V) : location -> V :=
  fun l' => if location_eqb l' l then v else m l'.

Inductive value :=
| NodeValue (n : hnode)
| PathValue (path : bytes)
| TrieValue (a : nat).
Definition as_node (v : value) : hnode := match v with NodeValue n => n | _ => mkNode false [] end.
Definition as_path (v : value) : bytes := match v with PathValue path => path | _ => [] end.
Definition as_trie (v : value) : nat := match v with TrieValue a => a | _ => 0 end.

(** The values of an object, [c_value 0] being the one before the first write, and the number of
    the last one. *)
Record cell := mkCell { c_value : nat -> value; c_last : nat }.
Definition written_to (c : cell) (v : value) : cell := mkCell (upd (c_value c) (S (c_last c)) v) (S (c_last c)).
Definition latest (c : cell) : value := c_value c (c_last c).

(** [w_count], [w_next], [w_next_extractor]: what is allocated.  The allocator is ordered by
    itself. *)
Record weak := mkWeak {
  w_cell : location -> cell; w_count : nat -> nat; w_next : nat;
  w_private : nat -> bool; w_next_extractor : nat }.
(** The number of the oldest value that can still be seen. *)
Definition view : Type := location -> nat.

Definition weak_write (w : weak) (l : location) (x : value) : weak :=
  mkWeak (put_at (w_cell w) l (written_to (w_cell w l) x)) (w_count w) (w_next w) (w_private w) (w_next_extractor w).
Definition sees_write (w : weak) (v : view) (l : location) : view := put_at v l (S (c_last (w_cell w l))).
(** A read gives any value that is not too old. *)
Definition weak_read (w : weak) (v : view) (l : location) (x : value) (v' : view) : Prop :=
  exists k, v l <= k /\ k <= c_last (w_cell w l) /\ x = c_value (w_cell w l) k /\ v' = put_at v l k.

(** A map access reads the node; Set and the assignment to end read and write it. *)
Definition weak_on {R : Type} (a : nat) (o : region_op R) (w : weak) (v : view) (x : R) (w' : weak) (v' : view) : Prop :=
  match o in region_op R return R -> Prop with
  | NewNode => fun x =>
      let i := w_count w a in
      let w1 := mkWeak (w_cell w) (upd (w_count w) a (S i)) (w_next w) (w_private w) (w_next_extractor w) in
      x = i /\ w' = weak_write w1 (NodeAt a i) (NodeValue (mkNode false [])) /\ v' = sees_write w v (NodeAt a i)
  | Get i key => fun x => exists n, weak_read w v (NodeAt a i) n v' /\ x = hget (n_matches (as_node n)) key /\ w' = w
  | Put i key j => fun _ => exists n v1, weak_read w v (NodeAt a i) n v1 /\ v' = sees_write w v1 (NodeAt a i)
      /\ w' = weak_write w (NodeAt a i) (NodeValue (mkNode (n_end (as_node n)) (hput (n_matches (as_node n)) key j)))
  | Scan i => fun x => exists n, weak_read w v (NodeAt a i) n v' /\ Permutation x (n_matches (as_node n)) /\ w' = w
  | Len i => fun x => exists n, weak_read w v (NodeAt a i) n v' /\ x = len (n_matches (as_node n)) /\ w' = w
  | ReadEnd i => fun x => exists n, weak_read w v (NodeAt a i) n v' /\ x = n_end (as_node n) /\ w' = w
  | SetEnd i => fun _ => exists n v1, weak_read w v (NodeAt a i) n v1 /\ v' = sees_write w v1 (NodeAt a i)
      /\ w' = weak_write w (NodeAt a i) (NodeValue (mkNode true (n_matches (as_node n))))
  end x.

Definition weak_step {R : Type} (o : heap_op R) (w : weak) (v : view) (x : R) (w' : weak) (v' : view) : Prop :=
  match o in heap_op R return R -> Prop with
  | On a o => fun x => weak_on a o w v x w' v'
  | NewRoot => fun x =>
      let a := w_next w in
      let w1 := mkWeak (w_cell w) (upd (w_count w) a 1) (S a) (w_private w) (w_next_extractor w) in
      x = a /\ w' = weak_write w1 (NodeAt a 0) (NodeValue (mkNode false [])) /\ v' = sees_write w v (NodeAt a 0)
  | MakeExtractor y => fun x =>
      let f := w_next_extractor w in
      let w1 := mkWeak (w_cell w) (w_count w) (w_next w) (upd (w_private w) f (x_private y)) (S f) in
      x = f /\ w' = weak_write (weak_write w1 (PathAt f) (PathValue (x_path y))) (TrieAt f) (TrieValue (x_trie y))
      /\ v' = sees_write w (sees_write w v (PathAt f)) (TrieAt f)
  | GetExtractor f => fun x => exists p t v1, weak_read w v (PathAt f) p v1 /\ weak_read w v1 (TrieAt f) t v'
      /\ x = mkExtractor (as_path p) (as_trie t) (w_private w f) /\ w' = w
  | PutPath f path => fun _ => w' = weak_write w (PathAt f) (PathValue path) /\ v' = sees_write w v (PathAt f)
  | PutTrie f a => fun _ => w' = weak_write w (TrieAt f) (TrieValue a) /\ v' = sees_write w v (TrieAt f)
  end x.

(** ** Goroutines, as in Heap.v *)

Record wthread := mkWThread { wt_number : nat; wt_call : call; wt_rest : hprog answer; wt_view : view }.
(** [wp_ended]: what can no longer be missed in calls that begin now, since it was seen in calls
    that have ended.  A program that lets one call begin after another has ended orders the two,
    be it by one goroutine making both calls. *)
Record wpool := mkWPool { wp_weak : weak; wp_known : list nat; wp_threads : list wthread; wp_count : nat;
                          wp_trace : list event; wp_ended : view }.
Definition join (v1 v2 : view) : view := fun l => Nat.max (v1 l) (v2 l).

Definition weak_advance (w : weak) (v : view) (p : hprog answer) (tr : list event) (w' : weak) (v' : view) (p' : hprog answer) : Prop :=
  match p with
  | HDone _ => False
  | HSys o k => w' = w /\ v' = v /\ exists x, tr = [Event o x] /\ p' = k x
  | HHeap o k => tr = [] /\ exists x, weak_step o w v x w' v' /\ p' = k x
  end.

Section Pool.
Variable to_ascii : bytes -> option bytes.
Variable hardcoded : bytes.
Variable ext : idna.

Inductive wpool_step : wpool -> wpool -> Prop :=
| wstarts : forall w known ts n tr d c, may_call known c ->
    wpool_step (mkWPool w known ts n tr d)
               (mkWPool w known (ts ++ [mkWThread n c (heap_program to_ascii hardcoded ext c) d]) (S n) tr d)
| wworks : forall w known ts1 i c p v ts2 n tr d tr' w' v' p', weak_advance w v p tr' w' v' p' ->
    wpool_step (mkWPool w known (ts1 ++ mkWThread i c p v :: ts2) n tr d)
               (mkWPool w' known (ts1 ++ mkWThread i c p' v' :: ts2) n (tr ++ tr') d)
| wreturns : forall w known ts1 i c r v ts2 n tr d,
    wpool_step (mkWPool w known (ts1 ++ mkWThread i c (HDone r) v :: ts2) n tr d)
               (mkWPool w (returned r ++ known) (ts1 ++ ts2) n tr (join d v)).

Inductive wpool_steps : wpool -> wpool -> Prop :=
| wsteps_none : forall q, wpool_steps q q
| wsteps_more : forall q1 q2 q3, wpool_steps q1 q2 -> wpool_step q2 q3 -> wpool_steps q1 q3.

Definition first_cell (l : location) : cell :=
  mkCell (fun _ => match l with NodeAt _ _ => NodeValue (mkNode false []) | PathAt _ => PathValue [] | TrieAt _ => TrieValue 0 end) 0.
Definition first_wpool : wpool :=
  mkWPool (mkWeak first_cell (fun _ => 1) 0 (fun _ => false) 0) [] [] 0 [] (fun _ => 0).
End Pool.
