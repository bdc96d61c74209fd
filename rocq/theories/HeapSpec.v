(** HeapSpec.v - when nodes in the memory make up a trie. *)

From Verif Require Import Base Trie Extract RuleSpec World Calls Heap.

(** The node that a path leads to from node [i]. *)
Fixpoint reach (g : region) (i : nat) (path : list bytes) : option nat :=
  match path with
  | [] => Some i
  | k :: rest => match hget (n_matches (g_node g i)) k with Some j => reach g j rest | None => None end
  end.

(** The pointers form a tree with the paths and the end marks of [t]: a node is reached on one
    path only, and a map has one entry per key. *)
Record holds (g : region) (t : trie) : Prop := {
  holds_paths : forall path, reach g 0 path <> None <-> node_at t path <> None;
  holds_ends : forall path i n, reach g 0 path = Some i -> node_at t path = Some n -> n_end (g_node g i) = end_of n;
  holds_tree : forall p q i, reach g 0 p = Some i -> reach g 0 q = Some i -> p = q;
  holds_keys : forall path i, reach g 0 path = Some i -> NoDup (map fst (n_matches (g_node g i))) }.

(** The calls that are running are the same, and those that have an answer have the same. *)
Definition same_thread (ht : hthread) (th : thread) : Prop :=
  ht_number ht = t_number th /\ ht_call ht = t_call th /\ forall r, ht_rest ht = HDone r <-> t_rest th = Done r.
Record same_pool (hq : hpool) (q : pool) : Prop := {
  same_threads : Forall2 same_thread (hp_threads hq) (p_threads q);
  same_known : hp_known hq = p_known q;
  same_count : hp_count hq = p_count q;
  same_trace : hp_trace hq = p_trace q;
  same_extractors : forall f, h_extractor (hp_heap hq) f = m_extractor (p_memory q) f }.

(** The trie whose nodes a call is about to use, and whether it writes them.  New nodes are not
    known to others. *)
Definition writes {R : Type} (o : region_op R) : bool :=
  match o with Put _ _ _ | SetEnd _ => true | _ => false end.
Definition next_access {A : Type} (p : hprog A) : option (nat * bool) :=
  match p with
  | HHeap (On a o) _ => Some (a, writes o)
  | _ => None
  end.
