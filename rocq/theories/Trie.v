(** Trie.v - model of the suffix trie (fasttld.go:74-139). *)

From Verif Require Import Base Str.

(** fasttld.go:76-79.  hashmap.Map[string, *trie] is modelled as an association list
    without duplicate keys.  Every node is allocated by nestedDict for exactly one parent,
    so the pointers form a tree and in-place mutation is functional update (C95). *)
Inductive trie : Type :=
| Node (end_ : bool) (matches : list (bytes * trie)).

Definition end_of (t : trie) : bool := let 'Node e _ := t in e.
Definition matches_of (t : trie) : list (bytes * trie) := let 'Node _ m := t in m.
Definition set_end (t : trie) : trie := let 'Node _ m := t in Node true m.
Definition empty_trie : trie := Node false [].

(** hashmap.Map.Get *)
Fixpoint get (m : list (bytes * trie)) (key : bytes) : option trie :=
  match m with
  | [] => None
  | (k, v) :: m' => if bytes_eqb k key then Some v else get m' key
  end.
Definition child (t : trie) (key : bytes) : option trie := get (matches_of t) key.

(** hashmap.Map.Set *)
Fixpoint put (m : list (bytes * trie)) (key : bytes) (v : trie) : list (bytes * trie) :=
  match m with
  | [] => [(key, v)]
  | (k, w) :: m' => if bytes_eqb k key then (k, v) :: m' else (k, w) :: put m' key v
  end.

(** fasttld.go:85-96 nestedDict *)
Fixpoint nested_dict (dic : trie) (keys : list bytes) : trie :=
  match keys with
  | [] => set_end dic
  | key :: keys' =>
    let sub := match child dic key with Some t => t | None => empty_trie end in
    Node (end_of dic) (put (matches_of dic) key (nested_dict sub keys'))
  end.

(** fasttld.go:131-136: top level nodes with a "*" child are marked as end. *)
Definition mark_wildcard_tlds (t : trie) : trie :=
  Node (end_of t)
       (map (fun '(k, v) =>
               (k, match child v (str "*") with Some _ => set_end v | None => v end))
            (matches_of t)).

(** fasttld.go:125-129: insert the suffixes one by one. *)
Fixpoint insert_all (t : trie) (suffix_list : list bytes) : outcome trie :=
  match suffix_list with
  | [] => Ret t
  | suffix :: rest =>
    sp <- reverse (split_byte suffix 46) ;;
    insert_all (nested_dict t sp) rest
  end.

(** fasttld.go:102-138 without reading the list: the trie of a list of suffixes. *)
Definition build_trie (suffix_list : list bytes) : outcome trie :=
  t <- insert_all empty_trie suffix_list ;;
  Ret (mark_wildcard_tlds t).
