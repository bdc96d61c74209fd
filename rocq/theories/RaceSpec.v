(** RaceSpec.v - what it means that two calls race: both are about to use the same part of the
    memory, and one of them is about to write it.  The package has no locks, so that nothing
    orders the two operations. *)

From Verif Require Import Base Trie Extract World Update Calls.

(** The fields of an extractor, and the nodes of a trie. *)
Inductive place :=
| PathField (f : nat)
| TrieField (f : nat)
| PrivateField (f : nat)
| TrieNodes (a : nat).

(** The places an operation reads or writes.  New objects are not known to others. *)
Definition touches {R : Type} (o : mem_op R) (l : place) (write : bool) : Prop :=
  match o with
  | NewTrie | NewExtractor _ => False
  | Insert a _ | MarkWildcards a => l = TrieNodes a /\ write = true
  | ReadExtractor f => (l = PathField f \/ l = TrieField f \/ l = PrivateField f) /\ write = false
  | StorePath f _ => l = PathField f /\ write = true
  | StoreTrie f _ => l = TrieField f /\ write = true
  | ReadNode a _ => l = TrieNodes a /\ write = false
  end.
Definition about_to (th : thread) (l : place) (write : bool) : Prop :=
  match t_rest th with Mem o _ => touches o l write | _ => False end.

Definition race (q : pool) (l : place) (th1 th2 : thread) : Prop :=
  (exists ts1 ts2 ts3, p_threads q = ts1 ++ th1 :: ts2 ++ th2 :: ts3)
  /\ ((about_to th1 l true /\ exists w, about_to th2 l w) \/ (about_to th2 l true /\ exists w, about_to th1 l w)).

Definition call_on (f : nat) (c : call) : Prop := c = CallUpdate f \/ exists p, c = CallExtract f p.
