(** CostSpec.v - how many nodes of the list a call looks up. *)

From Verif Require Import Base World.

(** The nodes that [p] looks up, in order, when it runs alone: the root of the trie and the
    labels that lead to the node. *)
Fixpoint looks {A : Type} (p : prog A) (m : memory) : list (nat * list bytes) :=
  match p with
  | Done _ => []
  | Sys _ _ => []
  | Mem o k =>
    match o with ReadNode a path => [(a, path)] | _ => [] end ++ looks (k (fst (mem_step o m))) (snd (mem_step o m))
  end.
