(** TableSpec.v - what a map holds after some assignments (C104). *)

From Verif Require Import Base Str Net Trie Extract Psl World Update Calls Table.

(** The last of the assignments to the key is that of the value. *)
Definition assigned {V : Type} (l : list (bytes * V)) (k : bytes) (v : V) : Prop :=
  exists l1 l2, l = l1 ++ (k, v) :: l2 /\ ~ In k (map fst l2).

(** A map that is first empty, after the assignments one after the other. *)
Fixpoint set_all {V : Type} (hash : bytes -> N) (m : table V) (l : list (bytes * V)) : outcome (table V) :=
  match l with
  | [] => Ret m
  | (k, v) :: l' => m <- table_set hash m k (Some v) ;; set_all hash m l'
  end.
