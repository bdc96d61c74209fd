(** SizeSpec.v - how large a suffix list is in memory. *)

From Verif Require Import Base Trie RuleSpec.

(** The number of nodes of a trie, with its root. *)
Fixpoint nodes (t : trie) : nat :=
  match t with
  | Node _ m => S ((fix all (m : list (bytes * trie)) : nat := match m with [] => 0 | (_, v) :: m' => nodes v + all m' end) m)
  end.

(** The labels of a rule and of what it ends in, from the right: "co.uk" leads to [uk] and to
    [uk; co]. *)
Definition leads_to (rules : list bytes) (p : list bytes) : Prop :=
  exists rule rest, In rule rules /\ rule_path rule = p ++ rest.

(** The number of labels of all rules. *)
Definition labels_in (rules : list bytes) : nat := list_sum (map (fun r => length (rule_path r)) rules).
