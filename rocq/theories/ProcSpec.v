(** ProcSpec.v - what several processes can make of the cache file. *)

From Verif Require Import Base World UpdateSpec ListSpec.

(** Lists that sources have sent in full, and that have the section markers. *)
Definition offered (ev : list event) (body : bytes) : Prop := downloaded ev body /\ has_markers body.

(** Byte [b] at position [i] is at this position in one of the lists. *)
Definition from_list (lists : bytes -> Prop) (i : nat) (b : N) : Prop :=
  exists body, lists body /\ nth_error body i = Some b.

(** The beginning of [old] is covered by bytes of the lists. *)
Definition overlaid (lists : bytes -> Prop) (old text : bytes) : Prop :=
  exists top, text = top ++ skipn (length top) old /\ forall i b, nth_error top i = Some b -> from_list lists i b.

(** Every byte is that of [old] or of one of the lists at the same position. *)
Definition patchwork (lists : bytes -> Prop) (old text : bytes) : Prop :=
  (length old <= length text)%nat
  /\ forall i b, nth_error text i = Some b -> nth_error old i = Some b \/ from_list lists i b.
