(** CrashSpec.v - what a sequence of interrupted writes can leave: terms of C92. *)

From Verif Require Import Base ListSpec UpdateSpec.

(** [layered c old new]: [new] comes from [old] by writing at most [c] lists over its
    beginning, each of them only in part, except that the last may be written whole. *)
Fixpoint layered (c : nat) (old new : bytes) : Prop :=
  match c with
  | O => new = old
  | S c => layered c old new
      \/ exists body, has_markers body /\
         (new = body ++ skipn (length body) old
          \/ exists k, (k < length body)%nat /\ layered c (firstn k body ++ skipn k old) new)
  end.
