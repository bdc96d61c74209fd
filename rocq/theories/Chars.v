(** Chars.v - characters in byte strings, used to specify scanning and trimming.  Nothing
    here is used by the model. *)

From Verif Require Import Base Utf8.
Local Open Scope N_scope.

(** Unicode scalar values. *)
Definition valid_rune (r : rune) : Prop := r < 55296 \/ (57343 < r /\ r <= 1114111).

(** Sets of proper characters (none of the code's sets contains U+FFFD). *)
Definition good_set (chars : list rune) : Prop :=
  Forall (fun r => valid_rune r /\ r <> rune_error) chars.

Section Chars.
Variable chars : list rune.

(** A string ends (starts) with a character of the set. *)
Definition ends (s : bytes) : Prop := exists p r, In r chars /\ s = p ++ encode r.
Definition starts (s : bytes) : Prop := exists r q, In r chars /\ s = encode r ++ q.
(** A string contains no character of the set. *)
Definition free (s : bytes) : Prop := forall p r q, In r chars -> s <> p ++ encode r ++ q.

(** Strings of characters of the set. *)
Inductive star : bytes -> Prop :=
| star_nil : star []
| star_cons : forall r w, In r chars -> star w -> star (encode r ++ w).

(** [m] is [s] without the surrounding set characters. *)
Definition trimmed (s m : bytes) : Prop :=
  exists l r, s = l ++ m ++ r /\ star l /\ star r /\ ~ starts m /\ ~ ends m.
(** Only on the left, or only on the right. *)
Definition trimmed_left (s m : bytes) : Prop := exists l, s = l ++ m /\ star l /\ ~ starts m.
Definition trimmed_right (s m : bytes) : Prop := exists r, s = m ++ r /\ star r /\ ~ ends m.
End Chars.
