(** BuiltinSpec.v - what is assumed about idna.ToASCII on the built-in list, and where the rules
    of the list are not regular. *)

From Verif Require Import Base Builtin.
Local Open Scope N_scope.

(** [to_ascii] behaves like idna.ToASCII on the lines of the list: it leaves ASCII texts alone
    and has the listed results for the others. *)
Definition idna_on_builtin (to_ascii : bytes -> option bytes) : Prop :=
  (forall line, In line builtin_lines -> Forall (fun b => b < 128) line -> to_ascii line = Some line)
  /\ Forall (fun x => to_ascii (fst x) = Some (snd x)) unicode_rules.

(** With and without the private section. *)
Definition builtin_gaps (private : bool) : list bytes := if private then public_gaps ++ private_gaps else public_gaps.
Definition builtin_hidden (private : bool) : list bytes := if private then hidden_names else [].
