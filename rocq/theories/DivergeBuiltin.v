(** DivergeBuiltin.v - the rules of the built-in list are well formed. *)

From Verif Require Import Base Chars Psl Host RuleSpec ListSpec Builtin BuiltinSpec BuiltinProofs DivergeSpec DivergeProofs.

Lemma builtin_well_formed : forall private, well_formed_b (builtin_rules private) = true.
Proof. intros [|]; vm_compute; reflexivity. Qed.
Lemma c82_builtin : forall to_ascii private rules, idna_on_builtin to_ascii -> used_rules to_ascii hardcoded_psl private rules ->
  well_formed rules.
Proof.
  intros to_ascii private rules I U. rewrite (builtin_used _ _ _ I U). apply well_formed_sound, builtin_well_formed.
Qed.
