(** SplitBuiltin.v - the rules of the built-in list are in lower case. *)

From Verif Require Import Base Chars Psl Host RuleSpec ListSpec Builtin BuiltinSpec BuiltinProofs SplitSpec.

Definition lower_b (rules : list bytes) : bool := forallb (forallb (fun b => (b <? 65) || (90 <? b))%N) rules.
Lemma lower_sound : forall rules, lower_b rules = true -> Forall (fun rule => lower rule = rule) rules.
Proof.
  intros rules H. apply Forall_forall. intros rule Hr. unfold lower_b in H. rewrite forallb_forall in H. specialize (H _ Hr).
  rewrite forallb_forall in H. unfold lower. rewrite <- (map_id rule) at 2. apply map_ext_in. intros b Hb. specialize (H _ Hb).
  unfold lower_byte. apply orb_true_iff in H. destruct (65 <=? b)%N eqn:A, (b <=? 90)%N eqn:B; try reflexivity. exfalso.
  apply N.leb_le in A, B. rewrite !N.ltb_lt in H. destruct H as [H|H]; [apply (N.lt_irrefl b)|apply (N.lt_irrefl b)].
  - eapply N.lt_le_trans; eassumption.
  - eapply N.le_lt_trans; eassumption.
Qed.
Lemma c84_builtin : forall to_ascii private rules, idna_on_builtin to_ascii -> used_rules to_ascii hardcoded_psl private rules ->
  Forall (fun rule => lower rule = rule) rules.
Proof.
  intros to_ascii private rules I U. rewrite (builtin_used _ _ _ I U). apply lower_sound. destruct private; vm_compute; reflexivity.
Qed.
