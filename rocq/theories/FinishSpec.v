(** FinishSpec.v - how calls running at the same time come to an end. *)

From Verif Require Import Base Extract World Update Calls.

(** The kind of answer a call gives; New gives an extractor and no error. *)
Definition answer_for (c : call) (a : answer) : Prop :=
  match c with
  | CallNew _ => exists f, a = FromNew (f, None)
  | CallUpdate _ => exists e, a = FromUpdate e
  | CallExtract _ _ => exists r, a = FromExtract r
  end.

(** A step in which no call is started. *)
Definition goes_on (to_ascii : bytes -> option bytes) (hardcoded : bytes) (ext : idna) (q q' : pool) : Prop :=
  pool_step to_ascii hardcoded ext q q' /\ p_count q' = p_count q.
