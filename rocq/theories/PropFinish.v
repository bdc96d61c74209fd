(** PropFinish.v - calls running at the same time come to an end: C81. *)

From Verif Require Import Base BaseFacts Chars Str Trie Extract Psl ListSpec World Update UpdateSpec
  Calls CallProofs FinishSpec FinishProofs ExampleBase ExampleDisk PropCalls.

(** C81: whatever runs at the same time, a call that has ended has an answer - no panic -, and
    New an extractor and no error. *)
Theorem C81_answers : forall to_ascii hardcoded ext q n c o, pool_steps to_ascii hardcoded ext first_pool q ->
  In (mkThread n c (Done o)) (p_threads q) -> exists a, o = Ret a /\ answer_for c a.
Proof. exact c81_answers. Qed.
(** New returns no extractor that is known already, nor one that another New returns. *)
Theorem C81_fresh : forall to_ascii hardcoded ext q n1 n2 k1 k2 f1 f2, pool_steps to_ascii hardcoded ext first_pool q ->
  In (mkThread n1 (CallNew k1) (Done (Ret (FromNew (f1, None))))) (p_threads q) -> ~ In f1 (p_known q)
  /\ (In (mkThread n2 (CallNew k2) (Done (Ret (FromNew (f2, None))))) (p_threads q) -> n1 <> n2 -> f1 <> f2).
Proof. exact c81_fresh. Qed.
(** There is no infinite sequence of steps unless calls are started again and again ... *)
Theorem C81_finite : forall to_ascii hardcoded ext q, Acc (fun q' q => goes_on to_ascii hardcoded ext q q') q.
Proof. exact c81_finite. Qed.
(** ... and nothing blocks while a call is running. *)
Theorem C81_progress : forall to_ascii hardcoded ext q, p_threads q <> [] -> exists q', goes_on to_ascii hardcoded ext q q'.
Proof. exact c81_progress. Qed.

(** Two calls of New at the same time. *)
Definition ex_two : pool :=
  snd (acts ex_download ([Start (CallNew (mkListParams [] false)); Start (CallNew (mkListParams [] true))]
                         ++ concat (repeat [Work 0; Work 1] 40)) (ex_disk ex_files, first_pool)).
Example C81_example : pool_steps ex_to_ascii ex_built_in ex_idna first_pool ex_two
  /\ p_threads ex_two = [mkThread 0 (CallNew (mkListParams [] false)) (Done (Ret (FromNew (0%nat, None))));
                         mkThread 1 (CallNew (mkListParams [] true)) (Done (Ret (FromNew (1%nat, None))))].
Proof. split; [exact (acts_steps ex_download _ (ex_disk ex_files, first_pool))|]. vm_compute. reflexivity. Qed.

Print Assumptions C81_answers.
Print Assumptions C81_fresh.
Print Assumptions C81_finite.
Print Assumptions C81_progress.
