(** PropRace.v - which calls race: C78. *)

From Verif Require Import Base BaseFacts Chars Str Trie Extract Psl ListSpec World Update UpdateSpec
  Calls CallProofs RaceSpec RaceProofs ExampleBase ExampleDisk PropCalls.

(** C78: if two running calls race, both are calls on one extractor, one of them is Update, and
    they race for the path or the list of this extractor.  Extracts never race with each other,
    nor with New, nor with Updates of other extractors; the tries themselves are never raced
    for. *)
Theorem C78_races : forall to_ascii hardcoded ext q l th1 th2,
  pool_steps to_ascii hardcoded ext first_pool q -> race q l th1 th2 ->
  exists f, In f (p_known q) /\ (l = PathField f \/ l = TrieField f) /\ call_on f (t_call th1) /\ call_on f (t_call th2)
    /\ (t_call th1 = CallUpdate f \/ t_call th2 = CallUpdate f).
Proof. exact c78_races. Qed.

(** The acts of [PropCalls], until Update is about to store the new list. *)
Definition racing (c : call) (more : list act) : pool :=
  snd (acts ex_download (Start c :: repeat (Work 0) 12 ++ more) before_calls).
Lemma racing_reached : forall c more, pool_steps ex_to_ascii ex_built_in ex_idna first_pool (racing c more).
Proof.
  intros c more. apply (steps_trans _ _ _ _ (snd before_calls)); [exact (acts_steps ex_download _ (ex_disk ex_files, first_pool))|]. apply acts_steps.
Qed.
(** What a call is about to do, computed. *)
Definition next_use (th : thread) : list (place * bool) :=
  match t_rest th with
  | @Mem _ R o _ =>
    match o with
    | ReadExtractor f => [(TrieField f, false)]
    | StoreTrie f _ => [(TrieField f, true)]
    | _ => []
    end
  | _ => []
  end.
Lemma next_use_about : forall th l w, In (l, w) (next_use th) -> about_to th l w.
Proof.
  intros [i c p] l w. unfold next_use, about_to. cbn [t_rest]. destruct p as [r|R o k|R o k]; try (intros []; fail).
  destruct o; cbn [In]; try (intros []; fail); intros [X|[]]; injection X as <- <-; cbn [touches]; auto.
Qed.
Definition no_thread : thread := mkThread 0 (CallNew (mkListParams [] true)) (Done Panic).
Definition first_thread (q : pool) : thread := nth 0 (p_threads q) no_thread.
Definition second_thread (q : pool) : thread := nth 1 (p_threads q) no_thread.
Lemma race_pair : forall q l w, length (p_threads q) = 2%nat -> In (l, true) (next_use (first_thread q)) ->
  In (l, w) (next_use (second_thread q)) -> race q l (first_thread q) (second_thread q).
Proof.
  intros q l w E A B. split.
  - exists [], [], []. unfold first_thread, second_thread. destruct (p_threads q) as [|a [|b [|c r]]]; try discriminate E. reflexivity.
  - left. split; [apply next_use_about; exact A|]. exists w. apply next_use_about. exact B.
Qed.

(** Update does race with an Extract on the same extractor, and with another Update of it: that
    they may run at the same time is false. *)
Theorem C78_extract_races : exists q th1 th2 f p, pool_steps ex_to_ascii ex_built_in ex_idna first_pool q
  /\ race q (TrieField f) th1 th2 /\ t_call th1 = CallUpdate f /\ t_call th2 = CallExtract f p.
Proof.
  pose (q := racing (CallExtract 0 ex_url) []).
  exists q, (first_thread q), (second_thread q), 0%nat, ex_url.
  split; [apply racing_reached|]. split.
  - apply (race_pair _ _ false); [vm_compute; reflexivity|vm_compute; auto..].
  - split; vm_compute; reflexivity.
Qed.
Theorem C78_update_races : exists q th1 th2 f, pool_steps ex_to_ascii ex_built_in ex_idna first_pool q
  /\ race q (TrieField f) th1 th2 /\ t_call th1 = CallUpdate f /\ t_call th2 = CallUpdate f.
Proof.
  pose (q := racing (CallUpdate 0) (repeat (Work 1) 12)).
  exists q, (first_thread q), (second_thread q), 0%nat.
  split; [apply racing_reached|]. split.
  - apply (race_pair _ _ true); [vm_compute; reflexivity|vm_compute; auto..].
  - split; vm_compute; reflexivity.
Qed.
(** So the hypotheses of [C78_races] can be met. *)
Example C78_example : exists th1 th2, pool_steps ex_to_ascii ex_built_in ex_idna first_pool (racing (CallExtract 0 ex_url) [])
  /\ race (racing (CallExtract 0 ex_url) []) (TrieField 0) th1 th2 /\ p_known (racing (CallExtract 0 ex_url) []) = [0%nat].
Proof.
  eexists _, _. split; [apply racing_reached|]. split; [|vm_compute; reflexivity].
  apply (race_pair _ _ false); [vm_compute; reflexivity|vm_compute; auto..].
Qed.

Print Assumptions C78_races.
Print Assumptions C78_extract_races.
Print Assumptions C78_update_races.
