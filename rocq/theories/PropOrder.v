(** PropOrder.v - statement C87: whose list a call of Extract uses. *)

From Verif Require Import Base BaseFacts Chars Str StrFacts Trie Extract Psl ListSpec ListFacts World Update Calls UpdateSpec
  WorldFacts CallFacts CallProofs NewSpec ErrSpec CompleteProofs LibSpec LibProofs LinSpec LinProofs OrderSpec OrderProofs
  UrlSpec UrlFacts ExampleBase ExampleDisk PropRules PropErr PropPsl PropCalls PropLib PropLin.
From Coq Require Import ZifyBool ZifyNat ZifyN.
Local Open Scope N_scope.

(** C87: a call of Extract answers by the list that one call [w] of New or Update left, which did
    not begin after Extract ended.  No Update of this extractor both began after [w] had ended and
    succeeded before Extract began. *)
Theorem C87_order : forall to_ascii hardcoded ext q l j f p o, seen to_ascii hardcoded ext q l ->
  In (Begins j (CallExtract f p)) l -> In (Ends j o) l ->
  exists w v rules r e, o = Ret (FromExtract (r, e)) /\ left_by hardcoded l f w v
    /\ used_rules to_ascii (v_text v) (v_private v) rules /\ extracts ext rules p r e
    /\ (forall c, ~ before l (Ends j o) (Begins w c))
    /\ forall w' o', before l (Ends w' (Ret (FromUpdate None))) (Begins j (CallExtract f p)) ->
         ~ before l (Ends w o') (Begins w' (CallUpdate f)).
Proof. exact c87. Qed.

(** Extract after a successful Update that overlaps no other Update uses the text this Update
    has read. *)
Theorem C87_after : forall to_ascii hardcoded ext q l w j f p o, seen to_ascii hardcoded ext q l -> In (Begins w (CallUpdate f)) l ->
  before l (Ends w (Ret (FromUpdate None))) (Begins j (CallExtract f p)) -> In (Ends j o) l ->
  (forall k, In (Begins k (CallUpdate f)) l -> k <> w ->
     (exists o', before l (Ends k o') (Begins w (CallUpdate f))) \/ before l (Ends j o) (Begins k (CallUpdate f))) ->
  exists w0 v0 text rules r e, made hardcoded l f w0 v0 /\ update_asks (v_path v0) (asked w l) (inr text)
    /\ used_rules to_ascii text (v_private v0) rules /\ o = Ret (FromExtract (r, e)) /\ extracts ext rules p r e.
Proof. exact c87_after. Qed.

(** Extract before any Update uses the list of New. *)
Theorem C87_unchanged : forall to_ascii hardcoded ext q l j f p o, seen to_ascii hardcoded ext q l ->
  In (Begins j (CallExtract f p)) l -> In (Ends j o) l ->
  (forall k, In (Begins k (CallUpdate f)) l -> before l (Ends j o) (Begins k (CallUpdate f))) ->
  exists w v rules r e, made hardcoded l f w v /\ used_rules to_ascii (v_text v) (v_private v) rules
    /\ o = Ret (FromExtract (r, e)) /\ extracts ext rules p r e.
Proof. exact c87_unchanged. Qed.

(** ** Examples *)

(** New, Extract, Update, Extract; a third Extract runs while Update does. *)
Definition order_schedule : list act :=
  [Start (CallNew (mkListParams [] false))] ++ repeat (Work 0) 40 ++ [Return 0]
  ++ [Start (CallExtract 0 ex_url)] ++ repeat (Work 0) 10 ++ [Return 0]
  ++ [Start (CallUpdate 0); Start (CallExtract 0 ex_url)] ++ repeat (Work 1) 10 ++ repeat (Work 0) 40 ++ [Return 1; Return 0]
  ++ [Start (CallExtract 0 ex_url)] ++ repeat (Work 0) 10 ++ [Return 0].
Definition order_seen : list moment := acts_seen ex_download order_schedule (ex_disk ex_files, first_pool).
Lemma order_is_seen : exists q, seen ex_to_ascii ex_built_in ex_idna q order_seen.
Proof. eexists. exact (acts_seen_first ex_download order_schedule (ex_disk ex_files)). Qed.
Lemma before_nth : forall l a b i j, (i < j)%nat -> nth_error l i = Some a -> nth_error l j = Some b -> before l a b.
Proof.
  intros l a b i j Lt A B. apply nth_error_split in A as (x & y & -> & <-). rewrite nth_error_app2 in B by lia.
  destruct (j - length x)%nat as [|k] eqn:K; [lia|]. cbn [nth_error] in B. apply nth_error_split in B as (y1 & z & -> & _).
  exists x, y1, z. reflexivity.
Qed.
(** The updates. *)
Definition updates (l : list moment) : list nat :=
  flat_map (fun x => match x with Begins i (CallUpdate _) => [i] | _ => [] end) l.
Lemma in_updates : forall l i f, In (Begins i (CallUpdate f)) l -> In i (updates l).
Proof. intros l i f H. unfold updates. apply in_flat_map. exists (Begins i (CallUpdate f)). split; [exact H|left; reflexivity]. Qed.

(** Call 4 of Extract begins after call 2 of Update has ended, call 1 ends before it begins. *)
Example C87_example :
  (exists q, seen ex_to_ascii ex_built_in ex_idna q order_seen)
  /\ In (Begins 2 (CallUpdate 0)) order_seen
  /\ before order_seen (Ends 2 (Ret (FromUpdate None))) (Begins 4 (CallExtract 0 ex_url))
  /\ (exists o4, In (Ends 4 o4) order_seen /\ suffix_of o4 = Some (str "b.com"))
  /\ (forall k, In (Begins k (CallUpdate 0)) order_seen -> k = 2%nat)
  /\ In (Begins 1 (CallExtract 0 ex_url)) order_seen
  /\ exists o1, In (Ends 1 o1) order_seen /\ suffix_of o1 = Some (str "com")
       /\ before order_seen (Ends 1 o1) (Begins 2 (CallUpdate 0)).
Proof.
  split; [exact order_is_seen|]. split; [apply (nth_error_In _ 14); vm_compute; reflexivity|].
  split; [apply (before_nth _ _ _ 23 24); [lia|vm_compute; reflexivity|vm_compute; reflexivity]|].
  split; [eexists; split; [apply (nth_error_In _ 25); vm_compute; reflexivity|vm_compute; reflexivity]|].
  split.
  { intros k H. apply in_updates in H. assert (E : updates order_seen = [2%nat]) by (vm_compute; reflexivity). rewrite E in H.
    destruct H as [<-|[]]. reflexivity. }
  split; [apply (nth_error_In _ 12); vm_compute; reflexivity|]. eexists. split; [apply (nth_error_In _ 13); vm_compute; reflexivity|].
  split; [vm_compute; reflexivity|]. apply (before_nth _ _ _ 13 14); [lia|vm_compute; reflexivity|vm_compute; reflexivity].
Qed.

Print Assumptions C87_order.
Print Assumptions C87_after.
Print Assumptions C87_unchanged.
