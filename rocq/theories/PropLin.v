(** PropLin.v - statement C85: calls running at the same time take effect one after the other. *)

From Verif Require Import Base BaseFacts Chars Str StrFacts Trie Extract Psl ListSpec ListFacts World Update Calls UpdateSpec
  WorldFacts CallFacts CallProofs NewSpec ErrSpec CompleteProofs LibSpec LibProofs LinSpec LinProofs LinExact
  UrlSpec UrlFacts ExampleBase ExampleDisk PropRules PropErr PropPsl PropCalls PropLib.
From Coq Require Import ZifyBool ZifyNat ZifyN.
Local Open Scope N_scope.

(** C85: whatever can be seen of calls running at the same time can be seen of a machine in which
    every call takes effect at one moment between its beginning and its end.  The extractors of
    the machine are those in memory. *)
Theorem C85_atomic : forall to_ascii hardcoded ext q l, seen to_ascii hardcoded ext q l ->
  exists views calls, atomic to_ascii hardcoded ext views (p_known q) calls l
    /\ forall f, In f (p_known q) -> exists v, views f = Some v
         /\ x_path (m_extractor (p_memory q) f) = v_path v /\ x_private (m_extractor (p_memory q) f) = v_private v
         /\ serves to_ascii (p_memory q) f (v_private v) (v_text v).
Proof.
  intros to_ascii hardcoded ext q l H. destruct (c85_sim to_ascii hardcoded ext q l H) as (views & calls & A & OT & OX & F & _ & _ & S & _).
  exists views, calls. split; [exact A|]. intros f K. specialize (S f). destruct (views f) as [v|]; [|contradiction].
  exists v. split; [reflexivity|]. apply S.
Qed.

(** Every execution is one of these. *)
Theorem C85_all : forall to_ascii hardcoded ext q,
  pool_steps to_ascii hardcoded ext first_pool q <-> exists l, seen to_ascii hardcoded ext q l.
Proof. exact c85_all. Qed.
Theorem C85_trace : forall to_ascii hardcoded ext q l, seen to_ascii hardcoded ext q l ->
  p_trace q = flat_map (fun x => match x with Asks _ e => [e] | _ => [] end) l.
Proof. exact c85_trace. Qed.

(** What a call has been answered leaves nothing open about its effect, except which extractor
    New returns. *)
Theorem C85_determined : forall to_ascii hardcoded ext views c tr a views1 a' views2,
  effect to_ascii hardcoded ext views c tr a views1 -> effect to_ascii hardcoded ext views c tr a' views2 ->
  (a = a' /\ views1 = views2)
  \/ exists n f f' v, c = CallNew n /\ a = FromNew (f, None) /\ a' = FromNew (f', None)
       /\ views1 = with_view views f v /\ views2 = with_view views f' v.
Proof. exact c85_determined. Qed.

(** ** Examples *)

(** The schedule of [C43_example], with what can be seen of it. *)
Definition act_seen (net : bytes -> response) (a : act) (s : disk * pool) : list moment :=
  let '(d, q) := s in
  let 'mkPool m known ts n tr := q in
  match a with
  | Start c =>
    let ok := match c with CallNew _ => true | CallUpdate f | CallExtract f _ => existsb (Nat.eqb f) known end in
    if ok : bool then [Begins n c] else []
  | Work k =>
    match split_at k ts with
    | Some (_, mkThread i c (Sys o c'), _) => [Asks i (Event o (fst (disk_answer net _ o d)))]
    | _ => []
    end
  | Return k =>
    match split_at k ts with
    | Some (_, mkThread i c (Done r), _) => [Ends i r]
    | _ => []
    end
  end.
Fixpoint acts_seen (net : bytes -> response) (l : list act) (s : disk * pool) : list moment :=
  match l with [] => [] | a :: l => act_seen net a s ++ acts_seen net l (act_step net a s) end.
Lemma act_is_seen : forall net a s l, seen ex_to_ascii ex_built_in ex_idna (snd s) l ->
  seen ex_to_ascii ex_built_in ex_idna (snd (act_step net a s)) (l ++ act_seen net a s).
Proof.
  intros net a [d [m known ts n tr]] l H. destruct a as [c|k|k]; cbn [act_step act_seen snd] in *.
  - destruct (match c with CallNew _ => true | CallUpdate f | CallExtract f _ => existsb (Nat.eqb f) known end) eqn:E;
      [|rewrite app_nil_r; exact H]. cbn [snd]. apply seen_begins; [exact H|].
    destruct c as [n0|f|f p]; cbn [may_call]; [exact I| |]; apply existsb_exists in E as (g & G & E);
      apply Nat.eqb_eq in E; subst g; exact G.
  - destruct (split_at k ts) as [[[ts1 [i c p]] ts2]|] eqn:E; [|rewrite app_nil_r; exact H]. apply split_at_spec in E. subst ts.
    destruct p as [r|R o p|R o p]; [rewrite app_nil_r; exact H| |].
    + destruct (disk_answer net R o d) as [x d'] eqn:Da. cbn [snd fst].
      apply (seen_asks _ _ _ m known ts1 i c (Sys o p) ts2 n tr [Event o x] m (p x) l H). cbn [advance]. eauto.
    + cbn [snd]. apply (seen_asks _ _ _ m known ts1 i c (Mem o p) ts2 n tr [] _ _ l H). cbn [advance]. auto.
  - destruct (split_at k ts) as [[[ts1 [i c p]] ts2]|] eqn:E; [|rewrite app_nil_r; exact H]. apply split_at_spec in E. subst ts.
    destruct p as [r|R o p|R o p]; [|rewrite app_nil_r; exact H..]. cbn [snd].
    apply (seen_ends _ _ _ m known ts1 i c r ts2 n tr l H).
Qed.
Lemma acts_are_seen : forall net al s l, seen ex_to_ascii ex_built_in ex_idna (snd s) l ->
  seen ex_to_ascii ex_built_in ex_idna (snd (acts net al s)) (l ++ acts_seen net al s).
Proof.
  intros net. induction al as [|a al IH]; intros s l H; cbn [acts acts_seen]; [rewrite app_nil_r; exact H|].
  rewrite app_assoc. apply IH. apply act_is_seen. exact H.
Qed.

Lemma acts_seen_first : forall net al d,
  seen ex_to_ascii ex_built_in ex_idna (snd (acts net al (d, first_pool))) (acts_seen net al (d, first_pool)).
Proof. intros net al d. apply (acts_are_seen net al (d, first_pool) []). apply seen_first. Qed.

Definition whole_schedule : list act :=
  [Start (CallNew (mkListParams [] false))] ++ repeat (Work 0) 40 ++ [Return 0; Start (CallUpdate 0)]
  ++ [Start (CallExtract 0 ex_url); Start (CallExtract 0 ex_url); Work 2] ++ repeat (Work 0) 40 ++ repeat (Work 2) 10 ++ repeat (Work 1) 10
  ++ [Return 2; Return 1; Return 0].
(** The moments other than those at which the environment is asked. *)
Definition suffix_seen (x : moment) : list (nat * option bytes) :=
  match x with Begins i _ => [(i, None)] | Asks _ _ => [] | Ends i o => [(i, Some (match suffix_of o with Some s => s | None => [] end))] end.
Example C85_example :
  let s := (ex_disk ex_files, first_pool) in
  seen ex_to_ascii ex_built_in ex_idna (snd (acts ex_download whole_schedule s)) (acts_seen ex_download whole_schedule s)
  /\ flat_map suffix_seen (acts_seen ex_download whole_schedule s)
     = [(0%nat, None); (0%nat, Some []); (1%nat, None); (2%nat, None); (3%nat, None); (3%nat, Some (str "com"));
        (2%nat, Some (str "b.com")); (1%nat, Some [])].
Proof.
  cbv zeta. split; [exact (acts_seen_first ex_download whole_schedule (ex_disk ex_files))|vm_compute; reflexivity].
Qed.

(** The effect of an Update whose first source fails. *)
Example C85_determined_example :
  let path := str "/tmp/public_suffix_list.dat" in
  let views := with_view no_views 0 (mkView path true custom) in
  exists tr, effect ex_to_ascii ex_built_in ex_idna views (CallUpdate 0) tr (FromUpdate None)
               (with_view views 0 (mkView path true mixed_text)).
Proof.
  cbv zeta. eexists.
  eapply (effect_updated _ _ _ _ 0 (mkView (str "/tmp/public_suffix_list.dat") true custom)); [reflexivity|].
  eapply (asks_text _ (str "/tmp/") 7); [reflexivity|].
  eapply attempts_next; [apply (no_download 7 _ NoResponse); discriminate|]. apply attempts_done.
  apply (installed 7 _ custom). apply markers_b. vm_compute. reflexivity.
Qed.

Print Assumptions C85_atomic.
Print Assumptions C85_all.
Print Assumptions C85_trace.
Print Assumptions C85_determined.
