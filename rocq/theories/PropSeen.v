(** PropSeen.v - calls that run pointer by pointer take effect one after the other: C106. *)

From Verif Require Import Base BaseFacts Chars Str Trie Extract Psl ListSpec World Update UpdateSpec Calls WorldFacts CallFacts CallProofs NewSpec ErrSpec LibSpec
  LinSpec RaceSpec Heap HeapSpec Weak WeakSpec WeakProofs WeakAny WeakRace SeenSpec SeenProofs ExampleBase ExampleDisk PropCalls PropHeap PropWeak PropWeakRace.
From Coq Require Import Permutation.

(** C106: whatever can be seen of calls that build and read tries pointer by pointer can be seen of
    the machine of C85, in which every call takes effect at one moment between its beginning and
    its end.  The extractors of the machine are those in memory. *)
Theorem C106_pointers : forall to_ascii hardcoded ext hq l, hseen to_ascii hardcoded ext hq l ->
  exists views calls, atomic to_ascii hardcoded ext views (hp_known hq) calls l
  /\ forall f, In f (hp_known hq) -> exists v t, views f = Some v
       /\ x_path (h_extractor (hp_heap hq) f) = v_path v /\ x_private (h_extractor (hp_heap hq) f) = v_private v
       /\ holds (h_region (hp_heap hq) (x_trie (h_extractor (hp_heap hq) f))) t
       /\ exists rules, used_rules to_ascii (v_text v) (v_private v) rules /\ build_trie rules = Ret t.
Proof. exact c106_pointers. Qed.
Theorem C106_pointers_all : forall to_ascii hardcoded ext hq,
  hpool_steps to_ascii hardcoded ext first_hpool hq <-> exists l, hseen to_ascii hardcoded ext hq l.
Proof. exact c106_pointers_all. Qed.

(** On memory that orders nothing by itself, the same is true whatever runs at the same time, but
    for the answers of those Extracts that an Update of their extractor overlaps.  [T] is any set
    of Extracts that none does. *)
Theorem C106_weak : forall to_ascii hardcoded ext T q l, wseen to_ascii hardcoded ext (undisturbed T) q l ->
  exists l' views calls, same_moments T l l' /\ atomic to_ascii hardcoded ext views (wp_known q) calls l'
  /\ forall f, In f (wp_known q) -> exists v t, views f = Some v
       /\ as_path (latest (w_cell (wp_weak q) (PathAt f))) = v_path v /\ w_private (wp_weak q) f = v_private v
       /\ holds (last_written (wp_weak q) (as_trie (latest (w_cell (wp_weak q) (TrieAt f))))) t
       /\ exists rules, used_rules to_ascii (v_text v) (v_private v) rules /\ build_trie rules = Ret t.
Proof. exact c106_weak. Qed.
(** In particular, nothing shows that the memory orders nothing if no Update overlaps an Extract of
    its extractor; Updates may overlap each other. *)
Theorem C106_calm : forall to_ascii hardcoded ext q l, wseen to_ascii hardcoded ext (undisturbed (fun _ => true)) q l ->
  exists views calls, atomic to_ascii hardcoded ext views (wp_known q) calls l.
Proof. exact c106_calm. Qed.
(** These are all executions. *)
Theorem C106_all : forall to_ascii hardcoded ext T q,
  careful_steps to_ascii hardcoded ext T first_wpool q <-> exists l, wseen to_ascii hardcoded ext (undisturbed T) q l.
Proof. exact c106_all. Qed.

(** Nothing is lost either: what can be seen when tries are values that change at once can be
    seen when they are built and read pointer by pointer, and on memory that orders nothing. *)
Theorem C106_pointers_same : forall to_ascii hardcoded ext l,
  (exists q, seen to_ascii hardcoded ext q l) <-> exists hq, hseen to_ascii hardcoded ext hq l.
Proof. exact c106_pointers_same. Qed.
Theorem C106_weak_more : forall to_ascii hardcoded ext q l, seen to_ascii hardcoded ext q l ->
  exists q', wseen to_ascii hardcoded ext any_calls q' l.
Proof. exact c106_seen_weak. Qed.
(** If no Update overlaps an Extract of its extractor, exactly the same can be seen. *)
Theorem C106_weak_same : forall to_ascii hardcoded ext l, calm (fun _ => true) l ->
  (exists q, seen to_ascii hardcoded ext q l) <-> exists q, wseen to_ascii hardcoded ext any_calls q l.
Proof. exact c106_weak_same. Qed.
(** Which calls overlap can be seen from outside. *)
Theorem C106_overlaps : forall to_ascii hardcoded ext T q l,
  wseen to_ascii hardcoded ext (undisturbed T) q l <-> wseen to_ascii hardcoded ext any_calls q l /\ calm T l.
Proof. exact c106_overlaps. Qed.

(** ** Examples *)

(** New; an Extract reads the pointer to the trie, a whole Update runs, and the Extract reads the
    old trie. *)
Definition hact_seen (net : bytes -> response) (a : act) (s : disk * hpool) : list moment :=
  let '(d, q) := s in
  let 'mkHPool h known ts n tr := q in
  match a with
  | Start c =>
    let ok := match c with CallNew _ => true | CallUpdate f | CallExtract f _ => existsb (Nat.eqb f) known end in
    if ok : bool then [Begins n c] else []
  | Work k =>
    match split_at k ts with
    | Some (_, mkHThread i c (HSys o c'), _) => [Asks i (Event o (fst (disk_answer net _ o d)))]
    | _ => []
    end
  | Return k => match split_at k ts with Some (_, mkHThread i c (HDone r), _) => [Ends i r] | _ => [] end
  end.
Fixpoint hacts_seen (net : bytes -> response) (l : list act) (s : disk * hpool) : list moment :=
  match l with [] => [] | a :: l => hact_seen net a s ++ hacts_seen net l (hact_step net a s) end.
Local Notation ex_seen := (hseen ex_to_ascii ex_built_in ex_idna).
Lemma hact_is_seen : forall net a s l, ex_seen (snd s) l -> ex_seen (snd (hact_step net a s)) (l ++ hact_seen net a s).
Proof.
  intros net a [dk [h known ts n tr]] l S. destruct a as [c|k|k]; cbn [hact_step hact_seen snd] in *.
  - destruct (match c with CallNew _ => true | CallUpdate f | CallExtract f _ => existsb (Nat.eqb f) known end) eqn:E;
      [|rewrite app_nil_r; exact S]. cbn [snd]. apply hseen_begins; [exact S|].
    destruct c as [l0|f|f p]; cbn [may_call]; [exact I| |]; apply existsb_exists in E as (g & G & E);
      apply Nat.eqb_eq in E; subst g; exact G.
  - destruct (split_at k ts) as [[[ts1 [i c p]] ts2]|] eqn:E; [|rewrite app_nil_r; exact S]. apply split_at_spec in E. subst ts.
    destruct p as [r|R o p|R o p]; [rewrite app_nil_r; exact S| |].
    + destruct (disk_answer net R o dk) as [x d']. cbn [snd fst].
      apply (hseen_asks ex_to_ascii ex_built_in ex_idna h known ts1 i c (HSys o p) ts2 n tr [Event o x]); [exact S|]. cbn [heap_advance]. eauto.
    + cbn [snd]. apply (hseen_asks ex_to_ascii ex_built_in ex_idna h known ts1 i c (HHeap o p) ts2 n tr []); [exact S|].
      cbn [heap_advance]. split; [reflexivity|]. eexists. split; [apply heap_answers|reflexivity].
  - destruct (split_at k ts) as [[[ts1 [i c p]] ts2]|] eqn:E; [|rewrite app_nil_r; exact S]. apply split_at_spec in E. subst ts.
    destruct p as [r|R o p|R o p]; [|rewrite app_nil_r; exact S..]. cbn [snd]. apply (hseen_ends _ _ _ _ _ _ _ c). exact S.
Qed.
Lemma hacts_are_seen : forall net al s l, ex_seen (snd s) l -> ex_seen (snd (hacts net al s)) (l ++ hacts_seen net al s).
Proof.
  intros net. induction al as [|a al IH]; intros s l S; cbn [hacts hacts_seen] in *; [rewrite app_nil_r; exact S|].
  rewrite app_assoc. apply IH. apply hact_is_seen. exact S.
Qed.
Lemma hacts_seen_first : forall net al dk, ex_seen (snd (hacts net al (dk, first_hpool))) (hacts_seen net al (dk, first_hpool)).
Proof. intros net al dk. exact (hacts_are_seen net al (dk, first_hpool) [] (hseen_first _ _ _)). Qed.
Definition shown (l : list moment) : list (nat + nat * option bytes) :=
  flat_map (fun m => match m with Begins i _ => [inl i] | Ends i r => [inr (i, suffix_of r)] | Asks _ _ => [] end) l.
Definition hseen_acts : list act :=
  [Start (CallNew (mkListParams [] false))] ++ repeat (Work 0) 60 ++ [Return 0; Start (CallUpdate 0); Start (CallExtract 0 ex_url)]
    ++ repeat (Work 1) 2 ++ repeat (Work 0) 60 ++ [Return 0; Start (CallExtract 0 ex_url)] ++ repeat (Work 0) 20 ++ repeat (Work 1) 20 ++ [Return 1; Return 0].
Example C106_pointers_example :
  let s := (ex_disk ex_files, first_hpool) in
  let l := hacts_seen ex_download hseen_acts s in
  ex_seen (snd (hacts ex_download hseen_acts s)) l
  /\ shown l = [inl 0; inr (0, None); inl 1; inl 2; inr (1, None); inl 3; inr (3, Some (str "b.com")); inr (2, Some (str "com"))].
Proof.
  cbv zeta. split; [|vm_compute; reflexivity].
  apply hacts_seen_first.
Qed.

Definition wact_seen (net : bytes -> response) (a : wact) (s : disk * wpool) : list moment :=
  let '(dk, q) := s in
  let 'mkWPool w known ts n tr d := q in
  match a with
  | WStart c =>
    let ok := match c with CallNew _ => true | CallUpdate f | CallExtract f _ => existsb (Nat.eqb f) known end in
    if ok : bool then [Begins n c] else []
  | WWork k old =>
    match split_at k ts with
    | Some (_, mkWThread i c (HSys o c') _, _) => [Asks i (Event o (fst (disk_answer net _ o dk)))]
    | _ => []
    end
  | WReturn k => match split_at k ts with Some (_, mkWThread i c (HDone r) _, _) => [Ends i r] | _ => [] end
  end.
Fixpoint wacts_seen (net : bytes -> response) (l : list wact) (s : disk * wpool) : list moment :=
  match l with [] => [] | a :: l => wact_seen net a s ++ wacts_seen net l (wact_step com_list net a s) end.
Local Notation com_steps := (wpool_steps ex_to_ascii com_list ex_idna).
Local Notation com_seen T := (wseen ex_to_ascii com_list ex_idna (undisturbed T)).
Lemma wact_is_seen : forall T net a s l, com_steps first_wpool (snd s) -> com_seen T (snd s) l ->
  undisturbed T (wp_threads (snd (wact_step com_list net a s))) -> com_seen T (snd (wact_step com_list net a s)) (l ++ wact_seen net a s).
Proof.
  intros T net a [dk q] l H S O. apply views_bounded in H. destruct H as (B & _). destruct q as [w known ts n tr d].
  cbn [snd wp_threads wp_weak] in B. destruct a as [c|k old|k]; cbn [wact_step wact_seen snd] in *.
  - destruct (match c with CallNew _ => true | CallUpdate f | CallExtract f _ => existsb (Nat.eqb f) known end) eqn:E;
      [|rewrite app_nil_r; exact S]. cbn [snd wp_threads] in *. apply wseen_begins; [exact S| |exact O].
    destruct c as [l0|f|f p]; cbn [may_call]; [exact I| |]; apply existsb_exists in E as (g & G & E);
      apply Nat.eqb_eq in E; subst g; exact G.
  - destruct (split_at k ts) as [[[ts1 [i c p v]] ts2]|] eqn:E; [|rewrite app_nil_r; exact S]. apply split_at_spec in E. subst ts.
    destruct p as [r|R o p|R o p]; [rewrite app_nil_r; exact S| |].
    + destruct (disk_answer net R o dk) as [x d']. cbn [snd fst wp_threads] in *.
      apply (wseen_asks ex_to_ascii com_list ex_idna (undisturbed T) w known ts1 i c (HSys o p) v ts2 n tr d [Event o x]); [exact S| |exact O]. cbn [weak_advance]. eauto.
    + cbn [snd wp_threads] in *.
      apply (wseen_asks ex_to_ascii com_list ex_idna (undisturbed T) w known ts1 i c (HHeap o p) v ts2 n tr d []); [exact S| |exact O].
      cbn [weak_advance]. split; [reflexivity|]. eexists. split; [apply weak_answers|reflexivity].
      intros l0. apply (B (mkWThread i c (HHeap o p) v)). apply in_app_iff. right. left. reflexivity.
  - destruct (split_at k ts) as [[[ts1 [i c p v]] ts2]|] eqn:E; [|rewrite app_nil_r; exact S]. apply split_at_spec in E. subst ts.
    destruct p as [r|R o p|R o p]; [|rewrite app_nil_r; exact S..]. cbn [snd wp_threads] in *. apply (wseen_ends _ _ _ _ _ _ _ _ c); [exact S|exact O].
Qed.
Lemma wacts_are_seen : forall T net al s l, com_steps first_wpool (snd s) -> com_seen T (snd s) l -> careful_acts T net al s = true ->
  com_seen T (snd (wacts com_list net al s)) (l ++ wacts_seen net al s).
Proof.
  intros T net. induction al as [|a al IH]; intros s l H S O; cbn [wacts wacts_seen careful_acts] in *; [rewrite app_nil_r; exact S|].
  apply andb_prop in O as (O1 & O2). apply undisturbedb_spec in O1. rewrite app_assoc. apply IH; [|apply wact_is_seen; assumption|exact O2].
  destruct (wact_cases com_list net a s H) as [E|Sp]; [rewrite E; exact H|]. eapply wsteps_more; eassumption.
Qed.
Lemma wacts_seen_first : forall T net al dk, careful_acts T net al (dk, first_wpool) = true ->
  com_seen T (snd (wacts com_list net al (dk, first_wpool))) (wacts_seen net al (dk, first_wpool)).
Proof. intros T net al dk O. exact (wacts_are_seen T net al (dk, first_wpool) [] (wsteps_none _ _ _ _) (wseen_first _ _ _ _) O). Qed.
(** New; two Updates of its extractor, with an Extract between them that answers by no list; then
    an Extract that nothing disturbs while another extractor is made. *)
Definition seen_acts : list wact :=
  [WStart (CallNew (mkListParams [] false))] ++ repeat (WWork 0 false) 60
    ++ [WReturn 0; WStart (CallUpdate 0); WStart (CallExtract 0 ex_url); WStart (CallUpdate 0)]
    ++ concat (repeat [WWork 0 false; WWork 2 true] 60) ++ [WWork 1 false] ++ repeat (WWork 1 true) 20 ++ [WReturn 0; WReturn 1]
    ++ [WStart (CallExtract 0 ex_url); WStart (CallNew (mkListParams [] true))] ++ concat (repeat [WWork 1 true; WWork 2 true] 80)
    ++ [WReturn 2; WReturn 1; WReturn 0].
Example C106_weak_example :
  let s := (ex_disk ex_files, first_wpool) in
  let l := wacts_seen ex_download seen_acts s in
  com_seen (Nat.eqb 4) (snd (wacts com_list ex_download seen_acts s)) l
  /\ shown l = [inl 0; inr (0, None); inl 1; inl 2; inl 3; inr (1, None); inr (3, None); inl 4; inl 5; inr (5, None);
                inr (4, Some (str "b.com")); inr (2, Some [])]
  /\ length l = 44.
Proof.
  cbv zeta. split; [|split; vm_compute; reflexivity].
  apply wacts_seen_first. vm_compute. reflexivity.
Qed.
(** The same without the Extract that the Updates disturb. *)
Definition calm_seen_acts : list wact :=
  [WStart (CallNew (mkListParams [] false))] ++ repeat (WWork 0 false) 60
    ++ [WReturn 0; WStart (CallUpdate 0); WStart (CallUpdate 0)]
    ++ concat (repeat [WWork 0 false; WWork 1 true] 60) ++ [WReturn 1; WReturn 0]
    ++ [WStart (CallExtract 0 ex_url); WStart (CallNew (mkListParams [] true))] ++ concat (repeat [WWork 0 true; WWork 1 true] 80)
    ++ [WReturn 1; WReturn 0].
Example C106_calm_example :
  let s := (ex_disk ex_files, first_wpool) in
  let l := wacts_seen ex_download calm_seen_acts s in
  com_seen (fun _ => true) (snd (wacts com_list ex_download calm_seen_acts s)) l
  /\ shown l = [inl 0; inr (0, None); inl 1; inl 2; inr (2, None); inr (1, None); inl 3; inl 4; inr (4, None); inr (3, Some (str "b.com"))].
Proof.
  cbv zeta. split; [|vm_compute; reflexivity].
  apply wacts_seen_first. vm_compute. reflexivity.
Qed.
(** While the Extract that the Updates disturb is running, so is an Update. *)
Example C106_overlaps_example :
  let s := (ex_disk ex_files, first_wpool) in
  let l := wacts_seen ex_download seen_acts s in
  let l' := wacts_seen ex_download calm_seen_acts s in
  calm (Nat.eqb 4) l /\ ~ calm (fun _ => true) l /\ calm (fun _ => true) l' /\ map fst (running_calls (firstn 20 l)) = [1; 2; 3].
Proof.
  cbv zeta. split; [|split; [|split; [|vm_compute; reflexivity]]].
  - apply (proj1 (C106_overlaps ex_to_ascii com_list ex_idna _ _ _) (proj1 C106_weak_example)).
  - intros C. apply (C (firstn 20 (wacts_seen ex_download seen_acts (ex_disk ex_files, first_wpool)))
      (skipn 20 (wacts_seen ex_download seen_acts (ex_disk ex_files, first_wpool))) 2 0 ex_url 1); [symmetry; apply firstn_skipn|reflexivity| |];
      vm_compute; tauto.
  - apply (proj1 (C106_overlaps ex_to_ascii com_list ex_idna _ _ _) (proj1 C106_calm_example)).
Qed.

Print Assumptions C106_pointers.
Print Assumptions C106_pointers_all.
Print Assumptions C106_weak.
Print Assumptions C106_calm.
Print Assumptions C106_all.
Print Assumptions C106_pointers_same.
Print Assumptions C106_weak_more.
Print Assumptions C106_weak_same.
Print Assumptions C106_overlaps.
