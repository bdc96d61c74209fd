(** WeakRace.v - what calls that race leave behind: New and Update do what they do on ordered
    memory whatever runs at the same time, and so does every Extract that no Update of its
    extractor runs together with. *)

From Verif Require Import Base BaseFacts Str Trie Extract Psl ListSpec World Update UpdateSpec Calls WorldFacts CallFacts CallProofs FinishSpec FinishProofs RaceSpec
  LinSpec Heap HeapSpec HeapProofs Weak WeakSpec SeenSpec WeakProofs WeakAny.
From Coq Require Import Permutation ZifyBool ZifyNat ZifyN.

(** ** Programs that change things *)

(** As [keeps true], but reading nodes of its own tries only. *)
Fixpoint builds {A : Type} (Q : list nat -> list nat -> outcome A -> Prop) (p : hprog A) (W X : list nat) : Prop :=
  match p with
  | HDone r => Q W X r
  | HSys o k => forall x, builds Q (k x) W X
  | @HHeap _ R o k =>
    match o in heap_op R return (R -> list nat -> list nat -> Prop) -> Prop with
    | On a o => fun K => In a W /\ forall x, K x W X
    | NewRoot => fun K => forall a, K a (a :: W) X
    | MakeExtractor y => fun K => In (x_trie y) W /\ forall f, K f W (f :: X)
    | GetExtractor f => fun K => In f X /\ forall x, K x W X
    | PutPath f _ => fun K => In f X /\ K tt W X
    | PutTrie f a => fun K => In f X /\ In a W /\ K tt W X
    end (fun x W X => builds Q (k x) W X)
  end.
Lemma builds_bind : forall A B (Q1 : list nat -> list nat -> outcome A -> Prop) (Q : list nat -> list nat -> outcome B -> Prop)
    (p : hprog A) (k : A -> hprog B) W X,
  builds Q1 p W X ->
  (forall W' X' o, Q1 W' X' o -> match o with
     | Ret a => builds Q (k a) W' X' | Panic => Q W' X' Panic | OutOfFuel => Q W' X' OutOfFuel end) ->
  builds Q (hbind p k) W X.
Proof.
  intros A B Q1 Q. induction p as [r|R o c IH|R o c IH]; intros k W X H K.
  - specialize (K W X r H). destruct r; exact K.
  - cbn [hbind builds] in *. intros x. apply IH; auto.
  - cbn [hbind]. destruct o as [R a o| | | | |]; cbn [builds] in *; intuition auto.
Qed.
Lemma nested_builds : forall a keys i W X, In a W ->
  builds (fun W' X' r => W' = W /\ X' = X) (nested_heap a i keys) W X.
Proof.
  intros a. induction keys as [|key keys IH]; intros i W X I1; cbn [nested_heap].
  - cbn. auto.
  - cbn [on hbind hret builds]. split; [auto|]. intros found. eapply (builds_bind _ _ (fun W' X' r => W' = W /\ X' = X)).
    + destruct found; cbn [on hbind hret builds]; [auto|]. split; [auto|]. intros j. split; [auto|]. auto.
    + intros W' X' o (-> & ->). destruct o; auto. cbn [on hbind hret builds]. split; [auto|]. intros [j|]; [apply IH; exact I1|cbn; auto].
Qed.
Lemma entries_builds : forall a l W X, In a W -> builds (fun W' X' r => W' = W /\ X' = X) (mark_entries a l) W X.
Proof.
  intros a. induction l as [|[k j] l IH]; intros W X I1; cbn [mark_entries]; [cbn; auto|].
  cbn [on hbind hret builds]. split; [auto|]. intros star. eapply (builds_bind _ _ (fun W' X' r => W' = W /\ X' = X)).
  - destruct star; cbn [on hret builds]; auto.
  - intros W' X' o (-> & ->). destruct o; auto.
Qed.
Lemma mark_builds : forall a W X, In a W -> builds (fun W' X' r => W' = W /\ X' = X) (mark_heap a) W X.
Proof. intros a W X I1. unfold mark_heap. cbn [on hbind hret builds]. split; [auto|]. intros l. apply entries_builds. exact I1. Qed.
Lemma on_heap_builds : forall A (Q : list nat -> list nat -> outcome A -> Prop) (p : prog A) W X,
  (forall W X, Q W X Panic /\ Q W X OutOfFuel) -> tame Q p W X -> builds Q (on_heap p) W X.
Proof.
  intros A Q p W X B. revert W X. induction p as [r|R o c IH|R o c IH]; intros W X H.
  - exact H.
  - cbn [on_heap builds tame] in *. auto.
  - destruct o; cbn [on_heap builds tame] in *; try (intuition auto; fail).
    + destruct H as (H1 & H). eapply builds_bind; [apply nested_builds; exact H1|]. cbv beta. intros W' X' [[]| |] (-> & ->); [auto|apply B|apply B].
    + destruct H as (H1 & H). eapply builds_bind; [apply mark_builds; exact H1|]. cbv beta. intros W' X' [[]| |] (-> & ->); [auto|apply B|apply B].
Qed.
Lemma program_builds : forall to_ascii hardcoded ext c, call_writes c = true ->
  builds result_own (heap_program to_ascii hardcoded ext c) [] (call_uses c).
Proof.
  intros to_ascii hardcoded ext c Rw.
  assert (B : forall W X, result_own W X Panic /\ result_own W X OutOfFuel) by (intros W X; split; intros y []).
  destruct c as [n|f|f p]; cbn [heap_program call_uses]; [| |discriminate Rw].
  - apply on_heap_builds; [exact B|]. eapply tame_bind; [apply new_tame|]. intros W' X' [[f e]| |] G; [|intros y []..].
    cbn [ret tame]. intros y Y. destruct e; [destruct Y|]. destruct Y as [<- |[]]. eapply G. reflexivity.
  - apply on_heap_builds; [exact B|]. eapply tame_bind; [apply update_tame; left; reflexivity|]. intros W' X' [e| |] G; intros y [].
Qed.

(** [steady F P p]: [p] uses no extractor but [F], and as long as its path is [P], [p] writes no
    other path and does not mind which trie it has. *)
Fixpoint steady {A : Type} (F : nat) (P : bytes) (p : hprog A) : Prop :=
  match p with
  | HDone _ => True
  | HSys o k => forall x, steady F P (k x)
  | @HHeap _ R o k =>
    match o in heap_op R return (R -> hprog A) -> (R -> Prop) -> Prop with
    | GetExtractor f => fun k K => f = F /\
        (forall x y, x_path x = P -> x_path y = P -> x_private x = x_private y -> k x = k y) /\ forall x, x_path x = P -> K x
    | PutPath f path => fun _ K => f = F /\ path = P /\ K tt
    | _ => fun _ K => forall x, K x
    end k (fun x => steady F P (k x))
  end.
Lemma steady_bind : forall A B F P (p : hprog A) (k : A -> hprog B), steady F P p -> (forall a, steady F P (k a)) -> steady F P (hbind p k).
Proof.
  intros A B F P. induction p as [r|R o c IH|R o c IH]; intros k H K.
  - destruct r; cbn [hbind steady]; auto.
  - cbn [hbind steady] in *. auto.
  - cbn [hbind]. destruct o as [R a o| | | | |]; cbn [steady] in *; intuition auto. f_equal. auto.
Qed.
Lemma nested_steady : forall F P a keys i, steady F P (nested_heap a i keys).
Proof.
  intros F P a. induction keys as [|key keys IH]; intros i; cbn [nested_heap].
  - cbn. auto.
  - cbn [on hbind hret steady]. intros found. apply steady_bind; [destruct found; cbn; auto|].
    intros _. cbn [on hbind hret steady]. intros [j|]; [apply IH|exact I].
Qed.
Lemma mark_steady : forall F P a, steady F P (mark_heap a).
Proof.
  intros F P a. unfold mark_heap. cbn [on hbind hret steady]. intros l. induction l as [|[k j] l IH]; cbn [mark_entries]; [cbn; auto|].
  cbn [on hbind hret steady]. intros star. apply steady_bind; [destruct star; cbn; auto|]. intros _. exact IH.
Qed.
Fixpoint psteady {A : Type} (F : nat) (P : bytes) (p : prog A) : Prop :=
  match p with
  | Done _ => True
  | Sys o k => forall x, psteady F P (k x)
  | @Mem _ R o k =>
    match o in mem_op R return (R -> prog A) -> (R -> Prop) -> Prop with
    | ReadExtractor f => fun k K => f = F /\
        (forall x y, x_path x = P -> x_path y = P -> x_private x = x_private y -> k x = k y) /\ forall x, x_path x = P -> K x
    | StorePath f path => fun _ K => f = F /\ path = P /\ K tt
    | _ => fun _ K => forall x, K x
    end k (fun x => psteady F P (k x))
  end.
Lemma psteady_bind : forall A B F P (p : prog A) (k : A -> prog B), psteady F P p -> (forall a, psteady F P (k a)) -> psteady F P (pbind p k).
Proof.
  intros A B F P. induction p as [r|R o c IH|R o c IH]; intros k H K.
  - destruct r; cbn [pbind psteady]; auto.
  - cbn [pbind psteady] in *. auto.
  - cbn [pbind]. destruct o; cbn [psteady] in *; intuition auto. f_equal. auto.
Qed.
Lemma on_heap_steady : forall A F P (p : prog A), psteady F P p -> steady F P (on_heap p).
Proof.
  intros A F P p. induction p as [r|R o c IH|R o c IH]; intros H.
  - exact I.
  - cbn [on_heap steady psteady] in *. auto.
  - destruct o; cbn [on_heap steady psteady] in *; try (intuition auto; fail).
    + apply steady_bind; [apply nested_steady|]. intros x. apply IH. apply H.
    + apply steady_bind; [apply mark_steady|]. intros x. apply IH. apply H.
    + destruct H as (H0 & H1 & H2). split; [exact H0|]. split; [|auto]. intros x y E1 E2 E3. f_equal. auto.
Qed.
Lemma no_mem_steady : forall A F P (p : prog A), no_mem p -> psteady F P p.
Proof. intros A F P. induction p as [r|R o c IH|R o c IH]; intros H; cbn [no_mem psteady] in *; auto. contradiction. Qed.
Lemma insert_steady : forall F P a l, psteady F P (insert_suffixes a l).
Proof.
  intros F P a. induction l as [|s l IH]; cbn [insert_suffixes]; [exact I|].
  destruct (reverse (split_byte s 46)); cbn [pbind mem_do ret psteady]; auto.
Qed.
Lemma construct_steady : forall to_ascii hardcoded private path F P, psteady F P (trie_construct to_ascii hardcoded private path).
Proof.
  intros to_ascii hardcoded private path F P. unfold trie_construct. cbn [pbind mem_do ret psteady]. intros a.
  apply psteady_bind.
  - destruct (negb _); [|exact I]. unfold get_public_suffix_list. cbn [pbind sys_do ret psteady]. intros [c|]; exact I.
  - intros [l [e|]]; cbn [ret psteady]; auto. apply psteady_bind; [apply insert_steady|]. intros _. cbn [pbind mem_do ret psteady]. auto.
Qed.
Lemma update_steady : forall to_ascii hardcoded ext f P, steady f P (heap_program to_ascii hardcoded ext (CallUpdate f)).
Proof.
  intros to_ascii hardcoded ext f P. cbn [heap_program]. apply on_heap_steady. apply psteady_bind; [|intros e; exact I].
  unfold update. cbn [pbind sys_do mem_do ret psteady]. intros temp. split; [reflexivity|]. split; [intros x y -> -> _; reflexivity|].
  intros x ->. destruct (bytes_eqb P (temp ++ default_psl_file_name)) eqn:E; cbn [negb]; [apply bytes_eqb_eq in E|exact I].
  cbn [pbind sys_do ret psteady]. intros [fd|]; [|exact I]. apply psteady_bind; [apply no_mem_steady, update_file_no_mem|].
  intros [e|]; [exact I|]. cbn [pbind mem_do ret psteady]. split; [reflexivity|]. split; [intros y z _ _ ->; reflexivity|]. intros y _.
  apply psteady_bind; [apply construct_steady|]. intros [a [e|]]; [exact I|]. cbn [pbind mem_do ret psteady]. intros _. auto.
Qed.

(** ** Programs that only look *)

Fixpoint pure {A : Type} (Q : outcome A -> Prop) (p : hprog A) : Prop :=
  match p with
  | HDone r => Q r
  | HSys o k => False
  | @HHeap _ R o k =>
    match o in heap_op R return Prop with
    | On _ o => changes o = false
    | GetExtractor _ => True
    | _ => False
    end /\ forall x, pure Q (k x)
  end.
Definition whatever {A : Type} (_ : outcome A) : Prop := True.
Lemma pure_bind : forall A B (Q : outcome B -> Prop) (p : hprog A) (k : A -> hprog B), Q Panic -> Q OutOfFuel ->
  pure whatever p -> (forall a, pure Q (k a)) -> pure Q (hbind p k).
Proof.
  intros A B Q p k B1 B2. induction p as [r|R o c IH|R o c IH]; intros H K; cbn [hbind pure] in *.
  - destruct r; cbn [pure]; auto.
  - contradiction.
  - destruct H as (H1 & H). split; auto.
Qed.
Lemma loop_pure : forall a fuel netloc i hs hl sep st en, pure whatever (suffix_loop_heap fuel netloc a i hs hl sep st en).
Proof.
  intros a. induction fuel as [|fuel IH]; intros netloc i hs hl sep st en; cbn [suffix_loop_heap]; [exact I|].
  apply pure_bind; try exact I. intros head. cbv zeta. apply pure_bind; try exact I. intros [label e].
  destruct (_ && _); [destruct (negb hl); [apply IH|exact I]|].
  apply pure_bind; try exact I; [cbn; unfold whatever; auto|]. intros [s|]; [apply pure_bind; cbn; unfold whatever; auto|].
  apply pure_bind; try exact I; [cbn; unfold whatever; auto|]. intros [val|]; [|exact I].
  apply pure_bind; try exact I; [destruct (negb hs); cbn; unfold whatever; auto|]. intros [en' hs'].
  apply pure_bind; try exact I; [cbn; unfold whatever; auto|]. intros z. destruct (_ || _); [exact I|apply IH].
Qed.
Definition returns_none (r : outcome answer) : Prop := returned r = [].
Lemma extract_pure : forall to_ascii hardcoded ext f p, pure returns_none (heap_program to_ascii hardcoded ext (CallExtract f p)).
Proof.
  intros to_ascii hardcoded ext f p. cbn [heap_program]. apply pure_bind; try reflexivity.
  unfold extract_heap. apply pure_bind; try exact I. intros [r|[u h]]; [exact I|]. apply pure_bind; try exact I; [cbn; unfold whatever; auto|]. intros x.
  unfold extract_host_heap. apply pure_bind; try exact I; [apply loop_pure|]. intros [e|w]; [exact I|].
  apply pure_bind; try exact I. intros [|]; [|exact I]. apply pure_bind; try exact I. intros d. exact I.
Qed.
Lemma step_total : forall R (o : heap_op R) h, match o with On _ o => changes o = false | GetExtractor _ => True | _ => False end ->
  forall w, agree w h -> exists x h', heap_step o h x h' /\ agree w h'.
Proof.
  intros R o h P w Ag. destruct o as [R a o| |y|f|f path|f a]; cbn [heap_step]; try contradiction.
  - destruct o as [|j key|j key n|j|j|j|j]; cbn [changes] in P; try discriminate P; cbn [region_step].
    + eexists _, _. split; [eexists; split; [split; reflexivity|reflexivity]|apply set_same; exact Ag].
    + eexists _, _. split; [eexists; split; [split; [apply Permutation_refl|reflexivity]|reflexivity]|apply set_same; exact Ag].
    + eexists _, _. split; [eexists; split; [split; reflexivity|reflexivity]|apply set_same; exact Ag].
    + eexists _, _. split; [eexists; split; [split; reflexivity|reflexivity]|apply set_same; exact Ag].
  - eexists _, h. split; [split; reflexivity|exact Ag].
Qed.
Lemma pure_runs : forall (Q : outcome answer -> Prop) p w h, pure Q p -> agree w h ->
  exists h' o, thread_runs h p h' (HDone o) /\ agree w h' /\ Q o.
Proof.
  intros Q. induction p as [r|R o k IH|R o k IH]; intros w h P Ag.
  - exists h, r. split; [apply truns_none|]. split; [exact Ag|exact P].
  - destruct P.
  - cbn [pure] in P. destruct P as (P1 & P2). destruct (step_total _ o h P1 w Ag) as (x & h1 & S & Ag1).
    destruct (IH x w h1 (P2 x) Ag1) as (h2 & r & T & Ag2 & E). exists h2, r. split; [|split; [exact Ag2|exact E]].
    eapply truns_more; [|exact T]. split; [reflexivity|exists x; auto].
Qed.

(** ** What holds in all executions *)

Definition path_of (w : weak) (f : nat) : bytes := as_path (latest (w_cell w (PathAt f))).
Definition paths_from (w : weak) (f b : nat) : Prop :=
  forall k, b <= k -> k <= c_last (w_cell w (PathAt f)) -> as_path (c_value (w_cell w (PathAt f)) k) = path_of w f.

Section Tracked.
Variable T : nat -> bool.
(** The Extracts in [T]. *)
Definition tracked (g : ghost) : Prop := T (wt_number (gh_thread g)) = true /\ call_writes (gh_call g) = false.

Record prog_ok (w : weak) (c : call) (p : hprog answer) (W N X : list nat) : Prop := {
  ok_builds : call_writes c = true -> builds result_own p W X;
  ok_keeps : call_writes c = false -> keeps false result_own p W N X;
  ok_pure : call_writes c = false -> pure returns_none p;
  ok_steady : forall f, c = CallUpdate f -> steady f (path_of w f) p }.
Record rgood (w : weak) (known : list nat) (g : ghost) : Prop := {
  rg_ok : prog_ok w (gh_call g) (wt_rest (gh_thread g)) (gh_made g) (gh_reads g) (gh_uses g);
  rg_made : forall a, In a (gh_made g) -> a < w_next w /\ forall i, knows w (gh_view g) (NodeAt a i);
  rg_uses : forall f, In f (gh_uses g) -> f < w_next_extractor w;
  rg_mine : forall f, In f (gh_uses g) -> ~ In f known ->
    In (trie_of w f) (gh_made g) /\ knows w (gh_view g) (PathAt f) /\ knows w (gh_view g) (TrieAt f);
  rg_on : forall f, In f (gh_uses g) -> In f known -> call_on f (gh_call g);
  rg_own : forall f, call_on f (gh_call g) -> In f (gh_uses g) /\ In f known;
  rg_reader : call_writes (gh_call g) = false -> incl (gh_uses g) known;
  rg_apart : forall f, In f known -> gh_call g <> CallUpdate f -> ~ In (trie_of w f) (gh_made g);
  rg_view : forall l, gh_view g l <= c_last (w_cell w l);
  rg_path : forall f, gh_call g = CallUpdate f -> paths_from w f (gh_view g (PathAt f));
  rg_seen : tracked g -> forall a, In a (gh_reads g) -> a < w_next w /\ forall i, knows w (gh_view g) (NodeAt a i);
  rg_track : tracked g -> forall f, In f (gh_uses g) -> trie_of w f < w_next w /\ knows_ext w (gh_view g) f }.
Record rhalf (known : list nat) (g1 g2 : ghost) : Prop := {
  rh_made : forall a, In a (gh_made g1) -> ~ In a (gh_made g2);
  rh_uses : forall f, In f (gh_uses g1) -> ~ In f known -> ~ In f (gh_uses g2);
  rh_reads : tracked g1 -> forall a, In a (gh_reads g1) -> ~ In a (gh_made g2);
  rh_quiet : tracked g1 -> forall f, In f (gh_uses g1) -> gh_call g2 <> CallUpdate f }.
Definition rapart (known : list nat) (g1 g2 : ghost) : Prop := rhalf known g1 g2 /\ rhalf known g2 g1.
Lemma rapart_sym : forall known g1 g2, rapart known g1 g2 -> rapart known g2 g1.
Proof. intros known g1 g2 (H1 & H2). split; assumption. Qed.
Record rfine (w : weak) (known : list nat) (gs : list ghost) (d : view) : Prop := {
  rf_known : forall f, In f known -> f < w_next_extractor w /\ trie_of w f < w_next w;
  rf_view : forall l, d l <= c_last (w_cell w l);
  rf_fresh : forall a i, w_next w <= a -> c_last (w_cell w (NodeAt a i)) = 0 /\ as_node (latest (w_cell w (NodeAt a i))) = zero;
  rf_path : forall f, In f known -> paths_from w f (d (PathAt f));
  rf_fields : forall f l, In f known -> l = PathAt f \/ l = TrieAt f -> knows w d l \/
    exists g, In g gs /\ gh_call g = CallUpdate f /\ knows w (gh_view g) l;
  rf_nodes : forall a, (forall i, knows w d (NodeAt a i)) \/ exists g, In g gs /\ In a (gh_made g) }.

Record rmoves (w w' : weak) (known : list nat) (g g' : ghost) : Prop := {
  rm_call : gh_call g' = gh_call g;
  rm_number : wt_number (gh_thread g') = wt_number (gh_thread g);
  rm_next : w_next w <= w_next w';
  rm_next_ext : w_next_extractor w <= w_next_extractor w';
  rm_last : forall l, c_last (w_cell w l) <= c_last (w_cell w' l);
  rm_cell : forall l, w_cell w' l = w_cell w l \/ match l with
     | NodeAt a i => In a (gh_made g) \/ w_next w <= a < w_next w'
     | PathAt f | TrieAt f => call_writes (gh_call g) = true /\ In f (gh_uses g) \/ w_next_extractor w <= f end;
  rm_trie : forall f, In f known \/ In f (gh_uses g) -> trie_of w' f = trie_of w f \/ In (trie_of w' f) (gh_made g);
  rm_path : forall f, In f known -> w_cell w' (PathAt f) = w_cell w (PathAt f) \/
     exists x, w_cell w' (PathAt f) = written_to (w_cell w (PathAt f)) x /\ as_path x = path_of w f;
  rm_made : forall a, In a (gh_made g') -> In a (gh_made g) \/ w_next w <= a < w_next w';
  rm_new : forall a, w_next w <= a < w_next w' -> In a (gh_made g');
  rm_keep : incl (gh_made g) (gh_made g');
  rm_reads : tracked g -> forall a, In a (gh_reads g') -> In a (gh_reads g) \/ exists f, In f (gh_uses g) /\ a = trie_of w f;
  rm_uses : forall f, In f (gh_uses g') -> In f (gh_uses g) \/ w_next_extractor w <= f;
  rm_view : forall l, w_cell w' l = w_cell w l /\ gh_view g l <= gh_view g' l <= c_last (w_cell w' l) \/ knows w' (gh_view g') l }.

Section Moves.
Context (w w' : weak) (known : list nat) (g g' : ghost).
Hypothesis G : rgood w known g.
Hypothesis M : rmoves w w' known g g'.

Lemma moves_paths : forall f b, In f known -> paths_from w f b -> paths_from w' f b /\ path_of w' f = path_of w f.
Proof.
  intros f b If H. unfold paths_from. destruct (rm_path _ _ _ _ _ M f If) as [E|(x & E & Ex)].
  - unfold path_of in *. rewrite E. split; [exact H|reflexivity].
  - assert (Ep : path_of w' f = path_of w f) by (unfold path_of at 1; rewrite E, latest_written; exact Ex).
    split; [|exact Ep]. rewrite Ep, E. intros k L1 L2. cbn [written_to c_value c_last] in *. unfold upd.
    destruct (Nat.eqb_spec k (S (c_last (w_cell w (PathAt f))))) as [->|Nk]; [exact Ex|]. apply H; lia.
Qed.
Lemma moves_knows : forall l, knows w (gh_view g) l -> knows w' (gh_view g') l.
Proof.
  intros l K. unfold knows in *. destruct (rm_view _ _ _ _ _ M l) as [(E & L)|E]; [|exact E]. rewrite E in *. lia.
Qed.
Lemma moves_field : forall f, In f known -> f < w_next_extractor w -> gh_call g <> CallUpdate f ->
  w_cell w' (PathAt f) = w_cell w (PathAt f) /\ w_cell w' (TrieAt f) = w_cell w (TrieAt f).
Proof.
  intros f If B Nu.
  assert (N : ~ (call_writes (gh_call g) = true /\ In f (gh_uses g) \/ w_next_extractor w <= f)).
  { intros [(R & I1)|L]; [|lia]. apply Nu. apply call_on_writes; [|exact R]. apply (rg_on _ _ _ G); assumption. }
  destruct (rm_cell _ _ _ _ _ M (PathAt f)) as [E1|]; [|contradiction]. destruct (rm_cell _ _ _ _ _ M (TrieAt f)) as [E2|]; [|contradiction]. auto.
Qed.

(** The call that moves. *)
Lemma mover_good : forall gs d, rfine w known gs d -> prog_ok w (gh_call g') (wt_rest (gh_thread g')) (gh_made g') (gh_reads g') (gh_uses g') ->
  (forall f, In f (gh_uses g') -> In f (gh_uses g) \/
     f < w_next_extractor w' /\ In (trie_of w' f) (gh_made g) /\ knows w' (gh_view g') (PathAt f) /\ knows w' (gh_view g') (TrieAt f)) ->
  incl (gh_uses g) (gh_uses g') -> (call_writes (gh_call g) = false -> incl (gh_uses g') (gh_uses g)) ->
  rgood w' known g'.
Proof.
  intros gs d F Ok Us In1 Rd.
  pose proof (rm_next _ _ _ _ _ M) as Ln. pose proof (rm_next_ext _ _ _ _ _ M) as Lx.
  assert (Kn : forall l, knows w (gh_view g) l -> knows w' (gh_view g') l) by (intros l H; apply moves_knows; exact H).
  assert (Fr : forall a i, w_next w <= a -> knows w (gh_view g) (NodeAt a i)).
  { intros a i L. destruct (rf_fresh _ _ _ _ F a i L) as (E & _). pose proof (rg_view _ _ _ G (NodeAt a i)). unfold knows. lia. }
  assert (Tr : tracked g' -> tracked g) by (intros (T1 & T2); split; [rewrite <- (rm_number _ _ _ _ _ M)|rewrite <- (rm_call _ _ _ _ _ M)]; assumption).
  split.
  - rewrite (rm_call _ _ _ _ _ M) in *. destruct Ok as [O1 O2 O3 O4]. split; auto. intros f Ef.
    destruct (rg_own _ _ _ G f (or_introl Ef)) as (I1 & If). destruct (moves_paths f _ If (rg_path _ _ _ G f Ef)) as (_ & ->). auto.
  - intros a I1. destruct (rm_made _ _ _ _ _ M a I1) as [I2|L].
    + destruct (rg_made _ _ _ G a I2) as (B & Ka). split; [lia|auto].
    + split; [lia|]. intros i. apply Kn. apply Fr. lia.
  - intros f I1. destruct (Us f I1) as [I2|(B & _)]; [|exact B]. pose proof (rg_uses _ _ _ G f I2). lia.
  - intros f I1 Nf. destruct (Us f I1) as [I2|(B & I2 & K1 & K2)]; [|split; [apply (rm_keep _ _ _ _ _ M); exact I2|auto]].
    destruct (rg_mine _ _ _ G f I2 Nf) as (I3 & K1 & K2). split; [|auto]. apply (rm_keep _ _ _ _ _ M).
    destruct (rm_trie _ _ _ _ _ M f (or_intror I2)) as [->|I4]; assumption.
  - intros f I1 If. rewrite (rm_call _ _ _ _ _ M). destruct (rm_uses _ _ _ _ _ M f I1) as [I2|L]; [apply (rg_on _ _ _ G); assumption|].
    destruct (rf_known _ _ _ _ F f If). lia.
  - intros f C. rewrite (rm_call _ _ _ _ _ M) in C. destruct (rg_own _ _ _ G f C). auto.
  - rewrite (rm_call _ _ _ _ _ M). intros R f I1. apply (rg_reader _ _ _ G R). apply Rd; assumption.
  - intros f If Nu I1. rewrite (rm_call _ _ _ _ _ M) in Nu. destruct (rf_known _ _ _ _ F f If) as (B1 & B2).
    assert (Et : trie_of w' f = trie_of w f) by (unfold trie_of; rewrite (proj2 (moves_field f If B1 Nu)); reflexivity).
    rewrite Et in I1. destruct (rm_made _ _ _ _ _ M _ I1) as [I2|L]; [|lia]. exact (rg_apart _ _ _ G f If Nu I2).
  - intros l. destruct (rm_view _ _ _ _ _ M l) as [(_ & L)|E]; [lia|]. unfold knows in E. lia.
  - intros f Ef. rewrite (rm_call _ _ _ _ _ M) in Ef. destruct (rg_own _ _ _ G f (or_introl Ef)) as (I1 & If).
    pose proof (rg_path _ _ _ G f Ef) as Hp. destruct (moves_paths f _ If Hp) as (Hp' & Ep). intros k L1 L2.
    apply Hp'; [|exact L2]. destruct (rm_view _ _ _ _ _ M (PathAt f)) as [(_ & L)|E]; [lia|]. unfold knows in E.
    pose proof (rg_view _ _ _ G (PathAt f)). pose proof (rm_last _ _ _ _ _ M (PathAt f)). lia.
  - intros Tg a I1. apply Tr in Tg. destruct (rm_reads _ _ _ _ _ M Tg a I1) as [I2|(f & I2 & ->)].
    + destruct (rg_seen _ _ _ G Tg a I2) as (B & K). split; [lia|auto].
    + destruct (rg_track _ _ _ G Tg f I2) as (B & _ & _ & K). split; [lia|auto].
  - intros Tg f I1. apply Tr in Tg. pose proof (Rd (proj2 Tg) f I1) as I2. destruct (rg_track _ _ _ G Tg f I2) as (B & K1 & K2 & K3).
    pose proof (rg_reader _ _ _ G (proj2 Tg) f I2) as If. destruct (rf_known _ _ _ _ F f If) as (B1 & _).
    assert (Nu : gh_call g <> CallUpdate f) by (intros E; destruct Tg as (_ & Tg); rewrite E in Tg; discriminate Tg).
    destruct (moves_field f If B1 Nu) as (E1 & E2). assert (Et : trie_of w' f = trie_of w f) by (unfold trie_of; rewrite E2; reflexivity).
    unfold knows_ext. rewrite Et. split; [lia|]. split; [auto|]. split; auto.
Qed.

(** The others. *)
Section Others.
Context (g2 : ghost).
Hypothesis G2 : rgood w known g2.
Hypothesis A : rapart known g g2.
Lemma other_node : forall a i, In a (gh_made g2) -> w_cell w' (NodeAt a i) = w_cell w (NodeAt a i).
Proof.
  intros a i I1. destruct (rm_cell _ _ _ _ _ M (NodeAt a i)) as [E|[I2|L]]; [exact E| |].
  - destruct (rh_made _ _ _ (proj1 A) a I2 I1).
  - destruct (rg_made _ _ _ G2 a I1) as (B & _). lia.
Qed.
Lemma other_good : rgood w' known g2.
Proof.
  destruct G2 as [H1 H2 H3 H4 H5 H6 H7 H8 H9 H10 H11 H12]. pose proof (rm_next _ _ _ _ _ M). pose proof (rm_next_ext _ _ _ _ _ M). split; auto.
  - destruct H1 as [O1 O2 O3 O4]. split; auto. intros f Ef. destruct (H6 f (or_introl Ef)) as (I1 & If).
    destruct (moves_paths f _ If (H10 f Ef)) as (_ & ->). auto.
  - intros a I1. destruct (H2 a I1) as (B & K). split; [lia|]. intros i. unfold knows. rewrite other_node by exact I1. apply K.
  - intros f I1. specialize (H3 f I1). lia.
  - intros f I1 Nf. destruct (H4 f I1 Nf) as (I2 & K1 & K2). pose proof (H3 f I1).
    assert (N : ~ (call_writes (gh_call g) = true /\ In f (gh_uses g) \/ w_next_extractor w <= f)).
    { intros [(_ & I3)|L]; [|lia]. exact (rh_uses _ _ _ (proj2 A) f I1 Nf I3). }
    destruct (rm_cell _ _ _ _ _ M (PathAt f)) as [E1|]; [|contradiction]. destruct (rm_cell _ _ _ _ _ M (TrieAt f)) as [E2|]; [|contradiction].
    unfold trie_of, knows. rewrite E1, E2. auto.
  - intros f If Nu. destruct (rm_trie _ _ _ _ _ M f (or_introl If)) as [->|I1]; [auto|]. apply (rh_made _ _ _ (proj1 A)). exact I1.
  - intros l. pose proof (rm_last _ _ _ _ _ M l). specialize (H9 l). lia.
  - intros f Ef. destruct (H6 f (or_introl Ef)) as (I1 & If). apply (moves_paths f _ If (H10 f Ef)).
  - intros Tg a I1. destruct (H11 Tg a I1) as (B & K). split; [lia|]. intros i. specialize (K i). unfold knows in *.
    destruct (rm_cell _ _ _ _ _ M (NodeAt a i)) as [->|[I2|L]]; [exact K| |lia]. destruct (rh_reads _ _ _ (proj2 A) Tg a I1 I2).
  - intros Tg f I1. destruct (H12 Tg f I1) as (B & K1 & K2 & K3). pose proof (H7 (proj2 Tg) f I1) as If.
    destruct (moves_field f If (H3 f I1) (rh_quiet _ _ _ (proj2 A) Tg f I1)) as (E1 & E2).
    assert (Et : trie_of w' f = trie_of w f) by (unfold trie_of; rewrite E2; reflexivity).
    unfold knows_ext. rewrite Et. split; [lia|]. unfold knows in *. rewrite E1, E2. split; [exact K1|]. split; [exact K2|]. intros i.
    destruct (rm_cell _ _ _ _ _ M (NodeAt (trie_of w f) i)) as [->|[I2|L]]; [apply K3| |lia].
    destruct (rg_apart _ _ _ G f If (rh_quiet _ _ _ (proj2 A) Tg f I1) I2).
Qed.
Lemma other_apart : rapart known g' g2.
Proof.
  destruct A as ([A1 A2 A3 A4] & [B1 B2 B3 B4]).
  assert (Tr : tracked g' -> tracked g) by (intros (T1 & T2); split; [rewrite <- (rm_number _ _ _ _ _ M)|rewrite <- (rm_call _ _ _ _ _ M)]; assumption).
  split; split.
  - intros a I1 I2. destruct (rm_made _ _ _ _ _ M a I1) as [I3|L]; [exact (A1 a I3 I2)|]. destruct (rg_made _ _ _ G2 a I2). lia.
  - intros f I1 Nf I2. destruct (rm_uses _ _ _ _ _ M f I1) as [I3|L]; [exact (A2 f I3 Nf I2)|]. pose proof (rg_uses _ _ _ G2 f I2). lia.
  - intros Tg a I1. apply Tr in Tg. destruct (rm_reads _ _ _ _ _ M Tg a I1) as [I2|(f & I2 & ->)]; [apply A3; assumption|].
    apply (rg_apart _ _ _ G2); [apply (rg_reader _ _ _ G (proj2 Tg)); exact I2|apply A4; assumption].
  - intros Tg f I1. apply Tr in Tg. destruct (rm_uses _ _ _ _ _ M f I1) as [I3|L]; [apply A4; assumption|].
    intros E. destruct (rg_own _ _ _ G2 f (or_introl E)) as (I4 & _). pose proof (rg_uses _ _ _ G2 f I4). lia.
  - intros a I1 I2. destruct (rm_made _ _ _ _ _ M a I2) as [I3|L]; [exact (B1 a I1 I3)|]. destruct (rg_made _ _ _ G2 a I1). lia.
  - intros f I1 Nf I2. destruct (rm_uses _ _ _ _ _ M f I2) as [I3|L]; [exact (B2 f I1 Nf I3)|]. pose proof (rg_uses _ _ _ G2 f I1). lia.
  - intros Tg a I1 I2. destruct (rm_made _ _ _ _ _ M a I2) as [I3|L]; [exact (B3 Tg a I1 I3)|]. destruct (rg_seen _ _ _ G2 Tg a I1). lia.
  - rewrite (rm_call _ _ _ _ _ M). exact B4.
Qed.
End Others.

Lemma moves_fine : forall gs1 gs2 d, (forall x, In x (gs1 ++ gs2) -> rgood w known x) -> rgood w' known g' ->
  (forall x, In x (gs1 ++ gs2) -> rapart known g x) ->
  rfine w known (gs1 ++ g :: gs2) d -> rfine w' known (gs1 ++ g' :: gs2) d.
Proof.
  intros gs1 gs2 d Gs G' As [H1 H2 H3 H4 H5 H6]. pose proof (rm_next _ _ _ _ _ M) as Ln. pose proof (rm_next_ext _ _ _ _ _ M) as Lx.
  assert (Im : In g' (gs1 ++ g' :: gs2)) by (apply in_app_iff; right; left; reflexivity).
  assert (Io : forall x, In x (gs1 ++ g :: gs2) -> x = g \/ In x (gs1 ++ gs2) /\ In x (gs1 ++ g' :: gs2)).
  { intros x Ix. apply in_app_iff in Ix. destruct Ix as [Ix|[<-|Ix]]; [right|left; reflexivity|right]; split; apply in_app_iff; auto. right. right. exact Ix. }
  split.
  - intros f If. destruct (H1 f If) as (B1 & B2). split; [lia|]. destruct (rm_trie _ _ _ _ _ M f (or_introl If)) as [->|I1]; [lia|].
    destruct (rg_made _ _ _ G _ I1). lia.
  - intros l. pose proof (rm_last _ _ _ _ _ M l). specialize (H2 l). lia.
  - intros a i L. destruct (rm_cell _ _ _ _ _ M (NodeAt a i)) as [->|[I1|B]]; [apply H3; lia| |lia].
    destruct (rg_made _ _ _ G _ I1). lia.
  - intros f If. apply (moves_paths f _ If (H4 f If)).
  - intros f l If El. destruct (H1 f If) as (B1 & _).
    assert (Dec : {gh_call g = CallUpdate f} + {gh_call g <> CallUpdate f}).
    { destruct (gh_call g) as [m|f'|f' u]; [right; discriminate| |right; discriminate]. destruct (Nat.eq_dec f' f) as [->|Nf]; [left; reflexivity|right; congruence]. }
    destruct Dec as [E|Nu].
    + assert (Eg : gh_call g' = CallUpdate f) by (rewrite (rm_call _ _ _ _ _ M); exact E).
      destruct (rm_view _ _ _ _ _ M l) as [(Ec & L)|K]; [|right; exists g'; auto].
      destruct (H5 f l If El) as [K|(x & Ix & Ex & K)]; [left; unfold knows in *; rewrite Ec; exact K|].
      right. destruct (Io x Ix) as [->|(_ & I1)]; [exists g'; split; [exact Im|]; split; [exact Eg|apply moves_knows; exact K]|].
      exists x. split; [exact I1|]. split; [exact Ex|]. unfold knows in *. rewrite Ec. exact K.
    + assert (Ec : w_cell w' l = w_cell w l) by (destruct (moves_field f If B1 Nu); destruct El as [-> | ->]; assumption).
      destruct (H5 f l If El) as [K|(x & Ix & Ex & K)]; [left; unfold knows in *; rewrite Ec; exact K|].
      right. destruct (Io x Ix) as [->|(_ & I1)]; [contradiction|].
      exists x. split; [exact I1|]. split; [exact Ex|]. unfold knows in *. rewrite Ec. exact K.
  - intros a. destruct (H6 a) as [K|(x & Ix & I1)].
    + destruct (in_dec Nat.eq_dec a (gh_made g')) as [I1|Na]; [right; exists g'; auto|]. left. intros i. specialize (K i). unfold knows in *.
      destruct (rm_cell _ _ _ _ _ M (NodeAt a i)) as [->|[I1|L]]; [exact K| |].
      * destruct Na. apply (rm_keep _ _ _ _ _ M). exact I1.
      * destruct Na. apply (rm_new _ _ _ _ _ M). exact L.
    + right. destruct (Io x Ix) as [->|(_ & I2)]; [exists g'; split; [exact Im|apply (rm_keep _ _ _ _ _ M); exact I1]|exists x; auto].
Qed.
End Moves.

(** *** One access *)

(** A step that only reads. *)
Lemma still_rgood : forall w known g gs d v' p' N', rgood w known g -> rfine w known gs d ->
  (forall l, gh_view g l <= v' l /\ v' l <= c_last (w_cell w l)) ->
  (tracked g -> forall a, In a N' -> In a (gh_reads g) \/ exists f, In f (gh_uses g) /\ a = trie_of w f) ->
  prog_ok w (gh_call g) p' (gh_made g) N' (gh_uses g) ->
  let g' := mkGhost (mkWThread (wt_number (gh_thread g)) (gh_call g) p' v') (gh_made g) N' (gh_uses g) in
  rmoves w w known g g' /\ rgood w known g'.
Proof.
  intros w known g gs d v' p' N' G F Ev HN K g'.
  assert (M : rmoves w w known g g').
  { split; cbn [g' gh_made gh_reads gh_uses gh_call gh_thread wt_call wt_number]; auto; try (intros; lia); apply incl_refl. }
  split; [exact M|]. eapply mover_good; [exact G|exact M|exact F|exact K|auto|apply incl_refl|intros _; apply incl_refl].
Qed.
(** A step that writes one location. *)
Lemma written_rgood : forall w w' known g gs d l x v' p', rgood w known g -> rfine w known gs d ->
  (forall l', v' l' = put_at (gh_view g) l (S (c_last (w_cell w l))) l') ->
  (forall l', w_cell w' l' = w_cell (weak_write w l x) l') -> w_next w' = w_next w -> w_next_extractor w' = w_next_extractor w ->
  match l with
  | NodeAt a i => In a (gh_made g)
  | PathAt f => (call_writes (gh_call g) = true /\ In f (gh_uses g)) /\ (In f known -> as_path x = path_of w f)
  | TrieAt f => (call_writes (gh_call g) = true /\ In f (gh_uses g)) /\ In (as_trie x) (gh_made g) end ->
  prog_ok w (gh_call g) p' (gh_made g) (gh_reads g) (gh_uses g) ->
  let g' := mkGhost (mkWThread (wt_number (gh_thread g)) (gh_call g) p' v') (gh_made g) (gh_reads g) (gh_uses g) in
  rmoves w w' known g g' /\ rgood w' known g'.
Proof.
  intros w w' known g gs d l x v' p' G F Ev Ew En Ex Own K g'.
  assert (Et : forall f, trie_of w' f = trie_of w f \/ In (trie_of w' f) (gh_made g)).
  { intros f. unfold trie_of. rewrite Ew, write_cell. destruct (location_eqb_spec (TrieAt f) l) as [<-|]; [|auto].
    right. rewrite latest_written. apply Own. }
  assert (M : rmoves w w' known g g').
  { split; cbn [g' gh_made gh_reads gh_uses gh_call gh_thread wt_call wt_number]; auto; try (intros; lia); try apply incl_refl.
    - intros l'. rewrite Ew. apply write_last.
    - intros l'. rewrite Ew, write_cell. destruct (location_eqb_spec l' l) as [->|]; [|auto]. right. destruct l as [a i|f|f]; [left; exact Own|left; apply Own|left; apply Own].
    - intros f If. rewrite Ew, write_cell. destruct (location_eqb_spec (PathAt f) l) as [<-|]; [|auto]. right. exists x. split; [reflexivity|]. apply Own. exact If.
    - intros l'. unfold knows. cbn [gh_view gh_thread wt_view]. rewrite Ew, Ev.
      destruct (write_tracks w (gh_view g) l x l') as [(E1 & E2)|(_ & H)]; [|auto]. left. rewrite E1, E2. split; [reflexivity|].
      split; [apply le_n|apply (rg_view _ _ _ G)]. }
  split; [exact M|]. eapply mover_good; [exact G|exact M|exact F|exact K|auto|apply incl_refl|intros _; apply incl_refl].
Qed.
Lemma read_view : forall w v l x v', weak_read w v l x v' -> (forall l, v l <= c_last (w_cell w l)) ->
  forall l', v l' <= v' l' /\ v' l' <= c_last (w_cell w l').
Proof. intros w v l x v' (k & L1 & L2 & _ & ->) B l'. unfold put_at. destruct (location_eqb_spec l' l) as [->|]; auto. Qed.

Lemma step_rgood : forall R (o : heap_op R) (k : R -> hprog answer) w w' v v' x i c W N X known gs d,
  rgood w known (mkGhost (mkWThread i c (HHeap o k) v) W N X) -> rfine w known gs d -> weak_step o w v x w' v' ->
  exists g', gh_thread g' = mkWThread i c (k x) v' /\ rmoves w w' known (mkGhost (mkWThread i c (HHeap o k) v) W N X) g' /\ rgood w' known g'.
Proof.
  intros R o k w w' v v' x i c W N X known gs d G F S. set (g := mkGhost _ W N X) in *.
  pose proof (rg_ok _ _ _ G) as [Kb Kk Kp Ks]. cbn [g gh_call gh_thread wt_call wt_rest gh_made gh_reads gh_uses] in Kb, Kk, Kp, Ks.
  pose proof (rg_view _ _ _ G) as Hv. cbn [g gh_view gh_thread wt_view] in Hv.
  destruct o as [R a o| |y|f|f path|f a]; cbn [builds keeps pure steady weak_step] in *.
  - assert (Ok : forall x, prog_ok w c (k x) W N X).
    { intros x0. split; intros E; [apply (Kb E)|apply (Kk E)|apply (Kp E)|intros Ef; apply (Ks E Ef)]. }
    assert (Still : forall x, w' = w -> (forall l, v l <= v' l /\ v' l <= c_last (w_cell w l)) ->
      exists g', gh_thread g' = mkWThread i c (k x) v' /\ rmoves w w' known g g' /\ rgood w' known g').
    { intros x0 -> Ev. eexists. split; [|eapply (still_rgood w known g gs d v' (k x0) N); [exact G|exact F|exact Ev|auto|apply Ok]]. reflexivity. }
    assert (Wrote : forall x j y, changes o = true -> (forall l, v' l = put_at v (NodeAt a j) (Datatypes.S (c_last (w_cell w (NodeAt a j)))) l) ->
      (forall l', w_cell w' l' = w_cell (weak_write w (NodeAt a j) y) l') -> w_next w' = w_next w -> w_next_extractor w' = w_next_extractor w ->
      exists g', gh_thread g' = mkWThread i c (k x) v' /\ rmoves w w' known g g' /\ rgood w' known g').
    { intros x0 j y Ch Ev Ew En Ex. eexists. split; [|eapply (written_rgood w w' known g gs d (NodeAt a j) y v' (k x0)); [exact G|exact F|exact Ev|exact Ew|exact En|exact Ex| |apply Ok]]; [reflexivity|].
      destruct (call_writes c) eqn:Rw; [apply (Kb eq_refl)|]. destruct (Kp eq_refl) as (E & _). congruence. }
    destruct o as [|j key|j key n|j|j|j|j]; cbn [weak_on changes] in *.
    + destruct S as (-> & -> & ->). eapply (Wrote _ (w_count w a)); reflexivity.
    + destruct S as (n & S & _ & Ew). apply Still; [exact Ew|eapply read_view; eassumption].
    + destruct S as (m & v1 & S & -> & ->).
      eapply (Wrote _ j); [reflexivity|intros l; eapply sees_after_read; [apply Hv|exact S]|reflexivity|reflexivity|reflexivity].
    + destruct S as (n & S & _ & Ew). apply Still; [exact Ew|eapply read_view; eassumption].
    + destruct S as (n & S & _ & Ew). apply Still; [exact Ew|eapply read_view; eassumption].
    + destruct S as (n & S & _ & Ew). apply Still; [exact Ew|eapply read_view; eassumption].
    + destruct S as (m & v1 & S & -> & ->).
      eapply (Wrote _ j); [reflexivity|intros l; eapply sees_after_read; [apply Hv|exact S]|reflexivity|reflexivity|reflexivity].
  - destruct S as (-> & -> & ->). set (a := w_next w) in *.
    assert (Rw : call_writes c = true) by (destruct (call_writes c); [reflexivity|destruct (Kp eq_refl) as ([] & _)]).
    set (w' := weak_write _ _ _). set (g' := mkGhost (mkWThread i c (k a) (sees_write w v (NodeAt a 0))) (a :: W) N X).
    assert (Et : forall f, trie_of w' f = trie_of w f) by (intros f; unfold trie_of, w'; rewrite write_cell; reflexivity).
    assert (M : rmoves w w' known g g').
    { split; cbn [w' weak_write w_next w_next_extractor g g' gh_made gh_reads gh_uses gh_call gh_thread wt_call wt_number]; auto; try (fold a; lia).
      - intros l. apply (write_last (mkWeak (w_cell w) _ _ _ _)).
      - intros l. change (put_at _ _ _) with (w_cell w'). unfold w'. rewrite write_cell. cbn [w_cell].
        destruct (location_eqb_spec l (NodeAt a 0)) as [->|]; [right; right; fold a; lia|auto].
      - intros b [<-|I1]; [right; fold a; lia|auto].
      - intros b L. left. lia.
      - intros b I1. right. exact I1.
      - intros l. unfold knows. cbn [gh_view gh_thread wt_view g g']. change (put_at (w_cell _) _ _) with (w_cell w'). unfold w', sees_write.
        destruct (write_tracks (mkWeak (w_cell w) (upd (w_count w) a 1) (Datatypes.S a) (w_private w) (w_next_extractor w)) v (NodeAt a 0) (NodeValue (mkNode false [])) l) as [(E1 & E2)|(_ & H)]; [|auto].
        left. split; [exact E1|]. rewrite E1. cbn [w_cell] in *. rewrite E2. split; [apply le_n|apply Hv]. }
    exists g'. split; [reflexivity|]. split; [exact M|]. eapply mover_good; [exact G|exact M|exact F| |auto|apply incl_refl|intros _; apply incl_refl].
    cbn [g' gh_made gh_reads gh_uses gh_call gh_view gh_thread wt_call wt_rest].
    split; intros E; [apply (Kb E)|congruence|congruence|intros Ef; apply (Ks E Ef)].
  - destruct S as (-> & -> & ->). set (f := w_next_extractor w) in *.
    assert (Rw : call_writes c = true) by (destruct (call_writes c); [reflexivity|destruct (Kp eq_refl) as ([] & _)]).
    destruct (Kb Rw) as (Iy & _).
    set (w' := weak_write _ _ _). set (g' := mkGhost (mkWThread i c (k f) (sees_write w (sees_write w v (PathAt f)) (TrieAt f))) W N (f :: X)).
    assert (Ec : forall l, l <> PathAt f -> l <> TrieAt f -> w_cell w' l = w_cell w l).
    { intros l N1 N2. unfold w'. rewrite !write_cell. destruct (location_eqb_spec l (TrieAt f)); [contradiction|]. destruct (location_eqb_spec l (PathAt f)); [contradiction|reflexivity]. }
    assert (Et : forall f', f' <> f -> trie_of w' f' = trie_of w f') by (intros f' Nf; unfold trie_of; rewrite Ec; [reflexivity|congruence|congruence]).
    assert (Ef : trie_of w' f = x_trie y).
    { unfold trie_of, w'. rewrite write_cell. destruct (location_eqb_spec (TrieAt f) (TrieAt f)); [|congruence]. rewrite latest_written. reflexivity. }
    assert (Ep : w_cell w' (PathAt f) = written_to (w_cell w (PathAt f)) (PathValue (x_path y))).
    { unfold w'. rewrite !write_cell. destruct (location_eqb_spec (PathAt f) (TrieAt f)); [discriminate|]. destruct (location_eqb_spec (PathAt f) (PathAt f)); [reflexivity|congruence]. }
    assert (Eq : w_cell w' (TrieAt f) = written_to (w_cell w (TrieAt f)) (TrieValue (x_trie y))).
    { unfold w'. rewrite write_cell. destruct (location_eqb_spec (TrieAt f) (TrieAt f)); [|congruence]. rewrite write_cell. destruct (location_eqb_spec (TrieAt f) (PathAt f)); [discriminate|reflexivity]. }
    assert (Kf : forall l, l = PathAt f \/ l = TrieAt f -> sees_write w (sees_write w v (PathAt f)) (TrieAt f) l = c_last (w_cell w' l)).
    { intros l [-> | ->]; [rewrite Ep|rewrite Eq]; unfold sees_write.
      - rewrite put_other by discriminate. rewrite put_same. reflexivity.
      - rewrite put_same. reflexivity. }
    assert (Fx : forall f', In f' X -> f' <> f) by (intros f' I1 ->; pose proof (rg_uses _ _ _ G f I1) as B; unfold f in B; lia).
    assert (Fk : forall f', In f' known -> f' <> f) by (intros f' I1 ->; destruct (rf_known _ _ _ _ F f I1) as (B & _); unfold f in B; lia).
    assert (M : rmoves w w' known g g').
    { split; try reflexivity; try apply le_n; try (cbn [g g' gh_made gh_reads]; auto; fail); try apply incl_refl.
      - cbn [w' weak_write w_next_extractor]. fold f. lia.
      - intros l. destruct (location_eqb_spec l (PathAt f)) as [->|N1]; [rewrite Ep; cbn [written_to c_last]; lia|].
        destruct (location_eqb_spec l (TrieAt f)) as [->|N2]; [rewrite Eq; cbn [written_to c_last]; lia|]. rewrite Ec by assumption. lia.
      - intros l. destruct (location_eqb_spec l (PathAt f)) as [->|N1]; [right; right; apply le_n|].
        destruct (location_eqb_spec l (TrieAt f)) as [->|N2]; [right; right; apply le_n|]. left. apply Ec; assumption.
      - intros f' [If|If]; left; apply Et; auto.
      - intros f' If. left. apply Ec; [|discriminate]. intros E. injection E as E. exact (Fk f' If E).
      - intros b L. cbn [w' weak_write w_next] in L. lia.
      - intros f' [<-|I1]; [right; apply le_n|auto].
      - intros l. unfold knows. cbn [g g' gh_view gh_thread wt_view].
        destruct (location_eqb_spec l (PathAt f)) as [->|N1]; [right; apply Kf; auto|].
        destruct (location_eqb_spec l (TrieAt f)) as [->|N2]; [right; apply Kf; auto|]. left. rewrite (Ec l) by assumption. split; [reflexivity|].
        unfold sees_write. rewrite !put_other by assumption. auto. }
    exists g'. split; [reflexivity|]. split; [exact M|]. eapply mover_good; [exact G|exact M|exact F| | |intros f' I1; right; exact I1|].
    + cbn [g' gh_made gh_reads gh_uses gh_call gh_view gh_thread wt_call wt_rest].
      split; intros E; [apply (Kb E)|congruence|congruence|intros Eu; apply (Ks E Eu)].
    + intros f' [<-|I1]; [right|left; exact I1]. split; [cbn [w' weak_write w_next_extractor]; lia|]. rewrite Ef. split; [exact Iy|]. split; apply Kf; auto.
    + cbn [g gh_call gh_thread wt_call]. congruence.
  - destruct S as (p & t & v1 & R1 & R2 & Ex & ->).
    assert (V1 : forall l, v l <= v1 l /\ v1 l <= c_last (w_cell w l)) by (eapply read_view; eassumption).
    assert (V2 : forall l, v1 l <= v' l /\ v' l <= c_last (w_cell w l)) by (eapply read_view; [exact R2|apply V1]).
    assert (V : forall l, v l <= v' l /\ v' l <= c_last (w_cell w l)) by (intros l; specialize (V1 l); specialize (V2 l); lia).
    assert (Ix : In f X) by (destruct (call_writes c) eqn:Rw; [apply (Kb eq_refl)|apply (Kk eq_refl)]).
    eexists. split; [|eapply (still_rgood w known g gs d v' (k x) (x_trie x :: N)); [exact G|exact F|exact V| |]]; [reflexivity| |].
    + intros Tg b [<-|I1]; [|left; exact I1]. right. exists f. split; [exact Ix|].
      destruct (rg_track _ _ _ G Tg f Ix) as (_ & K1 & K2 & _). destruct (read_known _ _ _ _ _ R1 K1) as (_ & Ev).
      destruct (read_known _ _ _ _ _ R2) as (-> & _); [unfold knows; rewrite Ev; exact K2|]. rewrite Ex. reflexivity.
    + cbn [g gh_made gh_uses gh_call gh_thread wt_call]. split; intros E; [apply (Kb E)|apply (Kk E)|apply (Kp E)|].
      intros Ef. destruct (Ks E Ef) as (E1 & _ & Kx). subst E. apply Kx. rewrite Ex. cbn [x_path].
      destruct R1 as (k1 & L1 & L2 & -> & _). apply (rg_path _ _ _ G f Ef); assumption.
  - destruct S as (-> & ->). destruct x.
    assert (Rw : call_writes c = true) by (destruct (call_writes c); [reflexivity|destruct (Kp eq_refl) as ([] & _)]).
    destruct (Kb Rw) as (If & _).
    eexists. split; [|eapply (written_rgood w _ known g gs d (PathAt f) (PathValue path) _ (k tt)); [exact G|exact F|reflexivity|reflexivity|reflexivity|reflexivity| |]]; [reflexivity| |].
    + split; [split; assumption|]. intros Ik. cbn [as_path].
      pose proof (call_on_writes f c (rg_on _ _ _ G f If Ik) Rw) as Ef. apply (Ks f Ef).
    + cbn [g gh_made gh_reads gh_uses gh_call gh_thread wt_call]. split; intros E; [apply (Kb E)|congruence|congruence|intros Eu; apply (Ks E Eu)].
  - destruct S as (-> & ->). destruct x.
    assert (Rw : call_writes c = true) by (destruct (call_writes c); [reflexivity|destruct (Kp eq_refl) as ([] & _)]).
    destruct (Kb Rw) as (If & Ia & _).
    eexists. split; [|eapply (written_rgood w _ known g gs d (TrieAt f) (TrieValue a) _ (k tt)); [exact G|exact F|reflexivity|reflexivity|reflexivity|reflexivity| |]]; [reflexivity| |].
    + split; [split; assumption|exact Ia].
    + cbn [g gh_made gh_reads gh_uses gh_call gh_thread wt_call]. split; intros E; [apply (Kb E)|congruence|congruence|intros Eu; apply (Ks E Eu)].
Qed.

(** What New, Update and the Extracts in [T] do is what they do on ordered memory. *)
Lemma step_settled : forall R (o : heap_op R) (k : R -> hprog answer) w w' v v' x i c W N X known gs d h,
  rgood w known (mkGhost (mkWThread i c (HHeap o k) v) W N X) -> rfine w known gs d -> weak_step o w v x w' v' ->
  settled T i c = true -> agree w h -> exists x' h', heap_step o h x' h' /\ agree w' h' /\ k x' = k x.
Proof.
  intros R o k w w' v v' x i c W N X known gs d h G F S Se Ag. set (g := mkGhost _ W N X) in *.
  assert (Kn : (forall l, reads o l -> knows w v l) -> exists x' h', heap_step o h x' h' /\ agree w' h' /\ k x' = k x).
  { intros Kn. destruct (step_agree _ _ _ _ _ _ _ _ Ag S Kn (fun a i L => proj2 (rf_fresh _ _ _ _ F a i L))) as (h' & H1 & H2). exists x, h'. auto. }
  pose proof (rg_ok _ _ _ G) as [Kb Kk Kp Ks]. cbn [g gh_call gh_thread wt_call wt_rest gh_made gh_reads gh_uses] in Kb, Kk, Kp, Ks.
  pose proof (rg_made _ _ _ G) as Hm. cbn [g gh_made gh_view gh_thread wt_view] in Hm.
  assert (Tg : call_writes c = false -> tracked g).
  { intros Rw. split; [|exact Rw]. unfold settled in Se. cbn [g gh_thread wt_number]. destruct c; try discriminate Rw. rewrite orb_false_r in Se. exact Se. }
  destruct o as [R a o| |y|f|f path|f a].
  - apply Kn. assert (Ka : forall j, knows w v (NodeAt a j)).
    { destruct (call_writes c) eqn:Rw; cbn [builds keeps] in *; [apply Hm; apply (Kb eq_refl)|].
      destruct (Kk eq_refl) as ([I1|(_ & I1)] & _); [apply Hm; exact I1|]. apply (rg_seen _ _ _ G (Tg eq_refl)). exact I1. }
    intros l Rl. destruct o; cbn [reads] in Rl; try contradiction; subst l; apply Ka.
  - apply Kn. intros l [].
  - apply Kn. intros l [].
  - destruct (call_writes c) eqn:Rw; cbn [builds keeps steady] in *.
    + destruct (Kb eq_refl) as (If & _). destruct (in_dec Nat.eq_dec f known) as [Ik|Nk].
      * pose proof (call_on_writes f c (rg_on _ _ _ G f If Ik) Rw) as Ef. destruct (Ks f Ef) as (_ & Kx & _).
        cbn [weak_step heap_step] in *. destruct S as (p & t & v1 & R1 & R2 & -> & ->).
        exists (h_extractor h f), h. split; [split; reflexivity|]. split; [exact Ag|].
        destruct R1 as (k1 & L1 & L2 & -> & _). pose proof (a_ext _ _ Ag f) as Ex. rewrite <- Ex. apply Kx; cbn [x_path x_private]; [reflexivity| |reflexivity].
        apply (rg_path _ _ _ G f Ef); assumption.
      * destruct (rg_mine _ _ _ G f If Nk) as (_ & K1 & K2). apply Kn. intros l [-> | ->]; assumption.
    + destruct (Kk eq_refl) as (If & _). destruct (rg_track _ _ _ G (Tg eq_refl) f If) as (_ & K1 & K2 & _). apply Kn. intros l [-> | ->]; assumption.
  - apply Kn. intros l [].
  - apply Kn. intros l [].
Qed.

(** *** Executions *)

Section Executions.
Variable to_ascii : bytes -> option bytes.
Variable hardcoded : bytes.
Variable ext : idna.
Notation heap_program := (heap_program to_ascii hardcoded ext).

(** On ordered memory, the Extracts that are not in [T] run when the others have returned. *)
Definition like (th : wthread) (ht : hthread) : Prop :=
  wt_number th = ht_number ht /\ wt_call th = ht_call ht
  /\ ht_rest ht = if settled T (wt_number th) (wt_call th) then wt_rest th else heap_program (wt_call th).
Record rrel (q : wpool) (hq : hpool) (gs : list ghost) : Prop := {
  rr_threads : map gh_thread gs = wp_threads q;
  rr_good : forall g, In g gs -> rgood (wp_weak q) (wp_known q) g;
  rr_apart : ForallOrdPairs (rapart (wp_known q)) gs;
  rr_fine : rfine (wp_weak q) (wp_known q) gs (wp_ended q);
  rr_agree : agree (wp_weak q) (hp_heap hq);
  rr_like : Forall2 like (wp_threads q) (hp_threads hq);
  rr_known : wp_known q = hp_known hq;
  rr_count : wp_count q = hp_count hq;
  rr_trace : wp_trace q = hp_trace hq }.
Lemma rrel_same : forall q hq gs, rrel q hq gs -> same_writes T q hq.
Proof.
  intros q hq gs [H1 H2 H3 H4 H5 H6 H7 H8 H9]. split; auto; [|apply (a_nodes _ _ H5)|apply (a_ext _ _ H5)].
  clear H1. induction H6 as [|th ht ths hts (E1 & E2 & E3) L6 IH]; [constructor|]. constructor; [|exact IH]. split; [exact E1|]. split; [exact E2|]. intros E. rewrite E in E3. auto.
Qed.

Lemma start_rrel : forall w known ts n tr d h hts c gs,
  rrel (mkWPool w known ts n tr d) (mkHPool h known hts n tr) gs -> may_call known c ->
  undisturbed T (ts ++ [mkWThread n c (heap_program c) d]) ->
  exists gs', rrel (mkWPool w known (ts ++ [mkWThread n c (heap_program c) d]) (S n) tr d)
                   (mkHPool h known (hts ++ [mkHThread n c (heap_program c)]) (S n) tr) gs'.
Proof.
  intros w known ts n tr d h hts c gs [R1 R2 R3 R5 R6 R7 R8 R9 R10] May O.
  cbn [wp_weak wp_known wp_threads wp_count wp_trace wp_ended hp_heap hp_known hp_threads hp_count hp_trace] in *.
  set (g := mkGhost (mkWThread n c (heap_program c) d) [] [] (call_uses c)).
  assert (Uses : forall f, In f (call_uses c) -> In f known /\ call_on f c).
  { destruct c as [m|f|f u]; intros f0 I1; [destruct I1| |]; destruct I1 as [<-|[]]; (split; [exact May|]); [left; reflexivity|right; eexists; reflexivity]. }
  assert (Own : forall f, call_on f c -> In f (call_uses c)) by (intros f [-> |(u & ->)]; left; reflexivity).
  assert (Qu : forall g1 g2, In g1 (gs ++ [g]) -> In g2 (gs ++ [g]) -> tracked g1 -> forall f, call_on f (gh_call g1) -> gh_call g2 <> CallUpdate f).
  { intros g1 g2 I1 I2 (T1 & T2) f C. assert (Em : map gh_thread (gs ++ [g]) = ts ++ [mkWThread n c (heap_program c) d]) by (rewrite map_app, R1; reflexivity).
    destruct C as [C|(p & C)]; [rewrite C in T2; discriminate T2|].
    apply (O (gh_thread g1) (gh_thread g2) f p); [rewrite <- Em; apply in_map; assumption..|exact T1|exact C]. }
  assert (Ig : In g (gs ++ [g])) by (apply in_app_iff; right; left; reflexivity).
  assert (Io : forall x, In x gs -> In x (gs ++ [g])) by (intros x Ix; apply in_app_iff; left; exact Ix).
  assert (G : rgood w known g).
  { split; cbn [g gh_made gh_reads gh_uses gh_call gh_view gh_thread wt_call wt_rest wt_view].
    - split; intros E; [apply program_builds; exact E| | |].
      + pose proof (program_keeps to_ascii hardcoded ext c) as K. rewrite E in K. exact K.
      + destruct c; try discriminate E. apply extract_pure.
      + intros ->. apply update_steady.
    - intros a [].
    - intros f I1. apply (rf_known _ _ _ _ R5). apply Uses. exact I1.
    - intros f I1 Nf. destruct Nf. apply Uses. exact I1.
    - intros f I1 _. apply Uses. exact I1.
    - intros f C. split; [apply Own; exact C|]. apply Uses. apply Own. exact C.
    - intros _ f I1. apply Uses. exact I1.
    - intros f _ _ [].
    - apply (rf_view _ _ _ _ R5).
    - intros f ->. apply (rf_path _ _ _ _ R5). exact May.
    - intros _ a [].
    - intros Tg f I1. destruct (Uses f I1) as (If & Co). destruct (rf_known _ _ _ _ R5 f If) as (B1 & B2). split; [exact B2|].
      assert (Nu : forall x, In x gs -> gh_call x <> CallUpdate f) by (intros x Ix; apply (Qu g x Ig (Io x Ix) Tg f Co)).
      assert (Kf : forall l, l = PathAt f \/ l = TrieAt f -> knows w d l).
      { intros l El. destruct (rf_fields _ _ _ _ R5 f l If El) as [K|(x & Ix & E & _)]; [exact K|]. destruct (Nu x Ix E). }
      split; [apply Kf; auto|]. split; [apply Kf; auto|].
      destruct (rf_nodes _ _ _ _ R5 (trie_of w f)) as [K|(x & Ix & I2)]; [exact K|]. destruct (rg_apart _ _ _ (R2 x Ix) f If (Nu x Ix) I2). }
  exists (gs ++ [g]). split; cbn [wp_weak wp_known wp_threads wp_count wp_trace wp_ended hp_heap hp_known hp_threads hp_count hp_trace]; auto.
  + rewrite map_app, R1. reflexivity.
  + intros x I1. apply in_app_iff in I1. destruct I1 as [I1|[<-|[]]]; auto.
  + apply pairs_middle; [apply rapart_sym|]. rewrite app_nil_r. split; [exact R3|]. apply Forall_forall. intros x Ix.
    split; split; cbn [g gh_made gh_reads gh_uses].
    * intros a [].
    * intros f I1 Nf. destruct Nf. apply Uses. exact I1.
    * intros _ a [].
    * intros Tg f I1. apply (Qu g x Ig (Io x Ix) Tg f). apply Uses. exact I1.
    * intros a _ [].
    * intros f I1 Nf I2. apply Nf. apply Uses. exact I2.
    * intros _ a _ [].
    * intros Tg f I1. apply (Qu x g (Io x Ix) Ig Tg f). pose proof (R2 x Ix) as Gx. apply (rg_on _ _ _ Gx f I1). apply (rg_reader _ _ _ Gx (proj2 Tg)). exact I1.
  + destruct R5 as [F1 F2 F3 F4 F5 F6]. split; auto.
    * intros f l If El. destruct (F5 f l If El) as [K|(x & Ix & K)]; [left; exact K|right; exists x; auto].
    * intros a. destruct (F6 a) as [K|(x & Ix & K)]; [left; exact K|right; exists x; auto].
  + apply Forall2_app; [exact R7|]. constructor; [|constructor]. split; [reflexivity|]. split; [reflexivity|]. cbn [ht_rest wt_number wt_call wt_rest]. destruct (settled T n c); reflexivity.
Qed.

(** Steps on ordered memory with what can be seen of them. *)
Definition follows (hq : hpool) (l : list moment) (hq' : hpool) : Prop :=
  hpool_steps to_ascii hardcoded ext hq hq' /\ forall l0, hseen to_ascii hardcoded ext hq l0 -> hseen to_ascii hardcoded ext hq' (l0 ++ l).
Lemma follows_none : forall hq, follows hq [] hq.
Proof. intros hq. split; [apply hsteps_none|]. intros l0 H. rewrite app_nil_r. exact H. Qed.
Lemma follows_works : forall h known ts1 i c p ts2 n tr tr' h' p', heap_advance h p tr' h' p' ->
  follows (mkHPool h known (ts1 ++ mkHThread i c p :: ts2) n tr) (map (Asks i) tr') (mkHPool h' known (ts1 ++ mkHThread i c p' :: ts2) n (tr ++ tr')).
Proof.
  intros h known ts1 i c p ts2 n tr tr' h' p' A. split; [eapply hsteps_more; [apply hsteps_none|]; apply hworks; exact A|].
  intros l0 H. eapply hseen_asks; eassumption.
Qed.
Lemma follows_ends : forall h known ts1 i c r ts2 n tr,
  follows (mkHPool h known (ts1 ++ mkHThread i c (HDone r) :: ts2) n tr) [Ends i r] (mkHPool h (returned r ++ known) (ts1 ++ ts2) n tr).
Proof.
  intros h known ts1 i c r ts2 n tr. split; [eapply hsteps_more; [apply hsteps_none|]; apply hreturns|]. intros l0 H. eapply hseen_ends; eassumption.
Qed.
Lemma follows_runs : forall h hp h' hp', thread_runs h hp h' hp' -> forall known ts1 i c ts2 n tr,
  follows (mkHPool h known (ts1 ++ mkHThread i c hp :: ts2) n tr) [] (mkHPool h' known (ts1 ++ mkHThread i c hp' :: ts2) n tr).
Proof.
  intros h hp h' hp' Tr known ts1 i c ts2 n tr. split; [apply lift_runs; exact Tr|]. intros l0 H. rewrite app_nil_r. revert H.
  induction Tr as [h hp|h hp h1 hp1 h2 hp2 Ad Tr IH]; intros H; [exact H|]. apply IH.
  pose proof (hseen_asks to_ascii hardcoded ext h known ts1 i c hp ts2 n tr [] h1 hp1 l0 H Ad) as X. cbn [map] in X. rewrite !app_nil_r in X. exact X.
Qed.

Lemma work_rrel : forall w known ts1 i c p v ts2 n tr d h hts1 hp hts2 tr' w' v' p' gs,
  rrel (mkWPool w known (ts1 ++ mkWThread i c p v :: ts2) n tr d) (mkHPool h known (hts1 ++ mkHThread i c hp :: hts2) n tr) gs ->
  Forall2 like ts1 hts1 -> Forall2 like ts2 hts2 -> like (mkWThread i c p v) (mkHThread i c hp) ->
  weak_advance w v p tr' w' v' p' ->
  exists hq' gs', follows (mkHPool h known (hts1 ++ mkHThread i c hp :: hts2) n tr) (map (Asks i) tr') hq'
    /\ rrel (mkWPool w' known (ts1 ++ mkWThread i c p' v' :: ts2) n (tr ++ tr') d) hq' gs'.
Proof.
  intros w known ts1 i c p v ts2 n tr d h hts1 hp hts2 tr' w' v' p' gs [R1 R2 R3 R5 R6 R7 R8 R9 R10] L1 L2 Lk Adv.
  cbn [wp_weak wp_known wp_threads wp_count wp_trace wp_ended hp_heap hp_known hp_threads hp_count hp_trace] in *.
  apply map_eq_app in R1. destruct R1 as (gs1 & gs0 & -> & E1 & E0). apply map_eq_cons in E0. destruct E0 as (g & gs2 & -> & Eg & E2).
  assert (Ig : In g (gs1 ++ g :: gs2)) by (apply in_app_iff; right; left; reflexivity).
  pose proof (R2 g Ig) as G. destruct g as [th W N X]. cbn [gh_thread] in Eg. subst th.
  set (g := mkGhost _ W N X) in *.
  rewrite pairs_middle in R3 by apply rapart_sym. destruct R3 as (R3 & R3g). rewrite Forall_forall in R3g.
  assert (Io : forall x, In x (gs1 ++ gs2) -> rgood w known x) by (intros x Ix; apply R2; apply in_app_iff in Ix; apply in_app_iff; destruct Ix; [left|right; right]; assumption).
  assert (Cont : forall g' h' hp', gh_thread g' = mkWThread i c p' v' -> rmoves w w' known g g' -> rgood w' known g' -> agree w' h' ->
      like (mkWThread i c p' v') (mkHThread i c hp') ->
      exists gs', rrel (mkWPool w' known (ts1 ++ mkWThread i c p' v' :: ts2) n (tr ++ tr') d) (mkHPool h' known (hts1 ++ mkHThread i c hp' :: hts2) n (tr ++ tr')) gs').
  { intros g' h' hp' Eg' M G' Ag' Lk'. exists (gs1 ++ g' :: gs2).
      split; cbn [wp_weak wp_known wp_threads wp_count wp_trace wp_ended hp_heap hp_known hp_threads hp_count hp_trace]; auto.
      + rewrite map_app. cbn [map]. rewrite E1, E2, Eg'. reflexivity.
      + intros x Ix. apply in_app_iff in Ix. destruct Ix as [Ix|[<-|Ix]]; [|exact G'|];
          (eapply other_good; [exact G|exact M| |]; [apply Io|apply R3g]; apply in_app_iff; auto).
      + apply pairs_middle; [apply rapart_sym|]. split; [exact R3|].
        apply Forall_forall. intros x Ix. eapply other_apart; [exact G|exact M|auto|auto].
      + eapply moves_fine; [exact G|exact M|exact Io|exact G'|exact R3g|exact R5].
      + apply Forall2_app; [exact L1|]. constructor; assumption. }
  destruct Lk as (_ & _ & Lk). cbn [ht_rest wt_number wt_call wt_rest] in Lk.
  destruct (settled T i c) eqn:Se.
  - subst hp. destruct p as [r|R o k|R o k]; cbn [weak_advance] in Adv; [destruct Adv| |].
    + destruct Adv as (-> & -> & x & -> & ->).
      pose proof (rg_ok _ _ _ G) as [K1 K2 K3 K4]. cbn [g gh_call gh_thread wt_call wt_rest gh_made gh_reads gh_uses] in K1, K2, K3, K4.
      assert (Sg : rmoves w w known g (mkGhost (mkWThread i c (k x) v) W N X) /\ rgood w known (mkGhost (mkWThread i c (k x) v) W N X)).
      { apply (still_rgood w known g (gs1 ++ g :: gs2) d v (k x) N G R5); [intros l; split; [apply le_n|apply (rg_view _ _ _ G)]|auto|].
        split; intros E; [apply (K1 E)|apply (K2 E)|destruct (K3 E)|intros Ef; apply (K4 E Ef)]. }
      destruct Sg as (M & G').
      destruct (Cont (mkGhost (mkWThread i c (k x) v) W N X) h (k x) eq_refl M G' R6) as (gs' & Rel).
      { split; [reflexivity|]. split; [reflexivity|]. cbn [ht_rest wt_number wt_call wt_rest]. rewrite Se. reflexivity. }
      eexists. exists gs'. split; [|exact Rel]. apply follows_works. split; [reflexivity|exists x; auto].
    + destruct Adv as (-> & x & St & ->). destruct (step_rgood _ _ _ _ _ _ _ _ _ _ _ _ _ _ _ _ G R5 St) as (g' & Eg' & M & G').
      destruct (step_settled _ _ _ _ _ _ _ _ _ _ _ _ _ _ _ _ _ G R5 St Se R6) as (x' & h' & Hs & Ag' & Ek).
      destruct (Cont g' h' (k x) Eg' M G' Ag') as (gs' & Rel).
      { split; [reflexivity|]. split; [reflexivity|]. cbn [ht_rest wt_number wt_call wt_rest]. rewrite Se. reflexivity. }
      eexists. exists gs'. split; [|exact Rel]. apply (follows_works _ _ _ _ _ _ _ _ _ []). split; [reflexivity|exists x'; auto].
  - subst hp. assert (Rw : call_writes c = false) by (unfold settled in Se; destruct c; cbn [call_writes]; [rewrite orb_true_r in Se; discriminate Se..|reflexivity]).
    pose proof (ok_pure _ _ _ _ _ _ (rg_ok _ _ _ G) Rw) as P. cbn [g gh_thread wt_rest] in P.
    destruct p as [r|R o k|R o k]; cbn [weak_advance pure] in Adv, P; [destruct Adv|destruct P|].
    destruct Adv as (-> & x & St & ->). destruct (step_rgood _ _ _ _ _ _ _ _ _ _ _ _ _ _ _ _ G R5 St) as (g' & Eg' & M & G').
    assert (Ew : w' = w).
    { destruct P as (P & _). destruct o as [R a o| |y|f|f path|f a]; try contradiction P; cbn [weak_step] in St.
      - destruct o; try discriminate P; cbn [weak_on] in St; destruct St as (? & _ & _ & Ew); exact Ew.
      - destruct St as (? & ? & ? & _ & _ & _ & Ew). exact Ew. }
    subst w'. destruct (Cont g' h (heap_program c) Eg' M G' R6) as (gs' & Rel).
    { split; [reflexivity|]. split; [reflexivity|]. cbn [ht_rest wt_number wt_call wt_rest]. rewrite Se. reflexivity. }
    rewrite app_nil_r in *. eexists. exists gs'. split; [apply follows_none|exact Rel].
Qed.

Lemma return_rrel : forall w known ts1 i c r v ts2 n tr d h hts1 hp hts2 gs,
  rrel (mkWPool w known (ts1 ++ mkWThread i c (HDone r) v :: ts2) n tr d) (mkHPool h known (hts1 ++ mkHThread i c hp :: hts2) n tr) gs ->
  Forall2 like ts1 hts1 -> Forall2 like ts2 hts2 -> like (mkWThread i c (HDone r) v) (mkHThread i c hp) ->
  exists hq' gs' r', follows (mkHPool h known (hts1 ++ mkHThread i c hp :: hts2) n tr) [Ends i r'] hq' /\ (settled T i c = true -> r' = r)
    /\ rrel (mkWPool w (returned r ++ known) (ts1 ++ ts2) n tr (join d v)) hq' gs'.
Proof.
  intros w known ts1 i c r v ts2 n tr d h hts1 hp hts2 gs [R1 R2 R3 R5 R6 R7 R8 R9 R10] L1 L2 Lk.
  cbn [wp_weak wp_known wp_threads wp_count wp_trace wp_ended hp_heap hp_known hp_threads hp_count hp_trace] in *.
  apply map_eq_app in R1. destruct R1 as (gs1 & gs0 & -> & E1 & E0). apply map_eq_cons in E0. destruct E0 as (g & gs2 & -> & Eg & E2).
  assert (Ig : In g (gs1 ++ g :: gs2)) by (apply in_app_iff; right; left; reflexivity).
  pose proof (R2 g Ig) as G. rewrite pairs_middle in R3 by apply rapart_sym. destruct R3 as (R3 & R3g). rewrite Forall_forall in R3g.
  assert (Io : forall x, In x (gs1 ++ gs2) -> rgood w known x) by (intros x Ix; apply R2; apply in_app_iff in Ix; apply in_app_iff; destruct Ix; [left|right; right]; assumption).
  pose proof (rg_ok _ _ _ G) as [Kb Kk Kp _]. assert (Ec : gh_call g = c) by (unfold gh_call; rewrite Eg; reflexivity).
  rewrite Eg, Ec in Kb, Kk, Kp. cbn [wt_rest builds keeps pure] in Kb, Kk, Kp.
  assert (K : incl (returned r) (gh_uses g)) by (destruct (call_writes c); [apply (Kb eq_refl)|apply (Kk eq_refl)]).
  assert (Ev : gh_view g = v) by (unfold gh_view; rewrite Eg; reflexivity).
  assert (Done : forall h', agree w h' -> exists gs', rrel (mkWPool w (returned r ++ known) (ts1 ++ ts2) n tr (join d v)) (mkHPool h' (returned r ++ known) (hts1 ++ hts2) n tr) gs').
  { intros h' Ag'. exists (gs1 ++ gs2).
    split; cbn [wp_weak wp_known wp_threads wp_count wp_trace wp_ended hp_heap hp_known hp_threads hp_count hp_trace]; auto.
    + rewrite map_app. rewrite E1, E2. reflexivity.
    + intros x Ix. pose proof (R3g x Ix) as (A1 & A2). destruct (Io x Ix) as [H1 H2 H3 H4 H5 H6 H7 H8 H9 H10 H11 H12]. split; auto.
      * intros f I1 Nf. apply H4; [exact I1|]. intros If. apply Nf. apply in_app_iff. auto.
      * intros f I1 If. apply H5; [exact I1|]. apply in_app_iff in If. destruct If as [If|If]; [|exact If].
        destruct (in_dec Nat.eq_dec f known) as [Ik|Nk]; [exact Ik|]. destruct (rh_uses _ _ _ A1 f (K f If) Nk I1).
      * intros f C. destruct (H6 f C). split; [assumption|]. apply in_app_iff. auto.
      * intros Rw f I1. apply in_app_iff. right. apply H7; assumption.
      * intros f If Nu. destruct (in_dec Nat.eq_dec f known) as [Ik|Nk]; [auto|]. apply in_app_iff in If. destruct If as [If|If]; [|auto].
        apply (rh_made _ _ _ A1). apply (rg_mine _ _ _ G f (K f If) Nk).
    + eapply pairs_forall; [exact R3|]. intros a b _ _ ([A1 A2 A3 A4] & [B1 B2 B3 B4]). split; split; auto.
      * intros f I1 Nf. apply A2; [exact I1|]. intros If. apply Nf. apply in_app_iff. auto.
      * intros f I1 Nf. apply B2; [exact I1|]. intros If. apply Nf. apply in_app_iff. auto.
    + pose proof (rg_view _ _ _ G) as Hv. rewrite Ev in Hv. destruct R5 as [F1 F2 F3 F4 F5 F6].
      pose proof (rg_mine _ _ _ G) as Hx. rewrite Ev in Hx.
      assert (Kj : forall l, knows w d l \/ knows w v l -> knows w (join d v) l) by (intros l; apply knows_join; assumption).
      assert (Sp : forall x, In x (gs1 ++ g :: gs2) -> x = g \/ In x (gs1 ++ gs2)).
      { intros x Ix. apply in_app_iff in Ix. destruct Ix as [Ix|[<-|Ix]]; [right|left; reflexivity|right]; apply in_app_iff; auto. }
      split; auto.
      * intros f If. destruct (in_dec Nat.eq_dec f known) as [Ik|Nk]; [auto|]. apply in_app_iff in If. destruct If as [If|If]; [|auto].
        split; [apply (rg_uses _ _ _ G f (K f If))|]. apply (rg_made _ _ _ G). apply (Hx f (K f If) Nk).
      * intros l. unfold join. specialize (F2 l). specialize (Hv l). lia.
      * intros f If k0 B1 B2. destruct (in_dec Nat.eq_dec f known) as [Ik|Nk]; [apply (F4 f Ik); unfold join in B1; lia|].
        apply in_app_iff in If. destruct If as [If|If]; [|contradiction]. destruct (Hx f (K f If) Nk) as (_ & K1 & _).
        assert (Ek : k0 = c_last (w_cell w (PathAt f))) by (unfold knows, join in *; lia). rewrite Ek. reflexivity.
      * intros f l If El. destruct (in_dec Nat.eq_dec f known) as [Ik|Nk].
        -- destruct (F5 f l Ik El) as [K1|(x & Ix & Ex & K1)]; [left; apply Kj; auto|].
           destruct (Sp x Ix) as [->|I1]; [left; apply Kj; right; rewrite <- Ev; exact K1|right; exists x; auto].
        -- apply in_app_iff in If. destruct If as [If|If]; [|contradiction]. destruct (Hx f (K f If) Nk) as (_ & K1 & K2).
           left. apply Kj. right. destruct El as [-> | ->]; assumption.
      * intros a. destruct (F6 a) as [K1|(x & Ix & I1)]; [left; intros j; apply Kj; auto|].
        destruct (Sp x Ix) as [->|I2]; [|right; exists x; auto]. left. intros j. apply Kj. right. rewrite <- Ev. apply (rg_made _ _ _ G). exact I1.
    + apply Forall2_app; assumption. }
  destruct Lk as (_ & _ & Lk). cbn [ht_rest wt_number wt_call wt_rest] in Lk. destruct (settled T i c) eqn:Se; subst hp.
  - destruct (Done h R6) as (gs' & Rel). eexists. exists gs', r. split; [apply follows_ends|]. split; [reflexivity|exact Rel].
  - assert (Rw : call_writes c = false) by (unfold settled in Se; destruct c; cbn [call_writes]; [rewrite orb_true_r in Se; discriminate Se..|reflexivity]).
    assert (Pc : pure returns_none (heap_program c)) by (destruct c; try discriminate Rw; apply extract_pure).
    destruct (pure_runs _ _ w h Pc R6) as (h' & o & Tr & Ag' & Eo). destruct (Done h' Ag') as (gs' & Rel).
    pose proof (Kp Rw) as Er. unfold returns_none in Eo, Er. rewrite Er in *.
    exists (mkHPool h' known (hts1 ++ hts2) n tr), gs', o. split; [|split; [discriminate|exact Rel]].
    destruct (follows_runs _ _ _ _ Tr known hts1 i c hts2 n tr) as (F1 & F2). pose proof (follows_ends h' known hts1 i c o hts2 n tr) as (F3 & F4).
    rewrite Eo in F3, F4. split; [eapply hsteps_trans; eassumption|]. intros l0 H. apply F4. specialize (F2 l0 H). rewrite app_nil_r in F2. exact F2.
Qed.

Lemma step_rrel : forall q q' hq gs, rrel q hq gs -> wpool_step to_ascii hardcoded ext q q' -> undisturbed T (wp_threads q') ->
  exists hq' gs', hpool_steps to_ascii hardcoded ext hq hq' /\ rrel q' hq' gs'.
Proof.
  intros q q' [h hknown hts hn htr] gs Rel S O. pose proof (rr_like _ _ _ Rel) as E1. pose proof (rr_known _ _ _ Rel) as E2.
  pose proof (rr_count _ _ _ Rel) as E3. pose proof (rr_trace _ _ _ Rel) as E4.
  destruct S as [w known ts n tr d c May|w known ts1 i c p v ts2 n tr d tr' w' v' p' Adv|w known ts1 i c r v ts2 n tr d];
    cbn [wp_known wp_threads wp_count wp_trace hp_known hp_threads hp_count hp_trace] in *; subst hknown hn htr.
  - destruct (start_rrel _ _ _ _ _ _ _ _ _ _ Rel May O) as (gs' & Rel'). eexists. exists gs'.
    split; [eapply hsteps_more; [apply hsteps_none|apply hstarts; exact May]|exact Rel'].
  - apply Forall2_app_inv_l in E1. destruct E1 as (hts1 & hts0 & L1 & L0 & ->). inversion L0 as [|th ht l0 hts2 Lk L2]; subst.
    destruct ht as [hi hc hp]. pose proof Lk as (X1 & X2 & _). cbn [wt_number wt_call ht_number ht_call] in X1, X2. subst hi hc.
    destruct (work_rrel _ _ _ _ _ _ _ _ _ _ _ _ _ _ _ _ _ _ _ _ Rel L1 L2 Lk Adv) as (hq' & gs' & (F & _) & Rel'). exists hq', gs'. auto.
  - apply Forall2_app_inv_l in E1. destruct E1 as (hts1 & hts0 & L1 & L0 & ->). inversion L0 as [|th ht l0 hts2 Lk L2]; subst.
    destruct ht as [hi hc hp]. pose proof Lk as (X1 & X2 & _). cbn [wt_number wt_call ht_number ht_call] in X1, X2. subst hi hc.
    destruct (return_rrel _ _ _ _ _ _ _ _ _ _ _ _ _ _ _ _ Rel L1 L2 Lk) as (hq' & gs' & r' & (F & _) & _ & Rel'). exists hq', gs'. auto.
Qed.
Lemma first_rrel : rrel first_wpool first_hpool [].
Proof.
  split; cbn [first_wpool first_hpool wp_weak wp_known wp_threads wp_count wp_trace wp_ended hp_heap hp_known hp_threads hp_count hp_trace]; auto.
  - intros g [].
  - constructor.
  - split; try (intros f []; fail); try (intros f l []; fail); auto. intros a. left. reflexivity.
  - split; auto.
Qed.
Lemma rrel_steps : forall q1 q2, careful_steps to_ascii hardcoded ext T q1 q2 -> forall hq1 gs1, rrel q1 hq1 gs1 ->
  exists hq2 gs2, hpool_steps to_ascii hardcoded ext hq1 hq2 /\ rrel q2 hq2 gs2.
Proof.
  intros q1 q2 H. induction H as [q|q1 q2 q3 H IH S O]; intros hq1 gs1 Rel1.
  - exists hq1, gs1. split; [constructor|exact Rel1].
  - destruct (IH _ _ Rel1) as (hq & gs & Hs & Rel). destruct (step_rrel _ _ _ _ Rel S O) as (hq' & gs' & S' & Rel').
    exists hq', gs'. split; [|exact Rel']. eapply hsteps_trans; eassumption.
Qed.
Lemma c103_refines : forall q1 q2, careful_steps to_ascii hardcoded ext T first_wpool q1 -> careful_steps to_ascii hardcoded ext T q1 q2 ->
  exists hq1 hq2, hpool_steps to_ascii hardcoded ext first_hpool hq1 /\ hpool_steps to_ascii hardcoded ext hq1 hq2
    /\ same_writes T q1 hq1 /\ same_writes T q2 hq2.
Proof.
  intros q1 q2 H1 H2. destruct (rrel_steps _ _ H1 _ _ first_rrel) as (hq1 & gs1 & S1 & Rel1).
  destruct (rrel_steps _ _ H2 _ _ Rel1) as (hq2 & gs2 & S2 & Rel2). exists hq1, hq2. eauto 6 using rrel_same.
Qed.
End Executions.
End Tracked.

Section Claims.
Variable to_ascii : bytes -> option bytes.
Variable hardcoded : bytes.
Variable ext : idna.

Lemma numbers_below : forall q, wpool_steps to_ascii hardcoded ext first_wpool q ->
  forall th, In th (wp_threads q) -> wt_number th < wp_count q.
Proof.
  intros q H. remember first_wpool as q0 eqn:E0. induction H as [q|q1 q2 q3 H IH S]; [subst q; intros th []|]. specialize (IH E0).
  destruct S as [w known ts n tr d c May|w known ts1 i c p v ts2 n tr d tr' w' v' p' Adv|w known ts1 i c r v ts2 n tr d];
    cbn [wp_threads wp_count] in *; intros th It.
  - apply in_app_iff in It. destruct It as [It|[<-|[]]]; [specialize (IH th It); lia|cbn [wt_number]; lia].
  - apply in_app_iff in It. destruct It as [It|[<-|It]]; [apply IH; apply in_app_iff; auto| |apply IH; apply in_app_iff; right; right; exact It].
    apply (IH (mkWThread i c p v)). apply in_app_iff. right. left. reflexivity.
  - apply IH. apply in_app_iff in It. apply in_app_iff. destruct It as [It|It]; [left|right; right]; exact It.
Qed.
Lemma count_grows : forall q q', wpool_step to_ascii hardcoded ext q q' -> wp_count q <= wp_count q'.
Proof. intros q q' S. destruct S; cbn [wp_count]; lia. Qed.
Lemma any_careful : forall q1 q2, wpool_steps to_ascii hardcoded ext q1 q2 -> careful_steps to_ascii hardcoded ext (fun _ => false) q1 q2.
Proof.
  intros q1 q2 H. induction H as [q|q1 q2 q3 H IH S]; [constructor|]. eapply careful_more; [exact IH|exact S|]. intros t1 t2 f p _ _ E. discriminate E.
Qed.
Lemma careful_any : forall T q1 q2, careful_steps to_ascii hardcoded ext T q1 q2 -> wpool_steps to_ascii hardcoded ext q1 q2.
Proof. intros T q1 q2 H. induction H as [q|q1 q2 q3 H IH S O]; [constructor|]. eapply wsteps_more; eassumption. Qed.
(** No call has a number that is not given yet. *)
Lemma careful_before : forall n q, wpool_steps to_ascii hardcoded ext first_wpool q -> wp_count q <= n ->
  careful_steps to_ascii hardcoded ext (Nat.eqb n) first_wpool q.
Proof.
  intros n q H. remember first_wpool as q0 eqn:E0. induction H as [q|q1 q2 q3 H IH S]; intros L; [constructor|]. specialize (IH E0).
  eapply careful_more; [apply IH; pose proof (count_grows _ _ S); lia|exact S|]. intros t1 t2 f p I1 _ E. exfalso.
  apply Nat.eqb_eq in E. subst n. subst q1. pose proof (numbers_below q3 (wsteps_more _ _ _ _ _ _ H S) t1 I1). lia.
Qed.

Lemma c103_writes : forall q1 q2, wpool_steps to_ascii hardcoded ext first_wpool q1 -> wpool_steps to_ascii hardcoded ext q1 q2 ->
  exists hq1 hq2, hpool_steps to_ascii hardcoded ext first_hpool hq1 /\ hpool_steps to_ascii hardcoded ext hq1 hq2
    /\ same_writes (fun _ => false) q1 hq1 /\ same_writes (fun _ => false) q2 hq2.
Proof. intros q1 q2 H1 H2. apply c103_refines; apply any_careful; assumption. Qed.
Lemma c103_extract : forall w known ts n tr d f p q3 o v,
  wpool_steps to_ascii hardcoded ext first_wpool (mkWPool w known ts n tr d) -> In f known ->
  let q2 := mkWPool w known (ts ++ [mkWThread n (CallExtract f p) (heap_program to_ascii hardcoded ext (CallExtract f p)) d]) (S n) tr d in
  undisturbed (Nat.eqb n) (wp_threads q2) ->
  careful_steps to_ascii hardcoded ext (Nat.eqb n) q2 q3 -> In (mkWThread n (CallExtract f p) (HDone o) v) (wp_threads q3) ->
  exists text rules t r, (text = hardcoded \/ exists path, was_read (wp_trace q3) path text)
    /\ used_rules to_ascii text (w_private w f) rules /\ build_trie rules = Ret t
    /\ extract ext t p = Ret r /\ o = Ret (FromExtract r).
Proof.
  intros w known ts n tr d f p q3 o v H1 If q2 O2 H2 I3.
  destruct (rrel_steps (Nat.eqb n) to_ascii hardcoded ext _ _ (careful_before n _ H1 (le_n _)) _ _ (first_rrel _ _ _ _)) as ([h hk hts hn htr] & gs1 & S1 & Rel1).
  pose proof (rr_known _ _ _ _ _ _ _ Rel1) as E2.
  pose proof (rr_count _ _ _ _ _ _ _ Rel1) as E3. pose proof (rr_trace _ _ _ _ _ _ _ Rel1) as E4. pose proof (a_ext _ _ (rr_agree _ _ _ _ _ _ _ Rel1) f) as Ex.
  cbn [wp_weak wp_known wp_threads wp_count wp_trace hp_heap hp_known hp_threads hp_count hp_trace] in *. subst hk hn htr.
  destruct (start_rrel _ _ _ _ _ _ _ _ _ _ _ _ (CallExtract f p) _ Rel1 If O2) as (gs2 & Rel2).
  destruct (rrel_steps _ _ _ _ _ _ H2 _ _ Rel2) as (hq3 & gs3 & S3 & Rel3).
  destruct (c95_extract to_ascii hardcoded ext h known hts n tr f p hq3 o) as (text & rules & t & r & X1 & X2 & X3).
  - exact S1.
  - exact If.
  - exact S3.
  - pose proof (rr_like _ _ _ _ _ _ _ Rel3) as L. apply in_split in I3. destruct I3 as (l1 & l2 & E). rewrite E in L.
    apply Forall2_app_inv_l in L. destruct L as (hts1 & hts0 & L1 & L0 & ->). inversion L0 as [|th ht l0 hts2 Lk L2]; subst.
    destruct ht as [hi hc hp]. destruct Lk as (Y1 & Y2 & Y3). cbn [wt_number wt_call wt_rest ht_number ht_call ht_rest] in Y1, Y2, Y3. subst hi hc.
    unfold settled in Y3. rewrite Nat.eqb_refl in Y3. cbn [orb] in Y3. subst hp. apply in_app_iff. right. left. reflexivity.
  - exists text, rules, t, r. rewrite <- (rr_trace _ _ _ _ _ _ _ Rel3) in X1. rewrite <- Ex in X2. auto.
Qed.

(** What was last written to the extractors and nodes are complete lists. *)
Lemma reach_ext : forall g g', (forall i, g_node g i = g_node g' i) -> forall path i, reach g i path = reach g' i path.
Proof.
  intros g g' E. induction path as [|k path IH]; intros i; cbn [reach]; [reflexivity|]. rewrite E. destruct (hget _ k); [apply IH|reflexivity].
Qed.
Lemma holds_ext : forall g g' t, (forall i, g_node g i = g_node g' i) -> holds g t -> holds g' t.
Proof.
  intros g g' t E [H1 H2 H3 H4]. assert (R : forall path i, reach g' i path = reach g i path) by (intros path i; symmetry; apply reach_ext; exact E).
  split.
  - intros path. rewrite R. apply H1.
  - intros path i n. rewrite R, <- E. apply H2.
  - intros p q i. rewrite !R. apply H3.
  - intros path i. rewrite R, <- E. apply H4.
Qed.
Lemma c103_lists : forall q f, wpool_steps to_ascii hardcoded ext first_wpool q -> In f (wp_known q) ->
  exists text rules t, (text = hardcoded \/ exists path, was_read (wp_trace q) path text)
    /\ used_rules to_ascii text (w_private (wp_weak q) f) rules /\ build_trie rules = Ret t
    /\ holds (last_written (wp_weak q) (as_trie (latest (w_cell (wp_weak q) (TrieAt f))))) t.
Proof.
  intros q f H If. destruct (c103_writes _ _ H (wsteps_none _ _ _ q)) as (hq & _ & S & _ & [E1 E2 E3 E4 E5 E6] & _).
  destruct (c95_tree _ _ _ hq S) as (pq & Sp & [P1 P2 P3 P4 P5] & Ho). rewrite E2 in If. specialize (Ho f If).
  rewrite P2 in If. destruct (c43_serves _ _ _ pq f Sp If) as (text & R & (rules & U & B)).
  exists text, rules, (trie_in (p_memory pq) f). rewrite E4, P4. split; [exact R|].
  rewrite <- P5, <- E6 in U. cbn [x_private] in U. split; [exact U|]. split; [exact B|].
  rewrite <- E6 in Ho. cbn [x_trie] in Ho. eapply holds_ext; [|exact Ho]. intros i. symmetry. apply E5.
Qed.

(** A call that has ended has an answer. *)
Lemma ends_in : forall q n c o v, wpool_steps to_ascii hardcoded ext first_wpool q -> In (mkWThread n c (HDone o) v) (wp_threads q) ->
  (forall f p, c <> CallExtract f p) ->
  exists pq, pool_steps to_ascii hardcoded ext first_pool pq /\ p_known pq = wp_known q /\ In (mkThread n c (Done o)) (p_threads pq).
Proof.
  intros q n c o v H I1 Nc. destruct (c103_writes _ _ H (wsteps_none _ _ _ q)) as (hq & _ & S & _ & [E1 E2 E3 E4 E5 E6] & _).
  destruct (c95_tree _ _ _ hq S) as (pq & Sp & [P1 P2 P3 P4 P5] & _). exists pq. split; [exact Sp|]. split; [congruence|].
  apply in_split in I1. destruct I1 as (l1 & l2 & E). rewrite E in E1.
  apply Forall2_app_inv_l in E1. destruct E1 as (hts1 & hts0 & L1 & L0 & Eh). inversion L0 as [|th ht l0 hts2 Lk L2]; subst.
  rewrite Eh in P1. apply Forall2_app_inv_l in P1. destruct P1 as (ts1 & ts0 & K1 & K0 & ->). inversion K0 as [|ht0 tt l0 ts2 Kk K2]; subst.
  destruct ht as [hi hc hp]. destruct tt as [i' c' p']. destruct Lk as (Y1 & Y2 & Y3). destruct Kk as (Z1 & Z2 & Z3).
  cbn [wt_number wt_call wt_rest ht_number ht_call ht_rest t_number t_call t_rest] in *. subst.
  assert (Se : settled (fun _ => false) i' c' = true) by (destruct c' as [m|f|f p]; [reflexivity..|destruct (Nc f p eq_refl)]).
  specialize (Y3 Se). symmetry in Y3. apply Z3 in Y3. subst p'. apply in_app_iff. right. left. reflexivity.
Qed.
Lemma c103_answers : forall q n c o v, wpool_steps to_ascii hardcoded ext first_wpool q -> In (mkWThread n c (HDone o) v) (wp_threads q) ->
  exists a, o = Ret a /\ answer_for c a.
Proof.
  intros q n c o v H I1. destruct c as [m|f|f p].
  - destruct (ends_in _ _ _ _ _ H I1) as (pq & Sp & _ & I2); [discriminate|]. eapply c81_answers; eassumption.
  - destruct (ends_in _ _ _ _ _ H I1) as (pq & Sp & _ & I2); [discriminate|]. eapply c81_answers; eassumption.
  - destruct (c102_returns _ _ _ _ _ _ _ _ _ H I1) as (r & ->). exists (FromExtract r). split; [reflexivity|exists r; reflexivity].
Qed.
Lemma c103_fresh : forall q n k f v, wpool_steps to_ascii hardcoded ext first_wpool q ->
  In (mkWThread n (CallNew k) (HDone (Ret (FromNew (f, None)))) v) (wp_threads q) -> ~ In f (wp_known q).
Proof.
  intros q n k f v H I1. destruct (ends_in _ _ _ _ _ H I1) as (pq & Sp & <- & I2); [discriminate|].
  apply (c81_fresh _ _ _ pq n n k k f f Sp I2).
Qed.
End Claims.
