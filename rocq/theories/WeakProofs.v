(** WeakProofs.v - calls that keep out of each other's way behave on weakly ordered memory as if
    every access saw the previous one. *)

From Verif Require Import Base BaseFacts Str Trie Extract Psl ListSpec World Update UpdateSpec Calls WorldFacts CallFacts RaceSpec Heap HeapSpec HeapProofs Weak WeakSpec.
From Coq Require Import Permutation ZifyBool ZifyNat ZifyN.

Lemma location_eqb_spec : forall l l', reflect (l = l') (location_eqb l l').
Proof.
  intros [a i|f|f] [a' i'|f'|f']; cbn [location_eqb]; try (constructor; discriminate).
  - destruct (Nat.eqb_spec a a') as [->|N]; cbn [andb]; [|constructor; congruence].
    destruct (Nat.eqb_spec i i') as [->|N]; constructor; congruence.
  - destruct (Nat.eqb_spec f f') as [->|N]; constructor; congruence.
  - destruct (Nat.eqb_spec f f') as [->|N]; constructor; congruence.
Qed.
Lemma put_same : forall V (m : location -> V) l v, put_at m l v l = v.
Proof. intros V m l v. unfold put_at. destruct (location_eqb_spec l l); congruence. Qed.
Lemma put_other : forall V (m : location -> V) l v l', l' <> l -> put_at m l v l' = m l'.
Proof. intros V m l v l' N. unfold put_at. destruct (location_eqb_spec l' l); congruence. Qed.

(** ** What programs use *)

(** Node allocation counts as a change. *)
Definition changes {R : Type} (o : region_op R) : bool :=
  match o with NewNode | Put _ _ _ | SetEnd _ => true | _ => false end.

(** [keeps rw Q p W N X]: [p] changes only nodes of the tries [W] that it has made, reads only
    those of [W] and [N], uses only the extractors [X], and changes or makes extractors and tries
    only if [rw]; it ends in [Q]. *)
Fixpoint keeps {A : Type} (rw : bool) (Q : list nat -> list nat -> outcome A -> Prop) (p : hprog A) (W N X : list nat) : Prop :=
  match p with
  | HDone r => Q W X r
  | HSys o k => forall x, keeps rw Q (k x) W N X
  | @HHeap _ R o k =>
    match o in heap_op R return (R -> list nat -> list nat -> list nat -> Prop) -> Prop with
    | On a o => fun K => (In a W \/ changes o = false /\ In a N) /\ forall x, K x W N X
    | NewRoot => fun K => rw = true /\ forall a, K a (a :: W) N X
    | MakeExtractor y => fun K => rw = true /\ In (x_trie y) W /\ forall f, K f W N (f :: X)
    | GetExtractor f => fun K => In f X /\ forall x, K x W (x_trie x :: N) X
    | PutPath f _ => fun K => rw = true /\ In f X /\ K tt W N X
    | PutTrie f a => fun K => rw = true /\ In f X /\ In a W /\ K tt W N X
    end (fun x W N X => keeps rw Q (k x) W N X)
  end.

Lemma keeps_bind : forall A B rw (Q1 : list nat -> list nat -> outcome A -> Prop) (Q : list nat -> list nat -> outcome B -> Prop)
    (p : hprog A) (k : A -> hprog B) W N X,
  keeps rw Q1 p W N X ->
  (forall W' N' X' o, incl N N' -> Q1 W' X' o -> match o with
     | Ret a => keeps rw Q (k a) W' N' X' | Panic => Q W' X' Panic | OutOfFuel => Q W' X' OutOfFuel end) ->
  keeps rw Q (hbind p k) W N X.
Proof.
  intros A B rw Q1 Q. induction p as [r|R o c IH|R o c IH]; intros k W N X H K.
  - specialize (K W N X r (incl_refl _) H). destruct r; exact K.
  - cbn [hbind keeps] in *. intros x. apply IH; auto.
  - cbn [hbind]. destruct o as [R a o| | | | |]; cbn [keeps] in *.
    + destruct H as (H1 & H). split; [exact H1|]. intros x. apply IH; auto.
    + destruct H as (H1 & H). split; [exact H1|]. intros a. apply IH; auto.
    + destruct H as (H1 & H2 & H). split; [exact H1|]. split; [exact H2|]. intros f. apply IH; auto.
    + destruct H as (H1 & H). split; [exact H1|]. intros x. apply IH; auto.
      intros W' N' X' r L. apply K. intros y Y. apply L. right. exact Y.
    + destruct H as (H1 & H2 & H). split; [exact H1|]. split; [exact H2|]. apply IH; auto.
    + destruct H as (H1 & H2 & H3 & H). split; [exact H1|]. split; [exact H2|]. split; [exact H3|]. apply IH; auto.
Qed.

(** The same for the programs on whole tries. *)
Fixpoint tame {A : Type} (Q : list nat -> list nat -> outcome A -> Prop) (p : prog A) (W X : list nat) : Prop :=
  match p with
  | Done r => Q W X r
  | Sys o k => forall x, tame Q (k x) W X
  | @Mem _ R o k =>
    match o in mem_op R return (R -> list nat -> list nat -> Prop) -> Prop with
    | NewTrie => fun K => forall a, K a (a :: W) X
    | Insert a _ | MarkWildcards a => fun K => In a W /\ K tt W X
    | NewExtractor y => fun K => In (x_trie y) W /\ forall f, K f W (f :: X)
    | ReadExtractor f => fun K => In f X /\ forall x, K x W X
    | StorePath f _ => fun K => In f X /\ K tt W X
    | StoreTrie f a => fun K => In f X /\ In a W /\ K tt W X
    | ReadNode _ _ => fun _ => False
    end (fun x W X => tame Q (k x) W X)
  end.
Lemma tame_bind : forall A B (Q1 : list nat -> list nat -> outcome A -> Prop) (Q : list nat -> list nat -> outcome B -> Prop)
    (p : prog A) (k : A -> prog B) W X,
  tame Q1 p W X ->
  (forall W' X' o, Q1 W' X' o -> match o with
     | Ret a => tame Q (k a) W' X' | Panic => Q W' X' Panic | OutOfFuel => Q W' X' OutOfFuel end) ->
  tame Q (pbind p k) W X.
Proof.
  intros A B Q1 Q. induction p as [r|R o c IH|R o c IH]; intros k W X H K.
  - specialize (K W X r H). destruct r; exact K.
  - cbn [pbind tame] in *. intros x. apply IH; auto.
  - cbn [pbind]. destruct o; cbn [tame] in *; intuition auto.
Qed.
Lemma tame_weaken : forall A (Q1 Q : list nat -> list nat -> outcome A -> Prop) (p : prog A) W X,
  tame Q1 p W X -> (forall W' X' o, Q1 W' X' o -> Q W' X' o) -> tame Q p W X.
Proof.
  intros A Q1 Q. induction p as [r|R o c IH|R o c IH]; intros W X H K.
  - cbn [tame] in *. auto.
  - cbn [tame] in *. intros x. apply IH; auto.
  - destruct o; cbn [tame] in *; intuition auto.
Qed.

Lemma nested_keeps : forall a keys i W N X, In a W ->
  keeps true (fun W' X' r => W' = W /\ X' = X) (nested_heap a i keys) W N X.
Proof.
  intros a. induction keys as [|key keys IH]; intros i W N X I1; cbn [nested_heap].
  - cbn. auto.
  - cbn [on hbind hret keeps]. split; [auto|]. intros found. eapply (keeps_bind _ _ _ (fun W' X' r => W' = W /\ X' = X)).
    + destruct found; cbn [on hbind hret keeps]; [auto|]. split; [auto|]. intros j. split; [auto|]. auto.
    + intros W' N' X' o L (-> & ->). destruct o; auto. cbn [on hbind hret keeps]. split; [auto|]. intros [j|]; [apply IH; exact I1|cbn; auto].
Qed.
Lemma entries_keeps : forall a l W N X, In a W -> keeps true (fun W' X' r => W' = W /\ X' = X) (mark_entries a l) W N X.
Proof.
  intros a. induction l as [|[k j] l IH]; intros W N X I1; cbn [mark_entries]; [cbn; auto|].
  cbn [on hbind hret keeps]. split; [auto|]. intros star. eapply (keeps_bind _ _ _ (fun W' X' r => W' = W /\ X' = X)).
  - destruct star; cbn [on hret keeps]; auto.
  - intros W' N' X' o L (-> & ->). destruct o; auto.
Qed.
Lemma mark_keeps : forall a W N X, In a W -> keeps true (fun W' X' r => W' = W /\ X' = X) (mark_heap a) W N X.
Proof. intros a W N X I1. unfold mark_heap. cbn [on hbind hret keeps]. split; [auto|]. intros l. apply entries_keeps. exact I1. Qed.

Lemma on_heap_keeps : forall A (Q : list nat -> list nat -> outcome A -> Prop) (p : prog A) W N X,
  (forall W X, Q W X Panic /\ Q W X OutOfFuel) -> tame Q p W X -> keeps true Q (on_heap p) W N X.
Proof.
  intros A Q p W N X B. revert W N X. induction p as [r|R o c IH|R o c IH]; intros W N X H.
  - exact H.
  - cbn [on_heap keeps tame] in *. auto.
  - destruct o; cbn [on_heap keeps tame] in *; try (intuition auto; fail).
    + destruct H as (H1 & H). eapply keeps_bind; [apply nested_keeps; exact H1|]. cbv beta. intros W' N' X' [[]| |] L (-> & ->); [auto|apply B|apply B].
    + destruct H as (H1 & H). eapply keeps_bind; [apply mark_keeps; exact H1|]. cbv beta. intros W' N' X' [[]| |] L (-> & ->); [auto|apply B|apply B].
Qed.

Section Programs.
Variable to_ascii : bytes -> option bytes.
Variable hardcoded : bytes.

Lemma no_mem_tame : forall A (Q : list nat -> list nat -> outcome A -> Prop) (p : prog A) W X,
  no_mem p -> (forall o, Q W X o) -> tame Q p W X.
Proof. intros A Q. induction p as [r|R o c IH|R o c IH]; intros W X H K; cbn [no_mem tame] in *; auto. contradiction. Qed.
Lemma insert_tame : forall a l W X, In a W -> tame (fun W' X' _ => W' = W /\ X' = X) (insert_suffixes a l) W X.
Proof.
  intros a. induction l as [|s l IH]; intros W X I1; cbn [insert_suffixes]; [cbn; auto|].
  destruct (reverse (split_byte s 46)); cbn [pbind mem_do ret tame]; auto.
Qed.
Lemma construct_tame : forall private path W X,
  tame (fun W' X' r => incl W W' /\ X' = X /\ forall a e, r = Ret (a, e) -> In a W') (trie_construct to_ascii hardcoded private path) W X.
Proof.
  intros private path W X. unfold trie_construct. cbn [pbind mem_do ret tame]. intros a.
  assert (E : incl W (a :: W)) by (intros y Y; right; exact Y).
  eapply (tame_bind _ _ (fun W' X' _ => W' = a :: W /\ X' = X)).
  - destruct (negb _); [|cbn; auto]. unfold get_public_suffix_list. cbn [pbind sys_do ret tame]. intros [c|]; cbn; auto.
  - intros W' X' [[l [e|]]| |] (-> & ->); cbn [ret tame].
    + split; [exact E|]. split; [reflexivity|]. intros b e' Eb. injection Eb as <- _. left. reflexivity.
    + eapply tame_bind; [apply insert_tame; left; reflexivity|]. cbv beta. intros W' X' [[]| |] (-> & ->); cbn [pbind mem_do ret tame].
      * split; [left; reflexivity|]. split; [exact E|]. split; [reflexivity|]. intros b e' Eb. injection Eb as <- _. left. reflexivity.
      * split; [exact E|]. split; [reflexivity|]. intros b e' Eb. discriminate Eb.
      * split; [exact E|]. split; [reflexivity|]. intros b e' Eb. discriminate Eb.
    + split; [exact E|]. split; [reflexivity|]. intros b e' Eb. discriminate Eb.
    + split; [exact E|]. split; [reflexivity|]. intros b e' Eb. discriminate Eb.
Qed.
Lemma update_tame : forall f W X, In f X -> tame (fun W' X' r => incl W W' /\ X' = X) (update to_ascii hardcoded f) W X.
Proof.
  intros f W X I1. unfold update. cbn [pbind sys_do mem_do ret tame]. intros temp. split; [exact I1|]. intros x.
  destruct (negb _); [cbn; split; [apply incl_refl|reflexivity]|]. cbn [pbind sys_do ret tame]. intros [fd|]; [|cbn; split; [apply incl_refl|reflexivity]].
  eapply (tame_bind _ _ (fun W' X' _ => W' = W /\ X' = X)).
  - apply no_mem_tame; [apply update_file_no_mem|auto].
  - intros W' X' [[e|]| |] (-> & ->); try (cbn; split; [apply incl_refl|reflexivity]).
    cbn [pbind mem_do ret tame]. split; [exact I1|]. intros y. eapply tame_bind; [apply construct_tame|]. cbv beta.
    intros W' X' [[a [e|]]| |] (L & -> & Ia); try (cbn; split; [exact L|reflexivity]).
    cbn [pbind mem_do ret tame]. split; [exact I1|]. split; [eapply Ia; reflexivity|]. split; [exact I1|]. split; [exact L|reflexivity].
Qed.
Definition gives_own (W X : list nat) (r : outcome (nat * option io_err)) : Prop := forall f e, r = Ret (f, e) -> In f X.
Lemma hardcoded_tame : forall n W X, tame gives_own (new_hardcoded_psl to_ascii hardcoded n) W X.
Proof.
  intros n W X. unfold new_hardcoded_psl. eapply tame_bind; [apply construct_tame|]. cbv beta.
  intros W' X' [[a e]| |] (L & -> & Ia); try (intros f e' Ef; discriminate Ef).
  cbn [pbind mem_do ret tame x_trie]. split; [eapply Ia; reflexivity|]. intros f g e' Eg. injection Eg as <- _. left. reflexivity.
Qed.
Lemma cache_tame : forall n f path W X, In f X -> tame gives_own (new_from_cache to_ascii hardcoded n f path) W X.
Proof.
  intros n f path W X I1. unfold new_from_cache. eapply tame_bind; [apply construct_tame|]. cbv beta.
  intros W' X' [[a [e|]]| |] (L & -> & Ia); try (intros g e' Ef; discriminate Ef); [apply hardcoded_tame|].
  cbn [pbind mem_do ret tame]. split; [exact I1|]. split; [eapply Ia; reflexivity|]. intros g e' Eg. injection Eg as <- _. exact I1.
Qed.
Lemma new_tame : forall n W X, tame gives_own (new to_ascii hardcoded n) W X.
Proof.
  intros n W X. unfold new. cbn [pbind mem_do ret tame x_trie]. intros a. split; [left; reflexivity|]. intros f.
  assert (If : In f (f :: X)) by (left; reflexivity).
  assert (D : forall W X r, (forall f e, r <> Ret (f, e)) -> gives_own W X r) by (intros W1 X1 r H g e E; destruct (H _ _ E)).
  eapply (tame_bind _ _ (fun W' X' _ => W' = a :: W /\ X' = f :: X)); [apply no_mem_tame; [apply check_no_mem|auto]|].
  intros W' X' [[v age]| |] (-> & ->); try (apply D; discriminate). destruct (negb v); [|apply cache_tame; exact If].
  cbn [pbind sys_do mem_do ret tame]. intros temp o. destruct (negb o); [apply hardcoded_tame|].
  cbn [pbind sys_do mem_do ret tame]. split; [exact If|].
  eapply (tame_bind _ _ (fun W' X' _ => W' = a :: W /\ X' = f :: X)); [apply no_mem_tame; [apply check_no_mem|auto]|].
  intros W' X' [[v2 age2]| |] (-> & ->); try (apply D; discriminate). destruct (_ || _); [|apply cache_tame; exact If].
  eapply tame_bind; [apply update_tame; exact If|]. cbv beta. intros W' X' [[e|]| |] (L & ->); try (apply D; discriminate).
  - apply hardcoded_tame.
  - intros g e Eg. injection Eg as <- _. exact If.
Qed.
End Programs.

Lemma loop_keeps : forall a fuel netloc i hs hl sep st en W N X, In a N ->
  keeps false (fun W' X' r => W' = W /\ X' = X) (suffix_loop_heap fuel netloc a i hs hl sep st en) W N X.
Proof.
  intros a. induction fuel as [|fuel IH]; intros netloc i hs hl sep st en W N X I1; cbn [suffix_loop_heap]; [cbn; auto|].
  destruct (slice netloc 0 sep) as [head| |]; cbn [hbind keeps]; auto. cbv zeta.
  match goal with |- keeps _ _ (match ?o with Ret _ => _ | Panic => _ | OutOfFuel => _ end) _ _ _ => destruct o as [[label e]| |] end; cbn [keeps]; auto.
  destruct (_ && _); [destruct (negb hl); [apply IH; exact I1|cbn; auto]|].
  cbn [on hbind hret keeps]. split; [auto|]. intros [s|]; cbn [on hbind hret keeps].
  - split; [auto|]. intros x. cbn. auto.
  - split; [auto|]. intros [val|]; cbn [hbind hret keeps]; auto.
    assert (T : forall hs' en', keeps false (fun W' X' r => W' = W /\ X' = X)
      (size <== on a (Len val) ;;
          if (size =? 0)%Z || e
          then hret (inr (mkWalk hs' (last_index_any head label_separators_rune_set) (last_index_any head label_separators_rune_set) en' sep))
          else suffix_loop_heap fuel netloc a val hs' (hl || negb (last_index_any head label_separators_rune_set =? -1)%Z)
                     (last_index_any head label_separators_rune_set) (last_index_any head label_separators_rune_set) en') W N X).
    { intros hs' en'. cbn [on hbind hret keeps]. split; [auto|]. intros z. destruct (_ || _); [cbn; auto|]. apply IH. exact I1. }
    destruct hs; cbn [negb hbind hret on keeps].
    + apply T.
    + split; [auto|]. intros [|]; cbn [hbind]; apply T.
Qed.
Lemma extract_keeps : forall ext f p N X, In f X ->
  keeps false (fun W' X' r => W' = [] /\ X' = X) (extract_heap ext f p) [] N X.
Proof.
  intros ext f p N X I1. unfold extract_heap. destruct (extract_front ext p) as [[r|[u h]]| |]; cbn [hbind hret keeps]; auto.
  split; [exact I1|]. intros x. unfold extract_host_heap. eapply keeps_bind; [apply loop_keeps; left; reflexivity|]. cbv beta.
  intros W' N' X' o L (-> & ->). destruct o as [[e|w]| |]; cbn [hret keeps]; auto.
  destruct (ipv4_host h) as [[|]| |]; cbn [hbind hret keeps]; auto. destruct (slice h 0 _); cbn [hbind hret keeps]; auto.
Qed.

(** What a call may write, and the extractor it begins with. *)
Definition call_writes (c : call) : bool := match c with CallExtract _ _ => false | _ => true end.
Definition call_uses (c : call) : list nat := match c with CallNew _ => [] | CallUpdate f | CallExtract f _ => [f] end.
Definition result_own (W X : list nat) (r : outcome answer) : Prop := incl (returned r) X.
Lemma program_keeps : forall to_ascii hardcoded ext c,
  keeps (call_writes c) result_own (heap_program to_ascii hardcoded ext c) [] [] (call_uses c).
Proof.
  intros to_ascii hardcoded ext c.
  assert (B : forall W X, result_own W X Panic /\ result_own W X OutOfFuel) by (intros W X; split; intros y []).
  destruct c as [n|f|f p]; cbn [heap_program call_writes call_uses].
  - apply on_heap_keeps; [exact B|]. eapply tame_bind; [apply new_tame|]. intros W' X' [[f e]| |] G; [|intros y []..].
    cbn [ret tame]. intros y Y. destruct e; [destruct Y|]. destruct Y as [<- |[]]. eapply G. reflexivity.
  - apply on_heap_keeps; [exact B|]. eapply tame_bind; [apply update_tame; left; reflexivity|]. intros W' X' [e| |] G; intros y [].
  - eapply keeps_bind; [apply extract_keeps; left; reflexivity|]. intros W' N' X' [e| |] L G; intros y [].
Qed.

(** ** One access *)

Definition knows (w : weak) (v : view) (l : location) : Prop := v l = c_last (w_cell w l).
Definition trie_of (w : weak) (f : nat) : nat := as_trie (latest (w_cell w (TrieAt f))).
Definition zero : hnode := mkNode false [].

Record agree (w : weak) (h : heap) : Prop := {
  a_nodes : forall a i, as_node (latest (w_cell w (NodeAt a i))) = g_node (h_region h a) i;
  a_count : forall a, w_count w a = g_count (h_region h a);
  a_next : w_next w = h_next h;
  a_ext : forall f, mkExtractor (as_path (latest (w_cell w (PathAt f)))) (trie_of w f) (w_private w f) = h_extractor h f;
  a_next_ext : w_next_extractor w = h_next_extractor h }.

Lemma latest_written : forall c v, latest (written_to c v) = v.
Proof. intros c v. unfold latest, written_to. cbn [c_value c_last]. apply upd_same. Qed.
Lemma read_known : forall w v l x v', weak_read w v l x v' -> knows w v l ->
  x = latest (w_cell w l) /\ forall l', v' l' = v l'.
Proof.
  intros w v l x v' (k & L1 & L2 & -> & ->) K. unfold knows in K. assert (E : k = c_last (w_cell w l)) by lia. subst k.
  split; [reflexivity|]. intros l'. unfold put_at. destruct (location_eqb_spec l' l) as [->|]; [symmetry; exact K|reflexivity].
Qed.
Lemma write_cell : forall w l x l', w_cell (weak_write w l x) l' = if location_eqb l' l then written_to (w_cell w l) x else w_cell w l'.
Proof. intros w l x l'. unfold weak_write. cbn [w_cell]. unfold put_at. destruct (location_eqb_spec l' l) as [->|]; reflexivity. Qed.

Lemma agree_node : forall w h a i n (h' : heap), agree w h ->
  (forall b j, g_node (h_region h' b) j = if Nat.eqb b a && Nat.eqb j i then n else g_node (h_region h b) j) ->
  (forall b, g_count (h_region h' b) = g_count (h_region h b)) ->
  h_next h' = h_next h -> h_extractor h' = h_extractor h -> h_next_extractor h' = h_next_extractor h ->
  agree (weak_write w (NodeAt a i) (NodeValue n)) h'.
Proof.
  intros w h a i n h' [H1 H2 H3 H4 H5] G C N E X. split; cbn [weak_write w_count w_next w_private w_next_extractor].
  - intros b j. rewrite write_cell, G. cbn [location_eqb]. destruct (Nat.eqb b a && Nat.eqb j i); [rewrite latest_written; reflexivity|apply H1].
  - intros b. rewrite C. apply H2.
  - rewrite N. exact H3.
  - intros f. rewrite E. unfold trie_of. rewrite !write_cell. cbn [location_eqb]. apply H4.
  - rewrite X. exact H5.
Qed.
Lemma set_node_at : forall h a i n b j,
  g_node (h_region (set_region h a (set_node (h_region h a) i n)) b) j = if Nat.eqb b a && Nat.eqb j i then n else g_node (h_region h b) j.
Proof.
  intros h a i n b j. cbn [set_region h_region]. unfold upd. destruct (Nat.eqb_spec b a) as [->|]; cbn [andb]; [|reflexivity].
  cbn [set_node g_node]. unfold upd. reflexivity.
Qed.
Lemma set_node_count : forall h a i n b, g_count (h_region (set_region h a (set_node (h_region h a) i n)) b) = g_count (h_region h b).
Proof. intros h a i n b. cbn [set_region h_region]. unfold upd. destruct (Nat.eqb_spec b a) as [->|]; reflexivity. Qed.

Lemma set_same : forall w h a, agree w h -> agree w (set_region h a (h_region h a)).
Proof.
  intros w h a [H1 H2 H3 H4 H5].
  assert (E : forall b, h_region (set_region h a (h_region h a)) b = h_region h b).
  { intros b. cbn [set_region h_region]. unfold upd. destruct (Nat.eqb_spec b a) as [->|]; reflexivity. }
  split; auto; [intros b i|intros b]; rewrite E; auto.
Qed.

(** A call that knows what it reads does what it does on ordered memory. *)
Lemma step_agree : forall R (o : heap_op R) w v x w' v' h, agree w h -> weak_step o w v x w' v' ->
  (forall l, reads o l -> knows w v l) ->
  (forall a i, w_next w <= a -> as_node (latest (w_cell w (NodeAt a i))) = zero) ->
  exists h', heap_step o h x h' /\ agree w' h'.
Proof.
  intros R o w v x w' v' h A S K Z. pose proof A as [H1 H2 H3 H4 H5].
  destruct o as [R a o| |y|f|f path|f a]; cbn [weak_step heap_step reads] in *.
  - destruct o as [|i key|i key j|i|i|i|i]; cbn [weak_on region_step] in *.
    + destruct S as (-> & -> & ->). eexists. split; [eexists; split; [split; [apply H2|reflexivity]|reflexivity]|].
      set (w1 := mkWeak _ _ _ _ _). set (h1 := set_region h a (mkRegion (g_node (h_region h a)) (S (g_count (h_region h a))))).
      apply (agree_node w1 h1).
      * split; cbn [w1 h1 w_cell w_count w_next w_private w_next_extractor set_region h_region h_next h_extractor h_next_extractor]; auto.
        -- intros b j. rewrite H1. unfold upd. destruct (Nat.eqb_spec b a) as [->|]; reflexivity.
        -- intros b. rewrite H2. unfold upd. destruct (Nat.eqb_spec b a) as [->|]; [reflexivity|apply H2].
      * intros b j. cbn [h1 set_region h_region]. unfold upd. rewrite H2. destruct (Nat.eqb_spec b a) as [->|]; cbn [andb g_node]; [|reflexivity].
        destruct (Nat.eqb j _); reflexivity.
      * intros b. cbn [h1 set_region h_region]. unfold upd. destruct (Nat.eqb_spec b a) as [->|]; reflexivity.
      * reflexivity.
      * reflexivity.
      * reflexivity.
    + destruct S as (n & Rd & -> & ->). destruct (read_known _ _ _ _ _ Rd (K _ eq_refl)) as (-> & _).
      eexists. split; [eexists; split; [split; [rewrite H1; reflexivity|reflexivity]|reflexivity]|]. apply set_same. exact A.
    + destruct S as (n & v1 & Rd & -> & ->). destruct (read_known _ _ _ _ _ Rd (K _ eq_refl)) as (-> & _).
      eexists. split; [eexists; split; [reflexivity|reflexivity]|].
      rewrite H1. eapply agree_node; [exact A|apply set_node_at|apply set_node_count|reflexivity..].
    + destruct S as (n & Rd & P & ->). destruct (read_known _ _ _ _ _ Rd (K _ eq_refl)) as (-> & _).
      eexists. split; [eexists; split; [split; [rewrite <- H1; exact P|reflexivity]|reflexivity]|]. apply set_same. exact A.
    + destruct S as (n & Rd & -> & ->). destruct (read_known _ _ _ _ _ Rd (K _ eq_refl)) as (-> & _).
      eexists. split; [eexists; split; [split; [rewrite H1; reflexivity|reflexivity]|reflexivity]|]. apply set_same. exact A.
    + destruct S as (n & Rd & -> & ->). destruct (read_known _ _ _ _ _ Rd (K _ eq_refl)) as (-> & _).
      eexists. split; [eexists; split; [split; [rewrite H1; reflexivity|reflexivity]|reflexivity]|]. apply set_same. exact A.
    + destruct S as (n & v1 & Rd & -> & ->). destruct (read_known _ _ _ _ _ Rd (K _ eq_refl)) as (-> & _).
      eexists. split; [eexists; split; [reflexivity|reflexivity]|].
      rewrite H1. eapply agree_node; [exact A|apply set_node_at|apply set_node_count|reflexivity..].
  - destruct S as (-> & -> & ->). eexists. split; [split; [exact H3|reflexivity]|].
    rewrite <- H3. split; cbn [weak_write w_count w_next w_private w_next_extractor h_region h_next h_extractor h_next_extractor]; auto.
    + intros b j. rewrite write_cell. cbn [w_cell location_eqb]. unfold upd. destruct (Nat.eqb_spec b (w_next w)) as [->|]; cbn [andb]; [|apply H1].
      cbn [new_region g_node]. destruct (Nat.eqb_spec j 0) as [->|]; [rewrite latest_written; reflexivity|]. apply Z. apply le_n.
    + intros b. unfold upd. destruct (Nat.eqb b (w_next w)); [reflexivity|apply H2].
  - destruct S as (-> & -> & ->). eexists. split; [split; [exact H5|reflexivity]|].
    rewrite <- H5. split; cbn [weak_write w_count w_next w_private w_next_extractor h_region h_next h_extractor h_next_extractor]; auto.
    intros f. unfold trie_of. rewrite !write_cell. cbn [w_cell location_eqb]. unfold upd.
      destruct (Nat.eqb_spec f (w_next_extractor w)) as [->|]; [rewrite !latest_written; destruct y; reflexivity|apply H4].
  - destruct S as (p & t & v1 & R1 & R2 & -> & ->). destruct (read_known _ _ _ _ _ R1 (K _ (or_introl eq_refl))) as (-> & Ev).
    destruct (read_known _ _ _ _ _ R2) as (-> & _).
    { unfold knows. rewrite Ev. apply K. right. reflexivity. }
    exists h. split; [split; [apply H4|reflexivity]|exact A].
  - destruct S as (-> & ->). eexists. split; [reflexivity|].
    split; cbn [weak_write w_count w_next w_private w_next_extractor put_extractor h_region h_next h_extractor h_next_extractor]; auto.
    intros g. unfold trie_of. rewrite !write_cell. cbn [location_eqb]. unfold upd. destruct (Nat.eqb_spec g f) as [->|]; [|apply H4].
      rewrite latest_written. rewrite <- H4. reflexivity.
  - destruct S as (-> & ->). eexists. split; [reflexivity|].
    split; cbn [weak_write w_count w_next w_private w_next_extractor put_extractor h_region h_next h_extractor h_next_extractor]; auto.
    intros g. unfold trie_of. rewrite !write_cell. cbn [location_eqb]. unfold upd. destruct (Nat.eqb_spec g f) as [->|]; [|apply H4].
      rewrite latest_written. rewrite <- H4. reflexivity.
Qed.

(** ** What holds in orderly executions *)

(** [gh_made], [gh_reads], [gh_uses]: the lists of [keeps]. *)
Record ghost := mkGhost { gh_thread : wthread; gh_made : list nat; gh_reads : list nat; gh_uses : list nat }.
Definition gh_call (g : ghost) : call := wt_call (gh_thread g).
Definition gh_view (g : ghost) : view := wt_view (gh_thread g).
Definition knows_ext (w : weak) (v : view) (f : nat) : Prop :=
  knows w v (PathAt f) /\ knows w v (TrieAt f) /\ forall i, knows w v (NodeAt (trie_of w f) i).

Record good (w : weak) (known : list nat) (g : ghost) : Prop := {
  g_keeps : keeps (call_writes (gh_call g)) result_own (wt_rest (gh_thread g)) (gh_made g) (gh_reads g) (gh_uses g);
  g_nodes : forall a, In a (gh_made g) \/ In a (gh_reads g) -> a < w_next w /\ forall i, knows w (gh_view g) (NodeAt a i);
  g_exts : forall f, In f (gh_uses g) -> f < w_next_extractor w /\ trie_of w f < w_next w /\ knows_ext w (gh_view g) f;
  g_on : forall f, In f (gh_uses g) -> In f known -> call_on f (gh_call g);
  g_own : forall f, call_on f (gh_call g) -> In f (gh_uses g) /\ In f known;
  g_reader : call_writes (gh_call g) = false -> incl (gh_uses g) known;
  g_apart : forall f, In f known -> gh_call g <> CallUpdate f -> ~ In (trie_of w f) (gh_made g);
  g_view : forall l, gh_view g l <= c_last (w_cell w l) }.
Record half (w : weak) (g1 g2 : ghost) : Prop := {
  h_made : forall a, In a (gh_made g1) -> ~ In a (gh_made g2) /\ ~ In a (gh_reads g2);
  h_trie : forall f, In f (gh_uses g1) -> ~ In (trie_of w f) (gh_made g2);
  h_uses : call_writes (gh_call g1) = true -> forall f, In f (gh_uses g1) -> ~ In f (gh_uses g2) }.
Definition apart (w : weak) (g1 g2 : ghost) : Prop := half w g1 g2 /\ half w g2 g1.
Record fine (w : weak) (known : list nat) (gs : list ghost) (d : view) : Prop := {
  o_known : forall f, In f known -> f < w_next_extractor w /\ trie_of w f < w_next w;
  o_ended : forall f, In f known -> (forall g, In g gs -> gh_call g <> CallUpdate f) -> knows_ext w d f;
  o_view : forall l, d l <= c_last (w_cell w l);
  o_fresh : forall a i, w_next w <= a -> c_last (w_cell w (NodeAt a i)) = 0 /\ as_node (latest (w_cell w (NodeAt a i))) = zero }.

(** What one step of a call does to the rest. *)
Record moves (w w' : weak) (known : list nat) (g g' : ghost) : Prop := {
  m_call : gh_call g' = gh_call g;
  m_next : w_next w <= w_next w';
  m_next_ext : w_next_extractor w <= w_next_extractor w';
  m_last : forall l, c_last (w_cell w l) <= c_last (w_cell w' l);
  m_cell : forall l, w_cell w' l = w_cell w l \/ match l with
     | NodeAt a i => In a (gh_made g) \/ w_next w <= a < w_next w'
     | PathAt f | TrieAt f => call_writes (gh_call g) = true /\ In f (gh_uses g) \/ w_next_extractor w <= f end;
  m_trie : forall f, In f known -> trie_of w' f = trie_of w f \/ In (trie_of w' f) (gh_made g);
  m_made : forall a, In a (gh_made g') -> In a (gh_made g) \/ w_next w <= a;
  m_reads : forall a, In a (gh_reads g') -> In a (gh_reads g) \/ exists f, In f (gh_uses g) /\ a = trie_of w f;
  m_uses : forall f, In f (gh_uses g') -> In f (gh_uses g) \/ w_next_extractor w <= f;
  m_uses_trie : forall f, In f (gh_uses g') -> In f (gh_uses g) /\ trie_of w' f = trie_of w f \/ In (trie_of w' f) (gh_made g) }.

Lemma call_on_writes : forall f c, call_on f c -> call_writes c = true -> c = CallUpdate f.
Proof. intros f c [E|(p & ->)] W; [exact E|discriminate W]. Qed.

Section Moves.
Context (w w' : weak) (known : list nat) (g g' g2 : ghost).
Hypothesis G : good w known g.
Hypothesis M : moves w w' known g g'.
Hypothesis G2 : good w known g2.
Hypothesis A : apart w g g2.

Lemma others_node : forall a i, In a (gh_made g2) \/ In a (gh_reads g2) -> w_cell w' (NodeAt a i) = w_cell w (NodeAt a i).
Proof.
  intros a i I1. destruct (m_cell _ _ _ _ _ M (NodeAt a i)) as [E|[I2|L]]; [exact E| |].
  - destruct (h_made _ _ _ (proj1 A) a I2) as (N1 & N2). destruct I1; contradiction.
  - destruct (g_nodes _ _ _ G2 a I1) as (B & _). lia.
Qed.
Lemma others_field : forall f, In f (gh_uses g2) -> w_cell w' (PathAt f) = w_cell w (PathAt f) /\ w_cell w' (TrieAt f) = w_cell w (TrieAt f).
Proof.
  intros f I1. destruct (g_exts _ _ _ G2 f I1) as (B & _).
  assert (N : ~ (call_writes (gh_call g) = true /\ In f (gh_uses g) \/ w_next_extractor w <= f)).
  { intros [(R & I2)|L]; [|lia]. exact (h_uses _ _ _ (proj1 A) R f I2 I1). }
  destruct (m_cell _ _ _ _ _ M (PathAt f)) as [E1|]; [|contradiction]. destruct (m_cell _ _ _ _ _ M (TrieAt f)) as [E2|]; [|contradiction]. auto.
Qed.
Lemma others_trie : forall f, In f (gh_uses g2) -> trie_of w' f = trie_of w f.
Proof. intros f I1. unfold trie_of. rewrite (proj2 (others_field f I1)). reflexivity. Qed.
Lemma others_good : good w' known g2.
Proof.
  destruct G2 as [H1 H2 H3 H4 H5 H6 H7 H8]. split; auto.
  - intros a I1. destruct (H2 a I1) as (B & K). split; [pose proof (m_next _ _ _ _ _ M); lia|]. intros i. unfold knows. rewrite others_node by exact I1. apply K.
  - intros f I1. destruct (H3 f I1) as (B1 & B2 & K1 & K2 & K3). pose proof (m_next _ _ _ _ _ M). pose proof (m_next_ext _ _ _ _ _ M).
    destruct (others_field f I1) as (E1 & E2). unfold knows_ext. rewrite (others_trie f I1).
    split; [lia|]. split; [lia|]. unfold knows. rewrite E1, E2. split; [exact K1|]. split; [exact K2|]. intros i.
    destruct (m_cell _ _ _ _ _ M (NodeAt (trie_of w f) i)) as [->|[I2|L]]; [apply K3| |lia].
    destruct (h_trie _ _ _ (proj2 A) f I1 I2).
  - intros f If Nu. destruct (m_trie _ _ _ _ _ M f If) as [->|I2]; [apply H7; assumption|]. apply (h_made _ _ _ (proj1 A) _ I2).
  - intros l. pose proof (m_last _ _ _ _ _ M l). specialize (H8 l). lia.
Qed.
Lemma others_apart : apart w' g' g2.
Proof.
  destruct A as ([A1 A2 A3] & [B1 B2 B3]).
  assert (Fr : forall a, w_next w <= a -> ~ In a (gh_made g2) /\ ~ In a (gh_reads g2)).
  { intros a L. split; intros I1; [destruct (g_nodes _ _ _ G2 a (or_introl I1))|destruct (g_nodes _ _ _ G2 a (or_intror I1))]; lia. }
  split; split.
  - intros a I1. destruct (m_made _ _ _ _ _ M a I1) as [I2|L]; [apply A1; exact I2|apply Fr; exact L].
  - intros f I1. destruct (m_uses_trie _ _ _ _ _ M f I1) as [(I2 & ->)|I2]; [apply A2; exact I2|]. apply (A1 _ I2).
  - rewrite (m_call _ _ _ _ _ M). intros R f I1 I2. destruct (m_uses _ _ _ _ _ M f I1) as [I3|L]; [exact (A3 R f I3 I2)|].
    destruct (g_exts _ _ _ G2 f I2). lia.
  - intros a I1. split; intros I2.
    + destruct (m_made _ _ _ _ _ M a I2) as [I3|L]; [exact (proj1 (B1 a I1) I3)|]. exact (proj1 (Fr a L) I1).
    + destruct (m_reads _ _ _ _ _ M a I2) as [I3|(f & I3 & ->)]; [exact (proj2 (B1 a I1) I3)|]. exact (A2 f I3 I1).
  - intros f I1 I2. rewrite (others_trie f I1) in I2. destruct (m_made _ _ _ _ _ M _ I2) as [I3|L]; [exact (B2 f I1 I3)|].
    destruct (g_exts _ _ _ G2 f I1) as (_ & B & _). lia.
  - intros R f I1 I2. destruct (m_uses _ _ _ _ _ M f I2) as [I3|L]; [exact (B3 R f I1 I3)|]. destruct (g_exts _ _ _ G2 f I1). lia.
Qed.
End Moves.

Lemma pair_stays : forall w w' known g g' g2 g3, good w known g -> moves w w' known g g' -> good w known g2 -> good w known g3 ->
  apart w g g2 -> apart w g g3 -> apart w g2 g3 -> apart w' g2 g3.
Proof.
  intros w w' known g g' g2 g3 G M G2 G3 A2 A3 ([H1 H2 H3] & [K1 K2 K3]).
  split; split; auto; intros f I1.
  - rewrite (others_trie w w' known g g' g2 M G2 A2 f I1). apply H2. exact I1.
  - rewrite (others_trie w w' known g g' g3 M G3 A3 f I1). apply K2. exact I1.
Qed.
Lemma fine_stays : forall w w' known g g' gs gs' d, good w known g -> moves w w' known g g' -> In g gs ->
  (forall f, (forall x, In x gs' -> gh_call x <> CallUpdate f) -> forall x, In x gs -> gh_call x <> CallUpdate f) ->
  fine w known gs d -> fine w' known gs' d.
Proof.
  intros w w' known g g' gs gs' d G M Ig Same [H1 H2 H3 H4]. pose proof (m_next _ _ _ _ _ M). pose proof (m_next_ext _ _ _ _ _ M). split.
  - intros f If. destruct (H1 f If) as (B1 & B2). split; [lia|]. destruct (m_trie _ _ _ _ _ M f If) as [->|I1]; [lia|].
    destruct (g_nodes _ _ _ G _ (or_introl I1)). lia.
  - intros f If Nu. pose proof (Same f Nu) as Nu'. destruct (H1 f If) as (B1 & B2). destruct (H2 f If Nu') as (K1 & K2 & K3).
    assert (N : ~ (call_writes (gh_call g) = true /\ In f (gh_uses g) \/ w_next_extractor w <= f)).
    { intros [(R & I1)|L]; [|lia]. apply (Nu' g Ig). apply call_on_writes; [|exact R]. apply (g_on _ _ _ G); assumption. }
    destruct (m_cell _ _ _ _ _ M (PathAt f)) as [E1|]; [|contradiction]. destruct (m_cell _ _ _ _ _ M (TrieAt f)) as [E2|]; [|contradiction].
    assert (Et : trie_of w' f = trie_of w f) by (unfold trie_of; rewrite E2; reflexivity).
    unfold knows_ext. rewrite Et. unfold knows. rewrite E1, E2. split; [exact K1|]. split; [exact K2|]. intros i.
    destruct (m_cell _ _ _ _ _ M (NodeAt (trie_of w f) i)) as [->|[I1|L]]; [apply K3| |lia].
    destruct (g_apart _ _ _ G f If (Nu' g Ig) I1).
  - intros l. pose proof (m_last _ _ _ _ _ M l). specialize (H3 l). lia.
  - intros a i L. destruct (m_cell _ _ _ _ _ M (NodeAt a i)) as [->|[I1|B]]; [apply H4; lia| |lia].
    destruct (g_nodes _ _ _ G _ (or_introl I1)). lia.
Qed.

Record tracks (w w' : weak) (v v' : view) (g g' : ghost) : Prop := {
  t_view : forall l, w_cell w' l = w_cell w l /\ v' l = v l \/ v' l = c_last (w_cell w' l);
  t_made : forall a, In a (gh_made g') -> In a (gh_made g) \/ a < w_next w';
  t_uses : forall f, In f (gh_uses g') -> In f (gh_uses g) \/ f < w_next_extractor w' /\ knows w' v' (PathAt f) /\ knows w' v' (TrieAt f);
  t_incl : incl (gh_uses g) (gh_uses g');
  t_reader : call_writes (gh_call g) = false -> incl (gh_uses g') (gh_uses g) }.
Lemma moved_good : forall w w' known g g' gs d, good w known g -> fine w known gs d ->
  moves w w' known g g' -> tracks w w' (gh_view g) (gh_view g') g g' ->
  keeps (call_writes (gh_call g')) result_own (wt_rest (gh_thread g')) (gh_made g') (gh_reads g') (gh_uses g') ->
  good w' known g'.
Proof.
  intros w w' known g g' gs d G F M [T1 T2 T3 T4 T5] K.
  pose proof (m_next _ _ _ _ _ M) as Ln. pose proof (m_next_ext _ _ _ _ _ M) as Lx.
  assert (Kn : forall l, knows w (gh_view g) l -> knows w' (gh_view g') l).
  { intros l H. unfold knows in *. destruct (T1 l) as [(-> & ->)|E]; assumption. }
  assert (Fr : forall a i, w_next w <= a -> knows w (gh_view g) (NodeAt a i)).
  { intros a i L. destruct (o_fresh _ _ _ _ F a i L) as (E & _). pose proof (g_view _ _ _ G (NodeAt a i)). unfold knows. lia. }
  assert (Mk : forall a, In a (gh_made g) -> a < w_next w' /\ forall i, knows w' (gh_view g') (NodeAt a i)).
  { intros a I1. destruct (g_nodes _ _ _ G a (or_introl I1)) as (B & Ka). split; [lia|]. intros i. apply Kn. apply Ka. }
  split.
  - exact K.
  - intros a [I1|I1].
    + destruct (m_made _ _ _ _ _ M a I1) as [I2|L]; [apply Mk; exact I2|]. destruct (T2 a I1) as [I2|B]; [apply Mk; exact I2|].
      split; [exact B|]. intros i. apply Kn. apply Fr. exact L.
    + destruct (m_reads _ _ _ _ _ M a I1) as [I2|(f & I2 & ->)].
      * destruct (g_nodes _ _ _ G a (or_intror I2)) as (B & Ka). split; [lia|]. intros i. apply Kn. apply Ka.
      * destruct (g_exts _ _ _ G f I2) as (_ & B & _ & _ & Ka). split; [lia|]. intros i. apply Kn. apply Ka.
  - intros f I1. destruct (m_uses_trie _ _ _ _ _ M f I1) as [(I2 & Et)|I2].
    + destruct (g_exts _ _ _ G f I2) as (B1 & B2 & K1 & K2 & K3). unfold knows_ext. rewrite Et. split; [lia|]. split; [lia|]. auto.
    + destruct (Mk _ I2) as (B & Ka). destruct (T3 f I1) as [I3|(B1 & K1 & K2)].
      * destruct (g_exts _ _ _ G f I3) as (B1 & B2 & K1 & K2 & K3). split; [lia|]. split; [exact B|]. split; auto.
      * split; [exact B1|]. split; [exact B|]. split; auto.
  - intros f I1 If. rewrite (m_call _ _ _ _ _ M). destruct (m_uses _ _ _ _ _ M f I1) as [I2|L]; [apply (g_on _ _ _ G); assumption|].
    destruct (o_known _ _ _ _ F f If). lia.
  - intros f C. rewrite (m_call _ _ _ _ _ M) in C. destruct (g_own _ _ _ G f C). auto.
  - rewrite (m_call _ _ _ _ _ M). intros R f I1. apply (g_reader _ _ _ G R). apply T5; assumption.
  - intros f If Nu I1. rewrite (m_call _ _ _ _ _ M) in Nu. destruct (o_known _ _ _ _ F f If) as (B1 & B2).
    assert (Et : trie_of w' f = trie_of w f).
    { unfold trie_of. destruct (m_cell _ _ _ _ _ M (TrieAt f)) as [->|[(R & I2)|L]]; [reflexivity| |lia].
      destruct Nu. apply call_on_writes; [|exact R]. apply (g_on _ _ _ G); assumption. }
    rewrite Et in I1. destruct (m_made _ _ _ _ _ M _ I1) as [I2|L]; [|lia]. exact (g_apart _ _ _ G f If Nu I2).
  - intros l. destruct (T1 l) as [(-> & ->)|E]; [apply (g_view _ _ _ G)|]. lia.
Qed.

Lemma write_tracks : forall w v l x l', w_cell (weak_write w l x) l' = w_cell w l' /\ put_at v l (S (c_last (w_cell w l))) l' = v l'
  \/ l' = l /\ put_at v l (S (c_last (w_cell w l))) l' = c_last (w_cell (weak_write w l x) l').
Proof.
  intros w v l x l'. rewrite write_cell. unfold put_at. destruct (location_eqb_spec l' l) as [->|]; [right|left]; auto.
Qed.
Lemma write_last : forall w l x l', c_last (w_cell w l') <= c_last (w_cell (weak_write w l x) l').
Proof. intros w l x l'. rewrite write_cell. destruct (location_eqb_spec l' l) as [->|]; [cbn [written_to c_last]; lia|lia]. Qed.

(** A step that only reads. *)
Lemma still_good : forall w known g gs d v' p' N', good w known g -> fine w known gs d -> (forall l, v' l = gh_view g l) ->
  (forall a, In a N' -> In a (gh_reads g) \/ exists f, In f (gh_uses g) /\ a = trie_of w f) ->
  keeps (call_writes (gh_call g)) result_own p' (gh_made g) N' (gh_uses g) ->
  let g' := mkGhost (mkWThread (wt_number (gh_thread g)) (gh_call g) p' v') (gh_made g) N' (gh_uses g) in
  moves w w known g g' /\ good w known g'.
Proof.
  intros w known g gs d v' p' N' G F Ev HN K g'.
  assert (M : moves w w known g g') by (split; cbn [g' gh_made gh_reads gh_uses gh_call gh_thread wt_call]; auto).
  split; [exact M|]. eapply moved_good; [exact G|exact F|exact M| |exact K].
  split; cbn [g' gh_made gh_reads gh_uses gh_call gh_view gh_thread wt_call wt_view]; auto; [apply incl_refl|intros _; apply incl_refl].
Qed.
(** A step that writes one location of its own. *)
Lemma written_good : forall w w' known g gs d l x v' p', good w known g -> fine w known gs d ->
  (forall l', v' l' = put_at (gh_view g) l (S (c_last (w_cell w l))) l') ->
  (forall l', w_cell w' l' = w_cell (weak_write w l x) l') -> w_next w' = w_next w -> w_next_extractor w' = w_next_extractor w ->
  match l with
  | NodeAt a i => In a (gh_made g)
  | PathAt f => call_writes (gh_call g) = true /\ In f (gh_uses g)
  | TrieAt f => (call_writes (gh_call g) = true /\ In f (gh_uses g)) /\ In (as_trie x) (gh_made g) end ->
  keeps (call_writes (gh_call g)) result_own p' (gh_made g) (gh_reads g) (gh_uses g) ->
  let g' := mkGhost (mkWThread (wt_number (gh_thread g)) (gh_call g) p' v') (gh_made g) (gh_reads g) (gh_uses g) in
  moves w w' known g g' /\ good w' known g'.
Proof.
  intros w w' known g gs d l x v' p' G F Ev Ew En Ex Own K g'.
  assert (Et : forall f, trie_of w' f = trie_of w f \/ In (trie_of w' f) (gh_made g)).
  { intros f. unfold trie_of. rewrite Ew, write_cell. destruct (location_eqb_spec (TrieAt f) l) as [<-|]; [|auto].
    right. rewrite latest_written. apply Own. }
  assert (M : moves w w' known g g').
  { split; cbn [g' gh_made gh_reads gh_uses gh_call gh_thread wt_call]; auto; try lia.
    - intros l'. rewrite Ew. apply write_last.
    - intros l'. rewrite Ew, write_cell. destruct (location_eqb_spec l' l) as [->|]; [|auto]. right. destruct l as [a i|f|f]; [left; exact Own|left; exact Own|left; apply Own].
    - intros f I1. destruct (Et f); auto. }
  split; [exact M|]. eapply moved_good; [exact G|exact F|exact M| |exact K].
  split; cbn [g' gh_made gh_reads gh_uses gh_call gh_view gh_thread wt_call wt_view]; auto; [|apply incl_refl|intros _; apply incl_refl].
  intros l'. rewrite Ew, Ev. destruct (write_tracks w (gh_view g) l x l') as [H|(_ & H)]; auto.
Qed.
Lemma sees_after_read : forall w v l l', v l <= c_last (w_cell w l) ->  forall x v1, weak_read w v l x v1 ->
  sees_write w v1 l l' = put_at v l (S (c_last (w_cell w l))) l'.
Proof.
  intros w v l l' B x v1 (k & _ & _ & _ & ->). unfold sees_write, put_at. destruct (location_eqb l' l); reflexivity.
Qed.

Lemma step_good : forall R (o : heap_op R) (k : R -> hprog answer) w w' v v' x i c W N X known gs d,
  good w known (mkGhost (mkWThread i c (HHeap o k) v) W N X) -> fine w known gs d -> weak_step o w v x w' v' ->
  (forall l, reads o l -> knows w v l) /\
  exists g', gh_thread g' = mkWThread i c (k x) v' /\ moves w w' known (mkGhost (mkWThread i c (HHeap o k) v) W N X) g' /\ good w' known g'.
Proof.
  intros R o k w w' v v' x i c W N X known gs d G F S. set (g := mkGhost _ W N X) in *.
  pose proof (g_keeps _ _ _ G) as K. cbn [g gh_call gh_thread wt_call wt_rest gh_made gh_reads gh_uses] in K.
  pose proof (g_nodes _ _ _ G) as Hn. cbn [g gh_made gh_reads gh_view gh_thread wt_view] in Hn.
  pose proof (g_exts _ _ _ G) as Hx. cbn [g gh_uses gh_view gh_thread wt_view] in Hx.
  pose proof (g_view _ _ _ G) as Hv. cbn [g gh_view gh_thread wt_view] in Hv.
  destruct o as [R a o| |y|f|f path|f a]; cbn [keeps weak_step reads] in *.
  - destruct K as (Ha & K).
    assert (Ka : forall j, knows w v (NodeAt a j)) by (intros j; apply Hn; intuition auto).
    assert (Rd : forall j n v1, weak_read w v (NodeAt a j) n v1 -> forall l, v1 l = v l) by (intros j n v1 Rd; apply (read_known _ _ _ _ _ Rd (Ka j))).
    assert (Still : forall x, w' = w -> (forall l, v' l = v l) ->
      exists g', gh_thread g' = mkWThread i c (k x) v' /\ moves w w' known g g' /\ good w' known g').
    { intros x0 -> Ev. eexists. split; [|eapply (still_good w known g gs d v' (k x0) N); [exact G|exact F|exact Ev|auto|apply K]]. reflexivity. }
    assert (Wrote : forall x j y, In a W -> (forall l, v' l = put_at v (NodeAt a j) (Datatypes.S (c_last (w_cell w (NodeAt a j)))) l) ->
      (forall l', w_cell w' l' = w_cell (weak_write w (NodeAt a j) y) l') -> w_next w' = w_next w -> w_next_extractor w' = w_next_extractor w ->
      exists g', gh_thread g' = mkWThread i c (k x) v' /\ moves w w' known g g' /\ good w' known g').
    { intros x0 j y Ia Ev Ew En Ex. eexists. split; [|eapply (written_good w w' known g gs d (NodeAt a j) y v' (k x0)); [exact G|exact F|exact Ev|exact Ew|exact En|exact Ex|exact Ia|apply K]]. reflexivity. }
    destruct o as [|j key|j key n|j|j|j|j]; cbn [weak_on changes] in *; (split; [first [solve [intros l []] | intros l ->; apply Ka]|]).
    + destruct S as (-> & -> & ->). destruct Ha as [Ha|(E & _)]; [|discriminate E]. eapply (Wrote _ (w_count w a)); [exact Ha|reflexivity|reflexivity|reflexivity|reflexivity].
    + destruct S as (n & S & _ & Ew). apply Still; [exact Ew|eapply Rd; exact S].
    + destruct S as (m & v1 & S & -> & ->). destruct Ha as [Ha|(E & _)]; [|discriminate E].
      eapply (Wrote _ j); [exact Ha|intros l; eapply sees_after_read; [apply Hv|exact S]|reflexivity|reflexivity|reflexivity].
    + destruct S as (n & S & _ & Ew). apply Still; [exact Ew|eapply Rd; exact S].
    + destruct S as (n & S & _ & Ew). apply Still; [exact Ew|eapply Rd; exact S].
    + destruct S as (n & S & _ & Ew). apply Still; [exact Ew|eapply Rd; exact S].
    + destruct S as (m & v1 & S & -> & ->). destruct Ha as [Ha|(E & _)]; [|discriminate E].
      eapply (Wrote _ j); [exact Ha|intros l; eapply sees_after_read; [apply Hv|exact S]|reflexivity|reflexivity|reflexivity].
  - split; [intros l []|]. destruct S as (-> & -> & ->). destruct K as (Rw & K). set (a := w_next w) in *.
    set (w' := weak_write _ _ _). set (g' := mkGhost (mkWThread i c (k a) (sees_write w v (NodeAt a 0))) (a :: W) N X).
    assert (Et : forall f, trie_of w' f = trie_of w f) by (intros f; unfold trie_of, w'; rewrite write_cell; reflexivity).
    assert (M : moves w w' known g g').
    { split; cbn [w' weak_write w_next w_next_extractor g g' gh_made gh_reads gh_uses gh_call gh_thread wt_call]; auto; try (fold a; lia).
      - intros l. apply (write_last (mkWeak (w_cell w) _ _ _ _)).
      - intros l. change (put_at _ _ _) with (w_cell w'). unfold w'. rewrite write_cell. cbn [w_cell].
        destruct (location_eqb_spec l (NodeAt a 0)) as [->|]; [right; right; fold a; lia|auto].
      - intros b [<-|I1]; [right; apply le_n|auto]. }
    exists g'. split; [reflexivity|]. split; [exact M|]. eapply moved_good; [exact G|exact F|exact M| |apply K].
    split; cbn [w' weak_write w_next w_next_extractor g g' gh_made gh_reads gh_uses gh_call gh_view gh_thread wt_call wt_view]; auto; [| |apply incl_refl|intros _; apply incl_refl].
    + intros l. change (put_at (w_cell _) _ _) with (w_cell w'). unfold w', sees_write.
      destruct (write_tracks (mkWeak (w_cell w) (upd (w_count w) a 1) (Datatypes.S a) (w_private w) (w_next_extractor w)) v (NodeAt a 0) (NodeValue (mkNode false [])) l) as [H|(_ & H)]; auto.
    + intros b [<-|I1]; [right; lia|auto].
  - split; [intros l []|]. destruct S as (-> & -> & ->). destruct K as (Rw & Iy & K). set (f := w_next_extractor w) in *.
    set (w' := weak_write _ _ _). set (g' := mkGhost (mkWThread i c (k f) (sees_write w (sees_write w v (PathAt f)) (TrieAt f))) W N (f :: X)).
    assert (Ec : forall l, l <> PathAt f -> l <> TrieAt f -> w_cell w' l = w_cell w l).
    { intros l N1 N2. unfold w'. rewrite !write_cell. destruct (location_eqb_spec l (TrieAt f)); [contradiction|]. destruct (location_eqb_spec l (PathAt f)); [contradiction|reflexivity]. }
    assert (Et : forall f', f' <> f -> trie_of w' f' = trie_of w f') by (intros f' Nf; unfold trie_of; rewrite Ec; [reflexivity|congruence|congruence]).
    assert (Ef : trie_of w' f = x_trie y).
    { unfold trie_of, w'. rewrite write_cell. destruct (location_eqb_spec (TrieAt f) (TrieAt f)); [|congruence]. rewrite latest_written. reflexivity. }
    assert (Ep : w_cell w' (PathAt f) = written_to (w_cell w (PathAt f)) (PathValue (x_path y))).
    { unfold w'. rewrite !write_cell. destruct (location_eqb_spec (PathAt f) (TrieAt f)); [discriminate|]. destruct (location_eqb_spec (PathAt f) (PathAt f)); [reflexivity|congruence]. }
    assert (Eq : w_cell w' (TrieAt f) = written_to (w_cell w (TrieAt f)) (TrieValue (x_trie y))).
    { unfold w'. rewrite write_cell. destruct (location_eqb_spec (TrieAt f) (TrieAt f)); [|congruence]. rewrite write_cell. destruct (location_eqb_spec (TrieAt f) (PathAt f)); [discriminate|reflexivity]. }
    assert (Kf : forall l, l = PathAt f \/ l = TrieAt f -> sees_write w (sees_write w v (PathAt f)) (TrieAt f) l = c_last (w_cell w' l)).
    { intros l [-> | ->]; [rewrite Ep|rewrite Eq]; unfold sees_write.
      - rewrite put_other by discriminate. rewrite put_same. reflexivity.
      - rewrite put_same. reflexivity. }
    assert (Fx : forall f', In f' X -> f' <> f) by (intros f' I1 ->; destruct (Hx f I1) as (B & _); unfold f in B; lia).
    assert (M : moves w w' known g g').
    { split.
      - reflexivity.
      - apply le_n.
      - cbn [w' weak_write w_next_extractor]. fold f. lia.
      - intros l. destruct (location_eqb_spec l (PathAt f)) as [->|N1]; [rewrite Ep; cbn [written_to c_last]; lia|].
        destruct (location_eqb_spec l (TrieAt f)) as [->|N2]; [rewrite Eq; cbn [written_to c_last]; lia|]. rewrite Ec by assumption. lia.
      - intros l. destruct (location_eqb_spec l (PathAt f)) as [->|N1]; [right; right; apply le_n|].
        destruct (location_eqb_spec l (TrieAt f)) as [->|N2]; [right; right; apply le_n|]. left. apply Ec; assumption.
      - intros f' If. left. apply Et. destruct (o_known _ _ _ _ F f' If) as (B & _). unfold f. lia.
      - auto.
      - auto.
      - intros f' [<-|I1]; [right; apply le_n|auto].
      - intros f' [<-|I1]; [right; rewrite Ef; exact Iy|left]. split; [exact I1|]. apply Et. apply Fx. exact I1. }
    exists g'. split; [reflexivity|]. split; [exact M|]. eapply moved_good; [exact G|exact F|exact M| |apply K].
    split.
    + intros l. cbn [g g' gh_view gh_thread wt_view].
      destruct (location_eqb_spec l (PathAt f)) as [->|N1]; [right; apply Kf; auto|].
      destruct (location_eqb_spec l (TrieAt f)) as [->|N2]; [right; apply Kf; auto|]. left. split; [apply Ec; assumption|].
      unfold sees_write. rewrite !put_other by assumption. reflexivity.
    + auto.
    + intros f' [<-|I1]; [right|left; exact I1]. split; [cbn [w' weak_write w_next_extractor]; lia|]. split; apply Kf; auto.
    + intros f' I1. right. exact I1.
    + cbn [g gh_call gh_thread wt_call]. congruence.
  - destruct K as (If & K). destruct (Hx f If) as (B1 & B2 & K1 & K2 & K3). split; [intros l [-> | ->]; assumption|].
    destruct S as (p & t & v1 & R1 & R2 & -> & ->). destruct (read_known _ _ _ _ _ R1 K1) as (_ & E1).
    destruct (read_known _ _ _ _ _ R2) as (-> & E2); [unfold knows; rewrite E1; exact K2|].
    eexists. split; [|eapply (still_good w known g gs d v' (k _)); [exact G|exact F| | |apply K]]; [reflexivity| |].
    + intros l. rewrite E2, E1. reflexivity.
    + intros b [<-|I1]; [right; exists f; split; [exact If|reflexivity]|left; exact I1].
  - split; [intros l []|]. destruct K as (Rw & If & K). destruct S as (-> & ->). destruct x.
    eexists. split; [|eapply (written_good w _ known g gs d (PathAt f) (PathValue path) _ (k tt)); [exact G|exact F|reflexivity|reflexivity|reflexivity|reflexivity| |exact K]]; [reflexivity|].
    split; assumption.
  - split; [intros l []|]. destruct K as (Rw & If & Ia & K). destruct S as (-> & ->). destruct x.
    eexists. split; [|eapply (written_good w _ known g gs d (TrieAt f) (TrieValue a) _ (k tt)); [exact G|exact F|reflexivity|reflexivity|reflexivity|reflexivity| |exact K]]; [reflexivity|].
    split; [split; assumption|exact Ia].
Qed.

(** ** Executions *)

Lemma pairs_middle : forall A (R : A -> A -> Prop) l1 x l2, (forall a b, R a b -> R b a) ->
  ForallOrdPairs R (l1 ++ x :: l2) <-> ForallOrdPairs R (l1 ++ l2) /\ Forall (R x) (l1 ++ l2).
Proof.
  intros A R l1 x l2 Sym. induction l1 as [|y l1 IH]; cbn [app].
  - split; [intros H; inversion H; auto|intros (H1 & H2); constructor; assumption].
  - split.
    + intros H. inversion H as [|y0 l0 H1 H2]; subst. apply IH in H2. destruct H2 as (H2 & H3).
      rewrite Forall_app in H1. destruct H1 as (H1a & H1b). inversion H1b; subst.
      split; [constructor; [rewrite Forall_app; auto|exact H2]|]. constructor; auto.
    + intros (H & H0). inversion H as [|y0 l0 H1 H2]; subst. inversion H0 as [|y0 l0 H3 H4]; subst.
      rewrite Forall_app in H1. destruct H1 as (H1a & H1b).
      constructor; [rewrite Forall_app; auto|]. apply IH. auto.
Qed.
Lemma conflict_sym : forall c1 c2, conflict c1 c2 -> conflict c2 c1.
Proof. intros c1 c2 (f & H1 & H2 & H3). exists f. intuition auto. Qed.
Lemma pairs_forall : forall A (R S : A -> A -> Prop) l, ForallOrdPairs R l ->
  (forall a b, In a l -> In b l -> R a b -> S a b) -> ForallOrdPairs S l.
Proof.
  intros A R S. induction l as [|x l IH]; intros H K; constructor; inversion H as [|y0 l0 H1 H2]; subst.
  - apply Forall_forall. intros y Iy. rewrite Forall_forall in H1. apply K; [left; reflexivity|right; exact Iy|auto].
  - apply IH; [exact H2|]. intros a b Ia Ib. apply K; right; assumption.
Qed.

Record related (q : wpool) (hq : hpool) (gs : list ghost) : Prop := {
  r_threads : map gh_thread gs = wp_threads q;
  r_good : forall g, In g gs -> good (wp_weak q) (wp_known q) g;
  r_apart : ForallOrdPairs (apart (wp_weak q)) gs;
  r_orderly : orderly (map wt_call (wp_threads q));
  r_fine : fine (wp_weak q) (wp_known q) gs (wp_ended q);
  r_agree : agree (wp_weak q) (hp_heap hq);
  r_same : map without_view (wp_threads q) = hp_threads hq;
  r_known : wp_known q = hp_known hq;
  r_count : wp_count q = hp_count hq;
  r_trace : wp_trace q = hp_trace hq }.
Lemma apart_sym : forall w g1 g2, apart w g1 g2 -> apart w g2 g1.
Proof. intros w g1 g2 (H1 & H2). split; assumption. Qed.
Lemma related_same : forall q hq gs, related q hq gs -> same_state q hq.
Proof. intros q hq gs [H1 H2 H3 H4 H5 H6 H7 H8 H9 H10]. split; auto; [apply (a_nodes _ _ H6)|apply (a_ext _ _ H6)]. Qed.
Lemma calls_same : forall l, map ht_call (map without_view l) = map wt_call l.
Proof. intros l. rewrite map_map. reflexivity. Qed.
Lemma knows_join : forall w d v l, (forall l, d l <= c_last (w_cell w l)) -> (forall l, v l <= c_last (w_cell w l)) ->
  knows w d l \/ knows w v l -> knows w (join d v) l.
Proof. intros w d v l H1 H2 H. specialize (H1 l). specialize (H2 l). unfold knows, join in *. destruct H; lia. Qed.

Section Executions.
Variable to_ascii : bytes -> option bytes.
Variable hardcoded : bytes.
Variable ext : idna.

Lemma start_related : forall w known ts n tr d h c gs,
  related (mkWPool w known ts n tr d) (mkHPool h known (map without_view ts) n tr) gs -> may_call known c ->
  orderly (map wt_call (ts ++ [mkWThread n c (heap_program to_ascii hardcoded ext c) d])) ->
  exists gs', related (mkWPool w known (ts ++ [mkWThread n c (heap_program to_ascii hardcoded ext c) d]) (S n) tr d)
                      (mkHPool h known (map without_view ts ++ [mkHThread n c (heap_program to_ascii hardcoded ext c)]) (S n) tr) gs'.
Proof.
  intros w known ts n tr d h c gs [R1 R2 R3 R4 R5 R6 R7 R8 R9 R10] May O.
  cbn [wp_weak wp_known wp_threads wp_count wp_trace wp_ended hp_heap hp_known hp_threads hp_count hp_trace] in *.
  set (g := mkGhost (mkWThread n c (heap_program to_ascii hardcoded ext c) d) [] [] (call_uses c)).
  assert (Uses : forall f, In f (call_uses c) -> In f known /\ call_on f c).
  { destruct c as [m|f|f u]; intros f0 I1; [destruct I1| |]; destruct I1 as [<-|[]]; (split; [exact May|]); [left; reflexivity|right; eexists; reflexivity]. }
  assert (Own : forall f, call_on f c -> In f (call_uses c)) by (intros f [-> |(u & ->)]; left; reflexivity).
  assert (NC : forall x, In x gs -> ~ conflict c (gh_call x)).
  { intros x Ix. rewrite map_app in O. cbn [map wt_call] in O. unfold orderly in O. rewrite (pairs_middle _ _ _ _ []) in O.
    - destruct O as (_ & O). rewrite Forall_forall in O. apply O. rewrite app_nil_r. apply in_map_iff. exists (gh_thread x).
      split; [reflexivity|]. rewrite <- R1. apply in_map. exact Ix.
    - intros a b H C. apply H. apply conflict_sym. exact C. }
  assert (NU : forall f, In f (call_uses c) -> forall x, In x gs -> gh_call x <> CallUpdate f).
  { intros f I1 x Ix E. apply (NC x Ix). exists f. destruct (Uses f I1) as (_ & Co). split; [exact Co|]. split; [left; exact E|right; exact E]. }
  assert (G : good w known g).
  { split; cbn [g gh_made gh_reads gh_uses gh_call gh_view gh_thread wt_call wt_rest wt_view].
    - apply program_keeps.
    - intros a [[]|[]].
    - intros f I1. destruct (Uses f I1) as (If & _). destruct (o_known _ _ _ _ R5 f If) as (B1 & B2). split; [exact B1|]. split; [exact B2|].
      apply (o_ended _ _ _ _ R5); [exact If|apply NU; exact I1].
    - intros f I1 _. apply Uses. exact I1.
    - intros f C. split; [apply Own; exact C|]. apply Uses. apply Own. exact C.
    - intros _ f I1. apply Uses. exact I1.
    - intros f _ _ [].
    - apply (o_view _ _ _ _ R5). }
  exists (gs ++ [g]). split; cbn [wp_weak wp_known wp_threads wp_count wp_trace wp_ended hp_heap hp_known hp_threads hp_count hp_trace]; auto.
  + rewrite map_app, R1. reflexivity.
  + intros x I1. apply in_app_iff in I1. destruct I1 as [I1|[<-|[]]]; auto.
  + apply pairs_middle; [apply apart_sym|]. rewrite app_nil_r. split; [exact R3|]. apply Forall_forall. intros x Ix.
    assert (D : forall f, In f (call_uses c) -> call_writes c = true \/ call_writes (gh_call x) = true -> ~ In f (gh_uses x)).
    { intros f I1 Rw I2. destruct (Uses f I1) as (If & Co). pose proof (g_on _ _ _ (R2 x Ix) f I2 If) as Cx.
      apply (NC x Ix). exists f. split; [exact Co|]. split; [exact Cx|].
      destruct Rw as [Rw|Rw]; [left|right]; apply call_on_writes; assumption. }
    split; split; cbn [g gh_made gh_reads gh_uses gh_call gh_view gh_thread wt_call].
    * intros a [].
    * intros f I1. destruct (Uses f I1) as (If & Co). apply (g_apart _ _ _ (R2 x Ix)); [exact If|apply NU; assumption].
    * intros Rw f I1. apply D; auto.
    * intros a _. split; intros [].
    * intros f _ [].
    * intros Rw f I1 I2. exact (D f I2 (or_intror Rw) I1).
  + destruct R5 as [F1 F2 F3 F4]. split; auto. intros f If Nu. apply F2; [exact If|]. intros x Ix. apply Nu. apply in_app_iff. auto.
  + rewrite map_app. reflexivity.
Qed.
Lemma work_related : forall w known ts1 i c p v ts2 n tr d h tr' w' v' p' h' gs,
  related (mkWPool w known (ts1 ++ mkWThread i c p v :: ts2) n tr d)
          (mkHPool h known (map without_view (ts1 ++ mkWThread i c p v :: ts2)) n tr) gs ->
  weak_advance w v p tr' w' v' p' -> agree w' h' ->
  exists gs', related (mkWPool w' known (ts1 ++ mkWThread i c p' v' :: ts2) n (tr ++ tr') d)
                      (mkHPool h' known (map without_view (ts1 ++ mkWThread i c p' v' :: ts2)) n (tr ++ tr')) gs'.
Proof.
  intros w known ts1 i c p v ts2 n tr d h tr' w' v' p' h' gs [R1 R2 R3 R4 R5 R6 R7 R8 R9 R10] Adv Ag.
  cbn [wp_weak wp_known wp_threads wp_count wp_trace wp_ended hp_heap hp_known hp_threads hp_count hp_trace] in *.
  apply map_eq_app in R1. destruct R1 as (gs1 & gs0 & -> & E1 & E0). apply map_eq_cons in E0. destruct E0 as (g & gs2 & -> & Eg & E2).
  assert (Ig : In g (gs1 ++ g :: gs2)) by (apply in_app_iff; right; left; reflexivity).
  pose proof (R2 g Ig) as G. destruct g as [th W N X]. cbn [gh_thread] in Eg. subst th.
  set (g := mkGhost _ W N X) in *.
  assert (Cont : forall g', gh_thread g' = mkWThread i c p' v' -> moves w w' known g g' -> good w' known g' ->
      exists gs', related (mkWPool w' known (ts1 ++ mkWThread i c p' v' :: ts2) n (tr ++ tr') d)
                          (mkHPool h' known (map without_view (ts1 ++ mkWThread i c p' v' :: ts2)) n (tr ++ tr')) gs').
  { intros g' Eg' M G'. exists (gs1 ++ g' :: gs2).
      rewrite pairs_middle in R3 by apply apart_sym. destruct R3 as (R3 & R3g). rewrite Forall_forall in R3g.
      assert (Io : forall x, In x (gs1 ++ gs2) -> good w known x) by (intros x Ix; apply R2; apply in_app_iff in Ix; apply in_app_iff; destruct Ix; [left|right; right]; assumption).
      assert (O' : orderly (map wt_call (ts1 ++ mkWThread i c p' v' :: ts2))) by (rewrite map_app in *; exact R4).
      split; cbn [wp_weak wp_known wp_threads wp_count wp_trace wp_ended hp_heap hp_known hp_threads hp_count hp_trace]; auto.
      + rewrite map_app. cbn [map]. rewrite E1, E2, Eg'. reflexivity.
      + intros x Ix. apply in_app_iff in Ix. destruct Ix as [Ix|[<-|Ix]]; [|exact G'|];
          (eapply others_good; [exact M| |]; [apply Io|apply R3g]; apply in_app_iff; auto).
      + apply pairs_middle; [apply apart_sym|]. split.
        * eapply pairs_forall; [exact R3|]. intros a b Ia Ib. eapply pair_stays; [exact G|exact M|auto..].
        * apply Forall_forall. intros x Ix. eapply others_apart; [exact M|auto|auto].
      + eapply fine_stays; [exact G|exact M|exact Ig| |exact R5]. intros f Nu x Ix. apply in_app_iff in Ix.
        destruct Ix as [Ix|[<-|Ix]]; [apply Nu; apply in_app_iff; auto| |apply Nu; apply in_app_iff; right; right; exact Ix].
        rewrite <- (m_call _ _ _ _ _ M). apply Nu. apply in_app_iff. right. left. reflexivity.
      }
  destruct p as [r|R o k|R o k]; cbn [weak_advance] in Adv; [destruct Adv| |].
  + destruct Adv as (-> & -> & x & -> & ->).
    destruct (still_good w known g _ d v (k x) N G R5 (fun l => eq_refl) (fun a I1 => or_introl I1) (g_keeps _ _ _ G x)) as (M & G').
    eapply Cont; [|exact M|exact G']. reflexivity.
  + destruct Adv as (-> & x & St & ->). destruct (step_good _ _ _ _ _ _ _ _ _ _ _ _ _ _ _ _ G R5 St) as (Kn & g' & Eg' & M & G').
    eapply Cont; [exact Eg'|exact M|exact G'].
Qed.
Lemma work_knows : forall w known ts1 i c R (o : heap_op R) k v ts2 n tr d hq gs x w' v',
  related (mkWPool w known (ts1 ++ mkWThread i c (HHeap o k) v :: ts2) n tr d) hq gs -> weak_step o w v x w' v' ->
  forall l, reads o l -> knows w v l.
Proof.
  intros w known ts1 i c R o k v ts2 n tr d hq gs x w' v' [R1 R2 R3 R4 R5 R6 R7 R8 R9 R10] St. cbn [wp_weak wp_known wp_threads wp_ended] in *.
  apply map_eq_app in R1. destruct R1 as (gs1 & gs0 & -> & E1 & E0). apply map_eq_cons in E0. destruct E0 as (g & gs2 & -> & Eg & E2).
  assert (Ig : In g (gs1 ++ g :: gs2)) by (apply in_app_iff; right; left; reflexivity).
  pose proof (R2 g Ig) as G. destruct g as [th W N X]. cbn [gh_thread] in Eg. subst th.
  exact (proj1 (step_good _ _ _ _ _ _ _ _ _ _ _ _ _ _ _ _ G R5 St)).
Qed.
Lemma return_related : forall w known ts1 i c r v ts2 n tr d h gs,
  related (mkWPool w known (ts1 ++ mkWThread i c (HDone r) v :: ts2) n tr d)
          (mkHPool h known (map without_view (ts1 ++ mkWThread i c (HDone r) v :: ts2)) n tr) gs ->
  orderly (map wt_call (ts1 ++ ts2)) ->
  exists gs', related (mkWPool w (returned r ++ known) (ts1 ++ ts2) n tr (join d v))
                      (mkHPool h (returned r ++ known) (map without_view (ts1 ++ ts2)) n tr) gs'.
Proof.
  intros w known ts1 i c r v ts2 n tr d h gs [R1 R2 R3 R4 R5 R6 R7 R8 R9 R10] O.
  cbn [wp_weak wp_known wp_threads wp_count wp_trace wp_ended hp_heap hp_known hp_threads hp_count hp_trace] in *.
  apply map_eq_app in R1. destruct R1 as (gs1 & gs0 & -> & E1 & E0). apply map_eq_cons in E0. destruct E0 as (g & gs2 & -> & Eg & E2).
  assert (Ig : In g (gs1 ++ g :: gs2)) by (apply in_app_iff; right; left; reflexivity).
  pose proof (R2 g Ig) as G. rewrite pairs_middle in R3 by apply apart_sym. destruct R3 as (R3 & R3g). rewrite Forall_forall in R3g.
  assert (Io : forall x, In x (gs1 ++ gs2) -> good w known x) by (intros x Ix; apply R2; apply in_app_iff in Ix; apply in_app_iff; destruct Ix; [left|right; right]; assumption).
  pose proof (g_keeps _ _ _ G) as K. rewrite Eg in K. cbn [wt_rest keeps] in K. unfold result_own in K.
  assert (Ev : gh_view g = v) by (unfold gh_view; rewrite Eg; reflexivity).
  assert (Ec : gh_call g = c) by (unfold gh_call; rewrite Eg; reflexivity).
  exists (gs1 ++ gs2).
  split; cbn [wp_weak wp_known wp_threads wp_count wp_trace wp_ended hp_heap hp_known hp_threads hp_count hp_trace]; auto.
  + rewrite map_app. rewrite E1, E2. reflexivity.
  + intros x Ix. pose proof (R3g x Ix) as (A1 & A2). destruct (Io x Ix) as [H1 H2 H3 H4 H5 H6 H7 H8]. split; auto.
    * intros f I1 If. apply in_app_iff in If. destruct If as [If|If]; [|auto]. apply K in If.
      destruct (call_writes (gh_call g)) eqn:Rw; [destruct (h_uses _ _ _ A1 Rw f If I1)|]. apply H4; [exact I1|]. apply (g_reader _ _ _ G Rw). exact If.
    * intros f C. destruct (H5 f C). split; [assumption|]. apply in_app_iff. auto.
    * intros Rw f I1. apply in_app_iff. right. apply H6; assumption.
    * intros f If Nu. apply in_app_iff in If. destruct If as [If|If]; [|auto]. apply (h_trie _ _ _ A1). apply K. exact If.
  + pose proof (g_view _ _ _ G) as Hv. rewrite Ev in Hv. pose proof (g_exts _ _ _ G) as Hx. rewrite Ev in Hx. destruct R5 as [F1 F2 F3 F4].
    assert (Kj : forall f, knows_ext w d f \/ knows_ext w v f -> knows_ext w (join d v) f).
    { intros f [(K1 & K2 & K3)|(K1 & K2 & K3)]; (split; [|split]); [| |intros j| | |intros j]; apply knows_join; auto. }
    split; auto.
    * intros f If. apply in_app_iff in If. destruct If as [If|If]; [|auto]. destruct (Hx f (K f If)) as (B1 & B2 & _). auto.
    * intros f If Nu. apply in_app_iff in If. destruct If as [If|If]; [apply Kj; right; apply (Hx f (K f If))|].
      assert (Dec : gh_call g = CallUpdate f \/ gh_call g <> CallUpdate f).
      { rewrite Ec. destruct c as [m|f'|f' u]; [right; discriminate| |right; discriminate]. destruct (Nat.eq_dec f' f) as [->|Nf]; [left; reflexivity|right; congruence]. }
      destruct Dec as [E|E]; apply Kj.
      -- right. apply Hx. apply (g_own _ _ _ G f). left. exact E.
      -- left. apply F2; [exact If|]. intros x Ix. apply in_app_iff in Ix. destruct Ix as [Ix|[<-|Ix]]; [|exact E|]; apply Nu; apply in_app_iff; auto.
    * intros l. unfold join. specialize (F3 l). specialize (Hv l). lia.
Qed.

Lemma step_related : forall q q' hq gs, related q hq gs -> wpool_step to_ascii hardcoded ext q q' ->
  orderly (map wt_call (wp_threads q')) ->
  exists hq' gs', hpool_step to_ascii hardcoded ext hq hq' /\ related q' hq' gs'.
Proof.
  intros q q' [h hknown hts hn htr] gs Rel S O. pose proof (r_same _ _ _ Rel) as E1. pose proof (r_known _ _ _ Rel) as E2.
  pose proof (r_count _ _ _ Rel) as E3. pose proof (r_trace _ _ _ Rel) as E4.
  destruct S as [w known ts n tr d c May|w known ts1 i c p v ts2 n tr d tr' w' v' p' Adv|w known ts1 i c r v ts2 n tr d];
    cbn [wp_known wp_threads wp_count wp_trace hp_known hp_threads hp_count hp_trace] in *; subst hknown hts hn htr.
  - destruct (start_related _ _ _ _ _ _ _ _ _ Rel May O) as (gs' & Rel'). eexists. exists gs'. split; [apply hstarts; exact May|exact Rel'].
  - assert (H : exists h', heap_advance h p tr' h' p' /\ agree w' h').
    { pose proof Adv as Adv0. destruct p as [r|R o k|R o k]; cbn [weak_advance heap_advance] in *; [destruct Adv| |].
      - destruct Adv as (-> & -> & x & -> & ->). exists h. split; [split; [reflexivity|exists x; auto]|apply (r_agree _ _ _ Rel)].
      - destruct Adv as (-> & x & St & ->).
        destruct (step_agree _ _ _ _ _ _ _ _ (r_agree _ _ _ Rel) St (work_knows _ _ _ _ _ _ _ _ _ _ _ _ _ _ _ _ _ _ Rel St)
                    (fun a i L => proj2 (o_fresh _ _ _ _ (r_fine _ _ _ Rel) a i L))) as (h' & Hs & Ag).
        exists h'. split; [split; [reflexivity|exists x; auto]|exact Ag]. }
    destruct H as (h' & Ha & Ag). destruct (work_related _ _ _ _ _ _ _ _ _ _ _ _ _ _ _ _ _ _ Rel Adv Ag) as (gs' & Rel').
    rewrite map_app in Rel'. eexists. exists gs'. split; [rewrite map_app; apply hworks; exact Ha|exact Rel'].
  - destruct (return_related _ _ _ _ _ _ _ _ _ _ _ _ _ Rel O) as (gs' & Rel'). rewrite map_app in Rel'.
    eexists. exists gs'. split; [rewrite map_app; apply hreturns|exact Rel'].
Qed.

(** The other way round: reading the latest values is allowed. *)
Definition full (w : weak) : view := fun l => c_last (w_cell w l).
Lemma read_latest : forall w v l, v l <= c_last (w_cell w l) -> weak_read w v l (latest (w_cell w l)) (put_at v l (c_last (w_cell w l))).
Proof. intros w v l L. exists (c_last (w_cell w l)). auto. Qed.
Lemma step_back : forall R (o : heap_op R) h x h' w, heap_step o h x h' -> agree w h ->
  exists w', forall v, (forall l, v l <= c_last (w_cell w l)) -> exists v', weak_step o w v x w' v'.
Proof.
  intros R o h x h' w S [H1 H2 H3 H4 H5].
  destruct o as [R a o| |y|f|f path|f a]; cbn [weak_step heap_step] in *.
  - destruct S as (g' & S & ->). destruct o as [|j key|j key n|j|j|j|j]; cbn [weak_on region_step] in *; eexists; intros v L.
    + destruct S as (-> & ->). eexists. split; [symmetry; apply H2|]. split; reflexivity.
    + destruct S as (-> & ->). eexists. eexists. split; [apply read_latest; apply L|]. rewrite H1. split; reflexivity.
    + eexists. eexists. eexists. split; [apply read_latest; apply L|]. split; reflexivity.
    + destruct S as (P & ->). eexists. eexists. split; [apply read_latest; apply L|]. rewrite H1. split; [exact P|reflexivity].
    + destruct S as (-> & ->). eexists. eexists. split; [apply read_latest; apply L|]. rewrite H1. split; reflexivity.
    + destruct S as (-> & ->). eexists. eexists. split; [apply read_latest; apply L|]. rewrite H1. split; reflexivity.
    + eexists. eexists. eexists. split; [apply read_latest; apply L|]. split; reflexivity.
  - destruct S as (-> & ->). eexists. intros v L. eexists. split; [symmetry; exact H3|]. split; reflexivity.
  - destruct S as (-> & ->). eexists. intros v L. eexists. split; [symmetry; exact H5|]. split; reflexivity.
  - destruct S as (-> & ->). exists w. intros v L. eexists. eexists. eexists. eexists. split; [apply read_latest; apply L|].
    split; [apply read_latest; rewrite put_other by discriminate; apply L|]. split; [symmetry; apply H4|reflexivity].
  - eexists. intros v L. eexists. split; reflexivity.
  - eexists. intros v L. eexists. split; reflexivity.
Qed.
Lemma heap_step_one : forall R (o : heap_op R) h x h1 h2, heap_step o h x h1 -> heap_step o h x h2 -> h1 = h2.
Proof.
  intros R o h x h1 h2 S1 S2. destruct o as [R a o| |y|f|f path|f a]; cbn [heap_step] in *.
  - destruct S1 as (g1 & S1 & ->). destruct S2 as (g2 & S2 & ->). f_equal.
    destruct o; cbn [region_step] in *; try (destruct S1 as (_ & ->); destruct S2 as (_ & ->); reflexivity); congruence.
  - destruct S1 as (_ & ->). destruct S2 as (_ & ->). reflexivity.
  - destruct S1 as (_ & ->). destruct S2 as (_ & ->). reflexivity.
  - destruct S1 as (_ & ->). destruct S2 as (_ & ->). reflexivity.
  - congruence.
  - congruence.
Qed.
Lemma step_unrelated : forall q hq hq' gs, related q hq gs -> hpool_step to_ascii hardcoded ext hq hq' ->
  orderly (map ht_call (hp_threads hq')) ->
  exists q' gs', wpool_step to_ascii hardcoded ext q q' /\ related q' hq' gs'.
Proof.
  intros [w known ts n tr d] hq hq' gs Rel S O. pose proof (r_same _ _ _ Rel) as E1. pose proof (r_known _ _ _ Rel) as E2.
  pose proof (r_count _ _ _ Rel) as E3. pose proof (r_trace _ _ _ Rel) as E4.
  destruct S as [h hknown hts hn htr c May|h hknown hts1 i c p hts2 hn htr tr' h' p' Adv|h hknown hts1 i c r hts2 hn htr];
    cbn [wp_known wp_threads wp_count wp_trace hp_known hp_threads hp_count hp_trace] in *; subst hknown hn htr.
  - subst hts.
    destruct (start_related _ _ _ _ _ _ _ _ _ Rel May) as (gs' & Rel').
    { rewrite map_app in *. rewrite calls_same in O. exact O. }
    eexists. exists gs'. split; [apply wstarts; exact May|exact Rel'].
  - apply map_eq_app in E1. destruct E1 as (ts1 & ts0 & -> & <- & E0). apply map_eq_cons in E0. destruct E0 as (th & ts2 & -> & Et & <-).
    destruct th as [i' c' p0 v]. cbn [without_view wt_number wt_call wt_rest] in Et. injection Et as -> -> ->.
    assert (H : exists w' v', weak_advance w v p tr' w' v' p' /\ agree w' h').
    { destruct p as [r|R o k|R o k]; cbn [weak_advance heap_advance] in *; [destruct Adv| |].
      - destruct Adv as (-> & x & -> & ->). exists w, v. split; [split; [reflexivity|split; [reflexivity|exists x; auto]]|apply (r_agree _ _ _ Rel)].
      - destruct Adv as (-> & x & St & ->). destruct (step_back _ _ _ _ _ _ St (r_agree _ _ _ Rel)) as (w' & B).
        destruct (B (full w) (fun l => le_n _)) as (v1 & St1).
        destruct (step_agree _ _ _ _ _ _ _ _ (r_agree _ _ _ Rel) St1 (fun l _ => eq_refl)
                    (fun a i L => proj2 (o_fresh _ _ _ _ (r_fine _ _ _ Rel) a i L))) as (h1 & St2 & Ag).
        rewrite (heap_step_one _ _ _ _ _ _ St2 St) in Ag. destruct (B v) as (v' & St').
        { pose proof (r_threads _ _ _ Rel) as Rt. cbn [wp_threads] in Rt.
          apply map_eq_app in Rt. destruct Rt as (gs1 & gs0 & -> & Eg1 & Eg0). apply map_eq_cons in Eg0. destruct Eg0 as (g & gs2 & -> & Eg & Eg2).
          assert (Ig : In g (gs1 ++ g :: gs2)) by (apply in_app_iff; right; left; reflexivity).
          pose proof (g_view _ _ _ (r_good _ _ _ Rel g Ig)) as Hv. unfold gh_view in Hv. rewrite Eg in Hv. exact Hv. }
        exists w', v'. split; [split; [reflexivity|exists x; auto]|exact Ag]. }
    destruct H as (w' & v' & Ha & Ag).
    assert (Rel0 : related (mkWPool w known (ts1 ++ mkWThread i c p v :: ts2) n tr d)
                    (mkHPool h known (map without_view (ts1 ++ mkWThread i c p v :: ts2)) n tr) gs) by (rewrite map_app; exact Rel).
    destruct (work_related _ _ _ _ _ _ _ _ _ _ _ _ _ _ _ _ _ _ Rel0 Ha Ag) as (gs' & Rel').
    rewrite map_app in Rel'. eexists. exists gs'. split; [apply wworks; exact Ha|exact Rel'].
  - apply map_eq_app in E1. destruct E1 as (ts1 & ts0 & -> & <- & E0). apply map_eq_cons in E0. destruct E0 as (th & ts2 & -> & Et & <-).
    destruct th as [i' c' p0 v]. cbn [without_view wt_number wt_call wt_rest] in Et. injection Et as -> -> ->.
    assert (Rel0 : related (mkWPool w known (ts1 ++ mkWThread i c (HDone r) v :: ts2) n tr d)
                    (mkHPool h known (map without_view (ts1 ++ mkWThread i c (HDone r) v :: ts2)) n tr) gs) by (rewrite map_app; exact Rel).
    destruct (return_related _ _ _ _ _ _ _ _ _ _ _ _ _ Rel0) as (gs' & Rel').
    { rewrite <- map_app, calls_same in O. exact O. }
    rewrite map_app in Rel'. eexists. exists gs'. split; [apply wreturns|exact Rel'].
Qed.

Lemma first_related : related first_wpool first_hpool [].
Proof.
  split; cbn [first_wpool first_hpool wp_weak wp_known wp_threads wp_count wp_trace wp_ended hp_heap hp_known hp_threads hp_count hp_trace]; auto.
  - intros g [].
  - constructor.
  - constructor.
  - split; auto; intros f [].
  - split; auto.
Qed.
Lemma orderly_hsteps_steps : forall q1 q2, orderly_hsteps to_ascii hardcoded ext q1 q2 -> hpool_steps to_ascii hardcoded ext q1 q2.
Proof. intros q1 q2 H. induction H as [q|q1 q2 q3 H IH S O]; [constructor|]. eapply hsteps_more; eassumption. Qed.
Lemma related_steps : forall q1 q2, orderly_steps to_ascii hardcoded ext q1 q2 -> forall hq1 gs1, related q1 hq1 gs1 ->
  exists hq2 gs2, orderly_hsteps to_ascii hardcoded ext hq1 hq2 /\ related q2 hq2 gs2.
Proof.
  intros q1 q2 H. induction H as [q|q1 q2 q3 H IH S O]; intros hq1 gs1 Rel1.
  - exists hq1, gs1. split; [constructor|exact Rel1].
  - destruct (IH _ _ Rel1) as (hq & gs & Hs & Rel). destruct (step_related _ _ _ _ Rel S O) as (hq' & gs' & S' & Rel').
    exists hq', gs'. split; [|exact Rel']. eapply orderly_hmore; [exact Hs|exact S'|]. rewrite <- (r_same _ _ _ Rel'), calls_same. exact O.
Qed.
Lemma unrelated_steps : forall hq1 hq2, orderly_hsteps to_ascii hardcoded ext hq1 hq2 -> forall q1 gs1, related q1 hq1 gs1 ->
  exists q2 gs2, orderly_steps to_ascii hardcoded ext q1 q2 /\ related q2 hq2 gs2.
Proof.
  intros q1 q2 H. induction H as [q|q1 q2 q3 H IH S O]; intros hq1 gs1 Rel1.
  - exists hq1, gs1. split; [constructor|exact Rel1].
  - destruct (IH _ _ Rel1) as (hq & gs & Hs & Rel). destruct (step_unrelated _ _ _ _ Rel S O) as (hq' & gs' & S' & Rel').
    exists hq', gs'. split; [|exact Rel']. eapply orderly_more; [exact Hs|exact S'|]. rewrite <- calls_same, (r_same _ _ _ Rel'). exact O.
Qed.
Lemma c101_refines : forall q1 q2, orderly_steps to_ascii hardcoded ext first_wpool q1 -> orderly_steps to_ascii hardcoded ext q1 q2 ->
  exists hq1 hq2, orderly_hsteps to_ascii hardcoded ext first_hpool hq1 /\ orderly_hsteps to_ascii hardcoded ext hq1 hq2
    /\ same_state q1 hq1 /\ same_state q2 hq2.
Proof.
  intros q1 q2 H1 H2. destruct (related_steps _ _ H1 _ _ first_related) as (hq1 & gs1 & S1 & Rel1).
  destruct (related_steps _ _ H2 _ _ Rel1) as (hq2 & gs2 & S2 & Rel2). exists hq1, hq2. eauto 6 using related_same.
Qed.
Lemma c101_complete : forall hq1 hq2, orderly_hsteps to_ascii hardcoded ext first_hpool hq1 -> orderly_hsteps to_ascii hardcoded ext hq1 hq2 ->
  exists q1 q2, orderly_steps to_ascii hardcoded ext first_wpool q1 /\ orderly_steps to_ascii hardcoded ext q1 q2
    /\ same_state q1 hq1 /\ same_state q2 hq2.
Proof.
  intros q1 q2 H1 H2. destruct (unrelated_steps _ _ H1 _ _ first_related) as (hq1 & gs1 & S1 & Rel1).
  destruct (unrelated_steps _ _ H2 _ _ Rel1) as (hq2 & gs2 & S2 & Rel2). exists hq1, hq2. eauto 6 using related_same.
Qed.
Lemma c101_extract : forall w known ts n tr d f p q3 o v,
  orderly_steps to_ascii hardcoded ext first_wpool (mkWPool w known ts n tr d) -> In f known ->
  let q2 := mkWPool w known (ts ++ [mkWThread n (CallExtract f p) (heap_program to_ascii hardcoded ext (CallExtract f p)) d]) (S n) tr d in
  orderly (map wt_call (wp_threads q2)) ->
  orderly_steps to_ascii hardcoded ext q2 q3 -> In (mkWThread n (CallExtract f p) (HDone o) v) (wp_threads q3) ->
  exists text rules t r, (text = hardcoded \/ exists path, was_read (wp_trace q3) path text)
    /\ used_rules to_ascii text (w_private w f) rules /\ build_trie rules = Ret t
    /\ extract ext t p = Ret r /\ o = Ret (FromExtract r).
Proof.
  intros w known ts n tr d f p q3 o v H1 If q2 O2 H2 I3. destruct (related_steps _ _ H1 _ _ first_related) as ([h hk hts hn htr] & gs1 & S1 & Rel1).
  pose proof (r_same _ _ _ Rel1) as E1. pose proof (r_known _ _ _ Rel1) as E2.
  pose proof (r_count _ _ _ Rel1) as E3. pose proof (r_trace _ _ _ Rel1) as E4. pose proof (a_ext _ _ (r_agree _ _ _ Rel1) f) as Ex.
  cbn [wp_weak wp_known wp_threads wp_count wp_trace hp_heap hp_known hp_threads hp_count hp_trace] in *. subst hk hts hn htr.
  destruct (start_related _ _ _ _ _ _ _ (CallExtract f p) _ Rel1 If O2) as (gs2 & Rel2).
  destruct (related_steps _ _ H2 _ _ Rel2) as (hq3 & gs3 & S3 & Rel3).
  destruct (c95_extract to_ascii hardcoded ext h known (map without_view ts) n tr f p hq3 o) as (text & rules & t & r & X1 & X2 & X3).
  - apply orderly_hsteps_steps. exact S1.
  - exact If.
  - apply orderly_hsteps_steps. exact S3.
  - rewrite <- (r_same _ _ _ Rel3). apply in_map_iff. exists (mkWThread n (CallExtract f p) (HDone o) v). split; [reflexivity|exact I3].
  - exists text, rules, t, r. rewrite <- (r_trace _ _ _ Rel3) in X1. rewrite <- Ex in X2. auto.
Qed.
Lemma good_reads : forall R (o : heap_op R) k w i c v W N X known,
  good w known (mkGhost (mkWThread i c (HHeap o k) v) W N X) -> forall l, reads o l -> knows w v l.
Proof.
  intros R o k w i c v W N X known G l L. pose proof (g_keeps _ _ _ G) as K. pose proof (g_nodes _ _ _ G) as Hn. pose proof (g_exts _ _ _ G) as Hx.
  cbn [gh_call gh_thread wt_call wt_rest gh_made gh_reads gh_uses gh_view wt_view] in *.
  destruct o as [R a o| |y|f|f path|f a]; cbn [keeps reads] in *; try contradiction.
  - destruct K as (Ha & _). assert (Ka : forall j, knows w v (NodeAt a j)) by (intros j; apply Hn; intuition auto).
    destruct o; try contradiction; subst l; apply Ka.
  - destruct K as (If & _). destruct (Hx f If) as (_ & _ & K1 & K2 & _). destruct L as [-> | ->]; assumption.
Qed.
Lemma c101_latest : forall q ts1 i c R (o : heap_op R) k v ts2 l x v', orderly_steps to_ascii hardcoded ext first_wpool q ->
  wp_threads q = ts1 ++ mkWThread i c (HHeap o k) v :: ts2 -> reads o l -> weak_read (wp_weak q) v l x v' ->
  x = latest (w_cell (wp_weak q) l).
Proof.
  intros q ts1 i c R o k v ts2 l x v' H E L Rd. destruct (related_steps _ _ H _ _ first_related) as (hq & gs & _ & Rel).
  pose proof (r_threads _ _ _ Rel) as Rt. rewrite E in Rt.
  apply map_eq_app in Rt. destruct Rt as (gs1 & gs0 & -> & Eg1 & Eg0). apply map_eq_cons in Eg0. destruct Eg0 as (g & gs2 & -> & Eg & Eg2).
  assert (Ig : In g (gs1 ++ g :: gs2)) by (apply in_app_iff; right; left; reflexivity).
  pose proof (r_good _ _ _ Rel g Ig) as G. destruct g as [th W N X]. cbn [gh_thread] in Eg. subst th.
  apply (read_known _ _ _ _ _ Rd). exact (good_reads _ _ _ _ _ _ _ _ _ _ _ G l L).
Qed.
End Executions.
