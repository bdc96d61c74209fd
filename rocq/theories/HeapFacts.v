(** HeapFacts.v - what nestedDict and the marking of wildcards do to the nodes of a trie. *)

From Verif Require Import Base BaseFacts Chars Str Net Trie Extract RuleSpec TrieFacts World Update Calls Heap HeapSpec.
From Coq Require Import ZifyBool ZifyNat ZifyN Permutation.

(** ** Maps *)
Lemma hget_put : forall m k v k', hget (hput m k v) k' = if bytes_eqb k k' then Some v else hget m k'.
Proof.
  induction m as [|[k0 w] m IH]; intros k v k'; cbn [hput hget]; [reflexivity|].
  destruct (bytes_eqb k0 k) eqn:E.
  - apply bytes_eqb_eq in E. subst k0. cbn [hget]. destruct (bytes_eqb k k'); reflexivity.
  - cbn [hget]. rewrite IH. destruct (bytes_eqb k0 k') eqn:E'; [|reflexivity]. apply bytes_eqb_eq in E'. subst k'.
    rewrite eqb_sym. rewrite E. reflexivity.
Qed.
Lemma hput_keys : forall m k v x, In x (map fst (hput m k v)) <-> x = k \/ In x (map fst m).
Proof.
  induction m as [|[k0 w] m IH]; intros k v x; cbn [hput map fst In]; [intuition|].
  destruct (bytes_eqb k0 k) eqn:E; cbn [map fst In].
  - apply bytes_eqb_eq in E. subst k0. intuition.
  - rewrite IH. intuition.
Qed.
Lemma hput_nodup : forall m k v, NoDup (map fst m) -> NoDup (map fst (hput m k v)).
Proof.
  induction m as [|[k0 w] m IH]; intros k v H; cbn [hput map fst]; [constructor; [intros []|constructor]|].
  inversion H as [|? ? H1 H2]; subst. destruct (bytes_eqb k0 k) eqn:E; cbn [map fst]; constructor; auto.
  intros X. apply hput_keys in X as [->|X]; [|contradiction].
  assert (bytes_eqb k k = true) by (apply bytes_eqb_eq; reflexivity). congruence.
Qed.
Lemma hget_in : forall m k v, NoDup (map fst m) -> In (k, v) m -> hget m k = Some v.
Proof.
  induction m as [|[k0 w] m IH]; intros k v D X; [destruct X|]. cbn [hget]. inversion D as [|? ? D1 D2]; subst.
  destruct X as [X|X].
  - injection X as -> ->. rewrite (proj2 (bytes_eqb_eq k k) eq_refl). reflexivity.
  - destruct (bytes_eqb k0 k) eqn:E; [|auto]. apply bytes_eqb_eq in E. subst k0. exfalso. apply D1.
    exact (in_map fst _ _ X).
Qed.
Lemma hget_some : forall m k v, hget m k = Some v -> In (k, v) m.
Proof.
  induction m as [|[k0 w] m IH]; intros k v H; cbn [hget] in H; [discriminate|].
  destruct (bytes_eqb k0 k) eqn:E; [|right; auto]. apply bytes_eqb_eq in E. subst k0. injection H as ->. left. reflexivity.
Qed.
Lemma hget_empty : forall m, m = [] <-> forall k, hget m k = None.
Proof.
  intros [|[k v] m]; split; intros H; auto; [discriminate H|]. specialize (H k). cbn [hget] in H.
  rewrite (proj2 (bytes_eqb_eq k k) eq_refl) in H. discriminate H.
Qed.
Lemma get_empty : forall m, m = [] <-> forall k, get m k = None.
Proof.
  intros [|[k v] m]; split; intros H; auto; [discriminate H|]. specialize (H k). cbn [get] in H.
  rewrite (proj2 (bytes_eqb_eq k k) eq_refl) in H. discriminate H.
Qed.

(** ** Paths *)
Lemma reach_app : forall g p i q, reach g i (p ++ q) = match reach g i p with Some j => reach g j q | None => None end.
Proof.
  intros g. induction p as [|k p IH]; intros i q; cbn [app reach]; [reflexivity|].
  destruct (hget _ k); [apply IH|reflexivity].
Qed.
Lemma reach_snoc : forall g i p k, reach g i (p ++ [k]) =
  match reach g i p with Some j => hget (n_matches (g_node g j)) k | None => None end.
Proof.
  intros g i p k. rewrite reach_app. destruct (reach g i p) as [j|]; [|reflexivity]. cbn [reach].
  destruct (hget _ k); reflexivity.
Qed.
Lemma node_descend : forall path t, node_at t path = descend t path.
Proof. induction path as [|k path IH]; intros t; cbn [node_at descend]; [reflexivity|]. destruct (child t k); auto. Qed.

(** Nodes that make up a tree with paths [H] and end marks [M]. *)
Record rep (g : region) (H M : list bytes -> bool) : Prop := {
  rep_has : forall p, (match reach g 0 p with Some _ => true | None => false end) = H p;
  rep_end : forall p i, reach g 0 p = Some i -> n_end (g_node g i) = M p;
  rep_tree : forall p q i, reach g 0 p = Some i -> reach g 0 q = Some i -> p = q;
  rep_old : forall p i, reach g 0 p = Some i -> i < g_count g;
  rep_keys : forall p i, reach g 0 p = Some i -> NoDup (map fst (n_matches (g_node g i))) }.
Definition rept (g : region) (t : trie) : Prop := rep g (has t) (marked t).
Lemma rep_ext : forall g H M H' M', rep g H M -> (forall p, H p = H' p) -> (forall p, H p = true -> M p = M' p) -> rep g H' M'.
Proof.
  intros g H M H' M' [A B C D E] X Y. split; auto.
  - intros p. rewrite <- X. auto.
  - intros p i R. rewrite <- Y; auto. rewrite <- A, R. reflexivity.
Qed.
Lemma rept_holds : forall g t, rept g t -> holds g t.
Proof.
  intros g t [A B C D E]. split; auto.
  - intros p. specialize (A p). rewrite node_descend. unfold has in A. destruct (reach g 0 p), (descend t p); split; congruence.
  - intros p i n R N. rewrite (B p i R). unfold marked. rewrite <- node_descend, N. reflexivity.
Qed.
Lemma rept_new : rept new_region empty_trie.
Proof.
  assert (R : forall p i, reach new_region 0 p = Some i -> p = [] /\ i = 0).
  { intros [|k p] i H; cbn in H; [|discriminate]. injection H as <-. auto. }
  split.
  - intros [|k p]; [reflexivity|]. rewrite has_empty by discriminate. reflexivity.
  - intros p i H. destruct (R p i H) as (-> & ->). reflexivity.
  - intros p q i H H'. destruct (R p i H) as (-> & _). destruct (R q i H') as (-> & _). reflexivity.
  - intros p i H. destruct (R p i H) as (-> & ->). cbn. lia.
  - intros p i H. destruct (R p i H) as (-> & ->). constructor.
Qed.
Lemma rept_read : forall g t path, rept g t ->
  option_map (fun i => (n_end (g_node g i), match n_matches (g_node g i) with [] => false | _ => true end)) (reach g 0 path)
  = option_map node_info (node_at t path).
Proof.
  intros g t path [A B C D E]. rewrite node_descend. pose proof (A path) as Ap. unfold has in Ap.
  destruct (reach g 0 path) as [i|] eqn:R, (descend t path) as [n|] eqn:N; try discriminate Ap; [|reflexivity].
  cbn [option_map]. unfold node_info. rewrite (B _ _ R). unfold marked. rewrite N. f_equal. f_equal.
  assert (K : forall k, hget (n_matches (g_node g i)) k = None <-> get (matches_of n) k = None).
  { intros k. specialize (A (path ++ [k])). rewrite reach_snoc, R in A. unfold has in A.
    rewrite (descend_snoc _ _ _ _ N) in A. change (get (matches_of n) k) with (child n k).
    destruct (hget _ k), (child n k); split; congruence. }
  assert (Em : n_matches (g_node g i) = [] <-> matches_of n = []).
  { split; intros X.
    - apply get_empty. intros k. apply K. revert k. apply hget_empty. exact X.
    - apply hget_empty. intros k. apply K. revert k. apply get_empty. exact X. }
  destruct (n_matches (g_node g i)), (matches_of n); try reflexivity; exfalso.
  - destruct Em as [Em _]. discriminate (Em eq_refl).
  - destruct Em as [_ Em]. discriminate (Em eq_refl).
Qed.

(** ** Changes *)
Lemma upd_same : forall A (f : nat -> A) a v, upd f a v a = v.
Proof. intros. unfold upd. rewrite Nat.eqb_refl. reflexivity. Qed.
Lemma upd_other : forall A (f : nat -> A) a v b, b <> a -> upd f a v b = f b.
Proof. intros. unfold upd. destruct (Nat.eqb_spec b a); [contradiction|reflexivity]. Qed.

(** A change that keeps all maps keeps the paths. *)
Lemma reach_same : forall g g' p i, (forall i, n_matches (g_node g' i) = n_matches (g_node g i)) -> reach g' i p = reach g i p.
Proof.
  intros g g' p. induction p as [|k p IH]; intros i X; cbn [reach]; [reflexivity|]. rewrite X.
  destruct (hget _ k); auto.
Qed.

Definition keeps (g g' : region) : Prop := forall p i, reach g 0 p = Some i -> reach g' 0 p = Some i.

Lemma end_step : forall g H M done i, rep g H M -> reach g 0 done = Some i ->
  let g' := set_node g i (mkNode true (n_matches (g_node g i))) in
  keeps g g' /\ rep g' H (fun p => M p || same_path p done).
Proof.
  intros g H M done i [A B C D E] R g'.
  assert (X : forall j, n_matches (g_node g' j) = n_matches (g_node g j)).
  { intros j. unfold g', set_node. cbn [g_node]. unfold upd. destruct (Nat.eqb_spec j i) as [->|]; reflexivity. }
  assert (Y : forall p, reach g' 0 p = reach g 0 p) by (intros p; apply reach_same; exact X).
  split; [intros p j; rewrite Y; auto|]. split; intros p; rewrite ?Y; auto.
  - intros j Rj. unfold g', set_node. cbn [g_node]. destruct (Nat.eq_dec j i) as [->|N].
    + rewrite upd_same. cbn [n_end]. symmetry. rewrite (C p done i Rj R). rewrite (proj2 (same_path_iff done done) eq_refl).
      apply orb_true_r.
    + rewrite upd_other by exact N. rewrite (B p j Rj). destruct (same_path p done) eqn:S; [|rewrite orb_false_r; reflexivity].
      apply same_path_iff in S. subst p. congruence.
  - intros q j R1 R2. rewrite Y in R2. eauto.
  - exact (D p).
  - intros j. rewrite X. apply E.
Qed.

Lemma new_step : forall g H M, rep g H M ->
  let g' := mkRegion (upd (g_node g) (g_count g) (mkNode false [])) (S (g_count g)) in
  (forall p, reach g' 0 p = reach g 0 p) /\ rep g' H M.
Proof.
  intros g H M [A B C D E] g'.
  assert (Same : forall p i, reach g 0 p = Some i -> g_node g' i = g_node g i).
  { intros p i R. unfold g'. cbn [g_node]. apply upd_other. specialize (D p i R). lia. }
  assert (Y : forall p, reach g' 0 p = reach g 0 p).
  { intros p. induction p as [|k p IH] using rev_ind; [reflexivity|]. rewrite !reach_snoc, IH.
    destruct (reach g 0 p) as [i|] eqn:R; [|reflexivity]. rewrite (Same p i R). reflexivity. }
  split; [exact Y|]. split; intros p; rewrite ?Y; auto.
  - intros i R. rewrite (Same p i R). auto.
  - intros q j R1 R2. rewrite Y in R2. eauto.
  - intros i R. specialize (D p i R). unfold g'. cbn. lia.
  - intros i R. rewrite (Same p i R). eauto.
Qed.

Lemma snoc_path : forall (p q : list bytes) k l, p ++ [k] = q ++ [l] -> p = q /\ k = l.
Proof. intros p q k l E. apply app_inj_tail in E. exact E. Qed.

(** The new node [j] is stored below [done]. *)
Lemma put_step : forall g H M done i k j, rep g H M -> reach g 0 done = Some i -> hget (n_matches (g_node g i)) k = None ->
  (forall p, reach g 0 p <> Some j) -> n_end (g_node g j) = false -> n_matches (g_node g j) = [] -> j < g_count g -> M (done ++ [k]) = false ->
  let g' := set_node g i (mkNode (n_end (g_node g i)) (hput (n_matches (g_node g i)) k j)) in
  keeps g g' /\ rep g' (fun p => H p || same_path p (done ++ [k])) M /\ hget (n_matches (g_node g' i)) k = Some j.
Proof.
  intros g H M done i k j [A B C D E] R G Fresh Je Jm Jc Mk g'.
  assert (Hj : j <> i) by (intros ->; exact (Fresh done R)).
  assert (Nj : g_node g' j = g_node g j) by (unfold g', set_node; cbn [g_node]; apply upd_other; exact Hj).
  assert (Ni : n_matches (g_node g' i) = hput (n_matches (g_node g i)) k j) by (unfold g', set_node; cbn [g_node]; rewrite upd_same; reflexivity).
  assert (Ne : forall x, n_end (g_node g' x) = n_end (g_node g x)).
  { intros x. unfold g', set_node. cbn [g_node]. unfold upd. destruct (Nat.eqb_spec x i) as [->|]; reflexivity. }
  assert (Nx : forall x, x <> i -> g_node g' x = g_node g x) by (intros x X; unfold g', set_node; cbn [g_node]; apply upd_other; exact X).
  assert (Rn : reach g 0 (done ++ [k]) = None) by (rewrite reach_snoc, R; exact G).
  assert (Y : forall p, reach g' 0 p = if same_path p (done ++ [k]) then Some j else reach g 0 p).
  { intros p. induction p as [|x p IH] using rev_ind.
    - destruct (same_path [] (done ++ [k])) eqn:S; [|reflexivity]. apply same_path_iff in S. destruct done; discriminate S.
    - rewrite !reach_snoc, IH. destruct (same_path p (done ++ [k])) eqn:S.
      + apply same_path_iff in S. subst p. rewrite Nj, Jm, Rn. cbn [hget].
        destruct (same_path _ _) eqn:S'; [|reflexivity]. apply same_path_iff in S'. apply (f_equal (@length bytes)) in S'.
        rewrite !app_length in S'. cbn [length] in S'. lia.
      + destruct (reach g 0 p) as [i'|] eqn:R'.
        * destruct (Nat.eq_dec i' i) as [->|N].
          { rewrite Ni, hget_put. rewrite (C _ _ _ R' R). destruct (bytes_eqb k x) eqn:Ek.
            - apply bytes_eqb_eq in Ek. subst x. rewrite (proj2 (same_path_iff _ _) eq_refl). reflexivity.
            - destruct (same_path (done ++ [x]) (done ++ [k])) eqn:S'; [|reflexivity]. apply same_path_iff in S'.
              apply snoc_path in S' as (_ & ->). rewrite (proj2 (bytes_eqb_eq x x) eq_refl) in Ek. discriminate Ek. }
          { rewrite Nx by exact N. destruct (same_path (p ++ [x]) (done ++ [k])) eqn:S'; [|reflexivity].
            apply same_path_iff in S'. apply snoc_path in S' as (<- & _). congruence. }
        * destruct (same_path (p ++ [x]) (done ++ [k])) eqn:S'; [|reflexivity].
          apply same_path_iff in S'. apply snoc_path in S' as (<- & _). congruence. }
  assert (Z : forall p x, reach g' 0 p = Some x -> (p = done ++ [k] /\ x = j) \/ (reach g 0 p = Some x /\ p <> done ++ [k])).
  { intros p x X. rewrite Y in X. destruct (same_path p (done ++ [k])) eqn:S.
    - apply same_path_iff in S. injection X as <-. auto.
    - right. split; [exact X|]. intros ->. rewrite Rn in X. discriminate X. }
  split; [|split; [split|]].
  - intros p x X. rewrite Y. destruct (same_path p (done ++ [k])) eqn:S; [|exact X]. apply same_path_iff in S. subst p. congruence.
  - intros p. rewrite Y, <- A. destruct (same_path p (done ++ [k])); [rewrite orb_true_r; reflexivity|rewrite orb_false_r; reflexivity].
  - intros p x X. rewrite Ne. destruct (Z p x X) as [(-> & ->)|(X' & _)]; [rewrite Mk; exact Je|auto].
  - intros p q x X1 X2. destruct (Z p x X1) as [(-> & ->)|(X1' & _)], (Z q _ X2) as [(-> & E2)|(X2' & _)]; auto.
    + destruct (Fresh _ X2').
    + subst x. destruct (Fresh _ X1').
    + eauto.
  - intros p x X. unfold g'. cbn [set_node g_count]. destruct (Z p x X) as [(-> & ->)|(X' & _)]; eauto.
  - intros p x X. destruct (Z p x X) as [(-> & ->)|(X' & _)].
    + rewrite Nj, Jm. constructor.
    + destruct (Nat.eq_dec x i) as [->|N]; [rewrite Ni; apply hput_nodup; eauto|rewrite Nx by exact N; eauto].
  - rewrite Ni, hget_put. rewrite (proj2 (bytes_eqb_eq k k) eq_refl). reflexivity.
Qed.

(** ** Programs that change one trie *)

(** Whatever the answers, the program uses only trie [a], keeps the paths and makes the trie [t]. *)
Fixpoint goes (a : nat) (t : trie) (p : hprog unit) (g : region) : Prop :=
  match p with
  | HDone (Ret _) => rept g t
  | HDone _ => False
  | HSys _ _ => False
  | @HHeap _ R o k =>
    match o in heap_op R return (R -> region -> Prop) -> Prop with
    | On b o => fun K => b = a /\ forall x g', region_step o g x g' -> keeps g g' /\ K x g'
    | _ => fun _ => False
    end (fun x g => goes a t (k x) g)
  end.
Lemma keeps_refl : forall g, keeps g g.
Proof. intros g p i H. exact H. Qed.

Lemma begins_snoc : forall p done k, begins p (done ++ [k]) = begins p done || same_path p (done ++ [k]).
Proof.
  intros p done k. apply eq_true_iff_eq. rewrite orb_true_iff, !begins_iff, same_path_iff. split.
  - intros (rest & E). destruct rest as [|r rest] using rev_ind; [right; rewrite app_nil_r in E; exact E|].
    left. rewrite app_assoc in E. apply snoc_path in E as (E & _). eauto.
  - intros [(rest & ->)|<-]; [exists (rest ++ [k]); rewrite app_assoc; reflexivity|exists []; rewrite app_nil_r; reflexivity].
Qed.

Lemma marked_has : forall t p, has t p = false -> marked t p = false.
Proof. intros t p. unfold has, marked. destruct (descend t p); [discriminate|reflexivity]. Qed.

Lemma nested_goes : forall a t keys done i g,
  rep g (fun p => has t p || begins p done) (marked t) -> reach g 0 done = Some i ->
  goes a (nested_dict t (done ++ keys)) (nested_heap a i keys) g.
Proof.
  intros a t. induction keys as [|k keys IH]; intros done i g G R.
  - cbn [nested_heap on goes hret region_step]. split; [reflexivity|]. intros x g' ->.
    destruct (end_step g _ _ done i G R) as (K & G'). split; [exact K|]. rewrite app_nil_r.
    eapply rep_ext; [exact G'| |]; intros p; cbn beta; [symmetry; apply has_nested|]. intros _. symmetry. apply marked_nested.
  - assert (Last : forall g j, rep g (fun p => has t p || begins p (done ++ [k])) (marked t) ->
      reach g 0 (done ++ [k]) = Some j -> goes a (nested_dict t (done ++ k :: keys)) (nested_heap a j keys) g).
    { intros g0 j G0 R0. specialize (IH (done ++ [k]) j g0 G0 R0). rewrite <- app_assoc in IH. exact IH. }
    cbn [nested_heap on hbind hret goes region_step]. split; [reflexivity|]. intros x g' (-> & ->). split; [apply keeps_refl|].
    destruct (hget (n_matches (g_node g i)) k) as [j|] eqn:E; cbn [hbind hret on goes region_step].
    + split; [reflexivity|]. intros x g' (-> & ->). split; [apply keeps_refl|]. rewrite E. apply Last.
      * eapply rep_ext; [exact G| |]; intros p; cbn beta; [|reflexivity].
        rewrite begins_snoc. destruct (same_path p (done ++ [k])) eqn:S; [|rewrite orb_false_r; reflexivity].
        apply same_path_iff in S. subst p. rewrite !orb_true_r. pose proof (rep_has _ _ _ G (done ++ [k])) as H.
        rewrite reach_snoc, R, E in H. symmetry. exact H.
      * rewrite reach_snoc, R. exact E.
    + split; [reflexivity|]. intros j g1 (-> & ->).
      set (g1 := mkRegion (upd (g_node g) (g_count g) (mkNode false [])) (S (g_count g))).
      destruct (new_step g _ _ G) as (R1 & G1). fold g1 in R1, G1.
      split; [intros p x X; rewrite R1; exact X|]. split; [reflexivity|]. intros _ g2 ->.
      assert (Ei : g_node g1 i = g_node g i).
      { unfold g1. cbn [g_node]. apply upd_other. pose proof (rep_old _ _ _ G _ _ R). lia. }
      assert (Ej : g_node g1 (g_count g) = mkNode false []) by (unfold g1; cbn [g_node]; apply upd_same).
      assert (Hn : has t (done ++ [k]) || begins (done ++ [k]) done = false).
      { rewrite <- (rep_has _ _ _ G (done ++ [k])), reach_snoc, R, E. reflexivity. }
      destruct (put_step g1 _ _ done i k (g_count g) G1) as (K2 & G2 & E2).
      * rewrite R1. exact R.
      * rewrite Ei. exact E.
      * intros p X. rewrite R1 in X. pose proof (rep_old _ _ _ G _ _ X). lia.
      * rewrite Ej. reflexivity.
      * rewrite Ej. reflexivity.
      * unfold g1. cbn [g_count]. lia.
      * apply marked_has. apply orb_false_iff in Hn. apply Hn.
      * split; [exact K2|]. split; [reflexivity|]. intros x g' (-> & ->). split; [apply keeps_refl|].
        fold (set_node g1 i (mkNode (n_end (g_node g1 i)) (hput (n_matches (g_node g1 i)) k (g_count g)))) in *.
        rewrite E2. apply Last.
        -- eapply rep_ext; [exact G2| |]; intros p; cbn beta; [|reflexivity]. rewrite begins_snoc, orb_assoc. reflexivity.
        -- rewrite reach_snoc. rewrite (K2 done i); [exact E2|]. rewrite R1. exact R.
Qed.
Lemma insert_goes : forall a t keys g, rept g t -> goes a (nested_dict t keys) (nested_heap a 0 keys) g.
Proof.
  intros a t keys g G. apply (nested_goes a t keys []); [|reflexivity].
  eapply rep_ext; [exact G| |]; intros p; cbn beta; [|reflexivity].
  destruct p as [|k p]; [reflexivity|]. cbn [begins]. rewrite orb_false_r. reflexivity.
Qed.

Lemma marks_goes : forall a t entries done g,
  rep g (has t) (fun p => marked t p || match p with [k] => has t [k; str "*"] && existsb (bytes_eqb k) done | _ => false end) ->
  (forall k j, In (k, j) entries -> reach g 0 [k] = Some j) ->
  (forall k, has t [k] = true -> In k done \/ In k (map fst entries)) ->
  goes a (mark_wildcard_tlds t) (mark_entries a entries) g.
Proof.
  intros a t. induction entries as [|[k j] entries IH]; intros done g G En All.
  - cbn [mark_entries hret goes]. eapply rep_ext; [exact G| |]; intros p; cbn beta; [symmetry; apply has_mark|].
    intros Hp. rewrite marked_mark. f_equal. destruct p as [|k [|k' p]]; try reflexivity.
    destruct (All k Hp) as [X|[]]. assert (existsb (bytes_eqb k) done = true) as ->; [|apply andb_true_r].
    apply existsb_exists. exists k. split; [exact X|apply bytes_eqb_eq; reflexivity].
  - cbn [mark_entries on hbind hret goes region_step]. split; [reflexivity|]. intros x g' (-> & ->). split; [apply keeps_refl|].
    assert (Rj : reach g 0 [k] = Some j) by (apply En; left; reflexivity).
    assert (All' : forall k', has t [k'] = true -> In k' (k :: done) \/ In k' (map fst entries)).
    { intros k' X. destruct (All k' X) as [Y|[Y|Y]]; [left; right; exact Y|left; left; exact Y|right; exact Y]. }
    assert (Hs : has t [k; str "*"] = match hget (n_matches (g_node g j)) (str "*") with Some _ => true | None => false end).
    { rewrite <- (rep_has _ _ _ G). change [k; str "*"] with ([k] ++ [str "*"]). rewrite reach_snoc, Rj. reflexivity. }
    destruct (hget (n_matches (g_node g j)) (str "*")) as [s|]; cbn [hbind hret on goes region_step].
    + split; [reflexivity|]. intros _ g' ->. destruct (end_step g _ _ [k] j G Rj) as (K & G'). split; [exact K|].
      apply (IH (k :: done)); [|intros k' j' X; apply K; apply En; right; exact X|exact All'].
      eapply rep_ext; [exact G'| |]; intros p; cbn beta; [reflexivity|]. intros _. rewrite <- orb_assoc. f_equal.
      destruct p as [|x [|y p]]; try reflexivity; [|cbn [same_path]; rewrite andb_false_r; reflexivity].
      cbn [existsb same_path]. rewrite same_eqb, andb_true_r. destruct (bytes_eqb x k) eqn:X; [|rewrite orb_false_l, orb_false_r; reflexivity].
      apply bytes_eqb_eq in X. subst x. rewrite Hs. rewrite orb_true_r. reflexivity.
    + apply (IH (k :: done)); [|intros k' j' X; apply En; right; exact X|exact All'].
      eapply rep_ext; [exact G| |]; intros p; cbn beta; [reflexivity|]. intros _. f_equal.
      destruct p as [|x [|y p]]; try reflexivity. cbn [existsb]. destruct (bytes_eqb x k) eqn:X; [|reflexivity].
      apply bytes_eqb_eq in X. subst x. rewrite Hs. reflexivity.
Qed.
Lemma mark_goes : forall a t g, rept g t -> goes a (mark_wildcard_tlds t) (mark_heap a) g.
Proof.
  intros a t g G. unfold mark_heap. cbn [on hbind hret goes region_step]. split; [reflexivity|]. intros l g' (P & ->).
  split; [apply keeps_refl|]. apply (marks_goes a t l []).
  - eapply rep_ext; [exact G| |]; intros p; cbn beta; [reflexivity|]. intros _. destruct p as [|k [|k' p]]; rewrite ?orb_false_r; try reflexivity.
    cbn [existsb]. rewrite andb_false_r, orb_false_r. reflexivity.
  - intros k j X. cbn [reach]. rewrite (hget_in _ k j); [reflexivity|exact (rep_keys _ _ _ G [] 0 eq_refl)|].
    eapply Permutation_in; [exact P|exact X].
  - intros k X. right. rewrite <- (rep_has _ _ _ G [k]) in X. cbn [reach] in X.
    destruct (hget (n_matches (g_node g 0)) k) as [j|] eqn:E; [|discriminate X]. apply hget_some in E.
    apply (in_map fst) in E. eapply Permutation_in; [|exact E]. apply Permutation_map. apply Permutation_sym. exact P.
Qed.
