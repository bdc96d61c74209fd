(** TableProofs.v - the hash tables of Table.v are maps. *)

From Verif Require Import Base BaseFacts Str Net Trie Extract Psl World Update Calls CallFacts Table TableSpec.
From Coq Require Import Permutation ZifyBool ZifyNat ZifyN.

(** ** Lists and remainders *)

Lemma mod_succ : forall n a b, n <> 0%nat -> a mod n = b mod n -> S a mod n = S b mod n.
Proof.
  intros n a b Hn E. replace (S a) with (a + 1)%nat by lia. replace (S b) with (b + 1)%nat by lia.
  rewrite (Nat.add_mod a), (Nat.add_mod b) by exact Hn. rewrite E. reflexivity.
Qed.
Lemma mod_shift : forall n a b s, n <> 0%nat -> a mod n = b mod n -> (a + s) mod n = (b + s) mod n.
Proof. intros n a b s Hn E. rewrite (Nat.add_mod a), (Nat.add_mod b), E by exact Hn. reflexivity. Qed.
Lemma mod_inj_le : forall n x a b, n <> 0%nat -> (a <= b)%nat -> (b < n)%nat -> (x + a) mod n = (x + b) mod n -> a = b.
Proof.
  intros n x a b Hn L B E. set (q := ((x + a) mod n)) in *. assert (Q : (q < n)%nat) by (apply Nat.mod_upper_bound; exact Hn).
  replace (x + b)%nat with ((x + a) + (b - a))%nat in E by lia. rewrite (Nat.add_mod (x + a)) in E by exact Hn. fold q in E.
  rewrite (Nat.mod_small (b - a)) in E by lia. destruct (Nat.lt_ge_cases (q + (b - a)) n) as [K|K].
  - rewrite Nat.mod_small in E by exact K. lia.
  - replace (q + (b - a))%nat with ((q + (b - a) - n) + 1 * n)%nat in E by lia. rewrite Nat.mod_add in E by exact Hn.
    rewrite Nat.mod_small in E by lia. lia.
Qed.
Lemma mod_inj : forall n x a b, n <> 0%nat -> (a < n)%nat -> (b < n)%nat -> (x + a) mod n = (x + b) mod n -> a = b.
Proof.
  intros n x a b Hn A B E. destruct (Nat.le_ge_cases a b).
  - eapply mod_inj_le; eassumption.
  - symmetry. symmetry in E. eapply mod_inj_le; eassumption.
Qed.
Lemma NoDup_map_on : forall (A B : Type) (f : A -> B) (l : list A), NoDup l ->
  (forall a b, In a l -> In b l -> f a = f b -> a = b) -> NoDup (map f l).
Proof.
  intros A B f l N. induction N as [|a l Na N IH]; intros H; cbn [map]; constructor.
  - intros I1. apply in_map_iff in I1. destruct I1 as (b & E & Ib). assert (b = a) by (apply H; [right; exact Ib|left; reflexivity|exact E]).
    subst. exact (Na Ib).
  - apply IH. intros a' b' Ia Ib. apply H; right; assumption.
Qed.
Lemma filter_map_length : forall (A B : Type) (f : B -> bool) (g : A -> B) l, length (filter (fun a => f (g a)) l) = length (filter f (map g l)).
Proof. intros A B f g. induction l as [|a l IH]; cbn [filter map]; [reflexivity|]. destruct (f (g a)); cbn [length]; congruence. Qed.
Lemma map_nth_seq : forall (A : Type) (d : A) l, map (fun i => nth i l d) (seq 0 (length l)) = l.
Proof.
  intros A d. induction l as [|a l IH]; cbn [length seq map nth]; [reflexivity|]. f_equal. rewrite <- seq_shift, map_map. exact IH.
Qed.

Section One.
Context {V : Type}.
Variable hash : bytes -> N.
Implicit Types (bs : list (entry V)) (e b : entry V).

Definition occ b : bool := (0 <? e_dib b)%N.
Definition dist b : nat := N.to_nat (e_dib b).
Definition bat bs (x : nat) : entry V := nth (x mod length bs) bs unused.
Definition home (n : nat) (h : N) : nat := N.to_nat (h mod N.of_nat n).
Definition used bs : nat := length (filter occ bs).
Definition pair_of b : bytes * option V := (e_key b, e_value b).
Definition ents bs : list (bytes * option V) := map pair_of (filter occ bs).
Definition keys bs : list bytes := map e_key (filter occ bs).

Lemma ents_keys : forall bs, map fst (ents bs) = keys bs.
Proof. intros bs. unfold ents, keys. rewrite map_map. reflexivity. Qed.
Lemma ents_used : forall bs, length (ents bs) = used bs.
Proof. intros bs. apply map_length. Qed.
Lemma occ_dist : forall b, occ b = true <-> (1 <= dist b)%nat.
Proof. intros b. unfold occ, dist. lia. Qed.
Lemma nth_occ_lt : forall bs i, occ (nth i bs unused) = true -> (i < length bs)%nat.
Proof.
  intros bs i H. destruct (Nat.lt_ge_cases i (length bs)) as [K|K]; [exact K|]. rewrite nth_overflow in H by exact K. discriminate H.
Qed.

Lemma put_split : forall bs i e, (i < length bs)%nat -> exists l1 l2, bs = l1 ++ nth i bs unused :: l2 /\ length l1 = i /\ put_bucket bs i e = l1 ++ e :: l2.
Proof.
  induction bs as [|b bs IH]; intros i e H; cbn [length] in H; [lia|]. destruct i as [|i]; cbn [nth put_bucket].
  - exists [], bs. repeat split.
  - destruct (IH i e) as (l1 & l2 & E1 & E2 & E3); [lia|]. exists (b :: l1), l2. cbn [app length]. rewrite E3, E2. split; [f_equal; exact E1|split; reflexivity].
Qed.
Lemma put_length : forall bs i e, length (put_bucket bs i e) = length bs.
Proof. induction bs as [|b bs IH]; intros i e; [reflexivity|]. destruct i; cbn [put_bucket length]; [reflexivity|]. rewrite IH. reflexivity. Qed.
Lemma put_same : forall bs i e, (i < length bs)%nat -> nth i (put_bucket bs i e) unused = e.
Proof. induction bs as [|b bs IH]; intros i e H; cbn [length] in H; [lia|]. destruct i; cbn [put_bucket nth]; [reflexivity|]. apply IH. lia. Qed.
Lemma put_other : forall bs i j e, j <> i -> nth j (put_bucket bs i e) unused = nth j bs unused.
Proof.
  induction bs as [|b bs IH]; intros i j e H; [reflexivity|]. destruct i; destruct j; cbn [put_bucket nth]; try reflexivity; [lia|]. apply IH. lia.
Qed.

(** Keys determine buckets. *)
Lemma in_keys : forall bs i, occ (nth i bs unused) = true -> In (e_key (nth i bs unused)) (keys bs).
Proof.
  intros bs i H. apply in_map. apply filter_In. split; [|exact H]. apply nth_In. apply nth_occ_lt. exact H.
Qed.
Lemma keys_inj : forall bs i j, NoDup (keys bs) -> occ (nth i bs unused) = true -> occ (nth j bs unused) = true ->
  e_key (nth i bs unused) = e_key (nth j bs unused) -> i = j.
Proof.
  induction bs as [|b bs IH]; intros i j N Hi Hj E; [apply nth_occ_lt in Hi; cbn [length] in Hi; lia|].
  unfold keys in N. cbn [filter] in N. destruct i as [|i]; destruct j as [|j]; cbn [nth] in *; [reflexivity|..].
  - rewrite Hi in N. cbn [map] in N. apply NoDup_cons_iff in N as (N & _). destruct N. rewrite E. apply in_keys. exact Hj.
  - rewrite Hj in N. cbn [map] in N. apply NoDup_cons_iff in N as (N & _). destruct N. rewrite <- E. apply in_keys. exact Hi.
  - f_equal. apply IH; try assumption. destruct (occ b); [cbn [map] in N; apply NoDup_cons_iff in N as (_ & N)|]; exact N.
Qed.
Lemma ents_nth : forall bs k v, In (k, v) (ents bs) -> exists i, occ (nth i bs unused) = true /\ e_key (nth i bs unused) = k /\ e_value (nth i bs unused) = v.
Proof.
  intros bs k v H. apply in_map_iff in H. destruct H as (b & E & I1). apply filter_In in I1 as (I1 & O).
  destruct (In_nth _ _ unused I1) as (i & L & Ei). exists i. rewrite Ei. unfold pair_of in E. injection E as E1 E2. repeat split; assumption.
Qed.

(** ** Runs of used buckets *)

Lemma used_indices : forall bs, length (filter (fun i => occ (nth i bs unused)) (seq 0 (length bs))) = used bs.
Proof. intros bs. rewrite (filter_map_length _ _ occ (fun i => nth i bs unused)). rewrite map_nth_seq. reflexivity. Qed.
Lemma run_bound : forall bs x j, (used bs < length bs)%nat -> (forall i, (i < j)%nat -> occ (bat bs (x + i)) = true) -> (j <= used bs)%nat.
Proof.
  intros bs x j R H. set (n := length bs) in *. assert (Hn : n <> 0%nat) by lia.
  assert (K : (Nat.min j n <= used bs)%nat).
  { rewrite <- used_indices. fold n. rewrite <- (seq_length (Nat.min j n) 0) at 1. rewrite <- (map_length (fun i => (x + i) mod n)).
    apply NoDup_incl_length.
    - apply NoDup_map_on; [apply seq_NoDup|]. intros a b Ia Ib E. apply in_seq in Ia. apply in_seq in Ib. apply (mod_inj n x); try lia; exact E.
    - intros i Ii. apply in_map_iff in Ii. destruct Ii as (a & <- & Ia). apply in_seq in Ia. apply filter_In. split.
      + apply in_seq. pose proof (Nat.mod_upper_bound (x + a) n Hn). lia.
      + apply H. lia. }
  lia.
Qed.
Lemma find_gap : forall bs x, (used bs < length bs)%nat -> exists s, (s < length bs)%nat /\ occ (bat bs (x + s)) = false.
Proof.
  intros bs x R. destruct (existsb (fun s => negb (occ (bat bs (x + s)))) (seq 0 (length bs))) eqn:E.
  - apply existsb_exists in E. destruct E as (s & I1 & N). apply in_seq in I1. exists s. split; [lia|]. destruct (occ _); [discriminate N|reflexivity].
  - assert (K : (length bs <= used bs)%nat); [|lia]. apply (run_bound bs x); [exact R|]. intros i Hi.
    destruct (occ (bat bs (x + i))) eqn:O; [reflexivity|].
    assert (T : existsb (fun s => negb (occ (bat bs (x + s)))) (seq 0 (length bs)) = true); [|congruence].
    apply existsb_exists. exists i. split; [apply in_seq; lia|]. rewrite O. reflexivity.
Qed.

(** ** What a table keeps *)

(** [e] belongs [j] buckets behind the one it asks for, and the buckets between hold entries that
    are no nearer to theirs. *)
Record fit bs e (j : nat) : Prop := {
  fit_dist : dist e = S j;
  fit_hash : e_hash e = hash (e_key e);
  fit_path : forall i, (i < j)%nat -> (S i <= dist (bat bs (home (length bs) (e_hash e) + i)))%nat }.
Record good bs : Prop := {
  good_size : exists k, (3 <= k)%N /\ N.of_nat (length bs) = (2 ^ k)%N;
  good_fit : forall i, occ (nth i bs unused) = true ->
    exists j, fit bs (nth i bs unused) j /\ (home (length bs) (e_hash (nth i bs unused)) + j) mod length bs = i;
  good_keys : NoDup (keys bs);
  good_room : (used bs < length bs)%nat;
  good_small : (N.of_nat (used bs) <= 65535)%N }.

Lemma fit_mono : forall bs bs' e j, length bs' = length bs -> (forall x, (dist (bat bs x) <= dist (bat bs' x))%nat) -> fit bs e j -> fit bs' e j.
Proof. intros bs bs' e j L M [F1 F2 F3]. split; [exact F1|exact F2|]. intros i Hi. rewrite L. etransitivity; [apply F3; exact Hi|apply M]. Qed.
Lemma fit_bound : forall bs e j, (used bs < length bs)%nat -> fit bs e j -> (j <= used bs)%nat.
Proof.
  intros bs e j R [F1 F2 F3]. apply (run_bound bs (home (length bs) (e_hash e))); [exact R|]. intros i Hi. apply occ_dist. specialize (F3 i Hi). lia.
Qed.

(** Indices. *)
Lemma land_mask : forall n k y, N.of_nat n = (2 ^ k)%N -> N.land y (N.of_nat n - 1) = (y mod N.of_nat n)%N.
Proof. intros n k y E. rewrite E. rewrite <- N.land_ones. f_equal. rewrite N.ones_equiv. lia. Qed.
Lemma pow_pos : forall k n, N.of_nat n = (2 ^ k)%N -> n <> 0%nat.
Proof. intros k n E. pose proof (N.pow_nonzero 2 k ltac:(discriminate)). lia. Qed.
Lemma next_index : forall n k x, N.of_nat n = (2 ^ k)%N -> N.land (N.of_nat (x mod n) + 1) (N.of_nat n - 1) = N.of_nat (S x mod n).
Proof.
  intros n k x E. pose proof (pow_pos _ _ E) as Hn. rewrite (land_mask _ _ _ E).
  replace (N.of_nat (x mod n) + 1)%N with (N.of_nat (S (x mod n))) by lia. rewrite <- Nat2N.inj_mod. f_equal.
  apply mod_succ; [exact Hn|]. apply Nat.mod_mod. exact Hn.
Qed.
Lemma home_index : forall n k h, N.of_nat n = (2 ^ k)%N -> N.land h (N.of_nat n - 1) = N.of_nat (home n h mod n).
Proof.
  intros n k h E. pose proof (pow_pos _ _ E) as Hn. rewrite (land_mask _ _ _ E). unfold home.
  assert (B : (h mod N.of_nat n < N.of_nat n)%N) by (apply N.mod_lt; lia). rewrite Nat.mod_small by lia. lia.
Qed.
Lemma bucket_at : forall bs x, length bs <> 0%nat -> bucket bs (N.of_nat (x mod length bs)) = Ret (bat bs x).
Proof.
  intros bs x Hn. unfold bucket, bat. rewrite Nat2N.id. rewrite (nth_error_nth' _ unused) by (apply Nat.mod_upper_bound; exact Hn). reflexivity.
Qed.

(** ** An entry is placed *)

Section Place.
Variables (bs : list (entry V)) (x : nat) (e : entry V) (j : nat).
Hypothesis G : good bs.
Hypothesis F : fit bs e j.
Hypothesis X : x mod length bs = (home (length bs) (e_hash e) + j) mod length bs.
Hypothesis P : (dist (bat bs x) < dist e)%nat.
Let n := length bs.
Let i := x mod n.
Let bs' := put_bucket bs i e.
Lemma place_n : n <> 0%nat.
Proof using G F X P. destruct (good_size _ G) as (k & _ & E). exact (pow_pos _ _ E). Qed.
Lemma place_i : (i < n)%nat.
Proof using G F X P. apply Nat.mod_upper_bound. exact place_n. Qed.
Lemma place_mono : forall y, (dist (bat bs y) <= dist (bat bs' y))%nat.
Proof using G F X P.
  intros y. unfold bat. unfold bs' at 1. rewrite put_length. fold n. destruct (Nat.eq_dec (y mod n) i) as [E|E].
  - rewrite E. unfold bs'. rewrite put_same by exact place_i. unfold bat in P. fold n in P. fold i in P. lia.
  - unfold bs'. rewrite put_other by exact E. lia.
Qed.
Lemma place_fit : forall b q, fit bs b q -> fit bs' b q.
Proof using G F X P. intros b q. apply fit_mono; [apply put_length|exact place_mono]. Qed.
Lemma place_good : forall q, occ (nth q bs' unused) = true ->
  exists j, fit bs' (nth q bs' unused) j /\ (home n (e_hash (nth q bs' unused)) + j) mod n = q.
Proof using G F X P.
  intros q O. destruct (Nat.eq_dec q i) as [->|E].
  - unfold bs' at 2 3. rewrite put_same by exact place_i. exists j. split; [apply place_fit; exact F|]. symmetry. exact X.
  - unfold bs' in O. rewrite put_other in O by exact E. destruct (good_fit _ G q O) as (j' & F' & E'). exists j'.
    unfold bs' at 2 3. rewrite put_other by exact E. split; [apply place_fit; exact F'|exact E'].
Qed.
(** What is there and what is held, before and after. *)
Lemma place_swap : occ (bat bs x) = true -> Permutation (bat bs x :: filter occ bs') (e :: filter occ bs).
Proof using G F X P.
  intros O. destruct (put_split bs i e place_i) as (l1 & l2 & E1 & E2 & E3). unfold bs'. rewrite E3. unfold bat. fold n. fold i.
  unfold bat in O. fold n in O. fold i in O. set (b := nth i bs unused) in *. rewrite E1.
  assert (Oe : occ e = true) by (apply occ_dist; destruct F as [F1 _ _]; lia).
  rewrite !filter_app. cbn [filter]. rewrite O, Oe.
  transitivity (b :: e :: filter occ l1 ++ filter occ l2); [constructor; symmetry; apply Permutation_middle|].
  transitivity (e :: b :: filter occ l1 ++ filter occ l2); [constructor|]. constructor. apply Permutation_middle.
Qed.
Lemma place_empty : occ (bat bs x) = false -> Permutation (filter occ bs') (e :: filter occ bs).
Proof using G F X P.
  intros O. destruct (put_split bs i e place_i) as (l1 & l2 & E1 & E2 & E3). unfold bs'. rewrite E3.
  unfold bat in O. fold n in O. fold i in O. set (b := nth i bs unused) in *. rewrite E1.
  assert (Oe : occ e = true) by (apply occ_dist; destruct F as [F1 _ _]; lia).
  rewrite !filter_app. cbn [filter]. rewrite O, Oe. symmetry. apply Permutation_middle.
Qed.
End Place.

Lemma small_dib : forall q, (N.of_nat (S q) <= 65535)%N -> N.land (N.of_nat (S q)) max_dib = N.of_nat (S q).
Proof.
  intros q H. unfold max_dib. change 65535%N with (N.ones 16). rewrite N.land_ones. apply N.mod_small. change (2 ^ 16)%N with 65536%N. lia.
Qed.
Lemma dist_set : forall b, (N.of_nat (S (dist b)) <= 65535)%N -> dist (set_dib b (e_dib b + 1)) = S (dist b).
Proof.
  intros b H. unfold dist in *. cbn [set_dib e_dib]. replace (e_dib b + 1)%N with (N.of_nat (S (N.to_nat (e_dib b)))) by lia.
  rewrite small_dib by lia. lia.
Qed.

(** [set] with a new key. *)
Lemma set_new : forall fuel bs e j x, good bs -> fit bs e j -> x mod length bs = (home (length bs) (e_hash e) + j) mod length bs ->
  ~ In (e_key e) (keys bs) -> (S (used bs) < length bs)%nat -> (N.of_nat (S (used bs)) <= 65535)%N ->
  (exists s, (s < fuel)%nat /\ occ (bat bs (x + s)) = false) ->
  exists bs', set_loop fuel (N.of_nat (length bs) - 1) bs e (N.of_nat (x mod length bs)) = Ret (bs', true)
    /\ length bs' = length bs /\ good bs' /\ Permutation (ents bs') (pair_of e :: ents bs).
Proof.
  induction fuel as [|fuel IH]; intros bs e j x G F X Nk R B (s & Hs & Es); [lia|]. cbn [set_loop].
  destruct (good_size _ G) as (k & Hk & En). pose proof (pow_pos _ _ En) as Hn. rewrite bucket_at by exact Hn. cbn [bind].
  set (b := bat bs x) in *. pose proof (fit_bound _ _ _ (good_room _ G) F) as Bj. destruct (e_dib b =? 0)%N eqn:Z.
  - assert (Ob : occ b = false) by (unfold occ; lia).
    assert (P : (dist (bat bs x) < dist e)%nat) by (rewrite (fit_dist _ _ _ F); fold b; unfold dist; lia).
    rewrite Nat2N.id. eexists. split; [reflexivity|]. split; [apply put_length|].
    pose proof (place_empty bs x e j G F X P Ob) as Pm. split.
    + split.
      * rewrite put_length. exists k. split; assumption.
      * rewrite put_length. apply (place_good bs x e j G F X P).
      * unfold keys. rewrite (Permutation_map e_key Pm). cbn [map]. constructor; [exact Nk|]. apply good_keys. exact G.
      * rewrite put_length. unfold used. rewrite (Permutation_length Pm). cbn [length]. exact R.
      * unfold used. rewrite (Permutation_length Pm). exact B.
    + unfold ents. rewrite (Permutation_map pair_of Pm). reflexivity.
  - assert (Ob : occ b = true) by (unfold occ; lia).
    assert (Kb : (e_hash e =? e_hash b)%N && bytes_eqb (e_key e) (e_key b) = false).
    { destruct (bytes_eqb (e_key e) (e_key b)) eqn:E; [|apply andb_false_r]. apply bytes_eqb_eq in E. destruct Nk. rewrite E. apply in_keys. exact Ob. }
    rewrite Kb. destruct (good_fit _ G (x mod length bs) Ob) as (jb & Fb & Xb). fold (bat bs x) in Fb, Xb. fold b in Fb, Xb.
    assert (S1 : s <> 0%nat) by (intros ->; rewrite Nat.add_0_r in Es; fold b in Es; congruence).
    destruct (e_dib b <? e_dib e)%N eqn:Lt.
    + rewrite Nat2N.id. assert (P : (dist (bat bs x) < dist e)%nat) by (fold b; unfold dist; lia).
      set (bs1 := put_bucket bs (x mod length bs) e). pose proof (place_swap bs x e j G F X P Ob) as Pm. fold bs1 in Pm. fold b in Pm.
      assert (Ln : length bs1 = length bs) by apply put_length.
      assert (U : used bs1 = used bs) by (apply Permutation_length in Pm; cbn [length] in Pm; unfold used; lia).
      assert (Nd : NoDup (e_key b :: keys bs1)).
      { change (NoDup (map e_key (b :: filter occ bs1))). rewrite (Permutation_map e_key Pm). cbn [map]. constructor; [exact Nk|]. apply good_keys. exact G. }
      apply NoDup_cons_iff in Nd as (Nb & Nd).
      assert (G1 : good bs1).
      { split.
        - rewrite Ln. exists k. split; assumption.
        - rewrite Ln. apply (place_good bs x e j G F X P).
        - exact Nd.
        - rewrite U, Ln. apply good_room. exact G.
        - rewrite U. apply good_small. exact G. }
      pose proof (fit_dist _ _ _ F) as De. pose proof (fit_dist _ _ _ Fb) as Db. fold b in P.
      assert (D2 : dist (set_dib b (e_dib b + 1)) = S (S jb)) by (rewrite dist_set by lia; lia).
      rewrite (next_index _ _ _ En). rewrite <- Ln.
      destruct (IH bs1 (set_dib b (e_dib b + 1)) (S jb) (S x)) as (bs' & E1 & E2 & E3 & E4).
      * exact G1.
      * split; [exact D2|exact (fit_hash _ _ _ Fb)|]. cbn [set_dib e_hash]. rewrite Ln. intros i Hi.
        destruct (Nat.eq_dec i jb) as [->|Hne].
        -- unfold bat. rewrite Ln, Xb. unfold bs1. rewrite put_same by (apply Nat.mod_upper_bound; exact Hn). lia.
        -- etransitivity; [apply (fit_path _ _ _ Fb); lia|]. apply (place_mono bs x e j G F X P).
      * rewrite Ln. cbn [set_dib e_hash]. rewrite Nat.add_succ_r. apply mod_succ; [exact Hn|]. rewrite Xb. reflexivity.
      * exact Nb.
      * rewrite U, Ln. exact R.
      * rewrite U. exact B.
      * exists (s - 1)%nat. split; [lia|]. replace (S x + (s - 1))%nat with (x + s)%nat by lia.
        unfold bat. rewrite Ln. unfold bat in Es. destruct (Nat.eq_dec ((x + s) mod length bs) (x mod length bs)) as [E|E].
        -- rewrite E in Es. fold (bat bs x) in Es. fold b in Es. congruence.
        -- unfold bs1. rewrite put_other by exact E. exact Es.
      * rewrite E1. exists bs'. split; [reflexivity|]. split; [exact E2|]. split; [exact E3|]. rewrite E4.
        change (Permutation (map pair_of (b :: filter occ bs1)) (map pair_of (e :: filter occ bs))). apply Permutation_map. exact Pm.
    + pose proof (fit_dist _ _ _ F) as De.
      assert (Run : (S j <= used bs)%nat).
      { apply (run_bound bs (home (length bs) (e_hash e))); [apply good_room; exact G|]. intros i Hi. apply occ_dist.
        destruct (Nat.eq_dec i j) as [->|Hne].
        - unfold bat. rewrite <- X. apply occ_dist. exact Ob.
        - pose proof (fit_path _ _ _ F i ltac:(lia)). lia. }
      rewrite (next_index _ _ _ En).
      destruct (IH bs (set_dib e (e_dib e + 1)) (S j) (S x)) as (bs' & E1 & E2 & E3 & E4); try assumption.
      * split; [rewrite dist_set by lia; lia|exact (fit_hash _ _ _ F)|]. cbn [set_dib e_hash]. intros i Hi.
        destruct (Nat.eq_dec i j) as [->|Hne].
        -- unfold bat. rewrite <- X. fold (bat bs x). fold b. unfold dist in *. lia.
        -- apply (fit_path _ _ _ F). lia.
      * cbn [set_dib e_hash]. rewrite Nat.add_succ_r. apply mod_succ; [exact Hn|exact X].
      * exists (s - 1)%nat. split; [lia|]. replace (S x + (s - 1))%nat with (x + s)%nat by lia. exact Es.
      * exists bs'. split; [exact E1|]. split; [exact E2|]. split; [exact E3|exact E4].
Qed.

(** Looking for a key. *)
Section Find.
Variables (bs : list (entry V)) (i : nat).
Hypothesis G : good bs.
Hypothesis O : occ (nth i bs unused) = true.
Let b := nth i bs unused.
Lemma found_at : exists q, dist b = S q /\ (home (length bs) (hash (e_key b)) + q) mod length bs = i /\ (q <= used bs)%nat
  /\ (forall j, (j < q)%nat -> let c := bat bs (home (length bs) (hash (e_key b)) + j) in
       (S j <= dist c)%nat /\ e_key c <> e_key b) /\ e_hash b = hash (e_key b).
Proof.
  destruct (good_fit _ G i O) as (q & F & E). fold b in F, E. pose proof (fit_bound _ _ _ (good_room _ G) F) as Bq. destruct F as [F1 F2 F3].
  rewrite F2 in E, F3. exists q. split; [exact F1|]. split; [exact E|]. split; [exact Bq|]. split; [|exact F2].
  intros j Hj c. split; [apply F3; exact Hj|]. intros Ek. pose proof (F3 j Hj) as Dj. fold c in Dj.
  assert (Q : (home (length bs) (hash (e_key b)) + j) mod length bs = i).
  { apply (keys_inj bs); [apply good_keys; exact G|apply occ_dist; fold (bat bs (home (length bs) (hash (e_key b)) + j)); fold c; lia|exact O|exact Ek]. }
  rewrite <- E in Q. pose proof (good_room _ G). apply mod_inj in Q; lia.
Qed.
Lemma get_found : table_get hash (mkTable 0 (N.of_nat (length bs) - 1) 0 bs) (e_key b) = Ret (e_value b, true).
Proof.
  destruct found_at as (q & D & E & Bq & Hp & Hh). destruct (good_size _ G) as (k & Hk & En). pose proof (pow_pos _ _ En) as Hn.
  unfold table_get. cbn [t_buckets t_mask]. destruct (Nat.eqb_spec (length bs) 0) as [Z|_]; [contradiction|].
  rewrite (home_index _ _ _ En). set (h := home (length bs) (hash (e_key b))) in *.
  assert (L : forall m fuel j, (j + m = q)%nat -> (m < fuel)%nat ->
    get_loop fuel (N.of_nat (length bs) - 1) bs (hash (e_key b)) (e_key b) (N.of_nat ((h + j) mod length bs)) = Ret (e_value b, true)).
  { induction m as [|m IH]; intros fuel j Ej Hf; (destruct fuel as [|fuel]; [lia|]); cbn [get_loop]; rewrite bucket_at by exact Hn; cbn [bind].
    - replace j with q by lia. unfold bat. rewrite E. fold b. rewrite Hh, N.eqb_refl. rewrite (proj2 (bytes_eqb_eq _ _) eq_refl). cbn [andb].
      destruct (N.eqb_spec (e_dib b) 0) as [Z|_]; [unfold dist in D; lia|reflexivity].
    - destruct (Hp j ltac:(lia)) as (P1 & P2). destruct (N.eqb_spec (e_dib (bat bs (h + j))) 0) as [Z|_]; [unfold dist in P1; lia|].
      destruct (bytes_eqb (e_key (bat bs (h + j))) (e_key b)) eqn:Ek; [apply bytes_eqb_eq in Ek; contradiction|]. rewrite andb_false_r.
      rewrite (next_index _ _ _ En). replace (S (h + j)) with (h + S j)%nat by lia. apply IH; lia. }
  replace h with (h + 0)%nat at 1 by lia. apply (L q); [lia|]. pose proof (good_room _ G). lia.
Qed.
Lemma set_found : forall value,
  set_loop (S (length bs)) (N.of_nat (length bs) - 1) bs (make_entry (hash (e_key b)) 1 value (e_key b))
    (N.land (hash (e_key b)) (N.of_nat (length bs) - 1))
  = Ret (put_bucket bs i (set_value b value), false).
Proof.
  intros value. destruct found_at as (q & D & E & Bq & Hp & Hh). destruct (good_size _ G) as (k & Hk & En). pose proof (pow_pos _ _ En) as Hn.
  rewrite (home_index _ _ _ En). set (h := home (length bs) (hash (e_key b))) in *.
  assert (Hi : (i < length bs)%nat) by (apply nth_occ_lt; exact O).
  assert (Q16 : (N.of_nat q < 65535)%N).
  { pose proof (good_small _ G). pose proof (good_room _ G).
    assert (K : (S q <= used bs)%nat); [|lia]. apply (run_bound bs h); [assumption|]. intros j Hj. apply occ_dist.
    destruct (Nat.eq_dec j q) as [->|Hne]; [|pose proof (proj1 (Hp j ltac:(lia))); lia]. unfold bat. rewrite E. fold b. lia. }
  assert (L : forall m fuel j, (j + m = q)%nat -> (m < fuel)%nat ->
    set_loop fuel (N.of_nat (length bs) - 1) bs (mkEntry (hash (e_key b)) (N.of_nat (S j)) value (e_key b)) (N.of_nat ((h + j) mod length bs))
    = Ret (put_bucket bs i (set_value b value), false)).
  { induction m as [|m IH]; intros fuel j Ej Hf; (destruct fuel as [|fuel]; [lia|]); cbn [set_loop]; rewrite bucket_at by exact Hn; cbn [bind e_hash e_key e_value e_dib].
    - replace j with q by lia. unfold bat. rewrite E. fold b. rewrite Hh, N.eqb_refl. rewrite (proj2 (bytes_eqb_eq _ _) eq_refl). cbn [andb].
      rewrite Nat2N.id. destruct (N.eqb_spec (e_dib b) 0) as [Z|_]; [unfold dist in D; lia|reflexivity].
    - destruct (Hp j ltac:(lia)) as (P1 & P2). destruct (N.eqb_spec (e_dib (bat bs (h + j))) 0) as [Z|_]; [unfold dist in P1; lia|].
      destruct (bytes_eqb (e_key b) (e_key (bat bs (h + j)))) eqn:Ek; [apply bytes_eqb_eq in Ek; symmetry in Ek; contradiction|]. rewrite andb_false_r.
      destruct (N.ltb_spec (e_dib (bat bs (h + j))) (N.of_nat (S j))) as [Lt|_]; [unfold dist in P1; lia|].
      rewrite (next_index _ _ _ En). replace (S (h + j)) with (h + S j)%nat by lia.
      unfold set_dib. cbn [e_hash e_key e_value e_dib]. replace (N.of_nat (S j) + 1)%N with (N.of_nat (S (S j))) by lia.
      rewrite small_dib by lia. apply IH; lia. }
  unfold make_entry. replace (N.land 1 max_dib) with (N.of_nat 1) by reflexivity. replace h with (h + 0)%nat at 1 by lia.
  apply (L q); [lia|]. pose proof (good_room _ G). lia.
Qed.
End Find.
Lemma get_absent : forall bs k, good bs -> ~ In k (keys bs) -> table_get hash (mkTable 0 (N.of_nat (length bs) - 1) 0 bs) k = Ret (None, false).
Proof.
  intros bs k G Nk. destruct (good_size _ G) as (z & Hk & En). pose proof (pow_pos _ _ En) as Hn.
  unfold table_get. cbn [t_buckets t_mask]. destruct (Nat.eqb_spec (length bs) 0) as [Z|_]; [contradiction|].
  rewrite (home_index _ _ _ En). set (h := home (length bs) (hash k)).
  assert (L : forall fuel x, (exists s, (s < fuel)%nat /\ occ (bat bs (x + s)) = false) ->
    get_loop fuel (N.of_nat (length bs) - 1) bs (hash k) k (N.of_nat (x mod length bs)) = Ret (None, false)).
  { induction fuel as [|fuel IH]; intros x (s & Hs & Es); [lia|]. cbn [get_loop]. rewrite bucket_at by exact Hn. cbn [bind].
    destruct (N.eqb_spec (e_dib (bat bs x)) 0) as [Z|NZ]; [reflexivity|].
    assert (Ox : occ (bat bs x) = true) by (unfold occ; lia).
    destruct (bytes_eqb (e_key (bat bs x)) k) eqn:Ek; [apply bytes_eqb_eq in Ek; destruct Nk; rewrite <- Ek; apply in_keys; exact Ox|].
    rewrite andb_false_r, (next_index _ _ _ En). apply IH. assert (s <> 0%nat) by (intros ->; rewrite Nat.add_0_r in Es; congruence).
    exists (s - 1)%nat. split; [lia|]. replace (S x + (s - 1))%nat with (x + s)%nat by lia. exact Es. }
  apply L. destruct (find_gap bs h (good_room _ G)) as (s & Hs & Es). exists s. split; [lia|exact Es].
Qed.
End One.
