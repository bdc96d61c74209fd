(** TableLimit.v - the limit of the 16-bit distances of a hash table. *)

From Verif Require Import Base BaseFacts Str Net Trie TrieFacts Extract Psl World Update Calls CallFacts Table TableSpec TableProofs TableFacts TableTries.
From Coq Require Import Permutation ZifyBool ZifyNat ZifyN.

(** A hash function of the worst kind. *)
Definition same : bytes -> N := fun _ => 0%N.

Section Row.
Context {V : Type}.
Variables (bs : list (entry V)) (k : bytes) (v : option V).
Hypothesis G : good same bs.
Local Notation n := (length bs).
Local Notation u := (used bs).

Lemma row_n : exists q, N.of_nat n = (2 ^ q)%N.
Proof. destruct (good_size _ _ G) as (q & _ & E). exists q. exact E. Qed.
Lemma row_hash : forall i, occ (nth i bs unused) = true -> e_hash (nth i bs unused) = 0%N.
Proof. intros i O. destruct (good_fit _ _ G i O) as (j & F & _). rewrite (fit_hash _ _ _ _ F). reflexivity. Qed.
Lemma row_occ : forall i, occ (nth i bs unused) = true ->
  dist (nth i bs unused) = S i /\ forall j, (j < i)%nat -> occ (nth j bs unused) = true.
Proof.
  intros i O. pose proof (nth_occ_lt _ _ O) as L. destruct (good_fit _ _ G i O) as (j & F & E). rewrite (row_hash i O) in E.
  change (home n 0) with (N.to_nat (0 mod N.of_nat n)) in E. rewrite N.mod_0_l in E by lia. cbn [N.to_nat plus] in E.
  pose proof (fit_bound _ _ _ _ (good_room _ _ G) F) as B. pose proof (good_room _ _ G) as R. rewrite Nat.mod_small in E by lia. subst j.
  split; [apply (fit_dist _ _ _ _ F)|]. intros j Hj. pose proof (fit_path _ _ _ _ F j Hj) as K. rewrite (row_hash i O) in K.
  unfold home in K. rewrite N.mod_0_l in K by lia. cbn [N.to_nat plus] in K. unfold bat in K. rewrite Nat.mod_small in K by lia. apply occ_dist. lia.
Qed.
Lemma row_below : forall i, (i < u)%nat -> occ (nth i bs unused) = true.
Proof.
  intros i Hi. destruct (occ (nth i bs unused)) eqn:O; [reflexivity|]. exfalso.
  assert (K : (u <= i)%nat); [|lia]. rewrite <- used_indices. rewrite <- (seq_length i 0). apply NoDup_incl_length; [apply NoDup_filter; apply seq_NoDup|].
  intros j Ij. apply filter_In in Ij as (_ & Oj). apply in_seq. split; [lia|]. cbn [plus]. destruct (Nat.lt_ge_cases j i) as [K|K]; [exact K|]. exfalso.
  destruct (Nat.eq_dec i j) as [->|Ne]; [congruence|]. destruct (row_occ j Oj) as (_ & H). rewrite (H i) in O by lia. discriminate O.
Qed.
Lemma row_above : forall i, (u <= i)%nat -> occ (nth i bs unused) = false.
Proof.
  intros i Hi. destruct (occ (nth i bs unused)) eqn:O; [|reflexivity]. exfalso. assert (K : (S i <= u)%nat); [|lia].
  apply (run_bound bs 0); [apply (good_room _ _ G)|]. intros j Hj. cbn [plus]. unfold bat. pose proof (nth_occ_lt _ _ O) as L. rewrite Nat.mod_small by lia.
  destruct (Nat.eq_dec j i) as [->|Ne]; [exact O|]. apply (row_occ i O). lia.
Qed.

Hypothesis new : ~ In k (keys bs).
Hypothesis U : N.of_nat u = 65535%N.
Definition coming (i : nat) : entry V := mkEntry 0 (N.land (N.of_nat i + 1) max_dib) v k.
Lemma land_small : forall a, (a <= 65535)%N -> N.land a max_dib = a.
Proof. intros a H. change max_dib with (N.ones 16). rewrite N.land_ones. apply N.mod_small. change (2 ^ 16)%N with 65536%N. lia. Qed.
Lemma row_key : forall i, (i < u)%nat -> bytes_eqb (e_key (nth i bs unused)) k = false.
Proof.
  intros i Hi. destruct (bytes_eqb _ k) eqn:E; [|reflexivity]. apply bytes_eqb_eq in E. destruct new. rewrite <- E. apply in_keys. apply row_below. exact Hi.
Qed.
Lemma row_key' : forall i, (i < u)%nat -> bytes_eqb k (e_key (nth i bs unused)) = false.
Proof.
  intros i Hi. destruct (bytes_eqb k _) eqn:E; [|reflexivity]. apply bytes_eqb_eq in E. destruct new. rewrite E. apply in_keys. apply row_below. exact Hi.
Qed.
Lemma row_set : forall d fuel i, (i + d = u)%nat -> (d < fuel)%nat ->
  set_loop fuel (N.of_nat n - 1) bs (coming i) (N.of_nat (i mod n)) = Ret (put_bucket bs u (coming u), true).
Proof.
  pose proof (good_room _ _ G) as R. induction d as [|d IH]; intros fuel i E L; (destruct fuel as [|fuel]; [lia|]); cbn [set_loop]; rewrite bucket_at by lia; cbn [bind];
    unfold bat; rewrite Nat.mod_small by lia.
  - replace i with u by lia. pose proof (row_above u (le_n _)) as O. unfold occ in O. replace ((e_dib (nth u bs unused) =? 0)%N) with true by lia. rewrite Nat2N.id. reflexivity.
  - pose proof (row_below i) as O. destruct (row_occ i (O ltac:(lia))) as (D & _). unfold dist in D. replace ((e_dib (nth i bs unused) =? 0)%N) with false by lia.
    cbn [coming e_key e_hash]. rewrite row_key' by lia. rewrite andb_false_r. unfold coming at 1. cbn [e_dib]. rewrite land_small by lia.
    replace ((e_dib (nth i bs unused) <? N.of_nat i + 1)%N) with false by lia.
    destruct row_n as (q & Eq). assert (Nx : N.land (N.of_nat i + 1) (N.of_nat n - 1) = N.of_nat (S i mod n)) by (rewrite <- (next_index _ _ i Eq), (Nat.mod_small i) by lia; reflexivity).
    rewrite Nx. replace (set_dib (coming i) (e_dib (coming i) + 1)) with (coming (S i)); [apply IH; lia|]. unfold coming, set_dib. cbn [e_dib e_hash e_value e_key].
    rewrite (land_small (N.of_nat i + 1)) by lia. do 2 f_equal. lia.
Qed.
Lemma row_get : forall d fuel i, (i + d = u)%nat -> (d < fuel)%nat ->
  get_loop fuel (N.of_nat n - 1) (put_bucket bs u (coming u)) 0 k (N.of_nat (i mod n)) = Ret (None, false).
Proof.
  pose proof (good_room _ _ G) as R. induction d as [|d IH]; intros fuel i E L; (destruct fuel as [|fuel]; [lia|]); cbn [get_loop].
  - rewrite <- (put_length bs u (coming u)) at 1. rewrite bucket_at by (rewrite put_length; lia). cbn [bind]. unfold bat. rewrite put_length, Nat.mod_small by lia.
    replace i with u by lia. rewrite put_same by lia. unfold coming. cbn [e_dib]. rewrite U. reflexivity.
  - rewrite <- (put_length bs u (coming u)) at 1. rewrite bucket_at by (rewrite put_length; lia). cbn [bind]. unfold bat. rewrite put_length, !Nat.mod_small by lia.
    rewrite put_other by lia. pose proof (row_below i) as O. specialize (O ltac:(lia)). unfold occ in O. replace ((e_dib (nth i bs unused) =? 0)%N) with false by lia.
    rewrite row_key by lia. rewrite andb_false_r. destruct row_n as (q & Eq). assert (Nx : N.land (N.of_nat i + 1) (N.of_nat n - 1) = N.of_nat (S i mod n)) by (rewrite <- (next_index _ _ i Eq), (Nat.mod_small i) by lia; reflexivity).
    rewrite Nx. apply IH; lia.
Qed.
End Row.

Lemma lost : forall V (m : table V) k v, sound same m -> N.of_nat (length (table_scan m)) = 65535%N -> ~ In k (map fst (table_scan m)) ->
  exists m', table_set same m k v = Ret m' /\ table_get same m' k = Ret (None, false).
Proof.
  intros V m k v [->|(F & L)] E N; [discriminate E|]. pose proof (full_good _ _ F) as G. pose proof (good_room _ _ G) as R.
  rewrite scan_ents in *. rewrite ents_used in E. rewrite ents_keys in N. rewrite (full_length _ _ F), (full_grow _ _ F) in L.
  unfold table_set. destruct (Nat.eqb_spec (length (t_buckets m)) 0) as [Z|_]; [lia|]. cbn [bind].
  assert (Gr : (t_grow_at m <=? t_length m)%N = false).
  { rewrite (full_length _ _ F), (full_grow _ _ F), E. rewrite E in L. destruct (good_size _ _ G) as (q & _ & Eq). rewrite Eq in *.
    destruct (N.le_gt_cases q 16) as [K|K].
    - assert (P : (2 ^ q <= 2 ^ 16)%N) by (apply N.pow_le_mono_r; [discriminate|exact K]). change (2 ^ 16)%N with 65536%N in P.
      assert (D : (2 ^ q * 17 / 20 <= 65536 * 17 / 20)%N) by (apply N.div_le_mono; lia). change (65536 * 17 / 20)%N with 55705%N in D. lia.
    - assert (P : (2 ^ 17 <= 2 ^ q)%N) by (apply N.pow_le_mono_r; [discriminate|lia]). change (2 ^ 17)%N with 131072%N in P.
      assert (D : (131072 * 17 / 20 <= 2 ^ q * 17 / 20)%N) by (apply N.div_le_mono; lia). change (131072 * 17 / 20)%N with 111411%N in D. lia. }
  rewrite Gr. cbn [bind]. unfold set_entry. rewrite (full_mask _ _ F). change (make_entry (same k) 1 v k) with (coming k v 0). cbn [coming e_hash].
  change (N.land 0 (N.of_nat (length (t_buckets m)) - 1)) with 0%N. replace 0%N with (N.of_nat (0 mod length (t_buckets m))) by (rewrite Nat.mod_0_l by lia; reflexivity).
  rewrite (row_set (t_buckets m) k v G N E (used (t_buckets m))) by lia. cbn [bind]. eexists. split; [reflexivity|].
  unfold table_get. cbn [t_buckets t_mask]. rewrite put_length. destruct (Nat.eqb_spec (length (t_buckets m)) 0) as [Z|_]; [lia|]. unfold same.
  change (N.land 0 (N.of_nat (length (t_buckets m)) - 1)) with 0%N. replace 0%N with (N.of_nat (0 mod length (t_buckets m))) at 2 by (rewrite Nat.mod_0_l by lia; reflexivity).
  apply (row_get (t_buckets m) k v G N E (used (t_buckets m))); lia.
Qed.

(** ** Too many rules *)

(** a, aa, aaa and so on *)
Definition row_rule (i : nat) : bytes := repeat 97%N i.
Lemma row_split : forall i, split_byte (row_rule i) 46 = [row_rule i].
Proof. induction i as [|i IH]; [reflexivity|]. unfold row_rule in *. cbn [repeat split_byte]. rewrite IH. reflexivity. Qed.
Lemma get_not_in : forall (l : list (bytes * trie)) k, ~ In k (map fst l) -> get l k = None.
Proof.
  induction l as [|[k1 t1] l IH]; intros k N; cbn [get map fst In] in *; [reflexivity|]. destruct (bytes_eqb k1 k) eqn:E; [|apply IH; tauto].
  apply bytes_eqb_eq in E. tauto.
Qed.
Lemma row_insert : forall n a e cs, (forall k, In k (map fst cs) -> (length k < a)%nat) ->
  exists cs', insert_all (Node e cs) (map row_rule (seq a n)) = Ret (Node e cs') /\ map fst cs' = map fst cs ++ map row_rule (seq a n).
Proof.
  induction n as [|n IH]; intros a e cs H; cbn [seq map insert_all].
  - exists cs. rewrite app_nil_r. split; reflexivity.
  - rewrite row_split, reverse_spec. cbn [bind rev app nested_dict end_of matches_of]. unfold child. cbn [matches_of].
    assert (G : get cs (row_rule a) = None).
    { apply get_not_in. intros I1. specialize (H _ I1). unfold row_rule in H. rewrite repeat_length in H. lia. }
    rewrite G, (put_new _ _ _ G). destruct (IH (S a) e (cs ++ [(row_rule a, set_end empty_trie)])) as (cs' & E & K).
    + intros k I1. rewrite map_app in I1. apply in_app_or in I1 as [I1|[<-|[]]]; [specialize (H _ I1); lia|]. cbn [fst]. unfold row_rule. rewrite repeat_length. lia.
    + exists cs'. split; [exact E|]. rewrite K, map_app, <- app_assoc. reflexivity.
Qed.
Lemma insert_tables_app : forall hash l1 l2 t, insert_tables hash t (l1 ++ l2) = bind (insert_tables hash t l1) (fun t => insert_tables hash t l2).
Proof.
  intros hash. induction l1 as [|r l1 IH]; intros l2 t; cbn [app insert_tables bind]; [reflexivity|].
  destruct (reverse (split_byte r 46)); cbn [bind]; [|reflexivity..]. destruct (nested_tables hash t a); cbn [bind]; [apply IH|reflexivity..].
Qed.
Definition row_rules (n : N) : list bytes := map row_rule (seq 1 (N.to_nat n)).

Lemma c104_limit : build_tables same (row_rules 65536) = Panic.
Proof.
  unfold build_tables, row_rules. replace (N.to_nat 65536) with (N.to_nat 65535 + 1)%nat by lia. generalize (N.to_nat 65535) (N2Nat.id 65535). intros n En.
  rewrite seq_app, map_app, insert_tables_app. cbn [seq map].
  destruct (insert_stands same (map row_rule (seq 1 n)) 0 _ _ (stands_empty same 0)) as (h & t & E1 & E2 & S); [rewrite map_length, seq_length; lia|].
  destruct (row_insert n 1 false []) as (cs & E3 & K); [intros k []|]. assert (E6 := eq_trans (eq_sym E2) E3). injection E6 as ->.
  rewrite E1. cbn [bind insert_tables]. rewrite row_split, reverse_spec. cbn [bind rev app nested_tables].
  inversion S as [e m l hs So L P F]. subst. cbn [t_matches]. pose proof (scan_keys same _ m cs hs P F) as Pk. rewrite K in Pk. cbn [map app] in Pk.
  assert (N : ~ In (row_rule (1 + n)) (map fst (table_scan m))).
  { intros I1. apply (Permutation_in _ Pk) in I1. apply in_map_iff in I1 as (i & E & Ii). apply in_seq in Ii. apply (f_equal (@length _)) in E.
    unfold row_rule in E. rewrite !repeat_length in E. lia. }
  rewrite (get_out same m _ So N). cbn [bind negb].
  destruct (lost _ m (row_rule (1 + n)) (Some (TNode false zero_table)) So) as (m' & E4 & E5).
  - rewrite <- (map_length fst), (Permutation_length Pk), map_length, seq_length. exact En.
  - exact N.
  - rewrite E4. cbn [bind]. rewrite E5. reflexivity.
Qed.
Lemma c104_limit_trie : exists t, build_trie (row_rules 65536) = Ret t.
Proof.
  destruct (row_insert (N.to_nat 65536) 1 false []) as (cs & E & _); [intros k []|]. unfold build_trie, row_rules.
  eexists. exact (f_equal (fun x => bind x (fun t => Ret (mark_wildcard_tlds t))) E).
Qed.
