(** TableFacts.v - the operations of whole tables, and tries made of tables. *)

From Verif Require Import Base BaseFacts Str Net Trie Extract Psl World Update Calls CallFacts Table TableSpec TableProofs.
From Coq Require Import Permutation ZifyBool ZifyNat ZifyN.
Ltac Zify.zify_post_hook ::= Z.to_euclidean_division_equations.

Section One.
Context {V : Type}.
Variable hash : bytes -> N.
Implicit Types (bs : list (entry V)) (m : table V).

(** A table with buckets. *)
Record full m : Prop := {
  full_good : good hash (t_buckets m);
  full_mask : t_mask m = (N.of_nat (length (t_buckets m)) - 1)%N;
  full_grow : t_grow_at m = (N.of_nat (length (t_buckets m)) * 17 / 20)%N;
  full_length : t_length m = N.of_nat (used (t_buckets m)) }.
Definition sound m : Prop := m = zero_table \/ (full m /\ (t_length m <= t_grow_at m)%N).

Lemma scan_ents : forall m, table_scan m = ents (t_buckets m).
Proof. reflexivity. Qed.
Lemma size_pow : forall m, full m -> exists k, (3 <= k)%N /\ N.of_nat (length (t_buckets m)) = (2 ^ k)%N.
Proof. intros m F. apply (good_size _ _ (full_good _ F)). Qed.
Lemma pow_eight : forall k, (3 <= k)%N -> (8 <= 2 ^ k)%N.
Proof. intros k H. change 8%N with (2 ^ 3)%N. apply N.pow_le_mono_r; [discriminate|exact H]. Qed.

(** ** New *)

Lemma size_loop_pow : forall fuel a c, (a <= c)%N -> (c - a <= N.of_nat fuel)%N -> size_loop fuel (2 ^ a) (2 ^ c) = Ret (2 ^ c)%N.
Proof.
  induction fuel as [|fuel IH]; intros a c L H; cbn [size_loop].
  - replace a with c by lia. rewrite N.ltb_irrefl. reflexivity.
  - destruct (N.eq_dec a c) as [->|Ne]; [rewrite N.ltb_irrefl; reflexivity|].
    assert (P : (2 ^ a < 2 ^ c)%N) by (apply N.pow_lt_mono_r; lia). apply N.ltb_lt in P. rewrite P.
    replace (2 ^ a * 2)%N with (2 ^ (a + 1))%N by (rewrite N.pow_add_r; reflexivity). apply IH; lia.
Qed.
Lemma repeat_unused : forall q i, nth i (repeat (@unused V) q) unused = unused.
Proof. induction q as [|q IH]; intros [|i]; cbn [repeat nth]; try reflexivity. apply IH. Qed.
Lemma filter_unused : forall q, filter occ (repeat (@unused V) q) = [].
Proof. induction q as [|q IH]; [reflexivity|exact IH]. Qed.
Lemma fresh_full : forall k, (3 <= k)%N -> full (mkTable 0 (2 ^ k - 1) (2 ^ k * 17 / 20) (repeat unused (N.to_nat (2 ^ k)))).
Proof.
  intros k Hk. pose proof (pow_eight k Hk) as P. split; cbn [t_buckets t_mask t_grow_at t_length]; rewrite ?repeat_length, ?N2Nat.id; try reflexivity.
  - split.
    + rewrite repeat_length, N2Nat.id. exists k. split; [exact Hk|reflexivity].
    + intros i O. rewrite repeat_unused in O. discriminate O.
    + unfold keys. rewrite filter_unused. constructor.
    + unfold used. rewrite filter_unused, repeat_length. cbn [length]. lia.
    + unfold used. rewrite filter_unused. cbn [length]. lia.
  - unfold used. rewrite filter_unused. reflexivity.
Qed.
Lemma new_zero : exists m, new_table 0 = Ret m /\ full m /\ t_length m = 0%N /\ table_scan m = [] /\ length (t_buckets m) = 8%nat.
Proof. eexists. split; [reflexivity|]. split; [apply (fresh_full 3); reflexivity|]. repeat split. Qed.
Lemma new_pow : forall k, (3 <= k)%N -> exists m, new_table (2 ^ k) = Ret m /\ full m /\ t_length m = 0%N /\ table_scan m = []
  /\ N.of_nat (length (t_buckets m)) = (2 ^ k)%N.
Proof.
  intros k Hk. unfold new_table. rewrite N.log2_pow2 by lia. change 8%N with (2 ^ 3)%N. rewrite size_loop_pow by lia. cbn [bind].
  eexists. split; [reflexivity|]. split; [apply fresh_full; exact Hk|]. cbn [t_length t_buckets]. split; [reflexivity|]. split.
  - rewrite scan_ents. cbn [t_buckets]. unfold ents. rewrite filter_unused. reflexivity.
  - rewrite repeat_length. lia.
Qed.

(** ** set *)

Lemma set_entry_new : forall m k v, full m -> ~ In k (map fst (table_scan m)) ->
  (S (used (t_buckets m)) < length (t_buckets m))%nat -> (N.of_nat (S (used (t_buckets m))) <= 65535)%N ->
  exists m', set_entry m (hash k) k v = Ret m' /\ full m' /\ t_length m' = (t_length m + 1)%N /\ t_grow_at m' = t_grow_at m
    /\ length (t_buckets m') = length (t_buckets m) /\ Permutation (table_scan m') ((k, v) :: table_scan m).
Proof.
  intros m k v [G Em Eg El] Nk R B. rewrite scan_ents, ents_keys in Nk. unfold set_entry, make_entry. cbn [e_hash].
  destruct (good_size _ _ G) as (z & Hz & En). rewrite Em, (home_index _ _ _ En).
  destruct (set_new hash (S (length (t_buckets m))) (t_buckets m) (mkEntry (hash k) (N.land 1 max_dib) v k) 0
              (home (length (t_buckets m)) (hash k))) as (bs' & E1 & E2 & E3 & E4); try assumption.
  - split; [reflexivity|reflexivity|]. intros i Hi. lia.
  - cbn [e_hash]. rewrite Nat.add_0_r. reflexivity.
  - destruct (find_gap (t_buckets m) (home (length (t_buckets m)) (hash k)) (good_room _ _ G)) as (s & Hs & Es). exists s. split; [lia|exact Es].
  - rewrite E1. cbn [bind]. eexists. split; [reflexivity|]. cbn [t_length t_grow_at t_buckets].
    assert (U : used bs' = S (used (t_buckets m))).
    { rewrite <- !ents_used. rewrite (Permutation_length E4). reflexivity. }
    split; [split; cbn [t_length t_grow_at t_buckets t_mask]; rewrite ?E2; try assumption; [reflexivity|lia]|].
    split; [reflexivity|]. split; [reflexivity|]. split; [exact E2|exact E4].
Qed.
Lemma set_entry_old : forall m k v0 v, full m -> In (k, v0) (table_scan m) ->
  exists m' rest, set_entry m (hash k) k v = Ret m' /\ full m' /\ t_length m' = t_length m /\ t_grow_at m' = t_grow_at m
    /\ Permutation (table_scan m) ((k, v0) :: rest) /\ Permutation (table_scan m') ((k, v) :: rest).
Proof.
  intros m k v0 v [G Em Eg El] I1. rewrite scan_ents in I1. destruct (ents_nth _ _ _ I1) as (i & O & Ek & Ev). subst k v0.
  set (b := nth i (t_buckets m) unused) in *. unfold set_entry. cbn [make_entry e_hash]. fold (@make_entry V (hash (e_key b)) 1 v (e_key b)).
  pose proof (set_found hash (t_buckets m) i G O v) as S. fold b in S. rewrite Em. rewrite S. cbn [bind].
  assert (Hi : (i < length (t_buckets m))%nat) by (apply nth_occ_lt; exact O).
  destruct (put_split (t_buckets m) i (set_value b v) Hi) as (l1 & l2 & E1 & E2 & E3). fold b in E1.
  assert (Ob : occ (set_value b v) = true) by exact O.
  eexists. exists (ents l1 ++ ents l2). split; [reflexivity|]. cbn [t_length t_grow_at].
  assert (P0 : filter occ (t_buckets m) = filter occ l1 ++ b :: filter occ l2).
  { rewrite E1, filter_app. cbn [filter]. fold b in O. rewrite O. reflexivity. }
  assert (P1 : filter occ (put_bucket (t_buckets m) i (set_value b v)) = filter occ l1 ++ set_value b v :: filter occ l2).
  { rewrite E3, filter_app. cbn [filter]. rewrite Ob. reflexivity. }
  assert (U : used (put_bucket (t_buckets m) i (set_value b v)) = used (t_buckets m)).
  { unfold used. rewrite P0, P1, !app_length. reflexivity. }
  assert (At : forall q, nth q (put_bucket (t_buckets m) i (set_value b v)) unused
                         = (if Nat.eqb q i then set_value b v else nth q (t_buckets m) unused)).
  { intros q. destruct (Nat.eqb_spec q i) as [->|Ne]; [apply put_same; exact Hi|apply put_other; exact Ne]. }
  split; [split; cbn [t_buckets t_mask t_grow_at t_length]|].
  - assert (M : forall bs e j x, fit hash (t_buckets m) e j -> bs = put_bucket (t_buckets m) i (set_value b v) ->
                fit hash bs e j /\ dist (bat bs x) = dist (bat (t_buckets m) x)).
    { intros bs e j x F ->.
      assert (Q : forall x, dist (bat (put_bucket (t_buckets m) i (set_value b v)) x) = dist (bat (t_buckets m) x)).
      { intros y. unfold bat. rewrite put_length, At. destruct (Nat.eqb_spec (y mod length (t_buckets m)) i) as [->|Ne]; reflexivity. }
      split; [|apply Q]. eapply fit_mono; [apply put_length| |exact F]. intros y. rewrite Q. apply Nat.le_refl. }
    split.
    + rewrite put_length. apply (good_size _ _ G).
    + intros q Oq. rewrite put_length. rewrite At in Oq |- *. destruct (Nat.eqb_spec q i) as [Eq|Ne]; [rewrite Eq in *; clear Eq|].
      * destruct (good_fit _ _ G i O) as (j & F & E). fold b in F, E. exists j. split; [|exact E].
        destruct (M _ b j 0%nat F eq_refl) as ([F1 F2 F3] & _). split; assumption.
      * destruct (good_fit _ _ G q Oq) as (j & F & E). exists j. split; [|exact E]. apply (M _ _ j 0%nat F eq_refl).
    + unfold keys. rewrite P1, map_app. cbn [map]. pose proof (good_keys _ _ G) as N. unfold keys in N. rewrite P0, map_app in N. exact N.
    + rewrite U, put_length. apply (good_room _ _ G).
    + rewrite U. apply (good_small _ _ G).
  - rewrite put_length. reflexivity.
  - rewrite put_length. exact Eg.
  - rewrite U. exact El.
  - split; [reflexivity|]. split; [reflexivity|]. rewrite !scan_ents. cbn [t_buckets]. unfold ents at 1 4. rewrite P0, P1, !map_app. cbn [map].
    split; symmetry; apply Permutation_middle.
Qed.

(** ** resize *)

Lemma move_all_spec : forall bs m, full m -> (forall b, In b bs -> occ b = true -> e_hash b = hash (e_key b)) ->
  NoDup (keys bs ++ map fst (table_scan m)) -> (used bs + used (t_buckets m) < length (t_buckets m))%nat ->
  (N.of_nat (used bs + used (t_buckets m)) <= 65535)%N ->
  exists m', move_all bs m = Ret m' /\ full m' /\ t_grow_at m' = t_grow_at m /\ length (t_buckets m') = length (t_buckets m)
    /\ t_length m' = (N.of_nat (used bs) + t_length m)%N /\ Permutation (table_scan m') (ents bs ++ table_scan m).
Proof.
  induction bs as [|b bs IH]; intros m F Hh N R B; cbn [move_all].
  - exists m. repeat split; try reflexivity; apply F.
  - fold (occ b). unfold used, keys, ents in *. cbn [filter] in *. destruct (occ b) eqn:O; cbn [bind map app length] in *.
    + rewrite (Hh b (or_introl eq_refl) O). apply NoDup_cons_iff in N as (Nb & N).
      destruct (set_entry_new m (e_key b) (e_value b) F) as (m1 & E1 & F1 & L1 & G1 & S1 & P1).
      * intros I1. apply Nb. apply in_app_iff. right. exact I1.
      * unfold used. lia.
      * unfold used. lia.
      * rewrite E1. cbn [bind]. assert (U1 : length (filter occ (t_buckets m1)) = S (length (filter occ (t_buckets m)))).
        { change (used (t_buckets m1) = S (used (t_buckets m))). rewrite <- !ents_used, <- !scan_ents. rewrite (Permutation_length P1). reflexivity. }
        destruct (IH m1 F1) as (m' & E2 & F2 & G2 & S2 & L2 & P2).
        -- intros c Ic. apply Hh. right. exact Ic.
        -- rewrite (Permutation_map fst P1). cbn [map fst]. rewrite <- Permutation_middle. constructor; assumption.
        -- lia.
        -- lia.
        -- exists m'. split; [exact E2|]. split; [exact F2|]. split; [congruence|]. split; [congruence|]. split; [lia|].
           rewrite P2, P1. symmetry. apply Permutation_middle.
    + apply IH; try assumption. intros c Ic. apply Hh. right. exact Ic.
Qed.
Lemma full_hash : forall m b, full m -> In b (t_buckets m) -> occ b = true -> e_hash b = hash (e_key b).
Proof.
  intros m b F I1 O. destruct (In_nth _ _ unused I1) as (i & L & E). rewrite <- E in *. destruct (good_fit _ _ (full_good _ F) i O) as (j & Fi & _). apply Fi.
Qed.
Lemma resize_spec : forall m, full m -> exists m', resize m (N.of_nat (length (t_buckets m)) * 2) = Ret m' /\ full m'
  /\ length (t_buckets m') = (length (t_buckets m) * 2)%nat /\ t_length m' = t_length m /\ Permutation (table_scan m') (table_scan m).
Proof.
  intros m F. destruct (size_pow _ F) as (k & Hk & En). unfold resize. rewrite En.
  replace (2 ^ k * 2)%N with (2 ^ (k + 1))%N by (rewrite N.pow_add_r; reflexivity).
  destruct (new_pow (k + 1) ltac:(lia)) as (n & E1 & F1 & L1 & S1 & Sz). rewrite E1. cbn [bind].
  assert (Sz' : length (t_buckets n) = (length (t_buckets m) * 2)%nat).
  { rewrite N.pow_add_r, <- En in Sz. change (2 ^ 1)%N with 2%N in Sz. lia. }
  assert (U : used (t_buckets n) = 0%nat) by (rewrite <- ents_used, <- scan_ents, S1; reflexivity).
  pose proof (good_room _ _ (full_good _ F)) as Ro. pose proof (good_small _ _ (full_good _ F)) as Sm.
  destruct (move_all_spec (t_buckets m) n F1) as (m' & E2 & F2 & G2 & S2 & L2 & P2).
  - intros b. apply full_hash. exact F.
  - rewrite S1. cbn [map]. rewrite app_nil_r. apply (good_keys _ _ (full_good _ F)).
  - lia.
  - lia.
  - exists m'. split; [exact E2|]. split; [exact F2|]. split; [congruence|]. rewrite S1, app_nil_r in P2. rewrite (full_length _ F). split; [lia|exact P2].
Qed.

(** ** Set, Get, Len and Scan *)

Lemma sound_full : forall m, sound m -> m = zero_table \/ full m.
Proof. intros m [E|(F & _)]; [left|right]; assumption. Qed.
Lemma sound_len : forall m, sound m -> table_len m = N.of_nat (length (table_scan m)).
Proof. intros m [->|(F & _)]; [reflexivity|]. unfold table_len. rewrite (full_length _ F), scan_ents, ents_used. reflexivity. Qed.
Lemma sound_keys : forall m, sound m -> NoDup (map fst (table_scan m)).
Proof. intros m [->|(F & _)]; [constructor|]. rewrite scan_ents, ents_keys. apply (good_keys _ _ (full_good _ F)). Qed.
Lemma sound_zero : sound zero_table.
Proof. left. reflexivity. Qed.

Lemma get_table : forall m k, full m -> table_get hash m k = table_get hash (mkTable 0 (N.of_nat (length (t_buckets m)) - 1) 0 (t_buckets m)) k.
Proof. intros m k F. unfold table_get. cbn [t_buckets t_mask]. rewrite (full_mask _ F). reflexivity. Qed.
Lemma get_in : forall m k v, sound m -> In (k, v) (table_scan m) -> table_get hash m k = Ret (v, true).
Proof.
  intros m k v [->|(F & _)] I1; [destruct I1|]. rewrite (get_table _ _ F). rewrite scan_ents in I1.
  destruct (ents_nth _ _ _ I1) as (i & O & <- & <-). apply get_found; [apply F|exact O].
Qed.
Lemma get_out : forall m k, sound m -> ~ In k (map fst (table_scan m)) -> table_get hash m k = Ret (None, false).
Proof.
  intros m k [->|(F & _)] I1; [reflexivity|]. rewrite (get_table _ _ F). rewrite scan_ents, ents_keys in I1. apply get_absent; [apply F|exact I1].
Qed.

Lemma set_spec : forall m k v, sound m -> (N.of_nat (S (length (table_scan m))) <= 65535)%N \/ In k (map fst (table_scan m)) ->
  exists m' rest, table_set hash m k v = Ret m' /\ sound m' /\ Permutation (table_scan m') ((k, v) :: rest)
    /\ ((~ In k (map fst (table_scan m)) /\ Permutation (table_scan m) rest) \/ exists v0, Permutation (table_scan m) ((k, v0) :: rest)).
Proof.
  intros m k v S B. unfold table_set.
  assert (H1 : exists m1, (if (length (t_buckets m) =? 0)%nat then new_table 0 else Ret m) = Ret m1 /\ full m1 /\ (t_length m1 <= t_grow_at m1)%N
                 /\ table_scan m1 = table_scan m).
  { destruct S as [->|(F & L)].
    - destruct new_zero as (m1 & E & F & L & P & _). exists m1. cbn [length t_buckets zero_table Nat.eqb]. rewrite E, P, L. split; [reflexivity|]. split; [exact F|].
      split; [lia|reflexivity].
    - exists m. destruct (Nat.eqb_spec (length (t_buckets m)) 0) as [Z|_]; [|split; [reflexivity|split; [exact F|split; [exact L|reflexivity]]]].
      pose proof (good_room _ _ (full_good _ F)). lia. }
  destruct H1 as (m1 & -> & F1 & L1 & S1). cbn [bind].
  assert (H2 : exists m2, (if (t_grow_at m1 <=? t_length m1)%N then resize m1 (N.of_nat (length (t_buckets m1)) * 2) else Ret m1) = Ret m2
                 /\ full m2 /\ (t_length m2 < t_grow_at m2)%N /\ Permutation (table_scan m2) (table_scan m)).
  { destruct (N.leb_spec (t_grow_at m1) (t_length m1)) as [Ge|Lt].
    - destruct (resize_spec m1 F1) as (m2 & E & F2 & Sz & L2 & P2). exists m2. split; [exact E|]. split; [exact F2|]. rewrite <- S1. split; [|exact P2].
      rewrite L2, (full_grow _ F2), Sz. rewrite (full_grow _ F1) in L1. destruct (size_pow _ F1) as (z & Hz & En). pose proof (pow_eight z Hz). lia.
    - exists m1. rewrite S1. split; [reflexivity|]. split; [exact F1|]. split; [exact Lt|reflexivity]. }
  destruct H2 as (m2 & -> & F2 & L2 & P2). cbn [bind].
  assert (Kp : Permutation (map fst (table_scan m2)) (map fst (table_scan m))) by (apply Permutation_map; exact P2).
  destruct (in_dec (list_eq_dec N.eq_dec) k (map fst (table_scan m))) as [I1|I1].
  - pose proof I1 as I2. apply (Permutation_in _ (Permutation_sym Kp)) in I2. apply in_map_iff in I2. destruct I2 as ((k' & v0) & Ek & I2). cbn [fst] in Ek. subst k'.
    destruct (set_entry_old m2 k v0 v F2 I2) as (m' & rest & E & F & L & Gr & Pa & Pb). exists m', rest. split; [exact E|].
    split; [right; split; [exact F|rewrite L, Gr; lia]|]. split; [exact Pb|]. right. exists v0. rewrite <- P2. exact Pa.
  - assert (I2 : ~ In k (map fst (table_scan m2))) by (intros I2; apply I1; apply (Permutation_in _ Kp); exact I2).
    assert (U : used (t_buckets m2) = length (table_scan m)) by (rewrite <- ents_used, <- scan_ents; apply Permutation_length; exact P2).
    destruct B as [B|B]; [|contradiction].
    destruct (set_entry_new m2 k v F2 I2) as (m' & E & F & L & Gr & Sz & P).
    + pose proof (full_length _ F2) as El. rewrite (full_grow _ F2) in L2. destruct (size_pow _ F2) as (z & Hz & En). pose proof (pow_eight z Hz). lia.
    + rewrite U. exact B.
    + exists m', (table_scan m2). split; [exact E|]. split; [right; split; [exact F|rewrite L, Gr; lia]|]. split; [exact P|].
      left. split; [exact I1|]. symmetry. exact P2.
Qed.
End One.
