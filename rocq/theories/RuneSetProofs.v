(** RuneSetProofs.v - the sets of runes are sets. *)

From Verif Require Import Base BaseFacts Utf8 Str Chars PunyProofs RuneSet.
From Coq Require Import ZifyBool ZifyNat ZifyN Sorted.
Local Open Scope N_scope.

Definition increasing (b : list rune) : Prop := StronglySorted N.lt b.

Lemma index_found : forall value b i, increasing b -> snd (index_in value b i) = true <-> In value b.
Proof.
  intros value b. induction b as [|v b IH]; intros i H; cbn [index_in In]; [split; [discriminate|intros []]|].
  inversion H as [|x l H1 H2]; subst. destruct (N.eqb_spec v value) as [->|D]; [cbn [snd]; tauto|].
  destruct (N.ltb_spec value v) as [L|L].
  - cbn [snd]. split; [discriminate|]. intros [E|I1]; [tauto|]. rewrite Forall_forall in H2. apply H2 in I1. lia.
  - rewrite IH by exact H1. tauto.
Qed.
Lemma index_shift : forall value b i, index_in value b i = ((i + fst (index_in value b 0))%nat, snd (index_in value b 0)).
Proof.
  intros value b. induction b as [|v b IH]; intros i; cbn [index_in]; [cbn [fst snd]; f_equal; lia|].
  destruct (v =? value); [cbn [fst snd]; f_equal; lia|]. destruct (value <? v); [cbn [fst snd]; f_equal; lia|].
  rewrite (IH (S i)), (IH 1%nat). cbn [fst snd]. f_equal. lia.
Qed.
Lemma index_insert : forall value b, increasing b -> snd (index_in value b 0) = false ->
  let p := fst (index_in value b 0) in
  increasing (firstn p b ++ value :: skipn p b) /\ forall r, In r (firstn p b ++ value :: skipn p b) <-> r = value \/ In r b.
Proof.
  intros value b H F p. split.
  - unfold p. clear p. induction b as [|v b IH]; cbn [index_in] in *; [constructor; constructor|].
    inversion H as [|x l H1 H2]; subst. destruct (N.eqb_spec v value) as [->|D]; [discriminate F|].
    destruct (N.ltb_spec value v) as [L|L]; cbn [fst firstn skipn app].
    + constructor; [exact H|]. constructor; [exact L|]. eapply Forall_impl; [|exact H2]. intros a. cbv beta. lia.
    + rewrite index_shift in F |- *. cbn [fst snd] in *. cbn [Nat.add firstn skipn app]. constructor; [apply IH; assumption|].
      apply Forall_forall. intros r I1. rewrite Forall_forall in H2. apply in_app_or in I1 as [I1|[<-|I1]]; [| lia |].
      * apply H2. rewrite <- (firstn_skipn (fst (index_in value b 0)) b). apply in_or_app. auto.
      * apply H2. rewrite <- (firstn_skipn (fst (index_in value b 0)) b). apply in_or_app. auto.
  - intros r. rewrite in_app_iff. cbn [In]. rewrite <- (firstn_skipn p b) at 3. rewrite in_app_iff. intuition.
Qed.

Lemma put_length : forall A (l : list A) i x, length (put_at_index l i x) = length l.
Proof. intros A l. induction l as [|y l IH]; intros [|i] x; cbn [put_at_index length]; auto. Qed.
Lemma put_nth : forall A (l : list A) i x j, nth_error (put_at_index l i x) j = if Nat.eqb i j then match nth_error l j with Some _ => Some x | None => None end else nth_error l j.
Proof.
  intros A l. induction l as [|y l IH]; intros i x j.
  - replace (put_at_index [] i x) with (@nil A) by (destruct i; reflexivity). destruct j; cbn [nth_error]; destruct (Nat.eqb _ _); reflexivity.
  - destruct i as [|i], j as [|j]; cbn [put_at_index nth_error Nat.eqb]; try reflexivity. apply IH.
Qed.

(** What the buckets hold. *)
Record holds_runes (s : intset) (rs : list rune) : Prop := {
  hr_mask : i_mask s < N.of_nat (length (i_buckets s));
  hr_sorted : forall i b, nth_error (i_buckets s) i = Some b -> increasing b;
  hr_in : forall r b, nth_error (i_buckets s) (N.to_nat (N.land r (i_mask s))) = Some b -> In r b <-> In r rs;
  hr_len : exists l, NoDup l /\ (forall r, In r l <-> In r rs) /\ i_length s = N.of_nat (length l) }.
Lemma land_le : forall a b, N.land a b <= b.
Proof.
  intros a b. rewrite (N.land_comm a b). apply N.ldiff_le. apply N.bits_inj. intros n. rewrite N.ldiff_spec, N.land_spec, N.bits_0.
  destruct (N.testbit b n), (N.testbit a n); reflexivity.
Qed.
Lemma bucket_there : forall s rs r, holds_runes s rs -> exists b, nth_error (i_buckets s) (N.to_nat (N.land r (i_mask s))) = Some b.
Proof.
  intros s rs r [M _ _ _]. destruct (nth_error (i_buckets s) (N.to_nat (N.land r (i_mask s)))) as [b|] eqn:E; [eauto|].
  apply nth_error_None in E. pose proof (land_le r (i_mask s)). lia.
Qed.
Lemma holds_exists : forall s rs r, holds_runes s rs -> exists x, iset_exists s r = Ret x /\ (x = true <-> In r rs).
Proof.
  intros s rs r H. destruct (bucket_there s rs r H) as (b & E). unfold iset_exists, bucket_at. rewrite E. cbn [bind]. eexists. split; [reflexivity|].
  rewrite index_found by (eapply hr_sorted; eassumption). apply (hr_in _ _ H). exact E.
Qed.
Lemma holds_set : forall s rs r, holds_runes s rs -> exists s', iset_set s r = Ret s' /\ holds_runes s' (r :: rs).
Proof.
  intros s rs r H. destruct (bucket_there s rs r H) as (b & E). pose proof (hr_sorted _ _ H _ _ E) as Hb. unfold iset_set, bucket_at. rewrite E. cbn [bind].
  destruct (index_in r b 0) as [p found] eqn:Ei. destruct found.
  - exists s. split; [reflexivity|]. assert (I1 : In r rs). { apply (hr_in _ _ H r b E). rewrite <- (index_found r b 0) by exact Hb. rewrite Ei. reflexivity. }
    destruct H as [M S I2 (l & N1 & N2 & N3)]. split; auto.
    + intros x c Ec. rewrite (I2 x c Ec). cbn [In]. split; [tauto|]. intros [<-|X]; [exact I1|exact X].
    + exists l. split; [exact N1|]. split; [|exact N3]. intros x. rewrite N2. cbn [In]. split; [tauto|]. intros [<-|X]; [exact I1|exact X].
  - eexists. split; [reflexivity|]. destruct (index_insert r b Hb) as (X1 & X2); [rewrite Ei; reflexivity|]. rewrite Ei in X1, X2. cbn [fst] in X1, X2.
    split; cbn [i_mask i_length i_buckets].
    + rewrite put_length. apply (hr_mask _ _ H).
    + intros i c. rewrite put_nth. destruct (Nat.eqb_spec (N.to_nat (N.land r (i_mask s))) i) as [<-|D]; [|apply (hr_sorted _ _ H)].
      rewrite E. intros Y. injection Y as <-. exact X1.
    + intros x c. rewrite put_nth. destruct (Nat.eqb_spec (N.to_nat (N.land r (i_mask s))) (N.to_nat (N.land x (i_mask s)))) as [Q|D].
      * rewrite <- Q, E. intros Y. injection Y as <-. rewrite X2. cbn [In]. rewrite (hr_in _ _ H x b) by (rewrite <- Q; exact E). intuition.
      * intros Y. rewrite (hr_in _ _ H x c Y). cbn [In]. split; [tauto|]. intros [<-|X]; [exfalso; apply D; reflexivity|exact X].
    + destruct (hr_len _ _ H) as (l & N1 & N2 & N3). exists (r :: l). split; [|split].
      * constructor; [|exact N1]. rewrite N2. intros X. apply (hr_in _ _ H r b E) in X. rewrite <- (index_found r b 0) in X by exact Hb. rewrite Ei in X. discriminate X.
      * intros x. cbn [In]. rewrite N2. reflexivity.
      * rewrite N3. cbn [length]. lia.
Qed.
Lemma holds_new : forall k size, holds_runes (new_rune k size) [].
Proof.
  intros k size. unfold new_rune. set (count := up_two _). assert (P : 1 <= count) by (unfold count, up_two; lia). clearbody count.
  split; cbn [i_mask i_length i_buckets].
  - rewrite repeat_length. lia.
  - intros i b E. apply nth_error_In, repeat_spec in E. subst b. constructor.
  - intros r b E. apply nth_error_In, repeat_spec in E. subst b. reflexivity.
  - exists []. split; [constructor|]. split; reflexivity.
Qed.
Lemma holds_runs : forall l s rs, holds_runes s rs -> exists s', set_runes l s = Ret s' /\ holds_runes s' (rev (map snd l) ++ rs).
Proof.
  intros l. induction l as [|[i r] l IH]; intros s rs H; cbn [set_runes map rev app snd]; [exists s; auto|].
  destruct (holds_set s rs r H) as (s1 & E1 & H1). rewrite E1. cbn [bind]. destruct (IH s1 _ H1) as (s2 & E2 & H2). exists s2. split; [exact E2|].
  rewrite <- app_assoc. exact H2.
Qed.
Lemma holds_made : forall k s, exists m, make_intset k s = Ret m /\ holds_runes m (rev (map snd (range_str s))).
Proof.
  intros k s. destruct (holds_runs (range_str s) _ _ (holds_new k (biggest_rune (range_str s) 0))) as (m & E & H). exists m. split; [exact E|].
  rewrite app_nil_r in H. exact H.
Qed.
Lemma c107_model : forall k s, exists m, make_intset k s = Ret m /\ forall r, iset_exists m r = Ret (exists_in (make_rune_set s) r).
Proof.
  intros k s. destruct (holds_made k s) as (m & E & H). exists m. split; [exact E|]. intros r. destruct (holds_exists m _ r H) as (x & Ex & I1). rewrite Ex. f_equal.
  apply Bool.eq_true_iff_eq. rewrite I1. unfold exists_in, make_rune_set. rewrite memN_In, <- in_rev. reflexivity.
Qed.
Lemma c107_set : forall k rs, Forall valid_rune rs -> exists m, make_intset k (encode_all rs) = Ret m
  /\ (forall r, In r rs -> iset_exists m r = Ret true) /\ (forall r, ~ In r rs -> iset_exists m r = Ret false)
  /\ exists l, NoDup l /\ (forall r, In r l <-> In r rs) /\ i_length m = N.of_nat (length l).
Proof.
  intros k rs V. destruct (holds_made k (encode_all rs)) as (m & E & H). unfold range_str in H. rewrite range_runes in H by exact V. exists m. split; [exact E|]. split; [|split].
  - intros r I1. destruct (holds_exists m _ r H) as (x & -> & I2). rewrite in_rev in I1. apply I2 in I1. subst x. reflexivity.
  - intros r I1. destruct (holds_exists m _ r H) as (x & -> & I2). rewrite in_rev in I1. destruct x; [|reflexivity]. exfalso. apply I1, I2. reflexivity.
  - destruct (hr_len _ _ H) as (l & N1 & N2 & N3). exists l. split; [exact N1|]. split; [|exact N3]. intros r. rewrite N2, <- in_rev. reflexivity.
Qed.
