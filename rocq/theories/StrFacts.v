(** StrFacts.v - specifications of the scanning functions of strings.go. *)

From Verif Require Import Base BaseFacts Utf8 Chars Utf8Facts Str.
From Coq Require Import ZifyBool ZifyNat ZifyN.
Local Open Scope N_scope.

(** ** Ranging over a string *)

Lemma range_from_skip : forall k s i, (k <= length s)%nat ->
  range_from s k i = range_from (skipn k s) 0 (i + Z.of_nat k).
Proof.
  induction k as [|k IH]; intros s i H.
  - cbn [skipn]. f_equal. lia.
  - destruct s as [|b s]; [cbn in H; lia|]. cbn [range_from skipn]. cbn [length] in H.
    rewrite IH by lia. f_equal. lia.
Qed.

Lemma range_from_step : forall s r n i, s <> [] -> decode_rune s = (r, n) ->
  range_from s 0 i = (i, r) :: range_from (skipn n s) 0 (i + Z.of_nat n).
Proof.
  intros s r n i Hs D. pose proof (decode_size s r n D Hs) as Hn.
  destruct s as [|b s]; [contradiction|]. cbn [range_from]. rewrite D. f_equal.
  cbn [length] in Hn. rewrite range_from_skip by lia.
  destruct n as [|n]; [lia|]. cbn [skipn]. rewrite Nat.sub_succ, Nat.sub_0_r. f_equal. lia.
Qed.

Lemma range_from_encode : forall r q i, valid_rune r ->
  range_from (encode r ++ q) 0 i = (i, r) :: range_from q 0 (i + len (encode r)).
Proof.
  intros r q i V. rewrite (range_from_step _ r (length (encode r))).
  - rewrite skipn_app, skipn_all, Nat.sub_diag. reflexivity.
  - pose proof (encode_nonempty r V). destruct (encode r); [contradiction|discriminate].
  - apply decode_encode. exact V.
Qed.

(** Decoding a string from the left: induction over its runes. *)
Lemma rune_ind : forall P : bytes -> Prop,
  P [] ->
  (forall r q, valid_rune r -> decode_rune (encode r ++ q) = (r, length (encode r)) ->
               P q -> P (encode r ++ q)) ->
  (forall b q, decode_rune (b :: q) = (rune_error, 1%nat) -> P q -> P (b :: q)) ->
  forall s, P s.
Proof.
  intros P H0 H1 H2 s. remember (length s) as n eqn:En. revert s En.
  induction n as [n IH] using (well_founded_induction lt_wf). intros s ->.
  destruct s as [|b t]; [exact H0|].
  destruct (decode_rune (b :: t)) as [r k] eqn:D.
  destruct (decode_inv _ _ _ D ltac:(discriminate)) as [(q & V & E & ->)|(-> & ->)].
  - rewrite E in *. apply H1; auto. apply (IH (length q)); auto.
    rewrite app_length. pose proof (encode_length r V). lia.
  - apply H2; auto. apply (IH (length t)); auto.
Qed.

(** ** ASCII sets (C44) *)

Lemma update_nth_nth : forall l n m f, (n < length l)%nat ->
  nth m (update_nth n f l) 0 = if (n =? m)%nat then f (nth m l 0) else nth m l 0.
Proof.
  induction l as [|x l IH]; intros n m f H; [cbn in H; lia|].
  destruct n as [|n], m as [|m]; cbn [update_nth nth Nat.eqb]; try reflexivity.
  apply IH. cbn in H. lia.
Qed.

Lemma update_nth_length : forall l n f, length (update_nth n f l) = length l.
Proof.
  induction l as [|x l IH]; intros [|n] f; cbn [update_nth length]; auto.
Qed.

Lemma contains_testbit : forall as_ c,
  contains as_ c = N.testbit (nth (N.to_nat (c / 32)) as_ 0) (c mod 32).
Proof.
  intros as_ c. unfold contains. set (w := nth _ as_ 0). set (k := c mod 32).
  destruct (N.testbit w k) eqn:E.
  - destruct (N.eqb_spec (N.land w (N.shiftl 1 k)) 0) as [H|H]; [|reflexivity].
    exfalso. apply (f_equal (fun x => N.testbit x k)) in H.
    rewrite N.land_spec, E, N.shiftl_spec_high, N.sub_diag, N.bits_0 in H by lia. discriminate.
  - destruct (N.eqb_spec (N.land w (N.shiftl 1 k)) 0) as [H|H]; [reflexivity|].
    exfalso. apply H. apply N.bits_inj_0. intros m. rewrite N.land_spec.
    destruct (N.eq_dec m k) as [->|Hm]; [rewrite E; reflexivity|].
    replace (N.testbit (N.shiftl 1 k) m) with false; [apply andb_false_r|].
    symmetry. rewrite N.shiftl_1_l. apply N.pow2_bits_false. auto.
Qed.

Lemma contains_update : forall as_ c d, length as_ = 8%nat -> d < 128 ->
  contains (update_nth (N.to_nat (d / 32)) (fun w => N.lor w (N.shiftl 1 (d mod 32))) as_) c
  = contains as_ c || (c =? d).
Proof.
  intros as_ c d L Hd. rewrite !contains_testbit, update_nth_nth.
  2:{ rewrite L. assert (d / 32 < 4) by (apply N.div_lt_upper_bound; lia). lia. }
  destruct (Nat.eqb_spec (N.to_nat (d / 32)) (N.to_nat (c / 32))) as [E|E].
  - apply N2Nat.inj in E. rewrite N.lor_spec. f_equal.
    rewrite N.shiftl_1_l.
    destruct (N.eqb_spec c d) as [->|Hne]; [apply N.pow2_bits_true|].
    apply N.pow2_bits_false. intros E2. apply Hne.
    rewrite (N.div_mod c 32), (N.div_mod d 32) by discriminate. congruence.
  - destruct (N.eqb_spec c d) as [->|]; [contradiction|]. rewrite orb_false_r. reflexivity.
Qed.

Definition ascii_step (as_ : ascii_set) (ic : Z * rune) : ascii_set :=
  let '(_, c) := ic in
  if c <? 128
  then update_nth (N.to_nat (c / 32)) (fun w => N.lor w (N.shiftl 1 (c mod 32))) as_
  else as_.

Lemma ascii_fold : forall rs as_ c, length as_ = 8%nat ->
  contains (fold_left ascii_step rs as_) c
  = contains as_ c || existsb (fun '(_, d) => (d <? 128) && (c =? d)) rs.
Proof.
  induction rs as [|[i d] rs IH]; intros as_ c L; cbn [fold_left existsb].
  - rewrite orb_false_r. reflexivity.
  - unfold ascii_step at 2. destruct (N.ltb_spec d 128) as [Hd|Hd].
    + rewrite IH by (rewrite update_nth_length; exact L).
      rewrite contains_update by assumption. cbn [andb]. rewrite orb_assoc. reflexivity.
    + rewrite IH by exact L. cbn [andb orb]. reflexivity.
Qed.

Lemma encode_high : forall r, valid_rune r -> 128 <= r -> Forall (fun b => 128 <= b) (encode r).
Proof.
  intros r V H.
  destruct (encode_cases r V) as
    [(H' & ->)|[(b0 & b1 & -> & H0 & H1 & Hr)|[(b0 & b1 & b2 & -> & H0 & Hs & H1 & H2 & Hr)
    |(b0 & b1 & b2 & b3 & -> & H0 & Hs & H1 & H2 & H3 & Hr)]]];
    repeat constructor; lia.
Qed.

Lemma encode_low : forall r, r < 128 -> encode r = [r].
Proof. intros r H. unfold encode. replace (r <? 128) with true by lia. reflexivity. Qed.

Lemma memN_app : forall c a b, memN c (a ++ b) = memN c a || memN c b.
Proof. intros. unfold memN. apply existsb_app. Qed.

Lemma memN_high : forall c l, c < 128 -> Forall (fun b => 128 <= b) l -> memN c l = false.
Proof.
  intros c l Hc. induction 1 as [|b l Hb Hl IH]; cbn [memN existsb]; [reflexivity|].
  unfold memN in IH. rewrite IH. replace (c =? b) with false by lia. reflexivity.
Qed.

Lemma decode_error_high : forall b q, decode_rune (b :: q) = (rune_error, 1%nat) -> 128 <= b.
Proof.
  intros b q D. cbn [decode_rune] in D. destruct (N.ltb_spec b 128) as [H|H]; [|exact H].
  unfold rune_error in D. injection D as ->. lia.
Qed.

Lemma range_ascii : forall s c i, c < 128 ->
  existsb (fun '(_, d) => (d <? 128) && (c =? d)) (range_from s 0 i) = memN c s.
Proof.
  intros s c i Hc. revert i. induction s as [|r q V D IH|b q D IH] using rune_ind; intros i.
  - reflexivity.
  - rewrite range_from_encode by exact V. cbn [existsb]. rewrite IH, memN_app. f_equal.
    destruct (N.ltb_spec r 128) as [Hr|Hr].
    + rewrite encode_low by exact Hr. cbn. rewrite orb_false_r. reflexivity.
    + rewrite memN_high; auto. apply encode_high; auto.
  - rewrite (range_from_step (b :: q) _ _ i ltac:(discriminate) D). cbn [existsb skipn]. rewrite IH.
    apply decode_error_high in D. cbn [memN existsb].
    replace (c =? b) with false by lia. reflexivity.
Qed.

Theorem contains_make_ascii_set : forall chars c,
  contains (make_ascii_set chars) c = (c <? 128) && memN c chars.
Proof.
  intros chars c. unfold make_ascii_set.
  change (contains (fold_left ascii_step (range_str chars) [0;0;0;0;0;0;0;0]) c
          = (c <? 128) && memN c chars).
  rewrite ascii_fold by reflexivity.
  replace (contains [0;0;0;0;0;0;0;0] c) with false.
  2:{ rewrite contains_testbit. generalize (N.to_nat (c / 32)). intros n.
      do 8 (destruct n as [|n]; [symmetry; apply N.bits_0|]). destruct n; symmetry; apply N.bits_0. }
  cbn [orb]. destruct (N.ltb_spec c 128) as [Hc|Hc]; cbn [andb].
  - apply range_ascii. exact Hc.
  - apply not_true_is_false. intros H. apply existsb_exists in H as ([i d] & _ & H). lia.
Qed.

(** ** Scanning for the runes of a set *)

Section Scan.
Variable chars : rune_set.
Hypothesis Hgood : good_set chars.

Lemma good_in : forall r, exists_in chars r = true -> In r chars /\ valid_rune r /\ r <> rune_error.
Proof.
  intros r H. apply memN_In in H. split; [exact H|].
  unfold good_set in Hgood. rewrite Forall_forall in Hgood. apply Hgood. exact H.
Qed.

Local Notation ends := (Chars.ends chars).
Local Notation starts := (Chars.starts chars).
Local Notation free := (Chars.free chars).
Local Notation star := (Chars.star chars).
Local Notation trimmed := (Chars.trimmed chars).

Lemma in_valid : forall r, In r chars -> valid_rune r.
Proof.
  intros r H. unfold good_set in Hgood. rewrite Forall_forall in Hgood. apply Hgood. exact H.
Qed.

Lemma decode_last_in : forall s r n, s <> [] -> decode_last s = (r, n) -> exists_in chars r = true ->
  exists p, s = p ++ encode r /\ n = length (encode r) /\ In r chars.
Proof.
  intros s r n Hs D H. destruct (good_in r H) as (Hin & V & Hne).
  destruct (decode_last_inv s r n D Hs) as [(p & _ & -> & ->)|(-> & _)]; [|contradiction].
  exists p. auto.
Qed.

Lemma decode_last_notin : forall s r n, decode_last s = (r, n) -> exists_in chars r = false -> ~ ends s.
Proof.
  intros s r n D H (p & r' & Hin & ->).
  rewrite decode_last_encode in D by (apply in_valid; exact Hin). injection D as <- <-.
  apply memN_In in Hin. unfold exists_in in H. congruence.
Qed.

Lemma decode_first_in : forall s r n, s <> [] -> decode_rune s = (r, n) -> exists_in chars r = true ->
  exists q, s = encode r ++ q /\ n = length (encode r) /\ In r chars.
Proof.
  intros s r n Hs D H. destruct (good_in r H) as (Hin & V & Hne).
  destruct (decode_inv s r n D Hs) as [(p & _ & -> & ->)|(-> & _)]; [|contradiction].
  exists p. auto.
Qed.

Lemma decode_first_notin : forall s r n, decode_rune s = (r, n) -> exists_in chars r = false -> ~ starts s.
Proof.
  intros s r n D H (r' & q & Hin & ->).
  rewrite decode_encode in D by (apply in_valid; exact Hin). injection D as <- <-.
  apply memN_In in Hin. unfold exists_in in H. congruence.
Qed.

(** No character of the set ends strictly inside the last decoded rune. *)
Lemma decode_last_gap : forall s r n j, s <> [] -> decode_last s = (r, n) ->
  exists_in chars r = false -> (length s - n < j <= length s)%nat -> ~ ends (firstn j s).
Proof.
  intros s r n j Hs D H Hj.
  destruct (Nat.eq_dec j (length s)) as [->|Hne].
  { rewrite firstn_all. eapply decode_last_notin; eauto. }
  destruct (decode_last_inv s r n D Hs) as [(p & V & Es & En)|(-> & ->)]; [|lia].
  intros (p' & r' & Hin & E). pose proof (in_valid r' Hin) as V'.
  pose proof (firstn_skipn j s) as Hsplit. rewrite E in Hsplit.
  set (z := skipn j s) in *.
  assert (Hz : length z = (length s - j)%nat) by (apply skipn_length).
  rewrite Es in Hsplit. rewrite <- app_assoc in Hsplit.
  destruct (app_split _ _ _ _ _ Hsplit) as [(m & -> & Hm)|(m & Hm0 & -> & Hm)].
  - (* p = p' ++ m ; encode r' ++ z = m ++ encode r *)
    rewrite <- (app_nil_r (encode r)) in Hm.
    destruct (encode_sync _ _ _ _ _ V' V Hm) as [(-> & -> & ->)|(y & -> & ->)].
    + cbn [length] in Hz. lia.
    + rewrite app_nil_r, app_length in Hz. lia.
  - rewrite <- (app_nil_r (encode r)) in Hm.
    destruct (encode_sync _ _ _ _ _ V V' Hm) as [(-> & _)|(y & _ & Hy)]; [contradiction|].
    pose proof (encode_nonempty r' V'). destruct y; [|discriminate]. cbn [app] in Hy.
    destruct (encode r'); [contradiction|discriminate].
Qed.

Lemma firstn_le : forall (s : bytes) i j, (i <= j)%nat -> firstn i (firstn j s) = firstn i s.
Proof. intros. rewrite firstn_firstn, Nat.min_l by lia. reflexivity. Qed.

Lemma last_index_from_spec : forall i s skip, (i <= length s)%nat ->
  (forall j, (i - skip < j <= i)%nat -> ~ ends (firstn j s)) ->
  (last_index_from s i skip chars = (-1)%Z /\ (forall j, (j <= i)%nat -> ~ ends (firstn j s)))
  \/ (exists p r, In r chars /\ last_index_from s i skip chars = len p
      /\ (length (p ++ encode r) <= i)%nat
      /\ firstn (length (p ++ encode r)) s = p ++ encode r
      /\ (forall j, (length (p ++ encode r) < j <= i)%nat -> ~ ends (firstn j s))).
Proof.
  induction i as [|k IH]; intros s skip Hi Hskip.
  - left. split; [reflexivity|]. intros j Hj (p & r & Hin & E).
    replace j with 0%nat in E by lia. cbn [firstn] in E.
    pose proof (encode_nonempty r (in_valid r Hin)). destruct p, (encode r); discriminate || contradiction.
  - cbn [last_index_from]. destruct skip as [|sk].
    + destruct (decode_last (firstn (S k) s)) as [r n] eqn:D.
      assert (Hne : firstn (S k) s <> []).
      { intros E. apply (f_equal (@length N)) in E. rewrite firstn_length in E. cbn [length] in E. lia. }
      assert (HL : length (firstn (S k) s) = S k) by (rewrite firstn_length; lia).
      destruct (exists_in chars r) eqn:Ein.
      * right. destruct (decode_last_in _ _ _ Hne D Ein) as (p & E & -> & Hin).
        exists p, r. rewrite E in HL. split; [exact Hin|]. rewrite HL. rewrite app_length in HL.
        split; [unfold len; lia|]. split; [lia|]. split; [exact E|]. intros j Hj. lia.
      * pose proof (decode_last_size _ _ _ D Hne) as Hn. rewrite HL in Hn.
        assert (Hgap : forall j, (S k - n < j <= S k)%nat -> ~ ends (firstn j s)).
        { intros j Hj. rewrite <- (firstn_le s j (S k)) by lia.
          eapply decode_last_gap; eauto. rewrite HL. lia. }
        assert (Hpre : forall j, (k - (n - 1) < j <= k)%nat -> ~ ends (firstn j s))
          by (intros j Hj; apply Hgap; lia).
        destruct (IH s (n - 1)%nat ltac:(lia) Hpre) as [(-> & A)|(p & r' & Hin & -> & A & B & C)].
        -- left. split; [reflexivity|]. intros j Hj.
           destruct (Nat.eq_dec j (S k)) as [->|]; [apply Hgap; lia|apply A; lia].
        -- right. exists p, r'. repeat split; auto. intros j Hj.
           destruct (Nat.eq_dec j (S k)) as [->|]; [apply Hgap; lia|apply C; lia].
    + assert (Hpre : forall j, (k - sk < j <= k)%nat -> ~ ends (firstn j s))
        by (intros j Hj; apply Hskip; lia).
      destruct (IH s sk ltac:(lia) Hpre) as [(-> & A)|(p & r' & Hin & -> & A & B & C)].
      * left. split; [reflexivity|]. intros j Hj.
        destruct (Nat.eq_dec j (S k)) as [->|]; [apply Hskip; lia|apply A; lia].
      * right. exists p, r'. repeat split; auto. intros j Hj.
        destruct (Nat.eq_dec j (S k)) as [->|]; [apply Hskip; lia|apply C; lia].
Qed.

(** lastIndexAny finds the last occurrence. *)
Lemma last_index_any_spec : forall s,
  (last_index_any s chars = (-1)%Z /\ free s)
  \/ (exists p r q, In r chars /\ s = p ++ encode r ++ q /\ last_index_any s chars = len p /\ free q).
Proof.
  intros s. unfold last_index_any.
  destruct (last_index_from_spec (length s) s 0 ltac:(lia) ltac:(intros; lia))
    as [(-> & A)|(p & r & Hin & -> & A & B & C)].
  - left. split; [reflexivity|]. intros p r q Hin E.
    apply (A (length (p ++ encode r))).
    + rewrite E, app_assoc, (app_length (p ++ encode r)). lia.
    + exists p, r. split; [exact Hin|]. rewrite E at 1.
      rewrite app_assoc, firstn_app, firstn_all, Nat.sub_diag. cbn [firstn]. apply app_nil_r.
  - right. exists p, r, (skipn (length (p ++ encode r)) s). split; [exact Hin|].
    assert (E : s = (p ++ encode r) ++ skipn (length (p ++ encode r)) s).
    { rewrite <- B at 1. symmetry. apply firstn_skipn. }
    split; [rewrite app_assoc; exact E|]. split; [reflexivity|].
    set (q := skipn (length (p ++ encode r)) s) in *. clearbody q. intros p' r' q' Hin' ->.
    pose proof (encode_length r' (in_valid r' Hin')) as Hl.
    apply (C (length ((p ++ encode r) ++ p' ++ encode r'))).
    + rewrite E. rewrite !app_length in *. lia.
    + exists ((p ++ encode r) ++ p'), r'. split; [exact Hin'|].
      rewrite E. replace ((p ++ encode r) ++ p' ++ encode r' ++ q')
        with (((p ++ encode r) ++ p' ++ encode r') ++ q') by (rewrite <- !app_assoc; reflexivity).
      rewrite firstn_app, firstn_all, Nat.sub_diag. cbn [firstn].
      rewrite app_nil_r, <- !app_assoc. reflexivity.
Qed.

Lemma free_nil : free [].
Proof.
  intros p r q Hin E. pose proof (encode_nonempty r (in_valid r Hin)).
  destruct p, (encode r); discriminate || contradiction.
Qed.

(** The position of the last occurrence is unique. *)
Lemma occurrence_unique : forall p r q p' r' q', In r chars -> In r' chars ->
  p ++ encode r ++ q = p' ++ encode r' ++ q' -> free q -> free q' -> p = p' /\ r = r' /\ q = q'.
Proof.
  intros p r q p' r' q' Hr Hr' E Hq Hq'.
  pose proof (in_valid r Hr) as V. pose proof (in_valid r' Hr') as V'.
  destruct (app_split _ _ _ _ _ E) as [(m & -> & Hm)|(m & Hm0 & -> & Hm)].
  - destruct (encode_sync _ _ _ _ _ V V' Hm) as [(-> & -> & ->)|(y & -> & ->)].
    + rewrite app_nil_r. auto.
    + exfalso. apply (Hq y r' q' Hr'). reflexivity.
  - destruct (encode_sync _ _ _ _ _ V' V Hm) as [(-> & _)|(y & -> & ->)]; [contradiction|].
    exfalso. apply (Hq' y r q Hr). reflexivity.
Qed.

Lemma last_index_any_free : forall s, free s -> last_index_any s chars = (-1)%Z.
Proof.
  intros s H. destruct (last_index_any_spec s) as [(-> & _)|(p & r & q & Hin & -> & _)]; [reflexivity|].
  exfalso. apply (H p r q Hin). reflexivity.
Qed.

Lemma last_index_any_occ : forall p r q, In r chars -> free q ->
  last_index_any (p ++ encode r ++ q) chars = len p.
Proof.
  intros p r q Hr Hq.
  destruct (last_index_any_spec (p ++ encode r ++ q)) as [(_ & H)|(p' & r' & q' & Hin & E & -> & Hq')].
  - exfalso. apply (H p r q Hr). reflexivity.
  - destruct (occurrence_unique p r q p' r' q' Hr Hin E Hq Hq') as (-> & _). reflexivity.
Qed.

(** ** Trimming (C45, C02) *)

Lemma star_app : forall a b, star a -> star b -> star (a ++ b).
Proof.
  induction 1 as [|r w Hin Hw IH]; intros Hb; cbn [app]; [exact Hb|].
  rewrite <- app_assoc. constructor; auto.
Qed.

Lemma star_single : forall r, In r chars -> star (encode r).
Proof. intros r H. rewrite <- (app_nil_r (encode r)). constructor; [exact H|constructor]. Qed.

Lemma star_snoc_inv : forall w, star w -> w = [] \/ exists w' r, star w' /\ In r chars /\ w = w' ++ encode r.
Proof.
  induction 1 as [|r w Hin Hw IH]; [left; reflexivity|right].
  destruct IH as [->|(w' & r' & Hw' & Hr' & ->)].
  - exists [], r. rewrite app_nil_r. repeat split; auto; constructor.
  - exists (encode r ++ w'), r'. rewrite <- app_assoc. repeat split; auto. constructor; auto.
Qed.

Lemma trim_right_skip : forall k i s e f, (k <= i)%nat ->
  trim_right_loop s i k chars e f = trim_right_loop s (i - k) 0 chars e f.
Proof.
  induction k as [|k IH]; intros i s e f H; [rewrite Nat.sub_0_r; reflexivity|].
  destruct i as [|i]; [lia|]. cbn [trim_right_loop]. rewrite IH by lia. reflexivity.
Qed.

Lemma trim_right_spec : forall i s e f, (i <= length s)%nat ->
  exists t w, firstn i s = t ++ w /\ star w /\ ~ ends t
    /\ (t <> [] -> exists f', trim_right_loop s i 0 chars e f = (len t, f', true))
    /\ (t = [] -> exists e', trim_right_loop s i 0 chars e f
                             = (e', f || negb (len w =? 0)%Z, false)
                             /\ (w = [] -> e' = e)).
Proof.
  intros i. induction i as [i IH] using (well_founded_induction lt_wf). intros s e f Hi.
  destruct i as [|k].
  { exists [], []. cbn [firstn trim_right_loop]. split; [reflexivity|]. split; [constructor|].
    split. { intros (p & r & Hin & E). pose proof (encode_nonempty r (in_valid r Hin)).
             destruct p, (encode r); discriminate || contradiction. }
    split; [contradiction|]. intros _. exists e. rewrite orb_false_r. auto. }
  cbn [trim_right_loop]. destruct (decode_last (firstn (S k) s)) as [r n] eqn:D.
  assert (Hne : firstn (S k) s <> []).
  { intros E. apply (f_equal (@length N)) in E. rewrite firstn_length in E. cbn [length] in E. lia. }
  assert (HL : length (firstn (S k) s) = S k) by (rewrite firstn_length; lia).
  pose proof (decode_last_size _ _ _ D Hne) as Hn. rewrite HL in Hn.
  destruct (exists_in chars r) eqn:Ein.
  - destruct (decode_last_in _ _ _ Hne D Ein) as (p & E & En & Hin).
    rewrite trim_right_skip by lia.
    destruct (IH (k - (n - 1))%nat ltac:(lia) s (Z.of_nat (S k)) true ltac:(lia))
      as (t & w & Es & Hw & Ht & A & B).
    assert (Ep : p = t ++ w).
    { rewrite <- Es. rewrite <- (firstn_le s _ (S k)) by lia. rewrite E.
      rewrite E, app_length in HL.
      replace (k - (n - 1))%nat with (length p) by lia.
      rewrite firstn_app, firstn_all, Nat.sub_diag. cbn [firstn]. rewrite app_nil_r. reflexivity. }
    exists t, (w ++ encode r). rewrite E, Ep, <- app_assoc. split; [reflexivity|].
    split; [apply star_app; [exact Hw|apply star_single; exact Hin]|]. split; [exact Ht|].
    split.
    + intros Hne'. destruct (A Hne') as (f' & ->). exists f'. reflexivity.
    + intros Ht'. destruct (B Ht') as (e' & -> & _). exists e'. split.
      * cbn [orb]. pose proof (encode_length r (in_valid r Hin)).
        replace (len (w ++ encode r) =? 0)%Z with false; [rewrite orb_true_r; reflexivity|].
        autorewrite with len. pose proof (len_nonneg _ w). unfold len in *. lia.
      * intros Hw0. pose proof (encode_nonempty r (in_valid r Hin)).
        destruct w, (encode r); discriminate || contradiction.
  - exists (firstn (S k) s), []. rewrite app_nil_r. split; [reflexivity|]. split; [constructor|].
    split; [eapply decode_last_notin; eauto|]. split; [|contradiction].
    intros _. exists f. unfold len. rewrite HL. reflexivity.
Qed.

Lemma trim_left_spec : forall s i st f,
  exists w t, s = w ++ t /\ star w /\ ~ starts t
    /\ (t <> [] -> exists f', trim_left_loop (range_from s 0 i) chars st f = ((i + len w)%Z, f', true))
    /\ (t = [] -> exists st', trim_left_loop (range_from s 0 i) chars st f
                              = (st', f || negb (len w =? 0)%Z, false)
                              /\ (w = [] -> st' = st)).
Proof.
  intros s. remember (length s) as n eqn:En. revert s En.
  induction n as [n IH] using (well_founded_induction lt_wf). intros s -> i st f.
  destruct s as [|b s'].
  { exists [], []. split; [reflexivity|]. split; [constructor|].
    split. { intros (r & q & Hin & E). pose proof (encode_nonempty r (in_valid r Hin)).
             destruct (encode r); discriminate || contradiction. }
    split; [contradiction|]. intros _. exists st. cbn. rewrite orb_false_r. auto. }
  remember (b :: s') as s eqn:Es. assert (Hne : s <> []) by (subst; discriminate). clear Es b s'.
  destruct (decode_rune s) as [r n] eqn:D.
  rewrite (range_from_step s r n i Hne D). cbn [trim_left_loop].
  destruct (exists_in chars r) eqn:Ein.
  - destruct (decode_first_in _ _ _ Hne D Ein) as (q & -> & -> & Hin).
    pose proof (encode_length r (in_valid r Hin)).
    replace (skipn (length (encode r)) (encode r ++ q)) with q
      by (rewrite skipn_app, skipn_all, Nat.sub_diag; reflexivity).
    destruct (IH (length q)) with (s := q) (i := (i + Z.of_nat (length (encode r)))%Z) (st := i) (f := true)
      as (w & t & -> & Hw & Ht & A & B); [rewrite app_length; lia|reflexivity|].
    exists (encode r ++ w), t. rewrite <- app_assoc. split; [reflexivity|].
    split; [constructor; auto|]. split; [exact Ht|]. split.
    + intros H'. destruct (A H') as (f' & ->). exists f'.
      replace (i + len (encode r ++ w))%Z with (i + Z.of_nat (length (encode r)) + len w)%Z; [reflexivity|].
      autorewrite with len. unfold len. lia.
    + intros H'. destruct (B H') as (st' & -> & _). exists st'. split.
      * cbn [orb]. replace (len (encode r ++ w) =? 0)%Z with false; [rewrite orb_true_r; reflexivity|].
        autorewrite with len. pose proof (len_nonneg _ w). unfold len in *. lia.
      * intros H0. pose proof (encode_nonempty r (in_valid r Hin)).
        destruct (encode r); discriminate || contradiction.
  - exists [], s. split; [reflexivity|]. split; [constructor|].
    split; [eapply decode_first_notin; eauto|]. split; [|intros ->; contradiction].
    intros _. exists f. autorewrite with len. rewrite Z.add_0_r. reflexivity.
Qed.

Lemma star_nonempty_starts : forall w, star w -> w <> [] -> starts w.
Proof. intros w H Hne. destruct H as [|r w Hin Hw]; [contradiction|]. exists r, w. auto. Qed.

Lemma starts_app : forall a b, starts a -> starts (a ++ b).
Proof. intros a b (r & q & Hin & ->). exists r, (q ++ b). rewrite <- app_assoc. auto. Qed.
Lemma ends_app : forall a b, ends b -> ends (a ++ b).
Proof. intros a b (p & r & Hin & ->). exists (a ++ p), r. rewrite <- app_assoc. auto. Qed.

(** If text followed by set characters starts with a set character, then so does the text,
    or it is empty. *)
Lemma starts_app_inv : forall m w, star w -> starts (m ++ w) -> m = [] \/ starts m.
Proof.
  intros m w Hw (r & q & Hin & E). pose proof (in_valid r Hin) as V.
  destruct Hw as [|r' w Hin' Hw].
  - right. rewrite app_nil_r in E. exists r, q. auto.
  - symmetry in E.
    destruct (encode_sync _ _ _ _ _ V (in_valid r' Hin') E) as [(-> & _)|(y & -> & _)]; [left; reflexivity|].
    right. exists r, y. auto.
Qed.

Lemma star_cancel : forall a b, star a -> star (a ++ b) -> star b.
Proof.
  induction 1 as [|r w Hin Hw IH]; intros H; cbn [app] in H; [exact H|].
  apply IH. rewrite <- app_assoc in H. inversion H as [E|r' w' Hin' Hw' E].
  - pose proof (encode_nonempty r (in_valid r Hin)). destruct (encode r); discriminate || contradiction.
  - destruct (encode_inj r' r w' (w ++ b) (in_valid _ Hin') (in_valid _ Hin) E) as [_ <-]. exact Hw'.
Qed.

Lemma not_starts_nil : ~ starts [].
Proof.
  intros (r & q & Hin & E). pose proof (encode_nonempty r (in_valid r Hin)).
  destruct (encode r); discriminate || contradiction.
Qed.
Lemma not_ends_nil : ~ ends [].
Proof.
  intros (p & r & Hin & E). pose proof (encode_nonempty r (in_valid r Hin)).
  destruct p, (encode r); discriminate || contradiction.
Qed.

Lemma trimmed_right_unique : forall r m r' m', star r -> star r' -> m ++ r = m' ++ r' ->
  ~ ends m -> ~ ends m' -> m = m'.
Proof.
  intros r. remember (length r) as n eqn:En. revert r En.
  induction n as [n IH] using (well_founded_induction lt_wf). intros r -> m r' m' Hr Hr' E Hm Hm'.
  destruct (star_snoc_inv r Hr) as [->|(w & c & Hw & Hc & ->)];
    destruct (star_snoc_inv r' Hr') as [->|(w' & c' & Hw' & Hc' & ->)].
  - rewrite !app_nil_r in E. exact E.
  - exfalso. apply Hm. rewrite app_nil_r in E. subst. exists (m' ++ w'), c'. rewrite <- app_assoc. auto.
  - exfalso. apply Hm'. rewrite app_nil_r in E. subst. exists (m ++ w), c. rewrite <- app_assoc. auto.
  - rewrite !app_assoc in E.
    pose proof (decode_last_encode (m ++ w) c (in_valid c Hc)) as D. rewrite E in D.
    rewrite decode_last_encode in D by (apply in_valid; exact Hc'). injection D as ->.
    apply app_inv_tail in E. eapply (IH (length w)); [|reflexivity| | |exact E| |]; auto.
    rewrite app_length. pose proof (encode_length c (in_valid c Hc)). lia.
Qed.

Lemma trimmed_left_unique : forall s m m', trimmed_left chars s m -> trimmed_left chars s m' -> m = m'.
Proof.
  intros s m m' (l & -> & Hl & Hs) (l' & E & Hl' & Hs').
  revert l' Hl' E. induction Hl as [|c w Hc Hw IH]; intros l' Hl' E.
  - destruct Hl' as [|c' w' Hc' Hw']; [exact E|]. exfalso. apply Hs. cbn [app] in E. rewrite E.
    exists c', (w' ++ m'). rewrite <- app_assoc. auto.
  - destruct Hl' as [|c' w' Hc' Hw'].
    + exfalso. apply Hs'. cbn [app] in E. rewrite <- E. exists c, (w ++ m). rewrite <- app_assoc. auto.
    + apply (IH w' Hw'). rewrite <- !app_assoc in E.
      destruct (encode_inj c c' _ _ (in_valid _ Hc) (in_valid _ Hc') E) as [_ E']. exact E'.
Qed.

Lemma trimmed_unique : forall s m m', trimmed s m -> trimmed s m' -> m = m'.
Proof.
  intros s m m' (l & r & -> & Hl & Hr & Hs & He) (l' & r' & E & Hl' & Hr' & Hs' & He').
  revert l' Hl' E. induction Hl as [|c w Hc Hw IH]; intros l' Hl' E.
  - cbn [app] in E. destruct Hl' as [|c' w' Hc' Hw'].
    + cbn [app] in E. exact (trimmed_right_unique r m r' m' Hr Hr' E He He').
    + rewrite <- app_assoc in E.
      destruct (starts_app_inv m r Hr) as [->|H]; [exists c', (w' ++ m' ++ r'); auto| |contradiction].
      cbn [app] in E. subst.
      assert (H : star (m' ++ r')).
      { apply (star_cancel (encode c' ++ w')); [constructor; auto|]. rewrite <- app_assoc. exact Hr. }
      destruct m' as [|x m']; [reflexivity|]. exfalso.
      destruct (starts_app_inv (x :: m') r' Hr') as [H'|H']; [|discriminate|contradiction].
      apply star_nonempty_starts; [exact H|discriminate].
  - destruct Hl' as [|c' w' Hc' Hw'].
    + cbn [app] in E. rewrite <- app_assoc in E.
      destruct (starts_app_inv m' r' Hr') as [->|H]; [exists c, (w ++ m ++ r); auto| |contradiction].
      cbn [app] in E. rewrite <- E in Hr'.
      assert (H : star (m ++ r)).
      { apply (star_cancel (encode c ++ w)); [constructor; auto|]. rewrite <- app_assoc. exact Hr'. }
      destruct m as [|x m]; [reflexivity|]. exfalso.
      destruct (starts_app_inv (x :: m) r Hr) as [H'|H']; [|discriminate|contradiction].
      apply star_nonempty_starts; [exact H|discriminate].
    + rewrite <- !app_assoc in E.
      destruct (encode_inj _ _ _ _ (in_valid c Hc) (in_valid c' Hc') E) as [<- E'].
      eapply IH; eauto.
Qed.

Lemma fast_trim_right : forall s,
  exists t w, s = t ++ w /\ star w /\ ~ ends t /\ fast_trim s chars TrimRight = Ret t.
Proof.
  intros s. destruct (trim_right_spec (length s) s 0 false ltac:(lia)) as (t & w & E & Hw & Ht & A & B).
  rewrite firstn_all in E. exists t, w. repeat split; auto.
  unfold fast_trim. cbn [trim_mode_eqb negb].
  destruct t as [|x t].
  - destruct (B eq_refl) as (e' & -> & He'). cbn [orb andb negb].
    destruct w as [|y w].
    + rewrite He' by reflexivity. subst s. reflexivity.
    + replace (len (y :: w) =? 0)%Z with false by (rewrite len_eqb_zero; reflexivity). reflexivity.
  - destruct A as (f' & ->); [discriminate|]. cbn [andb negb]. rewrite andb_false_r.
    subst s. apply slice_prefix. reflexivity.
Qed.

Lemma fast_trim_left : forall s,
  exists w t, s = w ++ t /\ star w /\ ~ starts t /\ fast_trim s chars TrimLeft = Ret t.
Proof.
  intros s. destruct (trim_left_spec s 0 0 false) as (w & t & E & Hw & Ht & A & B).
  exists w, t. repeat split; auto.
  unfold fast_trim. cbn [trim_mode_eqb negb]. unfold range_str.
  destruct t as [|x t].
  - destruct (B eq_refl) as (e' & -> & He'). cbn [orb andb negb].
    destruct w as [|y w].
    + rewrite He' by reflexivity. subst s. reflexivity.
    + replace (len (y :: w) =? 0)%Z with false by (rewrite len_eqb_zero; reflexivity). reflexivity.
  - destruct A as (f' & ->); [discriminate|]. cbn [andb negb]. rewrite andb_false_r.
    subst s. apply slice_suffix; reflexivity.
Qed.

Lemma fast_trim_both : forall s, exists m, fast_trim s chars TrimBoth = Ret m /\ trimmed s m.
Proof.
  intros s.
  destruct (trim_left_spec s 0 0 false) as (w & t & E & Hw & Ht & A & B).
  destruct (trim_right_spec (length s) s 0 false ltac:(lia)) as (t' & w' & E' & Hw' & Ht' & A' & B').
  rewrite firstn_all in E'.
  unfold fast_trim. cbn [trim_mode_eqb negb]. unfold range_str.
  destruct t as [|x t].
  - destruct (B eq_refl) as (e' & -> & He'). cbn [orb andb negb].
    exists []. rewrite app_nil_r in E. subst w.
    assert (Htr : trimmed s []).
    { exists s, []. cbn [app]. rewrite app_nil_r. repeat split; auto using star_nil, not_starts_nil, not_ends_nil. }
    split; [|exact Htr].
    destruct s as [|y s].
    + rewrite He' by reflexivity. reflexivity.
    + replace (len (y :: s) =? 0)%Z with false by (rewrite len_eqb_zero; reflexivity). reflexivity.
  - destruct A as (f & ->); [discriminate|]. cbn [andb negb]. rewrite andb_false_r.
    rewrite E in E'.
    assert (Hsplit : exists m, t' = w ++ m /\ x :: t = m ++ w').
    { destruct (app_split _ _ _ _ _ E') as [H|(m & Hm0 & Em & Hm)]; [exact H|]. exfalso.
      (* t' is a proper prefix of the leading set characters, at a character boundary *)
      assert (Hst : star t').
      { clear A' B' B Ht' E. revert t' m Hm0 Em Hm E'. induction Hw as [|c w Hc Hw IH]; intros t' m Hm0 Em Hm E'.
        - destruct t', m; discriminate || contradiction.
        - destruct Hw' as [|c' w' Hc' Hw'].
          + exfalso. destruct m; [contradiction|discriminate].
          + rewrite <- app_assoc in E'.
            destruct (encode_sync _ _ _ _ _ (in_valid c Hc) (in_valid c' Hc') E') as [(-> & _)|(y & -> & Ey)]; [constructor|].
            constructor; [exact Hc|]. rewrite <- app_assoc in Em. apply app_inv_head in Em.
            eapply (IH y m); eauto. }
      assert (t' = []).
      { destruct (star_snoc_inv t' Hst) as [->|(u & c & _ & Hc & ->)]; [reflexivity|].
        exfalso. apply Ht'. exists u, c. auto. }
      subst t'. cbn [app] in *. subst m. rewrite <- E' in Hw'.
      apply star_cancel in Hw'; [|exact Hw]. apply Ht.
      apply star_nonempty_starts; [exact Hw'|discriminate]. }
    destruct Hsplit as (m & -> & Em). exists m.
    assert (Hm : m <> []).
    { intros ->. cbn [app] in Em. apply Ht. rewrite Em. apply star_nonempty_starts; [exact Hw'|].
      rewrite <- Em. discriminate. }
    destruct A' as (f' & ->). { destruct w; [exact Hm|discriminate]. }
    cbn [andb negb]. rewrite andb_false_r. split.
    + rewrite E, Em. apply slice_mid; autorewrite with len; lia.
    + exists w, w'. rewrite E, Em. repeat split; auto.
      * intros H. apply Ht. rewrite Em. apply starts_app. exact H.
      * intros H. apply Ht'. apply ends_app. exact H.
Qed.

Lemma fast_trim_both_iff : forall s m, fast_trim s chars TrimBoth = Ret m <-> trimmed s m.
Proof.
  intros s m. destruct (fast_trim_both s) as (m' & E & Hm'). split.
  - intros H. rewrite E in H. injection H as <-. exact Hm'.
  - intros H. rewrite E. f_equal. eapply trimmed_unique; eauto.
Qed.

Lemma fast_trim_left_iff : forall s m, fast_trim s chars TrimLeft = Ret m <-> trimmed_left chars s m.
Proof.
  intros s m. destruct (fast_trim_left s) as (w & t & -> & Hw & Ht & E). split.
  - intros H. rewrite E in H. injection H as <-. exists w. auto.
  - intros H. rewrite E. assert (X : t = m) by (eapply trimmed_left_unique; [|exact H]; exists w; auto). rewrite X. reflexivity.
Qed.

Lemma fast_trim_right_iff : forall s m, fast_trim s chars TrimRight = Ret m <-> trimmed_right chars s m.
Proof.
  intros s m. destruct (fast_trim_right s) as (t & w & -> & Hw & Ht & E). split.
  - intros H. rewrite E in H. injection H as <-. exists w. auto.
  - intros (r & Er & Hr & Hm). rewrite E. assert (X : t = m) by (eapply (trimmed_right_unique w t r m); eauto). rewrite X. reflexivity.
Qed.

Lemma fast_trim_pad : forall s l r, star l -> star r ->
  fast_trim (l ++ s ++ r) chars TrimBoth = fast_trim s chars TrimBoth.
Proof.
  intros s l r Hl Hr. destruct (fast_trim_both s) as (m & -> & (l' & r' & -> & Hl' & Hr' & Hs & He)).
  apply fast_trim_both_iff. exists (l ++ l'), (r' ++ r).
  repeat split; auto; try (apply star_app; assumption). rewrite <- !app_assoc. reflexivity.
Qed.

End Scan.

Lemma ascii_set_exact : forall (chars : bytes) (c : N),
  contains (make_ascii_set chars) c = true <-> (c < 128)%N /\ In c chars.
Proof.
  intros chars c. rewrite contains_make_ascii_set, andb_true_iff, N.ltb_lt.
  unfold memN. rewrite existsb_exists. split.
  - intros (H & x & Hx & E). apply N.eqb_eq in E. subst. auto.
  - intros (H & Hin). split; [exact H|]. exists c. split; [exact Hin|apply N.eqb_refl].
Qed.

Lemma trim_both_iff : forall chars s m, good_set chars ->
  fast_trim s chars TrimBoth = Ret m <-> trimmed chars s m.
Proof. intros. apply fast_trim_both_iff. assumption. Qed.
Lemma trim_left_iff : forall chars s m, good_set chars ->
  fast_trim s chars TrimLeft = Ret m <-> trimmed_left chars s m.
Proof. intros. apply fast_trim_left_iff. assumption. Qed.
Lemma trim_right_iff : forall chars s m, good_set chars ->
  fast_trim s chars TrimRight = Ret m <-> trimmed_right chars s m.
Proof. intros. apply fast_trim_right_iff. assumption. Qed.
Lemma trim_returns : forall chars s mode, good_set chars -> exists m, fast_trim s chars mode = Ret m.
Proof.
  intros chars s mode H. destruct mode.
  - destruct (fast_trim_both chars H s) as (m & E & _). eauto.
  - destruct (fast_trim_left chars H s) as (w & m & _ & _ & _ & E). eauto.
  - destruct (fast_trim_right chars H s) as (m & w & _ & _ & _ & E). eauto.
Qed.
