(** InvalidProofs.v - what hasInvalidChars rejects. *)

From Verif Require Import Base BaseFacts Utf8 Utf8Facts Chars Str StrFacts Net Trie Extract Host HostFacts
  Walk WalkFacts Addr NetFacts Parse ParseFacts UrlSpec UrlFacts ExtractFacts OutcomeFacts Rfc RuleSpec TrieFacts
  UrlProofs CharProofs RuleProofs ErrSpec.
From Coq Require Import ZifyBool ZifyNat ZifyN.
Local Open Scope N_scope.

(** ** Characters *)

Definition sep3 (c : rune) : Prop := c = 46 \/ c = 12290 \/ c = 65294.
Lemma sep3_valid : forall c, sep3 c -> valid_rune c.
Proof. unfold sep3, valid_rune. lia. Qed.
Lemma sep3_text : forall x, seen_sep x <-> exists c, sep3 c /\ x = encode c.
Proof.
  intros x. split.
  - intros [->|[->| ->]]; [exists 46|exists 12290|exists 65294]; (split; [unfold sep3; lia|reflexivity]).
  - intros (c & [->|[->| ->]] & ->); [left|right; left|right; right]; reflexivity.
Qed.
Lemma seen_valid : forall c, seen_char c -> valid_rune c.
Proof. intros c (H & _). pose proof forbidden_valid as F. rewrite Forall_forall in F. auto. Qed.

Lemma hyphen_valid : valid_rune 45.
Proof. unfold valid_rune. lia. Qed.

Definition has_seen (s : bytes) : Prop := exists c, seen_char c /\ has_char c s.
Definition starts3 (s : bytes) : Prop := exists x q, seen_sep x /\ s = x ++ q.
Definition two_seps (s : bytes) : Prop := exists p x y q, seen_sep x /\ seen_sep y /\ s = p ++ x ++ y ++ q.
Definition ends_hyphen (s : bytes) : Prop := exists p, s = p ++ str "-".
Definition starts_hyphen (s : bytes) : Prop := exists q, s = str "-" ++ q.

Lemma char_nil : forall c, valid_rune c -> ~ has_char c [].
Proof.
  intros c V (p & q & E). pose proof (encode_nonempty c V). destruct p, (encode c); discriminate || contradiction.
Qed.
Lemma char_cons : forall c r q, valid_rune c -> valid_rune r -> has_char c (encode r ++ q) <-> c = r \/ has_char c q.
Proof.
  intros c r q V Vr. split.
  - intros (p & q' & E). destruct (encode_sync _ _ _ _ _ Vr V E) as [(_ & <- & _)|(y & _ & ->)]; [left; reflexivity|right].
    exists y, q'. reflexivity.
  - intros [->|(p & q' & ->)]; [exists [], q; reflexivity|]. exists (encode r ++ p), q'. rewrite <- app_assoc. reflexivity.
Qed.
Lemma bad_byte : forall b q c p q', decode_rune (b :: q) = (rune_error, 1%nat) -> valid_rune c -> b :: q = p ++ encode c ++ q' ->
  exists y, p = b :: y /\ q = y ++ encode c ++ q'.
Proof.
  intros b q c p q' D V E. destruct p as [|x p].
  - cbn [app] in E. rewrite E, decode_encode in D by exact V. injection D as -> L. vm_compute in L. discriminate.
  - cbn [app] in E. injection E as <- ->. exists p. auto.
Qed.
Lemma char_bad : forall c b q, valid_rune c -> decode_rune (b :: q) = (rune_error, 1%nat) -> has_char c (b :: q) <-> has_char c q.
Proof.
  intros c b q V D. split.
  - intros (p & q' & E). destruct (bad_byte _ _ _ _ _ D V E) as (y & -> & ->). exists y, q'. reflexivity.
  - intros (p & q' & ->). exists (b :: p), q'. reflexivity.
Qed.
Lemma starts_cons : forall r q, valid_rune r -> starts3 (encode r ++ q) <-> sep3 r.
Proof.
  intros r q V. split.
  - intros (x & q' & Hx & E). apply sep3_text in Hx as (c & Hc & ->).
    destruct (encode_inj _ _ _ _ V (sep3_valid _ Hc) E) as [-> _]. exact Hc.
  - intros H. exists (encode r), q. split; [apply sep3_text; eauto|reflexivity].
Qed.
Lemma starts_bad : forall b q, decode_rune (b :: q) = (rune_error, 1%nat) -> ~ starts3 (b :: q).
Proof.
  intros b q D (x & q' & Hx & E). apply sep3_text in Hx as (c & Hc & ->).
  destruct (bad_byte b q c [] q' D (sep3_valid _ Hc) E) as (y & Y & _). discriminate.
Qed.
Lemma two_cons : forall r q, valid_rune r -> two_seps (encode r ++ q) <-> (sep3 r /\ starts3 q) \/ two_seps q.
Proof.
  intros r q V. split.
  - intros (p & x & y & q' & Hx & Hy & E). apply sep3_text in Hx as (c & Hc & ->).
    destruct (encode_sync _ _ _ _ _ V (sep3_valid _ Hc) E) as [(_ & <- & ->)|(z & _ & ->)].
    + left. split; [exact Hc|]. exists y, q'. auto.
    + right. exists z, (encode c), y, q'. split; [apply sep3_text; eauto|]. auto.
  - intros [(Hr & y & q' & Hy & ->)|(p & x & y & q' & Hx & Hy & ->)].
    + exists [], (encode r), y, q'. split; [apply sep3_text; eauto|]. auto.
    + exists (encode r ++ p), x, y, q'. rewrite <- app_assoc. auto.
Qed.
Lemma two_bad : forall b q, decode_rune (b :: q) = (rune_error, 1%nat) -> two_seps (b :: q) <-> two_seps q.
Proof.
  intros b q D. split.
  - intros (p & x & y & q' & Hx & Hy & E). apply sep3_text in Hx as (c & Hc & ->).
    destruct (bad_byte _ _ _ _ _ D (sep3_valid _ Hc) E) as (z & -> & ->). exists z, (encode c), y, q'. split; [apply sep3_text; eauto|auto].
  - intros (p & x & y & q' & Hx & Hy & ->). exists (b :: p), x, y, q'. auto.
Qed.
Lemma hyphen_cons : forall r q, valid_rune r -> starts_hyphen (encode r ++ q) <-> r = 45.
Proof.
  intros r q V. split.
  - intros (q' & E). change (str "-") with (encode 45) in E. exact (proj1 (encode_inj _ _ _ _ V hyphen_valid E)).
  - intros ->. exists q. reflexivity.
Qed.
Lemma hyphen_end : forall r q, valid_rune r -> ends_hyphen (encode r ++ q) <-> (q = [] /\ r = 45) \/ ends_hyphen q.
Proof.
  intros r q V. split.
  - intros (p & E). change (str "-") with (encode 45) in E. rewrite <- (app_nil_r (encode 45)) in E.
    destruct (encode_sync _ _ _ _ _ V hyphen_valid E) as [(_ & -> & ->)|(y & _ & ->)]; [auto|].
    right. exists y. rewrite app_nil_r. reflexivity.
  - intros [[-> ->]|(p & ->)]; [exists []; reflexivity|]. exists (encode r ++ p). rewrite app_assoc. reflexivity.
Qed.
Lemma hyphen_end_bad : forall b q, decode_rune (b :: q) = (rune_error, 1%nat) -> ends_hyphen (b :: q) <-> ends_hyphen q.
Proof.
  intros b q D. split.
  - intros (p & E). change (str "-") with (encode 45) in E. rewrite <- (app_nil_r (encode 45)) in E.
    destruct (bad_byte _ _ _ _ _ D hyphen_valid E) as (y & -> & ->). exists y. rewrite app_nil_r. reflexivity.
  - intros (p & ->). exists (b :: p). reflexivity.
Qed.

Definition alnum (c : rune) : bool := contains alpha_numeric_set (c mod 256).
Lemma seen_iff : forall c, alnum c = false /\ exists_in invalid_host_name_chars_rune_set c = true <-> seen_char c.
Proof.
  intros c. rewrite forbidden_eq. unfold exists_in. rewrite memN_In. split.
  - intros (A & H). split; [exact H|]. repeat split; intros ->; vm_compute in A; discriminate.
  - intros (H & N1 & N2 & N3). split; [|exact H]. apply low_byte; assumption.
Qed.
Lemma sep_iff : forall c, alnum c = false /\ exists_in label_separators_rune_set c = true <-> sep3 c.
Proof.
  intros c. change label_separators_rune_set with [46; 12290; 65294; 65377]. unfold exists_in. rewrite memN_In. split.
  - intros (A & [<-|[<-|[<-|[<-|[]]]]]); unfold sep3; try lia. vm_compute in A. discriminate.
  - intros [->|[->| ->]]; (split; [reflexivity|cbn [In]; lia]).
Qed.
Lemma hyphen_low : alnum 45 = false /\ exists_in label_separators_rune_set 45 = false /\ exists_in invalid_host_name_chars_rune_set 45 = false.
Proof. repeat split. Qed.

(** What the loop finds from position [pos] on. *)
Definition found (pos : Z) (sep : bool) (s : bytes) : Prop :=
  has_seen s \/ (pos = 0%Z /\ (starts_hyphen s \/ starts3 s)) \/ ends_hyphen s \/ (sep = true /\ starts3 s) \/ two_seps s.

Lemma step_found : forall r q pos sep, valid_rune r -> (0 <= pos)%Z ->
  found pos sep (encode r ++ q) <->
  seen_char r \/ (pos = 0%Z /\ (r = 45 \/ sep3 r)) \/ (q = [] /\ r = 45) \/ (sep = true /\ sep3 r)
  \/ (sep3 r /\ starts3 q) \/ (has_seen q \/ ends_hyphen q \/ two_seps q).
Proof.
  intros r q pos sep V P. unfold found. rewrite starts_cons, hyphen_cons, hyphen_end, two_cons by exact V.
  assert (S : has_seen (encode r ++ q) <-> seen_char r \/ has_seen q).
  { unfold has_seen. split.
    - intros (c & Hc & H). apply char_cons in H; [|apply seen_valid; exact Hc|exact V]. destruct H as [->|H]; [auto|]. right. eauto.
    - intros [H|(c & Hc & H)]; [exists r|exists c]; (split; [assumption|]; apply char_cons; auto using seen_valid). }
  rewrite S. tauto.
Qed.

Lemma loop_iff : forall (s : bytes) pos last sep, (0 <= pos)%Z -> last = (pos + len s - 1)%Z ->
  invalid_loop (range_from s 0 pos) last sep = true <-> found pos sep s.
Proof.
  intros s. induction s as [|r q V D IH|b q D IH] using rune_ind; intros pos last sep P L.
  - cbn [range_from invalid_loop]. split; [discriminate|].
    intros [(c & Hc & H)|[(_ & [(q & E)|(x & q & H & E)])|[(p & E)|[(_ & x & q & H & E)|(p & x & y & q & H & _ & E)]]]].
    + exfalso. exact (char_nil c (seen_valid _ Hc) H).
    + discriminate.
    + destruct H as [->|[->| ->]]; discriminate.
    + destruct p; discriminate.
    + destruct H as [->|[->| ->]]; discriminate.
    + destruct p; [destruct H as [->|[->| ->]]; discriminate|discriminate].
  - rewrite range_from_encode by exact V. rewrite step_found by assumption. cbn [invalid_loop]. fold (alnum r).
    pose proof (encode_length r V) as Le. rewrite len_app in L.
    assert (R : forall sp, invalid_loop (range_from q 0 (pos + len (encode r))) last sp = true <-> has_seen q \/ ends_hyphen q \/ (sp = true /\ starts3 q) \/ two_seps q).
    { intros sp. rewrite IH by (unfold len in *; lia). unfold found. assert (pos + len (encode r) <> 0)%Z by (unfold len; lia). tauto. }
    pose proof (seen_iff r) as Sn. pose proof (sep_iff r) as Sp. pose proof hyphen_low as (Hy & Hs & Hf).
    destruct (alnum r) eqn:A.
    { rewrite R. assert (r <> 45) by (intros ->; congruence). assert (~ sep3 r) by (rewrite <- Sp; intros [X _]; discriminate).
      assert (~ seen_char r) by (rewrite <- Sn; intros [X _]; discriminate). split; [|intuition congruence].
      intros [X|[X|[[X _]|X]]]; [tauto|tauto|discriminate|tauto]. }
    destruct (Z.eqb_spec pos 0) as [P0|P0]; cbn [andb].
    { destruct (N.eqb_spec r 45) as [E|E]; [cbn [orb]; split; [intros _; auto|reflexivity]|]. cbn [orb].
      destruct (exists_in label_separators_rune_set r).
      - split; [|reflexivity]. intros _. right. left. split; [exact P0|]. right. apply Sp. auto.
      - assert (~ sep3 r) by (rewrite <- Sp; intros [_ X]; discriminate). rewrite andb_false_r.
        destruct (exists_in invalid_host_name_chars_rune_set r).
        + split; [|reflexivity]. intros _. left. apply Sn. auto.
        + assert (~ seen_char r) by (rewrite <- Sn; intros [_ X]; discriminate). rewrite R. intuition congruence. }
    destruct (N.eqb_spec r 45) as [E|E].
    { subst r. rewrite andb_true_r, Hs, Hf. change (len (encode 45)) with 1%Z in *. unfold len in L.
      assert (~ sep3 45) by (unfold sep3; lia). assert (~ seen_char 45) by (rewrite <- Sn, Hf; intros [_ X]; discriminate).
      destruct (Z.eqb_spec pos last) as [Q|Q].
      - split; [|reflexivity]. intros _. right. right. left. split; [|reflexivity]. destruct q; [reflexivity|cbn [length] in L; lia].
      - rewrite R. assert (q <> []) by (intros ->; cbn [length] in L; lia). intuition congruence. }
    rewrite andb_false_r.
    destruct (exists_in label_separators_rune_set r).
    + assert (S3 : sep3 r) by (apply Sp; auto).
      destruct sep; [split; [intros _; tauto|reflexivity]|].
      destruct (exists_in invalid_host_name_chars_rune_set r) eqn:F.
      * exfalso. destruct S3 as [->|[->| ->]]; vm_compute in F; discriminate.
      * assert (~ seen_char r) by (rewrite <- Sn; intros [_ X]; discriminate). rewrite R. intuition congruence.
    + assert (~ sep3 r) by (rewrite <- Sp; intros [_ X]; discriminate).
      destruct (exists_in invalid_host_name_chars_rune_set r).
      * split; [intros _; left; apply Sn; auto|reflexivity].
      * assert (~ seen_char r) by (rewrite <- Sn; intros [_ X]; discriminate). rewrite R. intuition congruence.
  - rewrite (range_from_step (b :: q) rune_error 1 pos) by (auto; discriminate). cbn [skipn invalid_loop].
    change (contains alpha_numeric_set (rune_error mod 256)) with false. change (exists_in label_separators_rune_set rune_error) with false.
    change (rune_error =? 45) with false. change (exists_in invalid_host_name_chars_rune_set rune_error) with false.
    rewrite !andb_false_r. cbv iota. rewrite IH by (unfold len in *; cbn [length] in *; lia).
    assert (S : has_seen (b :: q) <-> has_seen q).
    { unfold has_seen. split; intros (c & Hc & H); exists c; (split; [exact Hc|]); apply (char_bad c b q (seen_valid _ Hc) D); exact H. }
    unfold found. rewrite S, two_bad, hyphen_end_bad by exact D. pose proof (starts_bad b q D).
    assert (~ starts_hyphen (b :: q)).
    { intros (q' & E). change (str "-") with (encode 45) in E. destruct (bad_byte b q 45 [] q' D hyphen_valid E) as (y & Y & _). discriminate. }
    assert (pos + Z.of_nat 1 <> 0)%Z by lia. intuition congruence.
Qed.

Lemma invalid_iff : forall s, has_invalid_chars s = true <-> bad_text s.
Proof.
  intros s. unfold has_invalid_chars, range_str. rewrite loop_iff by lia. unfold found, bad_text.
  unfold has_seen, starts_hyphen, starts3, ends_hyphen, two_seps. intuition congruence.
Qed.
Lemma valid_iff : forall s, has_invalid_chars s = false <-> ~ bad_text s.
Proof. intros s. rewrite <- invalid_iff. destruct (has_invalid_chars s); split; congruence. Qed.
