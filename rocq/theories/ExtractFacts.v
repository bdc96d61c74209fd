(** ExtractFacts.v - what Extract returns, by cases. *)

From Verif Require Import Base BaseFacts Utf8 Utf8Facts Chars Str StrFacts Net Trie Extract Host HostFacts
  Walk WalkFacts Addr NetFacts Parse ParseFacts UrlSpec UrlFacts.
From Coq Require Import ZifyBool ZifyNat ZifyN.
Local Open Scope N_scope.

(** ** Bracketed hosts *)

Lemma split_auth_v6_inv : forall s a after, split_auth s = inr (AV6 a after) ->
  s = str "[" ++ a ++ str "]" ++ after /\ ipv6_literal a /\ starts_with (fun b => path_char b \/ b = 58) after.
Proof.
  intros s a after H. unfold split_auth in H. destruct (has_prefix s [91]) eqn:E0.
  - apply has_prefix_spec in E0 as (t & ->). cbn [app tl] in H. unfold split_bracketed in H.
    destruct (span (fun b => negb (is_bracket b)) t) as [a' q] eqn:Es. apply span_spec in Es as (-> & F & S).
    destruct q as [|b r]; [discriminate|]. cbn [no_head] in S.
    destruct (N.eqb_spec b 91) as [->|Hb]; [discriminate|].
    assert (b = 93).
    { apply negb_false_iff in S. apply bracket_iff in S. unfold bracket in S. cbn in S. intuition congruence. }
    subst b. destruct (span _ r) as [m q2]. destruct (has_prefix q2 [91]); [discriminate|].
    destruct (memN 93 m || negb (v6 a')) eqn:E6; [discriminate|]. apply orb_false_iff in E6 as [_ E6].
    apply negb_false_iff in E6. apply v6_iff in E6.
    destruct r as [|c r].
    + injection H as <- <-. split; [reflexivity|]. split; [exact E6|exact I].
    + destruct (is_path_char c || (c =? 58)) eqn:Ec; [|discriminate]. injection H as <- <-.
      split; [reflexivity|]. split; [exact E6|]. cbn [starts_with].
      rewrite orb_true_iff, path_char_iff, N.eqb_eq in Ec. exact Ec.
  - destruct (span _ s) as [h q]. destruct (has_prefix q [91]); [discriminate|].
    destruct (has_prefix q [93]); discriminate.
Qed.

Lemma group_no_91 : forall g, group g -> memN 91 g = false.
Proof.
  intros g (_ & H & _). apply not_in_memN. intros Hi. unfold all_hex in H. rewrite Forall_forall in H.
  specialize (H 91 Hi). discriminate.
Qed.

Lemma sep_no_91 : forall s, is_sep_text s -> memN 91 s = false.
Proof. intros s [->|[->|[->| ->]]]; reflexivity. Qed.
Lemma digits_no_91 : forall d, all_digits d -> memN 91 d = false.
Proof.
  intros d H. apply not_in_memN. intros Hi. unfold all_digits in H. rewrite Forall_forall in H.
  specialize (H 91 Hi). discriminate.
Qed.
Lemma ipv4_no_91 : forall s, ipv4_text s -> memN 91 s = false.
Proof.
  intros s (x & w & -> & (a & s1 & b & s2 & c & s3 & d & -> & (_ & Ha & _) & (_ & Hb & _) & (_ & Hc & _) & (_ & Hd & _) & H1 & H2 & H3) & Hw).
  rewrite !memN_app. rewrite (digits_no_91 a Ha), (digits_no_91 b Hb), (digits_no_91 c Hc), (digits_no_91 d Hd).
  rewrite (sep_no_91 s1 H1), (sep_no_91 s2 H2), (sep_no_91 s3 H3). cbn [orb].
  induction Hw as [|s w Hs Hw IH]; [reflexivity|]. rewrite memN_app, sep_no_91, IH by assumption. reflexivity.
Qed.
Lemma pieces_no_91 : forall n s, pieces n s -> memN 91 s = false.
Proof.
  induction 1 as [g H|a H|g n s H Hs IH]; [apply group_no_91|apply ipv4_no_91|]; auto.
  rewrite !memN_app, group_no_91, IH by exact H. reflexivity.
Qed.
Lemma groups_no_91 : forall n s, groups n s -> memN 91 s = false.
Proof.
  induction 1 as [g H|g n s H Hs IH]; [apply group_no_91; auto|].
  rewrite !memN_app, group_no_91, IH by exact H. reflexivity.
Qed.
Lemma literal_no_91 : forall s, ipv6_literal s -> memN 91 s = false.
Proof.
  intros s [H|(n & a & m & b & -> & _ & Ha & Hb)]; [eapply pieces_no_91; eauto|].
  rewrite !memN_app.
  assert (memN 91 a = false) by (destruct Ha as [(_ & ->)|Ha]; [reflexivity|eapply groups_no_91; eauto]).
  assert (memN 91 b = false) by (destruct Hb as [(_ & ->)|Hb]; [reflexivity|eapply pieces_no_91; eauto]).
  rewrite H, H0. reflexivity.
Qed.

Lemma literal_no_bracket : forall s, ipv6_literal s -> Forall (fun b => negb (is_bracket b) = true) s.
Proof.
  intros s H. apply Forall_forall. intros b Hi. apply negb_true_iff, bracket_false. intros Hb.
  pose proof (literal_no_91 s H) as A. pose proof (literal_no_93 s H) as B.
  apply not_in_memN in A. apply not_in_memN in B. unfold bracket in Hb. cbn in Hb.
  destruct Hb as [<-|[<-|[]]]; contradiction.
Qed.

(** A literal followed by something that has no bracket before the path. *)
Lemma split_auth_v6 : forall a m path, ipv6_literal a -> no_path_char m -> ~ In 91 m -> ~ In 93 m ->
  is_path path -> starts_with (fun b => path_char b \/ b = 58) (m ++ path) ->
  split_auth (str "[" ++ a ++ str "]" ++ m ++ path) = inr (AV6 a (m ++ path)).
Proof.
  intros a m path Ha Hm H91 H93 Hp S. unfold split_auth.
  replace (has_prefix (str "[" ++ a ++ str "]" ++ m ++ path) [91]) with true
    by (symmetry; apply has_prefix_spec; eexists; reflexivity).
  change (tl (str "[" ++ a ++ str "]" ++ m ++ path)) with (a ++ 93 :: m ++ path).
  unfold split_bracketed.
  assert (E : span (fun b => negb (is_bracket b)) (a ++ 93 :: m ++ path) = (a, 93 :: m ++ path)).
  { apply span_spec. split; [reflexivity|]. split; [apply literal_no_bracket; exact Ha|reflexivity]. }
  rewrite E. change (93 =? 91) with false. cbv iota.
  assert (E2 : span (fun b => negb (is_path_char b || (b =? 91))) (m ++ path) = (m, path)).
  { apply span_spec. split; [reflexivity|]. split.
    - apply Forall_forall. intros b Hb. unfold no_path_char in Hm. rewrite Forall_forall in Hm.
      apply negb_true_iff, orb_false_iff. split; [apply path_char_false; auto|]. apply N.eqb_neq. congruence.
    - destruct path as [|c path]; [exact I|]. cbn [is_path starts_with] in Hp. cbn [no_head].
      apply path_char_iff in Hp. rewrite Hp. reflexivity. }
  rewrite E2.
  assert (E3 : has_prefix path [91] = false).
  { destruct path as [|c path]; [reflexivity|]. cbn [is_path starts_with] in Hp. unfold path_char in Hp. cbn in Hp.
    destruct Hp as [<-|[<-|[<-|[<-|[]]]]]; reflexivity. }
  rewrite E3. apply not_in_memN in H93. rewrite H93. apply v6_iff in Ha. rewrite Ha. cbn [orb negb].
  destruct (m ++ path) as [|c r]; [reflexivity|]. cbn [starts_with] in S.
  replace (is_path_char c || (c =? 58)) with true; [reflexivity|].
  symmetry. rewrite orb_true_iff, path_char_iff, N.eqb_eq. exact S.
Qed.

Lemma port_number_chars : forall p b, port_number p -> In b p -> is_digit b = true \/ b = 43 \/ b = 45.
Proof.
  intros p b (sg & d & -> & _ & Ad & H) Hi. unfold all_digits in Ad. rewrite Forall_forall in Ad.
  apply in_app_or in Hi as [Hi|Hi]; [|auto]. right.
  destruct H as [([->| ->] & _)|(-> & _)]; cbn in Hi; intuition.
Qed.

Lemma split_auth_v6_port : forall a after port path, ipv6_literal a -> after_host after port path ->
  port_accepted port -> split_auth (str "[" ++ a ++ str "]" ++ after) = inr (AV6 a after).
Proof.
  intros a after port path Ha (Hp & H) Hok. destruct port as [p|].
  - destruct H as (-> & Hn). cbn [port_accepted] in Hok.
    assert (X : forall b, In b (str ":" ++ p) -> b <> 91 /\ b <> 93).
    { intros b [<-|Hi]; [split; discriminate|].
      destruct (port_number_chars p b Hok Hi) as [D|[->| ->]]; [|split; discriminate|split; discriminate].
      unfold is_digit in D. lia. }
    rewrite (app_assoc (str ":") p path).
    apply split_auth_v6; auto.
    + constructor; [exact path_colon|exact Hn].
    + intros Hi. destruct (X _ Hi). contradiction.
    + intros Hi. destruct (X _ Hi). contradiction.
    + cbn. auto.
  - subst after. apply (split_auth_v6 a [] path); auto; try constructor; try (intros []).
    cbn [app]. destruct path; [exact I|left; exact Hp].
Qed.

(** ** Conversion of the host *)

Lemma converted_iff : forall ext puny raw h, converted ext puny raw h <-> convert_host ext puny raw = inr h.
Proof.
  intros ext puny raw h. unfold converted, convert_host. split.
  - intros (d & Hd & H). apply percent_decoded_iff in Hd. rewrite Hd. destruct puny.
    + f_equal. unfold format_as_punycode. destruct H as [->|(-> & ->)]; reflexivity.
    + destruct H as (-> & ->). reflexivity.
  - destruct (query_unescape raw) as [e|d] eqn:E; [discriminate|]. intros H. exists d.
    split; [apply percent_decoded_iff; exact E|]. destruct puny.
    + injection H as <-. unfold format_as_punycode. destruct (idna_to_puny ext d); auto.
    + destruct (idna_to_unicode_err ext d) as [e|]; [discriminate|]. injection H as <-. auto.
Qed.

(** ** What Extract returns *)

(** Result before the host has been looked at. *)
Definition base (scheme : bytes) (user : option bytes) (port : option bytes) (path : bytes) : result :=
  mkResult scheme (user_of user) [] [] [] [] (port_of port) path HNone.

Lemma extract_cases : forall ext t p r e, extract ext t p = Ret (r, e) ->
  exists scheme user rest, front (p_url p) scheme user rest /\
  ((exists x, e = Some x /\ r = base scheme user None [] /\
      ((exists raw after port path, rest = raw ++ after /\ plain_host raw /\ after_host after port path
          /\ ~ port_accepted port /\ x = ErrInvalidPort)
       \/ (split_auth rest = inl x /\ In x [ErrOpeningBracket; ErrClosingBracket; ErrIncompleteBrackets;
              ErrInvalidIPv6; ErrTrailingAfterIPv6])))
   \/ (exists a after port path, rest = str "[" ++ a ++ str "]" ++ after /\ ipv6_literal a
        /\ after_host after port path /\
        ((port_accepted port /\ e = None
          /\ r = mkResult scheme (user_of user) [] a [] a (port_of port) path HIPv6)
         \/ (~ port_accepted port /\ e = Some ErrInvalidPort
             /\ r = mkResult scheme (user_of user) [] a [] a [] [] HIPv6)))
   \/ (exists raw after port path, rest = raw ++ after /\ plain_host raw /\ after_host after port path
        /\ port_accepted port /\
        ((exists x, convert_host ext (p_to_punycode p) raw = inl x /\ e = Some x /\ r = base scheme user port path)
         \/ (exists h, converted ext (p_to_punycode p) raw h
              /\ host_outcome t (base scheme user port path) h (p_ignore_sub_domains p) (v4 h) = (r, e))))).
Proof.
  intros ext t p r e H. destruct (front_total (p_url p)) as (scheme & user & rest & F).
  exists scheme, user, rest. split; [exact F|]. rewrite (extract_front _ _ _ _ _ _ F) in H.
  injection H as H. unfold extract_authority in H.
  destruct (split_auth rest) as [x|[raw after|a after]] eqn:E.
  - injection H as <- <-. left. exists x. split; [reflexivity|]. split; [reflexivity|]. right. split; [reflexivity|].
    unfold split_auth in E. destruct (has_prefix rest [91]).
    + unfold split_bracketed in E. destruct (span _ (tl rest)) as [a q].
      destruct q as [|b q]; [injection E as <-; cbn; auto 10|].
      destruct (b =? 91); [injection E as <-; cbn; auto 10|]. destruct (span _ q) as [m q2].
      destruct (has_prefix q2 [91]); [injection E as <-; cbn; auto 10|].
      destruct (memN 93 m || negb (v6 a)); [injection E as <-; cbn; auto 10|].
      destruct q as [|c q]; [discriminate|]. destruct (is_path_char c || (c =? 58)); [discriminate|].
      injection E as <-; cbn; auto 10.
    + destruct (span _ rest) as [h q]. destruct (has_prefix q [91]); [injection E as <-; cbn; auto 10|].
      destruct (has_prefix q [93]); [injection E as <-; cbn; auto 10|discriminate].
  - apply split_auth_host in E as (-> & Hh & S). destruct (after_host_total after S) as (port & path & A).
    destruct (split_port_spec after port path A) as [Sp Sn]. destruct (port_dec port) as [Hok|Hbad].
    + rewrite (Sp Hok) in H. right. right. exists raw, after, port, path. repeat (split; [assumption || reflexivity|]).
      destruct (convert_host ext (p_to_punycode p) raw) as [x|h] eqn:C.
      * injection H as <- <-. left. exists x. auto.
      * right. exists h. split; [apply converted_iff; exact C|exact H].
    + rewrite (Sn Hbad) in H. injection H as <- <-. left. exists ErrInvalidPort. split; [reflexivity|].
      split; [reflexivity|]. left. exists raw, after, port, path. auto 10.
  - apply split_auth_v6_inv in E as (-> & Ha & S). destruct (after_host_total after S) as (port & path & A).
    right. left. exists a, after, port, path. split; [reflexivity|]. split; [exact Ha|]. split; [exact A|].
    destruct (split_port_spec after port path A) as [Sp Sn]. destruct (port_dec port) as [Hok|Hbad].
    + rewrite (Sp Hok) in H. injection H as <- <-. left. auto.
    + rewrite (Sn Hbad) in H. injection H as <- <-. right. auto.
Qed.

(** ... and the other direction for unbracketed hosts. *)
Lemma extract_parts : forall ext t p scheme user raw h port path,
  url_parts ext p scheme user raw h port path -> port_accepted port ->
  extract ext t p = Ret (host_outcome t (base scheme user port path) h (p_ignore_sub_domains p) (v4 h)).
Proof.
  intros ext t p scheme user raw h port path (after & F & Hh & A & C) Hok.
  rewrite (extract_front _ _ _ _ _ _ F). f_equal. unfold extract_authority.
  rewrite (split_auth_plain raw after Hh (after_host_starts _ _ _ A)).
  rewrite (proj1 (split_port_spec after port path A) Hok). apply converted_iff in C. rewrite C. reflexivity.
Qed.
