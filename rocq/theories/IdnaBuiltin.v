(** IdnaBuiltin.v - the model of the IDNA library on the built-in list (C61, C62), and the errors
    of Extract that come from it (C63). *)

From Coq Require Import ZifyBool ZifyNat ZifyN.
From Verif Require Import Base BaseFacts Utf8 Chars Utf8Facts Str StrFacts Net TrieFacts Host HostFacts Trie
  Extract Parse ParseFacts UrlSpec UrlFacts ExtractFacts OutcomeFacts Addr NetFacts Walk WalkFacts UrlProofs RuleSpec RuleProofs PslProofs VariantProofs
  ListSpec ListFacts Idna PunyProofs IdnaSpec IdnaProofs Builtin BuiltinSpec BuiltinProofs.
Local Open Scope N_scope.

(** ** The built-in list *)

Definition kept_b (strict : bool) (l : bytes) : bool :=
  if is_ascii l then match go_to_ascii strict l with Some a => bytes_eqb a l | None => false end else true.
Lemma go_builtin : forall strict, idna_on_builtin (go_to_ascii strict).
Proof.
  intros strict. split.
  - assert (X : forallb (kept_b strict) builtin_lines = true) by (destruct strict; vm_compute; reflexivity).
    rewrite forallb_forall in X. intros line Hl A. specialize (X _ Hl). unfold kept_b in X.
    rewrite (proj2 (ascii_iff line) A) in X. destruct (go_to_ascii strict line) as [a|]; [|discriminate].
    apply bytes_eqb_eq in X. congruence.
  - assert (X : forallb (fun x => match go_to_ascii strict (fst x) with Some a => bytes_eqb a (snd x) | None => false end)
      unicode_rules = true) by (destruct strict; vm_compute; reflexivity).
    rewrite forallb_forall in X. apply Forall_forall. intros x Hx. specialize (X _ Hx). cbv beta in X.
    destruct (go_to_ascii strict (fst x)) as [a|]; [|discriminate]. apply bytes_eqb_eq in X. congruence.
Qed.

Definition valid_b (r : rune) : bool := (r <? 55296) || ((57343 <? r) && (r <=? 1114111)).
Definition label_b (l : bytes) : bool :=
  let rs := map snd (range_str l) in
  forallb valid_b rs && (is_ascii l || (length rs <=? 1024)%nat) && bytes_eqb l (encode_all rs)
  && negb (has_prefix l (str "xn--")).
Lemma label_b_ok : forall l, label_b l = true -> unicode_label l.
Proof.
  intros l H. unfold label_b in H. cbv zeta in H. apply andb_true_iff in H as [H H4]. apply andb_true_iff in H as [H H3].
  apply andb_true_iff in H as [H1 H2]. exists (map snd (range_str l)). split; [|split; [|split]].
  - rewrite forallb_forall in H1. apply Forall_forall. intros r Hr. specialize (H1 r Hr). unfold valid_b in H1.
    unfold valid_rune, rune in *. lia.
  - apply orb_true_iff in H2 as [H2|H2]; [left; apply ascii_iff; exact H2|right; apply Nat.leb_le; exact H2].
  - apply bytes_eqb_eq. exact H3.
  - intros S. apply has_prefix_iff in S. rewrite S in H4. discriminate.
Qed.
Definition exc_b (l : bytes) : bool :=
  match l with
  | 33 :: k => is_ascii k && label_b k
  | _ => true
  end.
Definition rule_b (l : bytes) : bool :=
  if ignored_b l then true else forallb (fun x => label_b x && exc_b x) (rule_path l).
Lemma rule_b_ok : forall l, rule_b l = true -> ~ ignored_text l -> unicode_rule l /\ plain_exceptions l.
Proof.
  intros l H I. unfold rule_b in H. destruct (ignored_b l) eqn:E; [exfalso; apply I; apply ignored_iff; exact E|].
  rewrite forallb_forall in H. split.
  - apply Forall_forall. intros x Hx. specialize (H x Hx). apply andb_true_iff in H as [H _]. apply label_b_ok. exact H.
  - intros k Hk. specialize (H _ Hk). apply andb_true_iff in H as [_ H]. change (str "!" ++ k) with (33 :: k) in H.
    unfold exc_b in H. apply andb_true_iff in H as [H1 H2]. split; [apply ascii_iff; exact H1|apply label_b_ok; exact H2].
Qed.
Lemma unicode_builtin : unicode_list hardcoded_psl.
Proof.
  assert (X : forallb rule_b builtin_lines = true) by (vm_compute; reflexivity). rewrite forallb_forall in X.
  pose proof lines_ok as K. apply andb_true_iff in K as [K _]. rewrite forallb_forall in K.
  assert (Ne : builtin_lines <> []) by discriminate.
  intros lines line rule L Hl T I. apply has_lines_iff in L. revert X K L Ne. unfold hardcoded_psl.
  generalize builtin_lines. intros all X K L Ne.
  assert (Sp : split_byte (text_of all) 10 = all).
  { rewrite text_joined. apply split_joined; [exact Ne|]. apply Forall_forall. intros l H. specialize (K l H).
    unfold line_ok in K. apply andb_true_iff in K as [K _]. apply andb_true_iff in K as [_ K]. intros J.
    rewrite forallb_forall in K. specialize (K _ J). discriminate. }
  rewrite Sp in L. subst lines. specialize (X _ Hl). specialize (K _ Hl). unfold line_ok in K.
  apply andb_true_iff in K as [K _]. apply andb_true_iff in K as [K _]. apply trimmed_b_ok in K.
  apply trim_space_iff in T. rewrite K in T. subst rule. apply rule_b_ok; assumption.
Qed.

(** ** Rules *)

Lemma c61_roundtrip : forall strict rule, unicode_rule rule ->
  exists a, go_to_ascii strict rule = Some a /\ all_ascii a /\ go_to_unicode strict a = Some rule.
Proof. intros strict rule U. destruct (to_ascii_rule strict rule U) as (a & A & _ & B & C). eauto. Qed.
Lemma c61_injective : forall strict rule rule' a, unicode_rule rule -> unicode_rule rule' ->
  go_to_ascii strict rule = Some a -> go_to_ascii strict rule' = Some a -> rule = rule'.
Proof.
  intros strict rule rule' a U U' A A'. destruct (to_ascii_rule strict rule U) as (b & B & _ & _ & C).
  destruct (to_ascii_rule strict rule' U') as (b' & B' & _ & _ & C'). congruence.
Qed.

(** ** Errors *)

Lemma c63 : forall ext t p r e scheme user raw after port path d, extract ext t p = Ret (r, e) ->
  front (p_url p) scheme user (raw ++ after) -> plain_host raw -> after_host after port path ->
  port_accepted port -> percent_decoded raw d ->
  forall x, e = Some (ErrIdna x) <-> p_to_punycode p = false /\ idna_to_unicode_err ext d = Some x.
Proof.
  intros ext t p r e scheme user raw after port path d H F Hh A Ok Hd x.
  rewrite (extract_front _ _ _ _ _ _ F) in H. apply Ret_inj in H. unfold extract_authority in H.
  rewrite (split_auth_plain raw after Hh (after_host_starts _ _ _ A)) in H.
  rewrite (proj1 (split_port_spec after port path A) Ok) in H. apply percent_decoded_iff in Hd.
  destruct (convert_host ext (p_to_punycode p) raw) as [y|h] eqn:C.
  - injection H as <- <-. unfold convert_host in C. rewrite Hd in C.
    destruct (p_to_punycode p); [discriminate|]. destruct (idna_to_unicode_err ext d) as [m|]; [|discriminate].
    injection C as <-. split; [intros X; injection X as <-; auto|intros (_ & X); injection X as <-; reflexivity].
  - change (host_outcome t (base scheme user port path) h (p_ignore_sub_domains p) (v4 h) = (r, e)) in H.
    split.
    + intros ->. destruct (outcome_error _ _ _ _ _ _ _ _ _ _ H) as [(X & _)|[(X & _)|([X|[X|X]] & _)]]; discriminate.
    + intros (P & X). unfold convert_host in C. rewrite Hd, P, X in C. discriminate.
Qed.

Lemma no_ace : forall strict d, (forall l, In l (rule_path d) -> ~ starts_with l (str "xn--")) -> go_to_unicode_err strict d = None.
Proof.
  intros strict d H. unfold go_to_unicode_err.
  assert (X : forall ls, (forall l, In l ls -> ~ starts_with l (str "xn--")) -> decode_labels strict ls = inr ls).
  { induction ls as [|l ls IH]; intros N; [reflexivity|]. cbn [decode_labels]. unfold decode_label.
    destruct (has_prefix l ace_prefix) eqn:E.
    - exfalso. apply (N l (or_introl eq_refl)). apply has_prefix_iff. exact E.
    - rewrite IH; [reflexivity|]. intros x Hx. apply N. right. exact Hx. }
  rewrite X; [reflexivity|]. intros l Hl. apply H. rewrite rule_path_split. rewrite <- in_rev. exact Hl.
Qed.
Lemma valid_ace : forall strict u d, unicode_rule u -> go_to_ascii strict u = Some d -> go_to_unicode_err strict d = None.
Proof.
  intros strict u d U A. destruct (to_ascii_rule strict u U) as (a & A' & _ & _ & B). rewrite A in A'. injection A' as <-.
  unfold go_to_unicode in B. unfold go_to_unicode_err. destruct (decode_labels strict (split_byte d 46)); [discriminate|reflexivity].
Qed.

Lemma number_rest : forall c s i w k bias i' rest, decode_digit c = None -> In c s ->
  decode_number s i w k bias = Some (i', rest) -> In c rest.
Proof.
  intros c. induction s as [|x s IH]; intros i w k bias i' rest D I H; [destruct I|]. cbn [decode_number] in H.
  destruct (decode_digit x) as [digit|] eqn:Dx; [|discriminate]. destruct I as [->|I]; [congruence|].
  destruct (madd i digit w) as [i1|]; [|discriminate]. cbv zeta in H. destruct (digit <? threshold k bias).
  - injection H as <- <-. exact I.
  - destruct (madd 0 w (36 - threshold k bias)) as [w1|]; [|discriminate]. exact (IH _ _ _ _ _ _ D I H).
Qed.
Lemma rounds_bad : forall c fuel s d, decode_digit c = None -> In c s -> decode_rounds fuel s d = None.
Proof.
  intros c. induction fuel as [|f IH]; intros s d D I; destruct s as [|x s]; try (destruct I; fail); [reflexivity|].
  cbn [decode_rounds]. destruct (decode_round (x :: s) d) as [[d' rest]|] eqn:E; [|reflexivity]. apply IH; [exact D|].
  unfold decode_round in E. destruct (decode_number (x :: s) (d_i d) 1 36 (d_bias d)) as [[i rest']|] eqn:N; [|discriminate].
  destruct (1024 <=? length (d_output d))%nat; [discriminate|]. cbv zeta in E.
  destruct (1114111 <? _); [discriminate|]. injection E as _ <-. exact (number_rest _ _ _ _ _ _ _ _ D I N).
Qed.
Lemma digit_alnum : forall c, ~ letter c -> ~ digit c -> decode_digit c = None.
Proof.
  intros c H G. unfold letter, digit in *. unfold decode_digit.
  destruct ((48 <=? c) && (c <=? 57)) eqn:A; [lia|]. destruct ((65 <=? c) && (c <=? 90)) eqn:B; [lia|].
  destruct ((97 <=? c) && (c <=? 122)) eqn:C; [lia|]. reflexivity.
Qed.
Lemma decode_bad : forall c (s v : bytes), (s = v \/ exists u, s = u ++ str "-" ++ v) -> ~ In 45 v -> In c v -> decode_digit c = None ->
  puny_decode s = None.
Proof.
  intros c s v S N I D. assert (M : memN 45 v = false).
  { destruct (memN 45 v) eqn:E; [|reflexivity]. apply memN_In in E. contradiction. }
  assert (P : exists n, Z.to_nat (1 + last_index_byte s 45) = n /\ skipn n s = v).
  { destruct S as [->|(u & ->)]; unfold last_index_byte.
    - rewrite last_index_byte_from_free by exact M. exists 0%nat. auto.
    - change (str "-" ++ v) with ([45] ++ v). rewrite last_index_byte_from_mid by exact M. exists (S (length u)). split; [unfold len; lia|].
      change (u ++ [45] ++ v) with (u ++ 45 :: v). rewrite <- (Nat.add_1_r (length u)).
      replace (length u + 1)%nat with (length (u ++ [45])) by (rewrite app_length; reflexivity).
      replace (u ++ 45 :: v) with ((u ++ [45]) ++ v) by (rewrite <- app_assoc; reflexivity).
      rewrite skipn_app, Nat.sub_diag, skipn_all. reflexivity. }
  destruct P as (n & En & Es). unfold puny_decode. destruct s as [|x s].
  { rewrite skipn_nil in Es. subst v. destruct I. }
  cbv zeta. rewrite En. destruct (n =? 1)%nat; [reflexivity|]. destruct (n =? length (x :: s))%nat eqn:El.
  { apply Nat.eqb_eq in El. rewrite El, skipn_all in Es. subst v. destruct I. }
  rewrite Es. rewrite (rounds_bad c) by assumption. reflexivity.
Qed.
Lemma bad_ace : forall strict d l, In l (rule_path d) ->
  (exists s, l = str "xn--" ++ s /\ puny_decode s = None) -> exists x, go_to_unicode_err strict d = Some x.
Proof.
  intros strict d l Hl (s & -> & P). unfold go_to_unicode_err.
  assert (X : forall ls, In (str "xn--" ++ s) ls -> exists x, decode_labels strict ls = inl x).
  { induction ls as [|y ls IH]; intros I; [destruct I|]. destruct I as [E|I]; cbn [decode_labels].
    - subst y. unfold decode_label. rewrite (ace_has_prefix s : has_prefix (str "xn--" ++ s) ace_prefix = true).
      change (skipn 4 (str "xn--" ++ s)) with s. rewrite P. eauto.
    - destruct (decode_label strict y); [eauto|]. destruct (IH I) as (x & ->). eauto. }
  destruct (X (split_byte d 46)) as (x & ->); [rewrite in_rev, <- rule_path_split; exact Hl|]. eauto.
Qed.
Lemma c63_none : forall strict ext t p r e scheme user raw after port path d, rejects_like strict ext ->
  extract ext t p = Ret (r, e) -> front (p_url p) scheme user (raw ++ after) -> plain_host raw -> after_host after port path ->
  port_accepted port -> percent_decoded raw d ->
  (forall l, In l (rule_path d) -> ~ starts_with l (str "xn--")) \/ (exists u, unicode_rule u /\ go_to_ascii strict u = Some d) ->
  forall x, e <> Some (ErrIdna x).
Proof.
  intros strict ext t p r e scheme user raw after port path d R H F Hh A Ok Hd C x E.
  apply (proj1 (c63 _ _ _ _ _ _ _ _ _ _ _ _ H F Hh A Ok Hd x)) in E as (_ & E).
  assert (X : go_to_unicode_err strict d = None).
  { destruct C as [C|(u & U & C)]; [apply no_ace; exact C|exact (valid_ace _ _ _ U C)]. }
  apply R in X. congruence.
Qed.
Lemma c63_bad : forall strict ext t p r e scheme user raw after port path d l s u v c, rejects_like strict ext ->
  extract ext t p = Ret (r, e) -> front (p_url p) scheme user (raw ++ after) -> plain_host raw -> after_host after port path ->
  port_accepted port -> percent_decoded raw d -> p_to_punycode p = false ->
  In l (rule_path d) -> l = str "xn--" ++ s -> s = v \/ s = u ++ str "-" ++ v -> ~ In 45 v -> In c v -> ~ letter c -> ~ digit c ->
  exists x, e = Some (ErrIdna x).
Proof.
  intros strict ext t p r e scheme user raw after port path d l s u v c R H F Hh A Ok Hd Pu Hl -> S N I Lc Dc.
  assert (P : puny_decode s = None).
  { apply (decode_bad c s v); [|exact N|exact I|apply digit_alnum; assumption].
    destruct S as [S|S]; [left; exact S|right; exists u; exact S]. }
  destruct (bad_ace strict d _ Hl) as (x & X); [eauto|].
  destruct (idna_to_unicode_err ext d) as [y|] eqn:Y.
  - exists y. apply (proj2 (c63 _ _ _ _ _ _ _ _ _ _ _ _ H F Hh A Ok Hd y)). auto.
  - apply R in Y. congruence.
Qed.
