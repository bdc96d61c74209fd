(** IdnaProofs.v - the model of the IDNA library on rules and hosts: C61, C62. *)

From Coq Require Import ZifyBool ZifyNat ZifyN.
From Verif Require Import Base BaseFacts Utf8 Chars Utf8Facts Str StrFacts TrieFacts ListSpec ListFacts Host HostFacts Trie Extract UrlSpec RuleSpec RuleProofs PslProofs VariantProofs Idna PunyProofs
  IdnaSpec.
Local Open Scope N_scope.

Lemma ascii_iff : forall s, is_ascii s = true <-> all_ascii s.
Proof.
  intros s. unfold is_ascii, all_ascii. rewrite forallb_forall, Forall_forall. split; intros H c Hc; apply N.ltb_lt; apply H; exact Hc.
Qed.

(** ** One label *)

(** The ASCII form of a label. *)
Definition a_label (l : bytes) : bytes := match encode_label l with Some a => a | None => [] end.

Lemma unicode_not_ace : forall l, unicode_label l -> has_prefix l ace_prefix = false.
Proof.
  intros l (rs & _ & _ & _ & H). destruct (has_prefix l ace_prefix) eqn:E; [|reflexivity].
  exfalso. apply H. apply has_prefix_iff. exact E.
Qed.
Lemma decode_unicode : forall strict l, unicode_label l -> decode_label strict l = inr l.
Proof. intros strict l H. unfold decode_label. rewrite (unicode_not_ace _ H). reflexivity. Qed.

Lemma ace_has_prefix : forall a, has_prefix (ace_prefix ++ a) ace_prefix = true.
Proof. intros a. apply has_prefix_iff. exists a. reflexivity. Qed.
Lemma a_label_cases : forall l, unicode_label l ->
  encode_label l = Some (a_label l)
  /\ ((is_ascii l = true /\ a_label l = l)
      \/ (is_ascii l = false /\ exists a, a_label l = ace_prefix ++ a /\ all_ascii a /\ puny_decode a = Some l)).
Proof.
  intros l (rs & V & Len & -> & _). unfold a_label, encode_label. destruct (is_ascii (encode_all rs)) eqn:A.
  - split; [reflexivity|]. left. split; reflexivity.
  - assert (Len' : (length rs <= 1024)%nat) by (destruct Len as [X|X]; [apply ascii_iff in X; congruence|exact X]).
    destruct (puny_ok rs V Len' A) as (a & E & F & D). rewrite E. split; [reflexivity|]. right. split; [reflexivity|].
    exists a. split; [reflexivity|]. split; [exact F|exact D].
Qed.
Lemma a_label_ascii : forall l, unicode_label l -> all_ascii (a_label l).
Proof.
  intros l H. destruct (a_label_cases l H) as (_ & [(A & E)|(A & a & E & F & _)]); rewrite E.
  - apply ascii_iff. exact A.
  - apply Forall_app. split; [|exact F]. repeat constructor.
Qed.
Lemma a_label_back : forall strict l, unicode_label l -> decode_label strict (a_label l) = inr l.
Proof.
  intros strict l H. destruct (a_label_cases l H) as (_ & [(A & E)|(A & a & E & F & D)]); rewrite E.
  - apply decode_unicode. exact H.
  - unfold decode_label. rewrite ace_has_prefix. cbv iota.
    change (skipn 4 (ace_prefix ++ a)) with a. rewrite D, A, andb_false_r. reflexivity.
Qed.
Lemma a_label_inj : forall l l', unicode_label l -> unicode_label l' -> a_label l = a_label l' -> l = l'.
Proof.
  intros l l' H H' E. pose proof (a_label_back true l H) as X. rewrite E, (a_label_back true l' H') in X. congruence.
Qed.
(** An ASCII form that is a Unicode label is the label itself. *)
Lemma a_label_unicode : forall l, unicode_label l -> unicode_label (a_label l) -> a_label l = l /\ is_ascii l = true.
Proof.
  intros l H H'. destruct (a_label_cases l H) as (_ & [(A & E)|(A & a & E & F & D)]); [auto|]. exfalso.
  rewrite E in H'. apply unicode_not_ace in H'. rewrite ace_has_prefix in H'. discriminate H'.
Qed.

(** ** Lines *)

Lemma join_split : forall s, join_dots (split_byte s 46) = s.
Proof.
  induction s as [|x s IH]; [reflexivity|]. cbn [split_byte]. pose proof (split_byte_nonempty s 46) as Ne.
  destruct (N.eqb_spec x 46) as [->|X].
  - destruct (split_byte s 46) as [|p ps]; [contradiction|]. cbn [join_dots] in *. rewrite IH. reflexivity.
  - destruct (split_byte s 46) as [|p ps]; [contradiction|]. destruct ps as [|p' ps]; cbn [join_dots] in *; rewrite <- IH; reflexivity.
Qed.
Lemma split_join : forall ls, ls <> [] -> Forall (fun l => ~ In 46 l) ls -> split_byte (join_dots ls) 46 = ls.
Proof.
  assert (A : forall l rest, ~ In 46 l -> split_byte (l ++ 46 :: rest) 46 = l :: split_byte rest 46).
  { induction l as [|x l IH]; intros rest H; cbn [app split_byte].
    - reflexivity.
    - destruct (N.eqb_spec x 46) as [->|]; [exfalso; apply H; left; reflexivity|].
      rewrite IH by (intros X; apply H; right; exact X). reflexivity. }
  assert (B : forall l, ~ In 46 l -> split_byte l 46 = [l]).
  { induction l as [|x l IH]; intros H; cbn [split_byte]; [reflexivity|].
    destruct (N.eqb_spec x 46) as [->|]; [exfalso; apply H; left; reflexivity|].
    rewrite IH by (intros X; apply H; right; exact X). reflexivity. }
  induction ls as [|l ls IH]; intros Hne H; [contradiction|]. inversion H as [|? ? Hl Hls]; subst.
  destruct ls as [|l' ls]; [apply B; exact Hl|]. cbn [join_dots].
  rewrite A by exact Hl. f_equal. apply IH; [discriminate|exact Hls].
Qed.
Lemma split_no_dot : forall s, Forall (fun l => ~ In 46 l) (split_byte s 46).
Proof.
  induction s as [|x s IH]; cbn [split_byte]; [constructor; [intros []|constructor]|].
  destruct (N.eqb_spec x 46) as [->|X]; [constructor; [intros []|exact IH]|].
  destruct (split_byte s 46) as [|p ps]; [constructor; [|constructor]; intros [Y|[]]; congruence|].
  inversion IH as [|? ? P Ps]; subst. constructor; [|exact Ps]. intros [Y|Y]; [congruence|]. apply P. exact Y.
Qed.

(** Digits of Punycode are letters and digits. *)
Section Without.
Variable c : N.
Hypothesis C : c < 48 /\ c <> 45.
Lemma number_without : forall fuel q k bias, ~ In c (encode_number fuel q k bias).
Proof.
  assert (D : forall d, encode_digit d <> c) by (intros d; unfold encode_digit; destruct (N.ltb_spec d 26); lia).
  induction fuel as [|f IH]; intros q k bias; cbn [encode_number].
  - intros [X|[]]. exact (D _ X).
  - destruct (q <? threshold k bias); intros [X|X]; try exact (D _ X); [destruct X|exact (IH _ _ _ X)].
Qed.
Lemma pass_without : forall s n b e out e', encode_pass s n b e = Some (out, e') -> ~ In c out.
Proof.
  induction s as [|r s IH]; intros n b e out e' H; cbn [encode_pass] in H.
  - injection H as <- _. intros [].
  - destruct (r <? n). { destruct (max_int32 <? e_delta e + 1); [discriminate|]. eapply IH; eauto. }
    destruct (n <? r); [eapply IH; eauto|].
    revert H. cbv zeta. generalize (number_without 32 (e_delta e) 36 (e_bias e)).
    generalize (encode_number 32 (e_delta e) 36 (e_bias e)). intros w Nw H.
    destruct (encode_pass s n b _) as [[out1 e1]|] eqn:E; [|discriminate]. injection H as <- _.
    rewrite in_app_iff. intros [X|X]; [exact (Nw X)|exact (IH _ _ _ _ _ E X)].
Qed.
Lemma rounds_without : forall fuel s rem n b e out, encode_rounds fuel s rem n b e = Some out -> ~ In c out.
Proof.
  induction fuel as [|f IH]; intros s rem n b e out H; cbn [encode_rounds] in H.
  - destruct (rem =? 0); [|discriminate]. injection H as <-. intros [].
  - destruct (rem =? 0); [injection H as <-; intros []|].
    destruct (madd _ _ _) as [dl|]; [|discriminate].
    destruct (encode_pass s _ b _) as [[out1 e1]|] eqn:E; [|discriminate].
    destruct (encode_rounds f s _ _ b _) as [out2|] eqn:E2; [|discriminate]. injection H as <-.
    rewrite in_app_iff. intros [X|X]; [exact (pass_without _ _ _ _ _ _ E X)|exact (IH _ _ _ _ _ _ E2 X)].
Qed.
Lemma rune_without : forall rs, Forall valid_rune rs -> In c rs -> In c (encode_all rs).
Proof.
  induction 1 as [|r rs V H IH]; [intros []|]. intros I. unfold encode_all in *. cbn [flat_map]. apply in_or_app.
  destruct I as [->|I]; [left|right; apply IH; exact I].
  unfold encode. replace (c <? 128) with true by lia. left. reflexivity.
Qed.
Lemma a_label_without : forall l, unicode_label l -> ~ In c l -> ~ In c (a_label l).
Proof.
  intros l (rs & V & Len & -> & _) N. unfold a_label, encode_label.
  destruct (is_ascii (encode_all rs)); [exact N|]. unfold puny_encode, range_str. rewrite range_runes by exact V.
  destruct (encode_rounds _ _ _ _ _ _) as [out|] eqn:E; cbn [option_map]; [|intros []].
  apply rounds_without in E. rewrite !in_app_iff. intros [X|[X|[X|X]]].
  - cbn in X. lia.
  - apply filter_In in X as [X _]. apply N. apply rune_without; assumption.
  - destruct (0 <? _); [destruct X as [X|[]]; lia|destruct X].
  - exact (E X).
Qed.
End Without.
Lemma a_label_no_dot : forall l, unicode_label l -> ~ In 46 l -> ~ In 46 (a_label l).
Proof. apply a_label_without. lia. Qed.

Lemma decode_labels_ok : forall strict ls, Forall unicode_label ls -> decode_labels strict ls = inr ls.
Proof.
  intros strict ls. induction 1 as [|l ls H F IH]; [reflexivity|]. cbn [decode_labels]. rewrite (decode_unicode _ _ H), IH. reflexivity.
Qed.
Lemma decode_a_labels : forall strict ls, Forall unicode_label ls -> decode_labels strict (map a_label ls) = inr ls.
Proof.
  intros strict ls. induction 1 as [|l ls H F IH]; [reflexivity|]. cbn [map decode_labels]. rewrite (a_label_back _ _ H), IH. reflexivity.
Qed.
Lemma encode_labels_ok : forall ls, Forall unicode_label ls -> encode_labels ls = Some (map a_label ls).
Proof.
  induction 1 as [|l ls H F IH]; [reflexivity|]. cbn [map encode_labels]. destruct (a_label_cases _ H) as (E & _). rewrite E, IH. reflexivity.
Qed.
Lemma unicode_split : forall rule, unicode_rule rule <-> Forall unicode_label (split_byte rule 46).
Proof.
  intros rule. unfold unicode_rule. rewrite rule_path_split. split; intros H; [rewrite <- (rev_involutive (split_byte rule 46))|];
    apply Forall_rev; exact H.
Qed.

Lemma to_ascii_rule : forall strict rule, unicode_rule rule ->
  exists a, go_to_ascii strict rule = Some a /\ rule_path a = map a_label (rule_path rule) /\ all_ascii a
    /\ go_to_unicode strict a = Some rule.
Proof.
  intros strict rule U. apply unicode_split in U. pose proof (split_no_dot rule) as Nd.
  assert (Nd' : Forall (fun l => ~ In 46 l) (map a_label (split_byte rule 46))).
  { apply Forall_forall. intros x Hx. apply in_map_iff in Hx as (l & <- & Hl). rewrite Forall_forall in U, Nd.
    apply a_label_no_dot; auto. }
  assert (Ne : map a_label (split_byte rule 46) <> []).
  { pose proof (split_byte_nonempty rule 46) as X. destruct (split_byte rule 46); [contradiction|discriminate]. }
  pose proof (split_join _ Ne Nd') as S.
  unfold go_to_ascii, go_to_unicode. rewrite (decode_labels_ok strict _ U), (encode_labels_ok _ U). cbn [option_map].
  eexists. split; [reflexivity|]. split; [|split].
  - rewrite !rule_path_split, S, map_rev. reflexivity.
  - clear S Ne Nd'. induction U as [|l ls H F IH]; [constructor|]. inversion Nd as [|? ? X Y]; subst. cbn [map join_dots].
    destruct ls as [|l' ls]; [apply a_label_ascii; exact H|]. cbn [map].
    apply Forall_app. split; [apply a_label_ascii; exact H|]. constructor; [reflexivity|]. apply IH. exact Y.
  - rewrite S, (decode_a_labels strict _ U), join_split. reflexivity.
Qed.

(** ** Rules come in pairs *)

Record twin (rules : list bytes) (line : bytes) : Prop := {
  t_unicode : unicode_rule line;
  t_plain : plain_exceptions line;
  t_line : In line rules;
  t_ascii : exists a, In a rules /\ rule_path a = map a_label (rule_path line) }.
Definition twinned (rules : list bytes) : Prop :=
  forall rule, In rule rules -> exists line, twin rules line /\ (rule = line \/ rule_path rule = map a_label (rule_path line)).

Lemma line_twin : forall strict line rs, line_rules (go_to_ascii strict) line rs ->
  (forall rule, trimmed white_space line rule -> ~ ignored_text rule -> unicode_rule rule /\ plain_exceptions rule) ->
  forall rule, In rule rs -> exists l, twin rs l /\ (rule = l \/ rule_path rule = map a_label (rule_path l)).
Proof.
  intros strict line rs H U rule I. inversion H as [?|? ? ? ?|text T Ig E|text a T Ig E Ne]; subst; try contradiction.
  - destruct I as [<-|[]]. destruct (U _ T Ig) as (U1 & U2). destruct (to_ascii_rule strict _ U1) as (a & E' & P & _).
    pose proof (eq_trans (eq_sym E) E') as X. injection X as <-.
    exists text. split; [|left; reflexivity]. split; auto; [left; reflexivity|]. exists text. split; [left; reflexivity|exact P].
  - destruct (U _ T Ig) as (U1 & U2). destruct (to_ascii_rule strict _ U1) as (a' & E' & P & _).
    pose proof (eq_trans (eq_sym E) E') as X. injection X as <-.
    exists text. split.
    + split; auto; [right; left; reflexivity|]. exists a. split; [left; reflexivity|exact P].
    + destruct I as [<-|[<-|[]]]; [right; exact P|left; reflexivity].
Qed.
Lemma twin_mono : forall rs rules l, (forall x, In x rs -> In x rules) -> twin rs l -> twin rules l.
Proof. intros rs rules l S [A B C (a & D & E)]. split; auto. exists a. auto. Qed.
Lemma lines_twin : forall strict lines rules, lines_rules (go_to_ascii strict) lines rules ->
  (forall line rule, In line lines -> trimmed white_space line rule -> ~ ignored_text rule -> unicode_rule rule /\ plain_exceptions rule) ->
  twinned rules.
Proof.
  intros strict lines rules (rss & F & ->) U rule I. apply in_concat in I as (rs & Hrs & I).
  assert (X : exists line, In line lines /\ line_rules (go_to_ascii strict) line rs).
  { clear U I. induction F as [|line rs' lines rss H F IH]; [destruct Hrs|]. destruct Hrs as [->|Hrs].
    - exists line. split; [left; reflexivity|exact H].
    - destruct (IH Hrs) as (l & Hl & E). exists l. split; [right; exact Hl|exact E]. }
  destruct X as (line & Hl & H). destruct (line_twin _ _ _ H (fun r => U line r Hl) _ I) as (l & T & E).
  exists l. split; [|exact E]. eapply twin_mono; [|exact T]. intros x Hx. apply in_concat. exists rs. auto.
Qed.
Lemma twinned_app : forall a b, twinned a -> twinned b -> twinned (a ++ b).
Proof.
  intros a b A B rule I. apply in_app_or in I as [I|I]; [destruct (A _ I) as (l & T & E)|destruct (B _ I) as (l & T & E)];
    exists l; (split; [|exact E]); (eapply twin_mono; [|exact T]); intros x Hx; apply in_or_app; auto.
Qed.
Lemma used_twinned : forall strict text private rules, used_rules (go_to_ascii strict) text private rules -> unicode_list text ->
  twinned rules.
Proof.
  intros strict text private rules (pub & pri & (lines & HL & H) & ->) U.
  assert (X : twinned pub /\ twinned pri).
  { destruct H as [(_ & H & ->)|(before & marker & after & E & _ & _ & H1 & H2)].
    - split; [|intros r []]. eapply lines_twin; [exact H|]. intros line rule Hl. apply U with lines; assumption.
    - split; eapply lines_twin; eauto; intros line rule Hl; apply U with lines; try assumption; rewrite E; apply in_or_app;
        [left; exact Hl|right; right; exact Hl]. }
  destruct X as [X1 X2]. destruct private; [apply twinned_app; assumption|exact X1].
Qed.

(** ** The walk *)

Lemma map_inj : forall (p q : list bytes), Forall unicode_label p -> Forall unicode_label q -> map a_label p = map a_label q -> p = q.
Proof.
  induction p as [|x p IH]; intros [|y q] P Q E; try discriminate; [reflexivity|]. inversion P; inversion Q; subst.
  injection E as E1 E2. f_equal; [apply a_label_inj; assumption|apply IH; assumption].
Qed.
Lemma map_same : forall p : list bytes, (forall l, In l p -> a_label l = l) -> map a_label p = p.
Proof.
  induction p as [|x p IH]; intros H; [reflexivity|]. cbn [map]. rewrite H by (left; reflexivity).
  rewrite IH by (intros l Hl; apply H; right; exact Hl). reflexivity.
Qed.

Section Twins.
Variable rules : list bytes.
Hypothesis T : twinned rules.

Lemma twin_up : forall rule (path rest : list bytes), In rule rules -> rule_path rule = path ++ rest -> Forall unicode_label path ->
  exists rule' rest', In rule' rules /\ rule_path rule' = map a_label path ++ rest' /\ (rest = [] <-> rest' = []).
Proof.
  intros rule path rest I E U. destruct (T _ I) as (line & [Tu Tp Tl (a & Ia & Ea)] & [->|Er]).
  - exists a, (map a_label rest). rewrite Ea, E, map_app. split; [exact Ia|]. split; [reflexivity|]. destruct rest; split; intros X; try reflexivity; discriminate X.
  - exists rule, rest. split; [exact I|]. split; [|tauto]. rewrite map_same; [exact E|]. intros l Hl.
    assert (X : In l (map a_label (rule_path line))) by (rewrite <- Er, E; apply in_or_app; left; exact Hl).
    apply in_map_iff in X as (k & <- & Hk). unfold unicode_rule in Tu. rewrite Forall_forall in Tu, U. specialize (Tu _ Hk). specialize (U _ Hl).
    destruct (a_label_unicode _ Tu U) as (X & _). rewrite !X. reflexivity.
Qed.
Lemma twin_down : forall rule (path rest : list bytes), In rule rules -> rule_path rule = map a_label path ++ rest -> Forall unicode_label path ->
  exists rule' rest', In rule' rules /\ rule_path rule' = path ++ rest' /\ (rest = [] <-> rest' = []).
Proof.
  intros rule path rest I E U. destruct (T _ I) as (line & [Tu Tp Tl _] & [->|Er]).
  - exists line, rest. split; [exact I|]. split; [|tauto]. rewrite E. f_equal. apply map_same. intros l Hl.
    unfold unicode_rule in Tu. rewrite Forall_forall in Tu, U. apply a_label_unicode; [apply U; exact Hl|]. apply Tu. rewrite E. apply in_or_app. left.
    apply in_map. exact Hl.
  - rewrite Er in E. pose proof (firstn_skipn (length path) (rule_path line)) as S.
    set (x := firstn (length path) (rule_path line)) in *. set (y := skipn (length path) (rule_path line)) in *.
    assert (Ex : map a_label x = map a_label path).
    { unfold x. rewrite <- firstn_map, E, firstn_app, map_length, Nat.sub_diag. cbn [firstn]. rewrite app_nil_r.
      rewrite firstn_all2; [reflexivity|]. rewrite map_length. apply Nat.le_refl. }
    assert (Ux : Forall unicode_label x) by (unfold unicode_rule in Tu; rewrite <- S in Tu; apply Forall_app in Tu as [X _]; exact X).
    pose proof (map_inj _ _ Ux U Ex) as Q. exists line, y. split; [exact Tl|]. split; [rewrite <- S, Q; reflexivity|].
    rewrite <- Ex in E. rewrite <- S, map_app in E. apply app_inv_head in E. rewrite <- E. destruct y; split; intros X; try reflexivity; discriminate X.
Qed.

Lemma known_twin : forall path : list bytes, Forall unicode_label path -> known rules (map a_label path) = known rules path.
Proof.
  intros path U. apply eq_true_iff_eq. rewrite !known_iff. split; intros (rule & rest & I & E).
  - destruct (twin_down _ _ _ I E U) as (rule' & rest' & I' & E' & _). eauto.
  - destruct (twin_up _ _ _ I E U) as (rule' & rest' & I' & E' & _). eauto.
Qed.
Lemma is_rule_twin : forall path : list bytes, Forall unicode_label path -> is_rule rules (map a_label path) = is_rule rules path.
Proof.
  intros path U. apply eq_true_iff_eq. rewrite !is_rule_iff. split; intros (rule & I & E).
  - rewrite <- (app_nil_r (map a_label path)) in E. destruct (twin_down _ _ _ I E U) as (rule' & rest' & I' & E' & X). rewrite (proj1 X eq_refl), app_nil_r in E'. eauto.
  - rewrite <- (app_nil_r path) in E. destruct (twin_up _ _ _ I E U) as (rule' & rest' & I' & E' & X). rewrite (proj1 X eq_refl), app_nil_r in E'. eauto.
Qed.

Lemma star_label : unicode_label (str "*") /\ a_label (str "*") = str "*".
Proof.
  split; [|reflexivity]. exists [42]. split; [constructor; [left; reflexivity|constructor]|]. split; [right; apply le_S_n; repeat constructor|].
  split; [reflexivity|]. intros (r & X). discriminate X.
Qed.
Lemma bang_label : forall l, unicode_label l -> all_ascii l -> unicode_label (str "!" ++ l) /\ a_label (str "!" ++ l) = str "!" ++ a_label l.
Proof.
  intros l (rs & V & _ & E & _) A. assert (A' : all_ascii (str "!" ++ l)) by (constructor; [reflexivity|exact A]). split.
  - exists (33 :: rs). split; [constructor; [left; reflexivity|exact V]|]. split; [left; exact A'|]. split; [rewrite E; reflexivity|].
    intros (r & X). discriminate X.
  - unfold a_label, encode_label. rewrite (proj2 (ascii_iff _) A'), (proj2 (ascii_iff _) A). reflexivity.
Qed.
Lemma bang_none : forall (path : list bytes) l, unicode_label l -> is_ascii l = false -> known rules (path ++ [str "!" ++ l]) = false
  /\ known rules (path ++ [str "!" ++ a_label l]) = false.
Proof.
  intros path l U A. split.
  - destruct (known rules _) eqn:K; [exfalso|reflexivity]. apply known_iff in K as (rule & rest & I & E).
    assert (X : In (str "!" ++ l) (rule_path rule)) by (rewrite E, <- app_assoc; apply in_or_app; right; left; reflexivity).
    destruct (T _ I) as (line & [Tu Tp Tl _] & [->|Er]).
    + apply Tp in X as [X _]. apply ascii_iff in X. congruence.
    + rewrite Er in X. apply in_map_iff in X as (k & Ek & Hk). unfold unicode_rule in Tu. rewrite Forall_forall in Tu. specialize (Tu _ Hk).
      apply a_label_ascii in Tu. rewrite Ek in Tu. inversion Tu as [|? ? _ X]; subst. apply ascii_iff in X. congruence.
  - destruct (known rules _) eqn:K; [exfalso|reflexivity]. apply known_iff in K as (rule & rest & I & E).
    assert (X : In (str "!" ++ a_label l) (rule_path rule)) by (rewrite E, <- app_assoc; apply in_or_app; right; left; reflexivity).
    assert (Y : forall line, plain_exceptions line -> ~ In (str "!" ++ a_label l) (rule_path line)).
    { intros line P Z. apply P in Z as [_ Z]. destruct (a_label_unicode _ U Z) as (_ & W). congruence. }
    destruct (T _ I) as (line & [Tu Tp Tl _] & [->|Er]); [exact (Y _ Tp X)|].
    rewrite Er in X. apply in_map_iff in X as (k & Ek & Hk). unfold unicode_rule in Tu. rewrite Forall_forall in Tu. specialize (Tu _ Hk).
    destruct (a_label_cases k Tu) as (_ & [(_ & Z)|(_ & a & Z & _)]).
    + apply (Y _ Tp). rewrite <- Ek, Z. exact Hk.
    + rewrite Z in Ek. discriminate Ek.
Qed.

Lemma walk_twin : forall labs path : list bytes, Forall unicode_label labs -> Forall unicode_label path ->
  (forall l, In l labs -> decoded l = l /\ decoded (a_label l) = a_label l) ->
  walk rules (map a_label path) (map a_label labs) = walk rules path labs.
Proof.
  induction labs as [|l labs IH]; intros path U P D; [reflexivity|]. inversion U as [|? ? Ul Us]; subst.
  destruct (D l (or_introl eq_refl)) as (D1 & D2). cbn [map walk].
  destruct star_label as (S1 & S2).
  assert (K1 : known rules (map a_label path ++ [str "*"]) = known rules (path ++ [str "*"])).
  { rewrite <- S2 at 1. change [a_label (str "*")] with (map a_label [str "*"]). rewrite <- map_app. apply known_twin.
    apply Forall_app. split; [exact P|]. constructor; [exact S1|constructor]. }
  rewrite K1. destruct (known rules (path ++ [str "*"])).
  - assert (K2 : known rules (map a_label path ++ [str "!" ++ a_label l]) = known rules (path ++ [str "!" ++ l])).
    { destruct (is_ascii l) eqn:A.
      - apply ascii_iff in A. destruct (bang_label l Ul A) as (B1 & B2). rewrite <- B2.
        change [a_label (str "!" ++ l)] with (map a_label [str "!" ++ l]). rewrite <- map_app. apply known_twin.
        apply Forall_app. split; [exact P|]. constructor; [exact B1|constructor].
      - rewrite (proj1 (bang_none path l Ul A)). apply bang_none; assumption. }
    rewrite K2. reflexivity.
  - cbv zeta. rewrite D1, D2. change [a_label l] with (map a_label [l]). rewrite <- map_app.
    assert (P' : Forall unicode_label (path ++ [l])) by (apply Forall_app; split; [exact P|constructor; [exact Ul|constructor]]).
    rewrite known_twin by exact P'. destruct (known rules (path ++ [l])); [|reflexivity].
    rewrite IH; [|exact Us|exact P'|intros x Hx; apply D; right; exact Hx].
    assert (S3 : is_suffix rules (map a_label (path ++ [l])) = is_suffix rules (path ++ [l])).
    { unfold is_suffix. rewrite is_rule_twin by exact P'. f_equal. destruct (path ++ [l]) as [|k [|k' q]] eqn:E; [reflexivity| |reflexivity].
      cbn [map]. rewrite <- S2 at 1. change [a_label k; a_label (str "*")] with (map a_label [k; str "*"]). apply known_twin.
      inversion P'; subst. constructor; [assumption|]. constructor; [exact S1|constructor]. }
    rewrite S3. reflexivity.
Qed.
End Twins.

(** ** Hosts *)

Definition a_seg (g : seg) : seg := (a_label (fst g), snd g).

Lemma split_single : forall l, ~ In 46 l -> split_byte l 46 = [l].
Proof. intros l H. apply (split_join [l]); [discriminate|]. constructor; [exact H|constructor]. Qed.
Lemma split_dot : forall x l, ~ In 46 l -> split_byte (x ++ 46 :: l) 46 = split_byte x 46 ++ [l].
Proof.
  induction x as [|c x IH]; intros l H.
  - cbn [app split_byte]. rewrite N.eqb_refl. rewrite split_single by exact H. reflexivity.
  - cbn [app split_byte]. rewrite IH by exact H. destruct (c =? 46); [reflexivity|].
    pose proof (split_byte_nonempty x 46) as Ne. destruct (split_byte x 46) as [|p ps]; [contradiction|]. reflexivity.
Qed.
Lemma no_sep_dot : forall l, no_sep l -> ~ In 46 l.
Proof. intros l H I. apply in_split in I as (p & q & ->). apply (H p [46] q); [left; reflexivity|reflexivity]. Qed.
Lemma ascii_no_sep : forall l, all_ascii l -> ~ In 46 l -> no_sep l.
Proof.
  intros l A N p sep q S E. subst l. unfold all_ascii in A. rewrite !Forall_app in A. destruct A as (_ & A & _).
  destruct S as [->|S]; [apply N; apply in_or_app; right; left; reflexivity|].
  destruct S as [->|[->| ->]]; inversion A; lia.
Qed.

Lemma host_path : forall segs first, ~ In 46 first -> Forall (fun g => ~ In 46 (fst g) /\ snd g = str ".") segs ->
  rule_path (host first segs) = labels first segs.
Proof.
  intros segs first F H. rewrite rule_path_split. unfold labels. induction H as [|[l s] segs [Hl Hs] H IH].
  - cbn [host map app]. rewrite split_single by exact F. reflexivity.
  - cbn [host map app fst snd] in *. rewrite Hs. cbn [app str map list_ascii_of_string].
    change (N_of_ascii "."%char) with 46. rewrite split_dot by exact Hl. rewrite rev_app_distr. cbn [rev app]. f_equal. exact IH.
Qed.
Lemma path_inj : forall a b, rule_path a = rule_path b -> a = b.
Proof.
  intros a b E. rewrite !rule_path_split in E. apply (f_equal (@rev bytes)) in E. rewrite !rev_involutive in E.
  rewrite <- (join_split a), <- (join_split b), E. reflexivity.
Qed.

Definition dotted_segs (first : bytes) (segs : list seg) : Prop :=
  unicode_label first /\ ~ In 46 first /\ Forall (fun g => unicode_label (fst g) /\ ~ In 46 (fst g) /\ snd g = str ".") segs.

Lemma convert_segs : forall strict segs first, dotted_segs first segs ->
  go_to_ascii strict (host first segs) = Some (host (a_label first) (map a_seg segs)).
Proof.
  intros strict segs first (U & D & F).
  assert (P : rule_path (host first segs) = labels first segs).
  { apply host_path; [exact D|]. eapply Forall_impl; [|exact F]. cbv beta. tauto. }
  assert (Ur : unicode_rule (host first segs)).
  { unfold unicode_rule. rewrite P. apply Forall_app. split; [|constructor; [exact U|constructor]].
    apply Forall_map. eapply Forall_impl; [|exact F]. cbv beta. tauto. }
  destruct (to_ascii_rule strict _ Ur) as (a & E & Pa & _). rewrite E. f_equal. apply path_inj. rewrite Pa, P, host_path.
  - unfold labels. rewrite map_app, !map_map. reflexivity.
  - apply a_label_no_dot; assumption.
  - apply Forall_map. eapply Forall_impl; [|exact F]. intros g (A & B & C). cbn [a_seg fst snd]. split; [apply a_label_no_dot; assumption|exact C].
Qed.
Lemma convert_label : forall strict l, unicode_label l -> ~ In 46 l -> go_to_ascii strict l = Some (a_label l).
Proof. intros strict l U D. apply (convert_segs strict [] l). split; [exact U|]. split; [exact D|constructor]. Qed.

Lemma unicode_nil : unicode_label [] /\ a_label [] = [].
Proof.
  split; [|reflexivity]. exists []. split; [constructor|]. split; [left; constructor|]. split; [reflexivity|]. intros (r & X). discriminate X.
Qed.
Lemma a_label_nonempty : forall l, unicode_label l -> l <> [] -> a_label l <> [].
Proof. intros l U N E. apply N. apply a_label_inj; [exact U|apply unicode_nil|]. rewrite E. reflexivity. Qed.

Lemma dotted_host : forall h first segs, h = host first segs -> well_split first segs -> dotted h -> unicode_rule h -> dotted_segs first segs.
Proof.
  intros h first segs E (W1 & W2) (D & _ & _) U.
  assert (S : Forall (fun g => snd g = str ".") segs).
  { apply Forall_forall. intros [l s] I. cbn [snd]. rewrite Forall_forall in W2. specialize (W2 _ I) as (_ & Hs). cbn [snd] in Hs.
    apply in_split in I as (a & b & ->). rewrite host_mid in E. apply (D (host first b) s (host l a)); assumption. }
  assert (P : rule_path h = labels first segs).
  { rewrite E. apply host_path; [apply no_sep_dot; exact W1|]. rewrite Forall_forall in *. intros g I. split; [apply no_sep_dot; apply W2; exact I|].
    apply S. exact I. }
  unfold unicode_rule in U. rewrite P in U. apply Forall_app in U as [U1 U2]. inversion U2 as [|? ? Uf _]; subst.
  split; [exact Uf|]. split; [apply no_sep_dot; exact W1|]. rewrite Forall_forall in *. intros g I. split; [|split].
  - apply U1. apply in_map. exact I.
  - apply no_sep_dot. apply W2. exact I.
  - apply S. exact I.
Qed.

Lemma labels_in : forall first segs l c, In l (labels first segs) -> In c l -> In c (host first segs).
Proof.
  intros first segs l c. unfold labels. induction segs as [|[k s] segs IH]; cbn [map app host fst].
  - intros [->|[]]. auto.
  - intros [->|I] Hc; [rewrite !in_app_iff; auto|]. apply in_or_app. left. apply IH; assumption.
Qed.

Lemma labels_a : forall first segs, labels (a_label first) (map a_seg segs) = map a_label (labels first segs).
Proof. intros first segs. unfold labels. rewrite map_app, !map_map. reflexivity. Qed.
Lemma dotted_skip : forall first n segs, dotted_segs first segs -> dotted_segs first (skipn n segs).
Proof.
  intros first n segs (A & B & C). split; [exact A|]. split; [exact B|]. rewrite <- (firstn_skipn n segs) in C. apply Forall_app in C as [_ C]. exact C.
Qed.
Lemma dotted_first : forall first n segs, dotted_segs first segs -> dotted_segs first (firstn n segs).
Proof.
  intros first n segs (A & B & C). split; [exact A|]. split; [exact B|]. rewrite <- (firstn_skipn n segs) in C. apply Forall_app in C as [C _]. exact C.
Qed.
Lemma convert_text : forall strict first segs, dotted_segs first segs -> go_to_ascii strict (labels_text segs) = Some (labels_text (map a_seg segs)).
Proof.
  intros strict first segs (_ & _ & D). destruct (rev_case _ segs) as [->|(a & [l s] & ->)]; [reflexivity|].
  rewrite map_app. change (map a_seg [(l, s)]) with [(a_label l, s)]. rewrite !labels_text_host. apply Forall_app in D as [D1 D2]. inversion D2 as [|? ? (U & N & _) _]; subst.
  apply convert_segs. split; [exact U|]. split; [exact N|exact D1].
Qed.

Lemma ascii_host : forall strict h h' first zs segs, labelled h first zs segs -> dotted h -> unicode_rule h -> go_to_ascii strict h = Some h' ->
  labelled h' (a_label first) (map a_seg zs) (map a_seg segs) /\ dotted_segs first (zs ++ segs) /\ dotted_segs first segs
  /\ Forall unicode_label (labels first segs) /\ Forall (fun l => ~ In 46 l) (labels first segs)
  /\ (forall l, In l (labels first segs) -> decoded l = l /\ decoded (a_label l) = a_label l).
Proof.
  intros strict h h' first zs segs L D U C.
  pose proof L as (Eh & W & Hz & Hs). pose proof (dotted_host _ _ _ Eh W D U) as Ds.
  assert (Dg : dotted_segs first segs).
  { destruct Ds as (A1 & A2 & A3). split; [exact A1|]. split; [exact A2|]. apply Forall_app in A3 as [_ A3]. exact A3. }
  assert (Eh' : h' = host (a_label first) (map a_seg zs ++ map a_seg segs)).
  { rewrite <- map_app. rewrite Eh, (convert_segs strict _ _ Ds) in C. congruence. }
  assert (Ulab : Forall unicode_label (labels first segs)).
  { destruct Dg as (A1 & A2 & A3). apply Forall_app. split; [|constructor; [exact A1|constructor]]. apply Forall_map. eapply Forall_impl; [|exact A3]. cbv beta. tauto. }
  assert (Nlab : Forall (fun l => ~ In 46 l) (labels first segs)).
  { destruct Dg as (A1 & A2 & A3). apply Forall_app. split; [|constructor; [exact A2|constructor]]. apply Forall_map. eapply Forall_impl; [|exact A3]. cbv beta. tauto. }
  split; [|split; [exact Ds|]; split; [exact Dg|]; split; [exact Ulab|]; split; [exact Nlab|]].
  - split; [exact Eh'|]. split; [|split].
    + rewrite <- map_app. destruct Ds as (A1 & A2 & A3). split.
      * apply ascii_no_sep; [apply a_label_ascii; exact A1|apply a_label_no_dot; assumption].
      * apply Forall_map. eapply Forall_impl; [|exact A3]. intros g (G1 & G2 & G3). cbn [a_seg fst snd]. split.
        -- apply ascii_no_sep; [apply a_label_ascii; exact G1|apply a_label_no_dot; assumption].
        -- rewrite G3. left. reflexivity.
    + apply Forall_map. eapply Forall_impl; [|exact Hz]. intros [l s] G. unfold a_seg. cbn [fst] in *. subst l. reflexivity.
    + destruct segs as [|g segs]; [exact I|]. cbn [map a_seg fst]. apply a_label_nonempty; [|exact Hs].
      destruct Dg as (_ & _ & A3). inversion A3; tauto.
  - intros l Hl. destruct D as (_ & D1 & D2).
    assert (In' : forall c, In c l -> In c h).
    { intros c Hc. rewrite Eh. apply labels_in with l; [|exact Hc]. unfold labels in *. rewrite map_app. rewrite in_app_iff in Hl.
      rewrite !in_app_iff. tauto. }
    rewrite Forall_forall in Ulab. specialize (Ulab _ Hl).
    split; apply decoded_plain; try (intros Y; apply In' in Y; tauto); apply a_label_without; try assumption; try lia; intros Y; apply In' in Y; tauto.
Qed.

Lemma c62 : forall strict text private rules t ext p p' r r' scheme user raw h port path scheme' user' raw' h' port' path',
  used_rules (go_to_ascii strict) text private rules -> unicode_list text -> build_trie rules = Ret t ->
  extract ext t p = Ret (r, None) -> extract ext t p' = Ret (r', None) ->
  r_host_type r = HHostName -> r_host_type r' = HHostName ->
  url_parts ext p scheme user raw h port path -> url_parts ext p' scheme' user' raw' h' port' path' ->
  dotted h -> unicode_rule h -> go_to_ascii strict h = Some h' -> p_ignore_sub_domains p = p_ignore_sub_domains p' ->
  go_to_ascii strict (r_suffix r) = Some (r_suffix r') /\ go_to_ascii strict (r_domain r) = Some (r_domain r')
  /\ go_to_ascii strict (r_sub_domain r) = Some (r_sub_domain r').
Proof.
  intros strict text private rules t ext p p' r r' sc us raw h po pa sc' us' raw' h' po' pa' Us Ul B X X' Ht Ht' Pa Pa' D U C Ig.
  pose proof (used_twinned _ _ _ _ Us Ul) as T.
  destruct (labelled_total h) as (first & zs & segs & L).
  destruct (ascii_host strict _ _ _ _ _ L D U C) as (L' & _ & Dg & Ulab & Nlab & Dec).
  destruct (c21_at _ _ _ _ _ _ _ _ _ _ _ _ _ _ B X Ht Pa L) as (sub & R & Sb).
  destruct (c21_at _ _ _ _ _ _ _ _ _ _ _ _ _ _ B X' Ht' Pa' L') as (sub' & R' & Sb').
  rewrite Sb, Sb', <- Ig. unfold reported in R, R'. rewrite labels_a in R'.
  assert (Wk : walk rules [] (map a_label (labels first segs)) = walk rules [] (labels first segs)).
  { apply (walk_twin rules T _ []); [exact Ulab|constructor|exact Dec]. }
  rewrite Wk, !map_length in R'.
  assert (Nth : forall n, go_to_ascii strict (nth n (labels first segs) []) = Some (nth n (map a_label (labels first segs)) [])).
  { intros n. destruct (Nat.ltb_spec n (length (labels first segs))) as [Y|Y].
    - rewrite (nth_indep (map a_label _) [] (a_label [])) by (rewrite map_length; exact Y). rewrite map_nth.
      rewrite Forall_forall in Ulab, Nlab. apply convert_label; [apply Ulab|apply Nlab]; apply nth_In; exact Y.
    - rewrite !nth_overflow by (rewrite ?map_length; exact Y). reflexivity. }
  assert (Sub : forall n, go_to_ascii strict (if (n <=? length segs)%nat then host first (skipn n segs) else [])
    = Some (if (n <=? length segs)%nat then host (a_label first) (skipn n (map a_seg segs)) else [])).
  { intros n. destruct (n <=? length segs)%nat; [|reflexivity]. rewrite skipn_map. apply convert_segs. apply dotted_skip. exact Dg. }
  cbv zeta in R, R'. destruct (walk rules [] (labels first segs)) as [[k|] n].
  - destruct R as (_ & -> & -> & ->), R' as (_ & -> & -> & ->). split; [|split].
    + rewrite skipn_map, firstn_map. apply convert_text with first. apply dotted_first. apply dotted_skip. exact Dg.
    + apply Nth.
    + destruct (p_ignore_sub_domains p); [reflexivity|]. apply Sub.
  - destruct R as (-> & -> & ->), R' as (-> & -> & ->). split; [reflexivity|]. split; [apply Nth|].
    destruct (p_ignore_sub_domains p); [reflexivity|]. apply Sub.
Qed.
