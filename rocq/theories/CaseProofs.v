(** CaseProofs.v - the case of Punycode digits. *)

From Coq Require Import ZifyBool ZifyNat ZifyN.
From Verif Require Import Base BaseFacts Utf8 Chars Utf8Facts Str StrFacts Net TrieFacts Host HostFacts Trie Extract Parse ParseFacts
  UrlSpec UrlFacts ExtractFacts RuleSpec ListSpec ListFacts Idna PunyProofs IdnaSpec IdnaProofs IdnaBuiltin.
Local Open Scope N_scope.

Lemma all2_length : forall A B (P : A -> B -> Prop) l l', Forall2 P l l' -> length l = length l'.
Proof. induction 1; cbn [length]; congruence. Qed.
Lemma all2_rev : forall A B (P : A -> B -> Prop) l l', Forall2 P l l' -> Forall2 P (rev l) (rev l').
Proof. induction 1; cbn [rev]; [constructor|]. apply Forall2_app; [assumption|]. constructor; [assumption|constructor]. Qed.

Lemma digit_case : forall a b, same_letter a b -> decode_digit a = decode_digit b.
Proof.
  intros a b [->|[(L & ->)|(L & ->)]]; [reflexivity|unfold decode_digit..].
  - replace ((48 <=? a) && (a <=? 57)) with false by lia. replace ((65 <=? a) && (a <=? 90)) with true by lia.
    replace ((48 <=? a + 32) && (a + 32 <=? 57)) with false by lia. replace ((65 <=? a + 32) && (a + 32 <=? 90)) with false by lia.
    replace ((97 <=? a + 32) && (a + 32 <=? 122)) with true by lia. f_equal. lia.
  - replace ((48 <=? b) && (b <=? 57)) with false by lia. replace ((65 <=? b) && (b <=? 90)) with true by lia.
    replace ((48 <=? b + 32) && (b + 32 <=? 57)) with false by lia. replace ((65 <=? b + 32) && (b + 32 <=? 90)) with false by lia.
    replace ((97 <=? b + 32) && (b + 32 <=? 122)) with true by lia. f_equal. lia.
Qed.

Lemma number_case : forall v v', Forall2 same_letter v v' -> forall i w k bias,
  match decode_number v i w k bias, decode_number v' i w k bias with
  | None, None => True
  | Some (j, q), Some (j', q') => j = j' /\ Forall2 same_letter q q'
  | _, _ => False
  end.
Proof.
  induction 1 as [|a b v v' Hab H IH]; intros i w k bias; cbn [decode_number]; [exact I|].
  rewrite <- (digit_case a b Hab). destruct (decode_digit a) as [g|]; [|exact I]. destruct (madd i g w) as [j|]; [|exact I].
  cbv zeta. destruct (g <? threshold k bias); [auto|]. destruct (madd 0 w (36 - threshold k bias)) as [w'|]; [|exact I]. apply IH.
Qed.

Lemma rounds_case : forall fuel v v' d, Forall2 same_letter v v' -> decode_rounds fuel v d = decode_rounds fuel v' d.
Proof.
  induction fuel as [|f IH]; intros v v' d H; destruct H as [|a b v v' Hab H]; cbn [decode_rounds]; try reflexivity.
  pose proof (number_case (a :: v) (b :: v') (Forall2_cons _ _ Hab H) (d_i d) 1 36 (d_bias d)) as N. unfold decode_round.
  destruct (decode_number (a :: v) _ _ _ _) as [[j q]|], (decode_number (b :: v') _ _ _ _) as [[j' q']|]; try contradiction; [|reflexivity].
  destruct N as (<- & Q). destruct (1024 <=? length (d_output d))%nat; [reflexivity|]. cbv zeta.
  destruct (1114111 <? _); [reflexivity|]. apply IH. exact Q.
Qed.

Lemma no_hyphen_case : forall v v', Forall2 same_letter v v' -> ~ In 45 v -> memN 45 v = false /\ memN 45 v' = false.
Proof.
  intros v v' H N. split.
  - destruct (memN 45 v) eqn:M; [apply memN_In in M; contradiction|reflexivity].
  - destruct (memN 45 v') eqn:M; [|reflexivity]. exfalso. apply memN_In in M. apply N. clear N. induction H as [|a b v v' Hab H IH]; [exact M|].
    destruct M as [->|M]; [|right; auto]. left. unfold same_letter in Hab. lia.
Qed.

Lemma decode_case : forall s s' u v v', Forall2 same_letter v v' -> ~ In 45 v ->
  (s = v /\ s' = v') \/ (s = u ++ str "-" ++ v /\ s' = u ++ str "-" ++ v') -> puny_decode s = puny_decode s'.
Proof.
  intros s s' u v v' H N C. destruct (no_hyphen_case v v' H N) as (M & M'). pose proof (all2_length _ _ _ _ _ H) as L.
  destruct C as [(-> & ->)|(-> & ->)].
  - unfold puny_decode. destruct H as [|a b v v' Hab H]; [reflexivity|]. unfold last_index_byte.
    rewrite !last_index_byte_from_free by assumption. cbv zeta. change (Z.to_nat (1 + -1)) with 0%nat. cbn [length Nat.eqb skipn].
    rewrite (rounds_case _ (a :: v) (b :: v')) by (constructor; assumption). cbn [length] in L. injection L as ->. reflexivity.
  - assert (P : forall w, memN 45 w = false -> puny_decode (u ++ str "-" ++ w)
        = if (length u =? 0)%nat then None else if (length w =? 0)%nat then Some u
          else option_map (flat_map rune_text) (decode_rounds (length w) w (mkDecoder (map snd (range_str u)) 0 128 72))).
    { intros w Mw. unfold puny_decode. destruct (u ++ str "-" ++ w) as [|x y] eqn:E; [destruct u; discriminate|]. rewrite <- E. clear x y E.
      unfold last_index_byte. change (str "-" ++ w) with ([45] ++ w). rewrite last_index_byte_from_mid by exact Mw. cbv zeta.
      replace (Z.to_nat (1 + (0 + len u))) with (S (length u)) by (unfold len; lia).
      change ((S (length u) =? 1)%nat) with (length u =? 0)%nat. destruct (length u =? 0)%nat; [reflexivity|].
      rewrite !app_length. cbn [length]. replace (S (length u) =? length u + (1 + length w))%nat with (length w =? 0)%nat by lia.
      destruct (length w =? 0)%nat eqn:W.
      - replace (length u + (1 + length w) - 1)%nat with (length u) by lia. rewrite firstn_app, Nat.sub_diag, firstn_all, app_nil_r. reflexivity.
      - cbn [Nat.eqb Nat.sub]. rewrite Nat.sub_0_r, firstn_app, Nat.sub_diag, firstn_all, app_nil_r.
        change (S (length u)) with (1 + length u)%nat. replace (1 + length u)%nat with (length (u ++ [45])) by (rewrite app_length; cbn; lia).
        rewrite app_assoc, skipn_app, Nat.sub_diag, skipn_all. reflexivity. }
    rewrite (P v M), (P v' M'), L, (rounds_case _ v v') by exact H. reflexivity.
Qed.

Lemma ace_prefix_app : forall s, has_prefix (str "xn--" ++ s) ace_prefix = true.
Proof. intros s. unfold ace_prefix. apply has_prefix_spec. eauto. Qed.

Lemma label_case : forall strict l l', same_digits l l' ->
  match decode_label strict l, decode_label strict l' with inr a, inr b => a = b | inl _, inl _ => True | _, _ => False end.
Proof.
  intros strict l l' [->|(u & v & v' & N & H & C)]; [destruct (decode_label strict l'); auto|].
  assert (X : exists s s', l = str "xn--" ++ s /\ l' = str "xn--" ++ s' /\ puny_decode s = puny_decode s').
  { destruct C as [(-> & ->)|(-> & ->)].
    - exists v, v'. split; [reflexivity|]. split; [reflexivity|]. apply (decode_case v v' [] v v'); auto.
    - do 2 eexists. split; [reflexivity|]. split; [reflexivity|]. apply (decode_case _ _ u v v'); auto. }
  destruct X as (s & s' & -> & -> & E). unfold decode_label. rewrite !ace_prefix_app.
  change (skipn 4 (str "xn--" ++ s)) with s. change (skipn 4 (str "xn--" ++ s')) with s'. rewrite E.
  destruct (puny_decode s') as [x|]; [|exact I]. destruct (strict && is_ascii x); auto.
Qed.

Lemma labels_case : forall strict ls ls', Forall2 same_digits ls ls' ->
  match decode_labels strict ls, decode_labels strict ls' with inr a, inr b => a = b | inl _, inl _ => True | _, _ => False end.
Proof.
  intros strict. induction 1 as [|l l' ls ls' Hl H IH]; cbn [decode_labels]; [reflexivity|].
  pose proof (label_case strict l l' Hl) as X. destruct (decode_label strict l) as [a|a], (decode_label strict l') as [b|b]; try contradiction; [exact I|].
  subst b. destruct (decode_labels strict ls), (decode_labels strict ls'); try contradiction; [exact I|]. subst. reflexivity.
Qed.

Lemma c61_case : forall strict h h', Forall2 same_digits (rule_path h) (rule_path h') ->
  go_to_unicode strict h = go_to_unicode strict h' /\ go_to_ascii strict h = go_to_ascii strict h'.
Proof.
  intros strict h h' H. rewrite !rule_path_split in H. apply all2_rev in H. rewrite !rev_involutive in H.
  pose proof (labels_case strict _ _ H) as X. unfold go_to_unicode, go_to_ascii.
  destruct (decode_labels strict (split_byte h 46)), (decode_labels strict (split_byte h' 46)); try contradiction; [auto|]. subst. auto.
Qed.

Lemma err_case : forall strict h h', Forall2 same_digits (rule_path h) (rule_path h') ->
  go_to_unicode_err strict h = None <-> go_to_unicode_err strict h' = None.
Proof.
  intros strict h h' H. destruct (c61_case strict _ _ H) as (X & _). unfold go_to_unicode, go_to_unicode_err in *.
  destruct (decode_labels strict (split_byte h 46)), (decode_labels strict (split_byte h' 46)); try discriminate X; split; auto; discriminate.
Qed.
Lemma c63_case : forall strict ext t p r e scheme user raw after port path d p' r' e' scheme' user' raw' after' port' path' d',
  rejects_like strict ext ->
  extract ext t p = Ret (r, e) -> front (p_url p) scheme user (raw ++ after) -> plain_host raw -> after_host after port path ->
  port_accepted port -> percent_decoded raw d ->
  extract ext t p' = Ret (r', e') -> front (p_url p') scheme' user' (raw' ++ after') -> plain_host raw' -> after_host after' port' path' ->
  port_accepted port' -> percent_decoded raw' d' ->
  p_to_punycode p = p_to_punycode p' -> Forall2 same_digits (rule_path d) (rule_path d') ->
  (exists x, e = Some (ErrIdna x)) <-> (exists x, e' = Some (ErrIdna x)).
Proof.
  intros strict ext t p r e sc us raw af po pa d p' r' e' sc' us' raw' af' po' pa' d' R H F Hh A Ok Hd H' F' Hh' A' Ok' Hd' Pu S.
  pose proof (c63 _ _ _ _ _ _ _ _ _ _ _ _ H F Hh A Ok Hd) as X. pose proof (c63 _ _ _ _ _ _ _ _ _ _ _ _ H' F' Hh' A' Ok' Hd') as X'.
  pose proof (err_case strict _ _ S) as E. rewrite <- !(R _) in E.
  split; intros (x & Q); [apply X in Q as (Q1 & Q2)|apply X' in Q as (Q1 & Q2)].
  - destruct (idna_to_unicode_err ext d') as [y|] eqn:Y.
    + exists y. apply X'. rewrite <- Pu. auto.
    + exfalso. rewrite (proj2 E eq_refl) in Q2. discriminate.
  - destruct (idna_to_unicode_err ext d) as [y|] eqn:Y.
    + exists y. apply X. rewrite Pu. auto.
    + exfalso. rewrite (proj1 E eq_refl) in Q2. discriminate.
Qed.
