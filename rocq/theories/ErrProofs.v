(** ErrProofs.v - proofs about the errors of Extract. *)

From Verif Require Import Base BaseFacts Utf8 Utf8Facts Chars Str StrFacts Net Trie Extract Host HostFacts
  Walk WalkFacts Addr NetFacts Parse ParseFacts UrlSpec UrlFacts ExtractFacts OutcomeFacts Rfc RuleSpec TrieFacts
  UrlProofs CharProofs RuleProofs ErrSpec InvalidProofs.
From Coq Require Import ZifyBool ZifyNat ZifyN.
Local Open Scope N_scope.

(** ** The labels looked at *)

Lemma children_known : forall t rules path node, represents t rules -> descend t path = Some node ->
  is_nil (matches_of node) = false <-> exists k, known rules (path ++ [k]) = true.
Proof.
  intros t rules path node R D. split.
  - intros H. destruct (matches_of node) as [|[k v] m] eqn:E; [discriminate|]. exists k. rewrite (child_known _ _ _ _ _ R D).
    unfold child. rewrite E. cbn [get]. rewrite bytes_eqb_refl. reflexivity.
  - intros (k & H). rewrite (child_known _ _ _ _ _ R D) in H. unfold child in H. destruct (matches_of node); [discriminate|reflexivity].
Qed.

Lemma looked_zero : forall rules labs, labs <> [] -> looked_at rules labs 0.
Proof. intros rules labs N. split; [destruct labs; [contradiction|cbn [length]; lia]|]. intros j Hj. lia. Qed.
Lemma looked_le : forall rules labs i j, looked_at rules labs i -> (j <= i)%nat -> looked_at rules labs j.
Proof. intros rules labs i j (A & B) L. split; [lia|]. intros k Hk. apply B. lia. Qed.
Lemma last_unique : forall rules labs m m', last_looked rules labs m -> last_looked rules labs m' -> m = m'.
Proof.
  intros rules labs m m' (A & B) (A' & B').
  destruct (Nat.lt_trichotomy m m') as [L|[E|L]]; [|exact E|]; exfalso.
  - apply B. apply (looked_le _ _ m'); [exact A'|lia].
  - apply B'. apply (looked_le _ _ m); [exact A|lia].
Qed.
Lemma looked_succ : forall rules labs i, looked_at rules labs i -> (S i < length labs)%nat ->
  known rules (reach labs i ++ [str "*"]) = false -> (exists k, known rules (reach labs (S i) ++ [k]) = true) -> looked_at rules labs (S i).
Proof.
  intros rules labs i (A & B) L S K. split; [exact L|]. intros j Hj. destruct (Nat.eq_dec j i) as [->|]; [auto|]. apply B. lia.
Qed.

Lemma reach_succ : forall done label more, reach (done ++ label :: more) (S (length done)) = reach (done ++ label :: more) (length done) ++ [decoded label].
Proof.
  intros done label more. unfold reach. rewrite !firstn_app. replace (S (length done) - length done)%nat with 1%nat by lia.
  rewrite Nat.sub_diag, firstn_all, firstn_all2 by lia. cbn [firstn]. rewrite app_nil_r, map_app. reflexivity.
Qed.

(** The counts of the walk: the walk has gone over [done]. *)
Lemma cwalk_looked : forall t rules, represents t rules -> forall labs done node hs j prev,
  descend t (reach (done ++ labs) (length done)) = Some node -> prev = length done -> labs <> [] ->
  looked_at rules (done ++ labs) (length done) ->
  match cwalk node hs j prev prev labs with
  | None => exists i, looked_at rules (done ++ labs) i /\ (S i < length (done ++ labs))%nat /\ nth i (done ++ labs) [] = []
  | Some c =>
    last_looked rules (done ++ labs) (c_prev c)
    /\ c_start c = (if known rules (reach (done ++ labs) (c_prev c) ++ [str "*"]) then c_prev c
                    else if known rules (reach (done ++ labs) (S (c_prev c))) then S (c_prev c) else c_prev c)
    /\ forall i, (length done <= i)%nat -> looked_at rules (done ++ labs) i -> (S i < length (done ++ labs))%nat -> nth i (done ++ labs) [] <> []
  end.
Proof.
  intros t rules R. induction labs as [|label more IH]; intros done node hs j prev D -> N L; [contradiction|]. clear N.
  set (all := done ++ label :: more) in *. set (d := length done) in *.
  assert (Here : nth d all [] = label) by (unfold all, d; rewrite app_nth2, Nat.sub_diag by lia; reflexivity).
  assert (Len : length all = (S d + length more)%nat) by (unfold all, d; rewrite app_length; cbn [length]; lia).
  assert (Rs : reach all (S d) = reach all d ++ [decoded label]) by apply reach_succ.
  assert (Only : ~ looked_at rules all (S d) -> is_nil label && negb (is_nil more) = false ->
    forall i, (d <= i)%nat -> looked_at rules all i -> (S i < length all)%nat -> nth i all [] <> []).
  { intros Nl E i Li Lk Ls. assert (i = d) as ->. { destruct (Nat.eq_dec i d); [assumption|]. exfalso. apply Nl. apply (looked_le _ _ i); [exact Lk|lia]. }
    rewrite Here. intros ->. cbn [is_nil andb] in E. destruct more; [cbn [length] in Len; lia|discriminate]. }
  cbn [cwalk]. destruct (is_nil label && negb (is_nil more)) eqn:E.
  { exists d. split; [exact L|]. rewrite Here. destruct label; [|discriminate]. destruct more; [discriminate|]. cbn [length] in Len. split; [lia|reflexivity]. }
  specialize (fun H => Only H eq_refl).
  pose proof (child_known t rules _ node (str "*") R D) as Ks.
  destruct (child node (str "*")) as [w|].
  { cbn [c_prev c_start]. rewrite Ks.
    assert (Nl : ~ looked_at rules all (S d)). { intros (_ & X). destruct (X d ltac:(lia)) as (X1 & _). congruence. }
    split; [split; assumption|]. split; [reflexivity|]. apply Only. exact Nl. }
  pose proof (child_known t rules _ node (decoded label) R D) as Kl. rewrite <- Rs in Kl. rewrite <- decoded_unescaped.
  destruct (child node (decoded label)) as [val|] eqn:C.
  - pose proof (descend_snoc t _ node (decoded label) D) as D'. rewrite C, <- Rs in D'.
    pose proof (children_known _ _ _ _ R D') as Ch.
    destruct (is_nil (matches_of val) || is_nil more) eqn:Q.
    + cbn [c_prev c_start]. rewrite Ks, Kl.
      assert (Nl : ~ looked_at rules all (S d)).
      { intros (X0 & X). destruct (X d ltac:(lia)) as (_ & X1). apply Ch in X1. rewrite X1 in Q. cbn [orb] in Q. destruct more; [cbn [length] in Len; lia|discriminate]. }
      split; [split; assumption|]. split; [reflexivity|]. apply Only. exact Nl.
    + apply orb_false_iff in Q as [Q1 Q2]. apply Ch in Q1.
      assert (Lk : looked_at rules all (S d)).
      { apply looked_succ; [exact L| |exact Ks|exact Q1]. destruct more; [discriminate|cbn [length] in Len; lia]. }
      assert (Ea : all = (done ++ [label]) ++ more) by (unfold all; rewrite <- app_assoc; reflexivity).
      assert (Ed : S d = length (done ++ [label])) by (rewrite app_length; cbn [length]; unfold d; lia).
      specialize (IH (done ++ [label]) val (hs || end_of val) (if negb hs && end_of val then d else j) (S d)).
      rewrite <- Ea, <- Ed in IH. specialize (IH D' eq_refl ltac:(destruct more; discriminate) Lk).
      destruct (cwalk val _ _ _ _ more) as [c|]; [|exact IH].
      destruct IH as (I1 & I2 & I3). split; [exact I1|]. split; [exact I2|]. intros i Li Lki Ls.
      destruct (Nat.eq_dec i d) as [->|]; [|apply I3; [lia|assumption|assumption]].
      rewrite Here. intros ->. destruct more; [discriminate|discriminate].
  - cbn [c_prev c_start]. rewrite Ks, Kl.
    assert (Nl : ~ looked_at rules all (S d)).
    { intros (_ & X). destruct (X d ltac:(lia)) as (_ & k & X1).
      rewrite <- (proj1 R) in X1 by (intros Y; apply app_eq_nil in Y as [_ Y]; discriminate).
      unfold has in X1. rewrite descend_app, Rs, (descend_snoc _ _ _ _ D), C in X1. discriminate. }
    split; [split; assumption|]. split; [reflexivity|]. apply Only. exact Nl.
Qed.

Lemma labels_nonempty : forall first segs, labels first segs <> [].
Proof. intros first segs. unfold labels. destruct (map fst segs); discriminate. Qed.

Lemma counts_looked : forall t rules first segs, represents t rules ->
  match cwalk t false 0 0 0 (labels first segs) with
  | None => empty_seen rules (labels first segs)
  | Some c => ~ empty_seen rules (labels first segs) /\ last_looked rules (labels first segs) (c_prev c)
     /\ c_start c = (if known rules (reach (labels first segs) (c_prev c) ++ [str "*"]) then c_prev c
                     else if known rules (reach (labels first segs) (S (c_prev c))) then S (c_prev c) else c_prev c)
  end.
Proof.
  intros t rules first segs R.
  pose proof (cwalk_looked t rules R (labels first segs) [] t false 0 0 eq_refl eq_refl (labels_nonempty _ _) (looked_zero _ _ (labels_nonempty _ _))) as H.
  cbn [app length] in H. destruct (cwalk _ _ _ _ _ _) as [c|]; [|exact H]. destruct H as (A & B & C).
  split; [|auto]. intros (i & X & Y & Z). exact (C i (Nat.le_0_l _) X Y Z).
Qed.

(** ** Which error *)

Lemma c65 : forall ext rules t p r e scheme user raw h port path first zs segs, build_trie rules = Ret t ->
  extract ext t p = Ret (r, e) -> url_parts ext p scheme user raw h port path -> port_accepted port ->
  labelled h first zs segs -> ~ ipv4_text h ->
  (empty_seen rules (labels first segs) /\ e = Some ErrConsecutiveSeparators)
  \/ (~ empty_seen rules (labels first segs) /\ exists text, checked rules first zs segs text /\
      (forall text', checked rules first zs segs text' -> text' = text) /\
      ((bad_text text /\ e = Some ErrInvalidChars)
       \/ (~ bad_text text /\ no_domain rules (labels first segs) /\ e = Some ErrEmptyDomain)
       \/ (~ bad_text text /\ ~ no_domain rules (labels first segs) /\ e = None /\ r_host_type r = HHostName))).
Proof.
  intros ext rules t p r e sc us raw h po pa first zs segs B H U Ok L N4. apply build_trie_represents in B.
  rewrite (extract_parts _ _ _ _ _ _ _ _ _ U Ok) in H. apply Ret_inj in H.
  assert (V : v4 h = false). { destruct (v4 h) eqn:V; [|reflexivity]. apply v4_iff in V. contradiction. }
  rewrite V, (host_outcome_stripped _ _ _ _ _ _ _ _ L) in H.
  pose proof (counts_looked t rules first segs B) as K.
  destruct (cwalk t false 0 0 0 (labels first segs)) as [c|] eqn:Hw; [|injection H as <- <-; left; auto].
  destruct K as (K1 & K2 & K3). right. split; [exact K1|].
  pose proof (cwalk_ok _ _ _ _ Hw) as Hok.
  destruct (walk rules [] (labels first segs)) as [o n] eqn:Ew.
  destruct (cwalk_walk t rules B _ [] t _ _ _ _ _ _ _ eq_refl Hw Ew) as (W1 & W2 & W3). cbn [orb Nat.add] in W1, W2, W3.
  assert (Un : forall text text', checked rules first zs segs text -> checked rules first zs segs text' -> text' = text).
  { intros x x' (m & M & X) (m' & M' & X'). rewrite Ew in X, X'. rewrite <- (last_unique _ _ _ _ M M') in X'. destruct o as [k|].
    - destruct (n <=? length segs)%nat; congruence.
    - congruence. }
  unfold components in H. unfold no_domain. rewrite Ew.
  destruct (c_has c) eqn:Hh.
  - destruct o as [k|]; [|discriminate W1]. destruct Hok as [Hp Hc He]. specialize (He Hh). rewrite W2 in H, Hc.
    destruct (Nat.eqb_spec n (S (length segs))) as [En|Nn].
    + exists (host first (zs ++ segs)).
      assert (C : checked rules first zs segs (host first (zs ++ segs))).
      { exists (c_prev c). split; [exact K2|]. rewrite Ew. destruct (Nat.leb_spec n (length segs)); [lia|reflexivity]. }
      split; [exact C|]. split; [intros; eapply Un; eauto|].
      destruct (has_invalid_chars (host first (zs ++ segs))) eqn:Hi.
      * injection H as <- <-. left. split; [apply invalid_iff; exact Hi|reflexivity].
      * right. left. apply valid_iff in Hi. injection H as <- <-. split; [exact Hi|]. split; [|reflexivity].
        apply nth_overflow. rewrite labels_length. lia.
    + assert (C : checked rules first zs segs (host first (skipn (c_start c) segs))).
      { exists (c_prev c). split; [exact K2|]. rewrite Ew. destruct (Nat.leb_spec n (length segs)); [rewrite <- K3; reflexivity|lia]. }
      eexists. split; [exact C|]. split; [intros; eapply Un; eauto|].
      destruct (has_invalid_chars (host first (skipn (c_start c) segs))) eqn:Hi.
      * injection H as <- <-. left. split; [apply invalid_iff; exact Hi|reflexivity].
      * right. apply valid_iff in Hi.
        change (r_domain (with_sub_domain (with_registered_domain (with_domain _ (label_at first segs n)) _) _)) with (label_at first segs n) in H.
        unfold label_at in *. destruct (nth n (labels first segs) []) as [|b d] eqn:Ed; cbn [is_nil] in H.
        -- injection H as <- <-. left. auto.
        -- injection H as <- <-. right. split; [exact Hi|]. split; [discriminate|]. split; reflexivity.
  - destruct o as [k|]; [discriminate W1|].
    assert (C : checked rules first zs segs (host first (skipn (c_prev c) segs))).
    { exists (c_prev c). split; [exact K2|]. rewrite Ew. reflexivity. }
    eexists. split; [exact C|]. split; [intros; eapply Un; eauto|].
    destruct (has_invalid_chars (host first (skipn (c_prev c) segs))) eqn:Hi.
    + injection H as <- <-. left. split; [apply invalid_iff; exact Hi|reflexivity].
    + right. apply valid_iff in Hi.
      change (r_domain (with_sub_domain (with_domain _ (label_at first segs 0)) _)) with (label_at first segs 0) in H.
      unfold label_at in *. destruct (nth 0 (labels first segs) []) as [|b d] eqn:Ed; cbn [is_nil] in H.
      * injection H as <- <-. left. auto.
      * injection H as <- <-. right. split; [exact Hi|]. split; [discriminate|]. split; reflexivity.
Qed.
