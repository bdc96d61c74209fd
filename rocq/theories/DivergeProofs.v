(** DivergeProofs.v - exactly when Extract departs from the algorithm of publicsuffix.org. *)

From Verif Require Import Base BaseFacts Utf8 Utf8Facts Chars Str StrFacts Net Trie Extract Host HostFacts
  Walk WalkFacts Addr NetFacts Parse ParseFacts UrlSpec UrlFacts ExtractFacts OutcomeFacts Rfc UrlProofs CharProofs
  RuleSpec TrieFacts RuleProofs PslProofs GapProofs DivergeSpec.
From Coq Require Import ZifyBool ZifyNat ZifyN.

Lemma is_rule_known : forall rules (p q : list bytes), is_rule rules (p ++ q) = true -> known rules p = true.
Proof. intros rules p q H. apply is_rule_iff in H as (rule & Hr & E). exact (known_rule _ rule p q Hr E). Qed.
Lemma rule_known : forall rules (p : list bytes), is_rule rules p = true -> known rules p = true.
Proof. intros rules p H. apply (is_rule_known _ _ []). rewrite app_nil_r. exact H. Qed.
Lemma matches_self : forall p : list bytes, Forall2 label_matches p p.
Proof. induction p; constructor; [right; reflexivity|assumption]. Qed.

Section Diverge.
Variables (rules whole : list bytes).
Hypothesis W : well_formed rules.
Hypothesis P : Forall plain_label whole.

Lemma plain_at : forall (p : list bytes) (l : bytes) q, whole = p ++ l :: q -> plain_label l.
Proof. intros p l q E. rewrite Forall_forall in P. apply P. rewrite E. apply in_or_app. right. left. reflexivity. Qed.

(** How rules match: literally up to the first wildcard. *)
Lemma exception_shape : forall path, is_rule rules path = true -> exception_matches path whole ->
  exists q l rest, whole = q ++ l :: rest /\ known rules (q ++ [str "*"]) = true
    /\ (path = q ++ [str "!" ++ l] \/ S (S (length q)) <= length path).
Proof.
  intros path R (above & k & top & rest & E & Ew & F). apply is_rule_iff in R as (rule & Hr & Er).
  destruct (match_literal _ above top (k :: rest) Ew F) as [->|(q & p' & l & rest' & Eq & ->)].
  - exists top, k, rest. split; [exact Ew|]. split; [|left; exact E]. rewrite E in Er.
    destruct (wf_exc _ W rule top k [] Hr Er) as [_ A]. apply rule_known. exact A.
  - exists q, l, rest'. split; [exact Eq|]. split.
    + apply (known_rule _ rule _ (p' ++ [str "!" ++ k])); [exact Hr|]. rewrite Er, E, <- !app_assoc. reflexivity.
    + right. rewrite E, !app_length. cbn [length]. lia.
Qed.
Lemma rule_shape : forall path, is_rule rules path = true -> rule_matches path whole ->
  (exists rest, whole = path ++ rest)
  \/ exists q l rest p', whole = q ++ l :: rest /\ known rules (q ++ [str "*"]) = true /\ path = q ++ str "*" :: p'.
Proof.
  intros path R (top & rest & Ew & F). apply is_rule_iff in R as (rule & Hr & Er).
  destruct (match_literal _ path top rest Ew F) as [->|(q & p' & l & rest' & Eq & ->)]; [eauto|].
  right. exists q, l, rest', p'. split; [exact Eq|]. split; [|reflexivity].
  apply (known_rule _ rule _ p'); [exact Hr|]. rewrite Er, <- !app_assoc. reflexivity.
Qed.

(** A wildcard along the host is not above the first one. *)
Lemma wildcard_depth : forall (above q : list bytes) l more l' rest, whole = above ++ l :: more -> no_wildcard_along rules above ->
  whole = q ++ l' :: rest -> known rules (q ++ [str "*"]) = true ->
  (above = q /\ l = l') \/ exists c, q = above ++ l :: c.
Proof.
  intros above q l more l' rest Ea Wa Eq K. rewrite Eq in Ea.
  destruct (prefixes _ _ _ _ _ Ea) as [(c & d & ->)|[->|(c & d & ->)]].
  - right. exists d. rewrite <- app_assoc in Ea. apply app_inv_head in Ea. cbn [app] in Ea. injection Ea as -> _. reflexivity.
  - left. apply app_inv_head in Ea. injection Ea as -> _. auto.
  - rewrite (Wa _ _ _ eq_refl) in K. discriminate.
Qed.

Lemma walk_stop : forall labs path e n, whole = path ++ labs -> no_wildcard_along rules path ->
  (path = [] \/ known rules path = true) -> walk rules path labs = (e, n) -> n < length labs ->
  exists above l more, whole = above ++ l :: more /\ no_wildcard_along rules above /\ (above = [] \/ known rules above = true)
  /\ ((known rules (above ++ [str "*"]) = true /\ known rules (above ++ [str "!" ++ l]) = true /\ length path + n = length above)
   \/ (known rules (above ++ [str "*"]) = true /\ known rules (above ++ [str "!" ++ l]) = false /\ length path + n = S (length above))
   \/ (known rules (above ++ [str "*"]) = false /\ known rules (above ++ [l]) = false /\ length path + n = length above)).
Proof.
  induction labs as [|l more IH]; intros path e n Ew Wp K Hw Hn; [cbn [length] in Hn; lia|].
  cbn [walk] in Hw. destruct (known rules (path ++ [str "*"])) eqn:Kw.
  - exists path, l, more. split; [exact Ew|]. split; [exact Wp|]. split; [exact K|].
    destruct (known rules (path ++ [str "!" ++ l])) eqn:Ke; injection Hw as <- <-.
    + left. split; [exact Kw|]. split; [reflexivity|lia].
    + right. left. split; [exact Kw|]. split; [reflexivity|lia].
  - pose proof (plain_at _ _ _ Ew) as Pl. rewrite decoded_plain in Hw by apply Pl.
    destruct (known rules (path ++ [l])) eqn:Kl.
    + destruct (walk rules (path ++ [l]) more) as [e' n'] eqn:Hw'. injection Hw as <- <-. cbn [length] in Hn.
      destruct (IH (path ++ [l]) e' n') as (above & l1 & more1 & A1 & A2 & A3 & A4); [rewrite <- app_assoc; exact Ew| |auto|exact Hw'|lia|].
      * intros q x y Eq. destruct y as [|y0 y] using rev_ind.
        -- apply app_inj_tail in Eq as [-> _]. exact Kw.
        -- clear IHy. change (q ++ x :: y ++ [y0]) with (q ++ (x :: y) ++ [y0]) in Eq. rewrite app_assoc in Eq.
           apply app_inj_tail in Eq as [-> _]. eapply Wp. reflexivity.
      * exists above, l1, more1. split; [exact A1|]. split; [exact A2|]. split; [exact A3|].
        rewrite app_length in A4. cbn [length] in A4. replace (length path + S n') with (length path + 1 + n') by lia. exact A4.
    + injection Hw as <- <-. exists path, l, more. split; [exact Ew|]. split; [exact Wp|]. split; [exact K|].
      right. right. split; [exact Kw|]. split; [exact Kl|lia].
Qed.

(** A suffix that is found below the TLD is a rule that matches. *)
Lemma walk_some : forall labs path k n, whole = path ++ labs -> path <> [] -> walk rules path labs = (Some k, n) ->
  exists path', matching rules whole path'.
Proof.
  induction labs as [|l more IH]; intros path k n Ew Np Hw; [discriminate|].
  cbn [walk] in Hw. destruct (known rules (path ++ [str "*"])); [discriminate|].
  pose proof (plain_at _ _ _ Ew) as Pl. rewrite decoded_plain in Hw by apply Pl.
  destruct (known rules (path ++ [l])); [|discriminate].
  assert (Ew' : whole = (path ++ [l]) ++ more) by (rewrite <- app_assoc; exact Ew).
  destruct (walk rules (path ++ [l]) more) as [e' n'] eqn:Hw'. destruct (is_suffix rules (path ++ [l])) eqn:S.
  - exists (path ++ [l]). split.
    + unfold is_suffix in S. apply orb_true_iff in S as [S|S]; [exact S|]. destruct path as [|a [|b path]]; [contradiction|discriminate|discriminate].
    + right. split.
      * intros (a & x & E). apply app_inj_tail in E as [_ E]. apply (proj2 (proj2 (proj2 Pl)) x E).
      * exists (path ++ [l]), more. split; [exact Ew'|apply matches_self].
  - destruct e' as [k'|]; [|discriminate]. apply (IH _ _ _ Ew' ltac:(destruct path; discriminate) Hw').
Qed.

Lemma psl_none : psl_suffix rules whole 0 <-> ~ exists path, matching rules whole path.
Proof.
  split.
  - intros H (path & R & M). pose proof R as R'. apply is_rule_iff in R' as (rule & Hr & Er).
    destruct H as [(rule' & Hr' & M' & L)|(N & [(rule' & Hr' & _ & _ & L & _)|(_ & N')])].
    + destruct M' as (above & k & _ & _ & E & _). rewrite E, app_length in L. cbn [length] in L.
      destruct above; [|cbn [length] in L; lia]. destruct (wf_exc _ W rule' [] k [] Hr' E) as [_ A].
      apply rule_known in A. cbn [app] in A. rewrite (wf_top _ W) in A. discriminate.
    + destruct (rule_path rule') eqn:E; [exact (rule_path_nonempty _ E)|discriminate].
    + rewrite <- Er in M. destruct M as [M|[I M]]; [exact (N rule Hr M)|exact (N' rule Hr I M)].
  - intros N. right. split.
    + intros rule Hr M. apply N. exists (rule_path rule). split; [apply is_rule_iff; eauto|auto].
    + right. split; [reflexivity|]. intros rule Hr I M. apply N. exists (rule_path rule). split; [apply is_rule_iff; eauto|auto].
Qed.

Section At.
Variables (above : list bytes) (l : bytes) (more : list bytes).
Hypothesis E : whole = above ++ l :: more.
Hypothesis O : no_wildcard_along rules above.

Lemma at_exception : known rules (above ++ [str "!" ++ l]) = true -> psl_suffix rules whole (length above).
Proof.
  intros K. apply known_iff in K as (rule & q & Hr & Er). rewrite <- app_assoc in Er. cbn [app] in Er.
  destruct (wf_exc _ W rule above l q Hr Er) as [-> _]. left. exists rule. split; [exact Hr|]. rewrite Er. split.
  - exists above, l, above, more. split; [reflexivity|]. split; [exact E|apply matches_self].
  - rewrite app_length. cbn [length]. lia.
Qed.

Lemma at_wildcard : known rules (above ++ [str "*"]) = true -> known rules (above ++ [str "!" ++ l]) = false ->
  (psl_suffix rules whole (S (length above)) <->
   ~ ((exists path, matching rules whole path /\ S (length above) < length path)
      /\ ~ exists path, is_rule rules path = true /\ exception_matches path whole /\ length path = S (S (length above)))).
Proof.
  intros K Kx. split.
  - intros H ((path & (R & M) & L) & N). pose proof R as R'. apply is_rule_iff in R' as (rule & Hr & Er).
    destruct H as [(rule' & Hr' & M' & L')|(N' & [(rule' & Hr' & _ & _ & L' & Mx)|(Z & _)])]; [| |discriminate].
    + apply N. exists (rule_path rule'). split; [apply is_rule_iff; eauto|auto].
    + destruct M as [M|[I M]].
      * rewrite <- Er in M. exact (N' rule Hr M).
      * rewrite <- Er in I, M, L. specialize (Mx rule Hr I M). lia.
  - intros N.
    destruct (existsb (fun rule => exc_match (rule_path rule) whole && (length (rule_path rule) =? S (S (length above)))) rules) eqn:X.
    + apply existsb_exists in X as (rule & Hr & X). apply andb_true_iff in X as [X L]. left. exists rule.
      split; [exact Hr|]. split; [apply exc_match_iff; exact X|lia].
    + assert (X' : ~ exists path, is_rule rules path = true /\ exception_matches path whole /\ length path = S (S (length above))).
      { intros (path & R & M & L). apply is_rule_iff in R as (rule & Hr & Er). rewrite <- Er in M, L.
        assert (Y : existsb (fun rule => exc_match (rule_path rule) whole && (length (rule_path rule) =? S (S (length above)))) rules = true).
        { apply existsb_exists. exists rule. split; [exact Hr|]. apply andb_true_iff. split; [apply exc_match_iff; exact M|lia]. }
        congruence. }
      assert (S : forall path, matching rules whole path -> length path <= S (length above)).
      { intros path M. destruct (le_lt_dec (length path) (S (length above))) as [L|L]; [exact L|]. exfalso. apply N.
        split; [|exact X']. eauto. }
      right. split.
      * intros rule Hr M. assert (R : is_rule rules (rule_path rule) = true) by (apply is_rule_iff; eauto).
        pose proof (S _ (conj R (or_introl M))) as L.
        destruct (exception_shape _ R M) as (q & l' & rest & Eq & Kq & D).
        destruct (wildcard_depth _ _ _ _ _ _ E O Eq Kq) as [(<- & <-)|(c & ->)].
        -- destruct D as [D|D]; [|lia]. apply rule_known in R. rewrite D in R. congruence.
        -- destruct D as [D|D].
           ++ rewrite D, !app_length in L. cbn [length] in L. lia.
           ++ rewrite app_length in D. cbn [length] in D. lia.
      * left. apply known_iff in K as (rule & q & Hr & Er). rewrite <- app_assoc in Er. cbn [app] in Er.
        pose proof (wf_wild _ W rule above q Hr Er) as R. apply is_rule_iff in R as (rule' & Hr' & Er').
        exists rule'. split; [exact Hr'|]. rewrite Er'. split; [|split; [|split]].
        -- intros (a & x & Ex). apply app_inj_tail in Ex as [_ Ex]. discriminate.
        -- exists (above ++ [l]), more. split; [rewrite <- app_assoc; exact E|].
           apply Forall2_app; [apply matches_self|]. repeat constructor.
        -- rewrite app_length. cbn [length]. lia.
        -- intros r Hr1 I M. apply S. split; [apply is_rule_iff; eauto|auto].
Qed.

Lemma at_dead_end : above <> [] -> known rules above = true -> known rules (above ++ [str "*"]) = false ->
  known rules (above ++ [l]) = false -> (psl_suffix rules whole (length above) <-> is_rule rules above = true).
Proof.
  intros Na Ka Kw Kl.
  assert (NW : forall q l' rest, whole = q ++ l' :: rest -> known rules (q ++ [str "*"]) = false).
  { intros q l' rest Eq. destruct (known rules (q ++ [str "*"])) eqn:Kq; [|reflexivity]. exfalso.
    destruct (wildcard_depth _ _ _ _ _ _ E O Eq Kq) as [(<- & _)|(c & ->)]; [congruence|].
    change (l :: c) with ([l] ++ c) in Kq. rewrite app_assoc in Kq. apply known_prefix, known_prefix in Kq. congruence. }
  assert (X : forall path, is_rule rules path = true -> ~ exception_matches path whole).
  { intros path R M. destruct (exception_shape _ R M) as (q & l' & rest & Eq & Kq & _). rewrite (NW _ _ _ Eq) in Kq. discriminate. }
  assert (S : forall path, is_rule rules path = true -> rule_matches path whole -> exists rest, above = path ++ rest).
  { intros path R M. destruct (rule_shape _ R M) as [(rest & Er)|(q & l' & rest & p' & Eq & Kq & _)].
    - rewrite E in Er. destruct (prefixes _ _ _ _ _ Er) as [(c & d & ->)|[->|(c & d & ->)]].
      + eauto.
      + exists []. rewrite app_nil_r. reflexivity.
      + exfalso. rewrite <- app_assoc in Er. apply app_inv_head in Er. cbn [app] in Er. injection Er as <- _.
        change (l :: d) with ([l] ++ d) in R. rewrite app_assoc in R. apply is_rule_known in R. congruence.
    - rewrite (NW _ _ _ Eq) in Kq. discriminate. }
  split.
  - intros [(rule & Hr & M & _)|(_ & [(rule & Hr & _ & M & L & _)|(Z & _)])].
    + exfalso. apply (X (rule_path rule)); [apply is_rule_iff; eauto|exact M].
    + assert (R : is_rule rules (rule_path rule) = true) by (apply is_rule_iff; eauto).
      destruct (S _ R M) as (rest & Er). assert (rest = []).
      { apply (f_equal (@length bytes)) in Er. rewrite app_length in Er. destruct rest; [reflexivity|cbn [length] in Er; lia]. }
      subst rest. rewrite app_nil_r in Er. rewrite Er. exact R.
    + destruct above; [contradiction|discriminate].
  - intros R. pose proof R as R'. apply is_rule_iff in R' as (rule & Hr & Er). right. split.
    + intros rule' Hr' M. apply (X (rule_path rule')); [apply is_rule_iff; eauto|exact M].
    + left. exists rule. split; [exact Hr|]. rewrite Er. split; [|split; [|split]].
      * intros (a & x & Ex). assert (In (str "!" ++ x) whole).
        { rewrite E, Ex. apply in_or_app. left. apply in_or_app. right. left. reflexivity. }
        rewrite Forall_forall in P. destruct (P _ H) as (_ & _ & _ & N2). exact (N2 x eq_refl).
      * exists above, (l :: more). split; [exact E|apply matches_self].
      * reflexivity.
      * intros rule' Hr' _ M. destruct (S (rule_path rule')) as (rest & Ea); [apply is_rule_iff; eauto|exact M|].
        rewrite Ea, app_length. lia.
Qed.

(** Where the walk stops, two of the three cases cannot occur. *)
Lemma stop_dead : (known rules (above ++ [str "*"]) = true \/ known rules (above ++ [l]) = false) ->
  (above = [] \/ known rules above = true) ->
  forall path l' rest, whole = path ++ l' :: rest -> no_wildcard_along rules path -> gap rules path -> known rules (path ++ [l']) = false ->
  path = above /\ known rules (above ++ [str "*"]) = false.
Proof.
  intros S Ka path l' rest Ep Op (Np & Kp & _ & Kw) Kl. pose proof Ep as Ea. rewrite E in Ea.
  destruct (prefixes _ _ _ _ _ Ea) as [(c & d & ->)|[->|(c & d & ->)]].
  - exfalso. destruct Ka as [Ka|Ka]; [destruct path; discriminate|].
    rewrite <- app_assoc in Ea. apply app_inv_head in Ea. cbn [app] in Ea. injection Ea as -> _.
    change (l' :: d) with ([l'] ++ d) in Ka. rewrite app_assoc in Ka. apply known_prefix in Ka. congruence.
  - split; [reflexivity|exact Kw].
  - exfalso. rewrite (Op _ _ _ eq_refl) in S. destruct S as [S|S]; [discriminate|].
    rewrite <- app_assoc in Ea. apply app_inv_head in Ea. cbn [app] in Ea. injection Ea as <- _.
    change (l :: d) with ([l] ++ d) in Kp. rewrite app_assoc in Kp. apply known_prefix in Kp. congruence.
Qed.
Lemma stop_over : (known rules (above ++ [str "*"]) = true \/ known rules (above ++ [l]) = false) ->
  forall q l' rest, whole = q ++ l' :: rest -> no_wildcard_along rules q -> known rules (q ++ [str "*"]) = true ->
  q = above /\ l' = l.
Proof.
  intros S q l' rest Eq Oq Kq. destruct (wildcard_depth _ _ _ _ _ _ E O Eq Kq) as [(-> & ->)|(c & ->)]; [auto|].
  exfalso. rewrite (Oq _ _ _ eq_refl) in S. destruct S as [S|S]; [discriminate|].
  change (l :: c) with ([l] ++ c) in Kq. rewrite app_assoc in Kq. apply known_prefix, known_prefix in Kq. congruence.
Qed.
End At.

Lemma suffix_known : forall k, is_suffix rules [k] = true -> known rules [k] = true.
Proof.
  intros k S. unfold is_suffix in S. apply orb_true_iff in S as [S|S]; [apply rule_known; exact S|].
  apply (known_prefix _ [k] [str "*"]). exact S.
Qed.

Lemma walk_diverges : forall e n, walk rules [] whole = (e, n) -> whole <> [] -> (e <> None -> n < length whole) ->
  ((e = None /\ psl_suffix rules whole 0) \/ (e = Some 0 /\ psl_suffix rules whole n)) <-> ~ diverges rules whole.
Proof.
  intros e n Hw Ne Hn. destruct whole as [|l0 more0] eqn:Ew; [contradiction|]. rewrite <- Ew in *.
  pose proof Hw as Hw0. rewrite Ew in Hw. cbn [walk app] in Hw. rewrite (wf_top _ W) in Hw.
  assert (Pl : plain_label l0) by (apply (plain_at [] l0 more0); exact Ew). rewrite decoded_plain in Hw by apply Pl.
  assert (Tld : forall (q : list bytes) l' rest, whole = q ++ l' :: rest -> q <> [] -> known rules q = true -> known rules [l0] = true).
  { intros q l' rest Eq Nq Kq. destruct q as [|a q]; [contradiction|]. rewrite Ew in Eq. injection Eq as <- _.
    apply (known_prefix _ [l0] q). exact Kq. }
  assert (TldW : forall (q : list bytes) l' rest, whole = q ++ l' :: rest -> known rules (q ++ [str "*"]) = true -> q <> [] /\ known rules [l0] = true).
  { intros q l' rest Eq Kq. assert (Nq : q <> []) by (intros ->; cbn [app] in Kq; rewrite (wf_top _ W) in Kq; discriminate).
    split; [exact Nq|]. apply (Tld _ _ _ Eq Nq). apply known_prefix in Kq. exact Kq. }
  destruct (known rules [l0]) eqn:K.
  - destruct (walk rules [l0] more0) as [e' n'] eqn:Hw'. destruct (is_suffix rules [l0]) eqn:S.
    + (* the TLD is a suffix *)
      injection Hw as <- <-. specialize (Hn ltac:(discriminate)).
      destruct (walk_stop whole [] _ _ eq_refl ltac:(intros q x y Z; destruct q; discriminate) (or_introl eq_refl) Hw0 Hn)
        as (above & l & more & E & O & Ka & C). cbn [length plus] in C.
      assert (T1 : ~ tld_missing rules whole).
      { intros ((l' & m' & El & _ & Sl) & _). rewrite Ew in El. injection El as <- _. congruence. }
      assert (Na : above <> []).
      { intros ->. cbn [app] in C, E. rewrite Ew in E. injection E as <- _. rewrite (wf_top _ W), K in C. decompose [or and] C; discriminate. }
      destruct Ka as [Ka|Ka]; [contradiction|].
      assert (St : known rules (above ++ [str "*"]) = true \/ known rules (above ++ [l]) = false) by (decompose [or and] C; auto).
      destruct C as [(C1 & C2 & C3)|[(C1 & C2 & C3)|(C1 & C2 & C3)]]; rewrite C3.
      * split; [intros _|intros _; right; split; [reflexivity|apply (at_exception _ _ _ E C2)]].
        intros [D|[(_ & path & l' & rest & Ep & Op & G & Kp)|(q & l' & rest & Eq & Oq & Kq & Kx & _)]]; [exact (T1 D)| |].
        -- destruct (stop_dead _ _ _ E O St (or_intror Ka) _ _ _ Ep Op G Kp). congruence.
        -- destruct (stop_over _ _ _ E O St _ _ _ Eq Oq Kq). subst. congruence.
      * pose proof (at_wildcard _ _ _ E O C1 C2) as A. split.
        -- intros [(Z & _)|(_ & Z)]; [discriminate|]. rewrite A in Z.
           intros [D|[(_ & path & l' & rest & Ep & Op & G & Kp)|(q & l' & rest & Eq & Oq & Kq & Kx & X1 & X2)]]; [exact (T1 D)| |].
           ++ destruct (stop_dead _ _ _ E O St (or_intror Ka) _ _ _ Ep Op G Kp). congruence.
           ++ destruct (stop_over _ _ _ E O St _ _ _ Eq Oq Kq). subst q l'. apply Z. split; assumption.
        -- intros D. right. split; [reflexivity|]. apply A. intros (X1 & X2). apply D. right. right.
           exists above, l, more. repeat (split; [assumption|]). assumption.
      * pose proof (at_dead_end _ _ _ E O Na Ka C1 C2) as A. split.
        -- intros [(Z & _)|(_ & Z)]; [discriminate|]. rewrite A in Z.
           intros [D|[(_ & path & l' & rest & Ep & Op & G & Kp)|(q & l' & rest & Eq & Oq & Kq & _)]]; [exact (T1 D)| |].
           ++ destruct (stop_dead _ _ _ E O St (or_intror Ka) _ _ _ Ep Op G Kp) as [-> _]. destruct G as (_ & _ & G & _). congruence.
           ++ destruct (stop_over _ _ _ E O St _ _ _ Eq Oq Kq). subst. congruence.
        -- intros D. right. split; [reflexivity|]. apply A. apply not_false_is_true. intros R. apply D. right. left. split.
           ++ exists l0, more0. auto.
           ++ exists above, l, more. split; [exact E|]. split; [exact O|]. split; [|exact C2]. split; [exact Na|]. auto.
    + (* the TLD is not a suffix *)
      injection Hw as <- <-.
      assert (X : (exists path, matching rules whole path) <-> diverges rules whole).
      { split.
        - intros X. left. split; [|exact X]. exists l0, more0. auto.
        - intros [(_ & D)|[((l' & m' & El & Sl) & _)|(q & l' & rest & _ & _ & _ & _ & (path & D & _) & _)]]; [exact D| |eauto].
          rewrite Ew in El. injection El as <- _. congruence. }
      rewrite <- X, psl_none. split.
      * intros [(_ & Z)|(Z & _)]; [exact Z|]. destruct e'; discriminate.
      * intros N. left. split; [|exact N]. destruct e' as [k|]; [|reflexivity]. exfalso. apply N.
        apply (walk_some more0 [l0] k n' Ew ltac:(discriminate) Hw').
  - (* no rule ends in the TLD *)
    injection Hw as <- <-. split.
    + intros _ [((l' & m' & El & Kl & _) & _)|[((l' & m' & El & Sl) & _)|(q & l' & rest & Eq & _ & Kq & _)]].
      * rewrite Ew in El. injection El as <- _. congruence.
      * rewrite Ew in El. injection El as <- _. apply suffix_known in Sl. congruence.
      * destruct (TldW _ _ _ Eq Kq). discriminate.
    + intros _. left. split; [reflexivity|]. apply psl_none. intros (path & R & [M|(_ & M)]).
      * destruct (exception_shape _ R M) as (q & l' & rest & Eq & Kq & _). destruct (TldW _ _ _ Eq Kq). discriminate.
      * destruct (rule_shape _ R M) as [(rest & Er)|(q & l' & rest & p' & Eq & Kq & _)].
        -- destruct path as [|a path].
           ++ apply is_rule_iff in R as (rule & _ & Er'). exact (rule_path_nonempty _ Er').
           ++ rewrite Ew in Er. injection Er as <- _. apply rule_known in R. apply (known_prefix _ [l0] path) in R. congruence.
        -- destruct (TldW _ _ _ Eq Kq). discriminate.
Qed.
End Diverge.

(** ** The components *)

(** Texts of labels: fewer labels are shorter. *)
Lemma host_shorter : forall first (segs : list seg), Forall (fun g => is_sep_text (snd g)) segs -> forall n m, n < m <= length segs ->
  length (host first (skipn m segs)) + length (nth n (labels first segs) []) < length (host first (skipn n segs)).
Proof.
  intros first segs F. induction F as [|[l s] segs Hs F IH]; intros n m L; [cbn [length] in L; lia|]. cbn [snd] in Hs.
  apply sep_text_nonempty in Hs. cbn [length] in L. destruct m as [|m]; [lia|]. destruct n as [|n].
  - cbn [skipn labels map app nth fst host]. rewrite !app_length.
    assert (X : length (host first (skipn m segs)) <= length (host first segs)).
    { destruct m as [|m]; [cbn [skipn]; lia|]. specialize (IH 0 (S m)). change (skipn 0 segs) with segs in IH. unfold seg in *. lia. }
    destruct s; [contradiction|]. cbn [length]. unfold seg in *. lia.
  - cbn [skipn labels map app nth]. apply IH. unfold seg in *. lia.
Qed.
Lemma below_inj : forall first (segs : list seg) n m d, Forall (fun g => is_sep_text (snd g)) segs -> d <> [] ->
  n <= length segs -> m <= length segs -> nth n (labels first segs) [] = d -> nth m (labels first segs) [] = d ->
  (if S n <=? length segs then host first (skipn (S n) segs) else []) = (if S m <=? length segs then host first (skipn (S m) segs) else []) ->
  n = m.
Proof.
  intros first segs n m d F Nd Ln Lm En Em. revert n m Ln Lm En Em.
  assert (X : forall n m, n < m <= length segs -> nth n (labels first segs) [] = d -> nth m (labels first segs) [] = d ->
    (if S n <=? length segs then host first (skipn (S n) segs) else []) = (if S m <=? length segs then host first (skipn (S m) segs) else []) -> False).
  { intros n m L En Em H. replace (S n <=? length segs) with true in H by (symmetry; apply Nat.leb_le; lia).
    destruct (Nat.leb_spec (S m) (length segs)) as [G|G].
    - assert (Y := host_shorter first segs F (S n) (S m)). rewrite H in Y. unfold seg in *. lia.
    - assert (m = length segs) by lia. subst m.
      assert (E : nth (length segs) (labels first segs) [] = first).
      { unfold labels. rewrite app_nth2 by (rewrite map_length; apply Nat.le_refl). rewrite map_length, Nat.sub_diag. reflexivity. }
      rewrite E in Em. apply Nd. rewrite <- Em.
      destruct (Nat.eq_dec (S n) (length segs)) as [Q|Q].
      + rewrite Q, skipn_all in H. exact H.
      + assert (Y := host_shorter first segs F (S n) (length segs)). rewrite skipn_all, H in Y. cbn [host length] in Y. unfold seg in *. lia. }
  intros n m Ln Lm En Em H. destruct (Nat.lt_trichotomy n m) as [G|[G|G]]; [|exact G|]; exfalso; [eapply (X n m)|eapply (X m n)]; eauto.
Qed.

Lemma labels_text_tail : forall (a b : list seg), Forall (fun g => is_sep_text (snd g)) a -> a <> [] ->
  b <> [] -> length (labels_text b) < length (labels_text (a ++ b)).
Proof.
  intros a b F Na Nb. induction F as [|[l s] a Hs F IH]; [contradiction|]. cbn [snd] in Hs. apply sep_text_nonempty in Hs.
  assert (E : labels_text (((l, s) :: a) ++ b) = labels_text (a ++ b) ++ s ++ l).
  { cbn [app labels_text]. destruct (a ++ b) eqn:Z; [|reflexivity]. apply app_eq_nil in Z as [_ Z]. contradiction. }
  match goal with |- _ < length ?x => change x with (labels_text (((l, s) :: a) ++ b)) end.
  rewrite E, !app_length. destruct s; [contradiction|]. cbn [length].
  destruct a as [|g a]; [cbn [app]; lia|]. specialize (IH ltac:(discriminate)). unfold seg in *. lia.
Qed.

Lemma c82 : forall ext rules t p r scheme user raw h port path first zs segs, well_formed rules -> build_trie rules = Ret t ->
  extract ext t p = Ret (r, None) -> r_host_type r = HHostName -> p_ignore_sub_domains p = false ->
  url_parts ext p scheme user raw h port path -> labelled h first zs segs -> Forall plain_label (labels first segs) ->
  (as_published rules first segs r <-> ~ diverges rules (labels first segs)).
Proof.
  intros ext rules t p r sc us raw h po pa first zs segs Wf B H T I U L P.
  destruct (c21_at _ _ _ _ _ _ _ _ _ _ _ _ _ _ B H T U L) as (sub & Rep & Es). rewrite I in Es. subst sub.
  pose proof (proj1 (c17 _ _ _ _ H T)) as Nd.
  assert (F : Forall (fun g : seg => is_sep_text (snd g)) segs).
  { destruct L as (_ & Ws & _). apply well_split_app in Ws as [_ Ws]. eapply Forall_impl; [|exact Ws]. intros g [_ G]. exact G. }
  unfold reported in Rep. destruct (walk rules [] (labels first segs)) as [e n] eqn:Hw.
  rewrite <- (walk_diverges rules _ Wf P e n Hw).
  - destruct e as [k|].
    + destruct Rep as (Ln & Sx & Dm & Sb). split.
      * intros (m & Pm & Lm & Sx' & Dm' & Sb').
        assert (m = n). { eapply (below_inj first segs m n (r_domain r)); eauto; [lia|congruence]. }
        subst m. right. destruct k as [|k]; [auto|]. exfalso. rewrite Sx in Sx'.
        assert (Ef : firstn n segs = firstn (S k) segs ++ firstn (n - S k) (skipn (S k) segs)).
        { rewrite <- (firstn_skipn (S k) (firstn n segs)) at 1. rewrite firstn_firstn, skipn_firstn_comm.
          replace (Nat.min (S k) n) with (S k) by lia. reflexivity. }
        apply (f_equal (@length N)) in Sx'. rewrite Ef in Sx'.
        assert (Y : length (labels_text (firstn (n - S k) (skipn (S k) segs))) < length (labels_text (firstn (S k) segs ++ firstn (n - S k) (skipn (S k) segs)))); [|lia].
        apply labels_text_tail.
        -- apply Forall_forall. intros g Hg. rewrite Forall_forall in F. apply F.
           rewrite <- (firstn_skipn (S k) segs). apply in_or_app. left. exact Hg.
        -- destruct segs; [cbn [length] in Ln; lia|discriminate].
        -- intros Z. apply (f_equal (@length _)) in Z. rewrite firstn_length, skipn_length in Z. cbn [length] in Z. lia.
      * intros [(Z & _)|(Z & Pn)]; [discriminate|]. injection Z as ->. exists n. split; [exact Pn|]. split; [lia|].
        cbn [skipn] in Sx. rewrite Nat.sub_0_r in Sx. auto.
    + destruct Rep as (Sx & Dm & Sb). split.
      * intros (m & Pm & Lm & Sx' & Dm' & Sb'). left. split; [reflexivity|].
        assert (m = 0). { eapply (below_inj first segs m 0 (r_domain r)); eauto; [lia|congruence]. }
        subst m. exact Pm.
      * intros [(_ & Pn)|(Z & _)]; [|discriminate]. exists 0. split; [exact Pn|]. split; [lia|]. auto.
  - unfold labels. destruct segs; discriminate.
  - intros Z. destruct e as [k|]; [|contradiction]. rewrite labels_length. lia.
Qed.

(** ** Lists that are well formed *)

Lemma well_formed_at : forall rules rule above k q, well_formed_b rules = true -> In rule rules -> rule_path rule = above ++ k :: q ->
  (k = str "*" -> is_rule rules (above ++ [str "*"]) = true)
  /\ forall x, k = str "!" ++ x -> q = [] /\ is_rule rules (above ++ [str "*"]) = true.
Proof.
  intros rules rule above k q H Hr E. unfold well_formed_b in H. apply andb_true_iff in H as [_ H].
  rewrite forallb_forall in H. specialize (H rule Hr). cbv zeta in H. rewrite forallb_forall in H.
  specialize (H (length above)). rewrite E in H.
  rewrite firstn_app, Nat.sub_diag, firstn_O, app_nil_r, firstn_all in H.
  rewrite skipn_app, Nat.sub_diag, skipn_O, skipn_all in H. cbn [app] in H.
  rewrite in_seq, app_length in H. cbn [length] in H. specialize (H ltac:(lia)). split.
  - intros ->. exact H.
  - intros x ->. cbn in H. destruct q; [auto|discriminate].
Qed.
Lemma well_formed_sound : forall rules, well_formed_b rules = true -> well_formed rules.
Proof.
  intros rules H. constructor.
  - unfold well_formed_b in H. apply andb_true_iff in H as [H _]. apply negb_true_iff in H. exact H.
  - intros rule above q Hr E. apply (well_formed_at rules rule above _ q H Hr E). reflexivity.
  - intros rule above k q Hr E. apply (proj2 (well_formed_at rules rule above _ q H Hr E) k). reflexivity.
Qed.
