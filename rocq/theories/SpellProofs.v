(** SpellProofs.v - exactly when Extract departs from the algorithm of publicsuffix.org on hosts with
    escapes. *)

From Verif Require Import Base BaseFacts Utf8 Utf8Facts Chars Str StrFacts Net Trie Extract Host HostFacts
  Walk WalkFacts Addr NetFacts Parse ParseFacts UrlSpec UrlFacts ExtractFacts OutcomeFacts Rfc UrlProofs CharProofs
  RuleSpec TrieFacts RuleProofs VariantProofs PslProofs GapProofs DivergeSpec DivergeProofs SplitSpec SplitProofs.
From Coq Require Import ZifyBool ZifyNat ZifyN.

Lemma decoded_again : forall labs, Forall plain_label (map decoded labs) -> Forall2 decoded_alike labs (map decoded labs).
Proof.
  induction labs as [|l labs IH]; intros P; cbn [map] in *; [constructor|]. inversion P as [|? ? Pl P']; subst. constructor; [|apply IH; exact P'].
  unfold decoded_alike. symmetry. apply decoded_plain; apply Pl.
Qed.

Section At.
Variables (rules whole above : list bytes) (l : bytes) (more : list bytes).
Hypothesis W : well_formed rules.
Hypothesis P : Forall plain_label whole.
Hypothesis E : whole = above ++ l :: more.
Hypothesis O : no_wildcard_along rules above.
Hypothesis K : known rules (above ++ [str "*"]) = true.

Lemma wildcard_rule : exists rule, In rule rules /\ rule_path rule = above ++ [str "*"] /\ ~ is_exception (rule_path rule)
  /\ rule_matches (rule_path rule) whole.
Proof.
  apply known_iff in K as (rule & q & Hr & Er). rewrite <- app_assoc in Er. cbn [app] in Er.
  pose proof (wf_wild _ W rule above q Hr Er) as R. apply is_rule_iff in R as (rule' & Hr' & Er').
  exists rule'. split; [exact Hr'|]. split; [exact Er'|]. rewrite Er'. split.
  - intros (a & x & Ex). apply app_inj_tail in Ex as [_ Ex]. discriminate.
  - exists (above ++ [l]), more. split; [rewrite <- app_assoc; exact E|].
    apply Forall2_app; [apply matches_self|]. repeat constructor.
Qed.
Lemma wildcard_not_none : ~ psl_suffix rules whole 0.
Proof.
  intros Z. apply (psl_none rules whole W) in Z. apply Z. destruct wildcard_rule as (rule & Hr & Er & I & M).
  exists (rule_path rule). split; [apply is_rule_iff; eauto|auto].
Qed.
Lemma wildcard_not_above : known rules (above ++ [str "!" ++ l]) = false -> ~ psl_suffix rules whole (length above).
Proof.
  intros Kx [(rule & Hr & M & L)|(N & [(rule & Hr & I & M & L & Mx)|(Z & N')])].
  - assert (R : is_rule rules (rule_path rule) = true) by (apply is_rule_iff; eauto).
    destruct (exception_shape rules whole W _ R M) as (q & l' & rest & Eq & Kq & D).
    destruct (wildcard_depth rules whole _ _ _ _ _ _ E O Eq Kq) as [(<- & <-)|(c & ->)].
    + destruct D as [D|D]; [|lia]. apply rule_known in R. rewrite D in R. congruence.
    + destruct D as [D|D].
      * rewrite D, !app_length in L. cbn [length] in L. lia.
      * rewrite app_length in D. cbn [length] in D. lia.
  - destruct wildcard_rule as (rule' & Hr' & Er' & I' & M'). specialize (Mx rule' Hr' I' M'). rewrite Er', app_length in Mx. cbn [length] in Mx. lia.
  - destruct wildcard_rule as (rule' & Hr' & Er' & I' & M'). exact (N' rule' Hr' I' M').
Qed.
Lemma exception_beyond : known rules (above ++ [str "!" ++ l]) = true ->
  (psl_suffix rules whole (S (length above)) <->
   exists path, is_rule rules path = true /\ exception_matches path whole /\ length path = S (S (length above))).
Proof.
  intros Kx. split.
  - intros [(rule & Hr & M & L)|(N & _)].
    + exists (rule_path rule). split; [apply is_rule_iff; eauto|auto].
    + exfalso. apply known_iff in Kx as (rule & q & Hr & Er). rewrite <- app_assoc in Er. cbn [app] in Er.
      destruct (wf_exc _ W rule above l q Hr Er) as [-> _]. apply (N rule Hr). rewrite Er.
      exists above, l, above, more. split; [reflexivity|]. split; [exact E|apply matches_self].
  - intros (path & R & M & L). apply is_rule_iff in R as (rule & Hr & Er). left. exists rule. rewrite Er. auto.
Qed.
End At.

(** Where the walk stops at a wildcard. *)
Lemma walk_at_wildcard : forall rules above (path : list bytes) l more, no_wildcard_along rules (path ++ map decoded above) ->
  known rules (path ++ map decoded above ++ [str "*"]) = true ->
  snd (walk rules path (above ++ l :: more))
  = if known rules (path ++ map decoded above ++ [str "!" ++ l]) then length above else S (length above).
Proof.
  intros rules. induction above as [|a above IH]; intros path l more O K; cbn [map app length] in *.
  - cbn [walk]. rewrite K. cbn [snd]. reflexivity.
  - cbn [walk]. assert (Kw : known rules (path ++ [str "*"]) = false) by (eapply O; reflexivity). rewrite Kw.
    assert (Kn : known rules (path ++ [decoded a]) = true).
    { apply (known_prefix _ (path ++ [decoded a]) (map decoded above ++ [str "*"])). rewrite <- app_assoc. exact K. }
    rewrite Kn. specialize (IH (path ++ [decoded a]) l more). rewrite <- !app_assoc in IH. cbn [app] in IH. specialize (IH O K).
    destruct (walk rules (path ++ [decoded a]) (above ++ l :: more)) as [e n]. cbn [snd] in *. rewrite IH.
    destruct (known rules (path ++ decoded a :: map decoded above ++ [str "!" ++ l])); reflexivity.
Qed.

Lemma walk_misspelt : forall rules labs e n, well_formed rules -> Forall plain_label (map decoded labs) ->
  walk rules [] labs = (e, n) -> labs <> [] -> (e <> None -> n < length labs) ->
  ((e = None /\ psl_suffix rules (map decoded labs) 0) \/ (e = Some 0 /\ psl_suffix rules (map decoded labs) n))
  <-> ~ diverges rules (map decoded labs) /\ ~ misspelt rules labs.
Proof.
  intros rules labs e n W P Hw Ne Hn. pose proof (decoded_again _ P) as A.
  pose proof (walk_escaped rules _ _ [] A) as E. pose proof (walk_escaped_far rules _ _ [] A ltac:(intros q x y Z; destruct q; discriminate)) as F.
  rewrite Hw in E, F. cbn [app fst snd] in E, F.
  destruct (walk rules [] (map decoded labs)) as [e' n'] eqn:Hw'. cbn [fst snd] in E, F. subst e'.
  assert (Ne' : map decoded labs <> []) by (destruct labs; [contradiction|discriminate]).
  destruct (Nat.eq_dec n n') as [<-|D].
  - assert (M : ~ misspelt rules labs).
    { intros (above & l & more & El & O & K & Kx). apply (proj2 F); [|reflexivity].
      exists above, l, more, (map decoded above), (decoded l), (map decoded more). split; [exact El|]. split; [rewrite El, map_app; reflexivity|].
      split; [rewrite map_length; reflexivity|]. split; [exact O|]. split; [exact K|]. destruct Kx as [(-> & ->)|(-> & -> & _)]; discriminate. }
    rewrite (walk_diverges rules _ W P e n Hw' Ne'); [tauto|]. rewrite map_length. exact Hn.
  - destruct (proj1 F D) as (above & l & more & above' & l' & more' & El & El' & La & O & K & Kx).
    assert (Q : map decoded labs = map decoded above ++ decoded l :: map decoded more) by (rewrite El, map_app; reflexivity).
    rewrite Q in El'. assert (map decoded above = above').
    { apply (f_equal (firstn (length above))) in El'.
      rewrite firstn_app, map_length, Nat.sub_diag, firstn_O, app_nil_r, firstn_all2 in El' by (rewrite map_length; lia).
      rewrite firstn_app, La, Nat.sub_diag, firstn_O, app_nil_r, firstn_all2 in El' by lia. exact El'. }
    subst above'. apply app_inv_head in El'. injection El' as <- _.
    pose proof (walk_at_wildcard rules above [] l more O K) as N. rewrite <- El, Hw in N. cbn [snd app] in N.
    assert (Z : ~ psl_suffix rules (map decoded labs) 0) by (eapply wildcard_not_none; eauto).
    destruct (known rules (map decoded above ++ [str "!" ++ l])) eqn:Kl.
    + assert (Kd : known rules (map decoded above ++ [str "!" ++ decoded l]) = false) by (apply not_true_is_false; congruence).
      split.
      * intros [(_ & X)|(_ & X)]; [contradiction|]. exfalso. subst n. rewrite <- (map_length decoded above) in X. revert X.
        eapply wildcard_not_above; eauto.
      * intros (_ & M). exfalso. apply M. exists above, l, more. repeat (split; [assumption|]). left. auto.
    + assert (Kd : known rules (map decoded above ++ [str "!" ++ decoded l]) = true) by (apply not_false_is_true; congruence).
      pose proof (exception_beyond rules _ _ _ _ W Q Kd) as B. rewrite map_length in B. subst n.
      assert (M : misspelt rules labs <-> ~ psl_suffix rules (map decoded labs) (S (length above))).
      { rewrite B. split.
        - intros (ab & l1 & m1 & El1 & O1 & K1 & Kx1).
          assert (X : ab = above /\ l1 = l).
          { assert (Ql : map decoded labs = map decoded ab ++ decoded l1 :: map decoded m1) by (rewrite El1, map_app; reflexivity).
            assert (Len : length ab = length above).
            { destruct (wildcard_depth rules _ _ _ _ _ _ _ Q O Ql K1) as [(E1 & _)|(c & E1)].
              - apply (f_equal (@length _)) in E1. rewrite !map_length in E1. lia.
              - exfalso. rewrite E1 in O1. rewrite (O1 _ _ _ eq_refl) in K. discriminate. }
            rewrite El1 in El. apply (f_equal (skipn (length above))) in El as Es. apply (f_equal (firstn (length above))) in El.
            rewrite !firstn_app, Len, Nat.sub_diag, !firstn_O, !app_nil_r, !firstn_all2 in El by lia.
            rewrite !skipn_app, Len, Nat.sub_diag, !skipn_O, !skipn_all2 in Es by lia. cbn [app] in Es. injection Es as -> _. auto. }
          destruct X as [-> ->]. destruct Kx1 as [(C & _)|(_ & _ & X)]; [congruence|exact X].
        - intros X. exists above, l, more. repeat (split; [assumption|]). right. auto. }
      pose proof (walk_at_wildcard rules (map decoded above) [] (decoded l) (map decoded more)) as N'.
      assert (Eq : map decoded (map decoded above) = map decoded above).
      { rewrite map_map. apply map_ext_in. intros a Ha. apply decoded_plain; rewrite Forall_forall in P; apply P; rewrite Q; apply in_or_app; left; apply in_map; exact Ha. }
      cbn [app] in N'. rewrite Eq in N'. specialize (N' O K). rewrite <- Q, Hw', Kd, map_length in N'. cbn [snd] in N'. subst n'.
      pose proof (walk_diverges rules _ W P e (length above) Hw' Ne') as V.
      rewrite map_length in V. rewrite El, app_length in V. cbn [length] in V. rewrite <- El in V. specialize (V ltac:(lia)).
      assert (Pa : psl_suffix rules (map decoded labs) (length above)).
      { rewrite <- (map_length decoded above). eapply at_exception; eauto. }
      rewrite M, <- V. split.
      * intros [(_ & X)|(X & Y)]; [contradiction|]. split; [right; auto|tauto].
      * intros ([(_ & X)|(X & _)] & Y); [contradiction|]. right. split; [exact X|].
        destruct (existsb (fun rule => exc_match (rule_path rule) (map decoded labs) && (length (rule_path rule) =? S (S (length above)))) rules) eqn:C.
        -- apply B. apply existsb_exists in C as (rule & Hr & C). apply andb_true_iff in C as [C L]. exists (rule_path rule).
           split; [apply is_rule_iff; eauto|]. split; [apply exc_match_iff; exact C|lia].
        -- exfalso. apply Y. intros Z'. apply B in Z' as (path & R & Mx & L). apply is_rule_iff in R as (rule & Hr & Er). rewrite <- Er in Mx, L.
           assert (Y' : existsb (fun rule => exc_match (rule_path rule) (map decoded labs) && (length (rule_path rule) =? S (S (length above)))) rules = true).
           { apply existsb_exists. exists rule. split; [exact Hr|]. apply andb_true_iff. split; [apply exc_match_iff; exact Mx|lia]. }
           congruence.
Qed.

Lemma c86 : forall ext rules t p r scheme user raw h port path first zs segs, well_formed rules -> build_trie rules = Ret t ->
  extract ext t p = Ret (r, None) -> r_host_type r = HHostName -> p_ignore_sub_domains p = false ->
  url_parts ext p scheme user raw h port path -> labelled h first zs segs -> Forall plain_label (map decoded (labels first segs)) ->
  (as_published_decoded rules first segs r
   <-> ~ diverges rules (map decoded (labels first segs)) /\ ~ misspelt rules (labels first segs)).
Proof.
  intros ext rules t p r sc us raw h po pa first zs segs Wf B H T I U L P.
  pose proof (division _ _ _ _ _ _ _ _ _ _ _ _ _ _ B H T I U L) as D.
  destruct (c21_at _ _ _ _ _ _ _ _ _ _ _ _ _ _ B H T U L) as (sub & Rep & _). unfold reported in Rep.
  destruct (walk rules [] (labels first segs)) as [e n] eqn:Hw.
  rewrite <- (walk_misspelt rules _ e n Wf P Hw).
  - assert (X : as_published_decoded rules first segs r <-> exists m, psl_suffix rules (map decoded (labels first segs)) m /\ divided first segs r 0 m).
    { unfold as_published_decoded, divided. split; intros (m & Pm & Y); exists m; (split; [exact Pm|]);
        rewrite Nat.sub_0_r in *; change (skipn 0 segs) with segs in *; intuition lia. }
    rewrite X. clear X. split.
    + intros (m & Pm & Y). rewrite D in Y. destruct e as [k|]; cbn [position] in Y; injection Y; [intros <- ->; right; auto|intros <-; left; auto].
    + intros [(-> & Pm)|(-> & Pm)]; [exists 0|exists n]; (split; [exact Pm|]); apply D; reflexivity.
  - unfold labels. destruct segs; discriminate.
  - intros Z. destruct e as [k|]; [|contradiction]. rewrite labels_length. lia.
Qed.
