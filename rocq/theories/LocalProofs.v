(** LocalProofs.v - a rule changes nothing for the hosts it does not concern: proofs of C93. *)

From Verif Require Import Base BaseFacts Utf8 Chars Str StrFacts Net Trie Extract Host HostFacts
  Walk WalkFacts Addr NetFacts Parse ParseFacts UrlSpec UrlFacts ExtractFacts OutcomeFacts Rfc RuleSpec TrieFacts
  UrlProofs CharProofs HostProofs RuleProofs ErrSpec InvalidProofs ErrProofs CompleteProofs DivergeProofs LocalSpec.
From Coq Require Import ZifyBool ZifyNat ZifyN.

Lemma known_prefix : forall rules (p q : list bytes), known rules (p ++ q) = true -> known rules p = true.
Proof.
  intros rules p q H. apply known_iff in H as (rule & rest & Hi & E). apply known_iff. exists rule, (q ++ rest).
  split; [exact Hi|]. rewrite E, app_assoc. reflexivity.
Qed.

Lemma known_cons : forall rule rules p, known (rule :: rules) p = true <-> known rules p = true \/ exists rest, rule_path rule = p ++ rest.
Proof.
  intros rule rules p. unfold known. cbn [existsb]. rewrite orb_true_iff, begins_iff. tauto.
Qed.
Lemma is_rule_cons : forall rule rules p, is_rule (rule :: rules) p = true <-> is_rule rules p = true \/ rule_path rule = p.
Proof. intros rule rules p. unfold is_rule. cbn [existsb]. rewrite orb_true_iff, same_path_iff. tauto. Qed.

(** A path that begins a rule is a rule or begins a longer one. *)
Lemma known_cases : forall rules p, known rules p = true -> is_rule rules p = true \/ exists k, known rules (p ++ [k]) = true.
Proof.
  intros rules p H. apply known_iff in H as (rule & rest & Hi & E). destruct rest as [|k rest].
  - left. apply is_rule_iff. exists rule. rewrite app_nil_r in E. auto.
  - right. exists k. apply known_iff. exists rule, rest. split; [exact Hi|]. rewrite E, <- app_assoc. reflexivity.
Qed.

Lemma prefix_compare : forall (a b c d : list bytes), a ++ b = c ++ d -> (exists x, c = a ++ x) \/ exists y z, a = c ++ y :: z.
Proof.
  induction a as [|x a IH]; intros b c d H; [left; exists c; reflexivity|]. destruct c as [|y c]; [right; exists x, a; reflexivity|].
  cbn [app] in H. injection H as <- H. destruct (IH _ _ _ H) as [(z & ->)|(z & w & ->)]; [left; exists z; reflexivity|right; exists z, w; reflexivity].
Qed.

Lemma reach_split : forall (labs : list bytes) j, map decoded labs = reach labs j ++ map decoded (skipn j labs).
Proof. intros labs j. unfold reach. rewrite <- map_app, firstn_skipn. reflexivity. Qed.
Lemma same_matches : forall l : list bytes, Forall2 label_matches l l.
Proof. induction l as [|x l IH]; constructor; [right; reflexivity|exact IH]. Qed.
Lemma reach_length : forall (labs : list bytes) j, (j <= length labs)%nat -> length (reach labs j) = j.
Proof. intros labs j H. unfold reach. rewrite map_length, firstn_length. lia. Qed.
Lemma reach_nonempty : forall (labs : list bytes) j, (0 < j <= length labs)%nat -> reach labs j <> [].
Proof. intros labs j H X. pose proof (reach_length labs j ltac:(lia)) as L. rewrite X in L. cbn [length] in L. lia. Qed.
Lemma reach_next : forall (labs : list bytes) j, (j < length labs)%nat -> reach labs (S j) = reach labs j ++ [decoded (nth j labs [])].
Proof.
  intros labs j H. pose proof (firstn_skipn j labs) as E. destruct (skipn j labs) as [|l more] eqn:S.
  - exfalso. apply (f_equal (@length _)) in S. rewrite skipn_length in S. cbn [length] in S. lia.
  - assert (L : length (firstn j labs) = j) by (rewrite firstn_length; lia).
    assert (Nl : nth j labs [] = l).
    { rewrite <- E, app_nth2 by lia. rewrite L, Nat.sub_diag. reflexivity. }
    pose proof (reach_succ (firstn j labs) l more) as R. rewrite L, E in R. rewrite Nl. exact R.
Qed.

Section Local.
Variables (rules : list bytes) (rule : bytes) (p : list bytes).
Hypothesis P : new_part rules rule p.

Lemma fresh : forall (q rest : list bytes), rule_path rule = q ++ rest -> q <> [] -> known rules q = false -> exists x, q = p ++ x.
Proof.
  intros q rest E N K. destruct P as (Np & (rp & Ep) & _ & Pr). rewrite Ep in E.
  destruct (prefix_compare _ _ _ _ E) as [X|(y & z & X)]; [exact X|]. exfalso.
  destruct (exists_last Np) as (p' & l & Pl). destruct (Pr p' l Pl) as [->|Kp].
  - rewrite X in Pl. apply (f_equal (@length _)) in Pl. rewrite app_length in Pl. cbn [length app] in Pl. destruct q; [contradiction|cbn [length] in Pl; lia].
  - assert (F : exists w, p' = q ++ w).
    { rewrite Pl in X. destruct (exists_last (l := y :: z) ltac:(discriminate)) as (w & l' & W). rewrite W, app_assoc in X.
      apply app_inj_tail in X as [-> _]. eauto. }
    destruct F as (w & ->). rewrite (known_prefix _ _ _ Kp) in K. discriminate.
Qed.

(** What the longer list knows besides begins with the new part. *)
Lemma known_new : forall q, q <> [] -> known (rule :: rules) q = true -> known rules q = true \/ exists x, q = p ++ x.
Proof.
  intros q N H. apply known_cons in H as [H|(rest & E)]; [auto|]. destruct (known rules q) eqn:K; [auto|]. right. exact (fresh _ _ E N K).
Qed.
Lemma known_old : forall q, known rules q = true -> known (rule :: rules) q = true.
Proof. intros q H. apply known_cons. auto. Qed.

Variable labs : list bytes.
Hypothesis C : ~ concerned p labs.

Lemma not_reach : forall j x, reach labs j <> p ++ x.
Proof.
  intros j x E. apply C. left. exists p, (x ++ map decoded (skipn j labs)).
  split; [rewrite app_assoc, <- E; apply reach_split|]. apply same_matches.
Qed.

(** F1-F4: what the walk looks up. *)
Lemma same_known : forall j, (0 < j <= length labs)%nat -> known (rule :: rules) (reach labs j) = known rules (reach labs j).
Proof.
  intros j H. apply eq_true_iff_eq. split; [|apply known_old]. intros K.
  destruct (known_new _ (reach_nonempty labs _ H) K) as [K'|(x & E)]; [exact K'|]. destruct (not_reach _ _ E).
Qed.

Lemma snoc_prefix : forall (q x : list bytes) (k : bytes), q ++ [k] = p ++ x -> (exists y, q = p ++ y) \/ p = q ++ [k].
Proof.
  intros q x k E. destruct x as [|a x] using rev_ind; [right; rewrite app_nil_r in E; auto|].
  rewrite app_assoc in E. apply app_inj_tail in E as [-> _]. left. eauto.
Qed.

Lemma same_wild : forall j, (j < length labs)%nat ->
  known (rule :: rules) (reach labs j ++ [str "*"]) = known rules (reach labs j ++ [str "*"]).
Proof.
  intros j H. apply eq_true_iff_eq. split; [|apply known_old]. intros K.
  destruct (known_new _ (not_eq_sym (app_cons_not_nil _ _ _)) K) as [K'|(x & E)]; [exact K'|]. exfalso.
  apply snoc_prefix in E as [(y & E)|E]; [exact (not_reach _ _ E)|]. apply C. left.
  exists (reach labs j ++ [decoded (nth j labs [])]), (map decoded (skipn (S j) labs)).
  split; [rewrite <- reach_next by exact H; apply reach_split|]. rewrite E. apply Forall2_app; [apply same_matches|].
  constructor; [left; reflexivity|constructor].
Qed.

Lemma same_exception : forall j, (j < length labs)%nat ->
  known (rule :: rules) (reach labs j ++ [str "!" ++ nth j labs []]) = known rules (reach labs j ++ [str "!" ++ nth j labs []]).
Proof.
  intros j H. apply eq_true_iff_eq. split; [|apply known_old]. intros K.
  destruct (known_new _ (not_eq_sym (app_cons_not_nil _ _ _)) K) as [K'|(x & E)]; [exact K'|]. exfalso.
  apply snoc_prefix in E as [(y & E)|E]; [exact (not_reach _ _ E)|]. apply C. right.
  left. exists (reach labs j), (nth j labs []), (firstn j labs), (skipn (S j) labs). split; [exact E|]. split; [|apply same_matches].
  rewrite <- (firstn_skipn j labs) at 1. f_equal. clear -H. revert j H. induction labs as [|l ls IH]; intros [|j] H; cbn [length] in H; try lia; [reflexivity|].
  cbn [skipn nth]. apply IH. lia.
Qed.

Lemma same_suffix : forall j, (0 < j <= length labs)%nat -> is_suffix (rule :: rules) (reach labs j) = is_suffix rules (reach labs j).
Proof.
  intros j H. apply eq_true_iff_eq. unfold is_suffix. rewrite !orb_true_iff, is_rule_cons. split.
  - intros [[R|E]|K].
    + auto.
    + exfalso. destruct P as (_ & (rest & Ep) & _). rewrite E in Ep. exact (not_reach _ _ Ep).
    + destruct (reach labs j) as [|t [|u r]] eqn:R; try discriminate.
      destruct (known_new [t; str "*"] ltac:(discriminate) K) as [K'|(x & E)]; [auto|].
      change [t; str "*"] with ([t] ++ [str "*"]) in E. apply snoc_prefix in E as [(y & E)|E].
      * rewrite <- R in E. destruct (not_reach _ _ E).
      * exfalso. assert (J : j = 1%nat) by (rewrite <- (reach_length labs j), R by lia; reflexivity). subst j.
        destruct (Nat.eq_dec (length labs) 1) as [L|L].
        -- apply C. right. right. exists t. split; [exact E|]. rewrite <- R. unfold reach. rewrite firstn_all2 by lia. reflexivity.
        -- apply C. left. exists (reach labs 2), (map decoded (skipn 2 labs)). split; [apply reach_split|].
           rewrite (reach_next labs 1), R, E by lia. constructor; [right; reflexivity|]. constructor; [left; reflexivity|constructor].
  - intros [R|K]; [auto|]. right. destruct (reach labs j) as [|t [|u r]]; try discriminate. apply known_old. exact K.
Qed.

Lemma walk_same_from : forall more done, labs = done ++ more ->
  walk (rule :: rules) (map decoded done) more = walk rules (map decoded done) more.
Proof.
  induction more as [|l more IH]; intros done E; [reflexivity|].
  assert (Hl : (length done < length labs)%nat) by (rewrite E, app_length; cbn [length]; lia).
  assert (R : reach labs (length done) = map decoded done).
  { unfold reach. rewrite E, firstn_app, Nat.sub_diag, firstn_all. cbn [firstn]. rewrite app_nil_r. reflexivity. }
  assert (Nl : nth (length done) labs [] = l) by (rewrite E, app_nth2, Nat.sub_diag by lia; reflexivity).
  pose proof (same_wild _ Hl) as A. pose proof (same_exception _ Hl) as B. pose proof (reach_next labs _ Hl) as Rn.
  pose proof (same_known (S (length done)) ltac:(lia)) as D. pose proof (same_suffix (S (length done)) ltac:(lia)) as F.
  rewrite Rn, Nl, R in *. cbn [walk]. rewrite A, B, D, F.
  specialize (IH (done ++ [l])). rewrite map_app in IH. cbn [map] in IH. rewrite IH; [reflexivity|]. rewrite E, <- app_assoc. reflexivity.
Qed.
Lemma walk_same : walk (rule :: rules) [] labs = walk rules [] labs.
Proof. apply (walk_same_from labs []). reflexivity. Qed.

(** Which labels are looked at. *)
Lemma looked_more : forall i, looked_at rules labs i -> looked_at (rule :: rules) labs i.
Proof.
  intros i (A & B). split; [exact A|]. intros j Hj. destruct (B j Hj) as (X & k & Y).
  split; [rewrite same_wild by lia; exact X|]. exists k. apply known_old. exact Y.
Qed.

(** A label is looked at because of the rule only. *)
Lemma looked_less : forall i, looked_at (rule :: rules) labs i -> looked_at rules labs i
  \/ exists j, i = S j /\ looked_at rules labs j /\ is_rule rules (reach labs i) = true
     /\ forall k, known rules (reach labs i ++ [k]) = false.
Proof.
  induction i as [|i IH]; intros H.
  - left. split; [apply H|]. intros j Hj. lia.
  - pose proof (looked_le _ _ _ i H ltac:(lia)) as Hi. destruct H as (Hl & B). destruct (B i ltac:(lia)) as (X & k & Y).
    rewrite same_wild in X by lia.
    assert (Ks : known rules (reach labs (S i)) = true).
    { rewrite <- same_known by lia. exact (known_prefix _ _ _ Y). }
    assert (L : looked_at rules labs i).
    { destruct (IH Hi) as [L|(j & -> & _ & _ & Nk)]; [exact L|]. exfalso. rewrite reach_next, Nk in Ks by lia. discriminate. }
    destruct (known_cases _ _ Ks) as [R|(x & Kx)].
    + destruct (existsb (fun r => begins (reach labs (S i)) (rule_path r) && negb (same_path (reach labs (S i)) (rule_path r))) rules) eqn:E.
      * left. apply looked_succ; [exact L|exact Hl|exact X|]. apply existsb_exists in E as (r & Hr & E). apply andb_prop in E as (E1 & E2).
        apply begins_iff in E1 as (rest & E1). destruct rest as [|y rest].
        -- rewrite app_nil_r in E1. apply same_path_iff in E1. rewrite E1 in E2. discriminate.
        -- exists y. apply known_iff. exists r, rest. split; [exact Hr|]. rewrite E1, <- app_assoc. reflexivity.
      * right. exists i. split; [reflexivity|]. split; [exact L|]. split; [exact R|]. intros y.
        destruct (known rules (reach labs (S i) ++ [y])) eqn:K; [|reflexivity]. exfalso. apply known_iff in K as (r & rest & Hr & E2).
        apply (Bool.not_true_iff_false _) in E. apply E. apply existsb_exists. exists r. split; [exact Hr|]. apply andb_true_intro. split.
        -- apply begins_iff. exists ([y] ++ rest). rewrite E2, <- app_assoc. reflexivity.
        -- apply negb_true_iff, Bool.not_true_iff_false. intros S. apply same_path_iff in S. rewrite S in E2.
           apply (f_equal (@length _)) in E2. rewrite !app_length in E2. cbn [length] in E2. lia.
    + left. apply looked_succ; eauto.
Qed.

(** The walk where labels end that are a rule and begin no longer one. *)
Lemma walk_at_end : forall more done m, labs = done ++ more -> (length done <= m)%nat -> looked_at rules labs m -> (S m < length labs)%nat ->
  known rules (reach labs m ++ [str "*"]) = false ->
  is_rule rules (reach labs (S m)) = true -> (forall k, known rules (reach labs (S m) ++ [k]) = false) ->
  exists k, walk rules (map decoded done) more = (Some k, S m - length done)%nat.
Proof.
  induction more as [|l more IH]; intros done m E Hd L Hm Wm R N.
  { exfalso. rewrite app_nil_r in E. subst labs. lia. }
  assert (Hl : (length done < length labs)%nat) by lia.
  assert (Rd : reach labs (length done) = map decoded done).
  { unfold reach. rewrite E, firstn_app, Nat.sub_diag, firstn_all. cbn [firstn]. rewrite app_nil_r. reflexivity. }
  assert (Nl : nth (length done) labs [] = l) by (rewrite E, app_nth2, Nat.sub_diag by lia; reflexivity).
  pose proof (reach_next labs _ Hl) as Rn. rewrite Rd, Nl in Rn.
  assert (Wd : known rules (map decoded done ++ [str "*"]) = false).
  { rewrite <- Rd. destruct (Nat.eq_dec (length done) m) as [->|]; [exact Wm|]. destruct L as (_ & L). apply (L (length done)). lia. }
  assert (Kd : known rules (map decoded done ++ [decoded l]) = true).
  { rewrite <- Rn. destruct (Nat.eq_dec (length done) m) as [->|].
    - apply is_rule_iff in R as (r & Hr & Er). apply known_iff. exists r, []. rewrite app_nil_r. auto.
    - destruct L as (_ & L). destruct (L (length done) ltac:(lia)) as (_ & k & K). exact (known_prefix _ _ _ K). }
  cbn [walk]. rewrite Wd, Kd. destruct (Nat.eq_dec (length done) m) as [Em|Em].
  - rewrite <- Rn, Em. assert (Sf : is_suffix rules (reach labs (S m)) = true) by (unfold is_suffix; rewrite R; reflexivity).
    rewrite Sf. destruct more as [|l2 more]; [cbn [walk]; exists 0%nat; f_equal; lia|]. cbn [walk]. rewrite !N. exists 0%nat. f_equal. lia.
  - destruct (IH (done ++ [l]) m) as (k & Ek); auto.
    + rewrite E, <- app_assoc. reflexivity.
    + rewrite app_length. cbn [length]. lia.
    + rewrite map_app, app_length in Ek. cbn [map length] in Ek. rewrite Ek.
      destruct (is_suffix rules (map decoded done ++ [decoded l])); eexists; f_equal; try reflexivity; lia.
Qed.

(** The last label looked at. *)
Lemma last_cases : forall m m', last_looked rules labs m -> last_looked (rule :: rules) labs m' ->
  m' = m \/ m' = S m /\ known rules (reach labs m ++ [str "*"]) = false /\ is_rule rules (reach labs (S m)) = true
            /\ (forall k, known rules (reach labs (S m) ++ [k]) = false) /\ exists k, walk rules [] labs = (Some k, S m).
Proof.
  intros m m' (A & B) (A' & B'). destruct (looked_less _ A') as [L|(j & -> & L & R & N)].
  - left. destruct (Nat.lt_trichotomy m m') as [X|[X|X]]; [|auto|].
    + exfalso. apply B. apply (looked_le _ _ m'); [exact L|lia].
    + exfalso. apply B'. apply (looked_le _ _ m); [apply looked_more; exact A|lia].
  - right. assert (j = m) as ->.
    { destruct (Nat.lt_trichotomy j m) as [X|[X|X]]; [|auto|].
      - exfalso. assert (L2 : looked_at rules labs (S j)) by (apply (looked_le _ _ m); [exact A|lia]).
        destruct L2 as (_ & L2). destruct (L2 j ltac:(lia)) as (_ & k & K). rewrite N in K. discriminate.
      - exfalso. apply B. apply (looked_le _ _ j); [exact L|lia]. }
    assert (Wm : known rules (reach labs m ++ [str "*"]) = false).
    { destruct A' as (H1 & H2). destruct (H2 m ltac:(lia)) as (X & _). rewrite same_wild in X by lia. exact X. }
    split; [reflexivity|]. split; [exact Wm|]. split; [exact R|]. split; [exact N|].
    destruct (walk_at_end labs [] m) as (k & Ek); auto.
    + cbn [length]. lia.
    + apply A'.
    + exists k. exact Ek.
Qed.

Lemma seen_same : empty_seen (rule :: rules) labs -> empty_seen rules labs
  \/ exists k j, walk rules [] labs = (Some k, S j) /\ nth (S j) labs [] = [].
Proof.
  intros (i & Hl & Hi & Hn). destruct (looked_less _ Hl) as [L|(j & -> & L & R & N)]; [left; exists i; auto|]. right.
  assert (Wm : known rules (reach labs j ++ [str "*"]) = false).
  { destruct Hl as (H1 & H2). destruct (H2 j ltac:(lia)) as (X & _). rewrite same_wild in X by lia. exact X. }
  destruct (walk_at_end labs [] j) as (k & Ek); auto.
  - cbn [length]. lia.
  - lia.
  - exists k, j. split; [exact Ek|exact Hn].
Qed.

Lemma seen_more : empty_seen rules labs -> empty_seen (rule :: rules) labs.
Proof. intros (i & A & B). exists i. split; [apply looked_more; exact A|exact B]. Qed.
End Local.

Lemma last_total : forall rules first segs, ~ empty_seen rules (labels first segs) -> exists m, last_looked rules (labels first segs) m.
Proof.
  intros rules first segs N. destruct (build_trie_spec rules) as (t & B & _). pose proof (build_trie_represents _ _ B) as R.
  pose proof (counts_looked t rules first segs R) as K. destruct (cwalk t false 0 0 0 (labels first segs)) as [c|]; [|contradiction].
  exists (c_prev c). apply K.
Qed.

(** The text that is checked. *)
Lemma checked_same : forall rules rule p first zs segs text, new_part rules rule p -> ~ concerned p (labels first segs) ->
  ~ empty_seen rules (labels first segs) -> ~ empty_seen (rule :: rules) (labels first segs) ->
  (checked (rule :: rules) first zs segs text <-> checked rules first zs segs text).
Proof.
  intros rules rule p first zs segs text P C N N'. set (labs := labels first segs) in *.
  destruct (last_total _ _ _ N) as (m & M). destruct (last_total _ _ _ N') as (m' & M'). fold labs in M, M'.
  assert (Tx : forall r l x, last_looked r labs l -> (checked r first zs segs x <->
    match walk r [] labs with
    | (Some _, n) => if (n <=? length segs)%nat then
        x = host first (skipn (if known r (reach labs l ++ [str "*"]) then l else if known r (reach labs (S l)) then S l else l) segs)
      else x = host first (zs ++ segs)
    | (None, _) => x = host first (skipn l segs)
    end)).
  { intros r l x L. unfold checked. fold labs. split.
    - intros (l' & L' & X). rewrite (last_unique _ _ _ _ L L'). exact X.
    - intros X. exists l. auto. }
  rewrite (Tx _ m' _ M'), (Tx _ m _ M), (walk_same rules rule p P labs C).
  assert (Hm : (m < length labs)%nat) by apply M. assert (Hm' : (m' < length labs)%nat) by apply M'.
  destruct (last_cases rules rule p P labs C m m' M M') as [->|(-> & Wm & R & Nk & k & Ek)].
  - rewrite (same_wild rules rule p P labs C m Hm), (same_known rules rule p P labs C (S m)) by lia. reflexivity.
  - rewrite Ek, (same_wild rules rule p P labs C (S m) Hm'), Nk, Wm.
    assert (Km : known rules (reach labs (S m)) = true) by (apply rule_known; exact R). rewrite Km.
    assert (K2 : known (rule :: rules) (reach labs (S (S m))) = false).
    { rewrite (same_known rules rule p P labs C) by lia. rewrite (reach_next labs (S m)) by lia. apply Nk. }
    rewrite K2. reflexivity.
Qed.

(** An IPv4 address is read no further than its last number unless a rule ends in it. *)
Lemma ipv4_zero : forall rules h first zs segs, no_numeric_tld rules -> ipv4_text h -> labelled h first zs segs ->
  ~ looked_at rules (labels first segs) 1.
Proof.
  intros rules h first zs segs Nn V L X. destruct V as (x & w & -> & (a & s1 & b & s2 & c & s3 & d & -> & Ha & Hb & Hc & Hd & H1 & H2 & H3) & Hw).
  destruct (ipv4_stripped _ a s1 b s2 c s3 d w eq_refl) as (zs' & S); try assumption.
  destruct (stripped_unique _ _ _ _ _ _ _ L S) as (-> & -> & ->). destruct X as (_ & X). destruct (X 0%nat) as (_ & k & K); [lia|].
  unfold reach, labels in K. cbn [map fst app firstn] in K. rewrite decoded_unescaped, digits_decoded in K by (apply Hd).
  rewrite (Nn d k Hd) in K. discriminate.
Qed.

Lemma last_looked_zero : forall rules labs, labs <> [] -> ~ looked_at rules labs 1 -> last_looked rules labs 0.
Proof.
  intros rules labs N X. split; [|exact X]. split; [destruct labs; [contradiction|cbn; lia]|]. intros j Hj. lia.
Qed.

Lemma numeric_incl : forall rules rules', incl rules rules' -> no_numeric_tld rules' -> no_numeric_tld rules.
Proof.
  intros rules rules' I H d k O. specialize (H d k O). destruct (known rules [d; k]) eqn:K; [|reflexivity].
  apply known_iff in K as (rule & rest & Hi & E). rewrite <- H. symmetry. apply known_iff. exists rule, rest. auto.
Qed.

Lemma host_same : forall rules rule p ignore sc us po pa first zs segs r e, new_part rules rule p -> ~ concerned p (labels first segs) ->
  labelled (host first (zs ++ segs)) first zs segs -> r_host_type r <> HIPv4 \/ no_numeric_tld (rule :: rules) -> e = None ->
  (host_says (rule :: rules) ignore sc us po pa first zs segs r e <-> host_says rules ignore sc us po pa first zs segs r e).
Proof.
  intros rules rule p ignore sc us po pa first zs segs r e P C L4 T En.
  pose proof (walk_same rules rule p P _ C) as Ws.
  assert (Z : ipv4_text (host first (zs ++ segs)) -> no_numeric_tld (rule :: rules) -> forall rules', incl rules' (rule :: rules) ->
    last_looked rules' (labels first segs) 0).
  { intros V Nn rules' I. apply last_looked_zero; [unfold labels; destruct (map fst segs); discriminate|].
    eapply ipv4_zero; eauto. eapply numeric_incl; eauto. }
  assert (Z0 : forall m rules', incl rules' (rule :: rules) -> ipv4_text (host first (zs ++ segs)) -> no_numeric_tld (rule :: rules) ->
    last_looked rules' (labels first segs) m -> m = 0%nat).
  { intros m rules' I V Nn M. destruct m as [|m]; [reflexivity|]. exfalso. apply (proj2 (Z V Nn rules' I)).
    apply (looked_le _ _ (S m)); [apply M|lia]. }
  assert (I1 : incl rules (rule :: rules)) by (intros y Hy; right; exact Hy).
  assert (I2 : incl (rule :: rules) (rule :: rules)) by (intros y Hy; exact Hy).
  split; intros H.
  - destruct H as [m V L|V Em|text V Em Ch Bt|text n dom sub V Em Ch Bt Wk Hd Hs|text k n dom sub sfx V Em Ch Bt Wk Hn Hd Hf Hs|text k n V Em Ch Bt Wk Hn];
      try discriminate En; [destruct T as [T|Nn]; [contradiction T; reflexivity|]; rewrite (Z0 m _ I2 V Nn L); apply hs_ipv4; auto| |];
      (assert (N : ~ empty_seen rules (labels first segs)) by (intros X; apply Em; apply (seen_more rules rule p P _ C); exact X)); rewrite Ws in Wk.
    + eapply hs_no_suffix; eauto. apply (checked_same rules rule p); eauto.
    + eapply hs_suffix; eauto. apply (checked_same rules rule p); eauto.
  - destruct H as [m V L|V Em|text V Em Ch Bt|text n dom sub V Em Ch Bt Wk Hd Hs|text k n dom sub sfx V Em Ch Bt Wk Hn Hd Hf Hs|text k n V Em Ch Bt Wk Hn];
      try discriminate En; [destruct T as [T|Nn]; [contradiction T; reflexivity|]; rewrite (Z0 m _ I1 V Nn L); apply hs_ipv4; auto| |].
    + assert (N : ~ empty_seen (rule :: rules) (labels first segs)).
      { intros X. apply (seen_same rules rule p P _ C) in X as [X|(k & j & X & _)]; [contradiction|congruence]. }
      rewrite <- Ws in Wk. eapply hs_no_suffix; eauto. apply (checked_same rules rule p); eauto.
    + assert (N : ~ empty_seen (rule :: rules) (labels first segs)).
      { intros X. apply (seen_same rules rule p P _ C) in X as [X|(k' & j & X & Y)]; [contradiction|].
        rewrite Wk in X. injection X as -> ->. rewrite Hd, Y in En. discriminate En. }
      rewrite <- Ws in Wk. eapply hs_suffix; eauto. apply (checked_same rules rule p); eauto.
Qed.

Lemma labelled_host : forall h first zs segs, labelled h first zs segs -> labelled (host first (zs ++ segs)) first zs segs.
Proof. intros h first zs segs L. pose proof L as (E & _). rewrite <- E. exact L. Qed.

Lemma c93 : forall ext rules rule t t' p r new, build_trie rules = Ret t -> build_trie (rule :: rules) = Ret t' ->
  new_part rules rule new ->
  (forall scheme user raw h port path first zs segs, url_parts ext p scheme user raw h port path -> labelled h first zs segs ->
     ~ concerned new (labels first segs)) ->
  r_host_type r <> HIPv4 \/ no_numeric_tld (rule :: rules) ->
  (extract ext t' p = Ret (r, None) <-> extract ext t p = Ret (r, None)).
Proof.
  intros ext rules rule t t' p r new B B' P C T. rewrite (c67 _ _ _ _ _ _ B), (c67 _ _ _ _ _ _ B').
  split; intros H; inversion H; subst; try (eapply ex_ipv6; eassumption).
  - eapply ex_host; eauto. apply (host_same rules rule new); eauto. eapply labelled_host; eassumption.
  - eapply ex_host; eauto. apply (host_same rules rule new); eauto. eapply labelled_host; eassumption.
Qed.

Lemma new_part_total : forall rules rule, exists p, new_part rules rule p.
Proof.
  intros rules rule.
  assert (G : forall rest q, rule_path rule = q ++ rest -> rest <> [] -> q = [] \/ known rules q = true -> exists p, new_part rules rule p).
  { induction rest as [|x rest IH]; intros q E N K; [contradiction|]. 
    assert (Last : forall q' x', q ++ [x] = q' ++ [x'] -> q' = [] \/ known rules q' = true).
    { intros q' x' X. apply app_inj_tail in X as [<- _]. exact K. }
    assert (E' : rule_path rule = (q ++ [x]) ++ rest) by (rewrite E, <- app_assoc; reflexivity).
    destruct (known rules (q ++ [x])) eqn:Kx.
    - destruct rest as [|y rest].
      + exists (q ++ [x]). split; [destruct q; discriminate|]. split; [eauto|]. split; [left; rewrite E', app_nil_r; reflexivity|exact Last].
      + apply (IH (q ++ [x]) E'); [discriminate|auto].
    - exists (q ++ [x]). split; [destruct q; discriminate|]. split; [eauto|]. split; [auto|exact Last]. }
  apply (G (rule_path rule) []); [reflexivity|apply rule_path_nonempty|auto].
Qed.

Lemma new_part_unique : forall rules rule p p', new_part rules rule p -> new_part rules rule p' -> p = p'.
Proof.
  assert (G : forall rules rule p p', new_part rules rule p -> new_part rules rule p' -> exists x, p = p' ++ x).
  { intros rules rule p p' P P'. pose proof P as (N & (rest & E) & D & _). destruct D as [D|D]; [|exact (fresh _ _ _ P' _ _ E N D)].
    destruct P' as (_ & (rest' & E') & _). rewrite D. eauto. }
  intros rules rule p p' P P'. destruct (G _ _ _ _ P P') as (x & X), (G _ _ _ _ P' P) as (y & Y).
  rewrite X in Y. rewrite <- app_assoc in Y. apply (f_equal (@length _)) in Y. rewrite app_length in Y. 
  destruct x as [|a x]; [rewrite app_nil_r in X; exact X|]. cbn [app length] in Y. lia.
Qed.

Lemma new_part_one : forall rules rule, exists p, new_part rules rule p /\ forall p', new_part rules rule p' -> p' = p.
Proof.
  intros rules rule. destruct (new_part_total rules rule) as (p & P). exists p. split; [exact P|].
  intros p' P'. exact (new_part_unique _ _ _ _ P' P).
Qed.

(** A rule that is attached to the list is its own new part. *)
Lemma new_part_whole : forall rules rule above k, rule_path rule = above ++ [k] -> above = [] \/ known rules above = true ->
  new_part rules rule (rule_path rule).
Proof.
  intros rules rule above k E K. split; [apply rule_path_nonempty|]. split; [exists []; rewrite app_nil_r; reflexivity|].
  split; [auto|]. intros q x X. rewrite E in X. apply app_inj_tail in X as [<- _]. exact K.
Qed.

(** ** Several rules *)

Lemma known_incl : forall rules rules' p, incl rules rules' -> known rules p = true -> known rules' p = true.
Proof. intros rules rules' p I H. apply known_iff in H as (r & rest & Hi & E). apply known_iff. exists r, rest. split; [apply I; exact Hi|exact E]. Qed.

Lemma new_part_more : forall rules rules' rule p p', incl rules rules' -> new_part rules rule p -> new_part rules' rule p' ->
  exists x, p' = p ++ x.
Proof.
  intros rules rules' rule p p' I P (N & (rest & E) & D & _). destruct D as [D|D].
  - destruct P as (_ & (rest' & E') & _). rewrite D. eauto.
  - apply (fresh _ _ _ P _ _ E N). destruct (known rules p') eqn:K; [|reflexivity]. rewrite (known_incl _ _ _ I K) in D. discriminate.
Qed.

Lemma matches_begin : forall (a b labs : list bytes), Forall2 label_matches (a ++ b) labs -> exists top rest, labs = top ++ rest /\ Forall2 label_matches a top.
Proof. intros a b labs H. apply Forall2_app_inv_l in H as (top & rest & A & _ & ->). eauto. Qed.

Lemma concerned_longer : forall p x labs, p <> [] -> concerned (p ++ x) labs -> concerned p labs.
Proof.
  intros p x labs N [(top & rest & E & F)|[(above & l & top & rest & E & El & F)|(t & E & El)]].
  - left. apply matches_begin in F as (a & b & -> & F). exists a, (b ++ rest). rewrite app_assoc. auto.
  - destruct x as [|k x] using rev_ind.
    + rewrite app_nil_r in E. right. left. exists above, l, top, rest. auto.
    + rewrite app_assoc in E. apply app_inj_tail in E as [<- _]. left. apply matches_begin in F as (a & b & Ea & F).
      exists a, (b ++ map decoded (l :: rest)). split; [|exact F]. rewrite El.
      apply (eq_trans (map_app decoded top (l :: rest))). rewrite app_assoc. exact (f_equal (fun z => z ++ map decoded (l :: rest)) Ea).
  - destruct p as [|a [|b [|c p]]]; [contradiction| | |discriminate].
    + injection E as -> _. left. exists [t], []. split; [exact El|]. constructor; [right; reflexivity|constructor].
    + injection E as -> -> _. right. right. exists t. auto.
Qed.

Lemma c93_more : forall ext p r new rules t t', r_host_type r <> HIPv4 \/ no_numeric_tld (new ++ rules) -> build_trie rules = Ret t -> build_trie (new ++ rules) = Ret t' ->
  (forall rule part scheme user raw h port path first zs segs, In rule new -> new_part rules rule part ->
     url_parts ext p scheme user raw h port path -> labelled h first zs segs -> ~ concerned part (labels first segs)) ->
  (extract ext t' p = Ret (r, None) <-> extract ext t p = Ret (r, None)).
Proof.
  intros ext p r new. induction new as [|rule new IH]; intros rules t t' T B B' C.
  - cbn [app] in B'. rewrite B in B'. injection B' as <-. reflexivity.
  - cbn [app] in B'. destruct (build_trie_spec (new ++ rules)) as (t1 & B1 & _).
    assert (T1 : r_host_type r <> HIPv4 \/ no_numeric_tld (new ++ rules)).
    { destruct T as [T|T]; [left; exact T|right]. eapply numeric_incl; [|exact T]. intros y Hy. right. exact Hy. }
    rewrite <- (IH rules t t1 T1 B B1). 2:{ intros. eapply C; eauto. right. exact H. }
    destruct (new_part_total (new ++ rules) rule) as (part & P).
    apply (c93 ext (new ++ rules) rule t1 t' p r part B1 B' P); [|exact T].
    intros scheme user raw h port path first zs segs U L X. destruct (new_part_total rules rule) as (part0 & P0).
    assert (I : incl rules (new ++ rules)) by (intros y Hy; apply in_or_app; auto).
    destruct (new_part_more _ _ _ _ _ I P0 P) as (x & ->). apply concerned_longer in X; [|apply P0].
    exact (C rule part0 _ _ _ _ _ _ _ _ _ (or_introl eq_refl) P0 U L X).
Qed.

Lemma c93_lists : forall ext p r rules rules' t t', build_trie rules = Ret t -> build_trie rules' = Ret t' -> incl rules rules' ->
  (forall rule part scheme user raw h port path first zs segs, In rule rules' -> ~ In rule rules -> new_part rules rule part ->
     url_parts ext p scheme user raw h port path -> labelled h first zs segs -> ~ concerned part (labels first segs)) ->
  r_host_type r <> HIPv4 \/ no_numeric_tld rules' ->
  (extract ext t' p = Ret (r, None) <-> extract ext t p = Ret (r, None)).
Proof.
  intros ext p r rules rules' t t' B B' I C T.
  set (new := filter (fun x => negb (existsb (bytes_eqb x) rules)) rules').
  assert (M : forall x, existsb (bytes_eqb x) rules = true <-> In x rules).
  { intros x. rewrite existsb_exists. split; [intros (y & Hy & E); apply bytes_eqb_eq in E; subst; exact Hy|].
    intros Hx. exists x. split; [exact Hx|apply bytes_eqb_refl]. }
  destruct (build_trie_spec (new ++ rules)) as (t1 & B1 & _).
  assert (S : extract ext t' p = extract ext t1 p).
  { apply (c29 ext rules' (new ++ rules) t' t1 p); auto. intros x. rewrite in_app_iff. unfold new. rewrite filter_In, negb_true_iff.
    split.
    - intros Hx. destruct (existsb (bytes_eqb x) rules) eqn:E; [right; apply M; exact E|left; auto].
    - intros [(Hx & _)|Hx]; [exact Hx|apply I; exact Hx]. }
  assert (T1 : r_host_type r <> HIPv4 \/ no_numeric_tld (new ++ rules)).
  { destruct T as [T|T]; [left; exact T|right]. eapply numeric_incl; [|exact T]. intros y Hy. apply in_app_iff in Hy as [Hy|Hy]; [|auto].
    unfold new in Hy. apply filter_In in Hy. apply Hy. }
  rewrite S. apply (c93_more ext p r new rules t t1 T1 B B1). intros rule part sc us raw h po pa first zs segs Hi. unfold new in Hi.
  apply filter_In in Hi as (Hi & E). apply C; [exact Hi|]. intros X. apply M in X. rewrite X in E. discriminate.
Qed.

(** With the labels of the host. *)
Lemma c93_rule : forall ext rules rule t t' p r new, build_trie rules = Ret t -> build_trie (rule :: rules) = Ret t' ->
  new_part rules rule new -> (forall labs, host_labels ext p labs -> ~ concerned new labs) ->
  r_host_type r <> HIPv4 \/ no_numeric_tld (rule :: rules) ->
  (extract ext t' p = Ret (r, None) <-> extract ext t p = Ret (r, None)).
Proof.
  intros ext rules rule t t' p r new B B' P C T. apply (c93 ext rules rule t t' p r new B B' P); [|exact T].
  intros sc us raw h po pa first zs segs U L. apply C. do 9 eexists. eauto.
Qed.

Lemma c93_more_rules : forall ext rules rules' t t' p r, build_trie rules = Ret t -> build_trie rules' = Ret t' -> incl rules rules' ->
  (forall rule part labs, In rule rules' -> ~ In rule rules -> new_part rules rule part -> host_labels ext p labs -> ~ concerned part labs) ->
  r_host_type r <> HIPv4 \/ no_numeric_tld rules' ->
  (extract ext t' p = Ret (r, None) <-> extract ext t p = Ret (r, None)).
Proof.
  intros ext rules rules' t t' p r B B' I C T. apply (c93_lists ext p r rules rules' t t' B B' I); [|exact T].
  intros rule part sc us raw h po pa first zs segs Hi Hn P U L. apply (C rule part); auto. do 9 eexists. eauto.
Qed.

(** ** C94 *)

Lemma known_false_app : forall rules p q, known rules p = false -> known rules (p ++ q) = false.
Proof.
  intros rules p q H. destruct (known rules (p ++ q)) eqn:K; [|reflexivity]. apply known_prefix in K. congruence.
Qed.

Lemma c94_lists : forall ext rules rules' t t' p r, build_trie rules = Ret t -> build_trie rules' = Ret t' -> incl rules rules' ->
  (forall rule labs, In rule rules' -> ~ In rule rules -> host_labels ext p labs -> ~ concerned (rule_path rule) labs) ->
  (forall base labs, known rules base = false -> gap rules' base \/ known rules' (base ++ [str "*"]) = true -> host_labels ext p labs ->
     ~ concerned base labs) ->
  r_host_type r <> HIPv4 \/ no_numeric_tld rules' ->
  (extract ext t' p = Ret (r, None) <-> extract ext t p = Ret (r, None)).
Proof.
  intros ext rules rules' t t' p r B B' I A G T. apply (c93_more_rules ext rules rules'); auto.
  intros rule part labs Hi Hn (N & (rest & E) & D & _) L. destruct D as [->|K]; [eapply A; eauto|].
  assert (K' : known rules' part = true) by (apply known_iff; exists rule, rest; auto).
  destruct (is_rule rules' part) eqn:R.
  - apply is_rule_iff in R as (rule2 & Hi2 & <-). apply (A rule2); auto. intros X.
    apply not_true_iff_false in K. apply K. apply known_iff. exists rule2, []. rewrite app_nil_r. auto.
  - apply (G part labs K); [|exact L]. destruct (known rules' (part ++ [str "*"])) eqn:W; [auto|]. left.
    split; [exact N|]. auto.
Qed.
