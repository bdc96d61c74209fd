(** PslProofs.v - the suffix agrees with the algorithm of publicsuffix.org on regular lists. *)

From Verif Require Import Base BaseFacts Utf8 Utf8Facts Chars Str StrFacts Net Trie Extract Host HostFacts
  Walk WalkFacts Addr NetFacts Parse ParseFacts UrlSpec UrlFacts ExtractFacts OutcomeFacts Rfc UrlProofs CharProofs
  RuleSpec TrieFacts RuleProofs.
From Coq Require Import ZifyBool ZifyNat ZifyN.

Lemma known_prefix : forall rules (p q : list bytes), known rules (p ++ q) = true -> known rules p = true.
Proof.
  intros rules p q H. apply known_iff in H as (rule & rest & A & E). apply known_iff.
  exists rule, (q ++ rest). split; [exact A|]. rewrite E, <- app_assoc. reflexivity.
Qed.
Lemma known_rule : forall rules rule (p rest : list bytes), In rule rules -> rule_path rule = p ++ rest -> known rules p = true.
Proof. intros rules rule p rest A E. apply known_iff. eauto. Qed.

Lemma decoded_plain : forall l, ~ In 37%N l -> ~ In 43%N l -> decoded l = l.
Proof.
  intros l A B. unfold decoded. assert (X : pct l = Some l); [|rewrite X; reflexivity].
  induction l as [|b l IH]; [reflexivity|]. cbn [pct].
  destruct (N.eqb_spec b 37); [exfalso; apply A; left; auto|]. destruct (N.eqb_spec b 43); [exfalso; apply B; left; auto|].
  rewrite IH; [reflexivity| |]; intros H; [apply A|apply B]; right; exact H.
Qed.

(** Two prefixes of a list. *)
Lemma prefixes : forall A (a b x y : list A), a ++ x = b ++ y ->
  (exists c d, a = b ++ c :: d) \/ a = b \/ (exists c d, b = a ++ c :: d).
Proof.
  intros A a b x y H. destruct (app_split _ _ _ _ _ H) as [(m & -> & _)|(m & N & -> & _)].
  - destruct m as [|c d]; [right; left; symmetry; apply app_nil_r|right; right; eauto].
  - destruct m as [|c d]; [contradiction|]. left; eauto.
Qed.

Section Match.
Variables (rules whole : list bytes).
Hypothesis R : regular rules whole.
Hypothesis P : Forall plain_label whole.

(** The beginning of a rule that matches is literally in the host up to the first wildcard. *)
Lemma match_literal : forall p top rest : list bytes, whole = top ++ rest -> Forall2 label_matches p top ->
  p = top \/ exists q p' l rest', whole = q ++ l :: rest' /\ p = q ++ str "*" :: p'.
Proof.
  intros p top rest Ew F.
  assert (X : forall pre, whole = pre ++ top ++ rest -> p = top \/
     exists q p' l rest', whole = (pre ++ q) ++ l :: rest' /\ p = q ++ str "*" :: p').
  { clear Ew. induction F as [|k l p top Hk F IH]; intros pre Ew; [auto|].
    destruct Hk as [->| ->].
    - right. exists [], p, l, (top ++ rest). rewrite app_nil_r. auto.
    - destruct (IH (pre ++ [l])) as [->|(q & p' & l' & rest' & Eq & ->)].
      + rewrite <- app_assoc. exact Ew.
      + auto.
      + right. exists (l :: q), p', l', rest'. split; [|reflexivity]. rewrite Eq. rewrite <- !app_assoc. reflexivity. }
  destruct (X [] Ew) as [->|(q & p' & l & rest' & Eq & ->)]; [auto|]. right. exists q, p', l, rest'. auto.
Qed.

(** No rule goes on below a label of the host that is beside a wildcard. *)
Lemma below_wildcard : forall (path : list bytes) (l : bytes) (rest : list bytes) rule (q : list bytes), whole = path ++ l :: rest -> known rules (path ++ [str "*"]) = true ->
  In rule rules -> rule_path rule = path ++ l :: q -> q <> [] -> False.
Proof. intros path l rest rule q Ew K Hr E N. apply N. eapply (reg_wild _ _ R _ _ _ _ _ _ Ew K Hr E); auto. Qed.

(** An exception rule that matches is beside a wildcard, at a literal path of the host. *)
Lemma exception_literal : forall rule, In rule rules -> exception_matches (rule_path rule) whole ->
  exists above k rest, whole = above ++ k :: rest /\ rule_path rule = above ++ [str "!" ++ k]
    /\ known rules (above ++ [str "*"]) = true.
Proof.
  intros rule Hr (above & k & top & rest & E & Ew & F).
  destruct (match_literal above top (k :: rest) Ew F) as [->|(q & p' & l & rest' & Eq & ->)].
  - exists top, k, rest. split; [exact Ew|]. split; [exact E|]. apply (reg_exc _ _ R _ _ _ Ew).
    apply (known_rule _ rule _ []); [exact Hr|]. rewrite app_nil_r. exact E.
  - exfalso. rewrite <- app_assoc in E. cbn [app] in E.
    assert (K : known rules (q ++ [str "*"]) = true).
    { apply (known_rule _ rule _ (p' ++ [str "!" ++ k])); [exact Hr|]. rewrite <- app_assoc. exact E. }
    pose proof (reg_wild _ _ R _ _ _ _ _ _ Eq K Hr E (or_introl eq_refl)) as X. destruct p'; discriminate.
Qed.

(** The first wildcard along the host. *)
Definition no_wildcard_above (path : list bytes) : Prop :=
  forall q x y, path = q ++ x :: y -> known rules (q ++ [str "*"]) = false.

Lemma walk_psl : forall (labs path : list bytes) e n, whole = path ++ labs -> no_wildcard_above path ->
  (path = [] \/ known rules path = true) -> walk rules path labs = (e, n) -> n < length labs ->
  psl_suffix rules whole (length path + n).
Proof.
  induction labs as [|l more IH]; intros path e n Ew W K Hw Hn; [cbn [length] in Hn; lia|].
  cbn [walk] in Hw. destruct (known rules (path ++ [str "*"])) eqn:Kw.
  - destruct (known rules (path ++ [str "!" ++ l])) eqn:Ke; injection Hw as <- <-.
    + (* exception *)
      left. apply known_iff in Ke as (rule & q & Hr & E). rewrite <- app_assoc in E. cbn [app] in E.
      pose proof (reg_wild _ _ R _ _ _ _ _ _ Ew Kw Hr E (or_intror (or_intror eq_refl))) as Q. subst q. exists rule. split; [exact Hr|]. split.
      * exists path, l, path, more. split; [exact E|]. split; [exact Ew|].
        clear. induction path; constructor; [right; reflexivity|assumption].
      * rewrite E, app_length. cbn [length]. lia.
    + (* wildcard *)
      right. split.
      * intros rule Hr X. destruct (exception_literal rule Hr X) as (above & k & rest & Ea & E & Ka).
        rewrite Ea in Ew. destruct (prefixes _ _ _ _ _ Ew) as [(c & d & Ec)|[->|(c & d & Ec)]].
        -- subst above. rewrite <- app_assoc in E, Ea. cbn [app] in E, Ea.
           eapply (below_wildcard path c _ rule _ Ea Kw Hr E). destruct d; discriminate.
        -- apply app_inv_head in Ew. injection Ew as -> _.
           assert (known rules (path ++ [str "!" ++ l]) = true); [|congruence].
           apply (known_rule _ rule _ []); [exact Hr|]. rewrite app_nil_r. exact E.
        -- rewrite (W _ _ _ Ec) in Ka. discriminate.
      * left. apply known_iff in Kw as (rule & q & Hr & E). rewrite <- app_assoc in E. cbn [app] in E.
        assert (Kw : known rules (path ++ [str "*"]) = true).
        { apply (known_rule _ rule _ q); [exact Hr|]. rewrite <- app_assoc. exact E. }
        pose proof (reg_wild _ _ R _ _ _ _ _ _ Ew Kw Hr E (or_introl eq_refl)) as Q. subst q. exists rule. split; [exact Hr|].
        split; [|split; [|split]].
        -- intros (above & k & X). rewrite E in X. apply app_inj_tail in X as [_ X]. discriminate.
        -- exists (path ++ [l]), more. split; [rewrite <- app_assoc; exact Ew|]. rewrite E.
           apply Forall2_app; [|repeat constructor].
           clear. induction path; constructor; [right; reflexivity|assumption].
        -- rewrite E, app_length. reflexivity.
        -- intros rule' Hr' _ (top & rest & Et & F).
           destruct (match_literal _ _ _ Et F) as [Ep|(q & p' & l' & rest' & Eq & Ep)].
           ++ rewrite Ep. destruct (Nat.le_gt_cases (length top) (length path + 1)) as [|G]; [assumption|]. exfalso.
              rewrite Et in Ew. destruct (prefixes _ _ _ _ _ Ew) as [(c & d & ->)|[->|(c & d & ->)]].
              ** rewrite <- app_assoc in Et. cbn [app] in Et. eapply (below_wildcard path c _ rule' d Et Kw Hr' Ep). intros ->. rewrite app_length in G. cbn [length] in G. lia.
              ** lia.
              ** rewrite app_length in G. lia.
           ++ assert (Kq : known rules (q ++ [str "*"]) = true).
              { apply (known_rule _ rule' _ p'); [exact Hr'|]. rewrite <- app_assoc. exact Ep. }
              pose proof (reg_wild _ _ R _ _ _ _ _ _ Eq Kq Hr' Ep (or_introl eq_refl)) as Q. subst p'. rewrite Ep, app_length. cbn [length].
              rewrite Eq in Ew. destruct (prefixes _ _ _ _ _ Ew) as [(c & d & ->)|[->|(c & d & ->)]].
              ** exfalso. rewrite <- app_assoc in Eq, Ep. cbn [app] in Eq, Ep.
                 eapply (below_wildcard path c _ rule' _ Eq Kw Hr' Ep). destruct d; discriminate.
              ** lia.
              ** rewrite app_length. lia.
  - assert (Pl : plain_label l) by (rewrite Forall_forall in P; apply P; rewrite Ew; apply in_or_app; right; left; reflexivity).
    rewrite decoded_plain in Hw by apply Pl.
    destruct (known rules (path ++ [l])) eqn:Kl.
    + destruct (walk rules (path ++ [l]) more) as [e' n'] eqn:Hw'. injection Hw as <- <-. cbn [length] in Hn.
      replace (length path + S n') with (length (path ++ [l]) + n') by (rewrite app_length; cbn [length]; lia).
      eapply IH; [rewrite <- app_assoc; exact Ew| |right; exact Kl|exact Hw'|lia].
      intros q x y Eq. destruct y as [|y0 y] using rev_ind.
      * apply app_inj_tail in Eq as [-> _]. exact Kw.
      * clear IHy. change (q ++ x :: y ++ [y0]) with (q ++ (x :: y) ++ [y0]) in Eq. rewrite app_assoc in Eq.
        apply app_inj_tail in Eq as [-> _]. eapply W. reflexivity.
    + injection Hw as <- <-. rewrite Nat.add_0_r. right.
      (* literal paths of the host that begin rules are not longer than [path] *)
      assert (Lit : forall q x rest, whole = q ++ rest -> known rules q = true -> q <> path ++ l :: x).
      { intros q x rest _ Kq ->. change (l :: x) with ([l] ++ x) in Kq. rewrite app_assoc in Kq.
        apply known_prefix in Kq. congruence. }
      assert (Short : forall q rest, whole = q ++ rest -> known rules q = true ->
                q = path \/ exists c d, path = q ++ c :: d).
      { intros q rest Eq Kq. pose proof Eq as Eq'. rewrite Ew in Eq'. symmetry in Eq'.
        destruct (prefixes _ _ _ _ _ Eq') as [(c & d & Ec)|[H|H]]; [|left; exact H|right; exact H].
        exfalso. subst q. rewrite <- app_assoc in Eq'. apply app_inv_head in Eq'. cbn [app] in Eq'. injection Eq' as -> _.
        eapply Lit; eauto. }
      split.
      * intros rule Hr X. destruct (exception_literal rule Hr X) as (above & k & rest & Ea & E & Ka).
        destruct (Short above _ Ea (known_prefix _ _ _ Ka)) as [->|(c & d & Ec)]; [congruence|].
        rewrite (W _ _ _ Ec) in Ka. discriminate.
      * assert (M : forall rule, In rule rules -> rule_matches (rule_path rule) whole ->
            exists rest, path = rule_path rule ++ rest).
        { intros rule Hr (top & rest & Et & F).
          destruct (match_literal _ _ _ Et F) as [Ep|(q & p' & l' & rest' & Eq & Ep)].
          - destruct (Short top rest Et) as [->|(c & d & Ec)].
            + apply (known_rule _ rule _ []); [exact Hr|]. rewrite app_nil_r. exact Ep.
            + exists []. rewrite app_nil_r. symmetry. exact Ep.
            + exists (c :: d). rewrite Ep. exact Ec.
          - exfalso. assert (Kq : known rules (q ++ [str "*"]) = true).
            { apply (known_rule _ rule _ p'); [exact Hr|]. rewrite <- app_assoc. exact Ep. }
            destruct (Short q _ Eq (known_prefix _ _ _ Kq)) as [->|(c & d & Ec)]; [congruence|].
            rewrite (W _ _ _ Ec) in Kq. discriminate. }
        destruct path as [|x path].
        -- right. split; [reflexivity|]. intros rule Hr _ X. destruct (M rule Hr X) as (rest & Er).
           symmetry in Er. apply app_eq_nil in Er as [Er _]. apply rule_path_nonempty in Er. exact Er.
        -- left. destruct K as [K|K]; [discriminate|].
           pose proof (reg_dead _ _ R (x :: path) l more Ew ltac:(discriminate) K Kl Kw) as Ir.
           apply is_rule_iff in Ir as (rule & Hr & E). exists rule. split; [exact Hr|]. split; [|split; [|split]].
           ++ intros (above & k & X). rewrite E in X.
              assert (In (str "!" ++ k) whole).
              { rewrite Ew, X. apply in_or_app. left. apply in_or_app. right. left. reflexivity. }
              rewrite Forall_forall in P. destruct (P _ H) as (_ & _ & _ & N2). exact (N2 k eq_refl).
           ++ exists (x :: path), (l :: more). split; [exact Ew|]. rewrite E.
              clear. generalize (x :: path). intros y. induction y; constructor; [right; reflexivity|assumption].
           ++ rewrite E. reflexivity.
           ++ intros rule' Hr' _ X. destruct (M rule' Hr' X) as (rest & ->). rewrite app_length. lia.
Qed.

Lemma walk_first : forall e n, walk rules [] whole = (e, n) -> (n = 0 /\ e = None) \/ e = Some 0.
Proof.
  intros e n H. destruct whole as [|l more] eqn:Ew; cbn [walk] in H; [injection H as <- <-; auto|]. cbn [app] in H.
  rewrite (reg_top _ _ R) in H.
  assert (Pl : plain_label l) by (inversion P; assumption).
  rewrite decoded_plain in H by apply Pl. destruct (known rules [l]) eqn:K.
  - pose proof (reg_tld _ _ R l more eq_refl K) as S. destruct (walk rules [l] more) as [e' n'].
    rewrite S in H. injection H as <- <-. auto.
  - injection H as <- <-. auto.
Qed.
End Match.

Lemma c22 : forall ext rules t p r scheme user raw h port path first zs segs, build_trie rules = Ret t ->
  extract ext t p = Ret (r, None) -> r_host_type r = HHostName ->
  url_parts ext p scheme user raw h port path -> labelled h first zs segs ->
  Forall plain_label (labels first segs) -> regular rules (labels first segs) ->
  exists n, psl_suffix rules (labels first segs) n /\ (n <= length segs)
    /\ r_suffix r = labels_text (firstn n segs) /\ r_domain r = nth n (labels first segs) [].
Proof.
  intros ext rules t p r sc us raw h po pa first zs segs B H T U L P R.
  destruct (c21_at _ _ _ _ _ _ _ _ _ _ _ _ _ _ B H T U L) as (sub & Rep & _). unfold reported in Rep.
  destruct (walk rules [] (labels first segs)) as [e n] eqn:W.
  assert (N : n <= length segs).
  { destruct e as [k|]; [lia|]. destruct (walk_first _ _ R P _ _ W) as [(-> & _)|X]; [lia|discriminate]. }
  exists n. split.
  - change n with (@length bytes [] + n). eapply walk_psl; eauto; [reflexivity| |].
    + intros q x y E. destruct q; discriminate.
    + rewrite labels_length. lia.
  - split; [exact N|]. destruct (walk_first _ _ R P _ _ W) as [(-> & ->)| ->].
    + destruct Rep as (A & C & _). split; [exact A|exact C].
    + destruct Rep as (_ & A & C & _). rewrite Nat.sub_0_r in A. split; [exact A|exact C].
Qed.

(** ** Lists that are regular for every host *)

Lemma regular_list_at : forall rules rule path rest, regular_list rules = true -> In rule rules ->
  rule_path rule = path ++ rest ->
  (path <> [] -> is_rule rules path = true \/ known rules (path ++ [str "*"]) = true)
  /\ forall k q, rest = k :: q ->
     if known rules (path ++ [str "*"]) then q = [] /\ (k = str "*" \/ exists x, k = str "!" ++ x)
     else forall x, k <> str "!" ++ x.
Proof.
  intros rules rule path rest R Hr E. unfold regular_list in R. apply andb_true_iff in R as [_ R].
  rewrite forallb_forall in R. specialize (R rule Hr). cbv zeta in R. apply andb_true_iff in R as [_ R].
  rewrite forallb_forall in R. specialize (R (length path)). rewrite E in R.
  rewrite firstn_app, Nat.sub_diag, firstn_O, app_nil_r, firstn_all in R.
  rewrite skipn_app, Nat.sub_diag, skipn_O, skipn_all in R. cbn [app] in R.
  apply andb_true_iff in R as [R1 R2]; [|apply in_seq; rewrite app_length; lia]. split.
  - intros N. apply orb_true_iff in R1 as [R1|R1]; [|auto]. apply orb_true_iff in R1 as [R1|R1]; [|auto].
    apply Nat.eqb_eq in R1. destruct path; [contradiction|discriminate].
  - intros k q ->. destruct (known rules (path ++ [str "*"])).
    + destruct q; [|discriminate]. split; [reflexivity|]. apply orb_true_iff in R2 as [R2|R2].
      * left. apply same_eq. exact R2.
      * right. destruct k as [|b k]; [discriminate|]. apply N.eqb_eq in R2. subst b. exists k. reflexivity.
    + intros x ->. discriminate.
Qed.

Lemma regular_list_sound : forall rules labs, regular_list rules = true -> regular rules labs.
Proof.
  intros rules labs R. constructor.
  - unfold regular_list in R. apply andb_true_iff in R as [R _]. apply negb_true_iff in R. exact R.
  - intros l more _ K. apply known_iff in K as (rule & rest & Hr & E).
    unfold regular_list in R. apply andb_true_iff in R as [_ R]. rewrite forallb_forall in R.
    specialize (R rule Hr). cbv zeta in R. apply andb_true_iff in R as [R _]. rewrite E in R. exact R.
  - intros path l more _ N K _ W. apply known_iff in K as (rule & rest & Hr & E).
    destruct (regular_list_at _ _ _ _ R Hr E) as [A _]. destruct (A N) as [A'|A']; [exact A'|congruence].
  - intros path l rest k q rule _ W Hr E _. destruct (regular_list_at _ _ _ _ R Hr E) as [_ A].
    specialize (A k q eq_refl). rewrite W in A. apply A.
  - intros path l rest _ K. apply known_iff in K as (rule & q & Hr & E). rewrite <- app_assoc in E.
    destruct (regular_list_at _ _ _ _ R Hr E) as [_ A]. specialize (A _ _ eq_refl).
    destruct (known rules (path ++ [str "*"])); [reflexivity|]. exfalso. exact (A l eq_refl).
Qed.

Lemma c22_list : forall ext rules t p r scheme user raw h port path first zs segs, build_trie rules = Ret t ->
  regular_list rules = true -> extract ext t p = Ret (r, None) -> r_host_type r = HHostName ->
  url_parts ext p scheme user raw h port path -> labelled h first zs segs ->
  Forall plain_label (labels first segs) ->
  exists n, psl_suffix rules (labels first segs) n /\ (n <= length segs)
    /\ r_suffix r = labels_text (firstn n segs) /\ r_domain r = nth n (labels first segs) [].
Proof. intros. eapply c22; eauto. apply regular_list_sound. assumption. Qed.

(** The algorithm has one answer on regular lists. *)
Lemma psl_unique : forall rules labs n n', regular rules labs ->
  psl_suffix rules labs n -> psl_suffix rules labs n' -> n = n'.
Proof.
  intros rules labs n n' R.
  assert (X : forall rule rule' n n', In rule rules -> In rule' rules ->
      exception_matches (rule_path rule) labs -> exception_matches (rule_path rule') labs ->
      length (rule_path rule) = S n -> length (rule_path rule') = S n' -> n <= n').
  { clear n n'. intros rule rule' n n' Hr Hr' M M' L L'.
    destruct (exception_literal _ _ R rule Hr M) as (a & k & rest & Ea & E & K).
    destruct (exception_literal _ _ R rule' Hr' M') as (a' & k' & rest' & Ea' & E' & K').
    rewrite E, app_length in L. rewrite E', app_length in L'. cbn [length] in *.
    pose proof Ea as Eb. rewrite Ea' in Eb. destruct (prefixes _ _ _ _ _ Eb) as [(c & d & ->)|[->|(c & d & ->)]].
    - rewrite app_length in L'. lia.
    - lia.
    - exfalso. rewrite <- app_assoc in Ea, E. cbn [app] in Ea, E. eapply (below_wildcard _ _ R a' c _ rule _ Ea K' Hr E). destruct d; discriminate. }
  intros [(rule & Hr & M & L)|(N & A)] [(rule' & Hr' & M' & L')|(N' & A')].
  - apply Nat.le_antisymm; [eapply (X rule rule')|eapply (X rule' rule)]; eauto.
  - exfalso. exact (N' rule Hr M).
  - exfalso. exact (N rule' Hr' M').
  - destruct A as [(rule & Hr & E & M & L & Mx)|(-> & A)], A' as [(rule' & Hr' & E' & M' & L' & Mx')|(-> & A')].
    + pose proof (Mx rule' Hr' E' M'). pose proof (Mx' rule Hr E M). lia.
    + exfalso. exact (A' rule Hr E M).
    + exfalso. exact (A rule' Hr' E' M').
    + reflexivity.
Qed.
