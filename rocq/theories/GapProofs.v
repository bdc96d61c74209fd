(** GapProofs.v - where a rule list is not regular, and what happens there. *)

From Verif Require Import Base BaseFacts Utf8 Utf8Facts Chars Str StrFacts Net Trie Extract Host HostFacts
  Walk WalkFacts Addr NetFacts Parse ParseFacts UrlSpec UrlFacts ExtractFacts OutcomeFacts Rfc UrlProofs CharProofs
  RuleSpec TrieFacts RuleProofs PslProofs.
From Coq Require Import ZifyBool ZifyNat ZifyN.

Lemma regular_unless : forall rules labs, known rules [str "*"] = false -> exceptions_ok rules ->
  (forall l more, labs = l :: more -> ~ gap rules [l]) -> ~ stops_in_gap rules labs ->
  (forall path k, hidden rules (path ++ [k]) -> plain_label k /\ forall rest, labs <> path ++ k :: rest) ->
  regular rules labs.
Proof.
  intros rules labs T X G S H. constructor.
  - exact T.
  - intros l more E K. apply not_false_is_true. intros N. apply (G l more E). unfold is_suffix in N.
    apply orb_false_iff in N as [N1 N2]. split; [discriminate|]. auto.
  - intros path l more E N K K' W. apply not_false_is_true. intros R. apply S. exists path, l, more.
    split; [exact E|]. split; [|exact K']. split; [exact N|]. auto.
  - intros path l rest k q rule E W Hr Er Hk. destruct q as [|x q]; [reflexivity|]. exfalso.
    assert (Hh : hidden rules (path ++ [k])).
    { exists path, k, x. split; [reflexivity|]. split; [exact W|]. apply (known_rule _ rule _ q); [exact Hr|].
      rewrite Er, <- !app_assoc. reflexivity. }
    destruct (H _ _ Hh) as ((_ & _ & N1 & N2) & N3). destruct Hk as [->|[->| ->]].
    + apply N1. reflexivity.
    + exact (N3 rest E).
    + exact (N2 l eq_refl).
  - intros path l rest _ K. exact (X path l K).
Qed.

(** At a gap of at least two labels the walk has consumed them all, and the algorithm has not. *)
Section Gap.
Variables (rules path : list bytes) (l : bytes) (more : list bytes).
Hypothesis G : gap rules path.
Hypothesis K : known rules (path ++ [l]) = false.
Hypothesis W : forall q x y, path = q ++ x :: y -> known rules (q ++ [str "*"]) = false.
Hypothesis P : Forall plain_label (path ++ l :: more).

(** No wildcard applies at the labels of the host that begin a rule, or further. *)
Lemma gap_wildcards : forall q y, path ++ l :: more = q ++ y -> known rules (q ++ [str "*"]) = false.
Proof.
  intros q y E. destruct (known rules (q ++ [str "*"])) eqn:Kq; [|reflexivity]. exfalso.
  destruct (prefixes _ _ _ _ _ E) as [(c & d & Ec)|[<-|(c & d & ->)]].
  - rewrite (W _ _ _ Ec) in Kq. discriminate.
  - destruct G as (_ & _ & _ & G4). congruence.
  - rewrite <- app_assoc in E. apply app_inv_head in E. cbn [app] in E. injection E as <- _.
    apply known_prefix in Kq. change (l :: d) with ([l] ++ d) in Kq. rewrite app_assoc in Kq. apply known_prefix in Kq. congruence.
Qed.

Lemma gap_walk : forall done rest, path = done ++ rest -> exists e, walk rules done (rest ++ l :: more) = (e, length rest).
Proof.
  intros done rest. revert done. induction rest as [|x rest IH]; intros done E.
  - rewrite app_nil_r in E. subst done. cbn [app walk]. destruct G as (_ & _ & _ & G4). rewrite G4.
    assert (Pl : plain_label l) by (rewrite Forall_forall in P; apply P; apply in_or_app; right; left; reflexivity).
    rewrite decoded_plain by apply Pl. rewrite K. eexists. reflexivity.
  - cbn [app walk]. rewrite (W _ _ _ E).
    assert (Px : plain_label x) by (rewrite Forall_forall in P; apply P; rewrite E; apply in_or_app; left; apply in_or_app; right; left; reflexivity).
    rewrite decoded_plain by apply Px.
    assert (Kx : known rules (done ++ [x]) = true).
    { apply (known_prefix _ _ rest). destruct G as (_ & G2 & _). rewrite <- app_assoc. cbn [app]. rewrite <- E. exact G2. }
    rewrite Kx. destruct (IH (done ++ [x])) as (e & ->); [rewrite <- app_assoc; exact E|]. eexists. reflexivity.
Qed.

Lemma gap_psl : exceptions_ok rules -> forall n, psl_suffix rules (path ++ l :: more) n -> n < length path.
Proof.
  intros X n [(rule & Hr & M & L)|(_ & [(rule & Hr & _ & M & L & _)|(-> & _)])].
  - exfalso. destruct M as (above & k & top & rest & E & Ew & F).
    destruct (match_literal _ above top (k :: rest) Ew F) as [->|(q & p' & l' & rest' & Eq & ->)].
    + assert (Kx : known rules (top ++ [str "!" ++ k]) = true).
      { apply (known_rule _ rule _ []); [exact Hr|]. rewrite app_nil_r. exact E. }
      pose proof (eq_trans (eq_sym (X top k Kx)) (gap_wildcards _ _ Ew)). discriminate.
    + assert (Kq : known rules (q ++ [str "*"]) = true).
      { apply (known_rule _ rule _ (p' ++ [str "!" ++ k])); [exact Hr|]. rewrite E, <- !app_assoc. reflexivity. }
      rewrite (gap_wildcards _ _ Eq) in Kq. discriminate.
  - destruct M as (top & rest & Et & F).
    destruct (match_literal _ _ _ _ Et F) as [Ep|(q & p' & l' & rest' & Eq & Ep)].
    + subst n. rewrite Ep. destruct (prefixes _ _ _ _ _ Et) as [(c & d & ->)|[<-|(c & d & ->)]].
      * rewrite app_length. cbn [length]. lia.
      * exfalso. destruct G as (_ & _ & G3 & _).
        assert (is_rule rules path = true) by (apply is_rule_iff; eauto). congruence.
      * exfalso. rewrite <- app_assoc in Et. apply app_inv_head in Et. cbn [app] in Et. injection Et as <- _.
        assert (Kl : known rules (path ++ [l]) = true) by (apply (known_rule _ rule _ d); [exact Hr|]; rewrite Ep, <- app_assoc; reflexivity).
        congruence.
    + exfalso. assert (Kq : known rules (q ++ [str "*"]) = true).
      { apply (known_rule _ rule _ p'); [exact Hr|]. rewrite Ep, <- app_assoc. reflexivity. }
      rewrite (gap_wildcards _ _ Eq) in Kq. discriminate.
  - destruct G as (G1 & _). destruct path; [contradiction|cbn [length]; lia].
Qed.
End Gap.

Lemma gap_first : forall rules l path rest, ~ gap rules [l] -> known rules (l :: path) = true -> known rules [str "*"] = false ->
  Forall plain_label (l :: path ++ rest) -> exists n, walk rules [] (l :: path ++ rest) = (Some 0, n).
Proof.
  intros rules l path rest G K T P. cbn [walk app]. rewrite T.
  assert (Pl : plain_label l) by (inversion P; assumption). rewrite decoded_plain by apply Pl.
  assert (Kl : known rules [l] = true) by (apply (known_prefix _ _ path); exact K). rewrite Kl.
  assert (S : is_suffix rules [l] = true).
  { apply not_false_is_true. intros N. apply G. unfold is_suffix in N. apply orb_false_iff in N as [N1 N2].
    split; [discriminate|]. auto. }
  rewrite S. destruct (walk rules [l] (path ++ rest)) as [e n]. eauto.
Qed.

(** What Extract reports at a gap. *)
Lemma extract_gap : forall ext rules t p r scheme user raw h port upath first zs segs path l more, build_trie rules = Ret t ->
  extract ext t p = Ret (r, None) -> r_host_type r = HHostName ->
  url_parts ext p scheme user raw h port upath -> labelled h first zs segs ->
  Forall plain_label (labels first segs) -> labels first segs = path ++ l :: more ->
  gap rules path -> known rules (path ++ [l]) = false ->
  known rules [str "*"] = false -> exceptions_ok rules ->
  (forall l0 more0, labels first segs = l0 :: more0 -> ~ gap rules [l0]) ->
  (forall q k, hidden rules (q ++ [k]) -> forall rest, labels first segs <> q ++ k :: rest) ->
  r_suffix r = labels_text (firstn (length path) segs) /\ r_domain r = nth (length path) (labels first segs) []
  /\ forall n, psl_suffix rules (labels first segs) n -> n < length path.
Proof.
  intros ext rules t p r sc us raw h po pa first zs segs path l more B H T U L P E G K Tw X Gt Hh.
  assert (W : forall q x y, path = q ++ x :: y -> known rules (q ++ [str "*"]) = false).
  { intros q x y Eq. destruct (known rules (q ++ [str "*"])) eqn:Kq; [|reflexivity]. exfalso.
    destruct G as (_ & G2 & G3 & _). apply known_iff in G2 as (rule & rest & Hr & Er).
    assert (Y : exists z rest', y ++ rest = z :: rest').
    { destruct y as [|z y]; [|eexists; eexists; reflexivity]. destruct rest as [|z rest]; [|eexists; eexists; reflexivity].
      rewrite app_nil_r in Er. assert (is_rule rules path = true) by (apply is_rule_iff; eauto). congruence. }
    destruct Y as (z & rest' & Y). apply (Hh q x) with (rest := y ++ l :: more).
    - exists q, x, z. split; [reflexivity|]. split; [exact Kq|]. apply (known_rule _ rule _ rest'); [exact Hr|].
      rewrite Er, Eq, <- !app_assoc. cbn [app]. rewrite Y. reflexivity.
    - rewrite E, Eq, <- app_assoc. reflexivity. }
  rewrite E in P. destruct (gap_walk _ _ _ _ G K W P [] path eq_refl) as (e & Hw).
  destruct path as [|x path]; [destruct G as (G1 & _); contradiction|].
  destruct (gap_first rules x path (l :: more)) as (n & Hw'); [eapply Gt; rewrite E; reflexivity|apply G|exact Tw|exact P|].
  cbn [app] in Hw. rewrite Hw' in Hw. injection Hw as <- ->.
  destruct (c21_at _ _ _ _ _ _ _ _ _ _ _ _ _ _ B H T U L) as (sub & Rep & _). unfold reported in Rep.
  rewrite E in Rep. cbn [app] in Rep. rewrite Hw' in Rep. destruct Rep as (_ & A & C & _). cbn [skipn] in A. rewrite Nat.sub_0_r in A.
  rewrite E. split; [exact A|]. split; [exact C|]. exact (gap_psl _ _ _ _ G K W P X).
Qed.

(** The walk stops behind a name beside a wildcard. *)
Lemma hidden_walk : forall rules (above : list bytes) (k : bytes) (tail : list bytes),
  (forall q x y, above = q ++ x :: y -> known rules (q ++ [str "*"]) = false) ->
  known rules (above ++ [str "*"]) = true -> known rules (above ++ [str "!" ++ k]) = false -> Forall plain_label above ->
  forall done rest, above = done ++ rest -> exists e, walk rules done (rest ++ k :: tail) = (e, S (length rest)).
Proof.
  intros rules above k tail W0 W1 N1 P done rest. revert done. induction rest as [|x rest IH]; intros done E.
  - rewrite app_nil_r in E. subst done. cbn [app walk]. rewrite W1, N1. eexists. reflexivity.
  - cbn [app walk]. rewrite (W0 _ _ _ E).
    assert (Px : plain_label x) by (rewrite Forall_forall in P; apply P; rewrite E; apply in_or_app; right; left; reflexivity).
    rewrite decoded_plain by apply Px.
    assert (Kx : known rules (done ++ [x]) = true).
    { apply (known_prefix _ _ (rest ++ [str "*"])). rewrite <- app_assoc. cbn [app].
      pose proof W1 as Y. rewrite E, <- app_assoc in Y. exact Y. }
    rewrite Kx. destruct (IH (done ++ [x])) as (e & ->); [rewrite <- app_assoc; exact E|]. eexists. reflexivity.
Qed.

(** Below a name beside a wildcard, when the rules there are "*.name" and exceptions of it. *)
Section Hidden.
Variables (rules above : list bytes) (k l : bytes) (more : list bytes).
Let labs := above ++ k :: l :: more.
Hypothesis W0 : forall q x y, above = q ++ x :: y -> known rules (q ++ [str "*"]) = false.
Hypothesis W1 : known rules (above ++ [str "*"]) = true.
Hypothesis N1 : known rules (above ++ [str "!" ++ k]) = false.
Hypothesis R1 : forall rule q, In rule rules -> rule_path rule = above ++ str "*" :: q -> q = [].
Hypothesis R2 : forall rule x q, In rule rules -> rule_path rule = above ++ k :: x :: q ->
  q = [] /\ (x = str "*" \/ exists y, x = str "!" ++ y).
Hypothesis W2 : is_rule rules (above ++ [k; str "*"]) = true.
Hypothesis X : exceptions_ok rules.
Hypothesis P : Forall plain_label labs.

Lemma hidden_l : plain_label l.
Proof. rewrite Forall_forall in P. apply P. apply in_or_app. right. right. left. reflexivity. Qed.

(** Where wildcards apply. *)
Lemma hidden_wildcards : forall q y, labs = q ++ y -> known rules (q ++ [str "*"]) = true -> q = above \/ q = above ++ [k].
Proof.
  intros q y E Kq. destruct (prefixes _ _ _ _ _ E) as [(c & d & Ec)|[<-|(c & d & ->)]].
  - rewrite (W0 _ _ _ Ec) in Kq. discriminate.
  - left. reflexivity.
  - right. unfold labs in E. rewrite <- app_assoc in E. apply app_inv_head in E. cbn [app] in E. injection E as <- E.
    destruct d as [|z d]; [reflexivity|]. exfalso. cbn [app] in E. injection E as <- _.
    apply known_iff in Kq as (rule & rest & Hr & Er). rewrite <- !app_assoc in Er. cbn [app] in Er.
    destruct (R2 _ _ _ Hr Er) as (_ & [Z|(z & Z)]).
    + exact (proj1 (proj2 (proj2 hidden_l)) Z).
    + exact (proj2 (proj2 (proj2 hidden_l)) z Z).
Qed.

Lemma hidden_star : forall rule q p' l' rest', In rule rules -> labs = q ++ l' :: rest' -> rule_path rule = q ++ str "*" :: p' ->
  p' = [] /\ (q = above \/ q = above ++ [k]).
Proof.
  intros rule q p' l' rest' Hr E Er.
  assert (Kq : known rules (q ++ [str "*"]) = true) by (apply (known_rule _ rule _ p'); [exact Hr|]; rewrite Er, <- app_assoc; reflexivity).
  destruct (hidden_wildcards _ _ E Kq) as [-> | ->]; (split; [|auto]).
  - exact (R1 _ _ Hr Er).
  - rewrite <- app_assoc in Er. cbn [app] in Er. exact (proj1 (R2 _ _ _ Hr Er)).
Qed.

Lemma hidden_exception : forall rule, In rule rules -> exception_matches (rule_path rule) labs ->
  rule_path rule = above ++ [k; str "!" ++ l].
Proof.
  intros rule Hr (ab & k' & top & rest & E & Ew & F).
  destruct (match_literal _ ab top (k' :: rest) Ew F) as [->|(q & p' & l' & rest' & Eq & ->)].
  - assert (Kx : known rules (top ++ [str "!" ++ k']) = true).
    { apply (known_rule _ rule _ []); [exact Hr|]. rewrite app_nil_r. exact E. }
    destruct (hidden_wildcards _ _ Ew (X top k' Kx)) as [-> | ->].
    + unfold labs in Ew. apply app_inv_head in Ew. injection Ew as <- _. pose proof (eq_trans (eq_sym Kx) N1). discriminate.
    + unfold labs in Ew. rewrite <- app_assoc in Ew. apply app_inv_head in Ew. cbn [app] in Ew. injection Ew as <- _.
      rewrite E, <- app_assoc. reflexivity.
  - exfalso. rewrite <- app_assoc in E. cbn [app] in E. destruct (hidden_star _ _ _ _ _ Hr Eq E) as (Z & _).
    destruct p'; discriminate Z.
Qed.

Lemma hidden_match : forall rule, In rule rules -> rule_matches (rule_path rule) labs ->
  (length (rule_path rule) <= length above + 2)%nat.
Proof.
  intros rule Hr (top & rest & Et & F). destruct (match_literal _ _ _ _ Et F) as [Ep|(q & p' & l' & rest' & Eq & Ep)].
  - rewrite Ep. destruct (le_lt_dec (length top) (length above + 1)) as [Hl|Hl]; [lia|]. exfalso.
    assert (E : exists d, top = above ++ k :: l :: d).
    { destruct (prefixes _ _ _ _ _ Et) as [(c & d & Ec)|[<-|(c & d & ->)]].
      - rewrite Ec, app_length in Hl. cbn [length] in Hl. lia.
      - lia.
      - unfold labs in Et. rewrite <- app_assoc in Et. apply app_inv_head in Et. cbn [app] in Et. injection Et as <- Et.
        destruct d as [|z d]; [rewrite app_length in Hl; cbn [length] in Hl; lia|]. cbn [app] in Et. injection Et as <- _. eauto. }
    destruct E as (d & ->). destruct (R2 _ _ _ Hr Ep) as (_ & [Z|(z & Z)]).
    + exact (proj1 (proj2 (proj2 hidden_l)) Z).
    + exact (proj2 (proj2 (proj2 hidden_l)) z Z).
  - destruct (hidden_star _ _ _ _ _ Hr Eq Ep) as (-> & [-> | ->]); rewrite Ep, ?app_length; cbn [length]; lia.
Qed.

Lemma hidden_psl : forall n, psl_suffix rules labs n <->
  n = if known rules (above ++ [k; str "!" ++ l]) then S (length above) else S (S (length above)).
Proof.
  intros n. destruct (known rules (above ++ [k; str "!" ++ l])) eqn:Kx.
  - apply known_iff in Kx as (rule & rest & Hr & Er).
    assert (rest = []) as ->.
    { rewrite <- app_assoc in Er. cbn [app] in Er. apply (R2 _ _ _ Hr Er). }
    rewrite app_nil_r in Er.
    assert (M : exception_matches (rule_path rule) labs).
    { exists (above ++ [k]), l, (above ++ [k]), more. split; [rewrite Er, <- app_assoc; reflexivity|].
      split; [unfold labs; rewrite <- app_assoc; reflexivity|].
      generalize (above ++ [k]). clear. intros a. induction a; constructor; [right; reflexivity|assumption]. }
    split.
    + intros [(rule' & Hr' & M' & Ln)|(N & _)]; [|exfalso; exact (N rule Hr M)].
      rewrite (hidden_exception _ Hr' M'), app_length in Ln. cbn [length] in Ln. lia.
    + intros ->. left. exists rule. split; [exact Hr|]. split; [exact M|]. rewrite Er, app_length. cbn [length]. lia.
  - assert (N : forall rule, In rule rules -> ~ exception_matches (rule_path rule) labs).
    { intros rule Hr M. assert (known rules (above ++ [k; str "!" ++ l]) = true); [|congruence].
      apply (known_rule _ rule _ []); [exact Hr|]. rewrite app_nil_r. apply hidden_exception; assumption. }
    pose proof (proj1 (is_rule_iff _ _) W2) as (rule & Hr & Er).
    assert (M : rule_matches (rule_path rule) labs).
    { exists (above ++ [k; l]), more. split; [unfold labs; rewrite <- app_assoc; reflexivity|]. rewrite Er.
      clear. induction above as [|a r IH]; cbn [app]; constructor; try (right; reflexivity); [|exact IH].
      constructor; [left; reflexivity|constructor]. }
    assert (Ne : ~ is_exception (rule_path rule)).
    { rewrite Er. intros (a & y & E). change [k; str "*"] with ([k] ++ [str "*"]) in E. rewrite app_assoc in E.
      apply app_inj_tail in E as (_ & E). discriminate E. }
    assert (Ln : length (rule_path rule) = S (S (length above))) by (rewrite Er, app_length; cbn [length]; lia).
    split.
    + intros [(rule' & Hr' & M' & _)|(_ & [(rule' & Hr' & _ & M' & E & Mx)|(_ & Z)])].
      * exfalso. exact (N rule' Hr' M').
      * specialize (Mx rule Hr Ne M). pose proof (hidden_match rule' Hr' M'). lia.
      * exfalso. exact (Z rule Hr Ne M).
    + intros ->. right. split; [exact N|]. left. exists rule. split; [exact Hr|]. split; [exact Ne|]. split; [exact M|].
      split; [exact Ln|]. intros rule' Hr' _ M'. pose proof (hidden_match rule' Hr' M'). lia.
Qed.
End Hidden.

(** ** The algorithm always has an answer *)

Definition matches_b (k l : bytes) : bool := same k (str "*") || same k l.
Lemma matches_b_iff : forall k l, matches_b k l = true <-> label_matches k l.
Proof. intros k l. unfold matches_b, label_matches. rewrite orb_true_iff, !same_eq. reflexivity. Qed.

Fixpoint all_match (path labs : list bytes) : bool :=
  match path, labs with
  | [], _ => true
  | k :: path', l :: labs' => matches_b k l && all_match path' labs'
  | _, [] => false
  end.
Lemma all_match_iff : forall path labs, all_match path labs = true <-> rule_matches path labs.
Proof.
  unfold rule_matches. induction path as [|k path IH]; intros labs; cbn [all_match].
  - split; [|reflexivity]. intros _. exists [], labs. split; [reflexivity|constructor].
  - destruct labs as [|l labs].
    + split; [discriminate|]. intros (top & rest & E & F). inversion F; subst. discriminate.
    + rewrite andb_true_iff, matches_b_iff, IH. split.
      * intros (M & top & rest & -> & F). exists (l :: top), rest. split; [reflexivity|constructor; assumption].
      * intros (top & rest & E & F). inversion F as [|k' l' p' t' M F' E1 E2]; subst. cbn [app] in E. injection E as <- ->.
        split; [exact M|]. eauto.
Qed.

Fixpoint exc_match (path labs : list bytes) : bool :=
  match path, labs with
  | [k], l :: _ => same k (str "!" ++ l)
  | k :: path', l :: labs' => matches_b k l && exc_match path' labs'
  | _, _ => false
  end.
Lemma exc_match_iff : forall path labs, exc_match path labs = true <-> exception_matches path labs.
Proof.
  unfold exception_matches. induction path as [|k path IH]; intros labs.
  - split; [discriminate|]. intros (above & x & top & rest & E & _). destruct above; discriminate.
  - destruct labs as [|l labs]; [split; [destruct path; discriminate|intros (above & x & top & rest & _ & E & _); destruct top; discriminate]|].
    destruct path as [|k2 path].
    + cbn [exc_match]. rewrite same_eq. split.
      * intros ->. exists [], l, [], labs. split; [reflexivity|]. split; [reflexivity|constructor].
      * intros (above & x & top & rest & E & E' & F). destruct above as [|a above].
        -- inversion F; subst. cbn [app] in E, E'. injection E as ->. injection E' as -> _. reflexivity.
        -- destruct above; discriminate.
    + change (exc_match (k :: k2 :: path) (l :: labs)) with (matches_b k l && exc_match (k2 :: path) labs).
      rewrite andb_true_iff, matches_b_iff, IH. split.
      * intros (M & above & x & top & rest & E & -> & F). exists (k :: above), x, (l :: top), rest.
        split; [rewrite E; reflexivity|]. split; [reflexivity|constructor; assumption].
      * intros (above & x & top & rest & E & E' & F). destruct above as [|a above]; [discriminate|].
        inversion F as [|k' l' p' t' M F' E1 E2]; subst. cbn [app] in E, E'. injection E as -> E. injection E' as -> ->.
        split; [exact M|]. exists above, x, t', rest. auto.
Qed.

Lemma is_exception_dec : forall path, is_exception path \/ ~ is_exception path.
Proof.
  intros path. unfold is_exception. destruct path as [|k path] using rev_ind.
  - right. intros (above & x & E). destruct above; discriminate.
  - clear IHpath. destruct k as [|b k].
    + right. intros (above & x & E). apply app_inj_tail in E as [_ E]. discriminate.
    + destruct (N.eq_dec b 33) as [->|N].
      * left. exists path, k. reflexivity.
      * right. intros (above & x & E). apply app_inj_tail in E as [_ E]. cbv in E. injection E as E _. contradiction.
Qed.

Lemma longest : forall (Q : bytes -> Prop) (rules : list bytes), (forall x, Q x \/ ~ Q x) ->
  (forall x, In x rules -> ~ Q x) \/ exists x, In x rules /\ Q x /\ forall y, In y rules -> Q y -> length (rule_path y) <= length (rule_path x).
Proof.
  intros Q rules D. induction rules as [|z rules IH]; [left; intros x []|].
  destruct (D z) as [Hz|Hz].
  - right. destruct IH as [N|(x & Hx & Qx & M)].
    + exists z. split; [left; reflexivity|]. split; [exact Hz|]. intros y [<-|Hy] Qy; [lia|]. exfalso. exact (N y Hy Qy).
    + destruct (le_dec (length (rule_path z)) (length (rule_path x))) as [L|L].
      * exists x. split; [right; exact Hx|]. split; [exact Qx|]. intros y [<-|Hy] Qy; [exact L|auto].
      * exists z. split; [left; reflexivity|]. split; [exact Hz|]. intros y [<-|Hy] Qy; [lia|]. specialize (M y Hy Qy). lia.
  - destruct IH as [N|(x & Hx & Qx & M)].
    + left. intros x [<-|Hx]; [exact Hz|exact (N x Hx)].
    + right. exists x. split; [right; exact Hx|]. split; [exact Qx|]. intros y [<-|Hy] Qy; [contradiction|auto].
Qed.

Lemma psl_total : forall rules labs, exists n, psl_suffix rules labs n.
Proof.
  intros rules labs. destruct (longest (fun x => exception_matches (rule_path x) labs) rules) as [N|(x & Hx & M & _)].
  { intros x. destruct (exc_match (rule_path x) labs) eqn:E; [left; apply exc_match_iff; exact E|].
    right. rewrite <- exc_match_iff. congruence. }
  - destruct (longest (fun x => ~ is_exception (rule_path x) /\ rule_matches (rule_path x) labs) rules) as [N'|(x & Hx & (Nx & M) & Mx)].
    { intros x. destruct (is_exception_dec (rule_path x)) as [I|I]; [right; tauto|].
      destruct (all_match (rule_path x) labs) eqn:E; [left; split; [exact I|apply all_match_iff; exact E]|].
      right. rewrite <- all_match_iff. intros (_ & F). congruence. }
    + exists 0. right. split; [exact N|]. right. split; [reflexivity|]. intros rule Hr I M. apply (N' rule Hr). auto.
    + exists (length (rule_path x)). right. split; [exact N|]. left. exists x. split; [exact Hx|]. split; [exact Nx|].
      split; [exact M|]. split; [reflexivity|]. intros y Hy Iy My. apply Mx; auto.
  - destruct (rule_path x) as [|k path] eqn:E; [apply rule_path_nonempty in E; contradiction|].
    exists (length path). left. exists x. split; [exact Hx|]. rewrite E. split; [exact M|reflexivity].
Qed.

(** ** Rules for other TLDs *)

Lemma existsb_concerned : forall (P : bytes -> Prop) (f : bytes -> bool) l l', (forall x, P x -> (In x l <-> In x l')) ->
  (forall x, f x = true -> P x) -> existsb f l = existsb f l'.
Proof.
  intros P f l l' H C. apply eq_true_iff_eq. rewrite !existsb_exists.
  split; intros (x & Hx & Fx); exists x; (split; [apply (H x (C x Fx)); exact Hx|exact Fx]).
Qed.

Lemma c54 : forall ext rules rules' t t' p tld, host_tld ext p tld ->
  (forall rule, concerns tld rule -> (In rule rules <-> In rule rules')) ->
  build_trie rules = Ret t -> build_trie rules' = Ret t' -> extract ext t p = extract ext t' p.
Proof.
  intros ext rules rules' t t' p tld (sc & us & raw & h & po & pa & first & zs & segs & U & L & ->) H B B'.
  apply build_trie_represents in B as [A1 A2]. apply build_trie_represents in B' as [A1' A2'].
  set (tld := nth 0 (labels first segs) []) in *.
  assert (K : forall k rest, k = decoded tld \/ k = str "*" \/ k = str "!" ++ tld ->
      known rules (k :: rest) = known rules' (k :: rest) /\ is_rule rules (k :: rest) = is_rule rules' (k :: rest)).
  { intros k rest Hk. split; apply (existsb_concerned (concerns tld)); try exact H; intros x Hx.
    - apply begins_iff in Hx as (q & E). exists k, (rest ++ q). auto.
    - apply same_path_iff in Hx. exists k, rest. auto. }
  assert (C : forall k, k = decoded tld \/ k = str "*" \/ k = str "!" ++ tld ->
      match child t k, child t' k with
      | Some n, Some n' => same_trie n n'
      | None, None => True
      | _, _ => False
      end).
  { intros k Hk.
    assert (X : forall path, has t (k :: path) = has t' (k :: path)) by (intros path; rewrite A1, A1' by discriminate; apply K; exact Hk).
    assert (Y : forall path, marked t (k :: path) = marked t' (k :: path)).
    { intros path. rewrite A2, A2'. unfold is_suffix. destruct (K k path Hk) as [_ ->]. destruct path as [|k' path]; [|reflexivity].
      destruct (K k [str "*"] Hk) as [-> _]. reflexivity. }
    pose proof (X []) as Ak. rewrite !has_cons in Ak.
    destruct (child t k) as [n|] eqn:E, (child t' k) as [n'|] eqn:E'; try discriminate; [|exact I].
    split; intros path; [specialize (X path); rewrite !has_cons, E, E' in X; exact X
                        |specialize (Y path); rewrite !marked_cons, E, E' in Y; exact Y]. }
  assert (W : cwalk t false 0 0 0 (labels first segs) = cwalk t' false 0 0 0 (labels first segs)).
  { destruct (labels first segs) as [|label more] eqn:El; [reflexivity|]. cbn [nth] in tld. subst tld. cbn [cwalk].
    destruct (is_nil label && negb (is_nil more)); [reflexivity|].
    pose proof (C (str "*") (or_intror (or_introl eq_refl))) as C1.
    pose proof (C (str "!" ++ label) (or_intror (or_intror eq_refl))) as C2.
    pose proof (C (decoded label) (or_introl eq_refl)) as C3. rewrite decoded_unescaped in C3.
    destruct (child t (str "*")), (child t' (str "*")); try contradiction.
    - destruct (child t (str "!" ++ label)), (child t' (str "!" ++ label)); try contradiction; reflexivity.
    - destruct (child t (unescaped label)) as [v|], (child t' (unescaped label)) as [v'|]; try contradiction; [|reflexivity].
      rewrite (same_nil v v' C3). destruct C3 as [C3 C4].
      assert (E : end_of v = end_of v') by (specialize (C4 []); exact C4). rewrite E.
      destruct (is_nil (matches_of v') || is_nil more); [reflexivity|]. apply cwalk_same. split; assumption. }
  destruct U as (after & F & Hh & A & Cv). rewrite !(extract_front _ _ _ _ _ _ F). f_equal. unfold extract_authority.
  rewrite (split_auth_plain raw after Hh (after_host_starts _ _ _ A)).
  destruct (split_port after) as [[port path]|]; [|reflexivity]. apply converted_iff in Cv. rewrite Cv.
  rewrite !(host_outcome_stripped _ _ _ _ _ _ _ _ L), W. reflexivity.
Qed.
