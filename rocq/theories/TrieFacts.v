(** TrieFacts.v - what the trie of a rule list contains. *)

From Verif Require Import Base BaseFacts Utf8 Utf8Facts Chars Str StrFacts Net Trie Extract Host HostFacts
  Walk WalkFacts Addr NetFacts Parse ParseFacts UrlSpec UrlFacts ExtractFacts OutcomeFacts UrlProofs RuleSpec.
From Coq Require Import ZifyBool ZifyNat ZifyN.

(** ** Equality of labels and paths *)

Lemma same_eqb : forall s t, same s t = bytes_eqb s t.
Proof. induction s as [|a s IH]; destruct t as [|b t]; cbn [same bytes_eqb]; [reflexivity..|]. rewrite IH. reflexivity. Qed.
Lemma same_eq : forall s t, same s t = true <-> s = t.
Proof. intros s t. rewrite same_eqb. apply bytes_eqb_eq. Qed.
Lemma same_refl : forall s, same s s = true.
Proof. intros s. apply same_eq. reflexivity. Qed.

Lemma begins_iff : forall p ls, begins p ls = true <-> exists rest, ls = p ++ rest.
Proof.
  induction p as [|k p IH]; intros ls; cbn [begins app].
  - split; [intros _; exists ls; reflexivity|reflexivity].
  - destruct ls as [|l ls].
    + split; [discriminate|]. intros (rest & H). discriminate.
    + rewrite andb_true_iff, same_eq, IH. split.
      * intros (-> & rest & ->). exists rest. reflexivity.
      * intros (rest & H). injection H as -> ->. split; [reflexivity|]. exists rest. reflexivity.
Qed.
Lemma same_path_iff : forall p ls, same_path p ls = true <-> ls = p.
Proof.
  induction p as [|k p IH]; intros [|l ls]; cbn [same_path]; [split; reflexivity|split; discriminate|split; discriminate|].
  rewrite andb_true_iff, same_eq, IH. split; [intros (-> & ->); reflexivity|]. intros H. injection H as -> ->. auto.
Qed.

Lemma existsb_iff : forall A (f : A -> bool) l, existsb f l = true <-> exists x, In x l /\ f x = true.
Proof. exact existsb_exists. Qed.

Lemma known_iff : forall rules p, known rules p = true <-> exists rule rest, In rule rules /\ rule_path rule = p ++ rest.
Proof.
  intros rules p. unfold known. rewrite existsb_exists. split.
  - intros (rule & H & E). apply begins_iff in E as (rest & E). eauto.
  - intros (rule & rest & H & E). exists rule. split; [exact H|]. apply begins_iff. eauto.
Qed.
Lemma is_rule_iff : forall rules p, is_rule rules p = true <-> exists rule, In rule rules /\ rule_path rule = p.
Proof.
  intros rules p. unfold is_rule. rewrite existsb_exists. split; intros (rule & H & E); exists rule; split; auto; apply same_path_iff; auto.
Qed.
Lemma is_suffix_iff : forall rules p, is_suffix rules p = true <->
  (exists rule, In rule rules /\ rule_path rule = p)
  \/ (exists k rule rest, p = [k] /\ In rule rules /\ rule_path rule = k :: str "*" :: rest).
Proof.
  intros rules p. unfold is_suffix. rewrite orb_true_iff, is_rule_iff. apply or_iff_compat_l.
  destruct p as [|k [|l p]].
  - split; [discriminate|]. intros (k & rule & rest & H & _). discriminate.
  - rewrite known_iff. split.
    + intros (rule & rest & H & E). exists k, rule, rest. auto.
    + intros (k' & rule & rest & H & Hi & E). injection H as <-. exists rule, rest. auto.
  - split; [discriminate|]. intros (k' & rule & rest & H & _). discriminate.
Qed.

(** ** Splitting and reversing a rule *)

Lemma path_from_split : forall rule done cur,
  path_from done cur rule = match split_byte rule 46 with [] => cur :: done | p :: ps => rev ps ++ (cur ++ p) :: done end.
Proof.
  induction rule as [|b rule IH]; intros done cur; cbn [path_from split_byte].
  - cbn. rewrite app_nil_r. reflexivity.
  - assert (N : split_byte rule 46 <> []).
    { destruct rule as [|x r]; cbn [split_byte]; [discriminate|]. destruct (x =? 46)%N; [discriminate|].
      destruct (split_byte r 46); discriminate. }
    rewrite !IH. destruct (split_byte rule 46) as [|p ps]; [contradiction|]. destruct (b =? 46)%N.
    + cbn [rev]. rewrite app_nil_r, <- app_assoc. reflexivity.
    + rewrite <- app_assoc. reflexivity.
Qed.

Lemma rule_path_split : forall rule, rule_path rule = rev (split_byte rule 46).
Proof.
  intros rule. unfold rule_path. rewrite path_from_split. destruct (split_byte rule 46) as [|p ps] eqn:E; [|reflexivity].
  destruct rule as [|x r]; cbn [split_byte] in E; [discriminate|]. destruct (x =? 46)%N; [discriminate|].
  destruct (split_byte r 46); discriminate.
Qed.

Lemma rule_path_nonempty : forall rule, rule_path rule <> [].
Proof.
  intros rule. unfold rule_path. rewrite path_from_split. destruct (split_byte rule 46); [discriminate|].
  intros H. apply app_eq_nil in H as [_ H]. discriminate.
Qed.

(** strings.go reverse *)
Lemma swap_shape : forall A (x y : A) pre mid post,
  swap (pre ++ x :: mid ++ y :: post) (length pre) (length pre + length mid + 1) = (pre ++ [y]) ++ mid ++ x :: post.
Proof.
  intros A x y pre mid post. unfold swap.
  assert (E1 : nth_error (pre ++ x :: mid ++ y :: post) (length pre) = Some x).
  { rewrite nth_error_app2 by lia. rewrite Nat.sub_diag. reflexivity. }
  assert (E2 : nth_error (pre ++ x :: mid ++ y :: post) (length pre + length mid + 1) = Some y).
  { rewrite nth_error_app2 by lia. replace (length pre + length mid + 1 - length pre) with (S (length mid)) by lia.
    cbn [nth_error]. rewrite nth_error_app2 by lia. rewrite Nat.sub_diag. reflexivity. }
  rewrite E1, E2. rewrite firstn_app, firstn_all, Nat.sub_diag. cbn [firstn]. rewrite app_nil_r.
  replace (length pre + length mid + 1 - length pre - 1) with (length mid) by lia.
  assert (E3 : skipn (length pre + 1) (pre ++ x :: mid ++ y :: post) = mid ++ y :: post).
  { rewrite skipn_app, skipn_all2 by lia. replace (length pre + 1 - length pre) with 1 by lia. reflexivity. }
  assert (E4 : skipn (length pre + length mid + 1 + 1) (pre ++ x :: mid ++ y :: post) = post).
  { rewrite skipn_app, skipn_all2 by lia.
    replace (length pre + length mid + 1 + 1 - length pre) with (S (length mid + 1)) by lia. cbn [skipn app].
    rewrite skipn_app, skipn_all2 by lia. replace (length mid + 1 - length mid) with 1 by lia. reflexivity. }
  rewrite E3, E4. rewrite firstn_app, firstn_all, Nat.sub_diag. cbn [firstn]. rewrite app_nil_r.
  rewrite <- !app_assoc. reflexivity.
Qed.

Lemma reverse_loop_spec : forall A n fuel (pre mid post : list A), length mid <= n -> length mid <= fuel ->
  reverse_loop fuel (pre ++ mid ++ post) (Z.of_nat (length pre)) (Z.of_nat (length pre + length mid) - 1)
  = Ret (pre ++ rev mid ++ post).
Proof.
  intros A. induction n as [|n IH]; intros fuel pre mid post Hn Hf.
  - destruct mid; [|cbn [length] in Hn; lia]. cbn [length rev app].
    destruct fuel; cbn [reverse_loop]; destruct (Z.ltb_spec (Z.of_nat (length pre)) (Z.of_nat (length pre + 0) - 1)); try lia; reflexivity.
  - destruct mid as [|x mid].
    { apply (IH fuel pre [] post); cbn [length]; lia. }
    destruct mid as [|y mid _] using rev_ind.
    { cbn [length rev app].
      destruct fuel; cbn [reverse_loop]; destruct (Z.ltb_spec (Z.of_nat (length pre)) (Z.of_nat (length pre + 1) - 1)); try lia; reflexivity. }
    cbn [length] in Hn, Hf. rewrite app_length in Hn, Hf. cbn [length] in Hn, Hf.
    destruct fuel as [|fuel]; [lia|]. cbn [reverse_loop]. cbn [length]. rewrite app_length. cbn [length].
    destruct (Z.ltb_spec (Z.of_nat (length pre)) (Z.of_nat (length pre + S (length mid + 1)) - 1)); [|lia].
    assert (L : ((0 <=? Z.of_nat (length pre)) && (Z.of_nat (length pre + S (length mid + 1)) - 1 <?
                 len (pre ++ (x :: mid ++ [y]) ++ post)))%Z = true).
    { unfold len. rewrite !app_length. cbn [length]. rewrite app_length. cbn [length]. lia. }
    rewrite L. rewrite Nat2Z.id.
    replace (Z.to_nat (Z.of_nat (length pre + S (length mid + 1)) - 1)) with (length pre + length mid + 1) by lia.
    replace (pre ++ (x :: mid ++ [y]) ++ post) with (pre ++ x :: mid ++ y :: post)
      by (cbn [app]; rewrite <- !app_assoc; reflexivity).
    rewrite swap_shape.
    specialize (IH fuel (pre ++ [y]) mid (x :: post) ltac:(lia) ltac:(lia)).
    rewrite app_length in IH. cbn [length] in IH.
    replace (Z.of_nat (length pre) + 1)%Z with (Z.of_nat (length pre + 1)) by lia.
    replace (Z.of_nat (length pre + S (length mid + 1)) - 1 - 1)%Z with (Z.of_nat (length pre + 1 + length mid) - 1)%Z by lia.
    rewrite IH. f_equal. cbn [rev]. rewrite rev_app_distr. cbn [rev app]. rewrite <- !app_assoc. reflexivity.
Qed.

Lemma reverse_spec : forall A (l : list A), reverse l = Ret (rev l).
Proof.
  intros A l. unfold reverse. pose proof (reverse_loop_spec A (length l) (length l) [] l [] (le_n _) (le_n _)) as H.
  cbn [length app] in H. rewrite !app_nil_r in H. exact H.
Qed.

(** ** Nodes of a trie *)

Fixpoint descend (t : trie) (path : list bytes) : option trie :=
  match path with
  | [] => Some t
  | k :: path' => match child t k with Some t' => descend t' path' | None => None end
  end.
Definition has (t : trie) (path : list bytes) : bool := match descend t path with Some _ => true | None => false end.
Definition marked (t : trie) (path : list bytes) : bool := match descend t path with Some n => end_of n | None => false end.

Lemma get_put : forall m k v k', get (put m k v) k' = if bytes_eqb k k' then Some v else get m k'.
Proof.
  induction m as [|[k0 w] m IH]; intros k v k'; cbn [put get]; [reflexivity|].
  destruct (bytes_eqb k0 k) eqn:E; cbn [get].
  - apply bytes_eqb_eq in E. subst k0. destruct (bytes_eqb k k'); reflexivity.
  - rewrite IH. destruct (bytes_eqb k0 k') eqn:E'; [|reflexivity].
    apply bytes_eqb_eq in E'. subst k0. destruct (bytes_eqb k k') eqn:E2; [|reflexivity].
    apply bytes_eqb_eq in E2. subst. rewrite bytes_eqb_refl in E. discriminate.
Qed.

Lemma has_empty : forall path, path <> [] -> has empty_trie path = false.
Proof. intros [|k path] H; [contradiction|]. reflexivity. Qed.
Lemma marked_empty : forall path, marked empty_trie path = false.
Proof. intros [|k path]; reflexivity. Qed.

Lemma child_nested : forall t key keys k, child (nested_dict t (key :: keys)) k =
  if bytes_eqb key k then Some (nested_dict (match child t key with Some s => s | None => empty_trie end) keys) else child t k.
Proof. intros. cbn [nested_dict]. unfold child at 1. cbn [matches_of]. rewrite get_put. reflexivity. Qed.

Lemma has_cons : forall t k path, has t (k :: path) = match child t k with Some t' => has t' path | None => false end.
Proof. intros t k path. unfold has. cbn [descend]. destruct (child t k); reflexivity. Qed.
Lemma marked_cons : forall t k path, marked t (k :: path) = match child t k with Some t' => marked t' path | None => false end.
Proof. intros t k path. unfold marked. cbn [descend]. destruct (child t k); reflexivity. Qed.

Lemma eqb_sym : forall s t, bytes_eqb s t = bytes_eqb t s.
Proof.
  intros s t. destruct (bytes_eqb s t) eqn:E.
  - apply bytes_eqb_eq in E. subst. symmetry. apply bytes_eqb_refl.
  - symmetry. apply bytes_eqb_neq. apply bytes_eqb_neq in E. congruence.
Qed.

Lemma has_nested : forall keys t path, has (nested_dict t keys) path = has t path || begins path keys.
Proof.
  induction keys as [|key keys IH]; intros t path.
  - cbn [nested_dict]. destruct path as [|k path]; [reflexivity|]. cbn [begins]. rewrite orb_false_r.
    rewrite !has_cons. destruct t as [e m]. reflexivity.
  - destruct path as [|k path]; [reflexivity|]. rewrite !has_cons. cbn [begins]. rewrite child_nested.
    rewrite (same_eqb k key), (eqb_sym k key). destruct (bytes_eqb key k) eqn:E; cbn [andb].
    + apply bytes_eqb_eq in E. subst k.
      rewrite IH. destruct (child t key); [reflexivity|]. destruct path as [|k' path]; [reflexivity|].
      rewrite has_empty by discriminate. reflexivity.
    + rewrite orb_false_r. reflexivity.
Qed.

Lemma marked_nested : forall keys t path, marked (nested_dict t keys) path = marked t path || same_path path keys.
Proof.
  induction keys as [|key keys IH]; intros t path.
  - cbn [nested_dict]. destruct path as [|k path].
    + destruct t as [e m]. unfold marked. cbn [descend set_end end_of same_path]. rewrite orb_true_r. reflexivity.
    + cbn [same_path]. rewrite orb_false_r. rewrite !marked_cons. destruct t as [e m]. reflexivity.
  - destruct path as [|k path].
    + unfold marked. cbn [descend nested_dict end_of same_path]. rewrite orb_false_r. reflexivity.
    + rewrite !marked_cons. cbn [same_path]. rewrite child_nested.
      rewrite (same_eqb k key), (eqb_sym k key). destruct (bytes_eqb key k) eqn:E; cbn [andb].
      * apply bytes_eqb_eq in E. subst k.
        rewrite IH. destruct (child t key); [reflexivity|]. rewrite marked_empty. reflexivity.
      * rewrite orb_false_r. reflexivity.
Qed.

(** ** Insertion of all rules *)

Lemma insert_all_spec : forall rules t, exists t', insert_all t rules = Ret t'
  /\ (forall path, has t' path = has t path || known rules path)
  /\ (forall path, marked t' path = marked t path || is_rule rules path).
Proof.
  induction rules as [|rule rules IH]; intros t; cbn [insert_all].
  - exists t. split; [reflexivity|]. split; intros path; unfold known, is_rule; cbn [existsb]; rewrite orb_false_r; reflexivity.
  - rewrite reverse_spec, <- rule_path_split. cbn [bind].
    destruct (IH (nested_dict t (rule_path rule))) as (t' & E & A & B). exists t'. split; [exact E|].
    split; intros path; [rewrite A, has_nested|rewrite B, marked_nested]; rewrite <- orb_assoc; reflexivity.
Qed.

Lemma get_map : forall f m k, get (map (fun '(k, v) => (k, f v)) m) k = option_map f (get m k).
Proof.
  intros f. induction m as [|[k0 v] m IH]; intros k; cbn [map get]; [reflexivity|].
  destruct (bytes_eqb k0 k); [reflexivity|]. apply IH.
Qed.

Definition mark_one (v : trie) : trie := match child v (str "*") with Some _ => set_end v | None => v end.

Lemma child_mark : forall t k, child (mark_wildcard_tlds t) k = option_map mark_one (child t k).
Proof.
  intros t k. unfold child, mark_wildcard_tlds. cbn [matches_of].
  rewrite <- (get_map mark_one). reflexivity.
Qed.

Lemma child_set_end : forall t k, child (set_end t) k = child t k.
Proof. intros [e m] k. reflexivity. Qed.
Lemma child_mark_one : forall t k, child (mark_one t) k = child t k.
Proof. intros t k. unfold mark_one. destruct (child t (str "*")); [apply child_set_end|reflexivity]. Qed.

Lemma has_mark : forall t path, has (mark_wildcard_tlds t) path = has t path.
Proof.
  intros t [|k [|k' path]]; [reflexivity|rewrite !has_cons, child_mark; destruct (child t k); reflexivity|].
  rewrite !has_cons, child_mark. destruct (child t k) as [v|]; [|reflexivity]. cbn [option_map].
  rewrite !has_cons, child_mark_one. reflexivity.
Qed.

Lemma marked_mark : forall t path, marked (mark_wildcard_tlds t) path =
  marked t path || match path with [k] => has t [k; str "*"] | _ => false end.
Proof.
  intros t [|k [|k' path]].
  - unfold marked. cbn [descend]. rewrite orb_false_r. destruct t. reflexivity.
  - rewrite !marked_cons, has_cons, child_mark. destruct (child t k) as [v|]; [|reflexivity]. cbn [option_map].
    rewrite has_cons. unfold marked, mark_one. cbn [descend]. destruct (child v (str "*")) as [w|].
    + destruct v. cbn [set_end end_of]. unfold has. cbn [descend]. rewrite orb_true_r. reflexivity.
    + rewrite orb_false_r. reflexivity.
  - rewrite orb_false_r, !marked_cons, child_mark. destruct (child t k) as [v|]; [|reflexivity]. cbn [option_map].
    rewrite !marked_cons, child_mark_one. reflexivity.
Qed.

(** The trie of a rule list. *)
Definition represents (t : trie) (rules : list bytes) : Prop :=
  (forall path, path <> [] -> has t path = known rules path)
  /\ (forall path, marked t path = is_suffix rules path).

Lemma build_trie_spec : forall rules, exists t, build_trie rules = Ret t /\ represents t rules.
Proof.
  intros rules. unfold build_trie. destruct (insert_all_spec rules empty_trie) as (t & E & A & B). rewrite E. cbn [bind].
  eexists. split; [reflexivity|]. split.
  - intros path H. rewrite has_mark, A, has_empty by exact H. reflexivity.
  - intros path. rewrite marked_mark, B, marked_empty. cbn [orb]. unfold is_suffix. f_equal.
    destruct path as [|k [|k' path]]; [reflexivity| |reflexivity]. rewrite A, has_empty by discriminate. reflexivity.
Qed.

Lemma build_trie_represents : forall rules t, build_trie rules = Ret t -> represents t rules.
Proof. intros rules t H. destruct (build_trie_spec rules) as (t' & E & R). congruence. Qed.

(** ** The walk of the code is the walk over the rules *)

Lemma decoded_unescaped : forall l, decoded l = unescaped l.
Proof.
  intros l. unfold decoded, unescaped.
  assert (X : forall n l, length l <= n -> pct l = match query_unescape l with inr d => Some d | inl _ => None end).
  { clear. induction n as [|n IH]; intros l L; [destruct l; [reflexivity|cbn [length] in L; lia]|].
    destruct l as [|b s]; [reflexivity|]. cbn [length] in L. rewrite query_unescape_cons. cbn [pct].
    destruct (b =? 37)%N.
    - destruct s as [|x [|y s]]; try reflexivity. cbn [length] in L. destruct (is_hex x && is_hex y); [|reflexivity].
      rewrite (IH s) by lia. destruct (query_unescape s); reflexivity.
    - rewrite (IH s) by lia. destruct (b =? 43)%N eqn:E; destruct (query_unescape s); reflexivity. }
  rewrite (X (length l) l (le_n _)). destruct (query_unescape l); reflexivity.
Qed.

Lemma descend_app : forall a t b, descend t (a ++ b) = match descend t a with Some n => descend n b | None => None end.
Proof.
  induction a as [|k a IH]; intros t b; cbn [descend app]; [reflexivity|]. destruct (child t k); [apply IH|reflexivity].
Qed.

Lemma descend_snoc : forall t path node k, descend t path = Some node -> descend t (path ++ [k]) = child node k.
Proof. intros t path node k H. rewrite descend_app, H. cbn [descend]. destruct (child node k); reflexivity. Qed.

Lemma child_known : forall t rules path node k, represents t rules -> descend t path = Some node ->
  known rules (path ++ [k]) = match child node k with Some _ => true | None => false end.
Proof.
  intros t rules path node k (A & _) D. rewrite <- A by (destruct path; discriminate).
  unfold has. rewrite (descend_snoc _ _ _ _ D). reflexivity.
Qed.

Lemma child_suffix : forall t rules path node k val, represents t rules -> descend t path = Some node ->
  child node k = Some val -> is_suffix rules (path ++ [k]) = end_of val.
Proof.
  intros t rules path node k val (_ & B) D C. rewrite <- B. unfold marked. rewrite (descend_snoc _ _ _ _ D), C. reflexivity.
Qed.

Lemma cwalk_walk : forall t rules, represents t rules -> forall labs path node hs j start prev c e n,
  descend t path = Some node -> cwalk node hs j start prev labs = Some c -> walk rules path labs = (e, n) ->
  c_has c = hs || match e with Some _ => true | None => false end
  /\ c_sep c = prev + n
  /\ c_end c = (if hs then j else match e with Some k => prev + k | None => j end).
Proof.
  intros t rules R. induction labs as [|label more IH]; intros path node hs j start prev c e n D H W; [discriminate|].
  cbn [cwalk] in H. cbn [walk] in W. destruct (is_nil label && negb (is_nil more)); [discriminate|].
  rewrite (child_known t rules path node (str "*") R D) in W. rewrite (child_known t rules path node _ R D) in W.
  rewrite (child_known t rules path node _ R D) in W.
  destruct (child node (str "*")) as [w|].
  - injection H as <-. injection W as <- <-. cbn [c_has c_sep c_end]. rewrite orb_false_r.
    split; [reflexivity|]. split; [|destruct hs; reflexivity].
    destruct (child node _); lia.
  - rewrite decoded_unescaped in W.
    destruct (child node (unescaped label)) as [val|] eqn:C.
    + pose proof (descend_snoc t path node (unescaped label) D) as D'. rewrite C in D'.
      rewrite (child_suffix _ _ _ _ _ _ R D C) in W.
      destruct (is_nil (matches_of val) || is_nil more) eqn:Q.
      * assert (X : walk rules (path ++ [unescaped label]) more = (None, 0)).
        { destruct more as [|l more]; [reflexivity|]. cbn [is_nil] in Q. rewrite orb_false_r in Q.
          assert (Y : forall k, child val k = None).
          { intros k. unfold child. destruct (matches_of val); [reflexivity|discriminate]. }
          cbn [walk]. rewrite !(child_known t rules _ val _ R D'), !Y. reflexivity. }
        rewrite X in W. injection W as <- <-. injection H as <-. cbn [c_has c_sep c_end option_map].
        destruct hs, (end_of val); cbn [orb negb andb]; repeat split; lia.
      * destruct (walk rules (path ++ [unescaped label]) more) as [e' n'] eqn:W'. injection W as <- <-.
        destruct (IH _ _ _ _ _ _ _ _ _ D' H W') as (I1 & I2 & I3). rewrite I1, I2, I3.
        destruct hs, (end_of val), e' as [k|]; cbn [orb negb andb option_map]; repeat split; lia.
    + injection H as <-. injection W as <- <-. cbn [c_has c_sep c_end]. rewrite orb_false_r.
      split; [reflexivity|]. split; [lia|destruct hs; reflexivity].
Qed.

Lemma labelled_stripped : forall h first zs segs, labelled h first zs segs <-> stripped h first zs segs.
Proof. reflexivity. Qed.
Lemma labels_text_join : forall segs, labels_text segs = join segs.
Proof.
  induction segs as [|[l s] [|g segs] IH]; [reflexivity..|].
  change (labels_text ((l, s) :: g :: segs)) with (labels_text (g :: segs) ++ s ++ l). rewrite IH. reflexivity.
Qed.

Lemma cwalk_reported : forall t rules first segs c, represents t rules ->
  cwalk t false 0 0 0 (labels first segs) = Some c -> counts_ok segs c -> (c_has c = true -> c_sep c <= length segs) ->
  reported rules first segs (the_sub first segs c) (the_domain first segs c) (the_suffix segs c).
Proof.
  intros t rules first segs c R W [Hp Hc He] Hs. unfold reported.
  destruct (walk rules [] (labels first segs)) as [e n] eqn:Ew.
  destruct (cwalk_walk t rules R _ [] t _ _ _ _ _ _ _ eq_refl W Ew) as (A & B & C).
  cbn [orb Nat.add] in A, B, C. unfold the_sub, sub_from, the_domain, the_suffix. rewrite A in *. destruct e as [k|].
  - rewrite B, C in *. specialize (Hs eq_refl). specialize (He eq_refl). split; [lia|].
    split; [symmetry; apply labels_text_join|]. auto.
  - unfold label_at. auto.
Qed.

(** C21 *)
Lemma c21 : forall ext rules t p r, build_trie rules = Ret t -> extract ext t p = Ret (r, None) ->
  r_host_type r = HHostName ->
  exists scheme user raw h port path first zs segs sub,
    url_parts ext p scheme user raw h port path /\ labelled h first zs segs
    /\ reported rules first segs sub (r_domain r) (r_suffix r)
    /\ r_sub_domain r = (if p_ignore_sub_domains p then [] else sub).
Proof.
  intros ext rules t p r B H T. apply build_trie_represents in B.
  destruct (host_name _ _ _ _ H T) as (sc & us & raw & h & po & pa & first & zs & segs & k & U & Ok & V & S & Hw & Hok & Hs & Hi & Hd & ->).
  exists sc, us, raw, h, po, pa, first, zs, segs, (the_sub first segs k). cbn [r_domain r_suffix r_sub_domain].
  split; [exact U|]. split; [exact S|]. split; [|reflexivity]. eapply cwalk_reported; eauto.
Qed.
