(** RuleProofs.v - proofs of the properties about suffix rules. *)

From Verif Require Import Base BaseFacts Utf8 Utf8Facts Chars Str StrFacts Net Trie Extract Host HostFacts
  Walk WalkFacts Addr NetFacts Parse ParseFacts UrlSpec UrlFacts ExtractFacts OutcomeFacts Rfc UrlProofs CharProofs
  RuleSpec TrieFacts.
From Coq Require Import ZifyBool ZifyNat ZifyN.

(** ** Tries with the same paths *)

Definition same_trie (t t' : trie) : Prop :=
  (forall path, has t path = has t' path) /\ (forall path, marked t path = marked t' path).

Lemma same_child : forall t t' k, same_trie t t' ->
  match child t k, child t' k with
  | Some n, Some n' => same_trie n n'
  | None, None => True
  | _, _ => False
  end.
Proof.
  intros t t' k (A & B). pose proof (A [k]) as Ak. rewrite !has_cons in Ak.
  destruct (child t k) as [n|] eqn:E, (child t' k) as [n'|] eqn:E'; try discriminate; [|exact I].
  split; intros path; [specialize (A (k :: path)); rewrite !has_cons, E, E' in A; exact A
                      |specialize (B (k :: path)); rewrite !marked_cons, E, E' in B; exact B].
Qed.

Lemma same_nil : forall t t', same_trie t t' -> is_nil (matches_of t) = is_nil (matches_of t').
Proof.
  assert (X : forall t t', same_trie t t' -> is_nil (matches_of t) = true -> is_nil (matches_of t') = true).
  { intros t t' (A & _) H. destruct (matches_of t) eqn:E; [|discriminate].
    destruct (matches_of t') as [|[k v] m] eqn:E'; [reflexivity|].
    specialize (A [k]). rewrite !has_cons in A. unfold child in A. rewrite E, E' in A. cbn [get] in A.
    rewrite bytes_eqb_refl in A. discriminate. }
  intros t t' H. destruct (is_nil (matches_of t)) eqn:E; [symmetry; eapply X; eauto|].
  destruct (is_nil (matches_of t')) eqn:E'; [|reflexivity].
  rewrite (X t' t) in E; [discriminate| |exact E']. destruct H as [A B]. split; intros path; symmetry; auto.
Qed.

Lemma cwalk_same : forall labs t t' hs j start prev, same_trie t t' ->
  cwalk t hs j start prev labs = cwalk t' hs j start prev labs.
Proof.
  induction labs as [|label more IH]; intros t t' hs j start prev S; [reflexivity|]. cbn [cwalk].
  destruct (is_nil label && negb (is_nil more)); [reflexivity|].
  pose proof (same_child t t' (str "*") S) as C1. pose proof (same_child t t' (str "!" ++ label) S) as C2.
  pose proof (same_child t t' (unescaped label) S) as C3.
  destruct (child t (str "*")), (child t' (str "*")); try contradiction.
  - destruct (child t (str "!" ++ label)), (child t' (str "!" ++ label)); try contradiction; reflexivity.
  - destruct (child t (unescaped label)) as [v|], (child t' (unescaped label)) as [v'|]; try contradiction; [|reflexivity].
    rewrite (same_nil v v' C3). destruct C3 as [C3 C4].
    assert (E : end_of v = end_of v') by (specialize (C4 []); exact C4). rewrite E.
    destruct (is_nil (matches_of v') || is_nil more); [reflexivity|]. apply IH. split; assumption.
Qed.

Lemma host_outcome_same : forall t t' u h ignore v, same_trie t t' ->
  host_outcome t u h ignore v = host_outcome t' u h ignore v.
Proof.
  intros t t' u h ignore v S. unfold host_outcome. destruct (split_host h) as [first segs].
  destruct (strip_empty segs) as [zs segs']. rewrite (cwalk_same _ t t' _ _ _ _ S). reflexivity.
Qed.

Lemma extract_same : forall ext t t' p, same_trie t t' -> extract ext t p = extract ext t' p.
Proof.
  intros ext t t' p S. rewrite !extract_spec. f_equal. unfold extracted.
  destruct (split_scheme (trim_ws (p_url p))) as [scheme s]. destruct (split_user s) as [user s'].
  unfold extract_authority. destruct (split_auth s') as [x|[h after|a after]]; try reflexivity.
  destruct (split_port after) as [[port path]|]; [|reflexivity].
  destruct (convert_host ext (p_to_punycode p) h); [reflexivity|]. apply host_outcome_same. exact S.
Qed.

Lemma existsb_same : forall A (f : A -> bool) l l', (forall x, In x l <-> In x l') -> existsb f l = existsb f l'.
Proof.
  intros A f l l' H. destruct (existsb f l) eqn:E; symmetry.
  - apply existsb_exists in E as (x & Hx & Fx). apply existsb_exists. exists x. split; [apply H; exact Hx|exact Fx].
  - destruct (existsb f l') eqn:E'; [|reflexivity]. apply existsb_exists in E' as (x & Hx & Fx).
    assert (existsb f l = true) by (apply existsb_exists; exists x; split; [apply H; exact Hx|exact Fx]). congruence.
Qed.

Lemma c29 : forall ext rules rules' t t' p, (forall rule, In rule rules <-> In rule rules') ->
  build_trie rules = Ret t -> build_trie rules' = Ret t' -> extract ext t p = extract ext t' p.
Proof.
  intros ext rules rules' t t' p H B B'. apply build_trie_represents in B as [A1 A2].
  apply build_trie_represents in B' as [A1' A2']. apply extract_same.
  assert (K : forall path, known rules path = known rules' path) by (intros; apply existsb_same; exact H).
  assert (R : forall path, is_rule rules path = is_rule rules' path) by (intros; apply existsb_same; exact H).
  split; intros path.
  - destruct path as [|k path]; [reflexivity|]. rewrite A1, A1' by discriminate. apply K.
  - rewrite A2, A2'. unfold is_suffix. rewrite R. destruct path as [|k [|k' path]]; rewrite ?K; reflexivity.
Qed.

(** ** C49 *)

Lemma reported_unknown : forall rules first segs sub dom sfx l, nth 0 (labels first segs) [] = l ->
  known rules [decoded l] = false -> known rules [str "*"] = false ->
  reported rules first segs sub dom sfx -> sfx = [] /\ dom = l.
Proof.
  intros rules first segs sub dom sfx l <- K1 K2 R. unfold reported in R.
  assert (W : walk rules [] (labels first segs) = (None, 0)).
  { destruct (labels first segs) as [|x more] eqn:E; [reflexivity|]. cbn [nth] in K1. cbn [walk app]. rewrite K2, K1. reflexivity. }
  rewrite W in R. tauto.
Qed.

Lemma parts_unique : forall ext p sc us raw h po pa sc' us' raw' h' po' pa',
  url_parts ext p sc us raw h po pa -> url_parts ext p sc' us' raw' h' po' pa' ->
  sc = sc' /\ us = us' /\ raw = raw' /\ h = h' /\ po = po' /\ pa = pa'.
Proof.
  intros ext p sc us raw h po pa sc' us' raw' h' po' pa' (af & F & H & A & C) (af' & F' & H' & A' & C').
  destruct (front_unique _ _ _ _ _ _ _ F F') as (-> & -> & E).
  assert (X : forall a b a' b', plain_host a -> plain_host a' -> starts_with (fun b => path_char b \/ b = 58%N) b ->
     starts_with (fun b => path_char b \/ b = 58%N) b' -> a ++ b = a' ++ b' -> a = a' /\ b = b').
  { clear. induction a as [|x a IH]; intros b a' b' Ha Ha' Hb Hb' E.
    - destruct a' as [|y a']; [auto|]. exfalso. cbn [app] in E. subst b. cbn [starts_with] in Hb. inversion Ha' as [|? ? (P & _ & Q) _]. tauto.
    - inversion Ha as [|? ? (P & _ & Q) Ha2]; subst. destruct a' as [|y a'].
      + exfalso. cbn [app] in E. subst b'. cbn [starts_with] in Hb'. tauto.
      + cbn [app] in E. injection E as -> E. inversion Ha'; subst. destruct (IH b a' b') as [-> ->]; auto. }
  assert (Y : forall af po pa, after_host af po pa -> starts_with (fun b => path_char b \/ b = 58%N) af).
  { clear. intros af [po|] pa (A & B).
    - destruct B as [-> _]. cbn. auto.
    - subst af. destruct pa; [exact I|]. cbn in *. auto. }
  destruct (X _ _ _ _ H H' (Y _ _ _ A) (Y _ _ _ A') E) as [-> ->].
  assert (h = h') as -> by (apply converted_iff in C; apply converted_iff in C'; congruence).
  assert (Z : po = po' /\ pa = pa'); [|tauto].
  destruct A as [P A], A' as [P' A']. destruct po as [po|], po' as [po'|].
  - destruct A as [-> N], A' as [E' N']. apply app_inv_head in E'.
    assert (Q : forall a b a' b', no_path_char a -> no_path_char a' -> is_path b -> is_path b' -> a ++ b = a' ++ b' -> a = a' /\ b = b').
    { clear. induction a as [|x a IH]; intros b a' b' Ha Ha' Hb Hb' E.
      - destruct a' as [|y a']; [auto|]. exfalso. cbn [app] in E. subst b. cbn [is_path starts_with] in Hb. inversion Ha'; subst. auto.
      - inversion Ha as [|? ? Hx Ha2]; subst. destruct a' as [|y a'].
        + exfalso. cbn [app] in E. subst b'. cbn in Hb'. auto.
        + cbn [app] in E. injection E as -> E. inversion Ha'; subst. destruct (IH b a' b') as [-> ->]; auto. }
    destruct (Q _ _ _ _ N N' P P' E') as [-> ->]. auto.
  - exfalso. destruct A as [-> _]. subst pa'. cbn in P'. revert P'. unfold path_char. cbn. intuition discriminate.
  - exfalso. destruct A' as [-> _]. subst pa. cbn in P. revert P. unfold path_char. cbn. intuition discriminate.
  - subst. auto.
Qed.

Lemma c49 : forall ext rules t p r scheme user raw h port path first zs segs, build_trie rules = Ret t ->
  extract ext t p = Ret (r, None) -> r_host_type r = HHostName ->
  url_parts ext p scheme user raw h port path -> labelled h first zs segs ->
  known rules [decoded (nth 0 (labels first segs) [])] = false -> known rules [str "*"] = false ->
  r_suffix r = [] /\ r_registered_domain r = [] /\ r_domain r = nth 0 (labels first segs) [].
Proof.
  intros ext rules t p r sc us raw h po pa first zs segs B H T U L K1 K2.
  destruct (c21 _ _ _ _ _ B H T) as (sc' & us' & raw' & h' & po' & pa' & first' & zs' & segs' & sub & U' & L' & R & _).
  destruct (parts_unique _ _ _ _ _ _ _ _ _ _ _ _ _ _ U U') as (_ & _ & _ & <- & _ & _).
  destruct (stripped_unique _ _ _ _ _ _ _ L L') as (<- & <- & <-).
  destruct (reported_unknown _ _ _ _ _ _ _ eq_refl K1 K2 R) as (A & C). split; [exact A|]. split; [|exact C].
  apply (c16 _ _ _ _ H T). exact A.
Qed.

(** C21 for a given decomposition *)
Lemma c21_at : forall ext rules t p r scheme user raw h port path first zs segs, build_trie rules = Ret t ->
  extract ext t p = Ret (r, None) -> r_host_type r = HHostName ->
  url_parts ext p scheme user raw h port path -> labelled h first zs segs ->
  exists sub, reported rules first segs sub (r_domain r) (r_suffix r)
    /\ r_sub_domain r = (if p_ignore_sub_domains p then [] else sub).
Proof.
  intros ext rules t p r sc us raw h po pa first zs segs B H T U L.
  destruct (c21 _ _ _ _ _ B H T) as (sc' & us' & raw' & h' & po' & pa' & first' & zs' & segs' & sub & U' & L' & R & S).
  destruct (parts_unique _ _ _ _ _ _ _ _ _ _ _ _ _ _ U U') as (_ & _ & _ & <- & _ & _).
  destruct (stripped_unique _ _ _ _ _ _ _ L L') as (<- & <- & <-). eauto.
Qed.

Lemma labelled_total : forall h, exists first zs segs, labelled h first zs segs.
Proof. intros h. destruct (stripped_total h) as (first & zs & segs & S & _). exists first, zs, segs. exact S. Qed.

(** ** Hosts of letters, digits and hyphens are accepted *)

Lemma alnum_contains : forall b, (letter b \/ digit b) <-> contains alpha_numeric_set b = true.
Proof.
  intros b. unfold alpha_numeric_set. rewrite ascii_set_exact. unfold letter, digit. split.
  - intros H. split; [lia|].
    assert (X : forallb (fun b => memN b (alphabets ++ numbers)) (map N.of_nat (seq 48 10 ++ seq 65 26 ++ seq 97 26)) = true)
      by (vm_compute; reflexivity).
    rewrite forallb_forall in X. apply memN_In. apply X. apply in_map_iff. exists (N.to_nat b).
    split; [apply N2Nat.id|]. rewrite !in_app_iff, !in_seq. lia.
  - intros (_ & H). apply in_app_iff in H. cbn in H. lia.
Qed.

Lemma loop_label : forall l q pos last_ sep, Forall (fun b => letter b \/ digit b \/ b = 45%N) l -> l <> [] ->
  (pos = 0%Z -> hd 45%N l <> 45%N) -> last l 45%N <> 45%N -> (0 <= pos)%Z -> (pos + len l - 1 <= last_)%Z ->
  invalid_loop (range_from (l ++ q) 0 pos) last_ sep = invalid_loop (range_from q 0 (pos + len l)) last_ false.
Proof.
  induction l as [|b l IH]; intros q pos last_ sep F N H0 Hl P L; [contradiction|].
  inversion F as [|? ? Hb F']; subst.
  assert (V : (b < 128)%N) by (unfold letter, digit in Hb; lia).
  assert (E : encode b = [b]) by (apply encode_low; exact V).
  change ((b :: l) ++ q) with ([b] ++ (l ++ q)). rewrite <- E.
  rewrite range_from_encode by (unfold valid_rune; lia). rewrite E. cbn [invalid_loop].
  replace (b mod 256)%N with b by (symmetry; apply N.mod_small; lia).
  unfold len in *. cbn [length] in *.
  assert (K : forall s, invalid_loop (range_from (l ++ q) 0 (pos + Z.of_nat 1)) last_ s
              = invalid_loop (range_from q 0 (pos + Z.of_nat (S (length l)))) last_ false \/ l = []).
  { intros s. destruct l as [|b' l']; [auto|]. left. rewrite IH; auto; try discriminate; try lia.
    f_equal. f_equal. lia. }
  destruct (contains alpha_numeric_set b) eqn:A.
  - destruct (K false) as [->| ->]; [reflexivity|]. cbn [app length]. reflexivity.
  - assert (b = 45%N) as -> by (destruct Hb as [Hb|[Hb|Hb]]; [|  |exact Hb];
      exfalso; assert (contains alpha_numeric_set b = true) by (apply alnum_contains; auto); congruence).
    assert (Nl : l <> []) by (intros ->; cbn in Hl; contradiction).
    destruct (Z.eqb_spec pos 0) as [->|]; [exfalso; apply H0; reflexivity|]. cbn [andb].
    assert (pos <> last_) by (destruct l; [contradiction|cbn [length] in *; lia]).
    destruct (Z.eqb_spec pos last_); [contradiction|]. cbn [andb].
    change (exists_in label_separators_rune_set 45%N) with false. change (exists_in invalid_host_name_chars_rune_set 45%N) with false. cbv iota.
    destruct (K false) as [->| ->]; [reflexivity|contradiction].
Qed.

Lemma loop_sep : forall s q pos last_, is_sep_text s -> (0 < pos)%Z ->
  exists b, invalid_loop (range_from (s ++ q) 0 pos) last_ false = invalid_loop (range_from q 0 (pos + len s)) last_ b.
Proof.
  intros s q pos last_ Hs P.
  assert (X : exists r, valid_rune r /\ s = encode r /\
    (contains alpha_numeric_set (r mod 256) = true \/
     ((r =? 45)%N = false /\ contains alpha_numeric_set (r mod 256) = false /\ exists_in label_separators_rune_set r = true
      /\ exists_in invalid_host_name_chars_rune_set r = false))).
  { destruct Hs as [->|[->|[->| ->]]]; [exists 46%N|exists 12290%N|exists 65294%N|exists 65377%N];
      (split; [unfold valid_rune; lia|]; split; [reflexivity|]; vm_compute; auto). }
  destruct X as (r & V & -> & X). rewrite range_from_encode by exact V. cbn [invalid_loop].
  destruct X as [->|(-> & -> & -> & ->)]; [exists false; reflexivity|]. exists true.
  destruct (Z.eqb_spec pos 0); [lia|]. cbn [andb]. rewrite andb_false_r. reflexivity.
Qed.

Lemma ldh_nonempty : forall l, ldh l -> l <> [].
Proof. intros l (_ & H & _) ->. cbn in H. contradiction. Qed.

Lemma len_app : forall A (a b : list A), len (a ++ b) = (len a + len b)%Z.
Proof. intros. unfold len. rewrite app_length. lia. Qed.

Lemma ldh_text : forall segs first pos last_ sep, ldh first -> Forall (fun g => ldh (fst g) /\ is_sep_text (snd g)) segs ->
  (0 <= pos)%Z -> (pos + len (host first segs) - 1 <= last_)%Z ->
  invalid_loop (range_from (host first segs) 0 pos) last_ sep = false.
Proof.
  induction segs as [|[l s] segs IH] using rev_ind; intros first pos last_ sep Hf F P L.
  - cbn [host] in *. rewrite <- (app_nil_r first). destruct Hf as (A & B & C).
    rewrite loop_label; auto; [apply ldh_nonempty; repeat split; assumption].
  - rewrite host_rev_snoc in *. apply Forall_app in F as [F F1]. inversion F1 as [|? ? (Hl & Hs) _]; subst. cbn [fst snd] in *.
    pose proof (ldh_nonempty _ Hf) as Nf. destruct Hf as (A & B & C).
    rewrite !len_app in L. assert (0 <= len (host l segs))%Z by (unfold len; lia). assert (0 <= len s)%Z by (unfold len; lia).
    rewrite loop_label; auto; [|lia].
    assert (0 < len first)%Z by (unfold len; destruct first; [contradiction|cbn [length]; lia]).
    destruct (loop_sep s (host l segs) (pos + len first) last_ Hs ltac:(lia)) as (b & ->). apply IH; auto; lia.
Qed.

Lemma ldh_valid : forall segs first, ldh first -> Forall (fun g => ldh (fst g) /\ is_sep_text (snd g)) segs ->
  has_invalid_chars (host first segs) = false.
Proof. intros. unfold has_invalid_chars, range_str. apply ldh_text; auto; lia. Qed.

(** Walking over non-empty labels never meets an empty one. *)
Lemma cwalk_total : forall labs t hs j start prev, labs <> [] -> Forall (fun l => l <> []) labs ->
  exists c, cwalk t hs j start prev labs = Some c.
Proof.
  induction labs as [|label more IH]; intros t hs j start prev N F; [contradiction|]. inversion F; subst. cbn [cwalk].
  destruct label as [|b label]; [contradiction|]. cbn [is_nil andb].
  destruct (child t (str "*")); [eauto|]. destruct (child t (unescaped (b :: label))) as [val|]; [|eauto].
  match goal with |- context [if ?x || ?y then _ else _] => destruct (x || y) eqn:Q end; [eauto|]. apply IH; [|assumption].
  destruct more; [rewrite orb_true_r in Q; discriminate|discriminate].
Qed.

Lemma c21_complete : forall ext rules t p r e scheme user raw h port path first zs segs, build_trie rules = Ret t ->
  extract ext t p = Ret (r, e) -> url_parts ext p scheme user raw h port path -> port_accepted port ->
  labelled h first zs segs -> Forall ldh (labels first segs) -> ~ ipv4_text h ->
  (e = None <-> (forall k, walk rules [] (labels first segs) <> (Some k, S (length segs))))
  /\ (e = None -> r_host_type r = HHostName).
Proof.
  intros ext rules t p r e sc us raw h po pa first zs segs B H U Ok L F N4. apply build_trie_represents in B.
  rewrite (extract_parts _ _ _ _ _ _ _ _ _ U Ok) in H. apply Ret_inj in H.
  assert (V : v4 h = false). { destruct (v4 h) eqn:V; [|reflexivity]. apply v4_iff in V. contradiction. }
  rewrite V, (host_outcome_stripped _ _ _ _ _ _ _ _ L) in H.
  assert (Nn : Forall (fun l : bytes => l <> []) (labels first segs)).
  { apply Forall_forall. intros l Hl. rewrite Forall_forall in F. apply ldh_nonempty. apply F. exact Hl. }
  destruct (cwalk_total (labels first segs) t false 0 0 0) as (c & Hw); [unfold labels; destruct (map fst segs); discriminate|exact Nn|].
  rewrite Hw in H. pose proof (cwalk_ok _ _ _ _ Hw) as Hok.
  destruct (walk rules [] (labels first segs)) as [o n] eqn:Ew.
  destruct (cwalk_walk t rules B _ [] t _ _ _ _ _ _ _ eq_refl Hw Ew) as (W1 & W2 & W3). cbn [orb Nat.add] in W1, W2, W3.
  (* checked text *)
  assert (Hff : ldh first /\ Forall (fun g : seg => ldh (fst g) /\ is_sep_text (snd g)) segs).
  { unfold labels in F. apply Forall_app in F as [F1 F2]. inversion F2; subst. split; [assumption|].
    destruct L as (_ & W & _). apply well_split_app in W as (_ & W). apply Forall_forall. intros g Hg.
    rewrite Forall_forall in F1, W. split; [apply F1; apply in_map; exact Hg|apply W; exact Hg]. }
  assert (Hv : forall i, has_invalid_chars (host first (skipn i segs)) = false).
  { intros i. destruct Hff as [A C]. apply ldh_valid; [exact A|]. apply Forall_skipn. exact C. }
  destruct (components_cases _ _ _ _ _ _ _ _ _ _ _ Hok H) as [(X & _)|[(X & Hh & Hs & _)|(Hs & Hi & [(Hd & X & E)|(Hd & X & E)])]].
  - subst e. split; [|discriminate]. split; [discriminate|]. intros X. exfalso.
    unfold components in H. destruct (c_has c) eqn:Hh.
    + destruct o as [k|]; [|discriminate W1]. rewrite W2 in H. destruct (Nat.eqb_spec n (S (length segs))) as [En|Ns].
      * apply (X k). rewrite En. reflexivity.
      * rewrite Hv in H. unfold with_host_type in H. destruct (is_nil _) in H; discriminate.
    + rewrite Hv in H. destruct (is_nil _) in H; discriminate.
  - subst e. split; [|discriminate]. split; [discriminate|]. intros X. exfalso. rewrite Hh in W1. destruct o as [k|]; [|discriminate W1].
    apply (X k). congruence.
  - subst e r. split; [|reflexivity]. split; [|reflexivity]. intros _ k X. injection X as -> ->.
    assert (c_has c = true) by exact W1. specialize (Hs H0). lia.
  - exfalso. unfold the_domain, label_at in Hd. rewrite Forall_forall in Nn.
    destruct (c_has c); [specialize (Hs eq_refl)|]; refine (Nn _ _ Hd); apply nth_In; rewrite labels_length; lia.
Qed.
