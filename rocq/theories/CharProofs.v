(** CharProofs.v - proofs about forbidden characters, empty labels and RFC 4291 literals. *)

From Verif Require Import Base BaseFacts Utf8 Utf8Facts Chars Str StrFacts Net Trie Extract Host HostFacts
  Walk WalkFacts Addr NetFacts Parse ParseFacts UrlSpec UrlFacts ExtractFacts OutcomeFacts Rfc UrlProofs.
From Coq Require Import ZifyBool ZifyNat ZifyN.
Local Open Scope N_scope.

(** ** Characters of a string *)

Lemma range_contains : forall r, valid_rune r -> forall (s p q : bytes) k, s = p ++ encode r ++ q ->
  exists i, In (i, r) (range_from s 0 k).
Proof.
  intros r V s. induction s as [|r' q' V' D IH|b q' D IH] using rune_ind; intros p q k E.
  - exfalso. pose proof (encode_nonempty r V). destruct p, (encode r); discriminate || contradiction.
  - rewrite range_from_encode by exact V'.
    destruct (encode_sync r' r p q' q V' V E) as [(-> & -> & ->)|(y & -> & ->)].
    + exists k. left. reflexivity.
    + destruct (IH y q (k + len (encode r'))%Z eq_refl) as (i & Hi). exists i. right. exact Hi.
  - destruct p as [|x p].
    + cbn [app] in E. rewrite E in D. rewrite decode_encode in D by exact V. injection D as -> L. vm_compute in L. discriminate.
    + cbn [app] in E. injection E as -> E. rewrite (range_from_step (x :: q') rune_error 1 k) by (auto; discriminate).
      cbn [skipn]. destruct (IH p q (k + Z.of_nat 1)%Z E) as (i & Hi). exists i. right. exact Hi.
Qed.

Lemma invalid_loop_ok : forall rs last sep i c, invalid_loop rs last sep = false -> In (i, c) rs ->
  contains alpha_numeric_set (c mod 256) = true \/ exists_in invalid_host_name_chars_rune_set c = false.
Proof.
  induction rs as [|(j & d) rs IH]; intros last sep i c H Hi; [destruct Hi|].
  cbn [invalid_loop] in H. destruct Hi as [Hi|Hi].
  - injection Hi as -> ->. destruct (contains alpha_numeric_set (c mod 256)); [auto|]. right.
    destruct ((i =? 0)%Z && _); [discriminate|]. destruct ((i =? last)%Z && _); [discriminate|].
    destruct (exists_in invalid_host_name_chars_rune_set c); [|reflexivity].
    destruct (exists_in label_separators_rune_set c); [destruct sep|]; discriminate.
  - destruct (contains alpha_numeric_set (d mod 256)); [eapply IH; eauto|].
    destruct ((j =? 0)%Z && _); [discriminate|]. destruct ((j =? last)%Z && _); [discriminate|].
    destruct (exists_in label_separators_rune_set d).
    + destruct sep; [discriminate|]. destruct (exists_in invalid_host_name_chars_rune_set d); [discriminate|]. eapply IH; eauto.
    + destruct (exists_in invalid_host_name_chars_rune_set d); [discriminate|]. eapply IH; eauto.
Qed.

Lemma forbidden_eq : invalid_host_name_chars_rune_set = forbidden.
Proof. vm_compute. reflexivity. Qed.

Lemma forbidden_valid : Forall valid_rune forbidden.
Proof.
  assert (X : forallb (fun c => (c <? 55296) || ((57344 <=? c) && (c <=? 1114111))) forbidden = true)
    by (vm_compute; reflexivity).
  rewrite forallb_forall in X. apply Forall_forall. intros c H. specialize (X c H). unfold valid_rune. lia.
Qed.

Lemma low_byte : forall c, In c forbidden -> c <> 888 -> c <> 8299 -> c <> 10868 ->
  contains alpha_numeric_set (c mod 256) = false.
Proof.
  intros c H N1 N2 N3.
  assert (X : forallb (fun c => (c =? 888) || (c =? 8299) || (c =? 10868)
                                || negb (contains alpha_numeric_set (c mod 256))) forbidden = true)
    by (vm_compute; reflexivity).
  rewrite forallb_forall in X. specialize (X c H). lia.
Qed.

Lemma checked_no_forbidden : forall s c, has_invalid_chars s = false -> In c forbidden ->
  c <> 888 -> c <> 8299 -> c <> 10868 -> ~ has_char c s.
Proof.
  intros s c H Hc N1 N2 N3 (p & q & E). unfold has_invalid_chars in H.
  assert (V : valid_rune c) by (pose proof forbidden_valid as F; rewrite Forall_forall in F; auto).
  destruct (range_contains c V s p q 0%Z E) as (i & Hi).
  destruct (invalid_loop_ok _ _ _ _ _ H Hi) as [X|X].
  - rewrite (low_byte c Hc N1 N2 N3) in X. discriminate.
  - rewrite forbidden_eq in X. apply memN_In in Hc. unfold exists_in in X. congruence.
Qed.

Lemma has_char_app : forall c a s b, has_char c s -> has_char c (a ++ s ++ b).
Proof.
  intros c a s b (p & q & ->). exists (a ++ p), (q ++ b). rewrite <- !app_assoc. reflexivity.
Qed.

(** The checked text contains domain and subdomain if there is a suffix. *)
Lemma skipn_text : forall first segs i j, (i <= j <= length segs)%nat ->
  exists q, host first (skipn i segs) = host first (skipn j segs) ++ q.
Proof.
  intros first segs i j H. destruct (Nat.eq_dec i j) as [->|].
  - exists []. rewrite app_nil_r. reflexivity.
  - eexists. apply text_join; lia.
Qed.

Lemma checked_contains : forall first segs c, counts_ok segs c -> c_has c = true -> (c_sep c <= length segs)%nat ->
  (exists a b, checked_text first segs c = a ++ the_domain first segs c ++ b)
  /\ (exists b, checked_text first segs c = the_sub first segs c ++ b).
Proof.
  intros first segs c [Hp Hc He] Hh Hs. unfold checked_text, the_domain, the_sub, sub_from. rewrite Hh.
  specialize (He Hh).
  destruct (skipn_text first segs (c_start c) (c_sep c) ltac:(lia)) as (q & E). rewrite E. split.
  - rewrite text_label by lia. exists (before first segs (c_sep c)), q. rewrite <- app_assoc. reflexivity.
  - destruct (S (c_sep c) <=? length segs)%nat eqn:L; [|exists (host first (skipn (c_sep c) segs) ++ q); reflexivity].
    apply Nat.leb_le in L. destruct (skipn_text first segs (c_sep c) (S (c_sep c)) ltac:(lia)) as (q' & E').
    rewrite E'. exists (q' ++ q). rewrite <- app_assoc. reflexivity.
Qed.

Lemma c19_partial : forall ext t p r c, extract ext t p = Ret (r, None) -> r_host_type r = HHostName ->
  r_suffix r <> [] -> In c forbidden -> c <> 888 -> c <> 8299 -> c <> 10868 ->
  ~ has_char c (r_domain r) /\ ~ has_char c (r_sub_domain r).
Proof.
  intros ext t p r c H T Hsfx Hc N1 N2 N3.
  destruct (host_name _ _ _ _ H T) as (sc & us & raw & h & po & pa & first & zs & segs & k & U & Ok & V & S & Hw & Hok & Hs & Hi & Hd & ->).
  cbn [r_suffix r_domain r_sub_domain] in *. destruct (c_has k) eqn:Hh.
  - destruct (checked_contains first segs k Hok Hh (Hs eq_refl)) as ((a & b & Ea) & (b' & Eb)).
    pose proof (checked_no_forbidden _ c Hi Hc N1 N2 N3) as X. split; intros Y; apply X.
    + rewrite Ea. apply has_char_app. exact Y.
    + rewrite Eb. destruct (p_ignore_sub_domains p).
      * exfalso. destruct Y as (x & y & Y). symmetry in Y. apply app_eq_nil in Y as [_ Y]. apply app_eq_nil in Y as [Y _].
        revert Y. apply encode_nonempty. pose proof forbidden_valid as F. rewrite Forall_forall in F. auto.
      * apply (has_char_app c [] _ b' Y).
  - exfalso. apply Hsfx. unfold the_suffix. rewrite Hh. reflexivity.
Qed.

(** ** Empty labels *)

Definition plain_sep (r : rune) : Prop := In r [46; 12290; 65294].

Lemma plain_sep_facts : forall r, plain_sep r -> valid_rune r
  /\ contains alpha_numeric_set (r mod 256) = false /\ exists_in label_separators_rune_set r = true
  /\ exists_in invalid_host_name_chars_rune_set r = false /\ (r =? 45) = false.
Proof.
  intros r H. unfold plain_sep in H. cbn in H. destruct H as [<-|[<-|[<-|[]]]];
    (split; [unfold valid_rune; lia|]; vm_compute; auto).
Qed.

Lemma sep_text_plain : forall s, is_sep_text s -> s <> [239; 189; 161] -> exists r, plain_sep r /\ s = encode r.
Proof.
  intros s [->|[->|[->| ->]]] H; [exists 46|exists 12290|exists 65294|contradiction];
    (split; [cbn; auto|reflexivity]).
Qed.

Lemma invalid_consecutive_from : forall r1 r2, plain_sep r1 -> plain_sep r2 -> forall (s p q : bytes) k last sep,
  s = p ++ encode r1 ++ encode r2 ++ q -> invalid_loop (range_from s 0 k) last sep = true.
Proof.
  intros r1 r2 H1 H2. destruct (plain_sep_facts r1 H1) as (V1 & A1 & B1 & C1 & D1).
  destruct (plain_sep_facts r2 H2) as (V2 & A2 & B2 & C2 & D2).
  intros s. induction s as [|r' q' V' D IH|b q' D IH] using rune_ind; intros p q k last sep E.
  - exfalso. pose proof (encode_nonempty r1 V1). destruct p, (encode r1); discriminate || contradiction.
  - rewrite range_from_encode by exact V'.
    destruct (encode_sync r' r1 p q' (encode r2 ++ q) V' V1 E) as [(-> & -> & ->)|(y & -> & ->)].
    + cbn [invalid_loop]. rewrite A1, B1, C1, D1. rewrite orb_true_r, !andb_true_r, andb_false_r.
      destruct (k =? 0)%Z; [reflexivity|]. destruct sep; [reflexivity|].
      rewrite range_from_encode by exact V2. cbn [invalid_loop]. rewrite A2, B2, D2. rewrite andb_false_r.
      destruct (_ && _); reflexivity.
    + cbn [invalid_loop]. specialize (IH y q).
      destruct (contains alpha_numeric_set (r' mod 256)); [apply IH; reflexivity|].
      destruct ((k =? 0)%Z && _); [reflexivity|]. destruct ((k =? last)%Z && _); [reflexivity|].
      destruct (exists_in label_separators_rune_set r').
      * destruct sep; [reflexivity|]. destruct (exists_in invalid_host_name_chars_rune_set r'); [reflexivity|]. apply IH; reflexivity.
      * destruct (exists_in invalid_host_name_chars_rune_set r'); [reflexivity|]. apply IH; reflexivity.
  - destruct p as [|x p].
    + cbn [app] in E. rewrite E in D. rewrite decode_encode in D by exact V1. injection D as -> L. vm_compute in L. discriminate.
    + cbn [app] in E. injection E as -> E. rewrite (range_from_step (x :: q') rune_error 1 k) by (auto; discriminate).
      cbn [skipn invalid_loop]. specialize (IH p q).
      destruct (contains alpha_numeric_set (rune_error mod 256)); [apply IH; exact E|].
      destruct ((k =? 0)%Z && _); [reflexivity|]. destruct ((k =? last)%Z && _); [reflexivity|].
      destruct (exists_in label_separators_rune_set rune_error).
      * destruct sep; [reflexivity|]. destruct (exists_in invalid_host_name_chars_rune_set rune_error); [reflexivity|]. apply IH; exact E.
      * destruct (exists_in invalid_host_name_chars_rune_set rune_error); [reflexivity|]. apply IH; exact E.
Qed.

Lemma invalid_leading : forall r q, plain_sep r -> has_invalid_chars (encode r ++ q) = true.
Proof.
  intros r q H. destruct (plain_sep_facts r H) as (V & A & B & C & D). unfold has_invalid_chars, range_str.
  rewrite range_from_encode by exact V. cbn [invalid_loop]. rewrite A, B, D, orb_true_r. reflexivity.
Qed.

(** Labels of an accepted text: none is empty, except possibly the rightmost one. *)
Lemma checked_labels : forall first segs, well_split first segs ->
  Forall (fun g => snd g <> [239; 189; 161]) segs -> has_invalid_chars (host first segs) = false ->
  host first segs = [] \/
  ((segs <> [] -> first <> []) /\ Forall (fun g => fst g <> []) (tl segs)).
Proof.
  intros first segs W F H. destruct segs as [|g segs]; [right; split; [contradiction|constructor]|]. right.
  (* generalise over the rightmost label *)
  assert (X : forall pre, well_split first segs -> Forall (fun g => snd g <> [239; 189; 161]) segs ->
     forall s, is_sep_text s -> s <> [239; 189; 161] ->
     has_invalid_chars (host first segs ++ s ++ pre) = false ->
     first <> [] /\ Forall (fun g => fst g <> []) segs).
  { clear. induction segs as [|[l s'] segs IH]; intros pre W F s Hs Ns H.
    - cbn [host] in H. split; [|constructor]. intros ->. cbn [app] in H.
      destruct (sep_text_plain s Hs Ns) as (r & Hr & ->). rewrite invalid_leading in H by exact Hr. discriminate.
    - destruct W as (Wf & Ws). inversion Ws as [|? ? (A & B) Ws']; subst. inversion F as [|? ? Nf F']; subst.
      cbn [fst snd] in *. cbn [host] in H. rewrite <- !app_assoc in H.
      destruct (IH (l ++ s ++ pre) (conj Wf Ws') F' s' B Nf H) as [P Q]. split; [exact P|].
      constructor; [|exact Q]. cbn [fst]. intros ->. cbn [app] in H.
      destruct (sep_text_plain s Hs Ns) as (r & Hr & ->). destruct (sep_text_plain s' B Nf) as (r' & Hr' & ->).
      unfold has_invalid_chars, range_str in H.
      rewrite (invalid_consecutive_from r' r Hr' Hr _ (host first segs) pre) in H by reflexivity. discriminate. }
  destruct g as [l s]. destruct W as (Wf & Ws). inversion Ws as [|? ? (A & B) Ws']; subst.
  inversion F as [|? ? Nf F']; subst. cbn [fst snd host tl] in *.
  destruct (X l (conj Wf Ws') F' s B Nf H) as [P Q]. split; [intros _; exact P|exact Q].
Qed.

Lemma host_app_cons : forall sg' f' s2 s1 sg f,
  host f (sg' ++ (f', s2) :: ([], s1) :: sg) = host f sg ++ s1 ++ s2 ++ host f' sg'.
Proof.
  intros. rewrite host_app. cbn [host]. rewrite app_nil_r.
  induction sg' as [|[l s] sg' IH]; cbn [host]; [rewrite <- !app_assoc; reflexivity|].
  rewrite IH, <- !app_assoc. reflexivity.
Qed.

Lemma empty_host_seps : forall segs, Forall (fun g => fst g = [] /\ is_sep_text (snd g)) segs -> seps (host [] segs).
Proof.
  induction 1 as [|[l s] segs (A & B) F IH]; cbn [host]; [constructor|]. cbn [fst snd] in *. subst l. rewrite app_nil_r.
  clear - IH B. induction IH as [|x w Hx T IH]; cbn [app].
  + rewrite <- (app_nil_r s). constructor; [exact B|constructor].
  + rewrite <- app_assoc. constructor; auto.
Qed.

Lemma well_split_host_app : forall f1 sg1 f2 sg2 s, well_split f1 sg1 -> well_split f2 sg2 -> is_sep_text s ->
  well_split f1 (sg2 ++ (f2, s) :: sg1).
Proof.
  intros f1 sg1 f2 sg2 s (A & B) (C & D) Hs. split; [exact A|]. apply Forall_app. split; [exact D|].
  constructor; [split; assumption|exact B].
Qed.

Lemma prefix_inside : forall A (zs segs a b : list A) (P : A -> Prop) x,
  zs ++ segs = a ++ x :: b -> Forall P segs -> ~ P x -> exists zs2, zs = a ++ x :: zs2.
Proof.
  intros A zs segs a b P x E F Nx. destruct (app_split _ _ _ _ _ E) as [(m & -> & Em)|(m & Hm & -> & Em)].
  - exfalso. subst segs. apply Forall_app in F as [_ F]. inversion F; contradiction.
  - destruct m as [|y m]; [contradiction|]. cbn [app] in Em. injection Em as <- _. eauto.
Qed.

(** From non-empty labels to the absence of consecutive separators. *)
Lemma labels_no_empty : forall h first zs segs, stripped h first zs segs -> first <> [] ->
  Forall (fun g => fst g <> []) segs -> no_empty_label h.
Proof.
  intros h first zs segs (Eh & W & Z & _) Hf F. split.
  - intros s q Hs E. destruct (split_exists q) as (f' & sg' & -> & W').
    assert (X : host first (zs ++ segs) = host [] (sg' ++ [(f', s)])).
    { rewrite <- Eh, E. rewrite host_rev_snoc. reflexivity. }
    assert (W2 : well_split [] (sg' ++ [(f', s)])).
    { apply well_split_host_app; [split; [apply no_sep_nil|constructor]|exact W'|exact Hs]. }
    destruct (split_unique _ _ _ _ W W2 X) as [Y _]. contradiction.
  - intros p s1 s2 q H1 H2 E. destruct (split_exists p) as (f & sg & -> & Wp).
    destruct (split_exists q) as (f' & sg' & -> & Wq).
    assert (X : host first (zs ++ segs) = host f (sg' ++ (f', s2) :: ([], s1) :: sg)).
    { rewrite <- Eh, E. rewrite host_app_cons. reflexivity. }
    assert (W2 : well_split f (sg' ++ (f', s2) :: ([], s1) :: sg)).
    { apply (well_split_host_app f (([], s1) :: sg) f' sg' s2); auto. destruct Wp as (A & B). split; [exact A|].
      constructor; [split; [apply no_sep_nil|exact H1]|exact B]. }
    destruct (split_unique _ _ _ _ W W2 X) as [_ Y].
    assert (Y' : zs ++ segs = (sg' ++ [(f', s2)]) ++ ([], s1) :: sg) by (rewrite <- app_assoc; exact Y).
    destruct (prefix_inside _ zs segs _ sg (fun g : seg => fst g <> []) ([], s1) Y' F) as (zs2 & ->).
    { cbn [fst]. intros N. apply N. reflexivity. }
    apply Forall_app in Z as [Z _]. apply Forall_app in Z as [Z1 Z2]. inversion Z2; subst. cbn [fst] in *. subst f'.
    apply empty_host_seps. apply Forall_forall. intros g Hg. rewrite Forall_forall in Z1. split; [auto|].
    destruct Wq as (_ & Wq). rewrite Forall_forall in Wq. apply Wq. exact Hg.
Qed.

Lemma host_has_sep : forall segs first g, In g segs -> exists p q, host first segs = p ++ snd g ++ q.
Proof.
  induction segs as [|[l s] segs IH]; intros first g H; [destruct H|]. destruct H as [<-|H]; cbn [host snd].
  - exists (host first segs), l. reflexivity.
  - destruct (IH first g H) as (p & q & ->). exists p, (q ++ s ++ l). rewrite <- !app_assoc. reflexivity.
Qed.

Lemma Forall_skipn : forall A (P : A -> Prop) n l, Forall P l -> Forall P (skipn n l).
Proof. intros A P n l H. rewrite <- (firstn_skipn n l) in H. apply Forall_app in H. apply H. Qed.

Lemma in_tl_skipn : forall A (l : list A) i k d, (i < k)%nat -> (k < length l)%nat -> In (nth k l d) (tl (skipn i l)).
Proof.
  induction l as [|x l IH]; intros i k d H L; [cbn [length] in L; lia|].
  destruct k as [|k]; [lia|]. cbn [length] in L. destruct i as [|i]; cbn [skipn nth tl].
  - apply nth_In. lia.
  - apply IH; lia.
Qed.

Lemma labels_nonempty : forall t h first zs segs c, stripped h first zs segs ->
  cwalk t false 0 0 0 (labels first segs) = Some c -> counts_ok segs c ->
  c_has c = true -> (c_sep c <= length segs)%nat ->
  has_invalid_chars (checked_text first segs c) = false -> the_domain first segs c <> [] ->
  (forall p q, h <> p ++ [239; 189; 161] ++ q) ->
  first <> [] /\ Forall (fun g => fst g <> []) segs.
Proof.
  intros t h first zs segs c S Hw [Hp Hc He] Hh Hs Hi Hd Nff.
  unfold checked_text in Hi. unfold the_domain in Hd. rewrite Hh in *. specialize (He eq_refl).
  destruct S as (Eh & W & Z & Hhd).
  assert (W' : well_split first segs) by (eapply well_split_app; eauto).
  assert (Fs : Forall (fun g => snd g <> [239; 189; 161]) segs).
  { apply Forall_forall. intros g Hg Eg.
    destruct (host_has_sep (zs ++ segs) first g) as (p & q & E); [apply in_or_app; auto|].
    apply (Nff p q). transitivity (p ++ snd g ++ q); [exact (eq_trans Eh E)|]. do 2 f_equal. exact Eg. }
  (* label c_start is not empty *)
  assert (L0 : label_at first segs (c_start c) <> []).
  { destruct Hc as [(E1 & [E2|E2])|(E1 & E2)].
    - rewrite E1, <- E2. exact Hd.
    - rewrite E1. apply (cwalk_nonempty _ _ _ _ _ _ _ _ Hw); [lia|]. rewrite labels_length. lia.
    - rewrite E1, <- E2. exact Hd. }
  assert (Hst : (c_start c <= length segs)%nat) by lia.
  destruct (checked_labels first (skipn (c_start c) segs)) as [X|(X & Y)].
  - apply well_split_skipn. exact W'.
  - apply Forall_skipn. exact Fs.
  - exact Hi.
  - exfalso. rewrite text_label in X by exact Hst. apply app_eq_nil in X as [_ X]. contradiction.
  - assert (Hfirst : first <> []).
    { destruct (Nat.eq_dec (c_start c) (length segs)) as [E|E].
      - unfold label_at in L0. rewrite E, nth_labels_last in L0. exact L0.
      - apply X. intros N. apply (f_equal (@length seg)) in N. rewrite skipn_length in N. cbn [length] in N. lia. }
    split; [exact Hfirst|]. apply Forall_forall. intros g Hg.
    destruct (In_nth _ _ ([],[]) Hg) as (k & Hk & <-). rewrite <- (nth_labels first) by exact Hk.
    destruct (Nat.lt_ge_cases k (c_start c)) as [K|K].
    + apply (cwalk_nonempty _ _ _ _ _ _ _ _ Hw); [lia|]. rewrite labels_length. lia.
    + destruct (Nat.eq_dec k (c_start c)) as [->|]; [exact L0|].
      rewrite nth_labels by exact Hk.
      rewrite Forall_forall in Y. apply Y. apply in_tl_skipn; [lia|exact Hk].
Qed.

Lemma c20_partial : forall ext t p r, extract ext t p = Ret (r, None) -> r_host_type r = HHostName ->
  r_suffix r <> [] ->
  exists scheme user raw h port path, url_parts ext p scheme user raw h port path
    /\ ((forall x y, h <> x ++ [239; 189; 161] ++ y) -> no_empty_label h).
Proof.
  intros ext t p r H T Hsfx.
  destruct (host_name _ _ _ _ H T) as (sc & us & raw & h & po & pa & first & zs & segs & k & U & Ok & V & S & Hw & Hok & Hs & Hi & Hd & ->).
  exists sc, us, raw, h, po, pa. split; [exact U|]. intros Nff.
  cbn [r_suffix] in Hsfx. destruct (c_has k) eqn:Hh.
  - destruct (labels_nonempty t h first zs segs k S Hw Hok Hh (Hs eq_refl) Hi Hd Nff) as [A B].
    eapply labels_no_empty; eauto.
  - exfalso. apply Hsfx. unfold the_suffix. rewrite Hh. reflexivity.
Qed.

(** ** RFC 4291 *)

Lemma not_long : forall a g b, ~ long_group (a ++ g ++ b) -> all_hex g -> (length g <= 4)%nat.
Proof.
  intros a g b N H. destruct (Nat.le_gt_cases (length g) 4) as [|L]; [assumption|]. exfalso. apply N.
  exists a, (firstn 5 g), (skipn 5 g ++ b). split; [|split].
  - rewrite (app_assoc (firstn 5 g)), firstn_skipn. reflexivity.
  - unfold all_hex in *. rewrite <- (firstn_skipn 5 g) in H. apply Forall_app in H. apply H.
  - rewrite firstn_length. lia.
Qed.

Lemma groups_rfc : forall n s, groups n s -> forall a b, ~ long_group (a ++ s ++ b) -> rfc_groups n s.
Proof.
  induction 1 as [g (A & B & C)|g n s (A & B & C) H IH]; intros a b N.
  - constructor. split; [exact A|]. split; [exact B|]. eapply not_long; eauto.
  - constructor.
    + split; [exact A|]. split; [exact B|]. apply (not_long a g (([58] ++ s) ++ b)); [|exact B].
      rewrite <- !app_assoc in *. exact N.
    + apply (IH (a ++ g ++ [58]) b). rewrite <- !app_assoc in *. exact N.
Qed.

Lemma sep_ascii : forall s, is_sep_text s -> ascii s -> s = str ".".
Proof. intros s [->|[->|[->| ->]]] H; [reflexivity| | |]; inversion H; lia. Qed.

Lemma seps_end : forall w, seps w -> ascii w -> w = [] \/ exists x, w = x ++ str ".".
Proof.
  induction 1 as [|s w Hs Hw IH]; intros A; [auto|]. apply Forall_app in A as [A B].
  rewrite (sep_ascii s Hs A). destruct (IH B) as [->|(x & ->)]; right.
  - exists []. reflexivity.
  - exists (str "." ++ x). rewrite <- app_assoc. reflexivity.
Qed.

Lemma ipv4_rfc : forall s, ipv4_text s -> ascii s -> (forall x, s <> x ++ str ".") -> rfc_ipv4 s.
Proof.
  intros s (x & w & -> & (a & s1 & b & s2 & c & s3 & d & -> & Ha & Hb & Hc & Hd & H1 & H2 & H3) & Hw) A N.
  apply Forall_app in A as [A Aw].
  destruct (seps_end w Hw Aw) as [->|(y & ->)].
  - apply Forall_app in A as [_ A]. apply Forall_app in A as [A1 A]. apply Forall_app in A as [_ A].
    apply Forall_app in A as [A2 A]. apply Forall_app in A as [_ A]. apply Forall_app in A as [A3 _].
    rewrite (sep_ascii s1 H1 A1), (sep_ascii s2 H2 A2), (sep_ascii s3 H3 A3), app_nil_r.
    exists a, b, c, d. auto.
  - exfalso. eapply N. rewrite app_assoc. reflexivity.
Qed.

Lemma pieces_rfc : forall n s, pieces n s -> forall a, ~ long_group (a ++ s) -> ascii s ->
  (forall x, s <> x ++ str ".") -> rfc_pieces n s.
Proof.
  induction 1 as [g (A & B & C)|v H|g n s (A & B & C) H IH]; intros a N As E.
  - apply rfc_pieces_group. split; [exact A|]. split; [exact B|]. apply (not_long a g []); [|exact B].
    rewrite app_nil_r. exact N.
  - apply rfc_pieces_ipv4. apply ipv4_rfc; assumption.
  - apply Forall_app in As as [_ As]. apply Forall_app in As as [_ As]. apply rfc_pieces_more.
    + split; [exact A|]. split; [exact B|]. apply (not_long a g ([58] ++ s)); [|exact B]. exact N.
    + apply (IH (a ++ g ++ [58])); [|exact As|].
      * rewrite <- !app_assoc in *. exact N.
      * intros x ->. apply (E (g ++ [58] ++ x)). rewrite <- !app_assoc. reflexivity.
Qed.

Lemma literal_rfc : forall s, ipv6_literal s -> ~ long_group s -> ascii s -> (forall x, s <> x ++ str ".") ->
  rfc_literal s.
Proof.
  intros s [H|(n & a & m & b & -> & L & Ha & Hb)] N As E.
  - left. apply (pieces_rfc 8 s H []); assumption.
  - right. exists n, a, m, b. split; [reflexivity|]. split; [exact L|]. split.
    + destruct Ha as [Ha|Ha]; [auto|]. right. apply (groups_rfc n a Ha [] ([58; 58] ++ b)). exact N.
    + destruct Hb as [Hb|Hb]; [auto|]. right. apply (pieces_rfc m b Hb (a ++ [58; 58])).
      * rewrite <- app_assoc. exact N.
      * apply Forall_app in As as [_ As]. apply Forall_app in As as [_ As]. exact As.
      * intros x ->. apply (E (a ++ [58; 58] ++ x)). rewrite <- !app_assoc. reflexivity.
Qed.

Lemma hex_digit_le : forall b, is_hex b = true -> (0 <= Z.of_N (unhex b) <= 15)%Z.
Proof. intros b H. unfold is_hex, unhex, is_digit in *. destruct ((48 <=? b) && (b <=? 57)) eqn:E; [lia|].
  destruct ((97 <=? b) && (b <=? 102)) eqn:E2; lia. Qed.

Lemma rfc_group_group : forall g, rfc_group g -> group g.
Proof.
  intros g (A & B & L). split; [exact A|]. split; [exact B|]. unfold hexadecimal.
  destruct g as [|a [|b [|c [|d [|e g]]]]]; cbn [length] in L; try lia; unfold all_hex in B;
    repeat (match goal with H : Forall _ (_ :: _) |- _ => inversion H; subst; clear H end); cbn [fold_left];
    repeat match goal with H : is_hex ?x = true |- _ => apply hex_digit_le in H end; lia.
Qed.

Lemma rfc_ipv4_text : forall s, rfc_ipv4 s -> ipv4_text s.
Proof.
  intros s (a & b & c & d & -> & Ha & Hb & Hc & Hd). eexists _, []. split; [symmetry; apply app_nil_r|].
  split; [|constructor]. exists a, (str "."), b, (str "."), c, (str "."), d.
  unfold is_sep_text. change (str ".") with [46]. auto 12.
Qed.

Lemma rfc_literal_literal : forall s, rfc_literal s -> ipv6_literal s.
Proof.
  assert (P : forall n s, rfc_pieces n s -> pieces n s).
  { induction 1; [apply pieces_group, rfc_group_group|apply pieces_ipv4, rfc_ipv4_text|apply pieces_more; [apply rfc_group_group|]]; assumption. }
  assert (G : forall n s, rfc_groups n s -> groups n s).
  { induction 1; [apply groups_one, rfc_group_group|apply groups_more; [apply rfc_group_group|]]; assumption. }
  intros s [H|(n & a & m & b & -> & L & Ha & Hb)]; [left; auto|]. right. exists n, a, m, b.
  split; [reflexivity|]. split; [exact L|]. split; [destruct Ha as [Ha|Ha]|destruct Hb as [Hb|Hb]]; auto.
Qed.

Lemma c11_partial : forall ext t p r e, extract ext t p = Ret (r, e) -> r_host_type r = HIPv6 ->
  ~ long_group (r_domain r) -> ascii (r_domain r) -> (forall x, r_domain r <> x ++ str ".") ->
  rfc_literal (r_domain r).
Proof.
  intros ext t p r e H T. destruct (extract_cases _ _ _ _ _ H) as (sc & us & re & F & C).
  destruct C as [(x & _ & -> & _)|[(a & af & po & pa & _ & Ha & _ & [(_ & _ & ->)|(_ & _ & ->)])|(raw & af & po & pa & -> & Hh & A & Ok & [(x & _ & _ & ->)|(h & Cv & O)])]];
    try discriminate.
  - cbn [r_domain]. apply literal_rfc. exact Ha.
  - cbn [r_domain]. apply literal_rfc. exact Ha.
  - destruct (outcome_error _ _ _ _ _ _ _ _ _ _ O) as [(_ & X & _)|[(_ & X & _)|(_ & X & _)]]; congruence.
Qed.

Lemma c11_complete : forall ext t p r e scheme user a, extract ext t p = Ret (r, e) ->
  front (p_url p) scheme user (str "[" ++ a ++ str "]") -> rfc_literal a ->
  e = None /\ r_host_type r = HIPv6 /\ r_domain r = a.
Proof.
  intros ext t p r e scheme user a H F Ha. apply rfc_literal_literal in Ha.
  destruct (c10 _ _ _ _ _ _ _ _ H F) as [A B].
  assert (X : after_host [] None []) by (split; [exact I|reflexivity]).
  split; [apply A; exists a, [], None, []; repeat split; auto|].
  rewrite (B a [] None []); auto; try exact I.
Qed.
