(** RelProofs.v - what the host alone decides, trailing separators, and extracting a registered domain again. *)

From Verif Require Import Base BaseFacts Utf8 Utf8Facts Chars Str StrFacts Net Trie TrieFacts Extract Host HostFacts
  Walk WalkFacts Addr NetFacts Parse ParseFacts UrlSpec UrlFacts ExtractFacts OutcomeFacts RuleSpec UrlProofs
  CharProofs HostProofs VariantProofs RelSpec.
From Coq Require Import ZifyBool ZifyNat ZifyN.

(** ** The host decides *)

Lemma accepted_port : forall ext t p r sc us raw h po pa, url_parts ext p sc us raw h po pa ->
  extract ext t p = Ret (r, None) -> port_accepted po.
Proof.
  intros ext t p r sc us raw h po pa (af & F & Hh & A & _) H. destruct (port_dec po) as [X|X]; [exact X|]. exfalso.
  destruct (proj2 (c07_plain _ _ _ _ _ _ _ _ _ _ _ H F Hh A) X) as (_ & Y). discriminate.
Qed.


Definition rebase (sc : bytes) (us : option bytes) (po : option bytes) (pa : bytes) (r : result) : result :=
  mkResult sc (user_of us) (r_sub_domain r) (r_domain r) (r_suffix r) (r_registered_domain r) (port_of po) pa (r_host_type r).

Lemma host_outcome_rebase : forall t sc us po pa sc' us' po' pa' h ig v,
  host_outcome t (base sc us po pa) h ig v
  = let '(r, e) := host_outcome t (base sc' us' po' pa') h ig v in (rebase sc us po pa r, e).
Proof.
  intros. unfold host_outcome. destruct (split_host h) as [f sg]. destruct (strip_empty sg) as [zs segs].
  destruct (cwalk _ _ _ _ _ _) as [c|]; [|reflexivity]. destruct v; [reflexivity|].
  unfold components. destruct (has_invalid_chars _); [reflexivity|].
  destruct (c_has c); [destruct (_ =? _)|]; try reflexivity.
  - cbn [base with_sub_domain with_registered_domain with_domain with_suffix r_domain].
    destruct (label_at f segs (c_sep c)); reflexivity.
  - cbn [base with_sub_domain with_registered_domain with_domain with_suffix r_domain].
    destruct (label_at f segs 0); reflexivity.
Qed.

Lemma c56 : forall ext t p p' r e r' e' sc us raw sc' us' raw' h po pa po' pa',
  url_parts ext p sc us raw h po pa -> url_parts ext p' sc' us' raw' h po' pa' ->
  port_accepted po -> port_accepted po' -> p_ignore_sub_domains p' = p_ignore_sub_domains p ->
  extract ext t p = Ret (r, e) -> extract ext t p' = Ret (r', e') ->
  e' = e /\ same_host r r'.
Proof.
  intros ext t p p' r e r' e' sc us raw sc' us' raw' h po pa po' pa' U U' A A' I H H'.
  rewrite (extract_parts _ t _ _ _ _ _ _ _ U A) in H. rewrite (extract_parts _ t _ _ _ _ _ _ _ U' A') in H'.
  rewrite I in H'. rewrite (host_outcome_rebase t sc' us' po' pa' sc us po pa) in H'. injection H as H. rewrite H in H'.
  injection H' as <- <-. split; [reflexivity|]. repeat split.
Qed.

(** ** Trailing separators *)

Lemma stripped_seps : forall w, seps w -> forall h first zs segs, stripped h first zs segs ->
  exists zs', stripped (h ++ w) first zs' segs.
Proof.
  intros w W. induction W as [|s w Hs W IH]; intros h first zs segs S.
  - exists zs. rewrite app_nil_r. exact S.
  - rewrite app_assoc. apply (IH (h ++ s) first (([], s) :: zs) segs).
    destruct S as (-> & (A & B) & Z & D). split; [cbn [app host]; rewrite app_nil_r; reflexivity|].
    split; [|split; [constructor; [reflexivity|exact Z]|exact D]].
    split; [exact A|]. cbn [app]. constructor; [|exact B]. split; [apply no_sep_nil|exact Hs].
Qed.

Lemma components_zs : forall u first zs zs' segs ig c r,
  components u first zs segs ig c = (r, None) -> r_domain u = [] ->
  components u first zs' segs ig c = (r, None).
Proof.
  intros u first zs zs' segs ig c r H D. unfold components in *.
  destruct (c_has c); [|exact H]. destruct (c_sep c =? S (length segs)); [|exact H].
  exfalso. destruct (has_invalid_chars _); [discriminate|].
  cbn [with_suffix r_domain] in H. rewrite D in H. discriminate.
Qed.

Lemma ipv4_trailing : forall h w, seps w -> ipv4_text (h ++ w) <-> ipv4_text h.
Proof.
  intros h w W. split.
  - intros (x & w2 & E & A4 & W2). pose proof A4 as (a & s1 & b & s2 & c & s3 & d & -> & Ha & Hb & Hc & Hd & H1 & H2 & H3).
    destruct (ipv4_stripped _ a s1 b s2 c s3 d w2 eq_refl) as (zs & S); try assumption.
    destruct (stripped_total h) as (first & z & segs & S0 & _). destruct (stripped_seps w W _ _ _ _ S0) as (z' & S1).
    rewrite E in S1. destruct (stripped_unique _ _ _ _ _ _ _ S S1) as (<- & _ & <-).
    destruct S0 as (-> & W0 & Z0 & _). destruct (empty_labels_seps _ _ _ W0 Z0) as (tail & -> & T).
    exists (host a [(d, s3); (c, s2); (b, s1)]), tail. split; [reflexivity|]. split; [|exact T].
    cbn [host]. rewrite <- !app_assoc. exact A4.
  - intros (a & w2 & -> & A & W2). exists a, (w2 ++ w). rewrite app_assoc. split; [reflexivity|]. split; [exact A|].
    clear - W W2. induction W2; cbn [app]; [exact W|]. rewrite <- app_assoc. constructor; assumption.
Qed.

Lemma v4_trailing : forall h w, seps w -> v4 (h ++ w) = v4 h.
Proof.
  intros h w W. pose proof (ipv4_trailing h w W) as X. rewrite <- !v4_iff in X.
  destruct (v4 (h ++ w)), (v4 h); try reflexivity; [symmetry|]; apply X; reflexivity.
Qed.

Lemma c57 : forall ext t p p' r sc us raw sc' us' raw' h w w' po pa po' pa',
  url_parts ext p sc us raw (h ++ w) po pa -> url_parts ext p' sc' us' raw' (h ++ w') po' pa' ->
  seps w -> seps w' -> port_accepted po' -> p_ignore_sub_domains p' = p_ignore_sub_domains p ->
  extract ext t p = Ret (r, None) -> exists r', extract ext t p' = Ret (r', None) /\ same_host r r'.
Proof.
  intros ext t p p' r sc us raw sc' us' raw' h w w' po pa po' pa' U U' W W' A' I H.
  pose proof (accepted_port _ _ _ _ _ _ _ _ _ _ U H) as A.
  rewrite (extract_parts _ t _ _ _ _ _ _ _ U A) in H. rewrite (extract_parts _ t _ _ _ _ _ _ _ U' A').
  rewrite I. rewrite (host_outcome_rebase t sc' us' po' pa' sc us po pa).
  destruct (stripped_total h) as (first & zs0 & segs & S0 & _).
  destruct (stripped_seps w W _ _ _ _ S0) as (zs & S). destruct (stripped_seps w' W' _ _ _ _ S0) as (zs' & S').
  rewrite (host_outcome_stripped _ _ _ _ _ _ _ _ S) in H. rewrite (host_outcome_stripped _ _ _ _ _ _ _ _ S').
  rewrite v4_trailing in H by exact W. rewrite v4_trailing by exact W'. injection H as H.
  destruct (cwalk t false 0 0 0 (labels first segs)) as [c|]; [|discriminate]. destruct (v4 h).
  - injection H as <-. eexists. split; [reflexivity|]. repeat split.
  - rewrite (components_zs _ _ zs zs' _ _ _ _ H) by reflexivity. eexists. split; [reflexivity|]. repeat split.
Qed.

(** ** The characters of the right part of a host *)

Lemma invalid_skip : forall r0, valid_rune r0 -> forall (s x y : bytes) k last sep, s = x ++ encode r0 ++ y ->
  invalid_loop (range_from s 0 k) last sep = false ->
  exists sep', invalid_loop (range_from y 0 (k + len x + len (encode r0))) last sep' = false.
Proof.
  intros r0 V0 s. induction s as [|r' q' V' D IH|b q' D IH] using rune_ind; intros x y k last sep E H.
  - exfalso. pose proof (encode_nonempty r0 V0). destruct x, (encode r0); discriminate || contradiction.
  - rewrite range_from_encode in H by exact V'. cbn [invalid_loop] in H.
    assert (N : exists sep', invalid_loop (range_from q' 0 (k + len (encode r'))) last sep' = false).
    { destruct (contains _ _); [eauto|]. destruct ((k =? 0)%Z && _)%bool; [discriminate|].
      destruct ((k =? last)%Z && _)%bool; [discriminate|]. destruct (exists_in label_separators_rune_set r').
      - destruct sep; [discriminate|]. destruct (exists_in _ _); [discriminate|]. eauto.
      - destruct (exists_in _ _); [discriminate|]. eauto. }
    destruct N as (sep' & N).
    destruct (encode_sync r' r0 x q' y V' V0 E) as [(-> & -> & ->)|(z & -> & ->)].
    + exists sep'. rewrite len_nil, Z.add_0_r. exact N.
    + destruct (IH z y _ _ _ eq_refl N) as (sep2 & X). exists sep2.
      rewrite len_app. replace (k + (len (encode r') + len z) + len (encode r0))%Z
        with (k + len (encode r') + len z + len (encode r0))%Z by lia. exact X.
  - destruct x as [|b' x].
    + exfalso. cbn [app] in E. rewrite E in D. rewrite decode_encode in D by exact V0. injection D as -> L. vm_compute in L. discriminate.
    + cbn [app] in E. injection E as <- E. rewrite (range_from_step (b :: q') rune_error 1 k) in H by (auto; discriminate).
      cbn [skipn invalid_loop] in H.
      assert (N : exists sep', invalid_loop (range_from q' 0 (k + Z.of_nat 1)) last sep' = false).
      { destruct (contains _ _); [eauto|]. destruct ((k =? 0)%Z && _)%bool; [discriminate|].
        destruct ((k =? last)%Z && _)%bool; [discriminate|]. destruct (exists_in label_separators_rune_set _).
        - destruct sep; [discriminate|]. destruct (exists_in _ _); [discriminate|]. eauto.
        - destruct (exists_in _ _); [discriminate|]. eauto. }
      destruct N as (sep' & N). destruct (IH x y _ _ _ E N) as (sep2 & X). exists sep2.
      rewrite len_cons. replace (k + (1 + len x) + len (encode r0))%Z
        with (k + Z.of_nat 1 + len x + len (encode r0))%Z by lia. exact X.
Qed.

Lemma invalid_shift : forall y k d last sep, (0 < k)%Z -> (0 <= d)%Z ->
  invalid_loop (range_from y 0 (k + d)) (last + d) sep = invalid_loop (range_from y 0 k) last sep.
Proof.
  intros y. induction y as [|r q V D IH|b q D IH] using rune_ind; intros k d last sep Hk Hd.
  - reflexivity.
  - rewrite !range_from_encode by exact V. cbn [invalid_loop].
    replace (k + d =? 0)%Z with (k =? 0)%Z by lia. replace (k + d =? last + d)%Z with (k =? last)%Z by lia.
    pose proof (len_nonneg _ (encode r)).
    replace (k + d + len (encode r))%Z with (k + len (encode r) + d)%Z by lia.
    rewrite !IH by lia. reflexivity.
  - rewrite !(range_from_step (b :: q) rune_error 1) by (auto; discriminate). cbn [skipn invalid_loop].
    replace (k + d =? 0)%Z with (k =? 0)%Z by lia. replace (k + d =? last + d)%Z with (k =? last)%Z by lia.
    replace (k + d + Z.of_nat 1)%Z with (k + Z.of_nat 1 + d)%Z by lia.
    rewrite !IH by lia. reflexivity.
Qed.

Lemma sep_rune_text : forall r, valid_rune r -> exists_in label_separators_rune_set r = true -> is_sep_text (encode r).
Proof.
  intros r V H. apply sep_text_encode. exists r. split; [|reflexivity]. rewrite seps_eq.
  unfold exists_in in H. apply existsb_exists in H as (x & Hx & E). apply N.eqb_eq in E. subst x. exact Hx.
Qed.

Lemma invalid_right : forall (x s y : bytes), is_sep_text s -> has_invalid_chars (x ++ s ++ y) = false ->
  (forall q, y <> str "-" ++ q) -> (forall s' q, is_sep_text s' -> y <> s' ++ q) -> has_invalid_chars y = false.
Proof.
  intros x s y Hs H Nd Ns. unfold has_invalid_chars, range_str in *. apply sep_text_encode in Hs as (r0 & Hr0 & ->).
  assert (V0 : valid_rune r0) by (rewrite seps_eq in Hr0; cbn [In] in Hr0; unfold valid_rune; lia).
  destruct (invalid_skip r0 V0 _ x y _ _ _ eq_refl H) as (sep & X). clear H.
  pose proof (len_nonneg _ x) as L1. pose proof (encode_nonempty r0 V0) as L2.
  assert (L3 : (0 < len (encode r0))%Z).
  { destruct (encode r0) as [|b0 l]; [contradiction|]. rewrite len_cons. pose proof (len_nonneg _ l). lia. }
  revert X. rewrite !len_app. set (d := (len x + len (encode r0))%Z). replace (0 + len x + len (encode r0))%Z with d by lia.
  replace (len x + (len (encode r0) + len y) - 1)%Z with (len y - 1 + d)%Z by lia.
  assert (Hd : (0 < d)%Z) by lia. clearbody d.
  induction y as [|r q V D IH|b q D IH] using rune_ind; intros X.
  - reflexivity.
  - clear IH. rewrite range_from_encode in X by exact V. rewrite range_from_encode by exact V.
    cbn [invalid_loop] in *. pose proof (len_nonneg _ (encode r)).
    assert (Le : (0 < len (encode r))%Z).
    { pose proof (encode_nonempty r V). destruct (encode r) as [|b0 l0]; [contradiction|]. rewrite len_cons. pose proof (len_nonneg _ l0). lia. }
    replace (d + len (encode r))%Z with (0 + len (encode r) + d)%Z in X by lia. rewrite !invalid_shift in X by lia.
    destruct (contains alpha_numeric_set (r mod 256)); [exact X|].
    destruct (r =? 45)%N eqn:E45. { exfalso. apply N.eqb_eq in E45. subst r. apply (Nd q). reflexivity. }
    destruct (exists_in label_separators_rune_set r) eqn:Es.
    { exfalso. apply (Ns (encode r) q); [apply sep_rune_text; assumption|reflexivity]. }
    rewrite !andb_false_r in *. cbn [orb] in *. destruct (exists_in invalid_host_name_chars_rune_set r); [discriminate|exact X].
  - clear IH. rewrite (range_from_step (b :: q) rune_error 1) in X by (auto; discriminate).
    rewrite (range_from_step (b :: q) rune_error 1) by (auto; discriminate). cbn [skipn invalid_loop] in *.
    replace (d + Z.of_nat 1)%Z with (0 + Z.of_nat 1 + d)%Z in X by lia. rewrite !invalid_shift in X by lia.
    destruct (contains alpha_numeric_set (rune_error mod 256)); [exact X|].
    change (rune_error =? 45)%N with false in *. 
    change (exists_in label_separators_rune_set rune_error) with false in *.
    rewrite !andb_false_r in *. cbn [orb] in *. destruct (exists_in invalid_host_name_chars_rune_set rune_error); [discriminate|exact X].
Qed.

(** ** The walk on the labels that matter *)

Lemma cwalk_sep_ge : forall labs node hs j start prev c, cwalk node hs j start prev labs = Some c -> prev <= c_sep c.
Proof.
  induction labs as [|label more IH]; intros node hs j start prev c H; cbn [cwalk] in H; [discriminate|].
  destruct (is_nil label && _); [discriminate|]. destruct (child node (str "*")).
  - injection H as <-. cbn [c_sep]. destruct (child node _); lia.
  - destruct (child node (unescaped label)) as [v|]; [|injection H as <-; cbn [c_sep]; lia].
    destruct (is_nil (matches_of v) || is_nil more); [injection H as <-; cbn [c_sep]; lia|]. apply IH in H. lia.
Qed.

Lemma cwalk_prefix : forall labs n node hs j start prev c, cwalk node hs j start prev labs = Some c ->
  c_sep c <= prev + n -> cwalk node hs j start prev (firstn (S n) labs) = Some c.
Proof.
  induction labs as [|label more IH]; intros n node hs j start prev c H Hn; [discriminate|].
  cbn [firstn cwalk] in *.
  assert (E1 : is_nil label && negb (is_nil more) = false) by (destruct (is_nil label && _); [discriminate|reflexivity]).
  rewrite E1 in H.
  assert (E2 : is_nil label && negb (is_nil (firstn n more)) = false).
  { destruct (is_nil label); [|reflexivity]. cbn [andb] in *. destruct more; [destruct n; reflexivity|discriminate]. }
  rewrite E2. destruct (child node (str "*")); [exact H|]. destruct (child node (unescaped label)) as [v|]; [|exact H].
  destruct (is_nil (matches_of v)); cbn [orb] in *; [exact H|].
  destruct more as [|l2 more]; [destruct n; exact H|]. cbn [is_nil] in H. destruct n as [|n].
  - exfalso. apply cwalk_sep_ge in H. lia.
  - cbn [firstn is_nil]. apply (IH n) in H; [|lia]. exact H.
Qed.

(** ** Extracting a registered domain *)

Lemma firstn_labels : forall first segs n, n <= length segs ->
  firstn (S n) (labels first segs) = labels (label_at first segs n) (firstn n segs).
Proof.
  intros first segs n H. unfold label_at. revert n H. induction segs as [|[l s] segs IH]; intros n H; cbn [length] in H.
  - assert (n = 0) by lia. subst n. reflexivity.
  - destruct n as [|n]; [reflexivity|]. unfold labels in *. cbn [map app firstn nth fst]. f_equal. apply IH. lia.
Qed.

Lemma host_head : forall segs first, exists z, host first segs = first ++ z.
Proof.
  induction segs as [|[l s] segs IH]; intros first; cbn [host]; [exists []; rewrite app_nil_r; reflexivity|].
  destruct (IH first) as (z & ->). exists (z ++ s ++ l). rewrite <- app_assoc. reflexivity.
Qed.

Lemma c58_partial : forall ext rules t p r p' scheme user raw port path, build_trie rules = Ret t ->
  extract ext t p = Ret (r, None) -> r_host_type r = HHostName -> r_suffix r <> [] ->
  (forall tld, host_tld ext p tld -> tld_is_suffix rules tld) ->
  ~ ipv4_text (r_registered_domain r) -> (forall q, r_domain r <> str "-" ++ q) ->
  url_parts ext p' scheme user raw (r_registered_domain r) port path -> port_accepted port ->
  exists r', extract ext t p' = Ret (r', None) /\ r_host_type r' = HHostName /\ r_sub_domain r' = []
    /\ r_domain r' = r_domain r /\ r_suffix r' = r_suffix r /\ r_registered_domain r' = r_registered_domain r.
Proof.
  intros ext rules t p r p' sc us raw po pa B H T Sx Tl N4 Nd U' A'.
  destruct (host_name _ _ _ _ H T) as (sc0 & us0 & raw0 & h & po0 & pa0 & first & zs & segs & c & U & Ok & V & S & Hw & Hok & Hs & Hi & Hd & ->).
  cbn [r_suffix r_registered_domain r_domain] in *.
  pose proof (cwalk_tld _ _ _ _ B Hw (Tl _ (host_tld_at _ _ _ _ _ _ _ _ _ _ _ U S))) as Z.
  destruct Z as [(Hh & He)|(Hh & _)]; [|unfold the_suffix in Sx; rewrite Hh in Sx; contradiction].
  specialize (Hs Hh). destruct Hok as [Hp Hc Hend]. specialize (Hend Hh).
  set (n := c_sep c) in *. assert (Hn : 0 < n) by lia.
  destruct S as (Eh & W & Zz & Hhd). apply well_split_app in W.
  set (dom := the_domain first segs c) in *.
  assert (Edom : dom = label_at first segs n) by (unfold dom, the_domain; rewrite Hh; reflexivity).
  assert (Esuf : the_suffix segs c = join (firstn n segs)).
  { unfold the_suffix. rewrite Hh, He, Nat.sub_0_r. reflexivity. }
  assert (Nne : firstn n segs <> []). { destruct segs; [cbn [length] in Hs; lia|]. destruct n; [lia|discriminate]. }
  assert (Ereg : the_registered first segs c = host dom (firstn n segs)).
  { unfold the_registered. rewrite Hh, Esuf. fold dom. fold n.
    rewrite <- (app_nil_r (firstn n segs)) at 2. rewrite join_spec by exact Nne. cbn [host]. f_equal. f_equal.
    unfold sep_text_at. rewrite last_nth, firstn_length. replace (Nat.min n (length segs)) with n by lia.
    rewrite nth_firstn_lt by lia. reflexivity. }
  assert (Wd : well_split dom (firstn n segs)).
  { split; [rewrite Edom; apply label_no_sep; exact W|]. destruct W as (_ & F).
    rewrite <- (firstn_skipn n segs) in F. apply Forall_app in F as [F _]. exact F. }
  assert (S' : stripped (host dom (firstn n segs)) dom [] (firstn n segs)).
  { split; [reflexivity|]. split; [exact Wd|]. split; [constructor|]. destruct segs as [|g segs]; [exfalso; cbn [length] in Hs; lia|].
    destruct n; [lia|]. cbn [firstn]. exact Hhd. }
  assert (Hw' : cwalk t false 0 0 0 (labels dom (firstn n segs)) = Some c).
  { rewrite Edom, <- firstn_labels by exact Hs. apply cwalk_prefix; [exact Hw|]. unfold n. lia. }
  assert (Len : length (firstn n segs) = n) by (rewrite firstn_length; lia).
  assert (V' : v4 (host dom (firstn n segs)) = false).
  { destruct (v4 (host dom (firstn n segs))) eqn:V'; [|reflexivity]. exfalso. apply N4. rewrite Ereg. apply v4_iff. exact V'. }
  rewrite Ereg in *. rewrite (extract_parts _ t _ _ _ _ _ _ _ U' A'), V'.
  rewrite (host_outcome_stripped _ _ _ _ _ _ _ _ S'), Hw'.
  destruct (components _ _ _ _ _ _) as [r' e'] eqn:EC.
  assert (Hok' : counts_ok (firstn n segs) c) by (apply (cwalk_ok _ _ _ _ Hw')).
  assert (Elab : label_at dom (firstn n segs) n = dom).
  { pose proof (nth_labels_last dom (firstn n segs)) as X. rewrite Len in X. exact X. }
  assert (Edom' : the_domain dom (firstn n segs) c = dom) by (unfold the_domain; rewrite Hh; exact Elab).
  assert (Esuf' : the_suffix (firstn n segs) c = the_suffix segs c).
  { rewrite Esuf. unfold the_suffix. rewrite Hh, He, Nat.sub_0_r. cbn [skipn]. fold n. rewrite firstn_firstn. f_equal. f_equal. lia. }
  assert (Ereg' : the_registered dom (firstn n segs) c = host dom (firstn n segs)).
  { rewrite <- Ereg. unfold the_registered. rewrite Hh, Edom', Esuf'. fold dom. fold n. f_equal. f_equal.
    unfold sep_text_at. rewrite nth_firstn_lt by lia. reflexivity. }
  assert (Esub' : the_sub dom (firstn n segs) c = []).
  { unfold the_sub, sub_from. rewrite Hh, Len. fold n. replace (Datatypes.S n <=? n) with false by lia. reflexivity. }
  assert (Ei : has_invalid_chars (checked_text dom (firstn n segs) c) = false).
  { unfold checked_text in *. rewrite Hh in *.
    assert (Hst : c_start c <= n) by (unfold n; lia).
    destruct (Nat.eq_dec n (length segs)) as [En|En].
    - rewrite En, firstn_all. rewrite Edom, En. unfold label_at. rewrite nth_labels_last. exact Hi.
    - assert (Esk : skipn (c_start c) segs = skipn (c_start c) (firstn n segs) ++ nth n segs ([], []) :: skipn (Datatypes.S n) segs).
      { rewrite <- (firstn_skipn n segs) at 1. rewrite (skipn_cons_nth _ segs n ([], [])) by lia.
        rewrite skipn_app, Len. replace (c_start c - n) with 0 by lia. reflexivity. }
      rewrite Esk in Hi. destruct (nth n segs ([], [])) as [l s] eqn:Enth. rewrite host_mid in Hi.
      assert (El : l = dom). { rewrite Edom. unfold label_at. rewrite nth_labels by lia. rewrite Enth. reflexivity. }
      subst l. eapply invalid_right; [|exact Hi| |].
      + destruct W as (_ & F). rewrite Forall_forall in F. specialize (F (dom, s)). apply F. rewrite <- Enth. apply nth_In. lia.
      + intros q E. destruct (host_head (skipn (c_start c) (firstn n segs)) dom) as (z & Ez). rewrite Ez in E.
        destruct dom as [|b d']; [contradiction|]. cbn [app] in E. injection E as -> E. apply (Nd d'). reflexivity.
      + intros s' q Hs' E.
        assert (W2 : well_split dom (skipn (c_start c) (firstn n segs))) by (apply well_split_skipn; exact Wd).
        destruct (split_exists q) as (fq & sq & -> & Wq).
        change (s' ++ host fq sq) with (host [] [] ++ s' ++ host fq sq) in E. rewrite <- host_mid in E.
        apply split_unique in E; [|exact W2|].
        * destruct E as [E _]. contradiction.
        * destruct Wq as (Q1 & Q2). split; [apply no_sep_nil|]. apply Forall_app. split; [exact Q2|].
          constructor; [split; assumption|constructor]. }
  pose proof (components_cases _ _ _ _ _ _ _ _ _ _ _ Hok' EC) as C.
  assert (Fin : e' = None /\ r' = mkResult sc (user_of us) (if p_ignore_sub_domains p' then [] else the_sub dom (firstn n segs) c)
                 (the_domain dom (firstn n segs) c) (the_suffix (firstn n segs) c) (the_registered dom (firstn n segs) c) (port_of po) pa HHostName).
  { destruct C as [(-> & ->)|[(_ & _ & X & _)|(_ & _ & [(_ & -> & ->)|(X & _)])]].
    - exfalso. unfold components in EC. rewrite Hh in EC. fold n in EC. rewrite Len in EC.
      replace (n =? Datatypes.S n) with false in EC by lia. unfold checked_text in Ei. rewrite Hh in Ei. rewrite Ei in EC.
      destruct (is_nil _) in EC; discriminate.
    - exfalso. rewrite Len in X. unfold n in X. lia.
    - auto.
    - exfalso. rewrite Edom' in X. contradiction. }
  destruct Fin as (-> & ->). eexists. split; [reflexivity|].
  cbn [r_host_type r_sub_domain r_domain r_suffix r_registered_domain].
  rewrite Esub', Edom', Esuf', Ereg'. destruct (p_ignore_sub_domains p'); auto.
Qed.

Lemma registered_not_ipv4 : forall ext rules t p r, build_trie rules = Ret t -> no_numeric_tld rules ->
  extract ext t p = Ret (r, None) -> r_host_type r = HHostName -> r_suffix r <> [] ->
  (forall tld, host_tld ext p tld -> tld_is_suffix rules tld) -> ~ ipv4_text (r_registered_domain r).
Proof.
  intros ext rules t p r B Nn H T Sx Tl.
  destruct (host_name _ _ _ _ H T) as (sc0 & us0 & raw0 & h & po0 & pa0 & first & zs & segs & c & U & Ok & V & S & Hw & Hok & Hs & Hi & Hd & ->).
  cbn [r_suffix r_registered_domain r_domain] in *.
  pose proof (cwalk_tld _ _ _ _ B Hw (Tl _ (host_tld_at _ _ _ _ _ _ _ _ _ _ _ U S))) as Z.
  destruct Z as [(Hh & He)|(Hh & _)]; [|unfold the_suffix in Sx; rewrite Hh in Sx; contradiction].
  specialize (Hs Hh). destruct Hok as [Hp Hc Hend]. specialize (Hend Hh).
  set (n := c_sep c) in *. assert (Hn : 0 < n) by lia.
  destruct S as (Eh & W & Zz & Hhd). apply well_split_app in W.
  set (dom := the_domain first segs c) in *.
  assert (Edom : dom = label_at first segs n) by (unfold dom, the_domain; rewrite Hh; reflexivity).
  assert (Esuf : the_suffix segs c = join (firstn n segs)).
  { unfold the_suffix. rewrite Hh, He, Nat.sub_0_r. reflexivity. }
  assert (Nne : firstn n segs <> []). { destruct segs; [cbn [length] in Hs; lia|]. destruct n; [lia|discriminate]. }
  assert (Ereg : the_registered first segs c = host dom (firstn n segs)).
  { unfold the_registered. rewrite Hh, Esuf. fold dom. fold n.
    rewrite <- (app_nil_r (firstn n segs)) at 2. rewrite join_spec by exact Nne. cbn [host]. f_equal. f_equal.
    unfold sep_text_at. rewrite last_nth, firstn_length. replace (Nat.min n (length segs)) with n by lia.
    rewrite nth_firstn_lt by lia. reflexivity. }
  assert (Wd : well_split dom (firstn n segs)).
  { split; [rewrite Edom; apply label_no_sep; exact W|]. destruct W as (_ & F).
    rewrite <- (firstn_skipn n segs) in F. apply Forall_app in F as [F _]. exact F. }
  assert (S' : stripped (host dom (firstn n segs)) dom [] (firstn n segs)).
  { split; [reflexivity|]. split; [exact Wd|]. split; [constructor|]. destruct segs as [|g segs]; [exfalso; cbn [length] in Hs; lia|].
    destruct n; [lia|]. cbn [firstn]. exact Hhd. }
  assert (Hw' : cwalk t false 0 0 0 (labels dom (firstn n segs)) = Some c).
  { rewrite Edom, <- firstn_labels by exact Hs. apply cwalk_prefix; [exact Hw|]. unfold n. lia. }
  assert (Len : length (firstn n segs) = n) by (rewrite firstn_length; lia).
  rewrite Ereg. intros (x & w & E & (a & s1 & b & s2 & c0 & s3 & d & -> & Ha & Hb & Hc0 & Hd0 & H1 & H2 & H3) & Hw0).
  destruct (ipv4_stripped _ a s1 b s2 c0 s3 d w E) as (z4 & S4); try assumption.
  destruct (stripped_unique _ _ _ _ _ _ _ S' S4) as (Ef & _ & Es). rewrite Ef, Es in Hw'.
  pose proof (ipv4_prev rules t a _ d s3 _ c B Nn eq_refl Hd0 Hw') as P.
  rewrite Es in Len. cbn [length] in Len. unfold n in Len. lia.
Qed.
