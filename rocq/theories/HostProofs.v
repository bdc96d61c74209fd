(** HostProofs.v - proofs of the properties that relate the host text and the components under
    conditions on the suffix list: C06, C14, C19, C20. *)

From Verif Require Import Base BaseFacts Utf8 Utf8Facts Chars Str StrFacts Net Trie Extract Host HostFacts
  Walk WalkFacts Addr NetFacts Parse ParseFacts UrlSpec UrlFacts ExtractFacts OutcomeFacts Rfc UrlProofs CharProofs
  RuleSpec TrieFacts RuleProofs.
From Coq Require Import ZifyBool ZifyNat ZifyN.

(** If the TLD is a suffix or unknown, either a suffix is found at the TLD or the walk does
    not get beyond it. *)
Lemma cwalk_tld : forall rules t labs c, build_trie rules = Ret t -> cwalk t false 0 0 0 labs = Some c ->
  tld_is_suffix rules (nth 0 labs []) -> (c_has c = true /\ c_end c = 0) \/ (c_has c = false /\ c_prev c = 0).
Proof.
  intros rules t labs c B H T. apply build_trie_represents in B. destruct (walk rules [] labs) as [e n] eqn:W.
  destruct (cwalk_walk t rules B _ [] t _ _ _ _ _ _ _ eq_refl H W) as (A1 & _ & A3). cbn [orb Nat.add] in A1, A3.
  destruct labs as [|l more]; [discriminate|]. cbn [nth] in T. cbn [walk app] in W. cbn [cwalk] in H.
  destruct (is_nil l && negb (is_nil more)); [discriminate|].
  rewrite (child_known t rules [] t (str "*") B eq_refl : known rules [str "*"] = _) in W.
  destruct (child t (str "*")) as [x|].
  - right. injection H as <-. auto.
  - unfold tld_is_suffix in T. rewrite (child_known t rules [] t (decoded l) B eq_refl : known rules [decoded l] = _) in W, T.
    rewrite decoded_unescaped in *. destruct (child t (unescaped l)) as [v|] eqn:C.
    + left. rewrite (T eq_refl) in W. destruct (walk rules [unescaped l] more) as [e' n']. injection W as <- <-. auto.
    + right. injection H as <-. auto.
Qed.

Lemma host_tld_at : forall ext p scheme user raw h port path first zs segs,
  url_parts ext p scheme user raw h port path -> stripped h first zs segs ->
  host_tld ext p (nth 0 (labels first segs) []).
Proof. intros. do 9 eexists. split; [eassumption|]. split; [eassumption|reflexivity]. Qed.

(** ** IPv4 *)

Lemma digits_decoded : forall d, all_digits d -> unescaped d = d.
Proof.
  intros d H. rewrite <- decoded_unescaped. unfold decoded. assert (X : pct d = Some d); [|rewrite X; reflexivity].
  induction H as [|b d Hb H IH]; [reflexivity|]. cbn [pct].
  destruct (N.eqb_spec b 37); [subst; discriminate|]. destruct (N.eqb_spec b 43); [subst; discriminate|]. rewrite IH. reflexivity.
Qed.

Lemma ipv4_prev : forall rules t a segs d s more c, build_trie rules = Ret t -> no_numeric_tld rules ->
  segs = (d, s) :: more -> octet d ->
  cwalk t false 0 0 0 (labels a segs) = Some c -> c_prev c = 0.
Proof.
  intros rules t a segs d s more c B Nn -> Od H. apply build_trie_represents in B. unfold labels in H. cbn [map fst app cwalk] in H.
  destruct (is_nil d && _); [discriminate|]. destruct (child t (str "*")); [injection H as <-; reflexivity|].
  rewrite digits_decoded in H by (apply Od). destruct (child t d) as [v|] eqn:C; [|injection H as <-; reflexivity].
  assert (Y : matches_of v = []).
  { destruct (matches_of v) as [|[k w] m] eqn:E; [reflexivity|]. exfalso.
    pose proof (Nn d k Od) as X. change [d; k] with ([d] ++ [k]) in X.
    rewrite (child_known t rules [d] v k B) in X by (cbn [descend]; rewrite C; reflexivity).
    unfold child in X. rewrite E in X. cbn [get] in X. rewrite bytes_eqb_refl in X. discriminate. }
  rewrite Y in H. cbn [is_nil orb] in H. injection H as <-. reflexivity.
Qed.

Lemma c14_partial : forall ext rules t p r, build_trie rules = Ret t -> no_numeric_tld rules ->
  extract ext t p = Ret (r, None) -> r_host_type r = HIPv4 ->
  ipv4_address (r_domain r) /\ r_registered_domain r = r_domain r /\ r_sub_domain r = [] /\ r_suffix r = []
  /\ exists scheme user raw h port path w, url_parts ext p scheme user raw h port path /\ port_accepted port
       /\ h = r_domain r ++ w /\ seps w
       /\ r_scheme r = scheme /\ r_user_info r = user_of user /\ r_port r = port_of port /\ r_path r = path.
Proof.
  intros ext rules t p r B Nn H T. destruct (c13_only _ _ _ _ _ H T) as (_ & sc & us & raw & h & po & pa & U & Ok & V).
  rewrite (extract_parts _ _ _ _ _ _ _ _ _ U Ok) in H. apply Ret_inj in H.
  assert (V' : v4 h = true) by (apply v4_iff; exact V). rewrite V' in H.
  destruct V as (x & w & -> & A4 & Hw). pose proof A4 as (a & s1 & b & s2 & c & s3 & d & -> & Ha & Hb & Hc & Hd & H1 & H2 & H3).
  destruct (ipv4_stripped _ a s1 b s2 c s3 d w eq_refl) as (zs & S); try assumption.
  rewrite (host_outcome_stripped _ _ _ _ _ _ _ _ S) in H.
  destruct (cwalk t false 0 0 0 (labels a [(d, s3); (c, s2); (b, s1)])) as [k|] eqn:E; [|discriminate].
  pose proof (ipv4_prev rules t a _ d s3 _ k B Nn eq_refl Hd E) as P. rewrite P in H. cbn [skipn] in H.
  apply (f_equal fst) in H. cbn [fst] in H. subst r. cbn.
  assert (Et : ((a ++ s1 ++ b) ++ s2 ++ c) ++ s3 ++ d = a ++ s1 ++ b ++ s2 ++ c ++ s3 ++ d) by (rewrite <- !app_assoc; reflexivity).
  rewrite Et. repeat (split; [assumption || reflexivity|]). exists sc, us, raw. do 3 eexists. exists w.
  split; [exact U|]. repeat (split; [assumption || reflexivity|]). reflexivity.
Qed.

(** ** C06 *)

Lemma parts_text : forall ext p scheme user raw h port path, url_parts ext p scheme user raw h port path ->
  p_to_punycode p = false ->
  raw = h /\ trimmed ws_chars (p_url p) (scheme ++ user_at user ++ h ++ port_text port ++ path).
Proof.
  intros ext p scheme user raw h port path (af & F & _ & (_ & A) & (d & _ & C)) P. rewrite P in C. destruct C as [_ ->].
  split; [reflexivity|]. apply front_text in F. destruct port as [q|]; cbn [port_text].
  - destruct A as [-> _]. rewrite <- !app_assoc in *. exact F.
  - subst af. exact F.
Qed.

Lemma c06_partial : forall ext rules t p r, build_trie rules = Ret t -> extract ext t p = Ret (r, None) ->
  p_to_punycode p = false -> p_ignore_sub_domains p = false -> no_numeric_tld rules ->
  (forall tld, host_tld ext p tld -> tld_is_suffix rules tld) -> assembled p r.
Proof.
  intros ext rules t p r B H Pu Ig Nn Tl. destruct (r_host_type r) eqn:T.
  - exfalso. destruct (c15 _ _ _ _ _ H) as (X & _). apply (proj1 (X eq_refl)). exact T.
  - destruct (host_name _ _ _ _ H T) as (sc & us & raw & h & po & pa & first & zs & segs & c & U & Ok & V & S & Hw & Hok & Hs & Hi & Hd & ->).
    destruct (parts_text _ _ _ _ _ _ _ _ U Pu) as (_ & X).
    destruct (host_parts t h first zs segs c S Hw Hs) as (pre & sep & rest & Eh & Hpre & _ & A & C & _ & R).
    pose proof (cwalk_tld _ _ _ _ B Hw (Tl _ (host_tld_at _ _ _ _ _ _ _ _ _ _ _ U S))) as Z.
    exists us, h, po. cbn [r_scheme r_path r_user_info r_port]. split; [exact X|]. split; [reflexivity|]. split; [reflexivity|].
    unfold host_form. cbn [r_host_type r_sub_domain r_domain r_suffix]. rewrite Ig.
    assert (Rs : seps rest) by (apply R; destruct Z as [[_ Z]|[Z _]]; auto).
    assert (D2 : (the_suffix segs c <> [] /\ is_sep_text sep) \/ (the_suffix segs c = [] /\ sep = [])).
    { destruct (c_has c); [destruct (A eq_refl) as (A1 & A2 & _); auto|]. destruct (C eq_refl) as (C1 & C2 & _). auto. }
    destruct Hpre as [(-> & Es)|(s & Hs' & ->)].
    + exists [], sep, rest. rewrite Es. cbn [app]. auto.
    + exists s, sep, rest. rewrite <- app_assoc in Eh. auto.
  - destruct (c14_partial _ _ _ _ _ B Nn H T) as (_ & _ & _ & _ & sc & us & raw & h & po & pa & w & U & Ok & Eh & W & E1 & E2 & E3 & E4).
    destruct (parts_text _ _ _ _ _ _ _ _ U Pu) as (_ & X). exists us, h, po. rewrite E1, E4. split; [exact X|].
    split; [exact E2|]. split; [exact E3|]. unfold host_form. rewrite T. eauto.
  - destruct (extract_cases _ _ _ _ _ H) as (sc & us & re & F & C).
    destruct C as [(x & X & _)|[(a & af & po & pa & -> & Ha & A & [(Ok & _ & E)|(_ & X & _)])|(raw & af & po & pa & -> & Hh & A & Ok & [(x & _ & X & _)|(h & Cv & O)])]];
      try discriminate.
    + subst r. exists us, (str "[" ++ a ++ str "]"), po. cbn [r_scheme r_path r_user_info r_port]. split; [|repeat split].
      apply front_text in F. destruct A as (_ & A). destruct po as [q|]; cbn [port_text].
      * destruct A as [-> _]. rewrite <- !app_assoc in *. exact F.
      * subst af. rewrite <- !app_assoc in *. exact F.
    + exfalso. destruct (outcome_error _ _ _ _ _ _ _ _ _ _ O) as [(_ & X & _)|[(_ & X & _)|(_ & X & _)]]; congruence.
Qed.

(** ** C19, C20 *)

Lemma c19_tld : forall ext rules t p r c, build_trie rules = Ret t -> extract ext t p = Ret (r, None) -> r_host_type r = HHostName ->
  (forall tld, host_tld ext p tld -> tld_is_suffix rules tld) ->
  In c forbidden -> c <> 888%N -> c <> 8299%N -> c <> 10868%N ->
  ~ has_char c (r_domain r) /\ ~ has_char c (r_sub_domain r).
Proof.
  intros ext rules t p r c B H T Tl Hc N1 N2 N3. destruct (r_suffix r) as [|b sf] eqn:Es.
  2:{ eapply c19_partial; eauto. rewrite Es. discriminate. }
  destruct (host_name _ _ _ _ H T) as (sc & us & raw & h & po & pa & first & zs & segs & k & U & Ok & V & S & Hw & Hok & Hs & Hi & Hd & ->).
  cbn [r_suffix r_domain r_sub_domain] in *.
  destruct (cwalk_tld _ _ _ _ B Hw (Tl _ (host_tld_at _ _ _ _ _ _ _ _ _ _ _ U S))) as [[Z _]|[Z Z']].
  - exfalso. apply (suffix_nonempty _ _ _ _ Hw Z (Hs Z)). exact Es.
  - unfold checked_text in Hi. rewrite Z, Z' in Hi. cbn [skipn] in Hi.
    pose proof (checked_no_forbidden _ c Hi Hc N1 N2 N3) as X. unfold the_domain, the_sub, sub_from in *. rewrite Z in *. split; intros Y; apply X.
    + pose proof (text_label first segs 0 ltac:(lia)) as E. cbn [skipn] in E. rewrite E, <- (app_nil_r (label_at first segs 0)). apply has_char_app. exact Y.
    + destruct (p_ignore_sub_domains p || negb (1 <=? length segs)) eqn:Q.
      * exfalso. assert (Y' : has_char c []) by (destruct (p_ignore_sub_domains p); [exact Y|]; cbn [orb] in Q; destruct (1 <=? length segs); [discriminate|exact Y]).
        destruct Y' as (x & y & Y'). symmetry in Y'. apply app_eq_nil in Y' as [_ Y']. apply app_eq_nil in Y' as [Y' _].
        revert Y'. apply encode_nonempty. pose proof forbidden_valid as F. rewrite Forall_forall in F. auto.
      * apply orb_false_iff in Q as [Q1 Q2]. rewrite Q1 in Y. apply negb_false_iff in Q2. rewrite Q2 in Y. apply Nat.leb_le in Q2.
        destruct (skipn_text first segs 0 1 ltac:(lia)) as (q & E). cbn [skipn] in E, Y. rewrite E. apply (has_char_app c []). exact Y.
Qed.

Lemma c20_tld : forall ext rules t p r, build_trie rules = Ret t -> extract ext t p = Ret (r, None) -> r_host_type r = HHostName ->
  (forall tld, host_tld ext p tld -> tld_is_suffix rules tld) ->
  exists scheme user raw h port path, url_parts ext p scheme user raw h port path
    /\ ((forall x y, h <> x ++ [239; 189; 161]%N ++ y) -> no_empty_label h).
Proof.
  intros ext rules t p r B H T Tl. destruct (r_suffix r) as [|b sf] eqn:Es.
  2:{ eapply c20_partial; eauto. rewrite Es. discriminate. }
  destruct (host_name _ _ _ _ H T) as (sc & us & raw & h & po & pa & first & zs & segs & k & U & Ok & V & S & Hw & Hok & Hs & Hi & Hd & ->).
  cbn [r_suffix] in Es. exists sc, us, raw, h, po, pa. split; [exact U|]. intros Nff.
  destruct (cwalk_tld _ _ _ _ B Hw (Tl _ (host_tld_at _ _ _ _ _ _ _ _ _ _ _ U S))) as [[Z _]|[Z Z']].
  - exfalso. apply (suffix_nonempty _ _ _ _ Hw Z (Hs Z)). exact Es.
  - unfold checked_text in Hi. rewrite Z, Z' in Hi. cbn [skipn] in Hi.
    unfold the_domain, label_at in Hd. rewrite Z in Hd.
    assert (Fs : Forall (fun g : seg => snd g <> [239; 189; 161]%N) segs).
    { apply Forall_forall. intros g Hg Eg. destruct S as (Eh & _).
      destruct (host_has_sep (zs ++ segs) first g) as (x & y & E); [apply in_or_app; auto|].
      apply (Nff x y). transitivity (x ++ snd g ++ y); [exact (eq_trans Eh E)|]. do 2 f_equal. exact Eg. }
    pose proof S as (_ & W & _). apply well_split_app in W.
    destruct (checked_labels first segs W Fs Hi) as [X|(X & Y)].
    + exfalso. pose proof (text_label first segs 0 ltac:(lia)) as E. cbn [skipn] in E. rewrite X in E. symmetry in E.
      apply app_eq_nil in E as [_ E]. contradiction.
    + destruct segs as [|g segs]; apply (labels_no_empty _ _ _ _ S).
      * exact Hd.
      * constructor.
      * apply X. discriminate.
      * constructor; [exact Hd|exact Y].
Qed.
