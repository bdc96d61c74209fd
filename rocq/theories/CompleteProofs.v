(** CompleteProofs.v - the outcome of Extract is completely specified. *)

From Verif Require Import Base BaseFacts Utf8 Utf8Facts Chars Str StrFacts Net Trie Extract Host HostFacts
  Walk WalkFacts Addr NetFacts Parse ParseFacts UrlSpec UrlFacts ExtractFacts OutcomeFacts Rfc RuleSpec TrieFacts
  UrlProofs CharProofs RuleProofs ErrSpec InvalidProofs ErrProofs.
From Coq Require Import ZifyBool ZifyNat ZifyN.
Local Open Scope N_scope.

(** ** Brackets *)

Lemma no_bracket_iff : forall s, Forall (fun b => negb (is_bracket b) = true) s <-> no_bracket s.
Proof. intros s. apply Forall_iff. intros b. rewrite negb_true_iff. apply bracket_false. Qed.
Lemma bracket_cases : forall b, bracket b <-> b = 91 \/ b = 93.
Proof. intros b. unfold bracket. cbn. intuition congruence. Qed.
Lemma no_bracket_span : forall a b s, no_bracket a -> bracket b -> span (fun b => negb (is_bracket b)) (a ++ b :: s) = (a, b :: s).
Proof.
  intros a b s A B. apply span_spec. split; [reflexivity|]. split; [apply no_bracket_iff; exact A|]. cbn [no_head].
  apply bracket_iff in B. rewrite B. reflexivity.
Qed.
Definition after_stop (b : N) : bool := negb (is_path_char b || (b =? 91)).
Lemma after_stop_span : forall m q, no_path_char m -> ~ In 91 m -> (q = [] \/ exists b q', q = b :: q' /\ (path_char b \/ b = 91)) ->
  span after_stop (m ++ q) = (m, q).
Proof.
  intros m q M N Q. apply span_spec. split; [reflexivity|]. split.
  - apply Forall_forall. intros b Hb. unfold no_path_char in M. rewrite Forall_forall in M. unfold after_stop.
    rewrite negb_true_iff, orb_false_iff, path_char_false, N.eqb_neq. split; [apply M; exact Hb|]. intros ->. contradiction.
  - destruct Q as [->|(b & q' & -> & H)]; [exact I|]. cbn [no_head]. unfold after_stop. rewrite negb_false_iff, orb_true_iff, path_char_iff, N.eqb_eq. exact H.
Qed.
Lemma path_head : forall path, is_path path -> path = [] \/ exists b q, path = b :: q /\ (path_char b \/ b = 91).
Proof. intros [|b q] H; [auto|]. right. exists b, q. split; [reflexivity|]. left. exact H. Qed.
Lemma path_no_prefix : forall path, is_path path -> has_prefix path [91] = false.
Proof.
  intros [|b q] H; [reflexivity|]. cbn [has_prefix]. destruct (N.eqb_spec 91 b) as [<-|]; [|reflexivity].
  exfalso. unfold is_path, starts_with, path_char in H. cbn in H. intuition congruence.
Qed.
Lemma plain_span : forall h b s, plain_host h -> bracket b ->
  span (fun b => negb (is_path_char b || (b =? 58) || is_bracket b)) (h ++ b :: s) = (h, b :: s).
Proof.
  intros h b s H B. apply span_spec. split; [reflexivity|]. split.
  - eapply Forall_impl; [|exact H]. intros x. apply host_stop_true.
  - cbn [no_head]. rewrite negb_false_iff, orb_true_iff. right. apply bracket_iff. exact B.
Qed.
Lemma plain_no_prefix : forall h s, h <> [] -> plain_host h -> has_prefix (h ++ s) [91] = false.
Proof.
  intros [|b h] s N H; [contradiction|]. cbn [app has_prefix]. inversion H as [|? ? (_ & B & _) _]; subst.
  destruct (N.eqb_spec 91 b) as [<-|]; [|reflexivity]. exfalso. apply B. left. reflexivity.
Qed.

Lemma open_prefix : forall s, has_prefix (str "[" ++ s) [91] = true.
Proof. intros s. apply has_prefix_spec. exists s. reflexivity. Qed.

Lemma close_prefix : forall s, has_prefix (str "]" ++ s) [93] = true.
Proof. intros s. apply has_prefix_spec. exists s. reflexivity. Qed.

Lemma bracketed_spec : forall a b r, no_bracket a -> b = 93 ->
  split_auth (str "[" ++ a ++ [b] ++ r) =
  let '(m, q2) := span after_stop r in
  if has_prefix q2 [91] then inl ErrOpeningBracket
  else if memN 93 m || negb (v6 a) then inl ErrInvalidIPv6
  else match r with
       | [] => inr (AV6 a r)
       | c :: _ => if is_path_char c || (c =? 58) then inr (AV6 a r) else inl ErrTrailingAfterIPv6
       end.
Proof.
  intros a b r A ->. unfold split_auth. rewrite open_prefix. cbv iota.
  change (tl (str "[" ++ a ++ [93] ++ r)) with (a ++ 93 :: r). unfold split_bracketed.
  rewrite no_bracket_span by (auto; right; left; reflexivity). reflexivity.
Qed.

Lemma split_auth_error : forall s x, split_auth s = inl x <-> bracket_error s x.
Proof.
  intros s x. split.
  - intros H. unfold split_auth in H. destruct (has_prefix s [91]) eqn:E0.
    + apply has_prefix_spec in E0 as (t & ->). cbn [app tl] in H. unfold split_bracketed in H.
      destruct (span (fun b => negb (is_bracket b)) t) as [a q] eqn:Es. apply span_spec in Es as (-> & F & S).
      apply no_bracket_iff in F. destruct q as [|b r].
      { injection H as <-. rewrite app_nil_r. apply (be_incomplete a F). }
      cbn [no_head] in S. apply negb_false_iff, bracket_iff, bracket_cases in S.
      destruct (N.eqb_spec b 91) as [->|Hb]; [injection H as <-; apply (be_second a r F)|].
      destruct S as [->| ->]; [contradiction|].
      destruct (span (fun b => negb (is_path_char b || (b =? 91))) r) as [m q2] eqn:Em.
      apply span_spec in Em as (-> & Fm & Sm).
      assert (M : no_path_char m /\ ~ In 91 m).
      { rewrite Forall_forall in Fm. split.
        - apply Forall_forall. intros y Hy. specialize (Fm y Hy). apply negb_true_iff, orb_false_iff in Fm as [Fm _]. apply path_char_false. exact Fm.
        - intros Hy. specialize (Fm 91 Hy). vm_compute in Fm. discriminate. }
      destruct M as [M1 M2].
      destruct (has_prefix q2 [91]) eqn:E2.
      { injection H as <-. apply has_prefix_spec in E2 as (y & ->). apply (be_later a m y F M1 M2). }
      assert (P : is_path q2).
      { destruct q2 as [|y q2]; [exact I|]. cbn [no_head] in Sm. apply negb_false_iff, orb_true_iff in Sm as [Sm|Sm].
        - apply path_char_iff. exact Sm.
        - exfalso. apply N.eqb_eq in Sm. subst y. change (91 :: q2) with (str "[" ++ q2) in E2. rewrite open_prefix in E2. discriminate. }
      destruct (memN 93 m || negb (v6 a)) eqn:E6.
      { injection H as <-. apply (be_literal a m q2 F M1 M2 P). apply orb_true_iff in E6 as [E6|E6]; [left; apply memN_In; exact E6|right].
        intros L. apply v6_iff in L. rewrite L in E6. discriminate. }
      apply orb_false_iff in E6 as [E6 E7]. apply negb_false_iff, v6_iff in E7.
      destruct m as [|c m].
      { cbn [app] in H. destruct q2 as [|c q2]; [discriminate|]. apply path_char_iff in P. rewrite P in H. discriminate. }
      cbn [app] in H. destruct (is_path_char c || (c =? 58)) eqn:Ec; [discriminate|]. apply orb_false_iff in Ec as [Ec1 Ec2].
      apply N.eqb_neq in Ec2. injection H as <-. apply (be_trailing a c m q2 E7 Ec2 M1); [|exact P].
      apply Forall_forall. intros y Hy B. apply bracket_cases in B as [->| ->]; [exact (M2 Hy)|]. apply memN_In in Hy. congruence.
    + destruct (span _ s) as [h q] eqn:Es. apply span_spec in Es as (-> & F & S).
      assert (Hh : plain_host h). { eapply Forall_impl; [|exact F]. intros y. apply host_stop_true. }
      destruct (has_prefix q [91]) eqn:E1.
      { apply has_prefix_spec in E1 as (y & ->). injection H as <-. apply (be_not_first h y); [|exact Hh]. intros ->.
        change ([] ++ [91] ++ y) with (str "[" ++ y) in E0. rewrite open_prefix in E0. discriminate. }
      destruct (has_prefix q [93]) eqn:E2; [|discriminate].
      apply has_prefix_spec in E2 as (y & ->). injection H as <-. apply (be_no_opening h y Hh).
  - intros [h y N H|a y A|a m y A M1 M2|h y H|a A|a m path A M1 M2 P L|a c m path L C M1 M2 P].
    + unfold split_auth. rewrite (plain_no_prefix h _ N H). change (h ++ str "[" ++ y) with (h ++ 91 :: y).
      rewrite plain_span by (auto; left; reflexivity).
      change (91 :: y) with (str "[" ++ y). rewrite open_prefix. reflexivity.
    + unfold split_auth. rewrite open_prefix. cbv iota.
      change (tl (str "[" ++ a ++ str "[" ++ y)) with (a ++ 91 :: y). unfold split_bracketed.
      rewrite no_bracket_span by (auto; left; reflexivity). reflexivity.
    + change (str "]") with [93]. rewrite bracketed_spec by auto. rewrite after_stop_span; [rewrite open_prefix; reflexivity|exact M1|exact M2|].
      right. exists 91, y. auto.
    + unfold split_auth. assert (E : has_prefix (h ++ str "]" ++ y) [91] = false).
      { destruct h as [|b h]; [reflexivity|]. apply plain_no_prefix; [discriminate|exact H]. }
      rewrite E. change (h ++ str "]" ++ y) with (h ++ 93 :: y). rewrite plain_span by (auto; right; left; reflexivity).
      change (93 :: y) with (str "]" ++ y). rewrite close_prefix. reflexivity.
    + unfold split_auth. rewrite open_prefix. cbv iota. change (tl (str "[" ++ a)) with a. unfold split_bracketed.
      assert (E : span (fun b => negb (is_bracket b)) a = (a, [])).
      { apply span_spec. rewrite app_nil_r. split; [reflexivity|]. split; [apply no_bracket_iff; exact A|exact I]. }
      rewrite E. reflexivity.
    + change (str "]") with [93]. rewrite bracketed_spec by auto. rewrite after_stop_span; [|exact M1|exact M2|apply path_head; exact P].
      rewrite path_no_prefix by exact P. assert (E : memN 93 m || negb (v6 a) = true).
      { rewrite orb_true_iff, memN_In. destruct L as [L|L]; [left; exact L|right]. destruct (v6 a) eqn:V; [|reflexivity]. exfalso. apply L. apply v6_iff. exact V. }
      rewrite E. reflexivity.
    + change (str "]") with [93]. rewrite bracketed_spec by (auto; apply no_bracket_iff; apply literal_no_bracket; exact L).
      assert (N91 : ~ In 91 (c :: m)). { intros Y. unfold no_bracket in M2. rewrite Forall_forall in M2. apply (M2 91 Y). left. reflexivity. }
      assert (N93 : ~ In 93 (c :: m)). { intros Y. unfold no_bracket in M2. rewrite Forall_forall in M2. apply (M2 93 Y). right. left. reflexivity. }
      rewrite after_stop_span; [|exact M1|exact N91|apply path_head; exact P]. rewrite path_no_prefix by exact P.
      apply not_in_memN in N93. rewrite N93. apply v6_iff in L. rewrite L. cbn [orb negb app].
      inversion M1 as [|? ? Mc _]; subst. apply path_char_false in Mc. rewrite Mc. apply N.eqb_neq in C. rewrite C. reflexivity.
Qed.

Lemma c66 : forall ext t p r e scheme user rest, extract ext t p = Ret (r, e) -> front (p_url p) scheme user rest ->
  (forall x, bracket_error rest x -> r = mkResult scheme (user_of user) [] [] [] [] [] [] HNone /\ e = Some x)
  /\ (forall x, In x [ErrOpeningBracket; ErrClosingBracket; ErrIncompleteBrackets; ErrInvalidIPv6; ErrTrailingAfterIPv6] ->
        e = Some x -> bracket_error rest x).
Proof.
  intros ext t p r e scheme user rest H F. split.
  - intros x B. rewrite (extract_front _ _ _ _ _ _ F) in H. apply Ret_inj in H. unfold extract_authority in H.
    apply split_auth_error in B. rewrite B in H. injection H as <- <-. auto.
  - intros x I ->. destruct (extract_cases _ _ _ _ _ H) as (sc & us & re & F' & C).
    destruct (front_unique _ _ _ _ _ _ _ F F') as (<- & <- & <-).
    destruct C as [(y & Y & _ & [(raw & af & po & pa & _ & _ & _ & _ & ->)|(S & _)])|[(a & af & po & pa & _ & _ & _ & [(_ & Y & _)|(_ & Y & _)])|(raw & af & po & pa & _ & _ & _ & _ & [(y & Cv & Y & _)|(h & _ & O)])]].
    + injection Y as ->. exfalso. cbn [In] in I. intuition discriminate.
    + injection Y as ->. apply split_auth_error. exact S.
    + discriminate.
    + injection Y as ->. exfalso. cbn [In] in I. intuition discriminate.
    + injection Y as ->. exfalso. unfold convert_host in Cv. destruct (query_unescape raw).
      * injection Cv as <-. cbn [In] in I. intuition discriminate.
      * destruct (p_to_punycode p); [discriminate|]. destruct (idna_to_unicode_err ext b); [|discriminate]. injection Cv as <-. cbn [In] in I. intuition discriminate.
    + exfalso. destruct (outcome_error _ _ _ _ _ _ _ _ _ _ O) as [(Y & _)|[(Y & _)|([Y|[Y|Y]] & _)]]; try discriminate; injection Y as ->; cbn [In] in I; intuition discriminate.
Qed.

(** ** Hosts *)

Definition text_of (first : bytes) (zs segs : list seg) (c : counts) : bytes :=
  if c_has c then if (c_sep c =? S (length segs))%nat then host first (zs ++ segs) else host first (skipn (c_start c) segs)
  else host first (skipn (c_prev c) segs).

Lemma text_checked : forall t rules first zs segs c text, represents t rules -> cwalk t false 0 0 0 (labels first segs) = Some c ->
  checked rules first zs segs text <-> text = text_of first zs segs c.
Proof.
  intros t rules first zs segs c text B Hw. pose proof (counts_looked t rules first segs B) as K. rewrite Hw in K. destruct K as (_ & K2 & K3).
  pose proof (cwalk_ok _ _ _ _ Hw) as [Hp Hc He].
  destruct (walk rules [] (labels first segs)) as [o n] eqn:Ew.
  destruct (cwalk_walk t rules B _ [] t _ _ _ _ _ _ _ eq_refl Hw Ew) as (W1 & W2 & W3). cbn [orb Nat.add] in W1, W2, W3.
  unfold checked, text_of. rewrite Ew, W1, W2, K3. rewrite W1 in He.
  assert (X : forall P : nat -> Prop, (exists m, last_looked rules (labels first segs) m /\ P m) <-> P (c_prev c)).
  { intros P. split; [intros (m & M & Hm); rewrite <- (last_unique _ _ _ _ M K2); exact Hm|]. intros Hm. exists (c_prev c). auto. }
  rewrite (X (fun m => match o with Some _ => _ | None => _ end)). destruct o as [k|]; [|reflexivity].
  specialize (He eq_refl). destruct (Nat.leb_spec n (length segs)), (Nat.eqb_spec n (S (length segs))); try reflexivity; lia.
Qed.

Lemma host_says_iff : forall t rules ignore scheme user port path h first zs segs r e, represents t rules -> labelled h first zs segs ->
  host_outcome t (base scheme user port path) h ignore (v4 h) = (r, e)
  <-> host_says rules ignore scheme (user_of user) (port_of port) path first zs segs r e.
Proof.
  intros t rules ignore sc us po pa h first zs segs r e B L. pose proof L as (Eh & _).
  rewrite (host_outcome_stripped _ _ _ _ _ _ _ _ L). pose proof (counts_looked t rules first segs B) as K.
  destruct (v4 h) eqn:V.
  { assert (V' := V). apply v4_iff in V'.
    destruct (cwalk t false 0 0 0 (labels first segs)) as [c|] eqn:Hw.
    2:{ exfalso. destruct (c13_outcome t (base sc us po pa) h ignore (base sc us po pa) (Some ErrConsecutiveSeparators) V') as (X & _); [|discriminate].
        rewrite V, (host_outcome_stripped _ _ _ _ _ _ _ _ L), Hw. reflexivity. }
    destruct K as (_ & K2 & _). cbv zeta. split.
    - intros H. injection H as <- <-. apply hs_ipv4; [rewrite <- Eh; exact V'|exact K2].
    - rewrite Eh in V'. intros H. inversion H; subst; try contradiction.
      match goal with M : last_looked _ _ ?m |- _ => rewrite <- (last_unique _ _ _ _ M K2) end. reflexivity. }
  assert (V' : ~ ipv4_text (host first (zs ++ segs))) by (rewrite <- Eh, <- v4_iff, V; discriminate). clear V.
  destruct (cwalk t false 0 0 0 (labels first segs)) as [c|] eqn:Hw.
  2:{ split.
      - intros H. injection H as <- <-. apply hs_consecutive; assumption.
      - intros H. inversion H; subst; try contradiction. reflexivity. }
  destruct K as (K1 & K2 & K3). pose proof (cwalk_ok _ _ _ _ Hw) as Hok.
  pose proof (fun text => text_checked t rules first zs segs c text B Hw) as Ct.
  destruct (walk rules [] (labels first segs)) as [o n] eqn:Ew.
  destruct (cwalk_walk t rules B _ [] t _ _ _ _ _ _ _ eq_refl Hw Ew) as (W1 & W2 & W3). cbn [orb Nat.add] in W1, W2, W3.
  assert (Cm : components (base sc us po pa) first zs segs ignore c =
    if has_invalid_chars (text_of first zs segs c) then (base sc us po pa, Some ErrInvalidChars)
    else match o with
         | None =>
           let dom := nth 0 (labels first segs) [] in
           let sub := if ignore then [] else if (1 <=? length segs)%nat then host first (skipn 1 segs) else [] in
           (mkResult sc (user_of us) sub dom [] [] (port_of po) pa (type_of dom), error_of dom)
         | Some k =>
           if (n =? S (length segs))%nat
           then (mkResult sc (user_of us) [] [] (host first (skipn k segs)) [] (port_of po) pa HNone, Some ErrEmptyDomain)
           else
             let dom := nth n (labels first segs) [] in
             let sfx := labels_text (firstn (n - k) (skipn k segs)) in
             let sub := if ignore then [] else if (S n <=? length segs)%nat then host first (skipn (S n) segs) else [] in
             (mkResult sc (user_of us) sub dom sfx (dom ++ snd (nth (n - 1) segs ([], [])) ++ sfx) (port_of po) pa (type_of dom), error_of dom)
         end).
  { unfold components. fold (text_of first zs segs c). rewrite W1, W2, W3. unfold text_of. rewrite W1, W2.
    destruct (has_invalid_chars _); [reflexivity|]. destruct o as [k|].
    - destruct (n =? S (length segs))%nat; [reflexivity|]. cbv zeta. rewrite (labels_text_join (firstn (n - k) (skipn k segs))).
      unfold label_at, sep_text_at, base. cbn [r_domain with_sub_domain with_registered_domain with_domain with_suffix with_host_type].
      destruct (nth n (labels first segs) []); reflexivity.
    - unfold label_at, base. cbv zeta. cbn [r_domain with_sub_domain with_registered_domain with_domain with_suffix with_host_type].
      destruct (nth 0 (labels first segs) []); reflexivity. }
  rewrite Cm. clear Cm.
  assert (Ck : checked rules first zs segs (text_of first zs segs c)) by (apply Ct; reflexivity).
  assert (Le : forall k, o = Some k -> (n <= S (length segs))%nat).
  { intros k ->. destruct Hok as [Hp Hc _]. rewrite W2 in Hc. lia. }
  clear Hok W1 W2 W3 K3.
  destruct (has_invalid_chars (text_of first zs segs c)) eqn:Hi.
  { apply invalid_iff in Hi. split.
    - intros H. injection H as <- <-. eapply hs_invalid; eassumption.
    - intros H. inversion H; subst; try contradiction; try reflexivity;
        match goal with X : checked _ _ _ _ ?x, Y : ~ bad_text ?x |- _ => apply Ct in X; rewrite X in Y; contradiction end. }
  apply valid_iff in Hi. split.
  - intros H. destruct o as [k|].
    + specialize (Le k eq_refl). destruct (Nat.eqb_spec n (S (length segs))) as [En|En].
      * injection H as <- <-. eapply hs_only_suffix; try eassumption. lia.
      * cbv zeta in H. injection H as <- <-. eapply hs_suffix; try eassumption; try reflexivity. lia.
    + cbv zeta in H. injection H as <- <-. eapply hs_no_suffix; try eassumption; reflexivity.
  - intros H. inversion H; subst; try contradiction.
    + exfalso. match goal with X : checked _ _ _ _ ?x, Y : bad_text ?x |- _ => apply Ct in X; rewrite X in Y; contradiction end.
    + match goal with X : walk _ _ _ = (None, _) |- _ => rewrite Ew in X; injection X as -> -> end. reflexivity.
    + match goal with X : walk _ _ _ = (Some _, _) |- _ => rewrite Ew in X; injection X as -> -> end.
      match goal with |- context [(?x =? ?y)%nat] => destruct (Nat.eqb_spec x y); [lia|] end. reflexivity.
    + match goal with X : walk _ _ _ = (Some _, _) |- _ => rewrite Ew in X; injection X as -> -> end. specialize (Le _ eq_refl).
      match goal with |- context [(?x =? ?y)%nat] => destruct (Nat.eqb_spec x y); [|lia] end. reflexivity.
Qed.

(** ** Escapes *)

Lemma unescape_app : forall p d t, percent_decoded p d ->
  query_unescape (p ++ t) = match query_unescape t with inr u => inr (d ++ u) | inl e => inl e end.
Proof.
  intros p d t H. induction H as [|a b s d Ha Hb H IH|s d H IH|b s d N1 N2 H IH]; cbn [app].
  - destruct (query_unescape t); reflexivity.
  - rewrite query_unescape_cons. cbn [app]. change (37 =? 37) with true. cbv iota. rewrite Ha, Hb. cbn [andb].
    rewrite IH. destruct (query_unescape t); reflexivity.
  - rewrite query_unescape_cons. change (43 =? 37) with false. change (43 =? 43) with true. cbv iota. rewrite IH. destruct (query_unescape t); reflexivity.
  - rewrite query_unescape_cons. apply N.eqb_neq in N1, N2. rewrite N1, N2, IH. destruct (query_unescape t); reflexivity.
Qed.

Lemma bad_escape_first : forall s x, query_unescape s = inl x <-> first_bad_escape s x.
Proof.
  intros s x. split.
  - remember (length s) as n eqn:En. revert s x En. induction n as [n IH] using (well_founded_induction lt_wf). intros s x -> H.
    destruct s as [|b s]; [discriminate|].
    assert (Go : forall pre d t, b :: s = pre ++ t -> pre <> [] -> percent_decoded pre d -> query_unescape t = inl x -> first_bad_escape (b :: s) x).
    { intros pre d t E N D U. destruct (IH (length t)) with (s := t) (x := x) as (p & d' & q & -> & Dp & Nq & Ex); [| reflexivity|exact U|].
      - rewrite E, app_length. destruct pre; [contradiction|]. cbn [length]. lia.
      - rewrite E. exists (pre ++ p), (d ++ d'), q. rewrite <- app_assoc. split; [reflexivity|]. split; [|auto].
        apply percent_decoded_iff. rewrite (unescape_app _ _ _ D). apply percent_decoded_iff in Dp. rewrite Dp. reflexivity. }
    rewrite query_unescape_cons in H. destruct (N.eqb_spec b 37) as [->|N1].
    + assert (Bad : (~ exists a c q', s = a :: c :: q' /\ is_hex a = true /\ is_hex c = true) -> x = firstn 3 (37 :: s) -> first_bad_escape (37 :: s) x).
      { intros N E. exists [], [], s. split; [reflexivity|]. split; [constructor|]. split; [exact N|exact E]. }
      destruct s as [|a [|c s]].
      * injection H as <-. apply Bad; [|reflexivity]. intros (a & c & q & E & _). discriminate.
      * injection H as <-. apply Bad; [|reflexivity]. intros (a' & c & q & E & _). discriminate.
      * destruct (is_hex a && is_hex c) eqn:Hx.
        -- apply andb_true_iff in Hx as [Ha Hc]. apply (Go [37; a; c] [16 * unhex a + unhex c] s); [reflexivity|discriminate| |].
           ++ constructor; [exact Ha|exact Hc|constructor].
           ++ destruct (query_unescape s); [congruence|discriminate].
        -- injection H as <-. apply Bad; [|reflexivity]. intros (a' & c' & q & E & Ha & Hc). injection E as <- <- _. rewrite Ha, Hc in Hx. discriminate.
    + destruct (N.eqb_spec b 43) as [->|N2].
      * apply (Go [43] [32] s); [reflexivity|discriminate|constructor; constructor|]. destruct (query_unescape s); [congruence|discriminate].
      * apply (Go [b] [b] s); [reflexivity|discriminate|apply pd_other; [assumption|assumption|constructor]|]. destruct (query_unescape s); [congruence|discriminate].
  - intros (p & d & q & -> & D & N & ->). rewrite (unescape_app _ _ _ D).
    change (str "%" ++ q) with (37 :: q). rewrite query_unescape_cons. change (37 =? 37) with true. cbv iota.
    destruct q as [|a [|c q]]; [reflexivity|reflexivity|].
    destruct (is_hex a && is_hex c) eqn:Hx; [|reflexivity]. exfalso. apply andb_true_iff in Hx as [Ha Hc]. apply N. exists a, c, q. auto.
Qed.

(** ** Everything *)

Lemma first_occurrence : forall (b : N) l, In b l -> exists m y, l = m ++ b :: y /\ ~ In b m.
Proof.
  intros b l. induction l as [|a l IH]; [intros []|]. intros H. destruct (N.eq_dec a b) as [->|N].
  - exists [], l. auto.
  - destruct H as [->|H]; [contradiction|]. destruct (IH H) as (m & y & -> & Nm). exists (a :: m), y. split; [reflexivity|].
    intros [X|X]; [congruence|contradiction].
Qed.

Lemma c67 : forall ext rules t p r e, build_trie rules = Ret t -> extract ext t p = Ret (r, e) <-> extracts ext rules p r e.
Proof.
  intros ext rules t p r e B. apply build_trie_represents in B. split.
  - intros H. destruct (extract_cases _ _ _ _ _ H) as (sc & us & re & F & C).
    destruct C as [(x & -> & -> & [(raw & af & po & pa & -> & Hr & A & Np & ->)|(S & _)])|[(a & af & po & pa & -> & Ha & A & [(Ok & -> & ->)|(Np & -> & ->)])|(raw & af & po & pa & -> & Hr & A & Ok & [(x & Cv & -> & ->)|(h & Cv & O)])]].
    + eapply ex_port; eassumption.
    + apply split_auth_error in S. eapply ex_brackets; eassumption.
    + eapply ex_ipv6; eassumption.
    + eapply ex_ipv6_port; try eassumption.
      (* brackets in the port would be another error *)
      apply Forall_forall. intros b Hb Bb. destruct A as (Hp & A). destruct po as [po|]; [|destruct Hb]. cbn [port_of] in Hb. destruct A as (-> & Np').
      assert (E : exists x, bracket_error (str "[" ++ a ++ str "]" ++ str ":" ++ po ++ pa) x /\ x <> ErrInvalidPort).
      { assert (Na : no_bracket a) by (apply no_bracket_iff; apply literal_no_bracket; exact Ha).
        destruct (in_dec N.eq_dec 91 po) as [I|I].
        - apply first_occurrence in I as (m & y & -> & Nm). exists ErrOpeningBracket. split; [|discriminate].
          replace (str ":" ++ (m ++ 91 :: y) ++ pa) with ((str ":" ++ m) ++ str "[" ++ (y ++ pa)) by (rewrite <- !app_assoc; reflexivity).
          apply be_later; [exact Na| |].
          + apply Forall_app in Np' as [Np' _]. constructor; [exact path_colon|exact Np'].
          + intros [X|X]; [discriminate|contradiction].
        - exists ErrInvalidIPv6. split; [|discriminate]. rewrite (app_assoc (str ":")). apply be_literal; [exact Na| | |exact Hp|].
          + constructor; [exact path_colon|exact Np'].
          + intros [X|X]; [discriminate|contradiction].
          + left. right. apply bracket_cases in Bb as [->| ->]; [contradiction|exact Hb]. }
      destruct E as (x & E & Nx). destruct (c66 _ _ _ _ _ _ _ _ H F) as (X & _). destruct (X x E) as (_ & Y). congruence.
    + unfold convert_host in Cv. destruct (query_unescape raw) as [y|d] eqn:Q.
      * injection Cv as <-. apply bad_escape_first in Q. eapply ex_escape; eassumption.
      * destruct (p_to_punycode p) eqn:P; [discriminate|]. destruct (idna_to_unicode_err ext d) eqn:I; [|discriminate]. injection Cv as <-.
        apply percent_decoded_iff in Q. eapply ex_idna; eassumption.
    + destruct (labelled_total h) as (first & zs & segs & L). apply (host_says_iff _ rules _ _ _ _ _ _ first zs segs _ _ B L) in O.
      eapply ex_host; [|exact Ok|exact L|exact O]. exists af. split; [exact F|]. split; [exact Hr|]. split; [exact A|exact Cv].
  - intros X. destruct X as [sc us re x F Be|sc us a af po pa F Ha A Ok|sc us a af po pa F Ha A Np Nb|sc us raw af po pa F Hr A Np
      |sc us raw af po pa x F Hr A Ok Be|sc us raw af po pa d x F Hr A Ok D P I|sc us raw h po pa first zs segs r e U Ok L Hs].
    + rewrite (extract_front _ _ _ _ _ _ F). unfold extract_authority. apply split_auth_error in Be. rewrite Be. reflexivity.
    + rewrite (extract_front _ _ _ _ _ _ F). unfold extract_authority. rewrite (split_auth_v6_port a af po pa Ha A Ok).
      rewrite (proj1 (split_port_spec af po pa A) Ok). reflexivity.
    + rewrite (extract_front _ _ _ _ _ _ F). unfold extract_authority. pose proof (proj2 (split_port_spec af po pa A) Np) as Sp.
      destruct A as (Hp & A). destruct po as [po|]; [|exfalso; apply Np; exact Logic.I]. destruct A as (-> & Np'). cbn [port_of] in Nb.
      assert (E : split_auth (str "[" ++ a ++ str "]" ++ str ":" ++ po ++ pa) = inr (AV6 a (str ":" ++ po ++ pa))).
      { rewrite (app_assoc (str ":")). unfold no_bracket in Nb. rewrite Forall_forall in Nb. apply split_auth_v6; auto.
        - constructor; [exact path_colon|exact Np'].
        - intros [X|X]; [discriminate|]. apply (Nb _ X). left. reflexivity.
        - intros [X|X]; [discriminate|]. apply (Nb _ X). right. left. reflexivity.
        - right. reflexivity. }
      rewrite E, Sp. reflexivity.
    + rewrite (extract_front _ _ _ _ _ _ F). unfold extract_authority.
      rewrite (split_auth_plain raw af Hr (after_host_starts _ _ _ A)), (proj2 (split_port_spec af po pa A) Np). reflexivity.
    + rewrite (extract_front _ _ _ _ _ _ F). unfold extract_authority.
      rewrite (split_auth_plain raw af Hr (after_host_starts _ _ _ A)), (proj1 (split_port_spec af po pa A) Ok).
      unfold convert_host. apply bad_escape_first in Be. rewrite Be. reflexivity.
    + rewrite (extract_front _ _ _ _ _ _ F). unfold extract_authority.
      rewrite (split_auth_plain raw af Hr (after_host_starts _ _ _ A)), (proj1 (split_port_spec af po pa A) Ok).
      unfold convert_host. apply percent_decoded_iff in D. rewrite D, P, I. reflexivity.
    + rewrite (extract_parts _ _ _ _ _ _ _ _ _ U Ok). f_equal. apply (host_says_iff _ rules _ _ _ _ _ _ first zs segs _ _ B L). exact Hs.
Qed.

Lemma c67_consistent : forall ext rules p, exists r e, extracts ext rules p r e /\ forall r' e', extracts ext rules p r' e' -> r' = r /\ e' = e.
Proof.
  intros ext rules p. destruct (build_trie_spec rules) as (t & B & _). destruct (c01 ext t p) as (r & e & H). exists r, e.
  split; [apply (c67 _ _ _ _ _ _ B); exact H|]. intros r' e' H'. apply (c67 _ _ _ _ _ _ B) in H'. split; congruence.
Qed.
