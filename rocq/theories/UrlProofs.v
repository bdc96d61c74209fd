(** UrlProofs.v - proofs of the properties stated in PropUrl.v. *)

From Verif Require Import Base BaseFacts Utf8 Utf8Facts Chars Str StrFacts Net Trie Extract Host HostFacts
  Walk WalkFacts Addr NetFacts Parse ParseFacts UrlSpec UrlFacts ExtractFacts OutcomeFacts.
From Coq Require Import ZifyBool ZifyNat ZifyN.
Local Open Scope N_scope.

Lemma Ret_inj : forall A (a b : A), Ret a = Ret b -> a = b.
Proof. intros A a b H. injection H as H. exact H. Qed.

Lemma c01 : forall ext t p, exists r e, extract ext t p = Ret (r, e).
Proof. intros ext t p. rewrite extract_spec. destruct (extracted ext t p) as [r e]. eauto. Qed.

Lemma c02 : forall ext t l url r ignore puny, star ws_chars l -> star ws_chars r ->
  extract ext t (mkParams (l ++ url ++ r) ignore puny) = extract ext t (mkParams url ignore puny).
Proof.
  intros ext t l url r ignore puny Hl Hr. rewrite !extract_spec. unfold extracted.
  cbn [p_url p_ignore_sub_domains p_to_punycode].
  replace (trim_ws (l ++ url ++ r)) with (trim_ws url); [reflexivity|].
  unfold trim_ws. rewrite ws_eq, (fast_trim_pad _ ws_good) by assumption. reflexivity.
Qed.

(** Scheme and user information do not depend on the rest. *)
Lemma host_outcome_keeps : forall t u h ignore v r e, host_outcome t u h ignore v = (r, e) ->
  r_scheme r = r_scheme u /\ r_user_info r = r_user_info u /\ r_port r = r_port u /\ r_path r = r_path u.
Proof.
  intros t u h ignore v r e H. unfold host_outcome in H. destruct (split_host h) as [first segs0].
  destruct (strip_empty segs0) as [zs segs]. destruct (cwalk t false 0 0 0 (labels first segs)) as [c|].
  - destruct v.
    + injection H as <- <-. auto.
    + unfold components in H. destruct (has_invalid_chars _); [injection H as <- <-; auto|].
      destruct (is_nil _); injection H as <- <-; destruct (c_has c); try destruct (_ =? _)%nat; auto.
  - injection H as <- <-. auto.
Qed.

Lemma extract_front_fields : forall ext t p r e scheme user rest, extract ext t p = Ret (r, e) ->
  front (p_url p) scheme user rest -> r_scheme r = scheme /\ r_user_info r = user_of user.
Proof.
  intros ext t p r e scheme user rest H F.
  destruct (extract_cases _ _ _ _ _ H) as (sc & us & re & F' & C).
  destruct (front_unique _ _ _ _ _ _ _ F F') as (<- & <- & <-).
  destruct C as [(x & _ & -> & _)|[(a & af & po & pa & _ & _ & _ & [(_ & _ & ->)|(_ & _ & ->)])|(raw & af & po & pa & _ & _ & _ & _ & [(x & _ & _ & ->)|(h & _ & O)])]];
    try (split; reflexivity).
  apply host_outcome_keeps in O as (A & B & _). auto.
Qed.

Lemma c03 : forall ext t p r e u, extract ext t p = Ret (r, e) -> trimmed ws_chars (p_url p) u ->
  exists rest, scheme_split u (r_scheme r) rest.
Proof.
  intros ext t p r e u H T. destruct (front_total (p_url p)) as (sc & us & re & F).
  destruct (extract_front_fields _ _ _ _ _ _ _ _ H F) as (-> & _).
  destruct F as (u' & s & T' & S & _). assert (u' = u).
  { apply trim_ws_iff in T. apply trim_ws_iff in T'. congruence. }
  subst u'. eauto.
Qed.

Lemma c03_none : forall ext t p r e u, extract ext t p = Ret (r, e) -> trimmed ws_chars (p_url p) u ->
  r_scheme r = [] <-> ~ exists a b, u = a ++ b /\ is_scheme a.
Proof.
  intros ext t p r e u H T. destruct (c03 _ _ _ _ _ _ H T) as (rest & E & A & M). split.
  - intros X (a & b & Eu & Ha). destruct (M a b Eu Ha) as (c & Y). rewrite X in Y. symmetry in Y.
    apply app_eq_nil in Y as [-> _]. exact (is_scheme_nonempty [] Ha eq_refl).
  - intros X. destruct A as [A|A]; [exact A|]. exfalso. apply X. eauto.
Qed.

Lemma c04_partial : forall ext t p r e a b, extract ext t p = Ret (r, e) ->
  trimmed ws_chars (p_url p) (a ++ b) -> Forall (fun c => ~ slash c) a ->
  (b = [] \/ exists s q, b = s :: q /\ slash s /\ starts_with (fun c => ~ slash c) q) -> r_scheme r = [].
Proof.
  intros ext t p r e a b H T Fa Hb. apply (c03_none _ _ _ _ _ _ H T).
  intros (x & y & E & body & sl & -> & Fsl & L & Hbody).
  destruct sl as [|s1 [|s2 sl]]; try (cbn in L; lia).
  inversion Fsl as [|? ? S1 Fsl']; subst. inversion Fsl' as [|? ? S2 _]; subst.
  assert (Nb : Forall (fun c => ~ slash c) body).
  { assert (X : forall c, scheme_name_char c -> ~ slash c).
    { intros c Hc Hs. apply scheme_char_iff in Hc. apply slash_iff in Hs.
      destruct (slash_not_scheme c Hs) as [Y _]. congruence. }
    destruct Hbody as [->|(c & name & colon & -> & Hc & Hn & Hcol)]; [constructor|].
    constructor; [apply X; left; exact Hc|]. apply Forall_app. split; [revert Hn; apply Forall_impl; exact X|].
    destruct Hcol as [->| ->]; constructor; [|constructor]. unfold slash. cbn. intuition discriminate. }
  rewrite <- app_assoc in E. cbn [app] in E.
  assert (a = body /\ b = s1 :: s2 :: sl ++ y) as [-> ->].
  { destruct (app_split _ _ _ _ _ E) as [(m & -> & Eb)|(m & Hm & -> & Eb)].
    - destruct Hb as [->|(s & q & -> & Hs & _)].
      + symmetry in Eb. apply app_eq_nil in Eb as [_ Eb]. discriminate.
      + destruct m as [|c m]; [rewrite app_nil_r; auto|]. exfalso. cbn [app] in Eb. injection Eb as <- Eb.
        assert (Ns : ~ slash s) by (apply Forall_app in Nb as [_ Nb]; inversion Nb; assumption).
        contradiction.
    - exfalso. destruct m as [|c m]; [contradiction|]. cbn [app] in Eb. injection Eb as -> _.
      apply Forall_app in Fa as [_ Fa]. inversion Fa; contradiction. }
  destruct Hb as [|(s & q & Eq & _ & Sq)]; [discriminate|]. injection Eq as <- <-. cbn [starts_with] in Sq. contradiction.
Qed.

Lemma c05 : forall ext t p r e scheme user rest, extract ext t p = Ret (r, e) ->
  front (p_url p) scheme user rest ->
  r_user_info r = user_of user
  /\ Forall (fun b => ~ path_char b /\ ~ bracket b) (r_user_info r)
  /\ exists v q, rest = v ++ q /\ ~ In 64 v /\ starts_with (fun b => path_char b \/ bracket b) q.
Proof.
  intros ext t p r e scheme user rest H F.
  destruct (extract_front_fields _ _ _ _ _ _ _ _ H F) as (_ & ->). split; [reflexivity|].
  destruct F as (u & s & _ & _ & pre & q & -> & Fp & Sq & X). destruct user as [x|]; cbn [user_of].
  - destruct X as (v & -> & Hv & ->). apply Forall_app in Fp as [Fx _]. split; [exact Fx|]. exists v, q. auto.
  - destruct X as (Hv & ->). split; [constructor|]. exists pre, q. auto.
Qed.

(** ** Ports *)

Lemma c07_success : forall ext t p r, extract ext t p = Ret (r, None) -> r_port r <> [] -> port_number (r_port r).
Proof.
  intros ext t p r H Hp. destruct (extract_cases _ _ _ _ _ H) as (sc & us & re & F & C).
  destruct C as [(x & X & _)|[(a & af & po & pa & _ & _ & _ & [(Ok & _ & ->)|(_ & X & _)])|(raw & af & po & pa & _ & _ & _ & Ok & [(x & _ & X & _)|(h & _ & O)])]];
    try discriminate.
  - cbn [r_port] in *. destruct po; [exact Ok|contradiction].
  - apply host_outcome_keeps in O as (_ & _ & O & _). rewrite O in *. unfold base in *. cbn [r_port] in *.
    destruct po; [exact Ok|contradiction].
Qed.

Lemma outcome_error : forall t sc us po pa h ig v r e,
  host_outcome t (base sc us po pa) h ig v = (r, e) ->
  (e = None /\ r_host_type r = HIPv4 /\ v = true)
  \/ (e = None /\ r_host_type r = HHostName /\ v = false /\ r_domain r <> [])
  \/ ((e = Some ErrConsecutiveSeparators \/ e = Some ErrInvalidChars \/ e = Some ErrEmptyDomain)
      /\ r_host_type r = HNone /\ r_domain r = []).
Proof.
  intros t sc us po pa h ig v r e H.
  destruct (outcome_cases _ _ _ _ _ _ _ _ _ _ H) as (first & zs & segs & S & [(-> & -> & _)|(c & Hw & Ok & [(-> & -> & ->)|(-> & Hc)])]).
  - right. right. auto.
  - left. auto.
  - destruct (components_cases _ _ _ _ _ _ _ _ _ _ _ Ok Hc) as [(-> & ->)|[(-> & _ & _ & ->)|(_ & _ & [(Hd & -> & ->)|(_ & -> & ->)])]].
    + right. right. auto.
    + right. right. auto.
    + right. left. auto.
    + right. right. auto.
Qed.

Lemma convert_error : forall ext puny raw x, convert_host ext puny raw = inl x ->
  (exists y, x = ErrUnescape y) \/ (exists y, x = ErrIdna y).
Proof.
  intros ext puny raw x H. unfold convert_host in H. destruct (query_unescape raw) as [y|d].
  - injection H as <-. eauto.
  - destruct puny; [discriminate|]. destruct (idna_to_unicode_err ext d); [|discriminate]. injection H as <-. eauto.
Qed.

Lemma c07_plain : forall ext t p r e scheme user raw after port path, extract ext t p = Ret (r, e) ->
  front (p_url p) scheme user (raw ++ after) -> plain_host raw -> after_host after port path ->
  (port_accepted port -> r_port r = port_of port /\ r_path r = path /\ e <> Some ErrInvalidPort)
  /\ (~ port_accepted port -> r = base scheme user None [] /\ e = Some ErrInvalidPort).
Proof.
  intros ext t p r e scheme user raw after port path H F Hh A.
  rewrite (extract_front _ _ _ _ _ _ F) in H. apply Ret_inj in H. unfold extract_authority in H.
  rewrite (split_auth_plain raw after Hh (after_host_starts _ _ _ A)) in H.
  destruct (split_port_spec after port path A) as [Sp Sn]. split; intros Ok.
  - rewrite (Sp Ok) in H. destruct (convert_host ext (p_to_punycode p) raw) as [x|h] eqn:C.
    + injection H as <- <-. split; [reflexivity|]. split; [reflexivity|].
      destruct (convert_error _ _ _ _ C) as [(y & ->)|(y & ->)]; discriminate.
    + change (host_outcome t (base scheme user port path) h (p_ignore_sub_domains p) (v4 h) = (r, e)) in H.
      pose proof (outcome_error _ _ _ _ _ _ _ _ _ _ H) as E. apply host_outcome_keeps in H as (_ & _ & -> & ->).
      split; [reflexivity|]. split; [reflexivity|].
      destruct E as [(-> & _)|[(-> & _)|([->|[->| ->]] & _)]]; discriminate.
  - rewrite (Sn Ok) in H. injection H as <- <-. auto.
Qed.

Lemma split_auth_v6_gen : forall a after, ipv6_literal a -> starts_with (fun b => path_char b \/ b = 58) after ->
  split_auth (str "[" ++ a ++ str "]" ++ after) = inr (AV6 a after)
  \/ exists x, split_auth (str "[" ++ a ++ str "]" ++ after) = inl x /\ In x [ErrOpeningBracket; ErrInvalidIPv6].
Proof.
  intros a after Ha S. unfold split_auth.
  replace (has_prefix (str "[" ++ a ++ str "]" ++ after) [91]) with true
    by (symmetry; apply has_prefix_spec; eexists; reflexivity).
  change (tl (str "[" ++ a ++ str "]" ++ after)) with (a ++ 93 :: after). unfold split_bracketed.
  assert (E : span (fun b => negb (is_bracket b)) (a ++ 93 :: after) = (a, 93 :: after)).
  { apply span_spec. split; [reflexivity|]. split; [apply literal_no_bracket; exact Ha|reflexivity]. }
  rewrite E. change (93 =? 91) with false. cbv iota. destruct (span _ after) as [m q2].
  destruct (has_prefix q2 [91]); [right; eexists; split; [reflexivity|cbn; auto]|].
  destruct (memN 93 m || negb (v6 a)); [right; eexists; split; [reflexivity|cbn; auto]|].
  destruct after as [|c r]; [auto|]. cbn [starts_with] in S. left.
  replace (is_path_char c || (c =? 58)) with true; [reflexivity|].
  symmetry. rewrite orb_true_iff, path_char_iff, N.eqb_eq. exact S.
Qed.

Lemma c07_bracketed : forall ext t p r e scheme user a after port path, extract ext t p = Ret (r, e) ->
  front (p_url p) scheme user (str "[" ++ a ++ str "]" ++ after) -> ipv6_literal a ->
  after_host after port path ->
  (port_accepted port -> r_port r = port_of port /\ r_path r = path /\ e = None)
  /\ (~ port_accepted port -> r_port r = [] /\ r_path r = [] /\ e <> None
      /\ (Forall (fun b => ~ bracket b) (port_of port) -> e = Some ErrInvalidPort)).
Proof.
  intros ext t p r e scheme user a after port path H F Ha A.
  rewrite (extract_front _ _ _ _ _ _ F) in H. apply Ret_inj in H. unfold extract_authority in H.
  destruct (split_port_spec after port path A) as [Sp Sn]. split; intros Ok.
  - rewrite (split_auth_v6_port a after port path Ha A Ok), (Sp Ok) in H. injection H as <- <-. auto.
  - destruct (split_auth_v6_gen a after Ha (after_host_starts _ _ _ A)) as [E|(x & E & Hx)].
    + rewrite E, (Sn Ok) in H. injection H as <- <-. cbn [r_port r_path start_result with_registered_domain with_domain with_host_type].
      repeat split; try discriminate.
    + destruct port as [q|]; [|exfalso; apply Ok; exact I]. cbn [port_of].
      pose proof H as H'. rewrite E in H'. injection H' as <- <-. repeat split; try discriminate.
      intros Nb. exfalso. destruct A as (Hp & -> & Hn).
      rewrite (app_assoc (str ":") q path) in E.
      rewrite split_auth_v6 in E; auto; try discriminate.
      * constructor; [exact path_colon|exact Hn].
      * intros [X|X]; [discriminate|]. rewrite Forall_forall in Nb. apply (Nb 91 X). left. reflexivity.
      * intros [X|X]; [discriminate|]. rewrite Forall_forall in Nb. apply (Nb 93 X). right. left. reflexivity.
      * cbn. auto.
Qed.

Lemma c08_partial : forall ext t p r b q, extract ext t p = Ret (r, None) -> r_port r = b :: q ->
  b <> 43 -> b <> 45 -> all_digits (r_port r) /\ (decimal (r_port r) <= 65535)%Z.
Proof.
  intros ext t p r b q H E N1 N2. assert (P : port_number (r_port r)).
  { apply (c07_success _ _ _ _ H). congruence. }
  destruct P as (sg & d & Ep & _ & Ad & [([->| ->] & Hd)|(-> & _)]); rewrite E in Ep; cbn [app str] in Ep.
  - subst d. rewrite E. auto.
  - injection Ep as -> _. contradiction.
  - injection Ep as -> _. contradiction.
Qed.

(** ** The path *)

Lemma span_app_stop : forall p a b d q, span p a = (d, q) -> q <> [] -> span p (a ++ b) = (d, q ++ b).
Proof.
  intros p a b d q H Hq. apply span_spec in H as (-> & F & S). apply span_spec.
  rewrite <- app_assoc. split; [reflexivity|]. split; [exact F|]. destruct q; [contradiction|exact S].
Qed.
Lemma span_app_none : forall p a b d, span p a = (d, []) -> no_head p b -> span p (a ++ b) = (d, b).
Proof.
  intros p a b d H Hb. apply span_spec in H as (-> & F & _). rewrite app_nil_r. apply span_spec. auto.
Qed.

Definition add_path (m : err + authority) (path : bytes) : err + authority :=
  match m with
  | inl e => inl e
  | inr (AHost h after) => inr (AHost h (after ++ path))
  | inr (AV6 a after) => inr (AV6 a (after ++ path))
  end.

Lemma no_path_head : forall p path, (forall b, path_char b -> p b = false) -> is_path path -> no_head p path.
Proof. intros p [|b path] H S; [exact I|]. apply H. exact S. Qed.

Lemma has_prefix_app : forall c q b, q <> [] -> has_prefix (q ++ b) [c] = has_prefix q [c].
Proof. intros c [|x q] b H; [contradiction|]. cbn [app has_prefix]. destruct q, b; reflexivity. Qed.

Lemma path_no_bracket : forall path c, is_path path -> bracket c -> has_prefix path [c] = false.
Proof.
  intros [|b path] c H Hc; [reflexivity|]. cbn [is_path starts_with] in H. cbn [has_prefix].
  unfold path_char in H. unfold bracket in Hc. cbn in H, Hc.
  destruct H as [<-|[<-|[<-|[<-|[]]]]], Hc as [<-|[<-|[]]]; reflexivity.
Qed.

Lemma no_path_app : forall a b, no_path_char (a ++ b) -> no_path_char a /\ no_path_char b.
Proof. intros a b H. apply Forall_app. exact H. Qed.

Lemma split_auth_path : forall a path, complete a -> is_path path ->
  split_auth (a ++ path) = add_path (split_auth a) path.
Proof.
  intros a path (Hn & Hc) Hp. unfold split_auth.
  destruct (has_prefix a [91]) eqn:E0.
  - apply has_prefix_spec in E0 as (t & ->). specialize (Hc t eq_refl).
    replace (has_prefix (([91] ++ t) ++ path) [91]) with true
      by (symmetry; apply has_prefix_spec; eexists; rewrite <- app_assoc; reflexivity).
    change (tl (([91] ++ t) ++ path)) with (t ++ path). change (tl ([91] ++ t)) with t.
    unfold split_bracketed. destruct (span (fun b => negb (is_bracket b)) t) as [x q] eqn:E.
    destruct q as [|b q].
    { exfalso. apply span_spec in E as (-> & F & _). rewrite app_nil_r in Hc. rewrite Forall_forall in F.
      specialize (F 93 Hc). discriminate. }
    rewrite (span_app_stop _ _ path _ _ E) by discriminate. cbn [app].
    destruct (b =? 91); [reflexivity|].
    assert (Nq : no_path_char q).
    { apply span_spec in E as (-> & _). apply no_path_app in Hn as [_ Hn]. apply no_path_app in Hn as [_ Hn].
      inversion Hn; assumption. }
    destruct (span (fun b => negb (is_path_char b || (b =? 91))) q) as [m q2] eqn:E2.
    destruct q2 as [|y q2].
    + rewrite (span_app_none _ _ path _ E2).
      2:{ apply no_path_head; [|exact Hp]. intros c Hc'. apply path_char_iff in Hc'. rewrite Hc'. reflexivity. }
      rewrite (path_no_bracket path 91 Hp) by (left; reflexivity). cbn [has_prefix].
      destruct (memN 93 m || negb (v6 x)); [reflexivity|].
      destruct q as [|c q]; cbn [app].
      * destruct path as [|c path]; [reflexivity|]. cbn [is_path starts_with] in Hp. apply path_char_iff in Hp.
        rewrite Hp. reflexivity.
      * destruct (is_path_char c || (c =? 58)); reflexivity.
    + rewrite (span_app_stop _ _ path _ _ E2) by discriminate.
      rewrite has_prefix_app by discriminate.
      assert (y = 91).
      { apply span_spec in E2 as (-> & _ & S). cbn [no_head] in S. apply negb_false_iff, orb_true_iff in S as [S|S].
        - exfalso. apply path_char_iff in S. apply no_path_app in Nq as [_ Nq]. inversion Nq. contradiction.
        - apply N.eqb_eq. exact S. }
      subst y. replace (has_prefix (91 :: q2) [91]) with true by (destruct q2; reflexivity). reflexivity.
  - assert (E1 : has_prefix (a ++ path) [91] = false).
    { destruct a as [|x a]; [apply path_no_bracket; [exact Hp|left; reflexivity]|].
      rewrite has_prefix_app by discriminate. exact E0. }
    rewrite E1. destruct (span (fun b => negb (is_path_char b || (b =? 58) || is_bracket b)) a) as [h q] eqn:E.
    destruct q as [|y q].
    + rewrite (span_app_none _ _ path _ E).
      2:{ apply no_path_head; [|exact Hp]. intros c Hc'. apply path_char_iff in Hc'. rewrite Hc'. reflexivity. }
      rewrite (path_no_bracket path 91 Hp) by (left; reflexivity).
      rewrite (path_no_bracket path 93 Hp) by (right; left; reflexivity). reflexivity.
    + rewrite (span_app_stop _ _ path _ _ E) by discriminate. rewrite !has_prefix_app by discriminate.
      destruct (has_prefix (y :: q) [91]); [reflexivity|]. destruct (has_prefix (y :: q) [93]); reflexivity.
Qed.

Lemma split_port_path : forall after path, no_path_char after -> is_path path ->
  starts_with (fun b => path_char b \/ b = 58) after ->
  split_port (after ++ path) = match split_port after with Some (p, _) => Some (p, path) | None => None end
  /\ (forall p q, split_port after = Some (p, q) -> q = []).
Proof.
  intros after path Hn Hp S. destruct after as [|c t].
  - cbn [app]. split; [|intros p q H; injection H as _ <-; reflexivity]. unfold split_port.
    destruct path as [|c path]; [reflexivity|]. cbn [is_path starts_with] in Hp.
    destruct (N.eqb_spec c 58) as [->|]; [exfalso; apply path_colon; exact Hp|reflexivity].
  - inversion Hn as [|? ? Hc Ht]; subst. cbn [starts_with] in S. destruct S as [S| ->]; [contradiction|].
    assert (E : span (fun b => negb (is_path_char b)) t = (t, [])).
    { apply span_spec. rewrite app_nil_r. split; [reflexivity|]. split; [|exact I]. revert Ht. apply Forall_impl.
      intros b. apply path_stop_true. }
    assert (E' : span (fun b => negb (is_path_char b)) (t ++ path) = (t, path)).
    { apply span_app_none; [exact E|]. apply no_path_head; [|exact Hp]. intros b Hb. apply path_stop_false. exact Hb. }
    split.
    + cbn [app split_port]. change (58 =? 58) with true. cbv iota. rewrite E, E'. destruct (port_ok t); reflexivity.
    + intros p q. cbn [split_port]. change (58 =? 58) with true. cbv iota. rewrite E. destruct (port_ok t); [|discriminate].
      intros H. injection H as _ <-. reflexivity.
Qed.

Lemma host_outcome_path : forall t u h ignore v path,
  host_outcome t (with_path u path) h ignore v
  = let '(r, e) := host_outcome t u h ignore v in (with_path r path, e).
Proof.
  intros t u h ignore v path. unfold host_outcome. destruct (split_host h) as [first segs0].
  destruct (strip_empty segs0) as [zs segs]. destruct (cwalk t false 0 0 0 (labels first segs)) as [c|]; [|reflexivity].
  destruct v; [reflexivity|]. unfold components. destruct (has_invalid_chars _); [reflexivity|].
  destruct (c_has c); [destruct (_ =? _)%nat|];
    cbn [r_domain with_path with_suffix with_domain with_sub_domain with_registered_domain];
    destruct (is_nil _); reflexivity.
Qed.

(** What is returned for an authority followed by a path. *)
Lemma extract_with_path : forall ext t ignore puny scheme user a, complete a ->
  exists r e,
  (forall url path, front url scheme user (a ++ path) -> is_path path ->
     extract ext t (mkParams url ignore puny) = Ret (with_path r path, e))
  \/ (e <> None /\ r_path r = [] /\
      forall url path, front url scheme user (a ++ path) -> is_path path ->
        extract ext t (mkParams url ignore puny) = Ret (r, e)).
Proof.
  intros ext t ignore puny scheme user a Hc.
  assert (X : forall url path, front url scheme user (a ++ path) -> is_path path ->
    extract ext t (mkParams url ignore puny) = Ret
      (match add_path (split_auth a) path with
       | inl e => (start_result scheme (user_of user), Some e)
       | inr (AV6 a after) =>
         let u := with_registered_domain (with_domain (with_host_type (start_result scheme (user_of user)) HIPv6) a) a in
         match split_port after with
         | None => (u, Some ErrInvalidPort)
         | Some (port, path) => (with_path (with_port u port) path, None)
         end
       | inr (AHost h after) =>
         match split_port after with
         | None => (start_result scheme (user_of user), Some ErrInvalidPort)
         | Some (port, path) =>
           let u := with_path (with_port (start_result scheme (user_of user)) port) path in
           match convert_host ext puny h with
           | inl e => (u, Some e)
           | inr h => host_outcome t u h ignore (v4 h)
           end
         end
       end)).
  { intros url path F Hp. rewrite (extract_front ext t (mkParams url ignore puny) scheme user (a ++ path) F). f_equal. unfold extract_authority.
    rewrite (split_auth_path a path Hc Hp). reflexivity. }
  destruct (split_auth a) as [e|[h after|v after]] eqn:E; cbn [add_path] in X.
  - eexists _, _. right. split; [|split; [|intros url path F Hp; rewrite (X url path F Hp); reflexivity]]; [discriminate|reflexivity].
  - apply split_auth_host in E as (-> & Hh & S). destruct Hc as [Hn _]. apply no_path_app in Hn as [_ Hn].
    destruct (split_port after) as [(port, q)|] eqn:Ep.
    + destruct (convert_host ext puny h) as [e|h'].
      * eexists _, _. left. intros url path F Hp. rewrite (X url path F Hp).
        destruct (split_port_path after path Hn Hp S) as [-> _]. rewrite Ep. reflexivity.
      * destruct (host_outcome t (with_port (start_result scheme (user_of user)) port) h' ignore (v4 h')) as [r e] eqn:O.
        exists r, e. left. intros url path F Hp. rewrite (X url path F Hp).
        destruct (split_port_path after path Hn Hp S) as [-> _]. rewrite Ep. cbv zeta. rewrite host_outcome_path, O. reflexivity.
    + eexists _, _. right. split; [|split; [|intros url path F Hp; rewrite (X url path F Hp);
        destruct (split_port_path after path Hn Hp S) as [-> _]; rewrite Ep; reflexivity]]; [discriminate|reflexivity].
  - apply split_auth_v6_inv in E as (-> & Hv & S). destruct Hc as [Hn _].
    apply no_path_app in Hn as [_ Hn]. apply no_path_app in Hn as [_ Hn]. apply no_path_app in Hn as [_ Hn].
    destruct (split_port after) as [(port, q)|] eqn:Ep.
    + eexists _, _. left. intros url path F Hp. rewrite (X url path F Hp).
      destruct (split_port_path after path Hn Hp S) as [-> _]. rewrite Ep. cbv zeta. reflexivity.
    + eexists _, _. right. split; [|split; [|intros url path F Hp; rewrite (X url path F Hp);
        destruct (split_port_path after path Hn Hp S) as [-> _]; rewrite Ep; reflexivity]]; [discriminate|reflexivity].
Qed.

Lemma with_path_idem : forall r a b, with_path (with_path r a) b = with_path r b.
Proof. reflexivity. Qed.

Lemma c09 : forall ext t ignore puny scheme user a url1 url2 path1 path2 r1 e1 r2 e2, complete a ->
  front url1 scheme user (a ++ path1) -> front url2 scheme user (a ++ path2) ->
  is_path path1 -> is_path path2 ->
  extract ext t (mkParams url1 ignore puny) = Ret (r1, e1) ->
  extract ext t (mkParams url2 ignore puny) = Ret (r2, e2) ->
  e1 = e2 /\ with_path r1 [] = with_path r2 []
  /\ ((r_path r1 = path1 /\ r_path r2 = path2) \/ (e1 <> None /\ r_path r1 = [] /\ r_path r2 = [])).
Proof.
  intros ext t ignore puny scheme user a url1 url2 path1 path2 r1 e1 r2 e2 Hc F1 F2 P1 P2 H1 H2.
  destruct (extract_with_path ext t ignore puny scheme user a Hc) as (r & e & [Y|(N & Q & Y)]);
    rewrite (Y url1 path1 F1 P1) in H1; rewrite (Y url2 path2 F2 P2) in H2;
    injection H1 as <- <-; injection H2 as <- <-.
  - split; [reflexivity|]. split; [reflexivity|]. left. split; reflexivity.
  - split; [reflexivity|]. split; [reflexivity|]. right. auto.
Qed.

(** ** IPv6 and IPv4 *)

Lemma c10 : forall ext t p r e scheme user s, extract ext t p = Ret (r, e) ->
  front (p_url p) scheme user (str "[" ++ s) ->
  (e = None <-> exists a after port path, s = a ++ str "]" ++ after /\ ipv6_literal a
                  /\ after_host after port path /\ port_accepted port)
  /\ (forall a after port path, s = a ++ str "]" ++ after -> ipv6_literal a ->
        after_host after port path -> port_accepted port ->
        r = mkResult scheme (user_of user) [] a [] a (port_of port) path HIPv6).
Proof.
  intros ext t p r e scheme user s H F.
  assert (X : forall a after port path, s = a ++ str "]" ++ after -> ipv6_literal a ->
        after_host after port path -> port_accepted port ->
        e = None /\ r = mkResult scheme (user_of user) [] a [] a (port_of port) path HIPv6).
  { intros a after port path -> Ha A Ok.
    rewrite (extract_front _ _ _ _ _ _ F) in H. apply Ret_inj in H. unfold extract_authority in H.
    rewrite (split_auth_v6_port a after port path Ha A Ok) in H.
    rewrite (proj1 (split_port_spec after port path A) Ok) in H. injection H as <- <-. auto. }
  split; [split|].
  - intros ->. destruct (extract_cases _ _ _ _ _ H) as (sc & us & re & F' & C).
    destruct (front_unique _ _ _ _ _ _ _ F F') as (<- & <- & <-).
    destruct C as [(x & Y & _)|[(a & af & po & pa & E & Ha & A & [(Ok & _ & _)|(_ & Y & _)])|(raw & af & po & pa & E & Hraw & A & Ok & _)]];
      try discriminate.
    + apply app_inv_head in E. exists a, af, po, pa. auto.
    + exfalso. apply after_host_starts in A. destruct raw as [|b raw]; cbn [app] in E.
      * subst af. destruct A as [A|A]; [|discriminate]. unfold path_char in A. cbn in A. intuition discriminate.
      * injection E as <- _. inversion Hraw as [|? ? (_ & Nb & _) _]; subst. apply Nb. left. reflexivity.
  - intros (a & after & port & path & E & Ha & A & Ok). apply (X _ _ _ _ E Ha A Ok).
  - intros a after port path E Ha A Ok. apply (X _ _ _ _ E Ha A Ok).
Qed.

(** The walk fails only on empty labels. *)
Lemma cwalk_some : forall labs node hs j start prev, labs <> [] -> Forall (fun l => l <> []) labs ->
  exists c, cwalk node hs j start prev labs = Some c.
Proof.
  induction labs as [|l more IH]; intros node hs j start prev H F; [contradiction|]. inversion F; subst.
  cbn [cwalk]. destruct l as [|b l]; [contradiction|]. cbn [is_nil andb].
  destruct (child node (str "*")); [eauto|]. destruct (child node (unescaped (b :: l))) as [v|]; [|eauto].
  destruct (is_nil (matches_of v)); [cbn [orb]; eauto|]. cbn [orb].
  destruct more as [|l' more]; [cbn [is_nil]; eauto|]. cbn [is_nil]. apply IH; [discriminate|assumption].
Qed.

Lemma digits_no_sep : forall d, all_digits d -> no_sep d.
Proof.
  intros d H p sep q Hs ->. apply Forall_app in H as [_ H]. apply Forall_app in H as [H _].
  destruct Hs as [->|[->|[->| ->]]]; inversion H; discriminate.
Qed.

Lemma seps_segs : forall w, seps w -> exists zs, Forall (fun g => fst g = [] /\ is_sep_text (snd g)) zs
  /\ forall first segs, host first (zs ++ segs) = host first segs ++ w.
Proof.
  intros w H. induction H as [|s w Hs Hw (zs & F & IH)].
  - exists []. split; [constructor|]. intros. cbn [app]. rewrite app_nil_r. reflexivity.
  - exists (zs ++ [([], s)]). split.
    + apply Forall_app. split; [exact F|]. constructor; [|constructor]. auto.
    + intros first segs. rewrite <- app_assoc. rewrite IH. cbn [app host]. rewrite app_nil_r, <- app_assoc. reflexivity.
Qed.

Lemma octet_label : forall d, octet d -> d <> [] /\ no_sep d.
Proof. intros d (A & B & _). split; [exact A|apply digits_no_sep; exact B]. Qed.

(** Decomposition of an IPv4 host. *)
Lemma ipv4_stripped : forall h a s1 b s2 c s3 d w, h = (a ++ s1 ++ b ++ s2 ++ c ++ s3 ++ d) ++ w ->
  octet a -> octet b -> octet c -> octet d -> is_sep_text s1 -> is_sep_text s2 -> is_sep_text s3 -> seps w ->
  exists zs, stripped h a zs [(d, s3); (c, s2); (b, s1)].
Proof.
  intros h a s1 b s2 c s3 d w -> Ha Hb Hc Hd H1 H2 H3 Hw. destruct (seps_segs w Hw) as (zs & F & E).
  exists zs. unfold stripped. rewrite E. split; [cbn [host]; rewrite <- !app_assoc; reflexivity|].
  destruct (octet_label a Ha) as [_ Na]. destruct (octet_label b Hb) as [_ Nb].
  destruct (octet_label c Hc) as [_ Nc]. destruct (octet_label d Hd) as [Xd Nd].
  split; [split; [exact Na|]|].
  - apply Forall_app. split.
    + revert F. apply Forall_impl. intros [l s] [X Y]. cbn [fst snd] in *. subst l. split; [apply no_sep_nil|exact Y].
    + repeat (apply Forall_cons; [split; assumption|]). apply Forall_nil.
  - split; [|cbn [fst]; exact Xd]. revert F. apply Forall_impl. tauto.
Qed.

Lemma c13_outcome : forall t u h ignore r e, ipv4_text h -> host_outcome t u h ignore (v4 h) = (r, e) ->
  e = None /\ r_host_type r = HIPv4.
Proof.
  intros t u h ignore r e H O. assert (V : v4 h = true) by (apply v4_iff; exact H). rewrite V in O.
  destruct H as (x & w & -> & (a & s1 & b & s2 & c & s3 & d & -> & Ha & Hb & Hc & Hd & H1 & H2 & H3) & Hw).
  destruct (ipv4_stripped _ a s1 b s2 c s3 d w eq_refl) as (zs & S); try assumption.
  rewrite (host_outcome_stripped _ _ _ _ _ _ _ _ S) in O.
  destruct (cwalk_some (labels a [(d, s3); (c, s2); (b, s1)]) t false 0 0 0) as (k & E).
  - discriminate.
  - unfold labels. cbn [map fst app].
    repeat (apply Forall_cons; [apply octet_label; assumption|]). apply Forall_nil.
  - rewrite E in O. injection O as <- <-. auto.
Qed.

Lemma c13 : forall ext t p r e scheme user raw h port path, extract ext t p = Ret (r, e) ->
  url_parts ext p scheme user raw h port path -> port_accepted port ->
  (ipv4_text h -> e = None /\ r_host_type r = HIPv4) /\ (r_host_type r = HIPv4 -> ipv4_text h).
Proof.
  intros ext t p r e scheme user raw h port path H U Ok. rewrite (extract_parts _ _ _ _ _ _ _ _ _ U Ok) in H.
  apply Ret_inj in H. split.
  - intros V. eapply c13_outcome; eauto.
  - intros T. destruct (outcome_error _ _ _ _ _ _ _ _ _ _ H) as [(_ & _ & V)|[(_ & X & _)|(_ & X & _)]];
      [|congruence|congruence]. apply v4_iff. exact V.
Qed.

Lemma c13_only : forall ext t p r e, extract ext t p = Ret (r, e) -> r_host_type r = HIPv4 ->
  e = None /\ exists scheme user raw h port path,
    url_parts ext p scheme user raw h port path /\ port_accepted port /\ ipv4_text h.
Proof.
  intros ext t p r e H T. destruct (extract_cases _ _ _ _ _ H) as (sc & us & re & F & C).
  destruct C as [(x & _ & -> & _)|[(a & af & po & pa & _ & _ & _ & [(_ & _ & ->)|(_ & _ & ->)])|(raw & af & po & pa & -> & Hh & A & Ok & [(x & _ & _ & ->)|(h & Cv & O)])]];
    try discriminate.
  destruct (outcome_error _ _ _ _ _ _ _ _ _ _ O) as [(-> & _ & V)|[(_ & X & _)|(_ & X & _)]]; [|congruence|congruence].
  split; [reflexivity|]. exists sc, us, raw, h, po, pa. split; [exists af; auto|]. split; [exact Ok|].
  apply v4_iff. exact V.
Qed.

(** ** Success and failure *)

Lemma c15 : forall ext t p r e, extract ext t p = Ret (r, e) ->
  (e = None -> r_host_type r <> HNone /\ r_domain r <> [])
  /\ (e <> None -> r_host_type r = HNone
      \/ (r_host_type r = HIPv6 /\ e = Some ErrInvalidPort
          /\ exists scheme user a after, front (p_url p) scheme user (str "[" ++ a ++ str "]" ++ after)
               /\ ipv6_literal a /\ r_domain r = a)).
Proof.
  intros ext t p r e H. destruct (extract_cases _ _ _ _ _ H) as (sc & us & re & F & C).
  destruct C as [(x & -> & -> & _)|[(a & af & po & pa & -> & Ha & A & [(_ & -> & ->)|(_ & -> & ->)])|(raw & af & po & pa & -> & Hh & A & Ok & [(x & _ & -> & ->)|(h & Cv & O)])]].
  - split; [discriminate|]. intros _. left. reflexivity.
  - split; [|intros X; contradiction]. intros _. split; [discriminate|]. cbn [r_domain]. intros ->.
    apply v6_iff in Ha. vm_compute in Ha. discriminate.
  - split; [discriminate|]. intros _. right. split; [reflexivity|]. split; [reflexivity|]. exists sc, us, a, af. auto.
  - split; [discriminate|]. intros _. left. reflexivity.
  - destruct (outcome_error _ _ _ _ _ _ _ _ _ _ O) as [(-> & T & V)|[(-> & T & _ & D)|(E & T & D)]].
    + split; [|intros X; contradiction]. intros _. split; [congruence|].
      rewrite V in O. intros D.
      destruct (outcome_cases _ _ _ _ _ _ _ _ _ _ O) as (first & zs & segs & S & [(X & _)|(c & Hw & [Hp _ _] & [(_ & _ & ->)|(X & _)])]);
        try discriminate. cbn [r_domain] in D.
      (* a prefix of an IPv4 host that contains its first label *)
      apply v4_iff in V.
      destruct V as (x & w & -> & (o1 & s1 & o2 & s2 & o3 & s3 & o4 & -> & H1 & H2 & H3 & H4 & T1 & T2 & T3) & Hw').
      destruct (ipv4_stripped _ o1 s1 o2 s2 o3 s3 o4 w eq_refl) as (zs' & S'); try assumption.
      destruct (stripped_unique _ _ _ _ _ _ _ S S') as (-> & -> & ->).
      rewrite text_label in D by exact Hp. apply app_eq_nil in D as [_ D].
      apply octet_label in H1, H2, H3, H4. unfold label_at, labels in D. cbn [length] in Hp.
      destruct (c_prev c) as [|[|[|[|k]]]]; cbn in D; try (apply H1; exact D); try (apply H2; exact D);
        try (apply H3; exact D); try (apply H4; exact D). lia.
    + split; [|intros X; contradiction]. intros _. split; [congruence|exact D].
    + split.
      * intros ->. destruct E as [E|[E|E]]; discriminate.
      * intros _. left. exact T.
Qed.

Lemma c50 : forall ext t p r x, extract ext t p = Ret (r, Some x) ->
  r_domain r = [] \/ (x = ErrInvalidPort /\ r_host_type r = HIPv6
    /\ exists scheme user a after, front (p_url p) scheme user (str "[" ++ a ++ str "]" ++ after) /\ ipv6_literal a).
Proof.
  intros ext t p r e H. destruct (extract_cases _ _ _ _ _ H) as (sc & us & re & F & C).
  destruct C as [(x & _ & -> & _)|[(a & af & po & pa & -> & Ha & A & [(_ & X & ->)|(_ & X & ->)])|(raw & af & po & pa & -> & Hh & A & Ok & [(x & _ & X & ->)|(h & Cv & O)])]];
    try discriminate.
  - left. reflexivity.
  - right. injection X as ->. split; [reflexivity|]. split; [reflexivity|]. exists sc, us, a, af. auto.
  - left. reflexivity.
  - destruct (outcome_error _ _ _ _ _ _ _ _ _ _ O) as [(X & _)|[(X & _)|(_ & _ & D)]]; try discriminate. auto.
Qed.

(** ** Host names *)

(** Everything that is known about a successful host name extraction. *)
Lemma host_name : forall ext t p r, extract ext t p = Ret (r, None) -> r_host_type r = HHostName ->
  exists scheme user raw h port path first zs segs c,
    url_parts ext p scheme user raw h port path /\ port_accepted port /\ v4 h = false
    /\ stripped h first zs segs /\ cwalk t false 0 0 0 (labels first segs) = Some c /\ counts_ok segs c
    /\ (c_has c = true -> c_sep c <= length segs)%nat
    /\ has_invalid_chars (checked_text first segs c) = false /\ the_domain first segs c <> []
    /\ r = mkResult scheme (user_of user) (if p_ignore_sub_domains p then [] else the_sub first segs c)
             (the_domain first segs c) (the_suffix segs c) (the_registered first segs c)
             (port_of port) path HHostName.
Proof.
  intros ext t p r H T. destruct (extract_cases _ _ _ _ _ H) as (sc & us & re & F & C).
  destruct C as [(x & X & _)|[(a & af & po & pa & -> & Ha & A & [(_ & X & ->)|(_ & X & ->)])|(raw & af & po & pa & -> & Hh & A & Ok & [(x & _ & X & ->)|(h & Cv & O)])]];
    try discriminate.
  destruct (outcome_cases _ _ _ _ _ _ _ _ _ _ O) as (first & zs & segs & S & [(X & _)|(c & Hw & Hok & [(_ & _ & ->)|(V & Hc)])]);
    try discriminate.
  destruct (components_cases _ _ _ _ _ _ _ _ _ _ _ Hok Hc) as [(X & _)|[(X & _)|(Hs & Hi & [(Hd & _ & E)|(_ & X & _)])]];
    try discriminate.
  exists sc, us, raw, h, po, pa, first, zs, segs, c. repeat (split; [assumption || (exists af; auto)|]). exact E.
Qed.

Lemma host_shape : forall ext t p r, extract ext t p = Ret (r, None) -> r_host_type r = HHostName ->
  exists scheme user raw h port path pre sub sep rest,
    url_parts ext p scheme user raw h port path /\ port_accepted port
    /\ h = pre ++ r_domain r ++ sep ++ r_suffix r ++ rest
    /\ ((pre = [] /\ sub = []) \/ exists s, is_sep_text s /\ pre = sub ++ s)
    /\ r_sub_domain r = (if p_ignore_sub_domains p then [] else sub)
    /\ r_domain r <> [] /\ no_sep (r_domain r)
    /\ (r_suffix r <> [] -> is_sep_text sep /\ r_registered_domain r = r_domain r ++ sep ++ r_suffix r)
    /\ (r_suffix r = [] -> sep = [] /\ r_registered_domain r = [] /\ seps rest)
    /\ (rest = [] \/ exists s q, is_sep_text s /\ rest = s ++ q).
Proof.
  intros ext t p r H T.
  destruct (host_name _ _ _ _ H T) as (sc & us & raw & h & po & pa & first & zs & segs & c & U & Ok & V & S & Hw & Hok & Hs & Hi & Hd & ->).
  cbn [r_sub_domain r_domain r_suffix r_registered_domain].
  destruct (host_parts t h first zs segs c S Hw Hs) as (pre & sep & rest & Eh & Hpre & Nd & A & B & R & R').
  exists sc, us, raw, h, po, pa, pre, (the_sub first segs c), sep, rest.
  split; [exact U|]. split; [exact Ok|]. split; [exact Eh|]. split; [exact Hpre|]. split; [reflexivity|].
  split; [exact Hd|]. split; [exact Nd|]. split; [|split; [|exact R]].
  - intros X. destruct (c_has c); [destruct (A eq_refl) as (A1 & _ & A2); auto|].
    exfalso. apply X. apply (B eq_refl).
  - intros X. destruct (c_has c); [exfalso; apply (A eq_refl); exact X|].
    destruct (B eq_refl) as (B1 & _ & B2). auto.
Qed.

Lemma c16 : forall ext t p r, extract ext t p = Ret (r, None) -> r_host_type r = HHostName ->
  (r_suffix r <> [] -> exists sep, is_sep_text sep /\ r_registered_domain r = r_domain r ++ sep ++ r_suffix r)
  /\ (r_suffix r = [] -> r_registered_domain r = []).
Proof.
  intros ext t p r H T.
  destruct (host_shape _ _ _ _ H T) as (sc & us & raw & h & po & pa & pre & sub & sep & rest & _ & _ & _ & _ & _ & _ & _ & A & B & _).
  split; intros X; [exists sep; apply A; exact X|apply B; exact X].
Qed.

Lemma c17 : forall ext t p r, extract ext t p = Ret (r, None) -> r_host_type r = HHostName ->
  r_domain r <> [] /\ no_sep (r_domain r) /\
  exists scheme user raw h port path pre post, url_parts ext p scheme user raw h port path
    /\ h = pre ++ r_domain r ++ post
    /\ (pre = [] \/ exists x s, is_sep_text s /\ pre = x ++ s)
    /\ (post = [] \/ exists s x, is_sep_text s /\ post = s ++ x).
Proof.
  intros ext t p r H T.
  destruct (host_shape _ _ _ _ H T) as (sc & us & raw & h & po & pa & pre & sub & sep & rest & U & _ & E & Hpre & _ & D & N & A & B & R).
  split; [exact D|]. split; [exact N|]. exists sc, us, raw, h, po, pa, pre, (sep ++ r_suffix r ++ rest).
  split; [exact U|]. split; [exact E|]. split.
  - destruct Hpre as [[-> _]|(s & Hs & ->)]; [auto|]. right. eauto.
  - destruct (r_suffix r) as [|b sf] eqn:Es.
    + destruct (B eq_refl) as (-> & _ & _). cbn [app]. exact R.
    + right. exists sep, ((b :: sf) ++ rest). split; [apply A; discriminate|reflexivity].
Qed.

Lemma host_outcome_ignore : forall t u h v, r_sub_domain u = [] ->
  host_outcome t u h true v = let '(r, e) := host_outcome t u h false v in (with_sub_domain r [], e).
Proof.
  intros t u h v Hu. assert (Eu : with_sub_domain u [] = u) by (destruct u; cbn in *; subst; reflexivity).
  unfold host_outcome. destruct (split_host h) as [first segs0].
  destruct (strip_empty segs0) as [zs segs]. destruct (cwalk t false 0 0 0 (labels first segs)) as [c|].
  2:{ rewrite Eu. reflexivity. }
  destruct v; [unfold with_host_type, with_registered_domain, with_domain, with_sub_domain; cbn; rewrite Hu; reflexivity|].
  unfold components. destruct (has_invalid_chars _); [rewrite Eu; reflexivity|].
  destruct (c_has c); [destruct (_ =? _)%nat|];
    cbn [r_domain with_path with_suffix with_domain with_sub_domain with_registered_domain];
    destruct (is_nil _); unfold with_host_type, with_registered_domain, with_domain, with_sub_domain, with_suffix; cbn; rewrite ?Hu; reflexivity.
Qed.

Lemma c18 : forall ext t url puny r e,
  extract ext t (mkParams url false puny) = Ret (r, e) ->
  extract ext t (mkParams url true puny) = Ret (with_sub_domain r [], e).
Proof.
  intros ext t url puny r e H. destruct (front_total url) as (scheme & user & rest & F).
  rewrite (extract_front ext t (mkParams url false puny) _ _ _ F) in H.
  rewrite (extract_front ext t (mkParams url true puny) _ _ _ F).
  apply Ret_inj in H. f_equal. cbn [p_ignore_sub_domains p_to_punycode] in *. unfold extract_authority in *.
  destruct (split_auth rest) as [x|[h after|a after]].
  - injection H as <- <-. reflexivity.
  - destruct (split_port after) as [(port, path)|]; [|injection H as <- <-; reflexivity].
    destruct (convert_host ext puny h) as [x|h']; [injection H as <- <-; reflexivity|].
    rewrite host_outcome_ignore by reflexivity. rewrite H. reflexivity.
  - destruct (split_port after) as [(port, path)|]; injection H as <- <-; reflexivity.
Qed.

(** ** Percent escapes and Punycode *)

Lemma bad_escape_iff : forall s, (exists d, percent_decoded s d) <-> ~ bad_escape s.
Proof.
  intros s. split.
  - intros (d & H). induction H as [|a b s t Ha Hb H IH|s t H IH|b s t H1 H2 H IH]; intros (p & q & E & N).
    + destruct p; discriminate.
    + destruct p as [|x [|y [|z p]]]; cbn [app] in E.
      * injection E as E. subst q. apply N. exists a, b, s. auto.
      * injection E as _ E _. subst a. discriminate.
      * injection E as _ _ E _. subst b. discriminate.
      * injection E as _ _ _ E. apply IH. exists p, q. auto.
    + destruct p as [|x p]; cbn [app] in E; [discriminate|]. injection E as _ E. apply IH. exists p, q. auto.
    + destruct p as [|x p]; cbn [app] in E; [injection E as E _; contradiction|]. injection E as _ E. apply IH. exists p, q. auto.
  - induction s as [s IH] using (induction_ltof1 _ (@length N)). unfold ltof in IH. intros N.
    destruct s as [|b s]; [exists []; constructor|].
    destruct (N.eq_dec b 37) as [->|H1].
    + destruct s as [|a [|c s]].
      * exfalso. apply N. exists [], []. split; [reflexivity|]. intros (? & ? & ? & X & _). discriminate.
      * exfalso. apply N. exists [], [a]. split; [reflexivity|]. intros (? & ? & ? & X & _). discriminate.
      * destruct (is_hex a) eqn:Ea, (is_hex c) eqn:Ec;
          try (exfalso; apply N; exists [], (a :: c :: s); split; [reflexivity|];
               intros (? & ? & ? & X & Y & Z); injection X as <- <- _; congruence).
        destruct (IH s) as (d & Hd); [cbn [length]; lia| |].
        -- intros (p & q & E & X). apply N. exists (37 :: a :: c :: p), q. rewrite E. auto.
        -- eexists. apply pd_escape; eauto.
    + destruct (IH s) as (d & Hd); [cbn [length]; lia| |].
      * intros (p & q & E & X). apply N. exists (b :: p), q. rewrite E. auto.
      * destruct (N.eq_dec b 43) as [->|H2]; eexists; [apply pd_plus|apply pd_other]; eauto.
Qed.

Lemma c27 : forall ext t p r e scheme user raw after port path, extract ext t p = Ret (r, e) ->
  front (p_url p) scheme user (raw ++ after) -> plain_host raw -> after_host after port path ->
  port_accepted port ->
  (bad_escape raw -> exists x, e = Some (ErrUnescape x) /\ r_domain r = [] /\ r_suffix r = [])
  /\ (~ bad_escape raw -> forall x, e <> Some (ErrUnescape x)).
Proof.
  intros ext t p r e scheme user raw after port path H F Hh A Ok.
  rewrite (extract_front _ _ _ _ _ _ F) in H. apply Ret_inj in H. unfold extract_authority in H.
  rewrite (split_auth_plain raw after Hh (after_host_starts _ _ _ A)) in H.
  rewrite (proj1 (split_port_spec after port path A) Ok) in H. split.
  - intros B. destruct (query_unescape raw) as [x|d] eqn:E.
    + unfold convert_host in H. rewrite E in H. injection H as <- <-. exists x. auto.
    + exfalso. apply percent_decoded_iff in E. apply (proj1 (bad_escape_iff raw)); eauto.
  - intros B x. apply bad_escape_iff in B as (d & Hd). apply percent_decoded_iff in Hd.
    destruct (convert_host ext (p_to_punycode p) raw) as [y|h] eqn:C.
    + injection H as <- <-. unfold convert_host in C. rewrite Hd in C.
      destruct (p_to_punycode p); [discriminate|]. destruct (idna_to_unicode_err ext d); [|discriminate].
      injection C as <-. discriminate.
    + change (host_outcome t (base scheme user port path) h (p_ignore_sub_domains p) (v4 h) = (r, e)) in H.
      destruct (outcome_error _ _ _ _ _ _ _ _ _ _ H) as [(-> & _)|[(-> & _)|([->|[->| ->]] & _)]]; discriminate.
Qed.

(** Everything Extract does after conversion depends on the converted host only. *)
Lemma c28_same : forall ext t p p' scheme user raw raw' h port path,
  url_parts ext p scheme user raw h port path -> url_parts ext p' scheme user raw' h port path ->
  p_ignore_sub_domains p = p_ignore_sub_domains p' -> port_accepted port ->
  extract ext t p = extract ext t p'.
Proof.
  intros ext t p p' scheme user raw raw' h port path U U' E Ok.
  rewrite (extract_parts _ _ _ _ _ _ _ _ _ U Ok), (extract_parts _ _ _ _ _ _ _ _ _ U' Ok), E. reflexivity.
Qed.

Lemma outcome_nil : forall t sc us po pa ig r e,
  host_outcome t (base sc us po pa) [] ig (v4 []) = (r, e) -> e = Some ErrEmptyDomain /\ r_domain r = [].
Proof.
  intros t sc us po pa ig r e H. change (v4 []) with false in H.
  assert (S : stripped [] [] [] []).
  { split; [reflexivity|]. split; [split; [apply no_sep_nil|constructor]|]. split; [constructor|exact I]. }
  rewrite (host_outcome_stripped _ _ _ _ _ _ _ _ S) in H. cbn [labels map app cwalk is_nil negb andb] in H.
  change (unescaped []) with (@nil N) in H.
  destruct (child t (str "*")).
  - destruct (child t (str "!" ++ [])); cbn in H; injection H as <- <-; auto.
  - destruct (child t []) as [v|].
    + destruct (is_nil (matches_of v)); cbn [orb] in H; destruct (end_of v); cbn in H; injection H as <- <-; auto.
    + cbn in H. injection H as <- <-; auto.
Qed.

Lemma c28_rejected : forall ext t p r e scheme user raw d after port path, extract ext t p = Ret (r, e) ->
  p_to_punycode p = true -> front (p_url p) scheme user (raw ++ after) -> plain_host raw ->
  after_host after port path -> port_accepted port -> percent_decoded raw d -> idna_to_puny ext d = None ->
  e = Some ErrEmptyDomain /\ r_domain r = [].
Proof.
  intros ext t p r e scheme user raw d after port path H P F Hh A Ok Hd Hn.
  assert (U : url_parts ext p scheme user raw [] port path).
  { exists after. rewrite P. repeat (split; [assumption|]). exists d. auto. }
  rewrite (extract_parts _ _ _ _ _ _ _ _ _ U Ok) in H. apply Ret_inj in H.
  eapply outcome_nil. exact H.
Qed.

Lemma c28_others : forall ext t url ignore r e r' e',
  extract ext t (mkParams url ignore false) = Ret (r, e) ->
  extract ext t (mkParams url ignore true) = Ret (r', e') ->
  r_scheme r = r_scheme r' /\ r_user_info r = r_user_info r' /\ r_port r = r_port r' /\ r_path r = r_path r'.
Proof.
  intros ext t url ignore r e r' e' H H'. destruct (front_total url) as (scheme & user & rest & F).
  rewrite (extract_front ext t (mkParams url ignore false) _ _ _ F) in H.
  rewrite (extract_front ext t (mkParams url ignore true) _ _ _ F) in H'.
  apply Ret_inj in H, H'. cbn [p_ignore_sub_domains p_to_punycode] in *. unfold extract_authority in *.
  destruct (split_auth rest) as [x|[h after|a after]].
  - injection H as <- <-. injection H' as <- <-. auto.
  - destruct (split_port after) as [(port, path)|]; [|injection H as <- <-; injection H' as <- <-; auto].
    assert (X : forall puny r e, match convert_host ext puny h with
       | inl e => (with_path (with_port (start_result scheme (user_of user)) port) path, Some e)
       | inr h => host_outcome t (with_path (with_port (start_result scheme (user_of user)) port) path) h ignore (v4 h)
       end = (r, e) -> r_scheme r = scheme /\ r_user_info r = user_of user /\ r_port r = port /\ r_path r = path).
    { intros puny r0 e0 Y. destruct (convert_host ext puny h) as [x|h'].
      - injection Y as <- <-. auto.
      - apply host_outcome_keeps in Y. exact Y. }
    destruct (X _ _ _ H) as (-> & -> & -> & ->). destruct (X _ _ _ H') as (-> & -> & -> & ->). auto.
  - destruct (split_port after) as [(port, path)|]; injection H as <- <-; injection H' as <- <-; auto.
Qed.

Lemma digit_classes : forall b,
  (is_digit b = true <-> 48 <= b <= 57)
  /\ (is_hex b = true <-> 48 <= b <= 57 \/ 97 <= b <= 102 \/ 65 <= b <= 70)
  /\ (48 <= b <= 57 -> unhex b = b - 48)
  /\ (97 <= b <= 102 -> unhex b = b - 97 + 10)
  /\ (65 <= b <= 70 -> unhex b = b - 65 + 10).
Proof.
  intros b. unfold is_hex, unhex, is_digit.
  repeat split; try (intros H);
    destruct ((48 <=? b) && (b <=? 57)) eqn:E1; destruct ((97 <=? b) && (b <=? 102)) eqn:E2; lia.
Qed.

Lemma front_text : forall url scheme user rest, front url scheme user rest ->
  trimmed ws_chars url (scheme ++ user_at user ++ rest).
Proof.
  intros url scheme user rest (u & s & T & (-> & _) & (pre & q & -> & _ & _ & H)).
  destruct user as [u|]; cbn [user_at].
  - destruct H as (v & -> & _ & ->). rewrite <- !app_assoc in *. exact T.
  - destruct H as (_ & ->). exact T.
Qed.
