(** UrlFacts.v - the index-free Extract of Parse.v in terms of the URL vocabulary of UrlSpec.v. *)

From Verif Require Import Base BaseFacts Utf8 Utf8Facts Chars Str StrFacts Net Trie Extract Host HostFacts
  Walk WalkFacts Addr NetFacts Parse ParseFacts UrlSpec.
From Coq Require Import ZifyBool ZifyNat ZifyN.
Local Open Scope N_scope.

(** ** Byte classes *)

Lemma letter_iff : forall b, alpha b = true <-> letter b.
Proof. intros b. unfold alpha, letter. lia. Qed.
Lemma scheme_char_iff : forall b, scheme_char b = true <-> scheme_name_char b.
Proof.
  intros b. unfold scheme_char, scheme_name_char. rewrite !orb_true_iff, letter_iff, memN_In.
  unfold is_digit, digit. split; intros H; intuition lia.
Qed.
Lemma slash_iff : forall b, is_slash b = true <-> slash b.
Proof. intros b. apply memN_In. Qed.
Lemma path_char_iff : forall b, is_path_char b = true <-> path_char b.
Proof. intros b. apply memN_In. Qed.
Lemma bracket_iff : forall b, is_bracket b = true <-> bracket b.
Proof. intros b. apply memN_In. Qed.

Lemma path_char_false : forall b, is_path_char b = false <-> ~ path_char b.
Proof. intros b. rewrite <- path_char_iff. destruct (is_path_char b); intuition congruence. Qed.
Lemma bracket_false : forall b, is_bracket b = false <-> ~ bracket b.
Proof. intros b. rewrite <- bracket_iff. destruct (is_bracket b); intuition congruence. Qed.

Lemma Forall_iff : forall A (P Q : A -> Prop) l, (forall x, P x <-> Q x) -> Forall P l <-> Forall Q l.
Proof. intros A P Q l H. split; apply Forall_impl; intros x; apply H. Qed.

Lemma starts_with_no_head : forall (P : N -> Prop) p q, (forall b, p b = false <-> P b) ->
  starts_with P q <-> no_head p q.
Proof. intros P p [|b q] H; cbn; [tauto|]. symmetry. apply H. Qed.

(** A span, with propositional descriptions of the class. *)
Lemma span_iff : forall (P Q : N -> Prop) p s d q,
  (forall b, p b = true <-> P b) -> (forall b, p b = false <-> Q b) ->
  span p s = (d, q) <-> s = d ++ q /\ Forall P d /\ starts_with Q q.
Proof.
  intros P Q p s d q HP HQ. rewrite span_spec, (Forall_iff _ _ P) by apply HP.
  rewrite (starts_with_no_head Q p) by exact HQ. reflexivity.
Qed.

(** ** Whitespace *)

Lemma ws_eq : whitespace_rune_set = ws_chars.
Proof. vm_compute. reflexivity. Qed.
Lemma ws_good : good_set ws_chars.
Proof. unfold good_set, valid_rune, rune_error, ws_chars. repeat constructor; lia. Qed.
Lemma trim_ws_iff : forall s m, trimmed ws_chars s m <-> trim_ws s = m.
Proof.
  intros s m. destruct (trim_ws_spec s) as [E T]. rewrite ws_eq in *.
  split.
  - intros H. apply (trimmed_unique _ ws_good s); assumption.
  - intros <-. exact T.
Qed.

(** ** Scheme *)

Lemma span_app_le : forall p a b d q, span p (a ++ b) = (d, q) -> Forall (fun x => p x = true) a ->
  exists d', d = a ++ d' /\ b = d' ++ q.
Proof.
  intros p. induction a as [|x a IH]; intros b d q H F; cbn [app] in H.
  - apply span_spec in H as (-> & _). exists d. auto.
  - inversion F; subst. cbn [span] in H. rewrite H2 in H.
    destruct (span p (a ++ b)) as [d1 q1] eqn:E. injection H as <- <-.
    destruct (IH _ _ _ E H3) as (d' & -> & ->). exists d'. auto.
Qed.

Lemma slash_not_scheme : forall b, is_slash b = true -> scheme_char b = false /\ alpha b = false /\ (b =? 58) = false.
Proof.
  intros b H. apply memN_In in H. cbn in H. destruct H as [<-|[<-|[]]]; vm_compute; auto.
Qed.

(** The scheme of [body ++ slashes ++ rest]. *)
Lemma scheme_body_of : forall c name colon sl b,
  alpha c = true -> Forall (fun x => scheme_char x = true) name -> (colon = [] \/ colon = str ":") ->
  sl <> [] -> Forall (fun x => is_slash x = true) sl ->
  scheme_body ((c :: name ++ colon) ++ sl ++ b) = (c :: name ++ colon, sl ++ b).
Proof.
  intros c name colon sl b Hc Hn Hcol Hsl Fsl. unfold scheme_body. cbn [app]. rewrite Hc.
  destruct sl as [|x sl]; [contradiction|]. inversion Fsl; subst.
  destruct (slash_not_scheme x H1) as (A & B & C).
  destruct Hcol as [->| ->].
  - rewrite app_nil_r. cbn [app].
    assert (E : span scheme_char (name ++ x :: sl ++ b) = (name, x :: sl ++ b)).
    { apply span_spec. auto. }
    rewrite E, C. reflexivity.
  - rewrite <- app_assoc. change (str ":" ++ (x :: sl) ++ b) with (58 :: x :: sl ++ b).
    assert (E : span scheme_char (name ++ 58 :: x :: sl ++ b) = (name, 58 :: x :: sl ++ b)).
    { apply span_spec. repeat split; auto. }
    rewrite E. reflexivity.
Qed.

Lemma scheme_body_slash : forall sl b, sl <> [] -> Forall (fun x => is_slash x = true) sl ->
  scheme_body (sl ++ b) = ([], sl ++ b).
Proof.
  intros [|x sl] b H F; [contradiction|]. inversion F; subst.
  destruct (slash_not_scheme x H2) as (A & B & C). cbn [app scheme_body]. rewrite B. reflexivity.
Qed.

Lemma is_scheme_split : forall a b, is_scheme a -> exists c d, split_scheme (a ++ b) = (a ++ c, d) .
Proof.
  intros a b (body & sl & -> & Fsl & L & Hb). rewrite <- app_assoc.
  apply (Forall_iff _ (fun x => is_slash x = true)) in Fsl; [|intros; apply slash_iff].
  assert (Hsl : sl <> []) by (destruct sl; [cbn in L; lia|discriminate]).
  unfold split_scheme.
  assert (E : scheme_body (body ++ sl ++ b) = (body, sl ++ b)).
  { destruct Hb as [->|(c & name & colon & -> & Hc & Hn & Hcol)].
    - exact (scheme_body_slash sl b Hsl Fsl).
    - apply scheme_body_of; auto; [apply letter_iff; exact Hc|].
      revert Hn. apply Forall_impl. intros x. apply scheme_char_iff. }
  rewrite E. destruct (span is_slash (sl ++ b)) as [d q] eqn:Es.
  destruct (span_app_le _ _ _ _ _ Es Fsl) as (d' & -> & _).
  replace (2 <=? length (sl ++ d'))%nat with true by (rewrite app_length; lia).
  exists d', q. rewrite app_assoc. reflexivity.
Qed.

Lemma split_scheme_is : forall u a b, split_scheme u = (a, b) -> a = [] \/ is_scheme a.
Proof.
  intros u a b H. unfold split_scheme in H.
  destruct (scheme_body u) as [body r] eqn:Eb. destruct (span is_slash r) as [sl rest] eqn:Es.
  destruct (2 <=? length sl)%nat eqn:El; injection H as <- <-; [|auto]. right.
  apply span_spec in Es as (-> & F & _). exists body, sl. split; [reflexivity|].
  split; [revert F; apply Forall_impl; intros x; apply slash_iff|]. split; [lia|].
  unfold scheme_body in Eb. destruct u as [|c t]; [injection Eb as <- _; auto|].
  destruct (alpha c) eqn:Ec; [|injection Eb as <- _; auto]. right.
  destruct (span scheme_char t) as [x q] eqn:Ex. apply span_spec in Ex as (-> & Fx & _).
  assert (Fx' : Forall scheme_name_char x) by (revert Fx; apply Forall_impl; intros y; apply scheme_char_iff).
  apply letter_iff in Ec.
  destruct q as [|y q]; [|destruct (N.eqb_spec y 58)]; injection Eb as <- _.
  - exists c, x, []. rewrite app_nil_r. auto.
  - exists c, x, (str ":"). auto.
  - exists c, x, []. rewrite app_nil_r. auto.
Qed.

Lemma scheme_split_total : forall u a b, split_scheme u = (a, b) -> scheme_split u a b.
Proof.
  intros u a b E. split; [exact (split_scheme_app _ _ _ E)|]. split; [exact (split_scheme_is _ _ _ E)|].
  intros x y -> Hx. destruct (is_scheme_split x y Hx) as (c & d & E'). rewrite E' in E.
  injection E as <- _. eauto.
Qed.

Lemma is_scheme_nonempty : forall a, is_scheme a -> a <> [].
Proof. intros a (body & sl & -> & _ & L & _) E. apply app_eq_nil in E as [_ ->]. cbn in L. lia. Qed.

Lemma scheme_split_iff : forall u a b, scheme_split u a b <-> split_scheme u = (a, b).
Proof.
  intros u a b. split; [|apply scheme_split_total].
  intros (E & H & M). destruct (split_scheme u) as [a' b'] eqn:E'.
  destruct (scheme_split_total _ _ _ E') as (F & H' & M').
  assert (a = a').
  { destruct H as [->|H], H' as [->|H'].
    - reflexivity.
    - destruct (M _ _ F H') as (c & X). symmetry in X. apply app_eq_nil in X as [-> _]. reflexivity.
    - destruct (M' _ _ E H) as (c & X). symmetry in X. apply app_eq_nil in X as [-> _]. reflexivity.
    - destruct (M _ _ F H') as (c & X). destruct (M' _ _ E H) as (c' & X').
      rewrite X' in X. rewrite <- app_assoc in X. apply app_inv_same in X.
      apply app_eq_nil in X as [-> _]. rewrite app_nil_r in X'. auto. }
  subst a'. rewrite F in E. apply app_inv_head in E. subst b'. reflexivity.
Qed.

(** ** User information *)

Lemma not_in_memN : forall c l, ~ In c l <-> memN c l = false.
Proof. intros c l. rewrite <- memN_In. destruct (memN c l); intuition congruence. Qed.

Lemma last_occ_unique : forall (c : N) a b a' b', a ++ [c] ++ b = a' ++ [c] ++ b' ->
  ~ In c b -> ~ In c b' -> a = a' /\ b = b'.
Proof.
  intros c a b a' b' E Hb Hb'. destruct (app_split _ _ _ _ _ E) as [(m & -> & X)|(m & Hm & -> & X)].
  - destruct m as [|x m].
    + cbn [app] in X. injection X as ->. rewrite app_nil_r. auto.
    + exfalso. cbn [app] in X. injection X as <- X. apply Hb. rewrite X. apply in_or_app. right. left. reflexivity.
  - exfalso. destruct m as [|x m]; [contradiction|]. cbn [app] in X. injection X as <- X.
    apply Hb'. rewrite X. apply in_or_app. right. left. reflexivity.
Qed.

Lemma user_stop_true : forall b, negb (is_path_char b || is_bracket b) = true <-> ~ path_char b /\ ~ bracket b.
Proof. intros b. rewrite negb_true_iff, orb_false_iff, path_char_false, bracket_false. reflexivity. Qed.
Lemma user_stop_false : forall b, negb (is_path_char b || is_bracket b) = false <-> path_char b \/ bracket b.
Proof. intros b. rewrite negb_false_iff, orb_true_iff, path_char_iff, bracket_iff. reflexivity. Qed.

Lemma user_split_iff : forall s user rest, user_split s user rest <-> split_user s = (user, rest).
Proof.
  intros s user rest. unfold user_split, split_user.
  destruct (span (fun b => negb (is_path_char b || is_bracket b)) s) as [pre q] eqn:E.
  pose proof E as E'.
  rewrite (span_iff _ _ _ _ _ _ user_stop_true user_stop_false) in E'. destruct E' as (Es & F & S).
  pose proof (last_at_spec pre) as L. split.
  - intros (pre' & q' & Es' & F' & S' & H).
    assert (X : span (fun b => negb (is_path_char b || is_bracket b)) s = (pre', q')).
    { apply (span_iff _ _ _ _ _ _ user_stop_true user_stop_false). auto. }
    rewrite E in X. injection X as <- <-.
    destruct user as [u|].
    + destruct H as (v & -> & Hv & ->). destruct (last_at (u ++ str "@" ++ v)) as [(u' & v')|].
      * destruct L as (Eu & Hv'). apply not_in_memN in Hv'.
        destruct (last_occ_unique 64 _ _ _ _ Eu Hv Hv') as [<- <-]. reflexivity.
      * exfalso. apply not_in_memN in L. apply L. apply in_or_app. right. left. reflexivity.
    + destruct H as (H & ->). destruct (last_at pre) as [(u' & v')|]; [|reflexivity].
      exfalso. destruct L as (-> & _). apply H. apply in_or_app. right. left. reflexivity.
  - destruct (last_at pre) as [(u & v)|]; intros H; injection H as <- <-.
    + destruct L as (-> & Hv). apply not_in_memN in Hv.
      exists (u ++ [64] ++ v), q. split; [exact Es|]. split; [exact F|]. split; [exact S|]. exists v. auto.
    + apply not_in_memN in L. exists pre, q. auto 10.
Qed.

(** ** The front part of a URL *)

Lemma front_iff : forall url scheme user rest, front url scheme user rest <->
  exists s, split_scheme (trim_ws url) = (scheme, s) /\ split_user s = (user, rest).
Proof.
  intros url scheme user rest. unfold front. split.
  - intros (u & s & A & B & C). apply trim_ws_iff in A. subst u. apply scheme_split_iff in B.
    apply user_split_iff in C. eauto.
  - intros (s & B & C). exists (trim_ws url), s. rewrite trim_ws_iff, scheme_split_iff, user_split_iff. auto.
Qed.

Lemma front_total : forall url, exists scheme user rest, front url scheme user rest.
Proof.
  intros url. destruct (split_scheme (trim_ws url)) as [scheme s] eqn:E.
  destruct (split_user s) as [user rest] eqn:E'. exists scheme, user, rest. apply front_iff. eauto.
Qed.

Lemma front_unique : forall url scheme user rest scheme' user' rest',
  front url scheme user rest -> front url scheme' user' rest' ->
  scheme = scheme' /\ user = user' /\ rest = rest'.
Proof.
  intros url sc us r sc' us' r' H H'. apply front_iff in H as (s & A & B). apply front_iff in H' as (s' & A' & B').
  rewrite A in A'. injection A' as <- <-. rewrite B in B'. injection B' as <- <-. auto.
Qed.

Lemma split_user_app : forall s user rest, split_user s = (user, rest) -> s = user_at user ++ rest.
Proof.
  intros s user rest H. apply user_split_iff in H as (pre & q & -> & _ & _ & H).
  destruct user as [u|]; cbn [user_at].
  - destruct H as (v & -> & _ & ->). rewrite <- !app_assoc. reflexivity.
  - destruct H as (_ & ->). reflexivity.
Qed.

Lemma front_app : forall url scheme user rest, front url scheme user rest ->
  trimmed ws_chars url (scheme ++ user_at user ++ rest).
Proof.
  intros url scheme user rest H. apply front_iff in H as (s & A & B). apply trim_ws_iff.
  apply split_scheme_app in A. apply split_user_app in B. subst s. exact A.
Qed.

Definition start_result (scheme user : bytes) : result :=
  mkResult scheme user [] [] [] [] [] [] HNone.

Lemma extract_front : forall ext t p scheme user rest, front (p_url p) scheme user rest ->
  extract ext t p = Ret (extract_authority ext t (p_ignore_sub_domains p) (p_to_punycode p)
                           (start_result scheme (user_of user)) rest).
Proof.
  intros ext t p scheme user rest H. rewrite extract_spec. f_equal. unfold extracted.
  apply front_iff in H as (s & A & B). rewrite A, B. destruct user; reflexivity.
Qed.

(** ** Host, port, path *)

Lemma host_stop_true : forall b, negb (is_path_char b || (b =? 58) || is_bracket b) = true
  <-> ~ path_char b /\ ~ bracket b /\ b <> 58.
Proof.
  intros b. rewrite negb_true_iff, !orb_false_iff, path_char_false, bracket_false, N.eqb_neq. tauto.
Qed.

Lemma split_auth_plain : forall h after, plain_host h -> starts_with (fun b => path_char b \/ b = 58) after ->
  split_auth (h ++ after) = inr (AHost h after).
Proof.
  intros h after H S. unfold split_auth.
  assert (P91 : forall s, starts_with (fun b => path_char b \/ b = 58) s -> has_prefix s [91] = false /\ has_prefix s [93] = false).
  { intros [|b s] X; [auto|]. cbn [has_prefix]. cbn [starts_with] in X. unfold path_char in X. cbn in X.
    destruct X as [[<-|[<-|[<-|[<-|[]]]]]| ->]; auto. }
  assert (P : has_prefix (h ++ after) [91] = false).
  { destruct h as [|b h]; [apply P91; exact S|]. cbn [app has_prefix]. inversion H as [|? ? (A & B & C) D]; subst.
    destruct (N.eqb_spec 91 b) as [<-|]; [|reflexivity]. exfalso. apply B. left. reflexivity. }
  rewrite P.
  assert (E : span (fun b => negb (is_path_char b || (b =? 58) || is_bracket b)) (h ++ after) = (h, after)).
  { apply span_spec. split; [reflexivity|]. split.
    - revert H. apply Forall_impl. intros b. apply host_stop_true.
    - destruct after as [|b after]; [exact I|]. cbn [no_head]. cbn [starts_with] in S.
      apply negb_false_iff. rewrite !orb_true_iff, path_char_iff, N.eqb_eq. auto. }
  rewrite E. destruct (P91 after S) as [-> ->]. reflexivity.
Qed.

(** Conversely every accepted authority has this form. *)
Lemma split_auth_host : forall s h after, split_auth s = inr (AHost h after) ->
  s = h ++ after /\ plain_host h /\ starts_with (fun b => path_char b \/ b = 58) after.
Proof.
  intros s h after H. unfold split_auth in H. destruct (has_prefix s [91]).
  - exfalso. unfold split_bracketed in H. destruct (span _ (tl s)) as [a q]. destruct q as [|b r]; [discriminate|].
    destruct (b =? 91); [discriminate|]. destruct (span _ r) as [m q2]. destruct (has_prefix q2 [91]); [discriminate|].
    destruct (memN 93 m || negb (v6 a)); [discriminate|]. destruct r as [|c r]; [discriminate|].
    destruct (is_path_char c || (c =? 58)); discriminate.
  - destruct (span _ s) as [h' q] eqn:E. destruct (has_prefix q [91]) eqn:E1; [discriminate|].
    destruct (has_prefix q [93]) eqn:E2; [discriminate|]. injection H as <- <-.
    apply span_spec in E as (-> & F & S). split; [reflexivity|]. split.
    + revert F. apply Forall_impl. intros b. apply host_stop_true.
    + destruct q as [|b q]; [exact I|]. cbn [no_head] in S. cbn [starts_with]. cbn [has_prefix] in E1, E2.
      apply negb_false_iff in S. rewrite !orb_true_iff, path_char_iff, N.eqb_eq, bracket_iff in S.
      destruct S as [[S|S]|S]; auto. exfalso. unfold bracket in S. cbn in S.
      destruct S as [<-|[<-|[]]]; destruct q; (discriminate E1 || discriminate E2).
Qed.

Lemma digits_value_spec : forall d n, digits_value d n
  = if forallb is_digit d then Some (fold_left (fun a b => a * 10 + (Z.of_N b - 48))%Z d n) else None.
Proof.
  induction d as [|b d IH]; intros n; cbn [digits_value forallb fold_left]; [reflexivity|].
  destruct (is_digit b); [apply IH|reflexivity].
Qed.

Lemma forallb_digits : forall d, forallb is_digit d = true <-> all_digits d.
Proof. intros d. unfold all_digits. rewrite forallb_forall, Forall_forall. reflexivity. Qed.

Lemma decimal_acc_nonneg : forall d n, all_digits d -> (0 <= n)%Z ->
  (0 <= fold_left (fun a b => a * 10 + (Z.of_N b - 48))%Z d n)%Z.
Proof.
  induction d as [|b d IH]; intros n H Hn; cbn [fold_left]; [exact Hn|]. inversion H; subst.
  apply IH; [assumption|]. unfold is_digit in H2. lia.
Qed.

Lemma port_ok_digits : forall d, d <> [] ->
  match digits_value d 0 with
  | Some v => all_digits d /\ v = decimal d /\ (0 <= v)%Z
  | None => ~ all_digits d
  end.
Proof.
  intros d _. rewrite digits_value_spec. destruct (forallb is_digit d) eqn:E.
  - apply forallb_digits in E. split; [exact E|]. split; [reflexivity|]. apply decimal_acc_nonneg; [exact E|lia].
  - intros H. apply forallb_digits in H. congruence.
Qed.

Lemma digit_not_sign : forall d x, all_digits (x :: d) -> x <> 43 /\ x <> 45.
Proof. intros d x H. inversion H; subst. unfold is_digit in H2. lia. Qed.

Lemma port_ok_iff : forall p, port_ok p = true <-> port_number p.
Proof.
  intros p. unfold port_ok, port_number, largest_port_number.
  assert (D : p = [] \/ (exists d, p = 45 :: d) \/ (exists d, p = 43 :: d)
              \/ (exists b d, p = b :: d /\ b <> 45 /\ b <> 43)).
  { destruct p as [|b d]; [auto|]. right. destruct (N.eq_dec b 45) as [->|]; [left; eauto|].
    right. destruct (N.eq_dec b 43) as [->|]; [left; eauto|]. right. eauto. }
  assert (AT : forall (neg : bool) body, body <> [] ->
    match digits_value body 0 with
    | None => None
    | Some v => let v' := if neg then (- v)%Z else v in
                if ((- 2 ^ 63 <=? v') && (v' <? 2 ^ 63))%Z then Some v' else None
    end = None \/ all_digits body).
  { intros neg body Hb. pose proof (port_ok_digits body Hb) as X. destruct (digits_value body 0); [tauto|auto]. }
  destruct D as [->|[(d & ->)|[(d & ->)|(b & d & -> & N1 & N2)]]].
  - cbn. split; [discriminate|]. intros (sg & d & E & Hd & _). symmetry in E. apply app_eq_nil in E as [_ ->]. contradiction.
  - unfold atoi. destruct d as [|x d].
    { split; [intros H; vm_compute in H; discriminate H|]. intros (sg & d & E & Hd & Ad & [([->| ->] & _)|(-> & _)]); cbn [app str] in E.
      - subst d. destruct (digit_not_sign _ _ Ad) as [_ X]. contradiction.
      - discriminate.
      - injection E as <-. contradiction. }
    set (body := x :: d) in *. assert (Hb : body <> []) by discriminate.
    pose proof (port_ok_digits body Hb) as X. change (match body with [] => _ | _ => ?b end) with b.
    cbv zeta. destruct (digits_value body 0) as [v|].
    + destruct X as (Ad & -> & Hv).
      destruct ((- 2 ^ 63 <=? - decimal body) && (- decimal body <? 2 ^ 63))%Z eqn:R.
      * split.
        -- intros H. exists (str "-"), body. split; [reflexivity|]. split; [exact Hb|]. split; [exact Ad|]. right. split; [reflexivity|lia].
        -- intros (sg & d' & E & Hd & Ad' & [([->| ->] & Hle)|(-> & Hz)]).
           ++ exfalso. cbn [app] in E. subst d'. destruct (digit_not_sign _ _ Ad') as [_ Y]. contradiction.
           ++ discriminate.
           ++ cbn [app str] in E. injection E as E. subst d'. rewrite Hz. reflexivity.
      * split; [discriminate|].
        intros (sg & d' & E & Hd & Ad' & [([->| ->] & Hle)|(-> & Hz)]).
        -- exfalso. cbn [app] in E. subst d'. destruct (digit_not_sign _ _ Ad') as [_ Y]. contradiction.
        -- discriminate.
        -- cbn [app str] in E. injection E as E. subst d'. rewrite Hz in R. cbn in R. discriminate.
    + split; [discriminate|].
      intros (sg & d' & E & Hd & Ad' & [([->| ->] & Hle)|(-> & Hz)]).
      * exfalso. cbn [app] in E. subst d'. destruct (digit_not_sign _ _ Ad') as [_ Y]. contradiction.
      * discriminate.
      * cbn [app str] in E. injection E as E. subst d'. contradiction.
  - unfold atoi. destruct d as [|x d].
    { split; [intros H; vm_compute in H; discriminate H|]. intros (sg & d & E & Hd & Ad & [([->| ->] & _)|(-> & _)]); cbn [app str] in E.
      - subst d. destruct (digit_not_sign _ _ Ad) as [Y _]. contradiction.
      - injection E as <-. contradiction.
      - discriminate. }
    set (body := x :: d) in *. assert (Hb : body <> []) by discriminate.
    pose proof (port_ok_digits body Hb) as X. change (match body with [] => _ | _ => ?b end) with b.
    cbv zeta. destruct (digits_value body 0) as [v|].
    + destruct X as (Ad & -> & Hv).
      destruct ((- 2 ^ 63 <=? decimal body) && (decimal body <? 2 ^ 63))%Z eqn:R.
      * split.
        -- intros H. exists (str "+"), body. split; [reflexivity|]. split; [exact Hb|]. split; [exact Ad|]. left. split; [auto|lia].
        -- intros (sg & d' & E & Hd & Ad' & [([->| ->] & Hle)|(-> & Hz)]).
           ++ exfalso. cbn [app] in E. subst d'. destruct (digit_not_sign _ _ Ad') as [Y _]. contradiction.
           ++ cbn [app str] in E. injection E as E. subst d'. lia.
           ++ discriminate.
      * split; [discriminate|].
        intros (sg & d' & E & Hd & Ad' & [([->| ->] & Hle)|(-> & Hz)]).
        -- exfalso. cbn [app] in E. subst d'. destruct (digit_not_sign _ _ Ad') as [Y _]. contradiction.
        -- cbn [app str] in E. injection E as E. subst d'. lia.
        -- discriminate.
    + split; [discriminate|].
      intros (sg & d' & E & Hd & Ad' & [([->| ->] & Hle)|(-> & Hz)]).
      * exfalso. cbn [app] in E. subst d'. destruct (digit_not_sign _ _ Ad') as [Y _]. contradiction.
      * cbn [app str] in E. injection E as E. subst d'. contradiction.
      * discriminate.
  - assert (Ea : atoi (b :: d) = match digits_value (b :: d) 0 with
                 | None => None
                 | Some v => if ((- 2 ^ 63 <=? v) && (v <? 2 ^ 63))%Z then Some v else None end).
    { unfold atoi. destruct b as [|q]; [reflexivity|]. do 6 (destruct q as [q|q|]; try reflexivity); contradiction. }
    rewrite Ea. clear Ea. set (body := b :: d) in *. assert (Hb : body <> []) by discriminate.
    pose proof (port_ok_digits body Hb) as X. destruct (digits_value body 0) as [v|].
    + destruct X as (Ad & -> & Hv).
      destruct ((- 2 ^ 63 <=? decimal body) && (decimal body <? 2 ^ 63))%Z eqn:R.
      * split.
        -- intros H. exists [], body. split; [reflexivity|]. split; [exact Hb|]. split; [exact Ad|]. left. split; [auto|lia].
        -- intros (sg & d' & E & Hd & Ad' & [([->| ->] & Hle)|(-> & Hz)]).
           ++ cbn [app] in E. subst d'. lia.
           ++ cbn [app str] in E. injection E as -> _. contradiction.
           ++ cbn [app str] in E. injection E as -> _. contradiction.
      * split; [discriminate|].
        intros (sg & d' & E & Hd & Ad' & [([->| ->] & Hle)|(-> & Hz)]).
        -- cbn [app] in E. subst d'. lia.
        -- cbn [app str] in E. injection E as -> _. contradiction.
        -- cbn [app str] in E. injection E as -> _. contradiction.
    + split; [discriminate|].
      intros (sg & d' & E & Hd & Ad' & [([->| ->] & Hle)|(-> & Hz)]).
      * cbn [app] in E. subst d'. contradiction.
      * cbn [app str] in E. injection E as -> _. contradiction.
      * cbn [app str] in E. injection E as -> _. contradiction.
Qed.

Lemma path_colon : ~ path_char 58.
Proof. unfold path_char. cbn. intuition discriminate. Qed.

Lemma path_stop_true : forall b, negb (is_path_char b) = true <-> ~ path_char b.
Proof. intros b. rewrite negb_true_iff. apply path_char_false. Qed.
Lemma path_stop_false : forall b, negb (is_path_char b) = false <-> path_char b.
Proof. intros b. rewrite negb_false_iff. apply path_char_iff. Qed.

Lemma split_port_spec : forall after port path, after_host after port path ->
  (port_accepted port -> split_port after = Some (port_of port, path))
  /\ (~ port_accepted port -> split_port after = None).
Proof.
  intros after port path (Hp & H). destruct port as [p|]; cbn [port_accepted port_of].
  - destruct H as (-> & Hn). unfold split_port. change (str ":" ++ p ++ path) with (58 :: p ++ path).
    cbv iota beta. change (58 =? 58) with true. cbv iota.
    assert (E : span (fun b => negb (is_path_char b)) (p ++ path) = (p, path)).
    { apply (span_iff _ _ _ _ _ _ path_stop_true path_stop_false). auto. }
    rewrite E, <- port_ok_iff. destruct (port_ok p); split; intros H; try reflexivity; congruence.
  - subst path. split; [intros _|intros H; exfalso; apply H; exact I].
    unfold split_port. destruct after as [|c t]; [reflexivity|]. cbn [is_path starts_with] in Hp.
    destruct (N.eqb_spec c 58) as [->|]; [|reflexivity]. exfalso. apply path_colon. exact Hp.
Qed.

(** The text after a host always has this form. *)
Lemma after_host_total : forall after, starts_with (fun b => path_char b \/ b = 58) after ->
  exists port path, after_host after port path.
Proof.
  intros after H. destruct after as [|c t].
  - exists None, []. split; [exact I|reflexivity].
  - cbn [starts_with] in H. destruct H as [H| ->].
    + exists None, (c :: t). split; [exact H|reflexivity].
    + destruct (span (fun b => negb (is_path_char b)) t) as [p path] eqn:E.
      apply (span_iff _ _ _ _ _ _ path_stop_true path_stop_false) in E as (-> & F & S).
      exists (Some p), path. split; [exact S|]. split; [reflexivity|exact F].
Qed.

Lemma after_host_starts : forall after port path, after_host after port path ->
  starts_with (fun b => path_char b \/ b = 58) after.
Proof.
  intros after port path (H & E). destruct port as [p|].
  - destruct E as (-> & _). cbn. auto.
  - subst. destruct path; [exact I|]. left. exact H.
Qed.

Lemma port_dec : forall port, {port_accepted port} + {~ port_accepted port}.
Proof.
  intros [p|]; [|left; exact I]. cbn [port_accepted]. destruct (port_ok p) eqn:E.
  - left. apply port_ok_iff. exact E.
  - right. rewrite <- port_ok_iff. congruence.
Qed.

(** ** Percent decoding *)

Lemma query_unescape_cons : forall b s, query_unescape (b :: s) =
  if b =? 37 then
    match s with
    | a :: c :: t' =>
      if is_hex a && is_hex c
      then match query_unescape t' with
           | inr u => inr ((16 * unhex a + unhex c)%N :: u)
           | inl e => inl e
           end
      else inl (firstn 3 (b :: s))
    | _ => inl (firstn 3 (b :: s))
    end
  else if b =? 43 then match query_unescape s with inr u => inr (32%N :: u) | inl e => inl e end
  else match query_unescape s with inr u => inr (b :: u) | inl e => inl e end.
Proof.
  intros b s. destruct (N.eqb_spec b 37) as [->|H1].
  - destruct s as [|a [|c s]]; reflexivity.
  - destruct (N.eqb_spec b 43) as [->|H2]; [reflexivity|].
    destruct b as [|q]; [reflexivity|]. do 6 (destruct q as [q|q|]; try reflexivity); contradiction.
Qed.

Lemma percent_decoded_iff : forall s d, percent_decoded s d <-> query_unescape s = inr d.
Proof.
  intros s d. split.
  - induction 1 as [|a b s t Ha Hb H IH|s t H IH|b s t H1 H2 H IH].
    + reflexivity.
    + rewrite query_unescape_cons. change (37 =? 37) with true. cbv iota. rewrite Ha, Hb, IH. reflexivity.
    + rewrite query_unescape_cons. change (43 =? 37) with false. change (43 =? 43) with true. cbv iota. rewrite IH. reflexivity.
    + rewrite query_unescape_cons. destruct (N.eqb_spec b 37); [contradiction|]. destruct (N.eqb_spec b 43); [contradiction|].
      rewrite IH. reflexivity.
  - revert d. induction s as [s IH] using (induction_ltof1 _ (@length N)). unfold ltof in IH. intros d H.
    destruct s as [|b s]; [injection H as <-; constructor|]. rewrite query_unescape_cons in H.
    destruct (N.eqb_spec b 37) as [->|H1]; [|destruct (N.eqb_spec b 43) as [->|H2]].
    + destruct s as [|a [|c s]]; try discriminate. destruct (is_hex a) eqn:Ea; [|discriminate].
      destruct (is_hex c) eqn:Ec; [|discriminate]. cbn [andb] in H.
      destruct (query_unescape s) as [e|u] eqn:E; [discriminate|]. injection H as <-.
      apply pd_escape; auto. apply IH; [cbn [length]; lia|exact E].
    + destruct (query_unescape s) as [e|u] eqn:E; [discriminate|]. injection H as <-.
      apply pd_plus. apply IH; [cbn [length]; lia|exact E].
    + destruct (query_unescape s) as [e|u] eqn:E; [discriminate|]. injection H as <-.
      apply pd_other; [exact H1|exact H2|]. apply IH; [cbn [length]; lia|exact E].
Qed.
