(** BrowserProofs.v - proofs of the properties stated in PropBrowser.v. *)

From Verif Require Import Base BaseFacts Utf8 Utf8Facts Chars Str StrFacts Net Trie Extract Host HostFacts
  Walk WalkFacts Addr NetFacts Parse ParseFacts UrlSpec UrlFacts ExtractFacts OutcomeFacts UrlProofs BrowserSpec.
From Coq Require Import ZifyBool ZifyNat ZifyN.
Local Open Scope N_scope.

(** ** Characters of IPv6 literals *)

Definition literal_char (b : N) : Prop := is_hex b = true \/ b = 58 \/ b = 46 \/ 128 <= b.

Lemma digits_chars : forall d, all_digits d -> Forall literal_char d.
Proof.
  intros d H. eapply Forall_impl; [|exact H]. intros b Hb. left. cbv beta in Hb. unfold is_hex. rewrite Hb. reflexivity.
Qed.
Lemma sep_chars : forall s, is_sep_text s -> Forall literal_char s.
Proof. intros s [->|[->|[->| ->]]]; repeat (apply Forall_cons || apply Forall_nil); unfold literal_char; lia. Qed.
Lemma group_chars : forall g, group g -> Forall literal_char g.
Proof. intros g (_ & H & _). eapply Forall_impl; [|exact H]. intros b Hb. left. exact Hb. Qed.
Lemma colon_chars : Forall literal_char [58].
Proof. repeat (apply Forall_cons || apply Forall_nil). unfold literal_char. lia. Qed.
Lemma ipv4_chars : forall s, ipv4_text s -> Forall literal_char s.
Proof.
  intros s (x & w & -> & (a & s1 & b & s2 & c & s3 & d & -> & (_ & Ha & _) & (_ & Hb & _) & (_ & Hc & _) & (_ & Hd & _) & H1 & H2 & H3) & Hw).
  rewrite !Forall_app. repeat split; auto using digits_chars, sep_chars.
  induction Hw as [|s w Hs Hw IH]; [constructor|]. apply Forall_app. auto using sep_chars.
Qed.
Lemma pieces_chars : forall n s, pieces n s -> Forall literal_char s.
Proof.
  induction 1 as [g H|a H|g n s H Hs IH]; auto using group_chars, ipv4_chars.
  rewrite !Forall_app. auto using group_chars, colon_chars.
Qed.
Lemma groups_chars : forall n s, groups n s -> Forall literal_char s.
Proof.
  induction 1 as [g H|g n s H Hs IH]; auto using group_chars.
  rewrite !Forall_app. auto using group_chars, colon_chars.
Qed.
Lemma literal_chars : forall s, ipv6_literal s -> Forall literal_char s.
Proof.
  intros s [H|(n & a & m & b & -> & _ & Ha & Hb)]; [eapply pieces_chars; eauto|].
  rewrite !Forall_app. split; [destruct Ha as [(_ & ->)|Ha]; [constructor|eapply groups_chars; eauto]|].
  split; [repeat (apply Forall_cons || apply Forall_nil); unfold literal_char; lia|].
  destruct Hb as [(_ & ->)|Hb]; [constructor|eapply pieces_chars; eauto].
Qed.

Lemma literal_char_plain : forall b, literal_char b -> ~ path_char b /\ ~ bracket b /\ b <> 64.
Proof.
  intros b H. unfold literal_char, is_hex, is_digit in H. unfold path_char, bracket. cbn.
  split; [|split]; [intros [?|[?|[?|[?|[]]]]]|intros [?|[?|[]]]|]; lia.
Qed.

(** ** What Extract found, if it returns no error *)

Lemma host_outcome_not_v6 : forall t u h ignore v r e, host_outcome t u h ignore v = (r, e) ->
  r_host_type u <> HIPv6 -> r_host_type r <> HIPv6.
Proof.
  intros t u h ignore v r e H Hu. unfold host_outcome in H. destruct (split_host h) as [first segs0].
  destruct (strip_empty segs0) as [zs segs]. destruct (cwalk t false 0 0 0 (labels first segs)) as [c|].
  - destruct v.
    + injection H as <- <-. discriminate.
    + unfold components in H. destruct (has_invalid_chars _); [injection H as <- <-; exact Hu|].
      destruct (is_nil _); injection H as <- <-; destruct (c_has c); try destruct (_ =? _)%nat;
        try exact Hu; try discriminate.
  - injection H as <- <-. exact Hu.
Qed.

(** The host in brackets, or without. *)
Definition host_text (raw : bytes) : Prop :=
  (exists a, raw = str "[" ++ a ++ str "]" /\ ipv6_literal a) \/ plain_host raw.

Lemma accepted_shape : forall ext t p r, extract ext t p = Ret (r, None) ->
  exists user raw after port path, front (p_url p) (r_scheme r) user (raw ++ after)
    /\ after_host after port path /\ port_accepted port
    /\ r_user_info r = user_of user /\ r_port r = port_of port /\ r_path r = path
    /\ host_in_url ext p r raw /\ host_text raw.
Proof.
  intros ext t p r H. destruct (extract_cases _ _ _ _ _ H) as (sc & us & re & F & C).
  destruct C as [(x & E & _)|[(a & af & po & pa & -> & L & A & [(Hok & _ & ->)|(_ & E & _)])|(raw & af & po & pa & -> & Hp & A & Hok & [(x & _ & E & _)|(h & Cv & O)])]];
    try discriminate.
  - exists us, (str "[" ++ a ++ str "]"), af, po, pa. cbn [r_scheme r_user_info r_port r_path].
    assert (F' : front (p_url p) sc us ((str "[" ++ a ++ str "]") ++ af)) by (rewrite <- !app_assoc; exact F).
    split; [exact F'|]. do 5 (split; [assumption || reflexivity|]). split; [|left; eauto].
    left. split; [reflexivity|]. split; [reflexivity|]. cbn [r_scheme r_domain]. eauto.
  - pose proof (host_outcome_keeps _ _ _ _ _ _ _ O) as (E1 & E2 & E3 & E4).
    unfold base in E1, E2, E3, E4. cbn [r_scheme r_user_info r_port r_path] in E1, E2, E3, E4.
    exists us, raw, af, po, pa. rewrite E1. split; [exact F|]. do 5 (split; [assumption || reflexivity|]).
    split; [|right; exact Hp]. right. split; [eapply host_outcome_not_v6; [exact O|discriminate]|].
    exists us, h, po, pa. rewrite E1. exists af. auto.
Qed.

(** ** Splitting *)

Lemma free_prefix : forall (P : N -> Prop) x q y q', x ++ q = y ++ q' -> Forall (fun b => ~ P b) x ->
  starts_with P q' -> exists z, y = x ++ z.
Proof.
  intros P. induction x as [|b x IH]; intros q y q' E H S; [exists y; reflexivity|].
  inversion H as [|? ? Hb Hx]; subst. destruct y as [|c y].
  - cbn in E. subst q'. destruct (Hb S).
  - injection E as -> E. destruct (IH _ _ _ E Hx S) as (z & ->). exists z. reflexivity.
Qed.

Lemma free_split : forall (P : N -> Prop) x q y q', x ++ q = y ++ q' -> Forall (fun b => ~ P b) x ->
  Forall (fun b => ~ P b) y -> starts_with P q -> starts_with P q' -> x = y /\ q = q'.
Proof.
  intros P x q y q' E Hx Hy S S'. destruct (free_prefix P _ _ _ _ E Hx S') as (z & ->).
  rewrite <- app_assoc in E. apply app_inv_head in E. subst q. destruct z as [|b z]; [rewrite app_nil_r; auto|].
  apply Forall_app in Hy as (_ & Hz). inversion Hz as [|? ? Hb _]; subst. destruct (Hb S).
Qed.

Lemma plain_no_at : forall s user raw after, user_split s user (raw ++ after) -> plain_host raw -> ~ In 64 raw.
Proof.
  intros s user raw after (pre & q & -> & F & S & U) Hp Hi.
  assert (Hr : Forall (fun b => ~ (path_char b \/ bracket b)) raw).
  { eapply Forall_impl; [|exact Hp]. cbv beta. tauto. }
  destruct user as [u|].
  - destruct U as (v & -> & Hv & E). destruct (free_prefix _ _ _ _ _ E Hr S) as (z & ->).
    apply Hv, in_or_app. auto.
  - destruct U as (Hv & E). destruct (free_prefix _ _ _ _ _ E Hr S) as (z & ->). apply Hv, in_or_app. auto.
Qed.

Lemma user_no_path : forall s user rest, user_split s user rest ->
  s = user_at user ++ rest /\ Forall (fun b => ~ path_char b /\ ~ bracket b) (user_of user).
Proof.
  intros s user rest (pre & q & -> & F & S & U). destruct user as [u|].
  - destruct U as (v & -> & _ & ->). cbn [user_at user_of]. rewrite <- !app_assoc. split; [reflexivity|].
    apply Forall_app in F as (F & _). exact F.
  - destruct U as (_ & ->). split; [reflexivity|constructor].
Qed.

(** ** The URL Standard *)

Lemma ends_authority_iff : forall b, ends_authority b = true <-> path_char b.
Proof. intros b. apply memN_In. Qed.
Lemma ends_authority_false : forall b, ends_authority b = false <-> ~ path_char b.
Proof. intros b. rewrite <- ends_authority_iff. destruct (ends_authority b); intuition congruence. Qed.

Lemma authority_plain : forall x s buffer creds, Forall (fun b => ~ path_char b /\ b <> 64) x ->
  authority_state (x ++ s) buffer creds = authority_state s (buffer ++ x) creds.
Proof.
  induction x as [|b x IH]; intros s buffer creds H; [rewrite app_nil_r; reflexivity|].
  inversion H as [|? ? (Hb & H64) Hx]; subst. apply ends_authority_false in Hb.
  cbn [app authority_state]. replace (b =? 64) with false by lia. rewrite Hb, IH, <- app_assoc by exact Hx. reflexivity.
Qed.

Lemma authority_end : forall q buffer creds, is_path q -> authority_state q buffer creds
  = match creds, buffer with Some _, [] => None | _, _ => Some (creds, buffer ++ q) end.
Proof.
  intros [|b q] buffer creds H; [reflexivity|]. cbn [is_path starts_with] in H.
  assert (b <> 64) by (intros ->; cbn in H; intuition congruence). apply ends_authority_iff in H.
  cbn [authority_state]. replace (b =? 64) with false by lia. rewrite H. reflexivity.
Qed.

(** What is before an '@' becomes credentials. *)
Lemma authority_user : forall x s buffer creds, no_path_char x ->
  authority_state (x ++ str "@" ++ s) buffer creds = authority_state s [] (Some (user_at creds ++ buffer ++ x)).
Proof.
  induction x as [|b x IH]; intros s buffer creds H.
  - rewrite app_nil_r. cbn [app authority_state str]. destruct creds as [c|]; cbn [user_at app];
      rewrite <- ?app_assoc; reflexivity.
  - inversion H as [|? ? Hb Hx]; subst. apply ends_authority_false in Hb. rewrite <- app_comm_cons.
    cbn [authority_state]. destruct (N.eqb_spec b 64) as [->|N].
    + rewrite IH by exact Hx. do 2 f_equal. destruct creds as [c|]; cbn [user_at app]; rewrite <- ?app_assoc; reflexivity.
    + rewrite Hb, IH by exact Hx. do 2 f_equal. rewrite <- app_assoc. reflexivity.
Qed.

Lemma host_plain : forall x s buffer, plain_host x -> host_state (x ++ s) buffer false = host_state s (buffer ++ x) false.
Proof.
  induction x as [|b x IH]; intros s buffer H; [rewrite app_nil_r; reflexivity|].
  inversion H as [|? ? (Hb & Hk & Hc) Hx]; subst. apply ends_authority_false in Hb.
  assert (b <> 91 /\ b <> 93) as [H1 H2] by (unfold bracket in Hk; cbn in Hk; intuition congruence).
  cbn [app host_state]. replace (b =? 58) with false by lia. rewrite Hb. cbn [andb].
  replace (b =? 91) with false by lia. replace (b =? 93) with false by lia.
  rewrite IH, <- app_assoc by exact Hx. reflexivity.
Qed.

Lemma host_inside : forall x s buffer, Forall (fun b => ~ path_char b /\ ~ bracket b) x ->
  host_state (x ++ s) buffer true = host_state s (buffer ++ x) true.
Proof.
  induction x as [|b x IH]; intros s buffer H; [rewrite app_nil_r; reflexivity|].
  inversion H as [|? ? (Hb & Hk) Hx]; subst. apply ends_authority_false in Hb.
  assert (b <> 91 /\ b <> 93) as [H1 H2] by (unfold bracket in Hk; cbn in Hk; intuition congruence).
  cbn [app host_state negb]. rewrite andb_false_r, Hb.
  replace (b =? 91) with false by lia. replace (b =? 93) with false by lia.
  rewrite IH, <- app_assoc by exact Hx. reflexivity.
Qed.

Lemma host_any : forall raw s, host_text raw -> host_state (raw ++ s) [] false = host_state s raw false.
Proof.
  intros raw s [(a & -> & L)|H]; [|rewrite host_plain by exact H; reflexivity].
  apply literal_chars in L. rewrite <- !app_assoc. cbn [str app].
  change (host_state (91 :: a ++ 93 :: s) [] false) with (host_state (a ++ 93 :: s) [91] true).
  etransitivity; [apply (host_inside a (93 :: s) [91])|].
  2: { cbn [host_state]. change (93 =? 58) with false. change (ends_authority 93) with false. cbn [andb].
    change (93 =? 91) with false. change (93 =? 93) with true. cbn iota. reflexivity. }
  eapply Forall_impl; [|exact L]. intros b Hb. apply literal_char_plain in Hb. tauto.
Qed.

Lemma host_end : forall q buffer, is_path q ->
  host_state q buffer false = match buffer with [] => None | _ => Some (buffer, false, q) end.
Proof.
  intros [|b q] buffer H; [reflexivity|]. cbn [is_path starts_with] in H.
  assert (b <> 58) by (intros ->; cbn in H; intuition congruence). apply ends_authority_iff in H.
  cbn [host_state]. replace (b =? 58) with false by lia. rewrite H. reflexivity.
Qed.

Lemma host_colon : forall s buffer,
  host_state (str ":" ++ s) buffer false = match buffer with [] => None | _ => Some (buffer, true, s) end.
Proof. reflexivity. Qed.

Lemma port_digits : forall x s buffer, all_digits x -> port_state (x ++ s) buffer = port_state s (buffer ++ x).
Proof.
  induction x as [|b x IH]; intros s buffer H; [rewrite app_nil_r; reflexivity|].
  inversion H as [|? ? Hb Hx]; subst. cbn [app port_state]. rewrite Hb, IH, <- app_assoc by exact Hx. reflexivity.
Qed.

Lemma port_end : forall q buffer, is_path q ->
  port_state q buffer = if (65535 <? decimal buffer)%Z then None else Some (buffer, q).
Proof.
  intros [|b q] buffer H; [reflexivity|]. cbn [is_path starts_with] in H.
  assert (is_digit b = false).
  { cbn in H. destruct H as [<-|[<-|[<-|[<-|[]]]]]; reflexivity. }
  apply ends_authority_iff in H. cbn [port_state]. rewrite H0, H. reflexivity.
Qed.

(** What follows the scheme. *)
Definition divide (s : bytes) : option divided :=
  match authority_state s [] None with
  | None => None
  | Some (user, s) =>
    match host_state s [] false with
    | None => None
    | Some (h, false, rest) => Some (mkDivided user h [] rest)
    | Some (h, true, s) =>
      match port_state s [] with None => None | Some (port, rest) => Some (mkDivided user h port rest) end
    end
  end.

Lemma host_text_chars : forall raw, host_text raw -> ~ In 64 raw -> Forall (fun b => ~ path_char b /\ b <> 64) raw.
Proof.
  intros raw [(a & -> & L)|H] N.
  - rewrite !Forall_app. split; [|split].
    + constructor; [|constructor]. split; [cbn; intuition congruence|discriminate].
    + apply literal_chars in L. eapply Forall_impl; [|exact L]. intros b Hb. apply literal_char_plain in Hb. tauto.
    + constructor; [|constructor]. split; [cbn; intuition congruence|discriminate].
  - apply Forall_forall. intros b Hb. split; [|intros ->; auto].
    unfold plain_host in H. rewrite Forall_forall in H. apply (H b Hb).
Qed.

Lemma port_chars : forall p, port_number p -> Forall (fun b => ~ path_char b /\ b <> 64 /\ b <> 58 /\ ~ bracket b) p.
Proof.
  intros p H. apply Forall_forall. intros b Hb. pose proof (port_number_chars p b H Hb) as C.
  unfold is_digit in C. unfold path_char, bracket. cbn.
  split; [|split; [|split]]; [intros [?|[?|[?|[?|[]]]]]| | |intros [?|[?|[]]]]; lia.
Qed.

Lemma divide_app : forall user raw after port path d, no_path_char (user_of user) -> host_text raw -> ~ In 64 raw ->
  after_host after port path -> port_accepted port ->
  divide (user_at user ++ raw ++ after) = Some d -> raw <> [] /\ d = mkDivided user raw (port_of port) path.
Proof.
  intros user raw after port path d Hu Hr N64 (Hpath & A) Hok H. unfold divide in H.
  assert (E : authority_state (user_at user ++ raw ++ after) [] None = authority_state (raw ++ after) [] user).
  { destruct user as [u|]; [|reflexivity]. cbn [user_at]. rewrite <- app_assoc, authority_user by exact Hu. reflexivity. }
  rewrite E in H. clear E. rewrite authority_plain in H by (apply host_text_chars; assumption). cbn [app] in H.
  destruct port as [p|].
  - destruct A as (-> & Hnp). cbn [port_accepted] in Hok. pose proof (port_chars p Hok) as Cp.
    rewrite app_assoc, authority_plain in H.
    2: { apply Forall_app. split; [constructor; [|constructor]; split; [cbn; intuition congruence|discriminate]|].
         eapply Forall_impl; [|exact Cp]. cbv beta. tauto. }
    rewrite authority_end in H by exact Hpath.
    assert (H' : match host_state ((raw ++ str ":" ++ p) ++ path) [] false with
                 | None => None
                 | Some (h, false, rest) => Some (mkDivided user h [] rest)
                 | Some (h, true, s) =>
                   match port_state s [] with None => None | Some (port, rest) => Some (mkDivided user h port rest) end
                 end = Some d).
    { destruct user as [u|]; [|exact H]. destruct (raw ++ str ":" ++ p) eqn:E; [destruct raw; discriminate|exact H]. }
    clear H. rewrite <- !app_assoc, host_any, host_colon in H' by exact Hr. destruct raw as [|c raw]; [discriminate|].
    split; [discriminate|]. cbn [port_of].
    destruct Hok as (sg & ds & -> & Nd & Ad & V). destruct V as [([->| ->] & V)|(-> & V)]; [|discriminate|discriminate].
    cbn [app] in *. change (list N) with bytes in *. rewrite (port_digits ds) in H' by exact Ad.
    rewrite port_end in H' by exact Hpath. cbn [app] in H'. replace (65535 <? decimal ds)%Z with false in H' by lia.
    congruence.
  - subst after. rewrite authority_end in H by exact Hpath.
    assert (H' : match host_state (raw ++ path) [] false with
                 | None => None
                 | Some (h, false, rest) => Some (mkDivided user h [] rest)
                 | Some (h, true, s) =>
                   match port_state s [] with None => None | Some (port, rest) => Some (mkDivided user h port rest) end
                 end = Some d).
    { destruct user as [u|]; [|exact H]. destruct raw as [|c raw]; [discriminate|exact H]. }
    clear H. rewrite host_any, host_end in H' by assumption. destruct raw as [|c raw]; [discriminate|].
    split; [discriminate|]. injection H' as <-. reflexivity.
Qed.

(** ** Schemes *)

Lemma ascii_alpha_eq : forall b, ascii_alpha b = alpha b.
Proof. reflexivity. Qed.

Lemma scheme_state_inv : forall s buffer x rest, scheme_state s buffer = Some (x, rest) ->
  exists name, s = name ++ 58 :: rest /\ Forall (fun b => scheme_char b = true) name.
Proof.
  induction s as [|c s IH]; intros buffer x rest H; [discriminate|]. cbn [scheme_state] in H.
  destruct (N.eqb_spec c 58) as [->|Hc]; [injection H as _ ->; exists []; split; [reflexivity|constructor]|].
  destruct (ascii_alpha c || is_digit c || memN c (str "+-.")) eqn:E; [|discriminate].
  destruct (IH _ _ _ H) as (name & -> & F). exists (c :: name). split; [reflexivity|]. constructor; [exact E|exact F].
Qed.

Lemma scheme_start_inv : forall s x rest, scheme_start_state s = Some (x, rest) ->
  exists c name, s = c :: name ++ 58 :: rest /\ alpha c = true /\ Forall (fun b => scheme_char b = true) name.
Proof.
  intros [|c s] x rest H; [discriminate|]. cbn [scheme_start_state] in H.
  destruct (ascii_alpha c) eqn:E; [|discriminate]. apply scheme_state_inv in H as (name & Es & F).
  destruct name as [|c' name]; [injection Es as -> _; discriminate|]. injection Es as <- ->.
  inversion F as [|? ? _ F']; subst. eauto.
Qed.

Lemma split_scheme_colon : forall c name rest sl q, alpha c = true -> Forall (fun b => scheme_char b = true) name ->
  span is_slash rest = (sl, q) ->
  split_scheme (c :: name ++ 58 :: rest)
  = if (2 <=? length sl)%nat then (c :: name ++ 58 :: sl, q) else ([], c :: name ++ 58 :: rest).
Proof.
  intros c name rest sl q Hc Hn Hs. unfold split_scheme, scheme_body. rewrite Hc.
  assert (E : span scheme_char (name ++ 58 :: rest) = (name, 58 :: rest)) by (apply span_spec; repeat split; auto).
  rewrite E. change (58 =? 58) with true. cbn iota. rewrite Hs.
  destruct (2 <=? length sl)%nat; [|reflexivity]. cbn [app]. rewrite <- app_assoc. reflexivity.
Qed.

Lemma ignore_slashes_span : forall s sl q, span is_slash s = (sl, q) -> ignore_slashes s = q.
Proof.
  induction s as [|b s IH]; intros sl q H; cbn [span] in H; [injection H as _ <-; reflexivity|].
  cbn [ignore_slashes]. change (memN b (str "/\")) with (is_slash b). destruct (is_slash b).
  - destruct (span is_slash s) as [sl' q']. injection H as _ <-. eapply IH. reflexivity.
  - injection H as _ <-. reflexivity.
Qed.

Lemma filter_all : forall (u : bytes), (forall b, In b u -> tab_or_newline b = false) ->
  filter (fun b => negb (tab_or_newline b)) u = u.
Proof.
  induction u as [|b u IH]; intros H; [reflexivity|]. cbn [filter]. rewrite (H b) by (left; reflexivity).
  cbn [negb]. rewrite IH; [reflexivity|]. intros x Hx. apply H. right. exact Hx.
Qed.

Lemma c0_good : good_set c0_or_space.
Proof. unfold good_set, c0_or_space. repeat (apply Forall_cons || apply Forall_nil); unfold valid_rune, rune_error; lia. Qed.

Lemma c88_all : forall ext t p r u d, extract ext t p = Ret (r, None) ->
  trimmed ws_chars (p_url p) u -> trimmed c0_or_space (p_url p) u ->
  (forall b, In b u -> tab_or_newline b = false) -> browser (p_url p) d ->
  exists raw, host_in_url ext p r raw /\
  ((d_host d = raw /\ d_port d = r_port r /\ d_rest d = r_path r
      /\ (r_scheme r <> [] -> user_of (d_user d) = r_user_info r))
   \/ (r_scheme r = [] /\ r_user_info r = [] /\ u = raw ++ str ":" ++ r_port r ++ r_path r
       /\ d_host d = r_port r /\ d_port d = [])).
Proof.
  intros ext t p r u d H T T0 NT (u' & T' & B).
  assert (u' = u) as -> by (eapply trimmed_unique; [apply c0_good|exact T'|exact T0]). clear T' T0.
  rewrite filter_all in B by exact NT. clear NT.
  destruct (accepted_shape _ _ _ _ H) as (user & raw & after & port & path & F & A & Hok & E1 & E2 & E3 & Hh & Ht).
  exists raw. split; [exact Hh|]. destruct F as (u' & s & T' & S & U).
  assert (u' = u) as -> by (eapply trimmed_unique; [apply ws_good|exact T'|exact T]). clear T' T.
  unfold basic_url_parser in B. destruct (scheme_start_state u) as [[x rest]|] eqn:Es; [|discriminate].
  destruct (existsb (bytes_eqb x) special_schemes); [|discriminate].
  change (divide (ignore_slashes rest) = Some d) in B.
  apply scheme_start_inv in Es as (c & name & -> & Hc & Hn).
  destruct (span is_slash rest) as [sl q] eqn:Esl. rewrite (ignore_slashes_span _ _ _ Esl) in B.
  apply scheme_split_iff in S. rewrite (split_scheme_colon _ _ _ _ _ Hc Hn Esl) in S.
  assert (N64 : ~ In 64 raw).
  { destruct Ht as [(a & -> & L)|Hp]; [|eapply plain_no_at; eauto]. apply literal_chars in L. intros Hi.
    apply in_app_or in Hi as [Hi|Hi]; [cbn in Hi; intuition congruence|].
    apply in_app_or in Hi as [Hi|Hi]; [|cbn in Hi; intuition congruence].
    rewrite Forall_forall in L. apply (literal_char_plain 64 (L _ Hi)). reflexivity. }
  destruct (user_no_path _ _ _ U) as (Eu & Fu).
  assert (Hu : no_path_char (user_of user)) by (eapply Forall_impl; [|exact Fu]; cbv beta; tauto).
  destruct (2 <=? length sl)%nat eqn:L2; injection S as S1 S2.
  - subst q. rewrite Eu in B. destruct (divide_app _ _ _ _ _ _ Hu Ht N64 A Hok B) as (_ & ->).
    left. cbn [d_host d_port d_rest d_user]. auto.
  - subst s. rewrite E1, E2, E3, <- S1.
    assert (Hcn : Forall (fun b => scheme_char b = true) (c :: name)).
    { constructor; [unfold scheme_char; rewrite Hc; reflexivity|exact Hn]. }
    rewrite app_comm_cons in Eu. destruct user as [us|].
    + left. cbn [user_at user_of] in Eu, Hu. rewrite <- app_assoc in Eu.
      destruct (free_prefix (fun b => b = 64) _ _ _ _ Eu) as (z & ->).
      { eapply Forall_impl; [|exact Hcn]. intros b Hb ->. discriminate. }
      { reflexivity. }
      rewrite <- app_assoc in Eu. apply app_inv_head in Eu. destruct z as [|b z]; [discriminate|].
      injection Eu as <- ->. unfold no_path_char in Hu. apply Forall_app in Hu as (_ & Hu).
      inversion Hu as [|? ? _ Hz]; subst.
      assert (q = z ++ str "@" ++ raw ++ after) as ->.
      { destruct z as [|b z]; cbn [app str] in Esl |- *; cbn [span] in Esl.
        - change (is_slash 64) with false in Esl. injection Esl as _ <-. reflexivity.
        - inversion Hz as [|? ? Hb _]; subst. replace (is_slash b) with false in Esl; [injection Esl as _ <-; reflexivity|].
          symmetry. apply not_true_iff_false. intros Hs. apply Hb. apply slash_iff in Hs. unfold path_char, slash in *.
          cbn in *. tauto. }
      destruct (divide_app (Some z) raw after port (r_path r) d Hz Ht N64 A Hok) as (_ & ->).
      { cbn [user_at]. rewrite <- app_assoc. exact B. }
      cbn [d_host d_port d_rest]. repeat split; auto. intros X. destruct (X eq_refl).
    + right. cbn [user_at user_of app] in Eu |- *. split; [reflexivity|]. split; [reflexivity|].
      destruct Ht as [(a & -> & _)|Hp]; [injection Eu as -> _; discriminate|].
      destruct (free_split (fun b => path_char b \/ b = 58) (c :: name) (58 :: rest) raw after Eu) as (<- & <-).
      { eapply Forall_impl; [|exact Hcn]. intros b Hb [Hx| ->]; [|discriminate]. unfold path_char in Hx. cbn in Hx.
        destruct Hx as [<-|[<-|[<-|[<-|[]]]]]; discriminate. }
      { eapply Forall_impl; [|exact Hp]. cbv beta. tauto. }
      { right. reflexivity. }
      { eapply after_host_starts. exact A. }
      destruct A as (Hpath & A). destruct port as [pp|].
      2: { subst path. cbn in Hpath. intuition congruence. }
      destruct A as (A & _). injection A as ->. cbn [port_of port_accepted] in *.
      pose proof (port_chars pp Hok) as Cp.
      assert (q = pp ++ path) as ->.
      { destruct pp as [|b pp]; [destruct Hok as (sg & ds & Ed & Nd & _); destruct sg; [destruct ds; [contradiction|]|]; discriminate|].
        inversion Cp as [|? ? (Hb & _) _]; subst. cbn [app span] in Esl.
        replace (is_slash b) with false in Esl; [injection Esl as _ <-; reflexivity|].
        symmetry. apply not_true_iff_false. intros Hs. apply Hb. apply slash_iff in Hs. unfold path_char, slash in *.
        cbn in *. tauto. }
      destruct (divide_app None pp path None path d) as (_ & ->); auto.
      * right. eapply Forall_impl; [|exact Cp]. cbv beta. tauto.
      * intros Hi. rewrite Forall_forall in Cp. destruct (Cp 64 Hi) as (_ & X & _). apply X. reflexivity.
      * split; [exact Hpath|reflexivity].
      * exact I.
Qed.

Lemma c88 : forall ext t p r u d, extract ext t p = Ret (r, None) -> r_scheme r <> [] ->
  trimmed ws_chars (p_url p) u -> trimmed c0_or_space (p_url p) u ->
  (forall b, In b u -> tab_or_newline b = false) -> browser (p_url p) d ->
  host_in_url ext p r (d_host d) /\ d_port d = r_port r /\ d_rest d = r_path r
  /\ user_of (d_user d) = r_user_info r.
Proof.
  intros ext t p r u d H Hs T T0 NT B.
  destruct (c88_all _ _ _ _ _ _ H T T0 NT B) as (raw & Hh & [(<- & E1 & E2 & E3)|(E & _)]); [auto|contradiction].
Qed.

(** ** net/url *)

Lemma cut_before_spec : forall c s, exists q, s = cut_before c s ++ q /\ ~ In c (cut_before c s)
  /\ starts_with (fun b => b = c) q.
Proof.
  intros c. induction s as [|b s IH]; [exists []; cbn; auto|]. cbn [cut_before].
  destruct (N.eqb_spec b c) as [->|Hb].
  - exists (c :: s). cbn. auto.
  - destruct IH as (q & E & Hi & S). exists q. cbn [app In]. split; [f_equal; exact E|]. split; [tauto|exact S].
Qed.

Lemma cut_last_none : forall c s, cut_last c s = None <-> ~ In c s.
Proof.
  intros c. induction s as [|b s IH]; cbn [cut_last In]; [tauto|].
  destruct (cut_last c s) as [[x y]|] eqn:E.
  - split; [discriminate|]. intros H. exfalso. assert (X : ~ In c s) by tauto. apply IH in X. discriminate.
  - destruct (N.eqb_spec b c) as [->|Hb]; [split; [discriminate|tauto]|]. split; [|auto].
    intros _ [X|X]; [contradiction|]. apply (proj1 IH eq_refl X).
Qed.

Lemma cut_last_app : forall c x z, ~ In c z -> cut_last c (x ++ c :: z) = Some (x, c :: z).
Proof.
  intros c x z Hz. induction x as [|b x IH]; cbn [app cut_last].
  - apply cut_last_none in Hz. rewrite Hz, N.eqb_refl. reflexivity.
  - rewrite IH. reflexivity.
Qed.

Lemma cut_last_some : forall c s x y, cut_last c s = Some (x, y) -> exists z, y = c :: z /\ s = x ++ c :: z /\ ~ In c z.
Proof.
  intros c. induction s as [|b s IH]; intros x y H; cbn [cut_last] in H; [discriminate|].
  destruct (cut_last c s) as [[x' y']|] eqn:E.
  - injection H as <- <-. destruct (IH _ _ eq_refl) as (z & -> & -> & Hz). exists z. auto.
  - destruct (N.eqb_spec b c) as [->|Hb]; [|discriminate]. injection H as <- <-. exists s.
    repeat split; auto. apply cut_last_none. exact E.
Qed.

Lemma get_scheme_loop_inv : forall rest s first raw x q, get_scheme_loop s rest first raw = Some (x, q) ->
  raw = s ++ rest ->
  (first = true -> s = []) ->
  (first = false -> exists c name, s = c :: name /\ alpha c = true /\ Forall (fun b => scheme_char b = true) name) ->
  (x = [] /\ q = raw)
  \/ (exists c name, x = c :: name /\ raw = c :: name ++ 58 :: q /\ alpha c = true
      /\ Forall (fun b => scheme_char b = true) name).
Proof.
  induction rest as [|b rest IH]; intros s first raw x q H E F1 F2; cbn [get_scheme_loop] in H.
  - injection H as <- <-. auto.
  - destruct (ascii_alpha b) eqn:Ea.
    + apply (IH _ _ _ _ _ H); [rewrite <- app_assoc; exact E|discriminate|]. intros _. destruct first.
      * rewrite (F1 eq_refl). exists b, []. auto.
      * destruct (F2 eq_refl) as (c & name & -> & Hc & Hn). exists c, (name ++ [b]). split; [reflexivity|].
        split; [exact Hc|]. apply Forall_app. split; [exact Hn|]. repeat constructor. unfold scheme_char.
        rewrite ascii_alpha_eq in Ea. rewrite Ea. reflexivity.
    + destruct (is_digit b || memN b (str "+-.")) eqn:Eb.
      * destruct first; [injection H as <- <-; auto|].
        apply (IH _ _ _ _ _ H); [rewrite <- app_assoc; exact E|discriminate|]. intros _.
        destruct (F2 eq_refl) as (c & name & -> & Hc & Hn). exists c, (name ++ [b]). split; [reflexivity|].
        split; [exact Hc|]. apply Forall_app. split; [exact Hn|]. repeat constructor. unfold scheme_char.
        rewrite <- orb_assoc, Eb. apply orb_true_r.
      * destruct (N.eqb_spec b 58) as [->|Hb].
        -- destruct first; [discriminate|]. injection H as <- <-. right.
           destruct (F2 eq_refl) as (c & name & -> & Hc & Hn). exists c, name. auto.
        -- injection H as <- <-. auto.
Qed.

Lemma get_scheme_inv : forall raw x q, get_scheme raw = Some (x, q) ->
  (x = [] /\ q = raw)
  \/ (exists c name, x = c :: name /\ raw = c :: name ++ 58 :: q /\ alpha c = true
      /\ Forall (fun b => scheme_char b = true) name).
Proof.
  intros raw x q H. apply (get_scheme_loop_inv _ _ _ _ _ _ H); [reflexivity|reflexivity|discriminate].
Qed.

Lemma user_split_auth : forall us hp q, is_path q -> no_path_char hp -> ~ In 64 hp ->
  Forall (fun b => ~ path_char b /\ ~ bracket b) (user_of us) -> user_split (user_at us ++ hp ++ q) us (hp ++ q).
Proof.
  intros us hp q Hq Hh H64 Hu.
  destruct (span (fun b => negb (is_path_char b || is_bracket b)) (hp ++ q)) as [v w] eqn:E.
  apply span_spec in E as (E & Fv & Sw).
  assert (Fv' : Forall (fun b => ~ path_char b /\ ~ bracket b) v).
  { eapply Forall_impl; [|exact Fv]. intros b. apply user_stop_true. }
  assert (Sw' : starts_with (fun b => path_char b \/ bracket b) w).
  { destruct w as [|b w]; [exact I|]. apply user_stop_false. exact Sw. }
  assert (Hv : ~ In 64 v).
  { destruct (free_prefix path_char v w hp q (eq_sym E)) as (z & ->); [eapply Forall_impl; [|exact Fv']; cbv beta; tauto|exact Hq|].
    intros Hi. apply H64, in_or_app. auto. }
  destruct us as [u|]; cbn [user_at user_of] in *.
  - exists (u ++ str "@" ++ v), w. rewrite E, <- !app_assoc. split; [reflexivity|]. split.
    + rewrite !Forall_app. repeat split; auto. constructor; [|constructor]. split; cbn; intuition congruence.
    + split; [exact Sw'|]. exists v. auto.
  - exists v, w. cbn [app]. auto.
Qed.

Lemma host_part : forall raw after port path hp q, host_text raw -> after_host after port path -> port_accepted port ->
  raw ++ after = hp ++ q -> no_path_char hp -> is_path q ->
  hp = raw ++ match port with Some p => 58 :: p | None => [] end.
Proof.
  intros raw after port path hp q Ht (Hp & A) Hok E Hh Hq.
  assert (E' : (raw ++ match port with Some p => 58 :: p | None => [] end) ++ path = hp ++ q).
  { rewrite <- E, <- app_assoc. f_equal. destruct port as [p|]; [destruct A as (-> & _); reflexivity|subst; reflexivity]. }
  apply (free_split path_char) in E' as (<- & _); auto. apply Forall_app. split.
  - destruct Ht as [(a & -> & L)|Hpl]; [|eapply Forall_impl; [|exact Hpl]; cbv beta; tauto].
    rewrite !Forall_app. apply literal_chars in L. split; [constructor; [cbn; intuition congruence|constructor]|].
    split; [|constructor; [cbn; intuition congruence|constructor]].
    eapply Forall_impl; [|exact L]. intros b Hb. apply literal_char_plain in Hb. tauto.
  - destruct port as [p|]; [|constructor]. constructor; [cbn; intuition congruence|].
    apply port_chars in Hok. eapply Forall_impl; [|exact Hok]. cbv beta. tauto.
Qed.

Lemma parse_host_of : forall raw port h prt, host_text raw -> port_accepted port ->
  parse_host (raw ++ match port with Some p => 58 :: p | None => [] end) = Some (h, prt) ->
  h = raw /\ prt = port_of port.
Proof.
  intros raw port h prt Ht Hok H. unfold parse_host in H.
  set (hp := raw ++ match port with Some p => 58 :: p | None => [] end) in *.
  destruct (forallb host_byte hp); [|discriminate]. destruct Ht as [(a & Ea & L)|Hp].
  - replace (has_prefix hp (str "[")) with true in H.
    2: { symmetry. apply has_prefix_spec. unfold hp. rewrite Ea, <- !app_assoc. eauto. }
    assert (E : cut_last 93 hp = Some (str "[" ++ a, 93 :: match port with Some p => 58 :: p | None => [] end)).
    { rewrite <- cut_last_app.
      - f_equal. unfold hp. rewrite Ea, <- !app_assoc. reflexivity.
      - destruct port as [p|]; [|intros []]. intros [X|X]; [discriminate|]. apply port_chars in Hok.
        rewrite Forall_forall in Hok. destruct (Hok _ X) as (_ & _ & _ & Hb). apply Hb. cbn. auto. }
    rewrite E in H. destruct (valid_optional_port _) in H; [|discriminate]. injection H as <- <-.
    split; [rewrite Ea; reflexivity|]. destruct port; reflexivity.
  - replace (has_prefix hp (str "[")) with false in H.
    2: { symmetry. apply not_true_iff_false. intros X. apply has_prefix_spec in X as (z & X). unfold hp in X.
         destruct raw as [|b raw]; [destruct port; discriminate|]. injection X as -> _.
         inversion Hp as [|? ? (_ & Hb & _) _]; subst. apply Hb. cbn. auto. }
    assert (N58 : ~ In 58 raw).
    { intros X. unfold plain_host in Hp. rewrite Forall_forall in Hp. destruct (Hp _ X) as (_ & _ & Y). auto. }
    destruct port as [p|].
    + unfold hp in H. rewrite cut_last_app in H.
      2: { intros X. apply port_chars in Hok. rewrite Forall_forall in Hok. destruct (Hok _ X) as (_ & _ & Hb & _). auto. }
      destruct (valid_optional_port _) in H; [|discriminate]. injection H as <- <-. auto.
    + unfold hp in H. rewrite app_nil_r in H. apply cut_last_none in N58. rewrite N58 in H. injection H as <- <-. auto.
Qed.

Lemma valid_user_chars : forall u, valid_user_info u = true -> Forall (fun b => ~ path_char b /\ ~ bracket b) u.
Proof.
  intros u H. unfold valid_user_info in H. rewrite forallb_forall in H. apply Forall_forall. intros b Hb.
  specialize (H b Hb). unfold path_char, bracket. cbn.
  split; [intros [<-|[<-|[<-|[<-|[]]]]]|intros [<-|[<-|[]]]]; discriminate.
Qed.

Lemma parse_host_no_backslash : forall h x, parse_host h = Some x -> ~ In 92 h.
Proof.
  intros h x H Hi. unfold parse_host in H. destruct (forallb host_byte h) eqn:E; [|discriminate].
  rewrite forallb_forall in E. specialize (E 92 Hi). discriminate.
Qed.

Lemma no_path_of : forall s, ~ In 47 s -> ~ In 92 s -> ~ In 63 s -> ~ In 35 s -> no_path_char s.
Proof.
  intros s A B C D. apply Forall_forall. intros b Hb [X|[X|[X|[X|[]]]]]; cbn in X; subst b; auto.
Qed.

Lemma has_prefix_2 : forall s, has_prefix s (str "//") = true -> s = 47 :: 47 :: skipn 2 s.
Proof. intros s H. apply has_prefix_spec in H as (z & ->). reflexivity. Qed.

(** The authority, and what net/url does with it. *)
Lemma url_parse_inv : forall url d, url_parse url = Some d -> exists pre us hp q,
  url = pre ++ 47 :: 47 :: (user_at us ++ hp) ++ q
  /\ (pre = [] \/ exists c name, pre = c :: name ++ [58] /\ alpha c = true /\ Forall (fun b => scheme_char b = true) name)
  /\ Forall (fun b => ~ path_char b /\ ~ bracket b) (user_of us) /\ no_path_char hp /\ ~ In 64 hp /\ is_path q
  /\ parse_host hp = Some (d_host d, d_port d) /\ d_user d = us.
Proof.
  intros url d H. unfold url_parse in H. destruct (cut_before_spec 35 url) as (f & Ef & N35 & Sf).
  set (raw := cut_before 35 url) in *. destruct (existsb _ raw); [discriminate|].
  destruct (get_scheme raw) as [[x rest0]|] eqn:Eg; [|discriminate].
  destruct (cut_before_spec 63 rest0) as (g & Eg' & N63 & Sg). set (rest := cut_before 63 rest0) in *.
  destruct (has_prefix rest (str "//") && _) eqn:Ep; [|discriminate]. apply andb_true_iff in Ep as (Ep & _).
  apply has_prefix_2 in Ep. set (body := skipn 2 rest) in *.
  destruct (cut_before_spec 47 body) as (k & Ek & N47 & Sk). set (auth := cut_before 47 body) in *.
  assert (M63 : ~ In 63 auth).
  { intros X. apply N63. rewrite Ep, Ek. right. right. apply in_or_app. auto. }
  assert (M35 : ~ In 35 auth).
  { intros X. apply N35.
    assert (In 35 rest0) by (rewrite Eg', Ep, Ek; right; right; rewrite <- app_assoc; apply in_or_app; auto).
    destruct (get_scheme_inv _ _ _ Eg) as [(_ & <-)|(c & name & _ & -> & _)]; [assumption|].
    right. apply in_or_app. right. right. assumption. }
  assert (Q : is_path (k ++ g ++ f)).
  { destruct k as [|b k]; [|cbn in Sk; subst b; cbn; auto]. destruct g as [|b g]; [|cbn in Sg; subst b; cbn; auto].
    destruct f as [|b f]; [exact I|cbn in Sf; subst b; cbn; auto]. }
  assert (P : exists pre, url = pre ++ 47 :: 47 :: auth ++ k ++ g ++ f
    /\ (pre = [] \/ exists c name, pre = c :: name ++ [58] /\ alpha c = true /\ Forall (fun b => scheme_char b = true) name)).
  { assert (E0 : rest0 ++ f = 47 :: 47 :: auth ++ k ++ g ++ f).
    { rewrite Eg', Ep, Ek. cbn [app]. rewrite <- !app_assoc. reflexivity. }
    destruct (get_scheme_inv _ _ _ Eg) as [(_ & E)|(c & name & _ & E & Hc & Hn)].
    - exists []. split; [rewrite Ef, <- E; exact E0|auto].
    - exists (c :: name ++ [58]). split; [|eauto 6]. rewrite Ef, E. cbn [app]. rewrite <- !app_assoc. cbn [app].
      rewrite E0. reflexivity. }
  destruct P as (pre & Eu & Hpre). exists pre.
  destruct (cut_last 64 auth) as [[us y]|] eqn:Ec.
  - apply cut_last_some in Ec as (hp & -> & Ea & N64). cbn [tl] in H.
    destruct (parse_host hp) as [[h port]|] eqn:Eh; [|discriminate].
    destruct (valid_user_info us) eqn:Ev; [|discriminate]. injection H as <-.
    exists (Some us), hp, (k ++ g ++ f). cbn [user_at user_of d_host d_port d_user].
    assert (Ea' : (us ++ str "@") ++ hp = auth) by (rewrite Ea, <- app_assoc; reflexivity). rewrite Ea'.
    repeat (split; [first [assumption|apply valid_user_chars; assumption|idtac]|]); auto.
    rewrite Ea in N47, M63, M35.
    apply no_path_of; [| eapply parse_host_no_backslash; eauto| |]; intros X;
      [apply N47|apply M63|apply M35]; apply in_or_app; right; right; exact X.
  - apply cut_last_none in Ec. destruct (parse_host auth) as [[h port]|] eqn:Eh; [|discriminate]. injection H as <-.
    exists None, auth, (k ++ g ++ f). cbn [user_at user_of d_host d_port d_user app].
    repeat (split; [first [assumption|constructor|idtac]|]); auto.
    apply no_path_of; auto. eapply parse_host_no_backslash; eauto.
Qed.

Lemma c89 : forall ext t p r d, extract ext t p = Ret (r, None) -> trimmed ws_chars (p_url p) (p_url p) ->
  url_parse (p_url p) = Some d -> d_host d <> [] ->
  host_in_url ext p r (d_host d) /\ d_port d = r_port r /\ user_of (d_user d) = r_user_info r.
Proof.
  intros ext t p r d H T P Hne.
  destruct (accepted_shape _ _ _ _ H) as (user & raw & after & port & path & F & A & Hok & E1 & E2 & E3 & Hh & Ht).
  destruct F as (u' & s & T' & S & U).
  assert (u' = p_url p) as -> by (eapply trimmed_unique; [apply ws_good|exact T'|exact T]). clear T' T.
  destruct (url_parse_inv _ _ P) as (pre & us & hp & q & Eu & Hpre & Fus & Nhp & N64 & Hq & Eh & Ed).
  assert (Hhp : hp <> []) by (intros ->; injection Eh as E _; auto).
  assert (Es : s = user_at us ++ hp ++ q).
  { apply scheme_split_iff in S.
    assert (Esp : span is_slash (47 :: 47 :: (user_at us ++ hp) ++ q) = ([47; 47], user_at us ++ hp ++ q)).
    { apply span_spec. rewrite <- app_assoc. split; [reflexivity|]. split; [repeat constructor|].
      assert (Hx : no_path_char (user_at us ++ hp)).
      { apply Forall_app. split; [|exact Nhp]. destruct us as [u|]; [|constructor]. cbn [user_at user_of] in *.
        apply Forall_app. split; [eapply Forall_impl; [|exact Fus]; cbv beta; tauto|].
        constructor; [cbn; intuition congruence|constructor]. }
      rewrite app_assoc. destruct (user_at us ++ hp) as [|b z] eqn:Ez.
      - apply app_eq_nil in Ez as (_ & ->). contradiction.
      - cbn [app no_head]. inversion Hx as [|? ? Hb _]; subst. apply not_true_iff_false. intros Y. apply Hb.
        apply slash_iff in Y. unfold slash, path_char in *. cbn in *. tauto. }
    destruct Hpre as [->|(c & name & -> & Hc & Hn)].
    - rewrite Eu in S. cbn [app] in S. unfold split_scheme in S. cbn [scheme_body] in S.
      change (alpha 47) with false in S. cbn iota in S. rewrite Esp in S. cbn [length Nat.leb] in S.
      injection S as _ <-. reflexivity.
    - rewrite Eu in S. cbn [app] in S. rewrite <- app_assoc in S. cbn [app] in S.
      rewrite (split_scheme_colon _ _ _ _ _ Hc Hn Esp) in S. cbn [length Nat.leb] in S. injection S as _ <-. reflexivity. }
  subst s.
  assert (U' := user_split_auth us hp q Hq Nhp N64 Fus).
  apply user_split_iff in U. apply user_split_iff in U'. rewrite U' in U. injection U as <- Er.
  pose proof (host_part raw after port path hp q Ht A Hok (eq_sym Er) Nhp Hq) as ->.
  apply parse_host_of in Eh as (X & Y); auto. rewrite X, Y, Ed, E1, E2. auto.
Qed.
