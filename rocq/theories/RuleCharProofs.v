(** RuleCharProofs.v - proofs of the properties stated in PropRuleChars.v. *)

From Verif Require Import Base BaseFacts Utf8 Utf8Facts Chars Str StrFacts Net Trie Extract Host HostFacts
  Walk WalkFacts Addr NetFacts Parse ParseFacts UrlSpec UrlFacts ExtractFacts OutcomeFacts Rfc RuleSpec TrieFacts
  UrlProofs CharProofs RuleProofs HostProofs ErrSpec InvalidProofs ErrProofs CompleteProofs ExactSpec ExactProofs
  PslProofs VariantProofs BrowserSpec BrowserProofs.
From Coq Require Import ZifyBool ZifyNat ZifyN.
Local Open Scope N_scope.

(** ** C90 *)

Lemma c90 : forall ext rules t p r scheme user raw h port path first zs segs c i, build_trie rules = Ret t ->
  extract ext t p = Ret (r, None) -> r_host_type r = HHostName ->
  url_parts ext p scheme user raw h port path -> labelled h first zs segs ->
  seen_char c -> (i <= length segs)%nat -> has_char c (nth i (labels first segs) []) ->
  known rules (reach (labels first segs) (S i)) = true
  /\ forall j, (j <= i)%nat -> known rules (reach (labels first segs) j ++ [str "*"]) = false.
Proof.
  intros ext rules t p r sc us raw h po pa first zs segs c i B H T U L (Hc & N1 & N2 & N3) Li Hi.
  destruct (host_name _ _ _ _ H T) as (sc' & us' & raw' & h' & po' & pa' & f' & z' & s' & k & U' & _ & _ & L' & Hw & Hok & Hs & Hiv & Dn & Er).
  destruct (parts_unique _ _ _ _ _ _ _ _ _ _ _ _ _ _ U U') as (<- & <- & <- & <- & <- & <-).
  destruct (stripped_unique _ _ _ _ _ _ _ L L') as (<- & <- & <-). clear U' L'.
  pose proof (counts_looked t rules first segs (build_trie_represents _ _ B)) as K. rewrite Hw in K. destruct K as (_ & M & St).
  unfold checked_text in Hiv. pose proof (checked_no_forbidden _ c Hiv Hc N1 N2 N3) as X.
  pose proof L as (_ & W & _). apply well_split_app in W.
  set (n := if c_has k then c_start k else c_prev k) in *.
  assert (Ln : (i < n)%nat).
  { destruct (Nat.lt_ge_cases i n) as [G|G]; [exact G|]. exfalso. apply X.
    apply (char_label c Hc); [apply skipn_split; exact W|]. exists (i - n)%nat.
    rewrite labels_skip by lia. rewrite skipn_length. split; [lia|]. replace (n + (i - n))%nat with i by lia. exact Hi. }
  destruct M as ((_ & M) & _).
  assert (Below : (i < c_prev k)%nat -> known rules (reach (labels first segs) (S i)) = true
    /\ forall j, (j <= i)%nat -> known rules (reach (labels first segs) j ++ [str "*"]) = false).
  { intros Lp. split.
    - destruct (M i Lp) as (_ & x & Kx). eapply known_prefix. exact Kx.
    - intros j Lj. apply (M j). lia. }
  unfold n in Ln. destruct (c_has k); [|apply Below; exact Ln]. rewrite St in Ln.
  destruct (known rules (reach (labels first segs) (c_prev k) ++ [str "*"])) eqn:Kw; [apply Below; exact Ln|].
  destruct (known rules (reach (labels first segs) (S (c_prev k)))) eqn:Ks; [|apply Below; exact Ln].
  destruct (Nat.eq_dec i (c_prev k)) as [->|Ne]; [|apply Below; lia].
  split; [exact Ks|]. intros j Lj. destruct (Nat.eq_dec j (c_prev k)) as [->|]; [exact Kw|]. apply (M j). lia.
Qed.

(** ** Bytes of rules *)

Lemma path_from_in : forall (rule : bytes) done cur l b, In l (path_from done cur rule) -> In b l ->
  In b rule \/ In b cur \/ exists l', In l' done /\ In b l'.
Proof.
  induction rule as [|x rule IH]; intros done cur l b Hl Hb; cbn [path_from] in Hl.
  - destruct Hl as [<-|Hl]; eauto.
  - destruct (x =? 46).
    + destruct (IH _ _ _ _ Hl Hb) as [A|[[]|(l' & [<-|Hl'] & A)]]; [left; right; exact A|auto|]. eauto.
    + destruct (IH _ _ _ _ Hl Hb) as [A|[A|A]]; [left; right; exact A| |auto].
      apply in_app_or in A as [A|[->|[]]]; [auto|left; left; reflexivity].
Qed.
Lemma rule_path_in : forall (rule l : bytes) b, In l (rule_path rule) -> In b l -> In b rule.
Proof.
  intros rule l b Hl Hb. destruct (path_from_in rule [] [] l b Hl Hb) as [A|[[]|(l' & [] & _)]]. exact A.
Qed.

(** Bytes that decoding keeps. *)
Lemma hex_ge : forall x, is_hex x = true -> 48 <= x.
Proof. intros x H. unfold is_hex, is_digit in H. lia. Qed.
Lemma pct_in : forall n (s d : bytes) b, (length s <= n)%nat -> pct s = Some d -> In b s -> b < 37 -> In b d.
Proof.
  induction n as [|n IH]; intros s d b L E Hb Lb; (destruct s as [|x s]; [destruct Hb|]); cbn [length] in L; [lia|].
  cbn [pct] in E. destruct (N.eqb_spec x 37) as [->|Nx].
  - destruct s as [|u [|v s]]; [discriminate|discriminate|].
    destruct (is_hex u && is_hex v) eqn:Eh; [|discriminate]. apply andb_true_iff in Eh as (Hu & Hv).
    apply hex_ge in Hu. apply hex_ge in Hv. destruct (pct s) as [d'|] eqn:Ed; [|discriminate]. injection E as <-.
    right. cbn [length] in L. apply (IH s d' b); [lia|exact Ed| |exact Lb].
    destruct Hb as [<-|[<-|[<-|Hb]]]; [lia|lia|lia|exact Hb].
  - destruct (pct s) as [d'|] eqn:Ed; [|discriminate]. injection E as <-.
    destruct Hb as [<-|Hb]; [left; destruct (N.eqb_spec x 43); [lia|reflexivity]|].
    right. apply (IH s d' b); [lia|exact Ed|exact Hb|exact Lb].
Qed.

Lemma pct_labels : forall segs first d, well_split first segs -> pct (host first segs) = Some d ->
  forall l, In l (labels first segs) -> exists d', pct l = Some d'.
Proof.
  induction segs as [|[l s] segs IH]; intros first d (A & W) E x Hx.
  - cbn [labels map app] in Hx. destruct Hx as [<-|[]]. cbn [host] in E. eauto.
  - inversion W as [|? ? (W1 & W2) W3]; subst. cbn [fst snd] in W1, W2. cbn [host] in E.
    rewrite pct_label in E by exact W2. unfold both in E.
    destruct (pct (host first segs)) as [d1|] eqn:E1; [|discriminate].
    unfold labels in Hx. cbn [map fst app] in Hx. destruct Hx as [<-|Hx]; [destruct (pct l); [eauto|discriminate]|].
    apply (IH first d1 (conj A W3) E1 x Hx).
Qed.

(** A byte below '%' that is forbidden occurs in an accepted host name only if it occurs in a rule. *)
Lemma c90_byte : forall ext rules t p r scheme user raw h port path b, build_trie rules = Ret t ->
  extract ext t p = Ret (r, None) -> r_host_type r = HHostName -> p_to_punycode p = false ->
  url_parts ext p scheme user raw h port path -> seen_char b -> b < 37 -> In b raw ->
  exists rule, In rule rules /\ In b rule.
Proof.
  intros ext rules t p r sc us raw h po pa b B H T Pf U Hc Lb Hb.
  destruct (host_name _ _ _ _ H T) as (sc' & us' & raw' & h' & po' & pa' & first & zs & segs & k & U' & _ & _ & L & _).
  destruct (parts_unique _ _ _ _ _ _ _ _ _ _ _ _ _ _ U U') as (<- & <- & <- & <- & <- & <-). clear U'.
  pose proof U as (_ & _ & _ & _ & (d & Hd & C)). rewrite Pf in C. destruct C as (_ & ->).
  pose proof L as (Eh & W & Z & _). destruct Hc as (Hc & Hn). pose proof (conj Hc Hn : seen_char b) as Hs.
  assert (He : encode b = [b]) by (unfold encode; replace (b <? 128) with true by lia; reflexivity).
  assert (Ch : has_char b raw).
  { apply in_split in Hb as (x & y & E). exists x, y. rewrite E, He. reflexivity. }
  rewrite Eh in Ch. apply (char_label b Hc) in Ch as (i & Li & Ch); [|exact W].
  assert (El : labels first (zs ++ segs) = map fst zs ++ labels first segs).
  { unfold labels. rewrite map_app, <- app_assoc. reflexivity. }
  assert (Lz : (length zs <= i)%nat).
  { destruct (Nat.le_gt_cases (length zs) i) as [G|G]; [exact G|]. exfalso. rewrite El in Ch.
    rewrite app_nth1 in Ch by (rewrite map_length; exact G). change [] with (fst (([], []) : seg)) in Ch.
    rewrite map_nth in Ch. rewrite Forall_forall in Z. rewrite (Z _ (nth_In _ _ G)) in Ch. revert Ch. apply no_sub_char. exact Hc. }
  rewrite El, app_nth2, map_length in Ch by (rewrite map_length; exact Lz). rewrite app_length in Li.
  assert (X : exists j, (j <= length segs)%nat /\ has_char b (nth j (labels first segs) [])).
  { eexists. split; [|exact Ch]. unfold seg in *. lia. }
  clear i Li Ch Lz. destruct X as (j & Lj & Ch).
  destruct (c90 _ _ _ _ _ _ _ _ _ _ _ _ _ _ _ j B H T U L Hs Lj Ch) as (K & _).
  assert (Hl : In (nth j (labels first segs) []) (labels first segs)).
  { apply nth_In. rewrite labels_length. lia. }
  assert (Dl : exists d', pct (nth j (labels first segs) []) = Some d').
  { apply pct_iff in Hd. rewrite Eh in Hd. apply (pct_labels _ _ _ W Hd). rewrite El. apply in_or_app. right. exact Hl. }
  destruct Dl as (d' & Dl). apply known_iff in K as (rule & rest & Hr & Er). exists rule. split; [exact Hr|].
  apply (rule_path_in rule (decoded (nth j (labels first segs) []))).
  - rewrite Er. apply in_or_app. left. unfold reach. apply in_map.
    rewrite <- (firstn_skipn (S j) (labels first segs)) at 1. rewrite app_nth1.
    2: { rewrite firstn_length, labels_length. lia. }
    apply nth_In. rewrite firstn_length, labels_length. lia.
  - unfold decoded. rewrite Dl. apply (pct_in _ _ _ b (le_n _) Dl); [|exact Lb].
    destruct Ch as (x & y & ->). rewrite He. apply in_or_app. right. left. reflexivity.
Qed.

(** ** C88 with tabs and newlines *)

Notation strip := (filter (fun b => negb (tab_or_newline b))).

Lemma tab_cases : forall b, tab_or_newline b = true -> b = 9 \/ b = 10 \/ b = 13.
Proof. intros b H. unfold tab_or_newline, memN in H. cbn [existsb] in H. lia. Qed.
Lemma tab_seen : forall b, tab_or_newline b = true -> seen_char b.
Proof.
  intros b H. apply tab_cases in H. unfold seen_char. split; [|lia].
  apply memN_In. destruct H as [->|[->| ->]]; vm_compute; reflexivity.
Qed.

Lemma accepted_no_tab : forall ext rules t p r raw, build_trie rules = Ret t ->
  (forall rule b, In rule rules -> In b rule -> tab_or_newline b = false) ->
  extract ext t p = Ret (r, None) -> p_to_punycode p = false -> host_in_url ext p r raw -> host_text raw ->
  forall b, In b raw -> tab_or_newline b = false.
Proof.
  intros ext rules t p r raw B Nt H Pf Hh Ht b Hb.
  destruct (tab_or_newline b) eqn:E; [|reflexivity]. exfalso. pose proof (tab_cases _ E) as Cb.
  assert (Lit : forall s, Forall literal_char s -> ~ In b s).
  { intros s F Hi. rewrite Forall_forall in F. specialize (F b Hi). unfold literal_char, is_hex, is_digit in F. lia. }
  destruct Hh as [(T & -> & _)|(T & user & h & port & path & U)].
  - destruct Ht as [(a & Ea & L)|Hp].
    + rewrite Ea in Hb. apply in_app_or in Hb as [[<-|[]]|Hb]; [discriminate|].
      apply in_app_or in Hb as [Hb|[<-|[]]]; [|discriminate]. apply literal_chars in L. apply (Lit _ L Hb).
    + unfold plain_host in Hp. inversion Hp as [|? ? (_ & Hk & _) _]; subst. apply Hk. left. reflexivity.
  - destruct (r_host_type r) eqn:Tr; [| |apply (Lit raw); [|exact Hb]|contradiction].
    + destruct (extract_cases _ _ _ _ _ H) as (sc & us & re & F & C).
      destruct C as [(x & X & _)|[(a & af & po & pa & -> & L & A & [(_ & _ & Er)|(_ & X & _)])|(raw' & af & po & pa & -> & Hp & A & Hok & [(x & _ & X & _)|(h' & Cv & O)])]];
        try discriminate; [rewrite Er in Tr; discriminate|].
      destruct (outcome_error _ _ _ _ _ _ _ _ _ _ O) as [(_ & X & _)|[(_ & X & _)|([X|[X|X]] & _)]]; congruence.
    + destruct (c90_byte _ _ _ _ _ _ _ _ _ _ _ b B H Tr Pf U (tab_seen _ E) ltac:(lia) Hb) as (rule & Hr & Hi).
      rewrite (Nt _ _ Hr Hi) in E. discriminate.
    + destruct (c13_only _ _ _ _ _ H Tr) as (_ & sc' & us' & raw' & h' & po' & pa' & U' & _ & V).
      destruct (parts_unique _ _ _ _ _ _ _ _ _ _ _ _ _ _ U U') as (_ & _ & _ & E4 & _ & _). subst h'.
      destruct U as (_ & _ & _ & _ & (d & _ & C)). rewrite Pf in C. destruct C as (_ & ->). apply ipv4_chars. exact V.
Qed.

Lemma strip_app : forall x y : bytes, strip (x ++ y) = strip x ++ strip y.
Proof. intros x y. apply filter_app. Qed.
Lemma strip_forall : forall (P : N -> Prop) x, Forall P x -> Forall P (strip x).
Proof. intros P x H. apply incl_Forall with (1 := incl_filter _ x). exact H. Qed.
Lemma path_no_tab : forall b, path_char b -> tab_or_newline b = false.
Proof. intros b H. unfold path_char in H. cbn in H. destruct H as [<-|[<-|[<-|[<-|[]]]]]; reflexivity. Qed.
Lemma strip_path : forall q, is_path q -> is_path (strip q).
Proof.
  intros [|b q] H; [exact H|]. cbn [is_path starts_with] in H. cbn [filter]. rewrite (path_no_tab b H). exact H.
Qed.

Lemma scheme_no_tab : forall s, is_scheme s -> forall b, In b s -> tab_or_newline b = false.
Proof.
  assert (Nc : forall b, scheme_name_char b -> tab_or_newline b = false).
  { intros b H. destruct (tab_or_newline b) eqn:E; [|reflexivity]. apply tab_cases in E.
    apply scheme_char_iff in H. destruct E as [->|[->| ->]]; discriminate. }
  intros s (body & sl & -> & Hsl & _ & Hb) b Hi. apply in_app_or in Hi as [Hi|Hi].
  - destruct Hb as [->|(c & name & colon & -> & Hc & Hn & Ho)]; [destruct Hi|].
    destruct Hi as [<-|Hi]; [apply Nc; unfold scheme_name_char; auto|].
    apply in_app_or in Hi as [Hi|Hi]; [rewrite Forall_forall in Hn; auto|].
    destruct Ho as [->| ->]; [destruct Hi|]. destruct Hi as [<-|[]]. reflexivity.
  - rewrite Forall_forall in Hsl. apply path_no_tab. specialize (Hsl b Hi). unfold slash, path_char in *. cbn in *. tauto.
Qed.

Lemma ignore_slashes_app : forall sl q, Forall slash sl -> starts_with (fun b => ~ slash b) q ->
  ignore_slashes (sl ++ q) = q.
Proof.
  induction sl as [|b sl IH]; intros q H Hq.
  - destruct q as [|c q]; [reflexivity|]. cbn [app ignore_slashes]. change (memN c (str "/\")) with (is_slash c).
    destruct (is_slash c) eqn:E; [|reflexivity]. apply slash_iff in E. destruct (Hq E).
  - inversion H as [|? ? Hb Hx]; subst. cbn [app ignore_slashes]. change (memN b (str "/\")) with (is_slash b).
    apply slash_iff in Hb. rewrite Hb. apply IH; assumption.
Qed.

Lemma c88_tabs : forall ext rules t p r u d, build_trie rules = Ret t ->
  (forall rule b, In rule rules -> In b rule -> tab_or_newline b = false) ->
  extract ext t p = Ret (r, None) -> p_to_punycode p = false -> r_scheme r <> [] ->
  trimmed ws_chars (p_url p) u -> trimmed c0_or_space (p_url p) u -> browser (p_url p) d ->
  host_in_url ext p r (d_host d) /\ d_port d = r_port r /\ d_rest d = strip (r_path r)
  /\ user_of (d_user d) = strip (r_user_info r).
Proof.
  intros ext rules t p r u d B Nt H Pf Hs T T0 (u' & T' & Bp).
  assert (u' = u) as -> by (eapply trimmed_unique; [apply c0_good|exact T'|exact T0]). clear T' T0.
  destruct (accepted_shape _ _ _ _ H) as (user & raw & after & port & path & F & A & Hok & E1 & E2 & E3 & Hh & Ht).
  pose proof (accepted_no_tab _ _ _ _ _ _ B Nt H Pf Hh Ht) as Nr.
  destruct F as (u' & s & T' & (Eu & Sc & Max) & U).
  assert (u' = u) as -> by (eapply trimmed_unique; [apply ws_good|exact T'|exact T]). clear T' T.
  destruct Sc as [Sc|Sc]; [contradiction|].
  assert (N64 : ~ In 64 raw).
  { destruct Ht as [(a & -> & L)|Hp]; [|eapply plain_no_at; eauto]. apply literal_chars in L. intros Hi.
    apply in_app_or in Hi as [Hi|Hi]; [cbn in Hi; intuition congruence|].
    apply in_app_or in Hi as [Hi|Hi]; [|cbn in Hi; intuition congruence].
    rewrite Forall_forall in L. apply (literal_char_plain 64 (L _ Hi)). reflexivity. }
  destruct (user_no_path _ _ _ U) as (Es & Fu).
  assert (Hu : no_path_char (user_of user)) by (eapply Forall_impl; [|exact Fu]; cbv beta; tauto).
  assert (Ea : strip u = r_scheme r ++ strip s).
  { rewrite Eu, strip_app, (filter_all (r_scheme r)); [reflexivity|]. apply scheme_no_tab. exact Sc. }
  assert (Eb : strip s = user_at (option_map strip user) ++ raw ++ strip after).
  { rewrite Es, !strip_app, (filter_all raw) by exact Nr. f_equal. destruct user as [us|]; [|reflexivity].
    cbn [user_at option_map]. rewrite strip_app. reflexivity. }
  assert (A' : after_host (strip after) port (strip path)).
  { destruct A as (Hp & A). split; [apply strip_path; exact Hp|]. destruct port as [pp|]; [|subst after; reflexivity].
    destruct A as (-> & Hn). split; [|exact Hn]. rewrite !strip_app, (filter_all pp); [reflexivity|].
    intros b Hb. pose proof (port_number_chars pp b Hok Hb) as X. destruct (tab_or_newline b) eqn:E; [|reflexivity].
    apply tab_cases in E. unfold is_digit in X. lia. }
  assert (Ns : starts_with (fun b => ~ slash b) s).
  { destruct s as [|b s]; [exact I|]. cbn [starts_with]. intros Hb. destruct (Max (r_scheme r ++ [b]) s) as (c & Ec).
    - rewrite Eu, <- app_assoc. reflexivity.
    - destruct Sc as (body & sl & -> & Hsl & L2 & Hbody). exists body, (sl ++ [b]). rewrite <- app_assoc.
      split; [reflexivity|]. split; [apply Forall_app; auto|]. rewrite app_length. split; [lia|exact Hbody].
    - apply (f_equal (@length N)) in Ec. rewrite !app_length in Ec. cbn [length] in Ec. lia. }
  assert (Np : forall b, ~ path_char b -> ~ slash b) by (intros b X Y; apply X; unfold slash, path_char in *; cbn in *; tauto).
  assert (Ns' : starts_with (fun b => ~ slash b) (strip s)).
  { rewrite Eb. destruct user as [us|].
    - cbn [user_at option_map]. cbn [user_of] in Hu. apply (strip_forall _ us) in Hu.
      destruct (strip us) as [|b x].
      + cbn. unfold slash. cbn. intuition congruence.
      + apply Np. exact (Forall_inv Hu).
    - cbn [user_at option_map app]. destruct raw as [|b x].
      + cbn [app user_at] in Es |- *. subst after. pose proof (after_host_starts _ _ _ A) as S.
        destruct s as [|b s]; [exact I|]. cbn [starts_with] in S. cbn [filter].
        replace (tab_or_newline b) with false; [exact Ns|]. destruct S as [S| ->]; [symmetry; apply path_no_tab; exact S|reflexivity].
      + apply Np. exact (proj1 (Forall_inv (host_text_chars _ Ht N64))). }
  rewrite Ea in Bp. unfold basic_url_parser in Bp.
  destruct (scheme_start_state (r_scheme r ++ strip s)) as [[x rest]|] eqn:Ess; [|discriminate].
  destruct (existsb (bytes_eqb x) special_schemes); [|discriminate].
  change (divide (ignore_slashes rest) = Some d) in Bp.
  apply scheme_start_inv in Ess as (c & name & Ess & Hc & Hn).
  assert (Er : ignore_slashes rest = strip s).
  { destruct Sc as (body & sl & Er & Hsl & L2 & Hbody). rewrite Er, <- app_assoc in Ess.
    destruct sl as [|b0 sl0]; [cbn [length] in L2; lia|]. pose proof (Forall_inv Hsl) as Hb0.
    destruct Hbody as [->|(c' & name' & colon & -> & Hc' & Hn' & Ho)].
    - injection Ess as <- _. exfalso. unfold slash in Hb0. cbn in Hb0. destruct Hb0 as [<-|[<-|[]]]; discriminate.
    - rewrite <- app_comm_cons, <- app_assoc in Ess. injection Ess as <- Ess.
      destruct (free_split (fun b => scheme_char b = false) name' (colon ++ (b0 :: sl0) ++ strip s) name (58 :: rest) Ess) as (<- & Ex).
      { eapply Forall_impl; [|exact Hn']. intros b Hb X. apply scheme_char_iff in Hb. congruence. }
      { eapply Forall_impl; [|exact Hn]. cbv beta. congruence. }
      { destruct Ho as [->| ->]; [|reflexivity]. cbn. apply slash_iff in Hb0. apply (slash_not_scheme _ Hb0). }
      { reflexivity. }
      destruct Ho as [->| ->].
      + exfalso. injection Ex as -> _. unfold slash in Hb0. cbn in Hb0. intuition congruence.
      + cbn [app str] in Ex. injection Ex as <-. apply (ignore_slashes_app (b0 :: sl0)); assumption. }
  rewrite Er, Eb in Bp.
  destruct (divide_app (option_map strip user) raw (strip after) port (strip path) d) as (_ & ->); auto.
  - destruct user as [us|]; [|exact Hu]. cbn [option_map user_of] in *. apply strip_forall. exact Hu.
  - cbn [d_host d_port d_rest d_user]. rewrite E1, E2, E3. split; [exact Hh|]. split; [reflexivity|]. split; [reflexivity|].
    destruct user; reflexivity.
Qed.
