(** ExactProofs.v - exact conditions for the properties that do not always hold. *)

From Verif Require Import Base BaseFacts Utf8 Utf8Facts Chars Str StrFacts Net Trie Extract Host HostFacts
  Walk WalkFacts Addr NetFacts Parse ParseFacts UrlSpec UrlFacts ExtractFacts OutcomeFacts Rfc RuleSpec TrieFacts
  UrlProofs CharProofs RuleProofs HostProofs ErrSpec InvalidProofs ErrProofs CompleteProofs ExactSpec.
From Coq Require Import ZifyBool ZifyNat ZifyN.
Local Open Scope N_scope.

(** ** C04 *)

Lemma name_char_not : forall b, scheme_name_char b -> ~ slash b /\ b <> 58.
Proof.
  intros b H. split.
  - intros S. apply scheme_char_iff in H. apply slash_iff in S. destruct (slash_not_scheme b S) as [Y _]. congruence.
  - intros ->. unfold scheme_name_char, letter, digit in H. cbn in H. lia.
Qed.

Lemma slashes_no_colon : forall sl, Forall slash sl -> ~ In 58 sl.
Proof.
  intros sl F H. rewrite Forall_forall in F. specialize (F _ H). unfold slash in F. cbn in F. lia.
Qed.

Lemma c04_exact : forall ext t p r e u, extract ext t p = Ret (r, e) -> trimmed ws_chars (p_url p) u ->
  (odd_scheme (r_scheme r) <-> exists s q, u = s ++ q /\ name_slashes s)
  /\ forall s q, u = s ++ q -> name_slashes s -> starts_with (fun b => ~ slash b) q -> r_scheme r = s.
Proof.
  intros ext t p r e u H T. destruct (c03 _ _ _ _ _ _ H T) as (rest & E & A & M).
  assert (K : forall s q, u = s ++ q -> name_slashes s -> exists x, r_scheme r = s ++ x /\ Forall slash x).
  { intros s q Eu (c & name & sl & -> & Hc & Hn & Hs & L).
    destruct (M _ _ Eu) as (x & Ex).
    { exists (c :: name), sl. split; [reflexivity|]. split; [exact Hs|]. split; [exact L|]. right.
      exists c, name, []. rewrite app_nil_r. auto. }
    exists x. split; [exact Ex|]. destruct A as [A|A]; [rewrite A in Ex; discriminate|].
    destruct A as (body & sl' & Eb & Hs' & L' & Hb). rewrite Ex in Eb.
    assert (Nb : Forall (fun b => ~ slash b) body).
    { destruct Hb as [->|(c' & name' & colon & -> & Hc' & Hn' & Hcol)]; [constructor|].
      constructor; [apply name_char_not; left; exact Hc'|]. apply Forall_app. split.
      - revert Hn'. apply Forall_impl. intros b Hb. apply name_char_not. exact Hb.
      - destruct Hcol as [->| ->]; constructor; [|constructor]. unfold slash. cbn. intuition discriminate. }
    assert (Nn : Forall (fun b => ~ slash b) (c :: name)).
    { constructor; [apply name_char_not; left; exact Hc|]. revert Hn. apply Forall_impl. intros b Hb'. apply name_char_not. exact Hb'. }
    rewrite app_comm_cons, <- app_assoc in Eb.
    assert (sl ++ x = sl').
    { destruct (app_split _ _ _ _ _ Eb) as [(m & -> & E1)|(m & Hm & E2 & E1)].
      - destruct m as [|b m]; [exact E1|]. exfalso. destruct sl as [|s0 sl]; [cbn in L; lia|]. cbn [app] in E1. injection E1 as -> _.
        apply Forall_app in Nb as [_ Nb]. inversion Nb. inversion Hs. contradiction.
      - exfalso. destruct m as [|b m]; [contradiction|]. rewrite E2 in Nn. apply Forall_app in Nn as [_ Nn].
        destruct sl' as [|s0 sl']; [cbn in L'; lia|]. cbn [app] in E1. injection E1 as -> _. inversion Nn. inversion Hs'. contradiction. }
    subst sl'. apply Forall_app in Hs' as [_ Hs']. exact Hs'. }
  split; [split|].
  - intros (O1 & O2 & O3). destruct A as [A|A]; [contradiction|]. destruct A as (body & sl & Eb & Hs & L & Hb).
    destruct Hb as [->|(c & name & colon & -> & Hc & Hn & [->| ->])].
    + exfalso. cbn [app] in Eb. rewrite Eb in O3. destruct sl as [|b sl]; [cbn in L; lia|]. inversion Hs. contradiction.
    + rewrite app_nil_r in Eb. exists (r_scheme r), rest. split; [exact E|]. exists c, name, sl. auto.
    + exfalso. apply O2. rewrite Eb. cbn [app]. right. apply in_or_app. left. apply in_or_app. right. left. reflexivity.
  - intros (s & q & Eu & Hs). destruct (K s q Eu Hs) as (x & Ex & Fx). destruct Hs as (c & name & sl & -> & Hc & Hn & Hs & L).
    rewrite Ex. split; [discriminate|]. split.
    + intros Hin. cbn [app] in Hin. destruct Hin as [->|Hin]; [apply (proj2 (name_char_not 58 (or_introl Hc))); reflexivity|].
      rewrite <- app_assoc in Hin. apply in_app_or in Hin as [Hin|Hin].
      * rewrite Forall_forall in Hn. apply (proj2 (name_char_not 58 (Hn _ Hin))). reflexivity.
      * apply in_app_or in Hin as [Hin|Hin]; revert Hin; apply slashes_no_colon; assumption.
    + cbn [app starts_with]. apply name_char_not. left. exact Hc.
  - intros s q Eu Hs Sq. destruct (K s q Eu Hs) as (x & Ex & Fx). destruct x as [|b x]; [rewrite app_nil_r in Ex; exact Ex|].
    exfalso. rewrite Ex, <- app_assoc, Eu in E. apply app_inv_head in E. subst q. cbn [app starts_with] in Sq. inversion Fx. contradiction.
Qed.

(** ** C08 *)

Lemma c08_exact : forall ext t p r, extract ext t p = Ret (r, None) ->
  all_digits (r_port r) <-> forall sign d, r_port r = sign ++ d -> sign <> str "+" /\ sign <> str "-".
Proof.
  intros ext t p r H. split.
  - intros A sign d E. rewrite E in A. apply Forall_app in A as [A _].
    split; intros ->; inversion A; discriminate.
  - intros N. destruct (r_port r) as [|b q] eqn:E; [constructor|]. rewrite <- E.
    apply (c08_partial _ _ _ _ _ _ H E); intros ->; destruct (N [_] q eq_refl) as [N1 N2]; [apply N1|apply N2]; reflexivity.
Qed.

(** ** C11 *)

Lemma long_split : forall a c b, is_hex c = false -> long_group (a ++ [c] ++ b) -> long_group a \/ long_group b.
Proof.
  intros a c b Hc (p & g & q & E & Hg & L).
  destruct (app_split _ _ _ _ _ E) as [(m & -> & E1)|(m & Hm & -> & E1)].
  - (* the group starts at c or later *)
    destruct m as [|x m].
    + exfalso. destruct g as [|x g]; [discriminate|]. cbn [app] in E1. injection E1 as <- _. inversion Hg. congruence.
    + cbn [app] in E1. injection E1 as <- ->. right. exists m, g, q. auto.
  - (* m ++ c :: b = g ++ q, group starts within a *)
    destruct (app_split _ _ _ _ _ E1) as [(k & -> & E2)|(k & Hk & -> & E2)].
    + left. exists p, g, k. split; [|auto]. rewrite <- ?app_assoc. reflexivity.
    + exfalso. destruct k as [|x k]; [contradiction|]. cbn [app] in E2. injection E2 as <- _.
      apply Forall_app in Hg as [_ Hg]. inversion Hg. congruence.
Qed.
Lemma long_short : forall g, (length g <= 4)%nat -> ~ long_group g.
Proof. intros g L (p & x & q & -> & _ & Lx). rewrite !app_length in L. lia. Qed.

Lemma octet_short : forall d, octet d -> (length d <= 3)%nat.
Proof.
  intros d (_ & A & L & H). destruct H as [->|(b & t & -> & Nb)]; [cbn; lia|].
  destruct t as [|c [|e [|f t]]]; cbn [length]; try lia. exfalso. unfold decimal in L. cbn [fold_left] in L.
  assert (G : forall l a, (a >= 0)%Z -> all_digits l -> (fold_left (fun a b => a * 10 + (Z.of_N b - 48)) l a >= a)%Z).
  { induction l as [|x l IH]; intros a Ha Hl; cbn [fold_left]; [lia|]. inversion Hl as [|? ? Hx Hl']; subst.
    unfold is_digit in Hx. specialize (IH (a * 10 + (Z.of_N x - 48))%Z ltac:(lia) Hl'). lia. }
  inversion A as [|? ? H1 A1]; subst. inversion A1 as [|? ? H2 A2]; subst. inversion A2 as [|? ? H3 A3]; subst. inversion A3 as [|? ? H4 A4]; subst.
  unfold is_digit in *. match type of L with (fold_left ?f t ?a <= _)%Z => pose proof (G t a ltac:(lia) A4) as G' end. lia.
Qed.

Lemma rfc_ipv4_short : forall s, rfc_ipv4 s -> ~ long_group s /\ ascii s /\ s <> [] /\ forall x, s <> x ++ str ".".
Proof.
  intros s (a & b & c & d & -> & Ha & Hb & Hc & Hd). change (str ".") with [46].
  assert (D : forall x, octet x -> ascii x).
  { intros x (_ & A & _). revert A. apply Forall_impl. intros y Hy. unfold is_digit in Hy. lia. }
  split; [|split; [|split]].
  - intros L. assert (N46 : is_hex 46 = false) by reflexivity.
    apply (long_split a 46 (b ++ [46] ++ c ++ [46] ++ d) N46) in L as [L|L]; [revert L; apply long_short; apply octet_short in Ha; lia|].
    apply (long_split b 46 (c ++ [46] ++ d) N46) in L as [L|L]; [revert L; apply long_short; apply octet_short in Hb; lia|].
    apply (long_split c 46 d N46) in L as [L|L]; revert L; apply long_short; [apply octet_short in Hc; lia|apply octet_short in Hd; lia].
  - unfold ascii. repeat (apply Forall_app; split); try (apply D; assumption); repeat constructor.
  - intros E. apply (f_equal (@length N)) in E. rewrite !app_length in E. cbn [length] in E. lia.
  - intros x E. destruct Hd as (Nd & Ad & _). destruct (exists_last Nd) as (d' & y & ->).
    rewrite !app_assoc in E. apply app_inj_tail in E as [_ ->]. apply Forall_app in Ad as [_ Ad]. inversion Ad. discriminate.
Qed.

Lemma rfc_group_short : forall s, rfc_group s -> ~ long_group s /\ ascii s /\ s <> [] /\ forall x, s <> x ++ str ".".
Proof.
  intros s (N & H & L). split; [apply long_short; exact L|]. split; [|split; [exact N|]].
  - revert H. apply Forall_impl. intros y Hy. unfold is_hex, is_digit in Hy. lia.
  - intros x ->. apply Forall_app in H as [_ H]. inversion H. discriminate.
Qed.

Lemma rfc_more_short : forall g s, rfc_group g -> ~ long_group s /\ ascii s /\ s <> [] /\ (forall x, s <> x ++ str ".") ->
  ~ long_group (g ++ str ":" ++ s) /\ ascii (g ++ str ":" ++ s) /\ g ++ str ":" ++ s <> [] /\ forall x, g ++ str ":" ++ s <> x ++ str ".".
Proof.
  intros g s Hg (L & A & N & T). destruct (rfc_group_short g Hg) as (Lg & Ag & Ng & _). split; [|split; [|split]].
  - intros X. apply (long_split g 58 s eq_refl) in X as [X|X]; contradiction.
  - unfold ascii. repeat (apply Forall_app; split); [exact Ag|repeat constructor|exact A].
  - destruct g; discriminate.
  - intros x E. destruct (exists_last N) as (s' & y & ->). change (str ".") with [46] in *. rewrite !app_assoc in E.
    apply app_inj_tail in E as [_ ->]. apply (T s'). reflexivity.
Qed.

Lemma rfc_pieces_short : forall n s, rfc_pieces n s -> ~ long_group s /\ ascii s /\ s <> [] /\ forall x, s <> x ++ str ".".
Proof.
  intros n s H. induction H as [g H|a H|g n s Hg H IH]; [apply rfc_group_short; exact H|apply rfc_ipv4_short; exact H|].
  apply rfc_more_short; assumption.
Qed.
Lemma rfc_groups_short : forall n s, rfc_groups n s -> ~ long_group s /\ ascii s /\ s <> [] /\ forall x, s <> x ++ str ".".
Proof.
  intros n s H. induction H as [g H|g n s Hg H IH]; [apply rfc_group_short; exact H|]. apply rfc_more_short; assumption.
Qed.

Lemma rfc_literal_short : forall s, rfc_literal s -> ~ long_group s /\ ascii s /\ forall x, s <> x ++ str ".".
Proof.
  intros s [H|(n & a & m & b & -> & _ & Ha & Hb)]; [destruct (rfc_pieces_short _ _ H) as (A & B & _ & C); auto|].
  assert (Xa : ~ long_group a /\ ascii a).
  { destruct Ha as [[_ ->]|Ha]; [split; [apply long_short; cbn; lia|constructor]|]. destruct (rfc_groups_short _ _ Ha) as (A & B & _). auto. }
  assert (Xb : ~ long_group b /\ ascii b /\ (b = [] \/ b <> [] /\ forall x, b <> x ++ str ".")).
  { destruct Hb as [[_ ->]|Hb]; [split; [apply long_short; cbn; lia|split; [constructor|auto]]|]. destruct (rfc_pieces_short _ _ Hb) as (A & B & C & D). auto. }
  destruct Xa as (La & Aa). destruct Xb as (Lb & Ab & Tb). split; [|split].
  - intros L. apply (long_split a 58 ([58] ++ b) eq_refl) in L as [L|L]; [contradiction|].
    apply (long_split [] 58 b eq_refl) in L as [L|L]; [revert L; apply long_short; cbn; lia|contradiction].
  - unfold ascii. repeat (apply Forall_app; split); [exact Aa|repeat constructor|exact Ab].
  - intros x E. change (str ".") with [46] in *. destruct Tb as [->|[N T]].
    + rewrite app_nil_r in E. change (str "::") with ([58] ++ [58]) in E. rewrite app_assoc in E. apply app_inj_tail in E as [_ E]. discriminate.
    + destruct (exists_last N) as (s' & y & ->). rewrite !app_assoc in E. apply app_inj_tail in E as [_ ->]. apply (T s'). reflexivity.
Qed.

Lemma c11_exact : forall ext t p r e, extract ext t p = Ret (r, e) -> r_host_type r = HIPv6 ->
  rfc_literal (r_domain r) <-> ~ long_group (r_domain r) /\ ascii (r_domain r) /\ forall x, r_domain r <> x ++ str ".".
Proof.
  intros ext t p r e H T. split; [apply rfc_literal_short|]. intros (A & B & C). apply (c11_partial _ _ _ _ _ H T A B C).
Qed.

(** ** C14 *)

Lemma says : forall ext rules t p r scheme user raw h port path first zs segs, build_trie rules = Ret t ->
  extract ext t p = Ret (r, None) -> url_parts ext p scheme user raw h port path -> labelled h first zs segs ->
  host_says rules (p_ignore_sub_domains p) scheme (user_of user) (port_of port) path first zs segs r None.
Proof.
  intros ext rules t p r sc us raw h po pa first zs segs B H U L. apply (c67 _ _ _ _ _ _ B) in H.
  remember (@None err) as e eqn:Ee in H. destruct H; try discriminate.
  - exfalso. destruct U as (af & F & Hr & A & _). destruct (front_unique _ _ _ _ _ _ _ F H) as (_ & _ & E).
    destruct raw as [|b raw].
    + cbn [app] in E. pose proof (after_host_starts _ _ _ A) as X. rewrite E in X. cbn in X. unfold path_char in X. cbn in X. intuition discriminate.
    + cbn [app str] in E. injection E as -> _. inversion Hr as [|? ? (_ & X & _) _]. apply X. left. reflexivity.
  - subst e. destruct (parts_unique _ _ _ _ _ _ _ _ _ _ _ _ _ _ U H) as (<- & <- & <- & <- & <- & <-).
    destruct (stripped_unique _ _ _ _ _ _ _ L H1) as (<- & <- & <-). exact H2.
Qed.

(** ** Counting the labels that are not empty *)

Definition full (l : bytes) : bool := match l with [] => false | _ => true end.
Definition count (ls : list bytes) : nat := length (filter full ls).
Definition cnt (h : bytes) : nat := let '(first, segs) := split_host h in count (labels first segs).

Lemma cnt_host : forall first segs, well_split first segs -> cnt (host first segs) = count (labels first segs).
Proof.
  intros first segs W. unfold cnt. destruct (split_host (host first segs)) as [f s] eqn:E. apply split_host_spec in E as (E & W').
  destruct (split_unique _ _ _ _ W W' E) as (-> & ->). reflexivity.
Qed.
Lemma count_app : forall a b, count (a ++ b) = (count a + count b)%nat.
Proof. intros a b. unfold count. rewrite filter_app, app_length. reflexivity. Qed.

Lemma host_join : forall s1 s2 f1 f2 s, host f1 (s2 ++ (f2, s) :: s1) = host f1 s1 ++ s ++ host f2 s2.
Proof.
  intros s1 s2 f1 f2 s. induction s2 as [|[l x] s2 IH]; cbn [app host]; [reflexivity|]. rewrite IH, <- !app_assoc. reflexivity.
Qed.

Lemma cnt_join : forall a s b, is_sep_text s -> cnt (a ++ s ++ b) = (cnt a + cnt b)%nat.
Proof.
  intros a s b Hs. destruct (split_exists a) as (f1 & s1 & -> & W1). destruct (split_exists b) as (f2 & s2 & -> & W2).
  rewrite <- host_join. destruct W1 as (A1 & B1). destruct W2 as (A2 & B2).
  rewrite !cnt_host; [|split; assumption|split; assumption|].
  - unfold labels. rewrite map_app. cbn [map fst]. rewrite <- !app_assoc. rewrite !count_app.
    change (f2 :: map fst s1) with ([f2] ++ map fst s1). rewrite count_app. lia.
  - split; [exact A1|]. apply Forall_app. split; [exact B2|]. constructor; [split; assumption|exact B1].
Qed.
Lemma cnt_label : forall l, no_sep l -> cnt l = count [l].
Proof. intros l H. change l with (host l []) at 1. rewrite cnt_host; [reflexivity|]. split; [exact H|constructor]. Qed.
Lemma cnt_nil : cnt [] = 0%nat.
Proof. apply (cnt_label []). apply no_sep_nil. Qed.
Lemma cnt_seps : forall w, seps w -> forall a, cnt (a ++ w) = cnt a.
Proof.
  intros w H. induction H as [|s w Hs H IH]; intros a; [rewrite app_nil_r; reflexivity|].
  rewrite (cnt_join a s w Hs). pose proof (IH []) as X. cbn [app] in X. rewrite X, cnt_nil. lia.
Qed.
Lemma cnt_labels_text : forall segs, Forall (fun g => no_sep (fst g) /\ is_sep_text (snd g)) segs -> cnt (labels_text segs) = count (map fst segs).
Proof.
  induction segs as [|[l s] segs IH]; intros F; [apply cnt_nil|]. inversion F as [|? ? (A & B) F']; subst. cbn [fst snd] in A, B.
  destruct segs as [|g segs]; [apply cnt_label; exact A|].
  change (labels_text ((l, s) :: g :: segs)) with (labels_text (g :: segs) ++ s ++ l).
  rewrite (cnt_join _ _ _ B), (IH F'), (cnt_label l A).
  change (map fst ((l, s) :: g :: segs)) with ([l] ++ map fst (g :: segs)). rewrite count_app. lia.
Qed.

(** ** The text of the host in the URL *)

Lemma factor_head : forall ext p scheme user raw h port path, url_parts ext p scheme user raw h port path ->
  p_to_punycode p = false -> ~ In 64 h /\ plain_host h.
Proof.
  intros ext p sc us raw h po pa (af & (u & s & _ & _ & pre & q & -> & Fp & Sq & X) & Hr & A & (d & _ & C)) P.
  rewrite P in C. destruct C as [_ ->]. split; [|exact Hr].
  assert (K : forall v, v ++ q = raw ++ af -> ~ In 64 v -> ~ In 64 raw).
  { intros v E Nv Hin. destruct (app_split _ _ _ _ _ E) as [(m & -> & E1)|(m & Hm & -> & E1)].
    - destruct m as [|b m]; [rewrite app_nil_r in Hin; contradiction|]. cbn [app] in E1. subst q. cbn [starts_with] in Sq.
      apply Forall_app in Hr as [_ Hr]. inversion Hr as [|? ? (R1 & R2 & _) _]. tauto.
    - apply Nv. apply in_or_app. left. exact Hin. }
  destruct us as [x|].
  - destruct X as (v & _ & Nv & E). symmetry in E. apply (K v E Nv).
  - destruct X as (Nv & E). symmetry in E. apply (K pre E Nv).
Qed.

Lemma text_is_host : forall ext p scheme user raw h port path user' text port', url_parts ext p scheme user raw h port path ->
  p_to_punycode p = false -> port_accepted port ->
  trimmed ws_chars (p_url p) (scheme ++ user_at user' ++ text ++ port_text port' ++ path) ->
  user_of user' = user_of user -> port_of port' = port_of port -> (exists a x, text = a ++ x /\ a <> [] /\ ~ In 64 a) -> text = h.
Proof.
  intros ext p sc us raw h po pa us' text po' U P Ok T Eu Ep (a & x & Et & Na & Nb). destruct a as [|b a]; [contradiction|].
  destruct (factor_head _ _ _ _ _ _ _ _ U P) as (N64 & Hh). destruct (parts_text _ _ _ _ _ _ _ _ U P) as (_ & T').
  apply trim_ws_iff in T. apply trim_ws_iff in T'. rewrite T in T'. clear T. apply app_inv_head in T'.
  assert (E : text ++ port_text po' ++ pa = h ++ port_text po ++ pa).
  { destruct us as [y|], us' as [y'|]; cbn [user_of] in Eu; subst; cbn [user_at] in T'.
    - apply app_inv_head in T'. exact T'.
    - cbn [app str] in T'. injection T' as E1 _. exfalso. apply Nb. left. exact E1.
    - cbn [app str] in T'. exfalso. destruct h as [|c h].
      + cbn [app] in T'. destruct po as [q|]; cbn [port_text] in T'; [cbn [app str] in T'; discriminate|]. cbn [app] in T'.
        destruct U as (af & _ & _ & (Hp & _) & _). destruct pa as [|c pa]; [discriminate|]. injection T' as <- _.
        unfold is_path in Hp. cbn [starts_with] in Hp. unfold path_char in Hp. cbn in Hp. intuition discriminate.
      + cbn [app] in T'. injection T' as <- _. apply N64. left. reflexivity.
    - exact T'. }
  rewrite !app_assoc in E. apply app_inv_tail in E.
  destruct po as [q|], po' as [q'|]; cbn [port_of port_text] in *.
  - subst q'. apply app_inv_tail in E. exact E.
  - exfalso. subst q. destruct Ok as (sg & d & E1 & Nd & _). symmetry in E1. apply app_eq_nil in E1 as [_ E1]. contradiction.
  - exfalso. subst q'. rewrite !app_nil_r in E. rewrite <- E in Hh. apply Forall_app in Hh as [_ Hh]. inversion Hh as [|? ? (_ & _ & X) _]. apply X. reflexivity.
  - rewrite !app_nil_r in E. exact E.
Qed.

(** ** C14 and C06 *)

Lemma c14_says : forall rules ignore scheme user port path first zs segs r, ipv4_text (host first (zs ++ segs)) ->
  host_says rules ignore scheme user port path first zs segs r None ->
  exists m, last_looked rules (labels first segs) m
    /\ r = mkResult scheme user [] (host first (skipn m segs)) [] (host first (skipn m segs)) port path HIPv4.
Proof.
  intros rules ig sc us po pa first zs segs r V H. inversion H; subst; try contradiction. eauto.
Qed.

Lemma count_first : forall (first : bytes) (segs : list seg) k, (1 <= k <= length segs)%nat -> match segs with [] => True | g :: _ => fst g <> [] end ->
  (count (labels first (skipn k segs)) < count (labels first segs))%nat.
Proof.
  intros first segs k K N. destruct segs as [|g segs]; [cbn in K; lia|]. destruct k as [|k]; [lia|]. cbn [skipn].
  unfold labels. cbn [map app]. change (fst g :: map fst segs ++ [first]) with ([fst g] ++ map fst segs ++ [first]). rewrite !count_app.
  rewrite <- (firstn_skipn k segs) at 2. rewrite map_app, count_app.
  assert (X : count [fst g] = 1%nat) by (destruct (fst g); [contradiction|reflexivity]).
  rewrite X. assert (Y : forall a b c, (a + c < 1 + (b + a + c))%nat) by (intros; lia). apply Y.
Qed.

Lemma labelled_cnt : forall h first zs segs, labelled h first zs segs -> cnt h = count (labels first segs).
Proof.
  intros h first zs segs (-> & W & Z & _). destruct (empty_labels_seps zs first segs W Z) as (w & -> & Sw).
  rewrite (cnt_seps w Sw). apply cnt_host. eapply well_split_app; eauto.
Qed.

Lemma skipn_split : forall first (segs : list seg) k, well_split first segs -> well_split first (skipn k segs).
Proof. intros first segs k (A & B). split; [exact A|]. rewrite <- (firstn_skipn k segs) in B. apply Forall_app in B. apply B. Qed.

Lemma last_lt : forall rules first segs m, last_looked rules (labels first segs) m -> (m <= length segs)%nat.
Proof. intros rules first segs m ((A & _) & _). rewrite labels_length in A. lia. Qed.

Lemma last_zero : forall rules labs m, last_looked rules labs m -> (looked_at rules labs 1 <-> m <> 0%nat).
Proof.
  intros rules labs m (A & B). split.
  - intros X ->. contradiction.
  - intros N. apply (looked_le _ _ m); [exact A|lia].
Qed.

Lemma c14_exact : forall ext rules t p r scheme user raw h port path first zs segs, build_trie rules = Ret t ->
  extract ext t p = Ret (r, None) -> url_parts ext p scheme user raw h port path -> labelled h first zs segs -> ipv4_text h ->
  (exists w, h = r_domain r ++ w /\ seps w) <-> ~ looked_at rules (labels first segs) 1.
Proof.
  intros ext rules t p r sc us raw h po pa first zs segs B H U L V. pose proof (says _ _ _ _ _ _ _ _ _ _ _ _ _ _ B H U L) as S.
  pose proof L as (Eh & W & Z & Hd). rewrite Eh in V. destruct (c14_says _ _ _ _ _ _ _ _ _ _ V S) as (m & M & ->).
  cbn [r_domain]. rewrite (last_zero _ _ _ M). split.
  - intros (w & E & Sw) Nm. pose proof (labelled_cnt _ _ _ _ L) as C. rewrite E, (cnt_seps w Sw) in C.
    rewrite cnt_host in C by (apply skipn_split; eapply well_split_app; eauto).
    assert (K : (1 <= m <= length segs)%nat) by (split; [lia|exact (last_lt _ _ _ _ M)]).
    pose proof (count_first first segs m K Hd) as X. rewrite C in X. exact (Nat.lt_irrefl _ X).
  - intros N. destruct m as [|m]; [|exfalso; apply N; discriminate]. cbn [skipn].
    destruct (empty_labels_seps zs first segs W Z) as (w & E & Sw). exists w. split; [congruence|exact Sw].
Qed.

Lemma cnt_form : forall sub d1 dom d2 sfx w, seps w -> no_sep dom ->
  (is_sep_text d1 \/ (d1 = [] /\ sub = [])) -> ((sfx <> [] /\ is_sep_text d2) \/ (sfx = [] /\ d2 = [])) ->
  cnt (sub ++ d1 ++ dom ++ d2 ++ sfx ++ w) = (cnt sub + count [dom] + cnt sfx)%nat.
Proof.
  intros sub d1 dom d2 sfx w Sw Nd D1 D2.
  assert (X : cnt (dom ++ d2 ++ sfx ++ w) = (count [dom] + cnt sfx)%nat).
  { destruct D2 as [(_ & D2)|(-> & ->)].
    - rewrite (cnt_join _ _ _ D2), (cnt_seps w Sw), (cnt_label dom Nd). reflexivity.
    - cbn [app]. rewrite (cnt_seps w Sw), (cnt_label dom Nd), cnt_nil. lia. }
  destruct D1 as [D1|(-> & ->)].
  - rewrite (cnt_join _ _ _ D1), X. lia.
  - cbn [app]. rewrite X, cnt_nil. lia.
Qed.

Lemma count_parts : forall (first : bytes) (segs : list seg) k n, well_split first segs -> (k < n <= length segs)%nat ->
  (cnt (if (S n <=? length segs)%nat then host first (skipn (S n) segs) else []) + count [nth n (labels first segs) []]
   + cnt (labels_text (firstn (n - k) (skipn k segs))) = count (labels first (skipn k segs)))%nat.
Proof.
  intros first segs k n W K.
  assert (F : cnt (labels_text (firstn (n - k) (skipn k segs))) = count (map fst (firstn (n - k) (skipn k segs)))).
  { apply cnt_labels_text. destruct (skipn_split first segs k W) as (_ & X). rewrite <- (firstn_skipn (n - k) (skipn k segs)) in X.
    apply Forall_app in X. apply X. }
  assert (G : labels first (skipn k segs) = map fst (firstn (n - k) (skipn k segs)) ++ labels first (skipn n segs)).
  { unfold labels. rewrite app_assoc, <- map_app. f_equal. f_equal. rewrite <- (firstn_skipn (n - k) (skipn k segs)) at 1.
    rewrite skipn_skipn'. replace (k + (n - k))%nat with n by lia. reflexivity. }
  rewrite G, count_app, F.
  assert (X : (cnt (if (S n <=? length segs)%nat then host first (skipn (S n) segs) else []) + count [nth n (labels first segs) []]
               = count (labels first (skipn n segs)))%nat); [|lia].
  destruct (Nat.leb_spec (S n) (length segs)) as [Hn|Hn].
  - rewrite cnt_host by (apply skipn_split; exact W). rewrite (skipn_cons_nth _ segs n ([], [])) by lia.
    unfold labels at 3. cbn [map app]. change (fst (nth n segs ([], [])) :: map fst (skipn (S n) segs) ++ [first]) with ([fst (nth n segs ([], []))] ++ labels first (skipn (S n) segs)).
    rewrite count_app. rewrite nth_labels by lia. lia.
  - assert (n = length segs) by lia. subst n. rewrite skipn_all, nth_labels_last. rewrite cnt_nil. reflexivity.
Qed.

Lemma seps_no_at : forall s, is_sep_text s -> ~ In 64 s.
Proof. intros s H. unfold is_sep_text in H. destruct H as [->|[->|[->| ->]]]; cbn; intuition discriminate. Qed.

Lemma c06_exact : forall ext rules t p r scheme user raw h port path first zs segs, build_trie rules = Ret t ->
  extract ext t p = Ret (r, None) -> url_parts ext p scheme user raw h port path -> labelled h first zs segs ->
  p_to_punycode p = false -> p_ignore_sub_domains p = false ->
  assembled p r <-> ~ dropped rules h (labels first segs).
Proof.
  intros ext rules t p r sc us raw h po pa first zs segs B H U L Pu Ig. pose proof (says _ _ _ _ _ _ _ _ _ _ _ _ _ _ B H U L) as Sy.
  rewrite Ig in Sy. destruct (parts_text _ _ _ _ _ _ _ _ U Pu) as (_ & T). pose proof L as (Eh & W & Z & Hd).
  destruct (factor_head _ _ _ _ _ _ _ _ U Pu) as (N64 & _).
  assert (Ok : port_accepted po /\ (v4 h = true \/ r_host_type r = HHostName)).
  { destruct (r_host_type r) eqn:Ty.
    - exfalso. destruct (c15 _ _ _ _ _ H) as (X & _). apply (proj1 (X eq_refl)). exact Ty.
    - destruct (host_name _ _ _ _ H Ty) as (sc' & us' & raw' & h' & po' & pa' & f' & z' & s' & c & U' & Ok & _).
      destruct (parts_unique _ _ _ _ _ _ _ _ _ _ _ _ _ _ U U') as (_ & _ & _ & _ & -> & _). auto.
    - destruct (c13_only _ _ _ _ _ H Ty) as (_ & sc' & us' & raw' & h' & po' & pa' & U' & Ok & V).
      destruct (parts_unique _ _ _ _ _ _ _ _ _ _ _ _ _ _ U U') as (_ & _ & _ & -> & -> & _). split; [exact Ok|]. left. apply v4_iff. exact V.
    - exfalso. inversion Sy; subst; cbn [r_host_type] in Ty; try discriminate; unfold type_of in Ty; destruct (nth _ _ _); discriminate. }
  destruct Ok as (Ok & Ty). destruct (v4 h) eqn:V.
  - clear Ty. apply v4_iff in V. pose proof V as V'. rewrite Eh in V'. destruct (c14_says _ _ _ _ _ _ _ _ _ _ V' Sy) as (m & M & Er).
    pose proof (c14_exact _ _ _ _ _ _ _ _ _ _ _ _ _ _ B H U L V) as X.
    assert (Dr : dropped rules h (labels first segs) <-> looked_at rules (labels first segs) 1) by (unfold dropped; tauto).
    rewrite Dr, <- X. split.
    + intros (us' & text & po' & T' & Eu & Ep & F). unfold host_form in F. rewrite Er in F, T', Eu, Ep. cbn [r_host_type r_domain r_scheme r_path r_user_info r_port] in *.
      destruct F as (w & Et & Sw). exists w. split; [|exact Sw]. rewrite Er. cbn [r_domain]. rewrite <- Et. symmetry.
      apply (text_is_host _ _ _ _ _ _ _ _ us' _ po' U Pu Ok T' (eq_sym Eu) (eq_sym Ep)).
      exists (host first (skipn m segs)), w. split; [exact Et|]. split.
      * destruct (c15 _ _ _ _ _ H) as (Y & _). destruct (Y eq_refl) as (_ & Y'). rewrite Er in Y'. exact Y'.
      * intros Hin. apply N64. rewrite Eh. destruct (empty_labels_seps zs first segs W Z) as (w' & -> & _). apply in_or_app. left.
        destruct (skipn_text first segs 0 m) as (q & Eq); [split; [lia|exact (last_lt _ _ _ _ M)]|]. cbn [skipn] in Eq. rewrite Eq. apply in_or_app. left. exact Hin.
    + intros (w & E & Sw). exists us, h, po. rewrite Er in E |- *. unfold host_form. cbn [r_host_type r_domain r_scheme r_path r_user_info r_port] in *. eauto 8.
  - destruct Ty as [|Ty]; [discriminate|].
    assert (V' : ~ ipv4_text h) by (intros Y; apply v4_iff in Y; congruence).
    assert (Dr : dropped rules h (labels first segs) <-> exists k n, walk rules [] (labels first segs) = (Some (S k), n)) by (unfold dropped; tauto).
    rewrite Dr.
    destruct (host_name _ _ _ _ H Ty) as (sc' & us' & raw' & h' & po' & pa' & f' & z' & s' & c & U' & _ & _ & L' & Hw & Hok & Hs & _ & Dn & Er).
    destruct (parts_unique _ _ _ _ _ _ _ _ _ _ _ _ _ _ U U') as (<- & <- & <- & <- & <- & <-).
    destruct (stripped_unique _ _ _ _ _ _ _ L L') as (<- & <- & <-). clear U' L'.
    destruct (host_parts t h first zs segs c L Hw Hs) as (pre & sep & rest & Eh' & Hpre & Nd & A & C & _ & R).
    destruct (walk rules [] (labels first segs)) as [o n] eqn:Ew.
    destruct (cwalk_walk t rules (build_trie_represents _ _ B) _ [] t _ _ _ _ _ _ _ eq_refl Hw Ew) as (W1 & W2 & W3). cbn [orb Nat.add] in W1, W2, W3.
    rewrite Ig in Er. split.
    + intros (us' & text & po' & T' & Eu & Ep & F) (k & n' & E). injection E as -> ->.
      unfold host_form in F. rewrite Er in F, T', Eu, Ep. cbn [r_host_type r_sub_domain r_domain r_suffix r_scheme r_path r_user_info r_port] in *.
      destruct F as (d1 & d2 & w & Et & D1 & D2 & Sw).
      assert (Xt : text = h).
      { apply (text_is_host _ _ _ _ _ _ _ _ us' _ po' U Pu Ok T' (eq_sym Eu) (eq_sym Ep)).
        exists (the_sub first segs c ++ d1 ++ the_domain first segs c), (d2 ++ the_suffix segs c ++ w). split; [|split].
        - rewrite Et, <- !app_assoc. reflexivity.
        - intros Y. apply app_eq_nil in Y as [_ Y]. apply app_eq_nil in Y as [_ Y]. contradiction.
        - intros Hin. apply in_app_or in Hin as [Hin|Hin]; [|apply in_app_or in Hin as [Hin|Hin]].
          + apply N64. rewrite Eh'. apply in_or_app. left. destruct Hpre as [(-> & Y)|(s & _ & ->)]; [rewrite Y in Hin; exact Hin|]. apply in_or_app. left. exact Hin.
          + destruct D1 as [D1|(-> & _)]; [|contradiction]. revert Hin. apply seps_no_at. exact D1.
          + apply N64. rewrite Eh'. apply in_or_app. right. apply in_or_app. left. exact Hin. }
      pose proof (cnt_form _ _ _ _ _ _ Sw Nd D1 D2) as X. rewrite <- Et, Xt, (labelled_cnt _ _ _ _ L) in X.
      assert (W' : well_split first segs) by (eapply well_split_app; eauto).
      pose proof (cwalk_ok _ _ _ _ Hw) as [Hp Hc He]. specialize (Hs W1). specialize (He W1).
      unfold the_sub, sub_from, the_domain, the_suffix in X. rewrite W1, W2, W3 in X. rewrite W2, W3 in *.
      pose proof (count_parts first segs (S k) n' W') as Y.
      assert (K : (S k < n' <= length segs)%nat) by lia. specialize (Y K).
      pose proof (count_first first segs (S k)) as G. assert (K' : (1 <= S k <= length segs)%nat) by lia. specialize (G K' Hd).
      unfold label_at in X. change join with labels_text in X. rewrite <- Y, X in G. exact (Nat.lt_irrefl _ G).
    + intros Nw. exists us, h, po. rewrite Er. unfold host_form. cbn [r_host_type r_sub_domain r_domain r_suffix r_scheme r_path r_user_info r_port].
      split; [exact T|]. split; [reflexivity|]. split; [reflexivity|].
      assert (Rs : seps rest).
      { apply R. destruct o as [[|k]|]; [right; exact W3|exfalso; apply Nw; eauto|left; exact W1]. }
      assert (D2 : (the_suffix segs c <> [] /\ is_sep_text sep) \/ (the_suffix segs c = [] /\ sep = [])).
      { destruct (c_has c); [destruct (A eq_refl) as (A1 & A2 & _); auto|]. destruct (C eq_refl) as (C1 & C2 & _). auto. }
      destruct Hpre as [(-> & Es)|(s & Hs' & ->)].
      * exists [], sep, rest. rewrite Es. cbn [app]. auto.
      * exists s, sep, rest. rewrite <- app_assoc in Eh'. auto.
Qed.

Lemma c06_ipv6 : forall ext t p r, extract ext t p = Ret (r, None) -> r_host_type r = HIPv6 -> assembled p r.
Proof.
  intros ext t p r H T. destruct (extract_cases _ _ _ _ _ H) as (sc & us & re & F & C).
  destruct C as [(x & X & _)|[(a & af & po & pa & -> & Ha & A & [(Ok & _ & E)|(_ & X & _)])|(raw & af & po & pa & -> & Hh & A & Ok & [(x & _ & X & _)|(h & Cv & O)])]];
    try discriminate.
  - subst r. exists us, (str "[" ++ a ++ str "]"), po. cbn [r_scheme r_path r_user_info r_port]. split; [|repeat split].
    apply front_text in F. destruct A as (_ & A). destruct po as [q|]; cbn [port_text].
    + destruct A as [-> _]. rewrite <- !app_assoc in *. exact F.
    + subst af. rewrite <- !app_assoc in *. exact F.
  - exfalso. destruct (outcome_error _ _ _ _ _ _ _ _ _ _ O) as [(_ & X & _)|[(_ & X & _)|(_ & X & _)]]; congruence.
Qed.

(** ** C19 *)

Lemma char_join : forall c r a l, valid_rune c -> valid_rune r -> c <> r -> has_char c (a ++ encode r ++ l) <-> has_char c a \/ has_char c l.
Proof.
  intros c r a l Vc Vr N. split.
  - intros (p & q & E). destruct (app_split _ _ _ _ _ E) as [(m & -> & E1)|(m & Hm & -> & E1)].
    + destruct (encode_sync _ _ _ _ _ Vr Vc E1) as [(_ & X & _)|(y & _ & ->)]; [congruence|]. right. exists y, q. reflexivity.
    + left. destruct (encode_sync _ _ _ _ _ Vc Vr E1) as [(X & _)|(y & -> & _)]; [contradiction|]. exists p, y. reflexivity.
  - intros [(p & q & ->)|(p & q & ->)].
    + exists p, (q ++ encode r ++ l). rewrite <- !app_assoc. reflexivity.
    + exists (a ++ encode r ++ p), q. rewrite <- !app_assoc. reflexivity.
Qed.

Lemma sep_not_forbidden : forall s c, is_sep_text s -> In c forbidden -> exists r, s = encode r /\ valid_rune r /\ c <> r.
Proof.
  intros s c Hs Hc. apply sep_text_encode in Hs as (r & Hr & ->). exists r. split; [reflexivity|].
  rewrite seps_eq in Hr. split.
  - cbn [In] in Hr. unfold valid_rune. lia.
  - intros <-. assert (X : forallb (fun c => negb (memN c [46; 12290; 65294; 65377])) forbidden = true) by (vm_compute; reflexivity).
    rewrite forallb_forall in X. specialize (X c Hc). apply memN_In in Hr. rewrite Hr in X. discriminate.
Qed.

Lemma char_label : forall c, In c forbidden -> forall segs first, well_split first segs ->
  has_char c (host first segs) <-> exists i, (i <= length segs)%nat /\ has_char c (nth i (labels first segs) []).
Proof.
  intros c Hc. pose proof forbidden_valid as Fv. rewrite Forall_forall in Fv. pose proof (Fv c Hc) as Vc. clear Fv.
  induction segs as [|[l s] segs IH]; intros first (A & B).
  - cbn [host labels map app length]. split; [intros H; exists 0%nat; split; [lia|exact H]|]. intros ([|i] & L & H); [exact H|lia].
  - inversion B as [|? ? (B1 & B2) B3]; subst. cbn [fst snd] in B1, B2. cbn [host].
    destruct (sep_not_forbidden s c B2 Hc) as (r & -> & Vr & N). rewrite (char_join c r _ _ Vc Vr N), (IH first (conj A B3)).
    unfold labels. cbn [map fst app length]. split.
    + intros [(i & L & H)|H]; [exists (S i); split; [lia|exact H]|]. exists 0%nat. split; [lia|exact H].
    + intros ([|i] & L & H); [right; exact H|]. left. exists i. split; [lia|exact H].
Qed.

Lemma labels_skip : forall first (segs : list seg) k i, (k <= length segs)%nat ->
  nth i (labels first (skipn k segs)) [] = nth (k + i) (labels first segs) [].
Proof.
  intros first segs k i. revert segs. induction k as [|k IH]; intros segs L; [reflexivity|].
  destruct segs as [|g segs]; [cbn [length] in L; lia|]. cbn [length] in L. cbn [skipn Nat.add].
  rewrite IH by lia. reflexivity.
Qed.

Lemma no_sub_char : forall c, In c forbidden -> ~ has_char c [].
Proof. intros c H. apply char_nil. pose proof forbidden_valid as F. rewrite Forall_forall in F. auto. Qed.

Lemma c19_exact : forall ext rules t p r scheme user raw h port path first zs segs c, build_trie rules = Ret t ->
  extract ext t p = Ret (r, None) -> r_host_type r = HHostName ->
  url_parts ext p scheme user raw h port path -> labelled h first zs segs -> seen_char c ->
  (has_char c (r_domain r) \/ has_char c (r_sub_domain r))
  <-> r_suffix r = [] /\ exists i m, last_looked rules (labels first segs) m /\ (i < m)%nat
        /\ has_char c (nth i (labels first segs) []) /\ (i = 0%nat \/ p_ignore_sub_domains p = false).
Proof.
  intros ext rules t p r sc us raw h po pa first zs segs c B H T U L Hc. destruct Hc as (Hc & N1 & N2 & N3).
  destruct (r_suffix r) as [|b sf] eqn:Es.
  2:{ assert (Z : r_suffix r <> []) by (rewrite Es; discriminate).
      destruct (c19_partial _ _ _ _ c H T Z Hc N1 N2 N3) as (X & Y). split; [tauto|]. intros (E & _). discriminate. }
  destruct (host_name _ _ _ _ H T) as (sc' & us' & raw' & h' & po' & pa' & f' & z' & s' & k & U' & _ & _ & L' & Hw & Hok & Hs & Hi & Dn & Er).
  destruct (parts_unique _ _ _ _ _ _ _ _ _ _ _ _ _ _ U U') as (<- & <- & <- & <- & <- & <-).
  destruct (stripped_unique _ _ _ _ _ _ _ L L') as (<- & <- & <-). clear U' L'.
  pose proof (counts_looked t rules first segs (build_trie_represents _ _ B)) as K. rewrite Hw in K. destruct K as (_ & M & _).
  rewrite Er in Es |- *. cbn [r_suffix r_domain r_sub_domain] in *.
  destruct (c_has k) eqn:Z; [exfalso; apply (suffix_nonempty _ _ _ _ Hw Z (Hs eq_refl)); exact Es|].
  unfold checked_text in Hi. rewrite Z in Hi. unfold the_domain, the_sub, sub_from, label_at. rewrite Z.
  pose proof (checked_no_forbidden _ c Hi Hc N1 N2 N3) as X.
  pose proof (last_lt _ _ _ _ M) as Lm. pose proof L as (_ & W & _). apply well_split_app in W.
  assert (Q : forall i, (c_prev k <= i <= length segs)%nat -> ~ has_char c (nth i (labels first segs) [])).
  { intros i Li Y. apply X. apply (char_label c Hc); [apply skipn_split; exact W|]. exists (i - c_prev k)%nat.
    rewrite labels_skip by exact Lm. rewrite skipn_length. split; [lia|]. replace (c_prev k + (i - c_prev k))%nat with i by lia. exact Y. }
  split.
  - intros Y. split; [reflexivity|]. destruct Y as [Y|Y].
    + exists 0%nat, (c_prev k). split; [exact M|]. destruct (Nat.eq_dec (c_prev k) 0) as [E|E].
      * exfalso. apply (Q 0%nat); [lia|exact Y].
      * split; [lia|]. auto.
    + destruct (p_ignore_sub_domains p) eqn:Ig; [exfalso; revert Y; apply no_sub_char; exact Hc|].
      destruct (Nat.leb_spec 1 (length segs)) as [L1|L1]; [|exfalso; revert Y; apply no_sub_char; exact Hc].
      apply (char_label c Hc) in Y; [|apply skipn_split; exact W]. destruct Y as (i & Li & Y). rewrite labels_skip in Y by exact L1.
      rewrite skipn_length in Li. exists (1 + i)%nat, (c_prev k). split; [exact M|]. split; [|auto].
      destruct (Nat.le_gt_cases (c_prev k) (1 + i)) as [G|G]; [exfalso; apply (Q (1 + i)%nat); [lia|exact Y]|exact G].
  - intros (_ & i & m & M' & Li & Y & O). rewrite (last_unique _ _ _ _ M' M) in Li. destruct i as [|i]; [left; exact Y|].
    right. destruct O as [O|O]; [discriminate|]. rewrite O.
    destruct (Nat.leb_spec 1 (length segs)) as [L1|L1]; [|lia].
    apply (char_label c Hc); [apply skipn_split; exact W|]. exists i. rewrite labels_skip by exact L1. rewrite skipn_length. split; [lia|exact Y].
Qed.

(** ** C20 *)

Lemma sep_half : forall s, is_sep_text s -> seen_sep s \/ s = half_sep.
Proof. intros s [->|[->|[->| ->]]]; unfold seen_sep, half_sep; auto. Qed.

(** The text before and after separator [i]. *)
Lemma sep_around : forall first (segs : list seg) i, (i < length segs)%nat ->
  exists q, host first segs = host first (skipn (S i) segs) ++ snd (nth i segs ([], [])) ++ fst (nth i segs ([], [])) ++ q.
Proof.
  intros first segs i L. destruct (skipn_text first segs 0 i) as (q & E); [lia|]. cbn [skipn] in E. exists q. rewrite E.
  rewrite (skipn_cons_nth _ segs i ([], [])) by exact L. destruct (nth i segs ([], [])) as [l s]. cbn [host fst snd]. rewrite <- !app_assoc. reflexivity.
Qed.
Lemma sep_after : forall first (segs : list seg) i, (S i < length segs)%nat ->
  exists q, host first segs = host first (skipn (S (S i)) segs) ++ snd (nth (S i) segs ([], [])) ++ fst (nth (S i) segs ([], [])) ++ snd (nth i segs ([], [])) ++ q.
Proof.
  intros first segs i L. destruct (sep_around first segs i) as (q & E); [lia|]. rewrite E.
  rewrite (skipn_cons_nth _ segs (S i) ([], [])) by exact L. destruct (nth (S i) segs ([], [])) as [l s]. cbn [host fst snd]. rewrite <- !app_assoc.
  eexists. reflexivity.
Qed.

(** An empty label that is not the rightmost one of a checked text. *)
Lemma empty_checked : forall first (segs : list seg) i, well_split first segs -> ~ bad_text (host first segs) ->
  (1 <= i <= length segs)%nat -> nth i (labels first segs) [] = [] ->
  snd (nth (i - 1) segs ([], [])) = half_sep \/ ((i < length segs)%nat /\ snd (nth i segs ([], [])) = half_sep).
Proof.
  intros first segs i (Wf & W) Nb L E. destruct i as [|i]; [lia|]. replace (S i - 1)%nat with i by lia.
  assert (Sp : forall j, (j < length segs)%nat -> is_sep_text (snd (nth j segs ([], [])))).
  { intros j Lj. rewrite Forall_forall in W. apply W. apply nth_In. exact Lj. }
  destruct (sep_half _ (Sp i ltac:(lia))) as [Hi|Hi]; [|auto].
  destruct (Nat.eq_dec (S i) (length segs)) as [El|El].
  - exfalso. rewrite El, nth_labels_last in E. apply Nb. right. right. left.
    destruct (sep_around first segs i) as (q & Eq); [lia|]. rewrite El, skipn_all in Eq. cbn [host] in Eq. rewrite E in Eq. cbn [app] in Eq.
    eexists _, _. split; [exact Hi|]. rewrite E. exact Eq.
  - right. split; [lia|]. destruct (sep_half _ (Sp (S i) ltac:(lia))) as [Hj|Hj]; [|exact Hj]. exfalso. apply Nb. right. right. right. right.
    destruct (sep_after first segs i) as (q & Eq); [lia|]. rewrite nth_labels in E by lia. rewrite E in Eq. cbn [app] in Eq.
    eexists _, _, _, _. split; [exact Hj|]. split; [exact Hi|exact Eq].
Qed.

Lemma c20_only : forall ext rules t p r scheme user raw h port path first zs segs i, build_trie rules = Ret t ->
  extract ext t p = Ret (r, None) -> r_host_type r = HHostName ->
  url_parts ext p scheme user raw h port path -> labelled h first zs segs ->
  (i <= length segs)%nat -> nth i (labels first segs) [] = [] ->
  (r_suffix r = [] /\ i = length segs /\ i <> 0%nat /\ looked_at rules (labels first segs) i)
  \/ ((1 <= i)%nat /\ snd (nth (i - 1) segs ([], [])) = half_sep)
  \/ ((i < length segs)%nat /\ snd (nth i segs ([], [])) = half_sep).
Proof.
  intros ext rules t p r sc us raw h po pa first zs segs i B H T U L Li E.
  destruct (host_name _ _ _ _ H T) as (sc' & us' & raw' & h' & po' & pa' & f' & z' & s' & k & U' & _ & _ & L' & Hw & Hok & Hs & Hi & Dn & Er).
  destruct (parts_unique _ _ _ _ _ _ _ _ _ _ _ _ _ _ U U') as (<- & <- & <- & <- & <- & <-).
  destruct (stripped_unique _ _ _ _ _ _ _ L L') as (<- & <- & <-). clear U' L'.
  pose proof (counts_looked t rules first segs (build_trie_represents _ _ B)) as K. rewrite Hw in K. destruct K as (Ne & (M & M') & _).
  assert (Es : c_has k = false -> r_suffix r = []) by (intros Z; rewrite Er; cbn [r_suffix]; unfold the_suffix; rewrite Z; reflexivity).
  clear Er. apply valid_iff in Hi. unfold checked_text in Hi. pose proof (ok_cases _ _ Hok) as Hc. pose proof (ok_prev _ _ Hok) as Hp.
  pose proof L as (_ & W & _). apply well_split_app in W.
  assert (Nl : forall j, (j <= c_prev k)%nat -> (j < length segs)%nat -> i <> j).
  { intros j Hj Hj' ->. apply Ne. exists j. split; [apply (looked_le _ _ _ _ M Hj)|]. split; [rewrite labels_length; lia|exact E]. }
  assert (G : forall x, (x <= length segs)%nat -> ~ bad_text (host first (skipn x segs)) -> (x < i)%nat ->
     ((1 <= i)%nat /\ snd (nth (i - 1) segs ([], [])) = half_sep) \/ ((i < length segs)%nat /\ snd (nth i segs ([], [])) = half_sep)).
  { intros x Lx Nb Lt. destruct (empty_checked first (skipn x segs) (i - x) (skipn_split _ _ _ W) Nb) as [Y|(Y & Y')].
    - rewrite skipn_length. lia.
    - rewrite labels_skip by exact Lx. replace (x + (i - x))%nat with i by lia. exact E.
    - left. rewrite nth_skipn' in Y. replace (x + (i - x - 1))%nat with (i - 1)%nat in Y by lia. split; [lia|exact Y].
    - right. rewrite nth_skipn' in Y'. replace (x + (i - x))%nat with i in Y' by lia. rewrite skipn_length in Y. split; [lia|exact Y']. }
  unfold the_domain, label_at in Dn. destruct (c_has k) eqn:Z.
  - specialize (Hs eq_refl). right.
    assert (Ni : i <> c_sep k) by (intros ->; contradiction).
    destruct (Nat.le_gt_cases i (c_start k)) as [X|X].
    + exfalso. destruct (Nat.eq_dec i (c_prev k)) as [->|Np]; [|apply (Nl i); lia].
      apply (Nl (c_prev k)); [lia| |reflexivity]. destruct Hc as [(C1 & [C2|C2])|(C1 & C2)]; lia.
    + apply (G (c_start k)); [destruct Hc as [(C1 & C2)|(C1 & C2)]; lia|exact Hi|exact X].
  - destruct (Nat.le_gt_cases i (c_prev k)) as [X|X].
    + left. split; [exact (Es eq_refl)|]. destruct (Nat.eq_dec i (length segs)) as [El|El]; [|exfalso; apply (Nl i); lia].
      split; [exact El|]. split; [intros ->; contradiction|]. apply (looked_le _ _ _ _ M X).
    + right. apply (G (c_prev k)); [exact Hp|exact Hi|exact X].
Qed.
