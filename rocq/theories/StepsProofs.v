(** StepsProofs.v - counting steps changes no result, and Extract takes linear time. *)

From Verif Require Import Base BaseFacts Utf8 Utf8Facts Str Net Trie UrlSpec Extract UrlFacts UrlProofs WeakAny Steps.
From Coq Require Import ZifyBool ZifyNat ZifyN.
Local Open Scope Z_scope.

(** ** Erasure *)

Lemma fst_cbind : forall A B (o : counted A) (f : A -> counted B), fst (cbind o f) = bind (fst o) (fun x => fst (f x)).
Proof. intros A B [[x| |] n] f; reflexivity. Qed.
Lemma bind_ext : forall A B (o o' : outcome A) (f g : A -> outcome B), o = o' -> (forall x, f x = g x) -> bind o f = bind o' g.
Proof. intros A B o o' f g -> H. destruct o'; cbn [bind]; auto. Qed.

Ltac er :=
  repeat first
    [ reflexivity
    | rewrite fst_cbind
    | progress cbn [fst with_steps at_once cret]
    | progress cbv zeta
    | apply bind_ext; [|intros]
    | match goal with
      | |- fst (match ?x with _ => _ end) = _ => destruct x
      | |- _ = match ?x with _ => _ end => destruct x
      end ].

Lemma erase_ipv4_loop : forall n first s, fst (ipv4_loop_c n first s) = ipv4_loop n first s.
Proof.
  induction n as [|n IH]; intros first s; cbn [ipv4_loop_c ipv4_loop]; [reflexivity|]. er. apply IH.
Qed.
Lemma erase_ipv4 : forall s, fst (is_ipv4_c s) = is_ipv4 s.
Proof. intros s. unfold is_ipv4_c, is_ipv4. er. apply erase_ipv4_loop. Qed.
Lemma erase_ipv6_loop : forall n s i e, fst (ipv6_loop_c n s i e) = ipv6_loop n s i e.
Proof.
  induction n as [|n IH]; intros s i e; cbn [ipv6_loop_c ipv6_loop]; [er|]. er; try apply erase_ipv4; try apply IH.
Qed.
Lemma erase_ipv6 : forall s, fst (is_ipv6_c s) = is_ipv6 s.
Proof. intros s. unfold is_ipv6_c, is_ipv6. er. apply erase_ipv6_loop. Qed.
Lemma erase_port : forall u a, fst (port_path_c u a) = port_path u a.
Proof. intros u a. unfold port_path_c, port_path. er. Qed.
Lemma erase_suffix : forall n netloc node hs hl sep st en, fst (suffix_loop_c n netloc node hs hl sep st en) = suffix_loop n netloc node hs hl sep st en.
Proof.
  induction n as [|n IH]; intros netloc node hs hl sep st en; cbn [suffix_loop_c suffix_loop]; [reflexivity|]. er; apply IH.
Qed.
Lemma erase_components : forall u netloc ignore w, fst (host_components_c u netloc ignore w) = host_components u netloc ignore w.
Proof. intros u netloc ignore w. unfold host_components_c, host_components. er. Qed.
Lemma erase_host : forall t u netloc ignore, fst (extract_host_c t u netloc ignore) = extract_host t u netloc ignore.
Proof.
  intros t u netloc ignore. unfold extract_host_c, extract_host. er; try apply erase_suffix; try apply erase_components.
  unfold ipv4_host_c, ipv4_host. er. apply erase_ipv4.
Qed.
Lemma erase_extract : forall ext t p, fst (extract_c ext t p) = extract ext t p.
Proof.
  intros ext t p. unfold extract_c, extract. er; try apply erase_ipv6; try apply erase_port; apply erase_host.
Qed.

(** ** Bounds *)

Lemma steps_cbind : forall A B (o : counted A) (f : A -> counted B) k n,
  snd o <= k -> k <= n -> (forall x, fst o = Ret x -> snd (f x) <= n - k) -> snd (cbind o f) <= n.
Proof.
  intros A B [[x| |] c] f k n H L F; unfold cbind; cbn [fst snd] in *; [specialize (F x eq_refl)| |]; lia.
Qed.
Lemma steps_once : forall A B (o : outcome A) (f : A -> counted B) n,
  0 <= n -> (forall x, o = Ret x -> snd (f x) <= n) -> snd (cbind (at_once o) f) <= n.
Proof. intros A B o f n N H. destruct o as [x| |]; unfold cbind, at_once; cbn [fst snd]; [specialize (H x eq_refl)| |]; lia. Qed.
Lemma steps_with : forall A k (o : counted A) n, snd o <= n - k -> snd (with_steps k o) <= n.
Proof. intros A k o n H. unfold with_steps. cbn [snd]. lia. Qed.

Lemma slice_in : forall A (s t : list A) a b, slice s a b = Ret t -> 0 <= a <= b /\ b <= len s /\ len t = b - a.
Proof.
  intros A s t a b H. apply slice_inv in H. destruct H as (p & q & -> & Lp & ->). rewrite !len_app.
  pose proof (len_nonneg _ p). pose proof (len_nonneg _ q). pose proof (len_nonneg _ t). lia.
Qed.
Lemma trim_short : forall s chars mode t, fast_trim s chars mode = Ret t -> len t <= len s.
Proof.
  intros s chars mode t. unfold fast_trim. destruct (if negb (trim_mode_eqb mode TrimRight) then _ else _) as [st al].
  destruct al; [intros E; injection E as <-; unfold len; cbn [length]; lia|].
  destruct (if negb (trim_mode_eqb mode TrimLeft) then _ else _) as [en ar].
  destruct ar; [intros E; injection E as <-; unfold len; cbn [length]; lia|]. intros E. apply slice_in in E. lia.
Qed.
Lemma range_short : forall s skip i, len (range_from s skip i) <= len s.
Proof.
  induction s as [|b s IH]; intros skip i; cbn [range_from]; [unfold len; cbn [length]; lia|]. destruct skip as [|k].
  - destruct (decode_rune (b :: s)) as [r n]. rewrite !len_cons. specialize (IH (n - 1)%nat (i + 1)). lia.
  - rewrite len_cons. specialize (IH k (i + 1)). lia.
Qed.

Ltac ln s := pose proof (len_nonneg _ s).
Ltac leaf IH := repeat match goal with |- context [if ?x then _ else _] => destruct x end; try lia; apply IH || (eapply Z.le_trans; [apply Z.add_le_mono_l; apply IH|lia]).

Lemma scheme_bound : forall s i c n, scheme_steps s i c n <= len s.
Proof.
  induction s as [|b s IH]; intros i c n; cbn [scheme_steps]; [unfold len; cbn [length]; lia|]. rewrite len_cons. ln s. apply Z.add_le_mono_l.
  repeat match goal with |- context [if ?x then _ else _] => destruct x end; try lia; apply IH.
Qed.
Lemma index_any_bound : forall s a, index_any_steps s a <= len s.
Proof. induction s as [|b s IH]; intros a; cbn [index_any_steps]; [unfold len; cbn [length]; lia|]. rewrite len_cons. ln s. specialize (IH a). destruct (contains a b); lia. Qed.
Lemma invalid_bound : forall rs l b, invalid_steps rs l b <= len rs.
Proof.
  induction rs as [|[i c] rs IH]; intros l b; cbn [invalid_steps]; [unfold len; cbn [length]; lia|]. rewrite len_cons. ln rs. apply Z.add_le_mono_l.
  repeat match goal with |- context [if ?x then _ else _] => destruct x end; try lia; apply IH.
Qed.
Lemma last_index_bound : forall i s skip chars, (i <= length s)%nat -> (skip <= i)%nat ->
  last_index_steps s i skip chars <= Z.of_nat i - Z.of_nat skip - Z.max 0 (last_index_from s i skip chars).
Proof.
  induction i as [|k IH]; intros s skip chars L S; cbn [last_index_steps last_index_from]; [lia|].
  destruct skip as [|sk]; [|specialize (IH s sk chars); lia].
  destruct (decode_last (firstn (Datatypes.S k) s)) as [r n] eqn:E.
  assert (B : (1 <= n <= Datatypes.S k)%nat).
  { apply decode_last_size in E; [rewrite firstn_length in E; lia|]. intros V. apply (f_equal (@length N)) in V. rewrite firstn_length in V. cbn [length] in V. lia. }
  destruct (exists_in chars r); [lia|]. specialize (IH s (n - 1)%nat chars). lia.
Qed.
Lemma last_any_bound : forall s chars, last_index_steps s (length s) 0 chars <= len s - Z.max 0 (last_index_any s chars).
Proof. intros s chars. unfold last_index_any, len. pose proof (last_index_bound (length s) s 0%nat chars). lia. Qed.
Lemma index_any_range : forall s a, index_any_ascii s a <= len s.
Proof.
  intros s a. unfold index_any_ascii. enough (H : forall i, 0 <= i -> index_any_ascii_from s a i <= i + len s) by (specialize (H 0); lia).
  induction s as [|b s IH]; intros i I; cbn [index_any_ascii_from]; [unfold len; cbn [length]|rewrite len_cons; ln s; specialize (IH (i + 1)); destruct (contains a b)]; lia.
Qed.
Lemma before_bound : forall s a, last_byte_before_steps s a <= 2 * len s.
Proof.
  intros s a. unfold last_byte_before_steps. pose proof (index_any_bound s a). pose proof (index_any_range s a). cbv zeta. destruct (_ =? -1); lia.
Qed.
Lemma trim_left_bound : forall rs chars, trim_left_steps rs chars <= len rs.
Proof. induction rs as [|[i c] rs IH]; intros chars; cbn [trim_left_steps]; [unfold len; cbn [length]; lia|]. rewrite len_cons. ln rs. specialize (IH chars). destruct (exists_in chars c); lia. Qed.
Lemma trim_right_bound : forall i s skip chars, trim_right_steps s i skip chars <= Z.of_nat i.
Proof.
  induction i as [|k IH]; intros s skip chars; cbn [trim_right_steps]; [lia|]. destruct skip as [|sk]; [|specialize (IH s sk chars); lia].
  destruct (decode_last (firstn (S k) s)) as [r n]. specialize (IH s (n - 1)%nat chars). destruct (exists_in chars r); lia.
Qed.
Lemma trim_bound : forall s chars mode, trim_steps s chars mode <= 2 * len s.
Proof.
  intros s chars mode. unfold trim_steps. ln s. pose proof (trim_left_bound (range_str s) chars). pose proof (range_short s 0 0). unfold range_str in *.
  pose proof (trim_right_bound (length s) s 0 chars). unfold len in *. destruct mode; cbn [trim_mode_eqb negb]; lia.
Qed.
Lemma trim_right_only : forall s chars, trim_steps s chars TrimRight <= len s.
Proof. intros s chars. unfold trim_steps. cbn [trim_mode_eqb negb]. pose proof (trim_right_bound (length s) s 0 chars). unfold len. lia. Qed.
Lemma dtoi_bound : forall s n, dtoi_steps s n <= len s.
Proof.
  induction s as [|b s IH]; intros n; cbn [dtoi_steps]; [unfold len; cbn [length]; lia|]. rewrite len_cons. ln s. destruct (is_digit b); [|lia].
  cbv zeta. specialize (IH (n * 10 + (Z.of_N b - 48))). destruct (_ >=? _); lia.
Qed.
Lemma xtoi_bound : forall s n, xtoi_steps s n <= len s.
Proof.
  induction s as [|b s IH]; intros n; cbn [xtoi_steps]; [unfold len; cbn [length]; lia|]. rewrite len_cons. ln s. destruct (hex_value b) as [d|]; [|lia].
  cbv zeta. specialize (IH (n * 16 + d)). destruct (_ >=? _); lia.
Qed.
Lemma scan_bound : forall s i n o c, scan_steps s i n o c <= len s.
Proof.
  induction s as [|b s IH]; intros i n o c; cbn [scan_steps]; [unfold len; cbn [length]; lia|]. rewrite len_cons. ln s. apply Z.add_le_mono_l. cbv zeta.
  repeat match goal with |- context [if ?x then _ else _] => destruct x end; try lia; apply IH.
Qed.

Lemma ipv4_loop_bound : forall k first s, snd (ipv4_loop_c k first s) <= Z.of_nat k * (1 + len s).
Proof.
  induction k as [|k IH]; intros first s; cbn [ipv4_loop_c]; [cbn [snd cret]; lia|]. ln s.
  apply steps_with. destruct (len s =? 0); [cbn [snd cret]; nia|]. cbv zeta.
  apply (steps_cbind _ _ _ _ 0); [destruct first; [cbn; lia|] | nia |].
  - destruct (decode_rune s) as [r n]. destruct (exists_in _ r); [|cbn; lia]. apply steps_once; [lia|]. intros; cbn; lia.
  - intros [t|] E; [|cbn [snd cret]; nia].
    assert (Lt : len t <= len s).
    { destruct first; [injection E as <-; lia|]. destruct (decode_rune s) as [r n]. destruct (exists_in _ r); [|discriminate E].
      rewrite fst_cbind in E. cbn [fst at_once] in E. destruct (slice s (Z.of_nat n) (len s)) as [t'| |] eqn:E1; cbn [bind fst cret] in E; try discriminate E.
      injection E as <-. apply slice_in in E1. lia. }
    pose proof (dtoi_bound t 0). ln t. apply steps_with. destruct (dtoi t) as [[n c] ok]. destruct (negb ok || (n >? 255)); [cbn [snd cret]; nia|].
    apply (steps_cbind _ _ _ _ 0); [destruct (c >? 1); [apply steps_once; [lia|]; intros; cbn; lia|cbn; lia]|nia|].
    intros lead _. destruct lead; [cbn [snd cret]; nia|]. apply steps_once; [nia|]. intros t2 E2. apply slice_in in E2. specialize (IH false t2). ln t2. nia.
Qed.
Lemma ipv4_bound : forall s, snd (is_ipv4_c s) <= 5 * len s + 4.
Proof.
  intros s. unfold is_ipv4_c. ln s. pose proof (trim_right_only s label_separators_rune_set).
  apply (steps_cbind _ _ _ _ (len s)); [apply steps_with; cbn [snd at_once]; lia|lia|]. intros t E. cbn [fst with_steps at_once] in E.
  apply trim_short in E. pose proof (ipv4_loop_bound (Z.to_nat ipv4_len) true t) as B. change (Z.of_nat (Z.to_nat ipv4_len)) with 4 in B. lia.
Qed.

Lemma ipv6_loop_bound : forall k s i e, snd (ipv6_loop_c k s i e) <= Z.of_nat k * (2 * len s + 1) + 5 * len s + 4.
Proof.
  induction k as [|k IH]; intros s i e; cbn [ipv6_loop_c]; ln s; (destruct (i <? ipv6_len); [|cbn [snd cret]; nia]); [cbn [snd]; lia|].
  pose proof (xtoi_bound s 0). apply steps_with. destruct (xtoi s) as [[n c] ok].
  destruct (negb ok || (n >? 65535)); [cbn [snd cret]; nia|].
  apply (steps_cbind _ _ _ _ (len s)); [|nia|].
  - destruct (c <? len s); [|cbn [snd cret]; lia]. apply steps_once; [lia|]. intros t E. apply slice_in in E. apply steps_with. cbn [snd cret]. lia.
  - intros sep _. destruct sep.
    + destruct ((e <? 0) && negb (i =? len_diff)); [cbn [snd cret]; nia|]. destruct (i >? len_diff); [cbn [snd cret]; nia|].
      apply (steps_cbind _ _ _ _ (5 * len s + 4)); [apply ipv4_bound|nia|]. intros v _. destruct (negb v); cbn [snd cret]; nia.
    + cbv zeta. apply steps_once; [nia|]. intros t E. apply slice_in in E. ln t. destruct (len t =? 0); [cbn [snd cret]; nia|].
      apply steps_once; [nia|]. intros x _. destruct (negb (x =? 58)%N || (len t =? 1)); [cbn [snd cret]; nia|].
      apply steps_once; [nia|]. intros t2 E2. apply slice_in in E2. ln t2. apply steps_once; [nia|]. intros y _.
      destruct (y =? 58)%N.
      * destruct (e >=? 0); [cbn [snd cret]; nia|]. apply steps_once; [nia|]. intros t3 E3. apply slice_in in E3. ln t3.
        destruct (len t3 =? 0); [cbn [snd cret]; nia|]. eapply Z.le_trans; [apply IH|]. nia.
      * eapply Z.le_trans; [apply IH|]. nia.
Qed.
Lemma ipv6_bound : forall s, snd (is_ipv6_c s) <= 21 * len s + 12.
Proof.
  intros s. unfold is_ipv6_c. ln s.
  apply (steps_cbind _ _ _ _ 0); [|lia|].
  - destruct (len s >=? 2); [|cbn; lia]. do 2 (apply steps_once; [lia|]; intros). destruct (_ && _); [|cbn; lia]. apply steps_once; [lia|]. intros; cbn; lia.
  - intros [[t e] only] E.
    assert (Lt : len t <= len s).
    { destruct (len s >=? 2); [|cbn in E; injection E as <- _ _; lia]. rewrite fst_cbind in E. cbn [fst at_once] in E. destruct (index s 0) as [x| |]; try discriminate E. cbn [bind] in E.
      rewrite fst_cbind in E. cbn [fst at_once] in E. destruct (index s 1) as [y| |]; try discriminate E. cbn [bind] in E.
      destruct (_ && _); [|cbn in E; injection E as <- _ _; lia]. rewrite fst_cbind in E. cbn [fst at_once] in E. destruct (slice s 2 (len s)) as [z| |] eqn:E1; try discriminate E. cbn [bind fst cret] in E.
      injection E as <- _ _. apply slice_in in E1. lia. }
    destruct only; [cbn [snd cret]; lia|]. ln t. pose proof (ipv6_loop_bound 8 t 0 e) as B. change (Z.of_nat 8) with 8 in B.
    apply (steps_cbind _ _ _ _ (21 * len s + 12)); [lia|lia|]. intros [[[z i] e2]|] _; [|cbn [snd cret]; lia].
    destruct (negb (len z =? 0)); [cbn [snd cret]; lia|]. destruct (i <? ipv6_len); cbn [snd cret]; lia.
Qed.

Lemma port_bound : forall u a, snd (port_path_c u a) <= 2 * len a.
Proof.
  intros u a. unfold port_path_c. ln a. destruct (negb (len a =? 0)); [|cbn [snd cret]; lia]. pose proof (index_any_bound a end_of_host_with_port_delimiters_set).
  apply steps_with. cbv zeta. apply steps_once; [lia|]. intros c _. apply (steps_cbind _ _ _ _ (len a)); [|lia|].
  - destruct (c =? 58)%N; [|cbn [snd cret]; lia]. apply (steps_cbind _ _ _ _ 0); [destruct (_ =? -1); cbn; lia|lia|].
    intros m E. assert (len m <= len a) by (destruct (_ =? -1); cbn [fst at_once] in E; apply slice_in in E; lia).
    apply steps_with. destruct (atoi m) as [v|]; [destruct (_ && _)|]; cbn [snd cret]; lia.
  - intros [u' [e|]] _; [cbn [snd cret]; lia|]. destruct (_ && _); [|cbn [snd cret]; lia]. apply steps_once; [lia|]. intros; cbn [snd cret]; lia.
Qed.

Lemma suffix_bound : forall k netloc node hs hl sep st en, 0 <= sep -> snd (suffix_loop_c k netloc node hs hl sep st en) <= 6 * sep + 4.
Proof.
  induction k as [|k IH]; intros netloc node hs hl sep st en S; cbn [suffix_loop_c]; [cbn [snd]; lia|].
  apply steps_once; [lia|]. intros head E. pose proof (last_sep_at _ _ _ E) as D. cbv zeta in D. apply slice_in in E.
  pose proof (last_any_bound head label_separators_rune_set) as B. apply steps_with. cbv zeta.
  set (d := last_index_any head label_separators_rune_set) in *. clearbody d.
  destruct D as [->|(b & Ib & D1 & D2 & D3)].
  - change (negb (-1 =? -1)) with false. cbv iota.
    apply (steps_cbind _ _ _ _ 0); [apply steps_once; [lia|]; intros; cbn [snd cret]; lia|lia|]. intros [label end_] L.
    assert (Ll : len label = sep /\ end_ = true).
    { rewrite fst_cbind in L. cbn [fst at_once] in L. destruct (slice netloc 0 sep) as [l| |] eqn:E1; try discriminate L. cbn [bind fst cret] in L.
      injection L as <- <-. apply slice_in in E1. split; [lia|reflexivity]. }
    destruct Ll as [Ll ->]. cbn [andb]. apply steps_with. destruct (child node (str "*")) as [x|]; [cbn [snd cret]; lia|].
    destruct (child node _) as [val|]; [|cbn [snd cret]; lia]. destruct (negb hs && end_of val); rewrite orb_true_r; cbn [snd cret]; lia.
  - replace (negb (d =? -1)) with true by lia. cbv iota. rewrite Ib.
    apply (steps_cbind _ _ _ _ 0); [do 2 (apply steps_once; [lia|]; intros); cbn [snd cret]; lia|lia|]. intros [label end_] L.
    assert (Ll : len label = sep - (d + sep_size b)).
    { rewrite fst_cbind in L. cbn [fst at_once bind] in L. rewrite fst_cbind in L. cbn [fst at_once] in L. destruct (slice netloc _ sep) as [l| |] eqn:E1; try discriminate L. cbn [bind fst cret] in L.
      injection L as <- _. apply slice_in in E1. lia. }
    cbn [andb]. destruct (len label =? 0) eqn:Z0.
    + destruct (negb hl); [|cbn [snd cret]; lia]. eapply Z.le_trans; [apply IH; lia|lia].
    + apply steps_with. destruct (child node (str "*")) as [x|]; [cbn [snd cret]; lia|].
      destruct (child node _) as [val|]; [|cbn [snd cret]; lia].
      destruct (negb hs && end_of val); (destruct ((len (matches_of val) =? 0) || end_); [cbn [snd cret]; lia|]; eapply Z.le_trans; [apply IH; lia|lia]).
Qed.

Lemma components_bound : forall u netloc ignore w, snd (host_components_c u netloc ignore w) <= 2 * len netloc.
Proof.
  intros u netloc ignore w. unfold host_components_c. ln netloc. destruct (if w_sep_idx w =? -1 then _ else _) as [sep st].
  apply steps_once; [lia|]. intros checked E. apply slice_in in E. pose proof (invalid_bound (range_str checked) (len checked - 1) false). pose proof (range_short checked 0 0). unfold range_str in *.
  apply steps_with. destruct (has_invalid_chars checked); [cbn [snd cret]; lia|].
  apply (steps_cbind _ _ _ _ (len netloc)); [|lia|].
  - destruct (w_has_suffix w).
    + destruct (sep <? len netloc); [|apply steps_once; [lia|]; intros; cbn [snd cret]; lia].
      do 3 (apply steps_once; [lia|]; intros). match goal with H : slice netloc 0 sep = Ret ?h |- _ => apply slice_in in H; pose proof (last_any_bound h label_separators_rune_set) end.
      apply steps_with. cbv zeta. destruct (negb _); repeat (apply steps_once; [lia|]; intros); cbn [snd cret]; lia.
    + apply steps_once; [lia|]. intros h Eh. apply slice_in in Eh. pose proof (last_any_bound h label_separators_rune_set). apply steps_with. cbv zeta.
      apply (steps_cbind _ _ _ _ 0); [destruct (negb _); [apply steps_once; [lia|]; intros|]; cbn [snd cret]; lia|lia|]. intros start _.
      apply steps_once; [lia|]. intros; cbn [snd cret]; lia.
  - intros [u' d] _. apply (steps_cbind _ _ _ _ 0); [destruct (_ && _); [apply steps_once; [lia|]; intros|]; cbn [snd cret]; lia|lia|].
    intros u2 _. destruct (len (r_domain u2) =? 0); cbn [snd cret]; lia.
Qed.

Lemma host_bound : forall t u netloc ignore, snd (extract_host_c t u netloc ignore) <= 13 * len netloc + 8.
Proof.
  intros t u netloc ignore. unfold extract_host_c. ln netloc.
  apply (steps_cbind _ _ _ _ (6 * len netloc + 4)); [apply suffix_bound; lia|lia|]. intros [e|w] _; [cbn [snd cret]; lia|].
  apply (steps_cbind _ _ _ _ (5 * len netloc + 4)); [|lia|].
  - unfold ipv4_host_c. destruct (len netloc >=? 7); [|cbn [snd cret]; lia]. apply steps_once; [lia|]. intros c _. destruct (contains numeric_set c); [apply ipv4_bound|cbn [snd cret]; lia].
  - intros v4 _. destruct v4; [apply steps_once; [lia|]; intros; cbn [snd cret]; lia|]. pose proof (components_bound u netloc ignore w). lia.
Qed.

Lemma unescape_short : forall s d, query_unescape s = inr d -> len d <= len s.
Proof. intros s d H. apply percent_decoded_iff in H. induction H; rewrite ?len_cons; try lia; unfold len; cbn [length]; lia. Qed.

Lemma extract_bound : forall ext t p k, 1 <= k ->
  (p_to_punycode p = true -> forall h a, idna_to_puny ext h = Some a -> len a <= k * len h) ->
  snd (extract_c ext t p) <= (32 + 13 * k) * len (p_url p) + 20.
Proof.
  intros ext t p k K P. unfold extract_c. cbv zeta. set (n := len (p_url p)). assert (N : 0 <= n) by apply len_nonneg.
  pose proof (trim_bound (p_url p) whitespace_rune_set TrimBoth) as T. fold n in T.
  assert (KN : n <= k * n) by nia.
  apply (steps_cbind _ _ _ _ (2 * n)); [apply steps_with; cbn [snd at_once]; lia|lia|]. intros s E. cbn [fst with_steps at_once] in E.
  apply trim_short in E. fold n in E. pose proof (scheme_bound s 0 false 0). apply steps_with.
  match goal with |- snd (cbind ?o ?f) <= _ => assert (O : snd o <= 0 /\ (forall x, fst o = Ret x -> len (snd x) <= n)); [|destruct O as [O1 O2]; apply (steps_cbind _ _ o f 0); [exact O1|lia|]; clear O1] end.
  { destruct (negb _); [|split; [cbn; lia|intros x X; injection X as <-; exact E]]. split; [do 2 (apply steps_once; [lia|]; intros); cbn; lia|].
    intros x X. rewrite fst_cbind in X. cbn [fst at_once] in X. destruct (slice s 0 _) as [a| |]; try discriminate X. cbn [bind] in X. rewrite fst_cbind in X. cbn [fst at_once] in X.
    destruct (slice s _ (len s)) as [b| |] eqn:E1; try discriminate X. injection X as <-. cbn [snd]. apply slice_in in E1. lia. }
  intros [u s1] X. apply O2 in X. clear O2. cbn [snd] in X. pose proof (before_bound s1 invalid_user_info_chars_set).
  apply (steps_cbind _ _ _ _ (2 * n)); [apply steps_with; cbn [snd at_once]; lia|lia|]. intros ati _.
  match goal with |- snd (cbind ?o ?f) <= _ => assert (O : snd o <= 0 /\ (forall x, fst o = Ret x -> len (snd x) <= n)); [|destruct O as [O1 O2]; apply (steps_cbind _ _ o f 0); [exact O1|lia|]; clear O1] end.
  { destruct (negb _); [|split; [cbn; lia|intros x Y; injection Y as <-; exact X]]. split; [do 2 (apply steps_once; [lia|]; intros); cbn; lia|].
    intros x Y. rewrite fst_cbind in Y. cbn [fst at_once] in Y. destruct (slice s1 0 _) as [a| |]; try discriminate Y. cbn [bind] in Y. rewrite fst_cbind in Y. cbn [fst at_once] in Y.
    destruct (slice s1 _ (len s1)) as [b| |] eqn:E1; try discriminate Y. injection Y as <-. cbn [snd]. apply slice_in in E1. lia. }
  intros [u2 s2] Y. apply O2 in Y. clear O2. cbn [snd] in Y. pose proof (scan_bound s2 0 (len s2) (-1) (-1)). apply steps_with.
  destruct (scan_host s2 0 (len s2) (-1) (-1)) as [e|[[op cl] he0]]; [cbn [snd cret]; lia|]. set (he := if cl =? len s2 - 1 then -1 else _). clearbody he. ln s2.
  apply (steps_cbind _ _ _ _ (22 * n + 12)); [|lia|].
  { destruct (cl >? op); [|cbn [snd cret]; lia]. apply steps_once; [lia|]. intros inner E1. apply slice_in in E1. pose proof (ipv6_bound inner).
    apply (steps_cbind _ _ _ _ (21 * n + 12)); [lia|lia|]. intros v6 _. destruct (negb v6); [cbn [snd cret]; lia|].
    apply (steps_cbind _ _ _ _ n); [|lia|].
    - destruct (negb _); [|cbn [snd cret]; lia]. apply steps_once; [lia|]. intros a E2. apply slice_in in E2. pose proof (index_any_bound a end_of_host_delimiters_set). apply steps_with. cbn [snd cret]. lia.
    - intros ok _. destruct (negb ok); cbn [snd cret]; lia. }
  intros [u3 [e|]] _; [cbn [snd cret]; lia|].
  match goal with |- snd (cbind ?o ?f) <= _ => assert (O : snd o <= 0 /\ (forall x, fst o = Ret x -> len (fst x) <= n /\ len (snd x) <= n)); [|destruct O as [O1 O2]; apply (steps_cbind _ _ o f 0); [exact O1|lia|]; clear O1] end.
  { destruct (negb _); [|split; [cbn; lia|intros x Z; injection Z as <-; cbn [fst snd]; rewrite len_nil; lia]]. split; [do 2 (apply steps_once; [lia|]; intros); cbn; lia|].
    intros x Z. rewrite fst_cbind in Z. cbn [fst at_once] in Z. destruct (slice s2 he _) as [a| |] eqn:E0; try discriminate Z. cbn [bind] in Z. rewrite fst_cbind in Z. cbn [fst at_once] in Z.
    destruct (slice s2 0 he) as [b| |] eqn:E1; try discriminate Z. injection Z as <-. cbn [fst snd]. apply slice_in in E1. apply slice_in in E0. lia. }
  intros [after s3] W. apply O2 in W. clear O2. cbn [fst snd] in W. pose proof (port_bound u3 after).
  apply (steps_cbind _ _ _ _ (2 * n)); [lia|lia|]. intros [u4 [e|]] _; [cbn [snd cret]; lia|].
  assert (Last : snd (with_steps (2 * len s3) match convert_host ext (p_to_punycode p) s3 with inl e => cret (u4, Some e) | inr host => extract_host_c t u4 host (p_ignore_sub_domains p) end) <= 2 * n + (13 * k * n + 8)).
  { apply steps_with. destruct (convert_host ext (p_to_punycode p) s3) as [e|host] eqn:C; [cbn [snd cret]; lia|]. pose proof (host_bound t u4 host (p_ignore_sub_domains p)).
    enough (len host <= k * n) by lia. unfold convert_host in C. destruct (query_unescape s3) as [e|d] eqn:Q; [discriminate C|]. apply unescape_short in Q.
    destruct (p_to_punycode p).
    - injection C as <-. unfold format_as_punycode. destruct (idna_to_puny ext d) as [a|] eqn:I; [apply P in I; [nia|reflexivity]|rewrite len_nil; lia].
    - destruct (idna_to_unicode_err ext d); [discriminate C|]. injection C as <-. nia. }
  destruct (r_host_type u4); cbn [snd cret]; lia.
Qed.

Lemma extract_plain_bound : forall ext t p, p_to_punycode p = false -> snd (extract_c ext t p) <= 45 * len (p_url p) + 20.
Proof.
  intros ext t p P. pose proof (extract_bound ext t p 1) as B. change (32 + 13 * 1) with 45 in B. apply B; [lia|]. rewrite P. discriminate.
Qed.
