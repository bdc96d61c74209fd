(** WideProofs.v - the integers of a machine are wide enough for Extract. *)

From Verif Require Import Base BaseFacts Utf8 Utf8Facts Str Net Trie Extract Wide WideSpec UrlProofs.
From Coq Require Import ZifyBool ZifyNat ZifyN.
Local Open Scope Z_scope.

Lemma wrap_id : forall w z, 1 <= w -> - 2 ^ (w - 1) <= z < 2 ^ (w - 1) -> wrap w z = z.
Proof.
  intros w z W H. unfold wrap. assert (E : 2 ^ w = 2 * 2 ^ (w - 1)). { rewrite <- Z.pow_succ_r by lia. f_equal. lia. }
  rewrite E, Z.mod_small by lia. lia.
Qed.
(** Half of the range. *)
Definition half (w : Z) : Z := 2 ^ (w - 1).
Lemma half_32 : forall w, 32 <= w -> 2147483648 <= half w.
Proof. intros w H. unfold half. change 2147483648 with (2 ^ 31). apply Z.pow_le_mono_r; lia. Qed.
Lemma wrap_in : forall w z, 32 <= w -> - half w <= z < half w -> wrap w z = z.
Proof. intros w z W H. apply wrap_id; [lia|exact H]. Qed.

(** What the one returns, the other returns. *)
Definition gives {A} (o o' : outcome A) : Prop := forall x, o = Ret x -> o' = Ret x.
Lemma gives_refl : forall A (o : outcome A), gives o o.
Proof. intros A o x H. exact H. Qed.
Lemma gives_bind : forall A B (o o' : outcome A) (f f' : A -> outcome B), gives o o' -> (forall x, o = Ret x -> gives (f x) (f' x)) -> gives (bind o f) (bind o' f').
Proof. intros A B o o' f f' H1 H2 y E. destruct o as [x| |]; cbn [bind] in E; try discriminate E. rewrite (H1 x eq_refl). cbn [bind]. exact (H2 x eq_refl y E). Qed.
Lemma bind_same : forall A B (o : outcome A) (f f' : A -> outcome B), (forall x, o = Ret x -> f x = f' x) -> bind o f = bind o f'.
Proof. intros A B o f f' H. destruct o as [x| |]; cbn [bind]; auto. Qed.

Lemma slice_short : forall A (s t : list A) a b, slice s a b = Ret t -> len t <= len s.
Proof.
  intros A s t a b. unfold slice. destruct (_ && _); [|discriminate]. intros E. injection E as <-. unfold len. rewrite firstn_length, skipn_length. lia.
Qed.
Lemma slice_wrap : forall A (s : list A) w a b, 32 <= w -> len s < half w -> gives (slice s a b) (slice s (wrap w a) b).
Proof.
  intros A s w a b W L t E. assert (F : 0 <= a < half w). { unfold slice in E. destruct (_ && _) eqn:C; [|discriminate E]. lia. }
  rewrite wrap_in by lia. exact E.
Qed.

Section Wide.
Variable w : Z.
Hypothesis W : 32 <= w.

Lemma scheme_w : forall s i n colon k, 0 <= i -> 0 <= k <= i -> i + len s < half w -> scheme_loop_w w s i n colon k = scheme_loop s i n colon k.
Proof.
  intros s. induction s as [|c s IH]; intros i n colon k Hi Hk Hl; cbn [scheme_loop_w scheme_loop]; [reflexivity|].
  assert (L : i + 1 + len s < half w) by (unfold len in *; cbn [length] in Hl; lia). assert (0 <= len s) by (unfold len; lia).
  rewrite (wrap_in w (i + 1)), (wrap_in w (k + 1)) by lia.
  rewrite !IH by lia. reflexivity.
Qed.
Lemma scheme_end_w : forall s, len s < half w -> get_scheme_end_index_w w s = get_scheme_end_index s.
Proof. intros s L. unfold get_scheme_end_index_w, get_scheme_end_index. apply scheme_w; lia. Qed.
Lemma invalid_w : forall s, len s < half w -> has_invalid_chars_w w s = has_invalid_chars s.
Proof. intros s L. unfold has_invalid_chars_w, has_invalid_chars. rewrite wrap_in; [reflexivity|exact W|]. unfold len in *. pose proof (half_32 w W). lia. Qed.
Lemma last_from_w : forall s i skip chars, Z.of_nat i < half w -> (i <= length s)%nat -> last_index_from_w w s i skip chars = last_index_from s i skip chars.
Proof.
  intros s i. induction i as [|i IH]; intros skip chars L M; cbn [last_index_from_w last_index_from]; [reflexivity|].
  destruct skip as [|sk]; [|apply IH; lia]. destruct (decode_last (firstn (S i) s)) as [r size] eqn:E. destruct (exists_in chars r); [|apply IH; lia].
  destruct (decode_last_size _ _ _ E) as (S1 & S2). { destruct s; [cbn [length] in M; lia|discriminate]. }
  rewrite firstn_length in S2. apply wrap_in; lia.
Qed.
Lemma last_any_w : forall s chars, len s < half w -> last_index_any_w w s chars = last_index_any s chars.
Proof. intros s chars L. apply last_from_w; unfold len in L; lia. Qed.
Lemma dtoi_loop_same : forall s n i, 0 <= n < big -> 0 <= i -> i + len s < half w -> dtoi_loop_w w s n i = dtoi_loop s n i.
Proof.
  pose proof (half_32 w W) as HH. intros s. induction s as [|b s IH]; intros n i Hn Hi Hl; cbn [dtoi_loop_w dtoi_loop]; [reflexivity|].
  destruct (is_digit b) eqn:D; [|reflexivity]. unfold is_digit in D. unfold big in Hn. assert (0 <= len s) by (unfold len; lia).
  assert (L : i + 1 + len s < half w) by (unfold len in *; cbn [length] in Hl; lia).
  rewrite (wrap_in w (n * 10)), (wrap_in w (n * 10 + _)), (wrap_in w (i + 1)) by lia. cbv zeta.
  destruct (_ >=? big) eqn:B; [reflexivity|]. apply IH; unfold big in *; lia.
Qed.
Lemma dtoi_same : forall s, len s < half w -> dtoi_w w s = dtoi s.
Proof. intros s L. apply dtoi_loop_same; unfold big; lia. Qed.
Lemma xtoi_loop_same : forall s n i, 0 <= n < big -> 0 <= i -> i + len s < half w -> xtoi_loop_w w s n i = xtoi_loop s n i.
Proof.
  pose proof (half_32 w W) as HH. intros s. induction s as [|b s IH]; intros n i Hn Hi Hl; cbn [xtoi_loop_w xtoi_loop]; [reflexivity|].
  destruct (hex_value b) as [d|] eqn:D; [|reflexivity]. unfold big in Hn. assert (0 <= len s) by (unfold len; lia).
  assert (Hd : 0 <= d < 16). { unfold hex_value, is_digit in D. destruct ((48 <=? b)%N && (b <=? 57)%N) eqn:D1; [injection D as <-; lia|]. destruct ((97 <=? b)%N && (b <=? 102)%N) eqn:D2; [injection D as <-; lia|]. destruct ((65 <=? b)%N && (b <=? 70)%N) eqn:D3; [injection D as <-; lia|discriminate]. }
  assert (L : i + 1 + len s < half w) by (unfold len in *; cbn [length] in Hl; lia).
  rewrite (wrap_in w (n * 16)), (wrap_in w (n * 16 + _)), (wrap_in w (i + 1)) by lia. cbv zeta.
  destruct (_ >=? big) eqn:B; [reflexivity|]. apply IH; unfold big in *; lia.
Qed.
Lemma xtoi_same : forall s, len s < half w -> xtoi_w w s = xtoi s.
Proof. intros s L. apply xtoi_loop_same; unfold big; lia. Qed.
Lemma ipv4_loop_same : forall count first s, len s < half w -> ipv4_loop_w w count first s = ipv4_loop count first s.
Proof.
  intros count. induction count as [|k IH]; intros first s L; cbn [ipv4_loop_w ipv4_loop]; [reflexivity|].
  destruct (len s =? 0); [reflexivity|]. cbv zeta. apply bind_same. intros [t|] E; [|reflexivity].
  assert (Lt : len t < half w).
  { destruct first; [injection E as <-; exact L|]. destruct (decode_rune s) as [r size]. destruct (exists_in _ r); [|discriminate E].
    destruct (slice s (Z.of_nat size) (len s)) as [t'| |] eqn:E1; cbn [bind] in E; try discriminate E. injection E as <-. apply slice_short in E1. lia. }
  rewrite dtoi_same by exact Lt. destruct (dtoi t) as [[n c] ok]. destruct (negb ok || (n >? 255)); [reflexivity|]. apply bind_same. intros lead _. destruct lead; [reflexivity|].
  apply bind_same. intros t2 E2. apply IH. apply slice_short in E2. lia.
Qed.
Lemma fast_trim_short : forall s chars mode t, fast_trim s chars mode = Ret t -> len t <= len s.
Proof.
  intros s chars mode t. unfold fast_trim. destruct (if negb (trim_mode_eqb mode TrimRight) then _ else _) as [st al].
  destruct al; [intros E; injection E as <-; unfold len; cbn [length]; lia|].
  destruct (if negb (trim_mode_eqb mode TrimLeft) then _ else _) as [en ar].
  destruct ar; [intros E; injection E as <-; unfold len; cbn [length]; lia|]. apply slice_short.
Qed.
Lemma ipv4_same : forall s, len s < half w -> is_ipv4_w w s = is_ipv4 s.
Proof.
  intros s L. unfold is_ipv4_w, is_ipv4. apply bind_same. intros t E. apply fast_trim_short in E. apply ipv4_loop_same. lia.
Qed.
Lemma ipv6_loop_same : forall fuel s i ellipsis, len s < half w -> 0 <= i <= 17 -> ipv6_loop_w w fuel s i ellipsis = ipv6_loop fuel s i ellipsis.
Proof.
  pose proof (half_32 w W) as HH. intros fuel. induction fuel as [|f IH]; intros s i ellipsis L Hi; cbn [ipv6_loop_w ipv6_loop]; destruct (i <? ipv6_len) eqn:Ei; try reflexivity.
  rewrite xtoi_same by exact L. destruct (xtoi s) as [[n c] ok]. destruct (negb ok || (n >? 65535)); [reflexivity|]. apply bind_same. intros sep _. destruct sep.
  - destruct (_ && _); [reflexivity|]. destruct (i >? len_diff); [reflexivity|]. rewrite ipv4_same by exact L. apply bind_same. intros v4 _. destruct (negb v4); [reflexivity|].
    rewrite wrap_in by (unfold ipv4_len; lia). reflexivity.
  - unfold ipv6_len in Ei. rewrite wrap_in by lia. cbv zeta. apply bind_same. intros t Et. apply slice_short in Et. destruct (len t =? 0); [reflexivity|].
    apply bind_same. intros x _. destruct (_ || _); [reflexivity|]. apply bind_same. intros t2 E2. apply slice_short in E2. apply bind_same. intros y _.
    destruct (y =? 58)%N; [|apply IH; [lia|] ].
    + destruct (ellipsis >=? 0); [reflexivity|]. apply bind_same. intros t3 E3. apply slice_short in E3. destruct (len t3 =? 0); [reflexivity|]. apply IH; [lia|].
      lia.
    + lia.
Qed.
Lemma ipv6_same : forall s, len s < half w -> is_ipv6_w w s = is_ipv6 s.
Proof.
  intros s L. unfold is_ipv6_w, is_ipv6. apply bind_same. intros [[t e] only] E. destruct only; [reflexivity|].
  assert (Lt : len t < half w).
  { destruct (len s >=? 2); [|injection E as <- _; exact L]. destruct (index s 0) as [x| |]; cbn [bind] in E; try discriminate E. destruct (index s 1) as [y| |]; cbn [bind] in E; try discriminate E.
    destruct (_ && _); [|injection E as <- _; exact L]. destruct (slice s 2 (len s)) as [t'| |] eqn:E1; cbn [bind] in E; try discriminate E. injection E as <- _ _. apply slice_short in E1. lia. }
  rewrite ipv6_loop_same by (exact Lt || lia). reflexivity.
Qed.
End Wide.

(** strconv.Atoi *)
Definition number (s : bytes) : option Z :=
  let '(neg, body) := sign s in
  match body with
  | [] => None
  | _ => match digits_value body 0 with Some v => Some (if neg then - v else v) | None => None end
  end.
Lemma digits_bounds : forall s acc v, 0 <= acc -> digits_value s acc = Some v -> acc * 10 ^ len s <= v < (acc + 1) * 10 ^ len s.
Proof.
  intros s. induction s as [|b s IH]; intros acc v Ha E; cbn [digits_value] in E.
  - injection E as <-. change (len (@nil N)) with 0. lia.
  - destruct (is_digit b) eqn:D; [|discriminate E]. unfold is_digit in D. apply IH in E; [|lia].
    assert (P : 10 ^ len (b :: s) = 10 * 10 ^ len s). { rewrite <- Z.pow_succ_r by (unfold len; lia). f_equal. unfold len. cbn [length]. lia. }
    rewrite P. assert (0 < 10 ^ len s) by (apply Z.pow_pos_nonneg; unfold len; lia). nia.
Qed.
Lemma fast_same : forall w s n, 32 <= w -> 0 <= n -> (n + 1) * 10 ^ len s <= half w -> atoi_fast w s n = digits_value s n.
Proof.
  intros w s n W. revert n. induction s as [|b s IH]; intros n Hn L; cbn [atoi_fast digits_value]; [reflexivity|].
  destruct (is_digit b) eqn:D; [|reflexivity]. unfold is_digit in D.
  assert (P : 10 ^ len (b :: s) = 10 * 10 ^ len s). { rewrite <- Z.pow_succ_r by (unfold len; lia). f_equal. unfold len. cbn [length]. lia. }
  rewrite P in L. assert (Q : 0 < 10 ^ len s) by (apply Z.pow_pos_nonneg; unfold len; lia).
  assert (B : n * 10 + 10 <= half w) by nia. rewrite (wrap_in w (n * 10)), (wrap_in w (n * 10 + _)) by lia. apply IH; [lia|]. nia.
Qed.
Lemma parse_uint_spec : forall w s n, 32 <= w <= 64 -> 0 <= n < 2 ^ w -> parse_uint w s n = match digits_value s n with Some v => if v <? 2 ^ w then Some v else None | None => None end.
Proof.
  intros w s n W. assert (P64 : 2 ^ w <= 2 ^ 64) by (apply Z.pow_le_mono_r; lia). assert (P0 : 0 < 2 ^ w) by (apply Z.pow_pos_nonneg; lia).
  change (2 ^ 64) with 18446744073709551616 in P64.
  revert n. induction s as [|b s IH]; intros n Hn; cbn [parse_uint digits_value].
  - destruct (Z.ltb_spec n (2 ^ w)); [reflexivity|lia].
  - destruct (is_digit b) eqn:D; [|reflexivity]. unfold is_digit in D. set (v := n * 10 + (Z.of_N b - 48)).
    assert (Big : 2 ^ w <= v -> None = match digits_value s v with Some v => if v <? 2 ^ w then Some v else None | None => None end).
    { intros B. destruct (digits_value s v) as [x|] eqn:E; [|reflexivity]. apply digits_bounds in E; [|lia]. assert (0 < 10 ^ len s) by (apply Z.pow_pos_nonneg; unfold len; lia).
      destruct (Z.ltb_spec x (2 ^ w)); [nia|reflexivity]. }
    unfold cutoff. change ((2 ^ 64 - 1) / 10 + 1) with 1844674407370955162.
    destruct (n >=? 1844674407370955162) eqn:C; [apply Big; unfold v; lia|]. cbv zeta. unfold unsigned. change (2 ^ 64) with 18446744073709551616.
    rewrite (Z.mod_small (n * 10)) by lia. fold v. destruct (Z.ltb_spec v 18446744073709551616) as [V|V].
    + rewrite (Z.mod_small v) by (unfold v in *; lia). destruct (_ || _) eqn:O; [apply Big; unfold v in *; lia|]. apply IH. unfold v in *. lia.
    + assert (M : v mod 18446744073709551616 = v - 18446744073709551616) by (symmetry; apply (Z.mod_unique_pos _ _ 1); unfold v in *; lia).
      rewrite M. replace (v - 18446744073709551616 <? n * 10) with true by (unfold v in *; lia). cbn [orb]. apply Big. lia.
Qed.
Lemma sign_neg : forall s neg body, sign s = (neg, body) -> len body <= len s /\ (neg = true -> len body + 1 <= len s).
Proof.
  intros s neg body E. unfold sign in E. assert (X : (neg, body) = (false, s) -> len body <= len s /\ (neg = true -> len body + 1 <= len s)) by (intros Y; injection Y as -> ->; split; [lia|discriminate]).
  destruct s as [|c t]; [apply X; auto|]. assert (T : len (c :: t) = len t + 1) by (unfold len; cbn [length]; lia).
  destruct (N.eqb_spec c 45) as [->|D1]; [injection E as <- <-; rewrite T; lia|]. destruct (N.eqb_spec c 43) as [->|D2]; [injection E as <- <-; rewrite T; lia|].
  apply X. rewrite <- E. destruct c as [|p]; [reflexivity|]. do 6 (destruct p as [p|p|]; try reflexivity); exfalso; lia.
Qed.
Lemma atoi_any : forall w s, w = 32 \/ w = 64 -> atoi_w w s = match number s with Some v => if (- 2 ^ (w - 1) <=? v) && (v <? 2 ^ (w - 1)) then Some v else None | None => None end.
Proof.
  intros w s W. unfold atoi_w, parse_int, number. destruct (sign s) as [neg body] eqn:Es. pose proof (sign_neg _ _ _ Es) as (L1 & _).
  assert (W' : 32 <= w <= 64) by lia. fold (half w). pose proof (half_32 w (proj1 W')) as HH.
  destruct (_ || _) eqn:Fast.
  - destruct body as [|c t] eqn:Eb; [reflexivity|]. rewrite <- Eb in *. clear Eb c t.
    assert (Small : 10 ^ len body < half w). { apply Z.le_lt_trans with (10 ^ (if w =? 32 then 9 else 18)); [apply Z.pow_le_mono_r; [lia|destruct W; subst w; cbn in *; lia]|]. destruct W; subst w; reflexivity. }
    rewrite fast_same by lia. destruct (digits_value body 0) as [v|] eqn:Ed; [|reflexivity]. apply digits_bounds in Ed; [|lia].
    replace ((- half w <=? if neg then - v else v) && _) with true by (destruct neg; lia). destruct neg; [|reflexivity]. rewrite wrap_in by lia. reflexivity.
  - destruct s as [|c0 s0]; [unfold sign in Es; injection Es as <- <-; reflexivity|]. destruct body as [|c t] eqn:Eb; [reflexivity|]. rewrite <- Eb in *. clear Eb c t.
    rewrite parse_uint_spec by (auto || (split; [lia|apply Z.pow_pos_nonneg; lia])). destruct (digits_value body 0) as [v|] eqn:Ed; [|reflexivity]. apply digits_bounds in Ed; [|lia].
    assert (Hv : 0 <= v) by lia. clear Ed. assert (D : 2 ^ w = 2 * half w). { unfold half. rewrite <- Z.pow_succ_r by lia. f_equal. lia. }
    assert (H64 : half w <= half 64) by (unfold half; apply Z.pow_le_mono_r; lia). pose proof (half_32 64 ltac:(lia)) as HHH.
    rewrite D. destruct (Z.ltb_spec v (2 * half w)) as [V|V]; [|destruct neg; cbn [negb andb]; [replace (- half w <=? - v) with false by lia|rewrite andb_comm; replace (v <? half w) with false by lia]; reflexivity].
    destruct neg; cbn [negb andb].
    + destruct (v >? half w) eqn:G; [replace (- half w <=? - v) with false by lia; reflexivity|]. replace ((- half w <=? - v) && (- v <? half w)) with true by lia.
      destruct (Z.eq_dec v (half 64)) as [->|Ne].
      * assert (Ew : w = 64) by (destruct W; [subst w; exfalso; revert G; vm_compute; discriminate|assumption]). subst w. vm_compute. reflexivity.
      * rewrite (wrap_in 64 v), (wrap_in 64 (- v)), (wrap_in w (- v)) by lia. reflexivity.
    + destruct (v >=? half w) eqn:G; [rewrite andb_comm; replace (v <? half w) with false by lia; reflexivity|]. replace ((- half w <=? v) && (v <? half w)) with true by lia.
      rewrite (wrap_in 64 v), (wrap_in w v) by lia. reflexivity.
Qed.
Lemma atoi_number : forall s, atoi s = match number s with Some v => if (- 2 ^ 63 <=? v) && (v <? 2 ^ 63) then Some v else None | None => None end.
Proof.
  intros s. unfold atoi, number. fold (sign s).
  destruct (sign s) as [neg [|c t]]; [reflexivity|]. destruct (digits_value (c :: t) 0); reflexivity.
Qed.
Lemma port_same : forall w u a, w = 32 \/ w = 64 -> port_path_w w u a = port_path u a.
Proof.
  intros w u a W. unfold port_path_w, port_path. destruct (negb (len a =? 0)); [|reflexivity]. cbv zeta. apply bind_same. intros c _. f_equal.
  destruct (c =? 58)%N; [|reflexivity]. apply bind_same. intros p _. rewrite atoi_any by exact W. rewrite atoi_number. destruct (number p) as [v|]; [|reflexivity].
  unfold largest_port_number. assert (2147483648 <= 2 ^ (w - 1)) by (destruct W; subst w; vm_compute; discriminate).
  assert (2147483648 <= 2 ^ 63) by (vm_compute; discriminate). set (k := 2 ^ (w - 1)) in *. set (k' := 2 ^ 63) in *. clearbody k k'.
  destruct ((0 <=? v) && (v <=? 65535)) eqn:B.
  - replace ((- k <=? v) && (v <? k)) with true by lia. replace ((- k' <=? v) && (v <? k')) with true by lia. rewrite B. reflexivity.
  - destruct (_ && (v <? k)); destruct (_ && (v <? k')); rewrite ?B; reflexivity.
Qed.

(** Extract *)
Section Extract.
Variable w : Z.
Hypothesis W : w = 32 \/ w = 64.
Lemma W32 : 32 <= w.
Proof. lia. Qed.

Lemma scan_same : forall s i n o c, 0 <= n < half w -> scan_host_w w s i n o c = scan_host s i n o c.
Proof.
  pose proof W32 as V. pose proof (half_32 w V). intros s. induction s as [|r s IH]; intros i n o c Hn; cbn [scan_host_w scan_host]; [reflexivity|].
  rewrite wrap_in by lia. cbv zeta. rewrite !IH by exact Hn. reflexivity.
Qed.
Lemma scan_bounds : forall s i n o c o' c' h, 0 <= i -> -1 <= c < i + len s -> scan_host s i n o c = inr (o', c', h) -> -1 <= c' < i + len s.
Proof.
  intros s. induction s as [|r s IH]; intros i n o c o' c' h Hi Hc E; cbn [scan_host] in E; [injection E as _ <- _; exact Hc|].
  assert (T : len (r :: s) = 1 + len s) by (unfold len; cbn [length]; lia). assert (0 <= len s) by (unfold len; lia). rewrite T in *.
  destruct ((r =? 91)%N && (i >? 0)); [discriminate E|]. cbv zeta in E. revert E. set (o1 := if (r =? 91)%N then i else o). set (c1 := if (r =? 93)%N then i else c).
  assert (B : -1 <= c1 < i + 1 + len s) by (unfold c1; destruct (r =? 93)%N; lia). clearbody o1 c1. intros E.
  assert (X : forall o' c' h, inr (o1, c1, i) = inr (A := err) (o', c', h) -> -1 <= c' < i + (1 + len s)) by (intros ? ? ? Y; injection Y as _ <- _; lia).
  assert (Y : (if (i =? n - 1) && (c1 <? o1) then inl ErrIncompleteBrackets else scan_host s (i + 1) n o1 c1) = inr (o', c', h) -> -1 <= c' < i + (1 + len s)).
  { destruct (_ && _); [discriminate|]. intros Z. apply IH in Z; lia. }
  destruct (o1 =? -1).
  - destruct (negb (c1 =? -1)); [discriminate E|]. destruct (contains _ r); [eapply X; exact E|exact (Y E)].
  - destruct ((c1 >? o1) && _); [eapply X; exact E|exact (Y E)].
Qed.
Lemma suffix_gives : forall fuel netloc node hs hl sep st en, len netloc < half w -> gives (suffix_loop fuel netloc node hs hl sep st en) (suffix_loop_w w fuel netloc node hs hl sep st en).
Proof.
  pose proof W32 as V. intros fuel netloc. induction fuel as [|f IH]; intros node hs hl sep st en L; cbn [suffix_loop suffix_loop_w]; [intros x E; discriminate E|]. cbv zeta.
  apply gives_bind; [apply gives_refl|]. intros head Eh. rewrite last_any_w by (try exact V; apply slice_short in Eh; lia).
  set (sep' := last_index_any head label_separators_rune_set).
  apply gives_bind.
  - destruct (negb (sep' =? -1)); [|apply gives_refl]. apply gives_bind; [apply gives_refl|]. intros x _. apply gives_bind; [apply slice_wrap; assumption|]. intros l _. apply gives_refl.
  - intros [label e] _. destruct (_ && _).
    + destruct (negb hl); [apply IH; exact L|apply gives_refl].
    + destruct (child node (str "*")); [apply gives_refl|]. destruct (child node _) as [val|]; [|apply gives_refl].
      destruct (negb hs && end_of val); (destruct (_ || e); [apply gives_refl|apply IH; exact L]).
Qed.
Lemma ipv4_host_same : forall netloc, len netloc < half w -> ipv4_host_w w netloc = ipv4_host netloc.
Proof.
  intros netloc L. unfold ipv4_host_w, ipv4_host. destruct (len netloc >=? 7); [|reflexivity]. apply bind_same. intros c _. destruct (contains _ c); [|reflexivity].
  apply ipv4_same; [exact W32|exact L].
Qed.
Lemma components_gives : forall u netloc ignore k, len netloc < half w -> gives (host_components u netloc ignore k) (host_components_w w u netloc ignore k).
Proof.
  pose proof W32 as V. intros u netloc ignore k L. unfold host_components, host_components_w. destruct (if w_sep_idx k =? -1 then _ else _) as [sep st].
  apply gives_bind; [apply gives_refl|]. intros checked Ec. rewrite invalid_w by (try exact V; apply slice_short in Ec; lia). destruct (has_invalid_chars checked); [apply gives_refl|].
  apply gives_bind.
  - destruct (w_has_suffix k).
    + destruct (sep <? len netloc); [|apply gives_refl]. apply gives_bind; [apply gives_refl|]. intros x _. apply gives_bind; [apply slice_wrap; assumption|]. intros sfx _.
      apply gives_bind; [apply gives_refl|]. intros head Eh. cbv zeta. rewrite last_any_w by (try exact V; apply slice_short in Eh; lia). destruct (negb _); [|apply gives_refl].
      apply gives_bind; [apply gives_refl|]. intros y _. apply gives_bind; [apply slice_wrap; assumption|]. intros dom _. apply gives_bind; [apply slice_wrap; assumption|]. intros reg _. apply gives_refl.
    + apply gives_bind; [apply gives_refl|]. intros head Eh. cbv zeta. rewrite last_any_w by (try exact V; apply slice_short in Eh; lia). destruct (negb _); [|apply gives_refl].
      intros r E. destruct (index netloc _) as [y| |]; cbn [bind] in E |- *; try discriminate E. revert r E. apply gives_bind; [apply slice_wrap; assumption|]. intros dom _. apply gives_refl.
  - intros [u' d] _. apply gives_refl.
Qed.
Lemma host_gives : forall t u netloc ignore, len netloc < half w -> gives (extract_host t u netloc ignore) (extract_host_w w t u netloc ignore).
Proof.
  intros t u netloc ignore L. unfold extract_host, extract_host_w. apply gives_bind; [apply suffix_gives; exact L|]. intros [e|k] _; [apply gives_refl|].
  rewrite ipv4_host_same by exact L. apply gives_bind; [apply gives_refl|]. intros v4 _. destruct v4; [apply gives_refl|]. apply components_gives. exact L.
Qed.
Lemma extract_gives : forall ext t p, len (p_url p) < half w ->
  (forall netloc host, len netloc <= len (p_url p) -> convert_host ext (p_to_punycode p) netloc = inr host -> len host < half w) ->
  gives (extract ext t p) (extract_w w ext t p).
Proof.
  pose proof W32 as V. intros ext t p L C. unfold extract, extract_w. cbv zeta. apply gives_bind; [apply gives_refl|]. intros n0 E0. apply fast_trim_short in E0.
  rewrite scheme_end_w by (try exact V; lia). apply gives_bind; [apply gives_refl|]. intros [u1 n1] E1.
  assert (L1 : len n1 <= len (p_url p)).
  { destruct (negb _) in E1; [|injection E1 as _ <-; exact E0]. destruct (slice n0 0 _) as [a| |] in E1; cbn [bind] in E1; try discriminate E1.
    destruct (slice n0 _ (len n0)) as [b| |] eqn:Eb in E1; cbn [bind] in E1; try discriminate E1. injection E1 as _ <-. apply slice_short in Eb. lia. }
  clear E1. apply gives_bind; [apply gives_refl|]. intros at_idx _. apply gives_bind.
  { destruct (negb _); [|apply gives_refl]. apply gives_bind; [apply gives_refl|]. intros a _. apply gives_bind; [apply slice_wrap; lia|]. intros b _. apply gives_refl. }
  intros [u2 n2] E2.
  assert (L2 : len n2 <= len (p_url p)).
  { destruct (negb _) in E2; [|injection E2 as _ <-; exact L1]. destruct (slice n1 0 _) as [a| |] in E2; cbn [bind] in E2; try discriminate E2.
    destruct (slice n1 _ (len n1)) as [b| |] eqn:Eb in E2; cbn [bind] in E2; try discriminate E2. injection E2 as _ <-. apply slice_short in Eb. lia. }
  clear E2. assert (N2 : 0 <= len n2) by (unfold len; lia). rewrite scan_same by lia. destruct (scan_host n2 0 (len n2) (-1) (-1)) as [e|[[opening closing] host_end]] eqn:Es; [apply gives_refl|].
  pose proof (half_32 w V) as HH. rewrite (wrap_in w (len n2 - 1)) by lia.
  assert (Cl : -1 <= closing < len n2 \/ closing = -1).
  { destruct n2 as [|b n2]; [right; cbn [scan_host] in Es; injection Es as _ <- _; reflexivity|]. left. change (len (b :: n2)) with (0 + len (b :: n2)).
    eapply scan_bounds; [| |exact Es]; unfold len; cbn [length]; lia. }
  rewrite (wrap_in w (closing + 1)) by lia.
  set (host_end' := if closing =? len n2 - 1 then -1 else _). apply gives_bind.
  { destruct (closing >? opening); [|apply gives_refl]. apply gives_bind; [apply gives_refl|]. intros inner Ei. apply slice_short in Ei. rewrite ipv6_same by (try exact V; lia). apply gives_refl. }
  intros [u3 [e|]] _; [apply gives_refl|]. apply gives_bind; [apply gives_refl|]. intros [a n3] E3.
  assert (L3 : len n3 <= len (p_url p)).
  { destruct (negb _) in E3; [|injection E3 as _ <-; exact L2]. destruct (slice n2 _ (len n2)) as [x| |] in E3; cbn [bind] in E3; try discriminate E3.
    destruct (slice n2 0 _) as [b| |] eqn:Eb in E3; cbn [bind] in E3; try discriminate E3. injection E3 as _ <-. apply slice_short in Eb. lia. }
  rewrite port_same by exact W. apply gives_bind; [apply gives_refl|]. intros [u4 [e|]] _; [apply gives_refl|].
  assert (F : gives (match convert_host ext (p_to_punycode p) n3 with inl e => Ret (u4, Some e) | inr host => extract_host t u4 host (p_ignore_sub_domains p) end)
    (match convert_host ext (p_to_punycode p) n3 with inl e => Ret (u4, Some e) | inr host => extract_host_w w t u4 host (p_ignore_sub_domains p) end)).
  { destruct (convert_host ext (p_to_punycode p) n3) as [e|host] eqn:Eh; [apply gives_refl|]. apply host_gives. exact (C n3 host L3 Eh). }
  destruct (r_host_type u4); try exact F. apply gives_refl.
Qed.
End Extract.

Lemma cons_inv : forall A (x y : A) l m, x :: l = y :: m -> x = y /\ l = m.
Proof. intros A x y l m E. injection E as E1 E2. auto. Qed.
Lemma digits_of : forall s n v, digits_value s n = Some v <-> exists ds, Forall (fun d => 0 <= d <= 9) ds /\ s = digits_text ds /\ v = fold_left (fun n d => 10 * n + d) ds n.
Proof.
  intros s. induction s as [|b s IH]; intros n v; cbn [digits_value].
  - split.
    + intros E. injection E as <-. exists []. auto.
    + intros ([|d ds] & _ & E & ->); [reflexivity|discriminate E].
  - destruct (is_digit b) eqn:D; unfold is_digit in D.
    + rewrite IH. split.
      * intros (ds & F & -> & ->). exists ((Z.of_N b - 48) :: ds). split; [constructor; [lia|exact F]|]. split.
        -- unfold digits_text. cbn [map]. f_equal. lia.
        -- cbn [fold_left]. f_equal. lia.
      * intros ([|d ds] & F & E & ->); [discriminate E|]. change (digits_text (d :: ds)) with (Z.to_N (48 + d) :: digits_text ds) in E. apply cons_inv in E as (E1 & ->). apply Forall_cons_iff in F as (F1 & F2). exists ds. split; [exact F2|]. split; [reflexivity|].
        cbn [fold_left]. f_equal. lia.
    + split; [discriminate|]. intros ([|d ds] & F & E & _); [discriminate E|]. change (digits_text (d :: ds)) with (Z.to_N (48 + d) :: digits_text ds) in E. apply cons_inv in E as (E1 & _). apply Forall_cons_iff in F as (F1 & _). lia.
Qed.
Lemma sign_digits : forall d ds, 0 <= d <= 9 -> sign (digits_text (d :: ds)) = (false, digits_text (d :: ds)).
Proof.
  intros d ds H. unfold digits_text. cbn [map]. assert (C : d = 0 \/ d = 1 \/ d = 2 \/ d = 3 \/ d = 4 \/ d = 5 \/ d = 6 \/ d = 7 \/ d = 8 \/ d = 9) by lia.
  repeat (destruct C as [->|C]; [reflexivity|]). subst d. reflexivity.
Qed.
Lemma sign_cases : forall s neg body, sign s = (neg, body) -> (neg = true /\ s = str "-" ++ body) \/ (neg = false /\ (s = str "+" ++ body \/ s = body)).
Proof.
  intros s neg body E. destruct s as [|c t]; [injection E as <- <-; auto|].
  destruct (N.eqb_spec c 45) as [->|D1]; [injection E as <- <-; left; auto|]. destruct (N.eqb_spec c 43) as [->|D2]; [injection E as <- <-; right; auto|].
  right. assert (X : sign (c :: t) = (false, c :: t)). { unfold sign. destruct c as [|p]; [reflexivity|]. do 6 (destruct p as [p|p|]; try reflexivity); exfalso; lia. }
  rewrite X in E. injection E as <- <-. auto.
Qed.
Lemma number_spec : forall s v, number s = Some v <-> numeral s v.
Proof.
  intros s v. split.
  - unfold number. destruct (sign s) as [neg body] eqn:Es. destruct body as [|c t] eqn:Eb; [discriminate|]. rewrite <- Eb in *.
    destruct (digits_value body 0) as [x|] eqn:Ed; [|discriminate]. intros E. injection E as <-. apply digits_of in Ed as (ds & F & -> & ->).
    assert (Ne : ds <> []) by (intros ->; discriminate Eb). apply sign_cases in Es as [(-> & ->)|(-> & [->| ->])].
    + apply (Minus ds); assumption.
    + apply (Plus ds); assumption.
    + apply (Plain ds); assumption.
  - intros H. assert (G : forall ds, Forall (fun d => 0 <= d <= 9) ds -> digits_value (digits_text ds) 0 = Some (decimal ds)).
    { intros ds F. apply digits_of. exists ds. auto. }
    unfold number. destruct H as [ds Ne F|ds Ne F|ds Ne F]; (destruct ds as [|d ds]; [contradiction|]); inversion F; subst.
    + rewrite sign_digits by assumption. rewrite G by exact F. reflexivity.
    + assert (S : sign (str "+" ++ digits_text (d :: ds)) = (false, digits_text (d :: ds))) by reflexivity. rewrite S. rewrite G by exact F. reflexivity.
    + assert (S : sign (str "-" ++ digits_text (d :: ds)) = (true, digits_text (d :: ds))) by reflexivity. rewrite S. rewrite G by exact F. reflexivity.
Qed.
Lemma c108_atoi : forall w s v, w = 32 \/ w = 64 -> atoi_w w s = Some v <-> numeral s v /\ - 2 ^ (w - 1) <= v < 2 ^ (w - 1).
Proof.
  intros w s v W. rewrite atoi_any by exact W. rewrite <- number_spec. destruct (number s) as [x|]; [|split; [discriminate|intros (E & _); discriminate E]].
  destruct (_ && _) eqn:B; split.
  - intros E. injection E as <-. split; [reflexivity|lia].
  - intros (E & _). exact E.
  - discriminate.
  - intros (E & V). injection E as ->. lia.
Qed.
Lemma c108_digits : forall w s, 32 <= w -> len s < 2 ^ (w - 1) -> dtoi_w w s = dtoi s /\ xtoi_w w s = xtoi s.
Proof. intros w s W L. split; [apply dtoi_same|apply xtoi_same]; assumption. Qed.
Lemma c108_extract : forall w ext t p, w = 32 \/ w = 64 -> len (p_url p) < 2 ^ (w - 1) ->
  (forall h a, idna_to_puny ext h = Some a -> len a < 2 ^ (w - 1)) -> extract_w w ext t p = extract ext t p.
Proof.
  intros w ext t p W L C. destruct (c01 ext t p) as (r & e & E). rewrite E.
  eapply extract_gives; [exact W|exact L| |exact E]. intros netloc host Ln Eh. unfold convert_host in Eh. fold (half w) in *.
  assert (0 < half w) by (unfold half; apply Z.pow_pos_nonneg; lia).
  destruct (query_unescape netloc) as [x|un]; [discriminate Eh|]. destruct (p_to_punycode p).
  - injection Eh as <-. unfold format_as_punycode. destruct (idna_to_puny ext un) as [a|] eqn:Ea; [exact (C _ _ Ea)|]. unfold len. cbn [length]. lia.
  - destruct (idna_to_unicode_err ext un); [discriminate Eh|]. injection Eh as <-. lia.
Qed.
Lemma c108_widths : forall ext t p, len (p_url p) < 2 ^ 31 -> (forall h a, idna_to_puny ext h = Some a -> len a < 2 ^ 31) -> extract_w 32 ext t p = extract_w 64 ext t p.
Proof.
  intros ext t p L C. rewrite !c108_extract; auto.
  - change (2 ^ (64 - 1)) with 9223372036854775808. change (2 ^ 31) with 2147483648 in L. lia.
  - intros h a E. apply C in E. change (2 ^ (64 - 1)) with 9223372036854775808. change (2 ^ 31) with 2147483648 in E. lia.
Qed.
