(** PunyProofs.v - decoding inverts encoding in the model of Punycode. *)

From Coq Require Import ZifyBool ZifyNat ZifyN.
From Verif Require Import Base BaseFacts Utf8 Chars Utf8Facts Str StrFacts ParseFacts Idna.
Local Open Scope N_scope.

Lemma digit_back : forall d, d < 36 -> decode_digit (encode_digit d) = Some d.
Proof.
  intros d H. unfold encode_digit, decode_digit. destruct (N.ltb_spec d 26).
  - replace ((48 <=? d + 97) && (d + 97 <=? 57)) with false by lia.
    replace ((65 <=? d + 97) && (d + 97 <=? 90)) with false by lia.
    replace ((97 <=? d + 97) && (d + 97 <=? 122)) with true by lia. f_equal. lia.
  - replace ((48 <=? d + 22) && (d + 22 <=? 57)) with true by lia. f_equal. lia.
Qed.
Lemma digit_plain : forall d, d < 36 -> encode_digit d <> 45 /\ encode_digit d < 128.
Proof. intros d H. unfold encode_digit. destruct (N.ltb_spec d 26); lia. Qed.

Lemma threshold_bounds : forall k bias, 1 <= threshold k bias <= 26.
Proof.
  intros k bias. unfold threshold. destruct (N.leb_spec k bias); [lia|]. destruct (N.leb_spec (bias + 26) k); lia.
Qed.

(** The weight of a digit is small while the threshold can be small. *)
Definition weight_ok (k w : N) : Prop :=
  (k = 36 /\ w <= 1) \/ (k = 72 /\ w <= 35) \/ (k = 108 /\ w <= 1225) \/ (k = 144 /\ w <= 42875)
  \/ (k = 180 /\ w <= 1500625) \/ (k = 216 /\ w <= 52521875) \/ 252 <= k.

Lemma weight_next : forall k w t, weight_ok k w -> 1 <= t -> weight_ok (k + 36) (w * (36 - t)).
Proof.
  intros k w t H T. assert (w * (36 - t) <= w * 35) by (apply N.mul_le_mono_l; lia).
  unfold weight_ok in *. lia.
Qed.

Definition big : N := 1200000000.

Lemma weight_fits : forall k w bias q, weight_ok k w -> bias <= 225 -> threshold k bias <= q -> q * w <= big ->
  w * (36 - threshold k bias) <= max_int32.
Proof.
  intros k w bias q H B Q X. pose proof (threshold_bounds k bias) as T. unfold max_int32, big in *.
  assert (Y : w * (36 - threshold k bias) <= w * 35) by (apply N.mul_le_mono_l; lia).
  destruct (N.leb_spec 252 k).
  - assert (Z : threshold k bias = 26).
    { unfold threshold. destruct (N.leb_spec k bias); [lia|]. destruct (N.leb_spec (bias + 26) k); lia. }
    rewrite Z in *. assert (10 * w <= q * w) by (apply N.mul_le_mono_r; lia). lia.
  - unfold weight_ok in H. lia.
Qed.

Lemma number_back : forall fuel q k bias i w rest, weight_ok k w -> bias <= 225 -> i + q * w <= big -> q < 2 ^ N.of_nat fuel ->
  decode_number (encode_number fuel q k bias ++ rest) i w k bias = Some (i + q * w, rest).
Proof.
  induction fuel as [|f IH]; intros q k bias i w rest W B I F.
  - assert (q = 0) by (cbn in F; lia). subst q. cbn [encode_number app decode_number].
    rewrite digit_back by lia. unfold madd. replace (0 * w <=? max_int32 - i) with true by (unfold max_int32, big in *; lia).
    pose proof (threshold_bounds k bias). replace (0 <? threshold k bias) with true by lia. reflexivity.
  - pose proof (threshold_bounds k bias) as T. cbn [encode_number]. set (t := threshold k bias) in *.
    destruct (N.ltb_spec q t) as [L|L].
    + cbn [app decode_number]. rewrite digit_back by lia. unfold madd.
      replace (q * w <=? max_int32 - i) with true by (unfold max_int32, big in *; lia). fold t.
      replace (q <? t) with true by lia. reflexivity.
    + pose proof (N.div_mod (q - t) (36 - t) ltac:(lia)) as DM.
      pose proof (N.mod_lt (q - t) (36 - t) ltac:(lia)) as ML.
      set (d := (q - t) / (36 - t)) in *. set (r := (q - t) mod (36 - t)) in *.
      assert (Q : q = t + r + (36 - t) * d) by lia.
      assert (X : q * w = (t + r) * w + d * (w * (36 - t))).
      { rewrite Q at 1. rewrite N.mul_add_distr_r. f_equal. rewrite <- N.mul_assoc, N.mul_comm, <- N.mul_assoc.
        reflexivity. }
      assert (K : w * (36 - t) <= max_int32).
      { apply weight_fits with q; auto. lia. }
      cbn [app decode_number]. rewrite digit_back by lia. unfold madd at 1.
      replace ((t + r) * w <=? max_int32 - i) with true by (unfold max_int32, big in *; lia). fold t.
      replace (t + r <? t) with false by lia. unfold madd. rewrite N.sub_0_r, N.add_0_l.
      replace (w * (36 - t) <=? max_int32) with true by lia.
      rewrite IH.
      * rewrite X. rewrite N.add_assoc. reflexivity.
      * apply weight_next; [exact W|lia].
      * exact B.
      * lia.
      * rewrite Nat2N.inj_succ, N.pow_succ_r' in F.
        assert (10 * d <= (36 - t) * d) by (apply N.mul_le_mono_r; lia). lia.
Qed.

Lemma number_digits : forall fuel q k bias, q < 2 ^ N.of_nat fuel -> Forall (fun c => c <> 45 /\ c < 128) (encode_number fuel q k bias).
Proof.
  induction fuel as [|f IH]; intros q k bias F.
  - constructor; [|constructor]. apply digit_plain. cbn in F. lia.
  - pose proof (threshold_bounds k bias) as T. cbn [encode_number]. set (t := threshold k bias) in *.
    destruct (N.ltb_spec q t) as [L|L].
    + constructor; [|constructor]. apply digit_plain. lia.
    + pose proof (N.div_mod (q - t) (36 - t) ltac:(lia)) as DM.
      pose proof (N.mod_lt (q - t) (36 - t) ltac:(lia)) as ML.
      constructor; [apply digit_plain; lia|]. apply IH. rewrite Nat2N.inj_succ, N.pow_succ_r' in F.
      assert (10 * ((q - t) / (36 - t)) <= (36 - t) * ((q - t) / (36 - t))) by (apply N.mul_le_mono_r; lia). lia.
Qed.

(** ** Biases stay small *)

Lemma last_term : forall d, d < 456 -> 36 * d / (d + 38) <= 35.
Proof. intros d H. apply N.lt_succ_r. apply N.div_lt_upper_bound; lia. Qed.
Lemma adapt_loop_bound : forall j fuel d k, d < 456 * 35 ^ N.of_nat j -> (j <= fuel)%nat ->
  adapt_loop fuel d k <= k + 36 * N.of_nat j + 35.
Proof.
  induction j as [|j IH]; intros fuel d k D F.
  - change (35 ^ N.of_nat 0) with 1 in D. pose proof (last_term d ltac:(lia)).
    destruct fuel; cbn [adapt_loop]; [lia|]. replace (455 <? d) with false by lia. lia.
  - destruct fuel as [|fuel]; [lia|]. cbn [adapt_loop]. destruct (N.ltb_spec 455 d).
    + rewrite Nat2N.inj_succ, N.pow_succ_r' in D.
      assert (d / 35 < 456 * 35 ^ N.of_nat j) by (apply N.div_lt_upper_bound; [discriminate|];
        revert D; generalize (35 ^ N.of_nat j); lia).
      specialize (IH fuel (d / 35) (k + 36) ltac:(assumption) ltac:(lia)). lia.
    + pose proof (last_term d ltac:(lia)). lia.
Qed.
Lemma adapt_bound : forall d x first, d <= big -> 1 <= x -> adapt d x first <= 225.
Proof.
  intros d x first D X. unfold adapt, big in *.
  assert (H : (if first then d / 700 else d / 2) <= 600000000).
  { destruct first; [pose proof (N.div_le_mono d 1200000000 700 ltac:(lia) ltac:(lia)) as Y; change (1200000000 / 700) with 1714285 in Y; lia|].
    pose proof (N.div_le_mono d 1200000000 2 ltac:(lia) ltac:(lia)) as Y. change (1200000000 / 2) with 600000000 in Y. lia. }
  set (e := if first then d / 700 else d / 2) in *.
  assert (e / x <= e) by (apply N.div_le_upper_bound; nia).
  pose proof (adapt_loop_bound 5 32 (e + e / x) 0) as Y. change (456 * 35 ^ N.of_nat 5) with 23949975000 in Y.
  specialize (Y ltac:(lia) ltac:(lia)). change (0 + 36 * N.of_nat 5 + 35) with 215 in Y. lia.
Qed.

(** ** The decoder follows the encoder *)

Inductive dsteps : bytes -> decoder -> bytes -> decoder -> Prop :=
| dsteps_refl : forall s d, dsteps s d s d
| dsteps_step : forall s d s1 d1 s2 d2, decode_round s d = Some (d1, s1) -> dsteps s1 d1 s2 d2 -> dsteps s d s2 d2.

Lemma dsteps_trans : forall s d s1 d1 s2 d2, dsteps s d s1 d1 -> dsteps s1 d1 s2 d2 -> dsteps s d s2 d2.
Proof. intros s d s1 d1 s2 d2 H. revert s2 d2. induction H; intros; [assumption|]. eapply dsteps_step; eauto. Qed.

Lemma number_shorter : forall s i w k bias i' rest, decode_number s i w k bias = Some (i', rest) -> (length rest < length s)%nat.
Proof.
  induction s as [|c s IH]; intros i w k bias i' rest H; cbn [decode_number] in H; [discriminate|].
  destruct (decode_digit c) as [g|]; [|discriminate]. destruct (madd i g w) as [i1|]; [|discriminate].
  destruct (g <? threshold k bias). { injection H as _ <-. cbn. lia. }
  destruct (madd 0 w (36 - threshold k bias)) as [w1|]; [|discriminate]. apply IH in H. cbn. lia.
Qed.
Lemma round_shorter : forall s d d' rest, decode_round s d = Some (d', rest) -> (length rest < length s)%nat.
Proof.
  intros s d d' rest H. unfold decode_round in H.
  destruct (decode_number s (d_i d) 1 36 (d_bias d)) as [[i r]|] eqn:E; [|discriminate].
  destruct (1024 <=? length (d_output d))%nat; [discriminate|].
  destruct (1114111 <? _); [discriminate|]. injection H as _ <-. eapply number_shorter; eauto.
Qed.
Lemma dsteps_rounds : forall s d s' d', dsteps s d s' d' -> s' = [] -> forall fuel, (length s <= fuel)%nat ->
  decode_rounds fuel s d = Some (d_output d').
Proof.
  induction 1 as [s d|s d s1 d1 s2 d2 H S IH]; intros E fuel F.
  - subst s. destruct fuel; reflexivity.
  - pose proof (round_shorter _ _ _ _ H) as L. destruct s as [|c s]; [cbn in L; lia|].
    destruct fuel as [|f]; [cbn in F; lia|]. cbn [decode_rounds]. rewrite H. apply IH; [exact E|]. cbn in *. lia.
Qed.

Definition upto (m : N) (l : list rune) : list rune := filter (fun r => r <=? m) l.
Definition below (m : N) (l : list rune) : list rune := filter (fun r => r <? m) l.

Lemma filter_length_le : forall A (f : A -> bool) l, (length (filter f l) <= length l)%nat.
Proof. induction l as [|x l IH]; [apply Nat.le_refl|]. cbn [filter length]. destruct (f x); cbn [length]; lia. Qed.

(** [pre] has been passed in the round for [m], [suf] is to come. *)
Record follows (m b : N) (pre suf : list rune) (d : decoder) (e : encoder) : Prop := {
  f_out : d_output d = upto m pre ++ below m suf;
  f_h : e_h e = N.of_nat (length (d_output d));
  f_bias : d_bias d = e_bias e;
  f_small : e_bias e <= 225;
  f_pos : d_n d * (e_h e + 1) + d_i d + e_delta e = m * (e_h e + 1) + N.of_nat (length (upto m pre));
  f_first : d_i d = 0 <-> e_h e = b;
  f_least : b <= e_h e }.

Lemma follows_bound : forall m b pre suf d e, follows m b pre suf d e -> m <= 1114111 ->
  (length (d_output d) < 1024)%nat -> d_i d + e_delta e <= 1141964799 /\ d_n d <= m
  /\ (d_i d + e_delta e) / (e_h e + 1) = m - d_n d /\ (d_i d + e_delta e) mod (e_h e + 1) = N.of_nat (length (upto m pre)).
Proof.
  intros m b pre suf d e [O H B S P F L] M Len.
  assert (C : N.of_nat (length (upto m pre)) < e_h e + 1).
  { rewrite H, O, app_length. lia. }
  assert (h : e_h e <= 1023) by lia.
  set (c := N.of_nat (length (upto m pre))) in *. set (x := e_h e + 1) in *.
  assert (D : d_n d <= m).
  { destruct (N.leb_spec (d_n d) m); [assumption|]. exfalso.
    assert ((m + 1) * x <= d_n d * x) by (apply N.mul_le_mono_r; lia). lia. }
  assert (E : d_i d + e_delta e = x * (m - d_n d) + c).
  { rewrite N.mul_sub_distr_l. assert (d_n d * x <= m * x) by (apply N.mul_le_mono_r; exact D). lia. }
  assert (x * (m - d_n d) <= 1024 * 1114111) by (apply N.mul_le_mono; lia).
  split; [lia|]. split; [exact D|].
  split.
  - symmetry. apply N.div_unique with c; assumption.
  - symmetry. apply N.mod_unique with (m - d_n d); assumption.
Qed.

Lemma encode_pass_ok : forall suf pre m b d e, follows m b pre suf d e -> m <= 1114111 ->
  (length pre + length suf <= 1024)%nat ->
  exists out e', encode_pass suf m b e = Some (out, e') /\ Forall (fun c => c <> 45 /\ c < 128) out
    /\ exists d', (forall rest, dsteps (out ++ rest) d rest d') /\ follows m b (pre ++ suf) [] d' e'.
Proof.
  induction suf as [|r suf IH]; intros pre m b d e Fo M Len.
  - exists [], e. split; [reflexivity|]. split; [constructor|]. exists d. split; [intros rest; constructor|]. rewrite app_nil_r. exact Fo.
  - cbn [length] in Len.
    assert (Lp : (length (upto m pre) <= length pre)%nat) by apply filter_length_le.
    assert (Lb : (length (below m suf) <= length suf)%nat) by apply filter_length_le.
    destruct (N.ltb_spec r m) as [R|R].
    + (* an earlier rune *)
      assert (U : upto m (pre ++ [r]) = upto m pre ++ [r]).
      { unfold upto. rewrite filter_app. cbn [filter]. replace (r <=? m) with true by lia. reflexivity. }
      assert (W : below m (r :: suf) = r :: below m suf) by (unfold below; cbn [filter]; replace (r <? m) with true by lia; reflexivity).
      pose proof Fo as [O H B S P F L].
      assert (Dl : e_delta e + 1 <= max_int32).
      { assert (N.of_nat (length (upto m pre)) <= 1024) by lia. assert (e_h e <= 1024) by (rewrite H, O, W, app_length; cbn [length]; lia).
        assert (m * (e_h e + 1) <= 1114111 * 1025) by (apply N.mul_le_mono; lia). unfold max_int32. lia. }
      cbn [encode_pass]. replace (r <? m) with true by lia. replace (max_int32 <? e_delta e + 1) with false by lia.
      destruct (IH (pre ++ [r]) m b d (mkEncoder (e_delta e + 1) (e_bias e) (e_h e))) as (out & e' & E & G & d' & St & Fo').
      * split; cbn [e_h e_bias e_delta].
        -- rewrite O, U, W, <- app_assoc. reflexivity.
        -- exact H.
        -- exact B.
        -- exact S.
        -- rewrite U, app_length. cbn [length]. lia.
        -- exact F.
        -- exact L.
      * exact M.
      * rewrite app_length. cbn [length]. lia.
      * exists out, e'. split; [exact E|]. split; [exact G|]. exists d'. split; [exact St|]. rewrite <- app_assoc in Fo'. exact Fo'.
    + destruct (N.ltb_spec m r) as [R2|R2].
      * (* a later rune *)
        assert (U : upto m (pre ++ [r]) = upto m pre).
        { unfold upto. rewrite filter_app. cbn [filter]. replace (r <=? m) with false by lia. apply app_nil_r. }
        assert (W : below m (r :: suf) = below m suf) by (unfold below; cbn [filter]; replace (r <? m) with false by lia; reflexivity).
        pose proof Fo as [O H B S P F L].
        cbn [encode_pass]. replace (r <? m) with false by lia. replace (m <? r) with true by lia.
        destruct (IH (pre ++ [r]) m b d e) as (out & e' & E & G & d' & St & Fo').
        -- split; auto. ++ rewrite O, U, W. reflexivity. ++ rewrite U. exact P.
        -- exact M.
        -- rewrite app_length. cbn [length]. lia.
        -- exists out, e'. split; [exact E|]. split; [exact G|]. exists d'. split; [exact St|]. rewrite <- app_assoc in Fo'. exact Fo'.
      * (* the rune *)
        assert (r = m) by lia. subst r. clear R R2.
        assert (U : upto m (pre ++ @cons rune m []) = upto m pre ++ @cons rune m []).
        { unfold upto. rewrite filter_app. cbn [filter]. rewrite N.leb_refl. reflexivity. }
        assert (W : below m (@cons rune m suf) = below m suf) by (unfold below; cbn [filter]; rewrite N.ltb_irrefl; reflexivity).
        assert (Lo : (length (d_output d) < 1024)%nat) by (rewrite (f_out _ _ _ _ _ _ Fo), W, app_length; lia).
        destruct (follows_bound _ _ _ _ _ _ Fo M Lo) as (Bd & Dm & Dv & Md).
        pose proof Fo as [O H B S P F L].
        set (c := length (upto m pre)) in *.
        assert (Fd : e_delta e < 2 ^ N.of_nat 32) by (change (2 ^ N.of_nat 32) with 4294967296; lia).
        cbn [encode_pass]. rewrite N.ltb_irrefl.
        set (bias' := adapt (e_delta e) (e_h e + 1) (e_h e =? b)).
        set (d1 := mkDecoder (upto m pre ++ @cons rune m (below m suf)) (N.of_nat c + 1) m bias').
        assert (Rd : forall tail, decode_round (encode_number 32 (e_delta e) 36 (e_bias e) ++ tail) d = Some (d1, tail)).
        { intros tail. unfold decode_round. rewrite B.
          rewrite number_back; [|unfold weight_ok; lia|exact S|unfold big; lia|exact Fd]. rewrite N.mul_1_r.
          replace (1024 <=? length (d_output d))%nat with false by lia. cbv zeta. rewrite <- H, Dv, Md.
          replace (d_n d + (m - d_n d)) with m by lia. replace (1114111 <? m) with false by lia.
          replace (d_i d + e_delta e - d_i d) with (e_delta e) by lia.
          assert (Q : (d_i d =? 0) = (e_h e =? b)).
          { destruct (N.eqb_spec (d_i d) 0) as [X|X], (N.eqb_spec (e_h e) b) as [Y|Y]; tauto. }
          rewrite Q. unfold d1, bias'. rewrite Nat2N.id. do 3 f_equal.
          unfold insert_at, c. rewrite O, W, firstn_app, firstn_all, Nat.sub_diag, skipn_app, skipn_all, Nat.sub_diag.
          cbn [firstn skipn]. rewrite app_nil_r. reflexivity. }
        destruct (IH (pre ++ @cons rune m []) m b d1 (mkEncoder 0 bias' (e_h e + 1))) as (out & e' & E & G & d' & St & Fo').
        -- split; cbn [e_h e_bias e_delta d1 d_output d_i d_n d_bias].
           ++ rewrite U, <- app_assoc. reflexivity.
           ++ rewrite H, O, W, !app_length. cbn [length]. lia.
           ++ reflexivity.
           ++ apply adapt_bound; [unfold big; lia|lia].
           ++ rewrite U, app_length. cbn [length]. lia.
           ++ lia.
           ++ lia.
        -- exact M.
        -- rewrite app_length. cbn [length]. lia.
        -- rewrite E. eexists. eexists. split; [reflexivity|]. split.
           ++ apply Forall_app. split; [apply number_digits; exact Fd|exact G].
           ++ exists d'. rewrite <- app_assoc in Fo'. split; [|exact Fo']. intros rest. rewrite <- app_assoc.
              apply dsteps_step with (out ++ rest) d1; [apply Rd|apply St].
Qed.

(** ** The next rune *)

Lemma next_rune_gen : forall s n m0, m0 >= n ->
  let m := fold_left (fun m r => if (r <? m) && (n <=? r) then r else m) s m0 in
  n <= m <= m0 /\ (m = m0 \/ In m s) /\ Forall (fun r => r < n \/ m <= r) s.
Proof.
  induction s as [|r s IH]; intros n m0 H; cbn [fold_left].
  - split; [lia|]. split; [left; reflexivity|constructor].
  - destruct ((r <? m0) && (n <=? r)) eqn:E.
    + destruct (IH n r ltac:(lia)) as (A & B & C). cbv zeta in *.
      set (m := fold_left _ s r) in *. split; [lia|]. split; [right; cbn [In]; destruct B as [->|B]; auto|].
      constructor; [lia|exact C].
    + destruct (IH n m0 H) as (A & B & C). cbv zeta in *. set (m := fold_left _ s m0) in *.
      split; [lia|]. split; [cbn [In]; tauto|]. constructor; [lia|exact C].
Qed.
Lemma next_rune_spec : forall s n r0, In r0 s -> n <= r0 -> Forall (fun r => r <= 1114111) s ->
  In (next_rune s n) s /\ n <= next_rune s n /\ Forall (fun r => r < n \/ next_rune s n <= r) s.
Proof.
  intros s n r0 I L F. rewrite Forall_forall in F. pose proof (F _ I) as X.
  destruct (next_rune_gen s n max_int32 ltac:(unfold max_int32; lia)) as (A & B & C). fold (next_rune s n) in *.
  cbv zeta in *. split; [|split; [lia|exact C]]. destruct B as [B|B]; [|exact B]. exfalso.
  rewrite Forall_forall in C. specialize (C _ I). rewrite B in C. unfold max_int32 in C. lia.
Qed.

Lemma below_skip : forall m n s, n <= m -> Forall (fun r => r < n \/ m <= r) s -> below m s = below n s.
Proof.
  intros m n s L F. induction F as [|r s H F IH]; [reflexivity|]. unfold below in *. cbn [filter].
  replace (r <? m) with (r <? n) by lia. destruct (r <? n); rewrite IH; reflexivity.
Qed.
Lemma upto_below : forall m s, upto m s = below (m + 1) s.
Proof.
  intros m s. induction s as [|r s IH]; [reflexivity|]. unfold upto, below in *. cbn [filter].
  replace (r <? m + 1) with (r <=? m) by lia. destruct (r <=? m); rewrite IH; reflexivity.
Qed.
Lemma below_grows : forall m s, In m s -> (length (below m s) < length (upto m s))%nat.
Proof.
  intros m s. assert (G : forall l, (length (below m l) <= length (upto m l))%nat).
  { induction l as [|r l IH]; [apply Nat.le_refl|]. unfold below, upto in *. cbn [filter].
    destruct (N.ltb_spec r m), (N.leb_spec r m); cbn [length]; lia. }
  induction s as [|r s IH]; [intros []|]. intros [->|I]; unfold below, upto in *; cbn [filter].
  - rewrite N.ltb_irrefl, N.leb_refl. cbn [length]. specialize (G s). lia.
  - specialize (IH I). destruct (N.ltb_spec r m), (N.leb_spec r m); cbn [length]; lia.
Qed.
Lemma below_all : forall n s, length (below n s) = length s -> below n s = s.
Proof.
  intros n s. induction s as [|r s IH]; [reflexivity|]. unfold below in *. cbn [filter]. intros H.
  pose proof (filter_length_le rune (fun r => r <? n) s) as X.
  destruct (r <? n).
  - cbn [length] in H. rewrite IH; [reflexivity|]. injection H as H. exact H.
  - cbn [length] in H. exfalso. change (list rune) with (list N) in *. unfold rune in *. lia.
Qed.
Lemma below_missing : forall n s, (length (below n s) < length s)%nat -> exists r, In r s /\ n <= r.
Proof.
  intros n s. induction s as [|r s IH]; cbn [length]; intros H; [lia|]. unfold below in *. cbn [filter] in H.
  destruct (N.ltb_spec r n).
  - cbn [length] in H. destruct IH as (x & I & L); [lia|]. exists x. split; [right; exact I|exact L].
  - exists r. split; [left; reflexivity|assumption].
Qed.

Lemma below_le : forall n s, (length (below n s) <= length s)%nat.
Proof. intros. apply filter_length_le. Qed.
Lemma upto_le : forall n s, (length (upto n s) <= length s)%nat.
Proof. intros. apply filter_length_le. Qed.

Lemma encode_rounds_ok : forall fuel (s : list rune) n b d e, (length s <= 1024)%nat -> Forall (fun r => r <= 1114111) s ->
  d_output d = below n s -> e_h e = N.of_nat (length (d_output d)) -> d_bias d = e_bias e -> e_bias e <= 225 ->
  d_n d * (e_h e + 1) + d_i d + e_delta e = n * (e_h e + 1) -> (d_i d = 0 <-> e_h e = b) -> b <= e_h e ->
  (length s - length (below n s) <= fuel)%nat ->
  exists out, encode_rounds fuel s (N.of_nat (length s) - e_h e) n b e = Some out /\ Forall (fun c => c <> 45 /\ c < 128) out
    /\ exists d', dsteps out d [] d' /\ d_output d' = s.
Proof.
  induction fuel as [|f IH]; intros s n b d e Len Hi O H B S P F L Fu.
  - pose proof (below_le n s) as X.
    assert (E : length (below n s) = length s) by lia. pose proof (below_all _ _ E) as E2.
    exists []. cbn [encode_rounds]. replace (N.of_nat (length s) - e_h e =? 0) with true by (rewrite H, O; lia).
    split; [reflexivity|]. split; [constructor|]. exists d. split; [constructor|]. congruence.
  - pose proof (below_le n s) as X. cbn [encode_rounds].
    destruct (N.eqb_spec (N.of_nat (length s) - e_h e) 0) as [Z|Z].
    + assert (E : length (below n s) = length s) by (rewrite H, O in Z; lia). pose proof (below_all _ _ E) as E2.
      exists []. split; [reflexivity|]. split; [constructor|]. exists d. split; [constructor|]. congruence.
    + destruct (below_missing n s) as (r0 & I0 & L0); [rewrite H, O in Z; lia|].
      destruct (next_rune_spec s n r0 I0 L0 Hi) as (I & Lm & Sk). set (m := next_rune s n) in *.
      assert (M : m <= 1114111) by (rewrite Forall_forall in Hi; apply Hi; exact I).
      pose proof (below_skip _ _ _ Lm Sk) as Bs.
      assert (h : e_h e <= 1024) by (rewrite H, O; lia).
      assert (Y : (m - n) * (e_h e + 1) + n * (e_h e + 1) = m * (e_h e + 1)) by (rewrite <- N.mul_add_distr_r; f_equal; lia).
      assert (m * (e_h e + 1) <= 1114111 * 1025) by (apply N.mul_le_mono; lia).
      unfold madd. replace ((m - n) * (e_h e + 1) <=? max_int32 - e_delta e) with true by (unfold max_int32; lia).
      assert (Fo : follows m b [] s d (mkEncoder (e_delta e + (m - n) * (e_h e + 1)) (e_bias e) (e_h e))).
      { split; cbn [e_h e_bias e_delta].
        - rewrite O, Bs. reflexivity.
        - exact H.
        - exact B.
        - exact S.
        - cbn [upto filter length]. lia.
        - exact F.
        - exact L. }
      destruct (encode_pass_ok s [] m b d _ Fo M) as (out & e' & E & G & d1 & St1 & Fo1); [cbn [length]; lia|].
      rewrite E. cbn [app] in Fo1.
      pose proof Fo1 as [O1 H1 B1 S1 P1 F1 L1]. cbn [below filter] in O1. rewrite app_nil_r in O1.
      assert (G1 : (length (below n s) < length (upto m s))%nat).
      { rewrite <- Bs. apply below_grows. exact I. }
      pose proof (upto_le m s) as X1.
      assert (Hh : N.of_nat (length s) - e_h e - (e_h e' - e_h e) = N.of_nat (length s) - e_h e').
      { rewrite H1, H, O, O1. lia. }
      rewrite Hh.
      set (e2 := mkEncoder (e_delta e' + 1) (e_bias e') (e_h e')).
      change (e_h e') with (e_h e2).
      destruct (IH s (m + 1) b d1 e2) as (out2 & E2 & G2 & d2 & St2 & O2); unfold e2; cbn [e_h e_bias e_delta]; try assumption.
      * rewrite O1. apply upto_below.
      * rewrite P1 || idtac. rewrite H1, O1 in P1 |- *. lia.
      * rewrite <- upto_below. lia.
      * unfold e2 in E2; cbn [e_h] in E2. rewrite E2. exists (out ++ out2). split; [reflexivity|]. split; [apply Forall_app; auto|].
        exists d2. split; [|exact O2].
        eapply dsteps_trans; [apply St1|exact St2].
Qed.

(** ** Labels *)

Lemma range_runes : forall rs i, Forall valid_rune rs -> map snd (range_from (encode_all rs) 0 i) = rs.
Proof.
  induction rs as [|r rs IH]; intros i H; [reflexivity|]. inversion H as [|? ? V H']; subst.
  unfold encode_all. cbn [flat_map]. rewrite range_from_encode by exact V. cbn [map snd]. f_equal. apply IH. exact H'.
Qed.
Lemma text_runes : forall rs, Forall valid_rune rs -> flat_map rune_text rs = encode_all rs.
Proof.
  induction 1 as [|r rs V H IH]; [reflexivity|]. cbn [flat_map]. unfold encode_all in *. cbn [flat_map]. rewrite IH. f_equal.
  unfold rune_text. replace ((55296 <=? r) && (r <=? 57343)) with false; [reflexivity|]. unfold valid_rune in V. lia.
Qed.
Lemma encode_low : forall rs, Forall (fun r => r < 128) rs -> encode_all rs = rs.
Proof.
  induction 1 as [|r rs L H IH]; [reflexivity|]. unfold encode_all in *. cbn [flat_map]. rewrite IH.
  unfold encode. replace (r <? 128) with true by lia. reflexivity.
Qed.
Lemma ascii_runes : forall rs, Forall valid_rune rs -> is_ascii (encode_all rs) = true -> Forall (fun r => r < 128) rs.
Proof.
  induction 1 as [|r rs V H IH]; intros A; [constructor|]. unfold encode_all in A. cbn [flat_map] in A. unfold is_ascii in *.
  rewrite forallb_app in A. apply andb_true_iff in A as [A1 A2]. constructor; [|apply IH; exact A2].
  destruct (N.ltb_spec r 128) as [|L]; [assumption|]. exfalso. unfold encode in A1. replace (r <? 128) with false in A1 by lia.
  destruct (r <? 2048); [|destruct (r <? 65536)]; cbn [forallb] in A1; lia.
Qed.
Lemma below_low : forall n s, Forall (fun r => r < n) (below n s).
Proof. intros n s. apply Forall_forall. intros r H. apply filter_In in H as [_ H]. lia. Qed.
Lemma plain_no_hyphen : forall out, Forall (fun c => c <> 45 /\ c < 128) out -> memN 45 out = false.
Proof.
  induction 1 as [|c out [H _] F IH]; [reflexivity|]. cbn [memN existsb]. apply orb_false_iff. split; [lia|exact IH].
Qed.

Lemma decode_split : forall basic out : bytes, Forall (fun r => r < 128) basic -> basic <> [] -> out <> [] -> memN 45 out = false ->
  puny_decode (basic ++ [45] ++ out) = option_map (flat_map rune_text) (decode_rounds (length out) out (mkDecoder basic 0 128 72)).
Proof.
  intros basic out L Nb No Nh. unfold puny_decode.
  assert (Lb : (1 <= length basic)%nat) by (destruct basic; [contradiction|cbn; lia]).
  assert (P : Z.to_nat (1 + last_index_byte (basic ++ [45] ++ out) 45) = S (length basic)).
  { unfold last_index_byte. rewrite last_index_byte_from_mid by exact Nh. unfold len. lia. }
  destruct (basic ++ [45] ++ out) as [|c0 t0] eqn:E0. { destruct basic; discriminate. }
  rewrite <- E0 in *. rewrite P. clear c0 t0 E0. cbv zeta.
  destruct (Nat.eqb_spec (S (length basic)) 1) as [X|_]; [lia|].
  assert (Lo : (1 <= length out)%nat) by (destruct out; [contradiction|cbn; lia]).
  destruct (Nat.eqb_spec (S (length basic)) (length (basic ++ [45] ++ out))) as [X|_].
  { rewrite !app_length in X. cbn [length] in X. lia. }
  cbn [Nat.eqb]. replace (S (length basic) - 1)%nat with (length basic) by lia.
  rewrite firstn_app, firstn_all, Nat.sub_diag. cbn [firstn]. rewrite app_nil_r.
  replace (skipn (S (length basic)) (basic ++ [45] ++ out)) with out.
  2: { rewrite skipn_app, skipn_all2 by lia. replace (S (length basic) - length basic)%nat with 1%nat by lia. reflexivity. }
  assert (Rb : map snd (range_str basic) = basic).
  { pose proof (encode_low _ L) as Y. unfold range_str. rewrite <- Y at 1.
    apply range_runes. eapply Forall_impl; [|exact L]. intros r X. unfold valid_rune. left. cbv beta in X. lia. }
  rewrite Rb. reflexivity.
Qed.
Lemma decode_whole : forall out : bytes, out <> [] -> memN 45 out = false ->
  puny_decode out = option_map (flat_map rune_text) (decode_rounds (length out) out (mkDecoder [] 0 128 72)).
Proof.
  intros out Ne Nh. unfold puny_decode, last_index_byte. rewrite last_index_byte_from_free by exact Nh.
  destruct out as [|c out]; [contradiction|]. reflexivity.
Qed.

Lemma puny_ok : forall rs, Forall valid_rune rs -> (length rs <= 1024)%nat -> is_ascii (encode_all rs) = false ->
  exists a, puny_encode ace_prefix (encode_all rs) = Some (ace_prefix ++ a) /\ Forall (fun c => c < 128) a
    /\ puny_decode a = Some (encode_all rs).
Proof.
  intros rs V Len A. set (b := N.of_nat (length (below 128 rs))).
  assert (PE : puny_encode ace_prefix (encode_all rs) = option_map (fun out => ace_prefix ++ below 128 rs ++ (if 0 <? b then [45] else []) ++ out)
    (encode_rounds (length rs) rs (N.of_nat (length rs) - b) 128 b (mkEncoder 0 72 b))).
  { unfold puny_encode, range_str. rewrite range_runes by exact V. reflexivity. }
  destruct (encode_rounds_ok (length rs) rs 128 b (mkDecoder (below 128 rs) 0 128 72) (mkEncoder 0 72 b))
    as (out & E & G & d' & St & O); cbn [d_output d_bias d_n d_i e_h e_bias e_delta]; try reflexivity; try lia.
  { eapply Forall_impl; [|exact V]. intros r X. unfold valid_rune in X. lia. }
  cbn [e_h] in E. rewrite PE, E. cbn [option_map]. clear PE.
  assert (Ne : out <> []).
  { intros ->. assert (d' = mkDecoder (below 128 rs) 0 128 72) as ->.
    { inversion St as [|? ? ? ? ? ? X]; [reflexivity|discriminate X]. }
    cbn [d_output] in O. pose proof (below_low 128 rs) as L. rewrite O in L.
    assert (X : is_ascii (encode_all rs) = true); [|congruence]. rewrite encode_low by exact L.
    unfold is_ascii. apply forallb_forall. rewrite Forall_forall in L. intros c Hc. apply N.ltb_lt. apply L. exact Hc. }
  pose proof (plain_no_hyphen _ G) as Nh.
  assert (Rd : decode_rounds (length out) out (mkDecoder (below 128 rs) 0 128 72) = Some rs).
  { rewrite (dsteps_rounds _ _ _ _ St eq_refl) by apply Nat.le_refl. rewrite O. reflexivity. }
  eexists. split; [reflexivity|]. split.
  { rewrite !Forall_app. split; [apply below_low|]. split; [destruct (0 <? b); repeat constructor; lia|].
    eapply Forall_impl; [|exact G]. intros c [_ X]. exact X. }
  destruct (N.ltb_spec 0 b) as [B|B].
  - rewrite decode_split; [|apply below_low| |exact Ne|exact Nh].
    + rewrite Rd. cbn [option_map]. rewrite text_runes by exact V. reflexivity.
    + intros X. unfold b in B. rewrite X in B. cbn in B. lia.
  - assert (Eb : below 128 rs = []) by (destruct (below 128 rs); [reflexivity|unfold b in B; cbn [length] in B; lia]).
    rewrite Eb in *. cbn [app]. rewrite decode_whole by assumption.
    rewrite Rd. cbn [option_map]. rewrite text_runes by exact V. reflexivity.
Qed.
