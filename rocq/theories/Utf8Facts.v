(** Utf8Facts.v - the UTF-8 model: decoding inverts encoding, forwards and backwards. *)

From Verif Require Import Base BaseFacts Utf8 Chars.
From Coq Require Import ZifyBool ZifyNat ZifyN.
Local Open Scope N_scope.
Local Ltac Zify.zify_post_hook ::= Z.div_mod_to_equations.



Lemma encode_cases : forall r, valid_rune r ->
  (r < 128 /\ encode r = [r])
  \/ (exists b0 b1, encode r = [b0; b1] /\ 194 <= b0 <= 223 /\ 128 <= b1 <= 191
      /\ r = (b0 - 192) * 64 + (b1 - 128))
  \/ (exists b0 b1 b2, encode r = [b0; b1; b2] /\ 224 <= b0 <= 239
      /\ second_lo b0 <= b1 <= second_hi b0 /\ 128 <= b1 <= 191 /\ 128 <= b2 <= 191
      /\ r = (b0 - 224) * 4096 + (b1 - 128) * 64 + (b2 - 128))
  \/ (exists b0 b1 b2 b3, encode r = [b0; b1; b2; b3] /\ 240 <= b0 <= 244
      /\ second_lo b0 <= b1 <= second_hi b0 /\ 128 <= b1 <= 191 /\ 128 <= b2 <= 191 /\ 128 <= b3 <= 191
      /\ r = (b0 - 240) * 262144 + (b1 - 128) * 4096 + (b2 - 128) * 64 + (b3 - 128)).
Proof.
  intros r V. unfold valid_rune in V. unfold encode.
  destruct (N.ltb_spec r 128); [left; auto|right].
  destruct (N.ltb_spec r 2048).
  { left. eexists _, _. split; [reflexivity|]. lia. }
  right. destruct (N.ltb_spec r 65536).
  - left. eexists _, _, _. split; [reflexivity|]. split; [lia|]. split; [|lia].
    unfold second_lo, second_hi.
    destruct (N.eqb_spec (224 + r / 4096) 224), (N.eqb_spec (224 + r / 4096) 240),
      (N.eqb_spec (224 + r / 4096) 237), (N.eqb_spec (224 + r / 4096) 244); lia.
  - right. eexists _, _, _, _. split; [reflexivity|]. split; [lia|]. split; [|lia].
    unfold second_lo, second_hi.
    destruct (N.eqb_spec (240 + r / 262144) 224), (N.eqb_spec (240 + r / 262144) 240),
      (N.eqb_spec (240 + r / 262144) 237), (N.eqb_spec (240 + r / 262144) 244); lia.
Qed.

Lemma in_range_true : forall b lo hi, lo <= b <= hi -> in_range b lo hi = true.
Proof. intros. unfold in_range. lia. Qed.
Lemma in_range_false : forall b lo hi, b < lo \/ hi < b -> in_range b lo hi = false.
Proof. intros. unfold in_range. lia. Qed.
Lemma in_range_inv : forall b lo hi, in_range b lo hi = true -> lo <= b <= hi.
Proof. intros b lo hi H. unfold in_range in H. lia. Qed.

Lemma decode_encode : forall r q, valid_rune r ->
  decode_rune (encode r ++ q) = (r, length (encode r)).
Proof.
  intros r q V.
  destruct (encode_cases r V) as
    [(H & ->)|[(b0 & b1 & -> & H0 & H1 & Hr)|[(b0 & b1 & b2 & -> & H0 & Hs & H1 & H2 & Hr)
    |(b0 & b1 & b2 & b3 & -> & H0 & Hs & H1 & H2 & H3 & Hr)]]];
    cbn [app decode_rune length].
  - replace (r <? 128) with true by lia. reflexivity.
  - replace (b0 <? 128) with false by lia.
    rewrite in_range_true by lia. unfold is_cont. rewrite in_range_true by lia. rewrite <- Hr. reflexivity.
  - replace (b0 <? 128) with false by lia.
    rewrite in_range_false by lia. rewrite in_range_true by lia. rewrite in_range_true by lia.
    unfold is_cont. rewrite in_range_true by lia. cbn [andb]. rewrite <- Hr. reflexivity.
  - replace (b0 <? 128) with false by lia.
    rewrite !in_range_false by lia. rewrite !in_range_true by lia.
    unfold is_cont. rewrite !in_range_true by lia. cbn [andb]. rewrite <- Hr. reflexivity.
Qed.

Lemma encode_2 : forall b0 b1, 194 <= b0 <= 223 -> 128 <= b1 <= 191 ->
  encode ((b0 - 192) * 64 + (b1 - 128)) = [b0; b1]
  /\ valid_rune ((b0 - 192) * 64 + (b1 - 128)).
Proof.
  intros b0 b1 H0 H1. unfold encode, valid_rune.
  set (r := (b0 - 192) * 64 + (b1 - 128)).
  assert (Hr : 128 <= r < 2048) by (unfold r; lia).
  replace (r <? 128) with false by lia. replace (r <? 2048) with true by lia.
  split; [|lia]. f_equal; [|f_equal]; unfold r; lia.
Qed.

Lemma second_bounds : forall b0 b1, second_lo b0 <= b1 <= second_hi b0 ->
  128 <= b1 <= 191 /\ (b0 = 224 -> 160 <= b1) /\ (b0 = 237 -> b1 <= 159)
  /\ (b0 = 240 -> 144 <= b1) /\ (b0 = 244 -> b1 <= 143).
Proof.
  intros b0 b1. unfold second_lo, second_hi.
  destruct (N.eqb_spec b0 224), (N.eqb_spec b0 240), (N.eqb_spec b0 237), (N.eqb_spec b0 244); lia.
Qed.

Lemma encode_3 : forall b0 b1 b2, 224 <= b0 <= 239 -> second_lo b0 <= b1 <= second_hi b0 ->
  128 <= b2 <= 191 ->
  encode ((b0 - 224) * 4096 + (b1 - 128) * 64 + (b2 - 128)) = [b0; b1; b2]
  /\ valid_rune ((b0 - 224) * 4096 + (b1 - 128) * 64 + (b2 - 128)).
Proof.
  intros b0 b1 b2 H0 Hs H2. apply second_bounds in Hs as (H1 & A & B & _).
  unfold encode, valid_rune.
  set (r := (b0 - 224) * 4096 + (b1 - 128) * 64 + (b2 - 128)).
  assert (Hr : 2048 <= r < 65536) by (unfold r; lia).
  replace (r <? 128) with false by lia. replace (r <? 2048) with false by lia.
  replace (r <? 65536) with true by lia.
  split; [|unfold r; lia]. f_equal; [|f_equal; [|f_equal]]; unfold r; lia.
Qed.

Lemma encode_4 : forall b0 b1 b2 b3, 240 <= b0 <= 244 -> second_lo b0 <= b1 <= second_hi b0 ->
  128 <= b2 <= 191 -> 128 <= b3 <= 191 ->
  encode ((b0 - 240) * 262144 + (b1 - 128) * 4096 + (b2 - 128) * 64 + (b3 - 128)) = [b0; b1; b2; b3]
  /\ valid_rune ((b0 - 240) * 262144 + (b1 - 128) * 4096 + (b2 - 128) * 64 + (b3 - 128)).
Proof.
  intros b0 b1 b2 b3 H0 Hs H2 H3. apply second_bounds in Hs as (H1 & _ & _ & A & B).
  unfold encode, valid_rune.
  set (r := (b0 - 240) * 262144 + (b1 - 128) * 4096 + (b2 - 128) * 64 + (b3 - 128)).
  assert (Hr : 65536 <= r <= 1114111) by (unfold r; lia).
  replace (r <? 128) with false by lia. replace (r <? 2048) with false by lia.
  replace (r <? 65536) with false by lia.
  split; [|unfold r; lia]. f_equal; [|f_equal; [|f_equal; [|f_equal]]]; unfold r; lia.
Qed.

(** What decoding a non-empty string can yield. *)
Lemma decode_inv : forall s r n, decode_rune s = (r, n) -> s <> [] ->
  (exists q, valid_rune r /\ s = encode r ++ q /\ n = length (encode r))
  \/ (r = rune_error /\ n = 1%nat).
Proof.
  intros s r n H Hs. destruct s as [|b0 t]; [contradiction|]. cbn [decode_rune] in H.
  destruct (N.ltb_spec b0 128).
  { left. injection H as <- <-. exists t. unfold encode, valid_rune.
    replace (b0 <? 128) with true by lia. cbn [app length]. split; [lia|auto]. }
  destruct (in_range b0 194 223) eqn:E0.
  { apply in_range_inv in E0. destruct t as [|b1 t]; [right; split; congruence|].
    destruct (is_cont b1) eqn:E1; [|right; split; congruence].
    apply in_range_inv in E1. injection H as <- <-. left. exists t.
    destruct (encode_2 b0 b1 E0 E1) as (-> & V). cbn [app length]. auto. }
  destruct (in_range b0 224 239) eqn:E1.
  { apply in_range_inv in E1. destruct t as [|b1 [|b2 t]]; try (right; split; congruence).
    destruct (in_range b1 (second_lo b0) (second_hi b0) && is_cont b2) eqn:E2; [|right; split; congruence].
    apply andb_true_iff in E2 as [E2 E3]. apply in_range_inv in E2. apply in_range_inv in E3.
    injection H as <- <-. left. exists t.
    destruct (encode_3 b0 b1 b2 E1 E2 E3) as (-> & V). cbn [app length]. auto. }
  destruct (in_range b0 240 244) eqn:E2; [|right; split; congruence].
  apply in_range_inv in E2. destruct t as [|b1 [|b2 [|b3 t]]]; try (right; split; congruence).
  destruct (in_range b1 (second_lo b0) (second_hi b0) && is_cont b2 && is_cont b3) eqn:E3;
    [|right; split; congruence].
  apply andb_true_iff in E3 as [E3 E5]. apply andb_true_iff in E3 as [E3 E4].
  apply in_range_inv in E3. apply in_range_inv in E4. apply in_range_inv in E5.
  injection H as <- <-. left. exists t.
  destruct (encode_4 b0 b1 b2 b3 E2 E3 E4 E5) as (-> & V). cbn [app length]. auto.
Qed.

(** A multi-byte encoding is a non-continuation byte followed by continuation bytes. *)
Lemma encode_shape : forall r, valid_rune r ->
  exists b t, encode r = b :: t /\ is_cont b = false /\ Forall (fun x => is_cont x = true) t
              /\ (length t <= 3)%nat /\ (b < 128 <-> t = []).
Proof.
  intros r V.
  destruct (encode_cases r V) as
    [(H & ->)|[(b0 & b1 & -> & H0 & H1 & Hr)|[(b0 & b1 & b2 & -> & H0 & Hs & H1 & H2 & Hr)
    |(b0 & b1 & b2 & b3 & -> & H0 & Hs & H1 & H2 & H3 & Hr)]]];
    eexists _, _; (split; [reflexivity|]); unfold is_cont.
  - rewrite in_range_false by lia. cbn [length]. repeat split; auto; lia.
  - rewrite in_range_false by lia. cbn [length]. repeat split; try lia; try discriminate.
    repeat constructor; apply in_range_true; lia.
  - rewrite in_range_false by lia. cbn [length]. repeat split; try lia; try discriminate.
    repeat constructor; apply in_range_true; lia.
  - rewrite in_range_false by lia. cbn [length]. repeat split; try lia; try discriminate.
    repeat constructor; apply in_range_true; lia.
Qed.

Lemma encode_nonempty : forall r, valid_rune r -> encode r <> [].
Proof. intros r V. destruct (encode_shape r V) as (b & t & -> & _). discriminate. Qed.

Lemma encode_length : forall r, valid_rune r -> (1 <= length (encode r) <= 4)%nat.
Proof. intros r V. destruct (encode_shape r V) as (b & t & -> & _ & _ & H & _). cbn [length]. lia. Qed.

(** [find_start] finds the start of the encoding: [t] is the part of the continuation bytes
    that has not been looked at. *)
Lemma find_start_spec : forall t p b u lim fuel,
  is_cont b = false -> Forall (fun x => is_cont x = true) t ->
  (lim <= len p)%Z -> (length t < fuel)%nat ->
  find_start (p ++ b :: t ++ u) (len p + len t) lim fuel = len p.
Proof.
  intros t. induction t as [|x t IH] using rev_ind; intros p b u lim fuel Hb Ht Hl Hf.
  - destruct fuel as [|f]; [cbn in Hf; lia|]. cbn [find_start].
    autorewrite with len. rewrite Z.add_0_r.
    replace (len p <? lim)%Z with false by lia.
    replace (Z.to_nat (len p)) with (length p) by (unfold len; lia).
    rewrite app_nth2, Nat.sub_diag by lia. cbn [nth]. unfold rune_start. rewrite Hb. reflexivity.
  - destruct fuel as [|f]; [cbn in Hf; lia|]. cbn [find_start].
    rewrite app_length in Hf. cbn [length] in Hf.
    apply Forall_app in Ht as [Ht Hx]. inversion Hx as [|? ? Hx' _]; subst.
    autorewrite with len. pose proof (len_nonneg _ t). pose proof (len_nonneg _ p).
    replace (len p + (len t + (1 + 0)) <? lim)%Z with false by lia.
    replace (p ++ b :: (t ++ [x]) ++ u) with ((p ++ b :: t) ++ x :: u)
      by (rewrite <- !app_assoc; cbn [app]; rewrite <- ?app_assoc; reflexivity).
    replace (Z.to_nat (len p + (len t + (1 + 0)))) with (length (p ++ b :: t))
      by (rewrite app_length; cbn [length]; unfold len; lia).
    rewrite app_nth2, Nat.sub_diag by lia. cbn [nth]. unfold rune_start at 1. rewrite Hx'. cbn [negb].
    rewrite <- app_assoc. cbn [app].
    replace (len p + (len t + (1 + 0)) - 1)%Z with (len p + len t)%Z by lia.
    apply (IH p b (x :: u)); auto; lia.
Qed.

Lemma decode_last_encode : forall p r, valid_rune r ->
  decode_last (p ++ encode r) = (r, length (encode r)).
Proof.
  intros p r V. pose proof (decode_encode r [] V) as D. rewrite app_nil_r in D.
  destruct (encode_shape r V) as (b & t & E & Hb & Ht & Hlen & Hiff).
  rewrite E in *. unfold decode_last.
  destruct t as [|c t' _] using rev_ind.
  - replace (length (p ++ [b])) with (S (length p)) by (rewrite app_length; cbn; lia).
    rewrite app_nth2, Nat.sub_diag by lia. cbn [nth].
    assert (b < 128) by (apply Hiff; reflexivity).
    replace (b <? 128) with true by lia. cbn [length].
    cbn [decode_rune] in D. replace (b <? 128) with true in D by lia. exact D.
  - rewrite app_length in Hlen. cbn [length] in Hlen.
    apply Forall_app in Ht as [Ht Hc]. inversion Hc as [|? ? Hc' _]; subst.
    assert (L : length (p ++ b :: t' ++ [c]) = S (length (p ++ b :: t'))).
    { rewrite !app_length. cbn [length]. rewrite app_length. cbn [length]. lia. }
    rewrite L.
    replace (nth (length (p ++ b :: t')) (p ++ b :: t' ++ [c]) 0) with c.
    2:{ replace (p ++ b :: t' ++ [c]) with ((p ++ b :: t') ++ [c])
          by (rewrite <- app_assoc; reflexivity).
        rewrite app_nth2, Nat.sub_diag by lia. reflexivity. }
    apply in_range_inv in Hc'. replace (c <? 128) with false by lia.
    replace (len (p ++ b :: t' ++ [c]) - 2)%Z with (len p + len t')%Z
      by (autorewrite with len; lia).
    rewrite find_start_spec; auto; [| |lia].
    + replace (Z.max 0 (len p)) with (len p) by (pose proof (len_nonneg _ p); lia).
      replace (Z.to_nat (len p)) with (length p + 0)%nat by (unfold len; lia).
      rewrite skipn_app, Nat.add_0_r, skipn_all, Nat.sub_diag. cbn [skipn app].
      rewrite D. cbn [length].
      replace (len p + Z.of_nat (S (length (t' ++ [c]))) =? len (p ++ b :: t' ++ [c]))%Z with true.
      * reflexivity.
      * autorewrite with len. rewrite app_length. unfold len. cbn [length]. lia.
    + autorewrite with len. pose proof (len_nonneg _ p). unfold len in *. lia.
Qed.

Lemma firstn_skipn_len : forall (s : bytes) k, (0 <= k <= len s)%Z ->
  exists p, s = p ++ skipn (Z.to_nat k) s /\ len p = k.
Proof.
  intros s k H. exists (firstn (Z.to_nat k) s). split; [symmetry; apply firstn_skipn|].
  unfold len in *. rewrite firstn_length. lia.
Qed.

Lemma find_start_le : forall s start lim fuel, (find_start s start lim fuel <= start)%Z.
Proof.
  intros s start lim fuel. revert start. induction fuel as [|f IH]; intros start; cbn [find_start]; [lia|].
  destruct (start <? lim)%Z; [lia|]. destruct (rune_start _); [lia|]. specialize (IH (start - 1)%Z). lia.
Qed.

Lemma decode_last_inv : forall s r n, decode_last s = (r, n) -> s <> [] ->
  (exists p, valid_rune r /\ s = p ++ encode r /\ n = length (encode r))
  \/ (r = rune_error /\ n = 1%nat).
Proof.
  intros s r n H Hs. unfold decode_last in H.
  destruct s as [|s0 p _] using rev_ind; [contradiction|]. clear Hs.
  rewrite app_length in H. cbn [length] in H. rewrite Nat.add_1_r in H.
  rewrite app_nth2, Nat.sub_diag in H by lia. cbn [nth] in H.
  destruct (N.ltb_spec s0 128).
  - injection H as <- <-. left. exists p. unfold encode, valid_rune.
    replace (s0 <? 128) with true by lia. cbn [length]. split; [lia|auto].
  - remember (Z.max 0 (find_start (p ++ [s0]) (len (p ++ [s0]) - 2) (Z.max (len (p ++ [s0]) - 4) 0) 4)) as st eqn:Est.
    assert (Hst : (0 <= st <= len (p ++ [s0]) - 1)%Z).
    { pose proof (find_start_le (p ++ [s0]) (len (p ++ [s0]) - 2) (Z.max (len (p ++ [s0]) - 4) 0) 4).
      pose proof (len_nonneg _ p). autorewrite with len in *. lia. }
    destruct (firstn_skipn_len (p ++ [s0]) st) as (a & Ha & La); [lia|].
    remember (skipn (Z.to_nat st) (p ++ [s0])) as d eqn:Ed. clear Ed.
    destruct (decode_rune d) as [r' size] eqn:D.
    assert (Hd : d <> []).
    { intros ->. rewrite Ha in Hst. autorewrite with len in Hst. lia. }
    destruct (decode_inv d r' size D Hd) as [(q & V & -> & ->)|(-> & ->)].
    + destruct (Z.eqb_spec (st + Z.of_nat (length (encode r'))) (len (p ++ [s0]))) as [Eq|]; injection H as <- <-; [|right; auto].
      left. exists a. rewrite Ha in *. autorewrite with len in *.
      assert (q = []) by (apply len_zero; unfold len in *; lia). subst. rewrite app_nil_r. auto.
    + right. destruct (_ =? _)%Z in H; injection H as <- <-; auto.
Qed.

Lemma decode_last_size : forall s r n, decode_last s = (r, n) -> s <> [] -> (1 <= n <= length s)%nat.
Proof.
  intros s r n H Hs. destruct (decode_last_inv s r n H Hs) as [(p & V & -> & ->)|(-> & ->)].
  - pose proof (encode_length r V). rewrite app_length. lia.
  - destruct s; [contradiction|]. cbn [length]. lia.
Qed.

Lemma decode_size : forall s r n, decode_rune s = (r, n) -> s <> [] -> (1 <= n <= length s)%nat.
Proof.
  intros s r n H Hs. destruct (decode_inv s r n H Hs) as [(p & V & -> & ->)|(-> & ->)].
  - pose proof (encode_length r V). rewrite app_length. lia.
  - destruct s; [contradiction|]. cbn [length]. lia.
Qed.

Lemma encode_inj : forall r r' q q', valid_rune r -> valid_rune r' ->
  encode r ++ q = encode r' ++ q' -> r = r' /\ q = q'.
Proof.
  intros r r' q q' V V' H. pose proof (decode_encode r q V) as D. rewrite H in D.
  rewrite decode_encode in D by exact V'. injection D as D1 D2. subst r'.
  split; [reflexivity|]. apply app_inv_head in H. exact H.
Qed.

(** Self-synchronisation: an encoding occurring inside the text [encode r ++ q] either is at
    its start or lies completely behind the first encoding. *)
Lemma encode_sync : forall r r' x q q', valid_rune r -> valid_rune r' ->
  encode r ++ q = x ++ encode r' ++ q' ->
  (x = [] /\ r = r' /\ q = q') \/ (exists y, x = encode r ++ y /\ q = y ++ encode r' ++ q').
Proof.
  intros r r' x q q' V V' H.
  destruct (app_split _ _ _ _ _ H) as [(m & -> & ->)|(m & Hm & Em & Eq)].
  - right. exists m. auto.
  - destruct x as [|x0 x].
    + left. cbn [app] in *. destruct (encode_inj r r' q q' V V' H). auto.
    + exfalso. destruct (encode_shape r V) as (b & t & E & Hb & Ht & _).
      destruct (encode_shape r' V') as (b' & t' & E' & Hb' & _).
      rewrite E in Em. cbn [app] in Em. injection Em as <- ->.
      apply Forall_app in Ht as [_ Ht]. rewrite E' in Eq. destruct m as [|m0 m]; [contradiction|].
      cbn [app] in Eq. injection Eq as <- _. inversion Ht. congruence.
Qed.
