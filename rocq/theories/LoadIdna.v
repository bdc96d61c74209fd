(** LoadIdna.v - idna.ToASCII makes a text longer by at most a constant factor. *)

From Verif Require Import Base BaseFacts Utf8 Chars Utf8Facts StrFacts Str Idna IdnaProofs PunyProofs Trie Psl SizeSpec SizeProofs LoadSteps LoadStepsProofs.
From Coq Require Import ZifyBool ZifyNat ZifyN.
Local Open Scope nat_scope.

Lemma number_len : forall fuel q k bias, length (encode_number fuel q k bias) <= S fuel.
Proof.
  induction fuel as [|f IH]; intros q k bias; cbn [encode_number]; cbv zeta; [cbn [length]; lia|].
  destruct (q <? threshold k bias)%N; cbn [length]; [lia|]. specialize (IH ((q - threshold k bias) / (36 - threshold k bias))%N (k + 36)%N bias). lia.
Qed.
Definition count (f : rune -> bool) (s : list rune) : nat := length (filter f s).
Lemma count_cons : forall f r s, count f (r :: s) = (if f r then 1 else 0) + count f s.
Proof. intros f r s. unfold count. cbn [filter]. destruct (f r); reflexivity. Qed.
Lemma some_fst : forall A B (a c : A) (b d : B), Some (a, b) = Some (c, d) -> a = c.
Proof. congruence. Qed.
Lemma some_inj : forall A (a c : A), Some a = Some c -> a = c.
Proof. congruence. Qed.
Lemma pass_len : forall s n b e out e', encode_pass s n b e = Some (out, e') -> length out <= 33 * count (N.eqb n) s.
Proof.
  induction s as [|r s IH]; intros n b e out e' H; cbn [encode_pass] in H; [injection H as <- _; cbn [length]; lia|]. rewrite count_cons.
  destruct (r <? n)%N eqn:E1.
  - destruct (max_int32 <? e_delta e + 1)%N; [discriminate|]. apply IH in H. lia.
  - destruct (n <? r)%N eqn:E2; [apply IH in H; lia|]. cbv zeta in H. replace (n =? r)%N with true by lia.
    destruct (encode_pass s n b _) as [[out' e2]|] eqn:E; [|discriminate]. apply some_fst in H. rewrite <- H. apply IH in E. rewrite app_length.
    pose proof (number_len 32 (e_delta e) 36 (e_bias e)). lia.
Qed.
Lemma next_any : forall s n, next_rune s n = max_int32 \/ (n <= next_rune s n)%N.
Proof.
  intros s n. unfold next_rune.
  enough (G : forall m0 m, m = m0 \/ (n <= m)%N -> let k := fold_left (fun m r => if (r <? m) && (n <=? r) then r else m)%N s m in k = m0 \/ (n <= k)%N) by (apply (G max_int32 max_int32); left; reflexivity).
  induction s as [|r s IH]; intros m0 m H; cbn [fold_left]; [exact H|]. apply IH. destruct ((r <? m) && (n <=? r))%N eqn:E; [right; lia|exact H].
Qed.
Lemma count_split : forall s n m, Forall (fun r => r <= 1114111)%N s -> m = max_int32 \/ (n <= m)%N ->
  count (N.eqb m) s + count (N.leb (m + 1)) s <= count (N.leb n) s.
Proof.
  intros s n m F H. induction F as [|r s L F IH]; [cbn; lia|]. rewrite !count_cons. unfold max_int32 in H.
  destruct (m =? r)%N eqn:E1; destruct (m + 1 <=? r)%N eqn:E2; destruct (n <=? r)%N eqn:E3; lia.
Qed.
Lemma rounds_len : forall fuel s rem n b e out, Forall (fun r => r <= 1114111)%N s ->
  encode_rounds fuel s rem n b e = Some out -> length out <= 33 * count (N.leb n) s.
Proof.
  induction fuel as [|f IH]; intros s rem n b e out F H; cbn [encode_rounds] in H; (destruct (rem =? 0)%N; [injection H as <-; cbn [length]; lia|]); [discriminate|].
  cbv zeta in H. destruct (madd _ _ _) as [delta|]; [|discriminate]. destruct (encode_pass s (next_rune s n) b _) as [[o1 e1]|] eqn:E1; [|discriminate].
  destruct (encode_rounds f s _ _ b _) as [o2|] eqn:E2; [|discriminate]. injection H as <-. apply pass_len in E1. apply IH in E2; [|exact F].
  pose proof (count_split s n (next_rune s n) F (next_any s n)). rewrite app_length. lia.
Qed.
Lemma range_len : forall s skip i, length (range_from s skip i) <= length s.
Proof.
  induction s as [|b s IH]; intros skip i; cbn [range_from]; [cbn [length]; lia|]. destruct skip as [|k].
  - destruct (decode_rune (b :: s)) as [r n]. cbn [length]. specialize (IH (n - 1) (i + 1)%Z). lia.
  - cbn [length]. specialize (IH k (i + 1)%Z). lia.
Qed.
Lemma range_valid : forall s skip i, Forall (fun r => r <= 1114111)%N (map snd (range_from s skip i)).
Proof.
  induction s as [|b s IH]; intros skip i; cbn [range_from]; [constructor|]. destruct skip as [|k]; [|apply IH].
  destruct (decode_rune (b :: s)) as [r n] eqn:E. cbn [map snd]. constructor; [|apply IH].
  apply decode_inv in E; [|discriminate]. destruct E as [(q & V & _)|(-> & _)]; [unfold valid_rune in V; lia|unfold rune_error; lia].
Qed.
Lemma encode_len : forall s a, puny_encode ace_prefix s = Some a -> length a <= 5 + 33 * length s.
Proof.
  intros s a H. unfold puny_encode in H. cbv zeta in H. unfold range_str in H. pose proof (range_len s 0 0) as L. pose proof (range_valid s 0 0) as V.
  assert (L' : length (map snd (range_from s 0 0)) <= length s) by (rewrite map_length; exact L). set (rs := map snd (range_from s 0 0)) in *. clearbody rs.
  destruct (encode_rounds _ rs _ _ _ _) as [out|] eqn:E; [|discriminate]. apply rounds_len in E; [|exact V]. cbn [option_map] in H. apply some_inj in H. rewrite <- H.
  rewrite !app_length. change (length ace_prefix) with 4.
  assert (C : length (filter (fun r => (r <? 128)%N) rs) + count (N.leb 128) rs = length rs).
  { clear. unfold count. induction rs as [|r rs IH]; [reflexivity|]. cbn [filter length]. destruct (r <? 128)%N eqn:E1; destruct (128 <=? r)%N eqn:E2; cbn [length]; lia. }
  unfold rune in *. destruct (0 <? _)%N; cbn [length]; lia.
Qed.

Lemma decode_rounds_len : forall fuel s d out, decode_rounds fuel s d = Some out -> length out <= length (d_output d) + length s.
Proof.
  induction fuel as [|f IH]; intros s d out H; cbn [decode_rounds] in H; (destruct s as [|c s]; [injection H as <-; lia|]); [discriminate|].
  destruct (decode_round (c :: s) d) as [[d' rest]|] eqn:E; [|discriminate]. apply IH in H. pose proof (round_shorter _ _ _ _ E) as Sh.
  enough (length (d_output d') = S (length (d_output d))) by lia. unfold decode_round in E. destruct (decode_number _ _ _ _ _) as [[i r]|]; [|discriminate].
  destruct (1024 <=? _); [discriminate|]. cbv zeta in E. destruct (1114111 <? _)%N; [discriminate|]. injection E as <- _. cbn [d_output]. unfold insert_at.
  rewrite app_length. cbn [length]. rewrite firstn_length, skipn_length. lia.
Qed.
Lemma rune_text_len : forall r, length (rune_text r) <= 4.
Proof. intros r. unfold rune_text. generalize (if ((55296 <=? r) && (r <=? 57343))%N then rune_error else r) as x. intros x. unfold encode. destruct (x <? 128)%N; [|destruct (x <? 2048)%N; [|destruct (x <? 65536)%N]]; cbn [length]; lia. Qed.
Lemma texts_len : forall rs, length (flat_map rune_text rs) <= 4 * length rs.
Proof. induction rs as [|r rs IH]; cbn [flat_map length]; [lia|]. rewrite app_length. pose proof (rune_text_len r). lia. Qed.
Lemma decode_len : forall s u, puny_decode s = Some u -> length u <= 4 * length s.
Proof.
  intros s u H. unfold puny_decode in H. destruct s as [|c s]; [injection H as <-; cbn [length]; lia|]. set (t := c :: s) in *. clearbody t. cbv zeta in H. clear c s.
  set (pos := Z.to_nat (1 + last_index_byte t 45)) in *. clearbody pos. destruct (pos =? 1); [discriminate|].
  destruct (pos =? length t); [injection H as <-; rewrite firstn_length; lia|].
  destruct (decode_rounds _ _ _) as [out|] eqn:E; [|discriminate]. cbn [option_map] in H. injection H as <-. apply decode_rounds_len in E. cbn [d_output] in E.
  pose proof (texts_len out). rewrite skipn_length in E. destruct (pos =? 0) eqn:P; [cbn [length] in E; lia|]. rewrite map_length in E. unfold range_str in E.
  pose proof (range_len (firstn (pos - 1) t) 0 0) as R. rewrite firstn_length in R. unfold rune in *. lia.
Qed.
Lemma label_len : forall strict l u a, decode_label strict l = inr u -> encode_label u = Some a -> length a <= 137 * length l.
Proof.
  intros strict l u a H E.
  assert (U : length u <= 4 * length l).
  { unfold decode_label in H. destruct (has_prefix l ace_prefix); [|injection H as <-; lia]. destruct (puny_decode (skipn 4 l)) as [v|] eqn:D; [|discriminate].
    destruct (strict && is_ascii v); [discriminate|]. injection H as <-. apply decode_len in D. rewrite skipn_length in D. lia. }
  unfold encode_label in E. destruct (is_ascii u) eqn:A; [injection E as <-; lia|]. apply encode_len in E.
  assert (1 <= length u) by (destruct u; [discriminate A|cbn [length]; lia]). lia.
Qed.
Lemma labels_len : forall strict ls us bs, decode_labels strict ls = inr us -> encode_labels us = Some bs ->
  length (join_dots bs) <= 137 * length (join_dots ls).
Proof.
  induction ls as [|l ls IH]; intros us bs H E; cbn [decode_labels] in H; [injection H as <-; injection E as <-; cbn; lia|].
  destruct (decode_label strict l) as [e|u] eqn:D; [discriminate|]. destruct (decode_labels strict ls) as [e|us'] eqn:D'; [discriminate|]. injection H as <-.
  cbn [encode_labels] in E. destruct (encode_label u) as [a|] eqn:A; [|discriminate]. destruct (encode_labels us') as [bs'|] eqn:B; [|discriminate]. injection E as <-.
  pose proof (label_len _ _ _ _ D A) as L. specialize (IH us' bs' eq_refl B).
  assert (N : ls = [] <-> bs' = []).
  { destruct ls as [|l' ls]; cbn [decode_labels] in D'; [injection D' as <-; injection B as <-; tauto|].
    destruct (decode_label strict l'); [discriminate|]. destruct (decode_labels strict ls); [discriminate|]. injection D' as <-. cbn [encode_labels] in B.
    repeat match type of B with match ?x with _ => _ end = _ => destruct x; [|discriminate B] end. apply some_inj in B. rewrite <- B. split; discriminate. }
  destruct ls as [|l' ls].
  - rewrite (proj1 N eq_refl). cbn [join_dots]. exact L.
  - destruct bs' as [|b' bs']; [discriminate (proj2 N eq_refl)|]. change (join_dots (a :: b' :: bs')) with (a ++ 46%N :: join_dots (b' :: bs')).
    change (join_dots (l :: l' :: ls)) with (l ++ 46%N :: join_dots (l' :: ls)). rewrite !app_length. cbn [length]. lia.
Qed.
Lemma ascii_len : forall strict s a, go_to_ascii strict s = Some a -> length a <= 137 * length s.
Proof.
  intros strict s a H. unfold go_to_ascii in H. destruct (decode_labels strict (split_byte s 46)) as [e|us] eqn:D; [discriminate|].
  destruct (encode_labels us) as [bs|] eqn:E; [|discriminate]. injection H as <-. pose proof (labels_len _ _ _ _ D E) as L. rewrite join_split in L. exact L.
Qed.

Lemma c112_library : forall strict contents private, exists t n, load_c (go_to_ascii strict) contents private = Ret (t, n)
  /\ build_trie (if private : bool then s_all (parse_list (go_to_ascii strict) contents) else s_public (parse_list (go_to_ascii strict) contents)) = Ret t
  /\ nodes t <= 1 + 140 * length contents /\ n <= (11 * 137 + 46) * length contents + 9.
Proof.
  intros strict contents private. destruct (c112_load (go_to_ascii strict) 137 contents private (ascii_len strict)) as (t & n & E & B & L). exists t, n.
  split; [exact E|]. split; [exact B|]. split; [|exact L]. apply (c111_file (go_to_ascii strict) 137 contents private t (ascii_len strict) B).
Qed.
