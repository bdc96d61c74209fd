(** ParseFacts.v - Extract computes the index-free form of Parse.v. *)

From Verif Require Import Base BaseFacts Utf8 Chars Utf8Facts Str StrFacts Net Trie Extract Host HostFacts
  Addr NetFacts Walk WalkFacts Parse.
From Coq Require Import ZifyBool ZifyNat ZifyN.
Local Open Scope Z_scope.

(** ** Character sets *)

Lemma contains_low : forall chars c, Forall (fun b => (b < 128)%N) chars ->
  contains (make_ascii_set chars) c = memN c chars.
Proof.
  intros chars c H. rewrite contains_make_ascii_set.
  destruct (memN c chars) eqn:E; [|apply andb_false_r]. rewrite andb_true_r.
  apply memN_In in E. rewrite Forall_forall in H. specialize (H c E). lia.
Qed.

Ltac low := match goal with |- Forall _ ?l => let l' := eval vm_compute in l in change l with l' end;
  repeat constructor.

Ltac memdec := unfold memN, str; cbn [map list_ascii_of_string existsb N_of_ascii]; lia.

Lemma set_first : forall c, contains scheme_first_char_set c = alpha c.
Proof.
  intros c. unfold scheme_first_char_set. rewrite contains_low by low.
  unfold alpha, memN, alphabets, str. cbn -[N.eqb N.leb orb andb]. lia.
Qed.
Lemma set_remaining : forall c, contains scheme_remaining_char_set c = scheme_char c.
Proof.
  intros c. unfold scheme_remaining_char_set. rewrite contains_low by low.
  unfold scheme_char, alpha, is_digit. rewrite !memN_app. unfold memN, alphabets, numbers, str.
  cbn -[N.eqb N.leb orb andb]. lia.
Qed.
Lemma set_slashes : forall c, contains slashes c = is_slash c.
Proof. intros c. unfold slashes. apply contains_low. low. Qed.
Lemma set_path : forall c, contains end_of_host_with_port_delimiters_set c = is_path_char c.
Proof. intros c. unfold end_of_host_with_port_delimiters_set. apply contains_low. low. Qed.
Lemma set_host_end : forall c, contains end_of_host_delimiters_set c = is_path_char c || (c =? 58)%N.
Proof.
  intros c. unfold end_of_host_delimiters_set, end_of_host_delimiters. rewrite contains_low by low.
  rewrite memN_app. unfold is_path_char, end_of_host_with_port_delimiters.
  f_equal. unfold memN, str. cbn -[N.eqb]. apply orb_false_r.
Qed.
Lemma set_user : forall c, contains invalid_user_info_chars_set c = is_path_char c || is_bracket c.
Proof.
  intros c. unfold invalid_user_info_chars_set, invalid_user_info_chars. rewrite contains_low by low.
  apply memN_app.
Qed.
Lemma set_numeric : forall c, contains numeric_set c = is_digit c.
Proof.
  intros c. unfold numeric_set. rewrite contains_low by low. unfold is_digit, memN, numbers, str.
  cbn -[N.eqb N.leb orb andb]. lia.
Qed.

(** ** First position of a set character *)

Lemma index_any_from : forall s as_ p i d q,
  (forall c, contains as_ c = p c) -> span (fun b => negb (p b)) s = (d, q) ->
  index_any_ascii_from s as_ i = match q with [] => -1 | _ => i + len d end.
Proof.
  induction s as [|b s IH]; intros as_ p i d q Hp Hs; cbn [span index_any_ascii_from] in *.
  - injection Hs as <- <-. reflexivity.
  - rewrite Hp. destruct (p b) eqn:Eb; cbn [negb] in Hs.
    + injection Hs as <- <-. rewrite len_nil. lia.
    + destruct (span (fun b => negb (p b)) s) as [d' q'] eqn:E. injection Hs as <- <-.
      rewrite (IH as_ p (i + 1) d' q' Hp E). destruct q'; [reflexivity|]. rewrite len_cons. lia.
Qed.

Lemma index_any_span : forall s as_ p d q,
  (forall c, contains as_ c = p c) -> span (fun b => negb (p b)) s = (d, q) ->
  index_any_ascii s as_ = match q with [] => -1 | _ => len d end.
Proof. intros. unfold index_any_ascii. erewrite index_any_from; eauto. destruct q; lia. Qed.

(** ** Scheme *)

Lemma scheme_slashes : forall s i n colon k sl rest,
  0 < i -> 0 <= k -> n = i + len s ->
  (k > 0 \/ colon = true \/ match s with c :: _ => scheme_char c = false /\ c <> 58%N | [] => True end) ->
  span is_slash s = (sl, rest) ->
  scheme_loop s i n colon k = if k + len sl >=? 2 then i + len sl else -1.
Proof.
  induction s as [|c s IH]; intros i n colon k sl rest Hi Hk Hn Hc Hs; cbn [span scheme_loop] in *.
  - injection Hs as <- <-. rewrite !len_nil in *. rewrite Z.add_0_r. subst n. rewrite Z.add_0_r. reflexivity.
  - rewrite len_cons in Hn. replace (i =? 0) with false by lia. rewrite set_remaining, set_slashes.
    destruct (is_slash c) eqn:Esl.
    + destruct (span is_slash s) as [sl' rest'] eqn:E. injection Hs as <- <-.
      assert (Hn58 : (c =? 58)%N = false) by (destruct (N.eqb_spec c 58) as [->|H]; [discriminate|reflexivity]).
      assert (Hsc : scheme_char c = false).
      { unfold is_slash, memN, str in Esl. cbn -[N.eqb] in Esl.
        assert (c = 47%N \/ c = 92%N) as [-> | ->] by lia; reflexivity. }
      rewrite Hn58, Hsc, !andb_false_r.
      assert (Hrec : scheme_loop s (i + 1) n colon (k + 1) = (if k + 1 + len sl' >=? 2 then i + 1 + len sl' else -1)).
      { apply (IH (i + 1) n colon (k + 1) sl' rest'); auto; lia. }
      rewrite len_cons. replace (k + (1 + len sl')) with (k + 1 + len sl') by lia.
      replace (i + (1 + len sl')) with (i + 1 + len sl') by lia. rewrite Hrec. destruct (k =? 0); reflexivity.
    + injection Hs as <- <-. rewrite len_nil, !Z.add_0_r.
      destruct (Z.eqb_spec k 0) as [->|Hk0].
      * destruct Hc as [Hc|[->|(Hc1 & Hc2)]]; [lia| |].
        -- cbn [negb andb]. reflexivity.
        -- rewrite Hc1, andb_false_r. replace (c =? 58)%N with false by lia. rewrite andb_false_r. reflexivity.
      * destruct (Z.ltb_spec k 2) as [H|H], (Z.geb_spec k 2); try lia; reflexivity.
Qed.

Lemma scheme_rest : forall s i n x r,
  0 < i -> n = i + len s -> span scheme_char s = (x, r) ->
  scheme_loop s i n false 0
  = match r with
    | b :: r' => if (b =? 58)%N
                 then let '(sl, _) := span is_slash r' in
                      if len sl >=? 2 then i + len x + 1 + len sl else -1
                 else let '(sl, _) := span is_slash r in if len sl >=? 2 then i + len x + len sl else -1
    | [] => -1
    end.
Proof.
  induction s as [|c s IH]; intros i n x r Hi Hn Hs; cbn [span] in Hs.
  - injection Hs as <- <-. reflexivity.
  - rewrite len_cons in Hn. destruct (scheme_char c) eqn:Ec.
    + destruct (span scheme_char s) as [x' r'] eqn:E. injection Hs as <- <-.
      cbn [scheme_loop]. replace (i =? 0) with false by lia. change (0 =? 0) with true.
      rewrite set_remaining, Ec. cbn [negb andb]. rewrite (IH (i + 1) n x' r') by (auto; lia).
      rewrite len_cons. destruct r' as [|b r']; [reflexivity|]. destruct (b =? 58)%N.
      * destruct (span is_slash r') as [sl rest]. destruct (len sl >=? 2); lia.
      * destruct (span is_slash (b :: r')) as [sl rest]. destruct (len sl >=? 2); lia.
    + injection Hs as <- <-. rewrite len_nil. destruct (N.eqb_spec c 58) as [->|Hc].
      * cbn [scheme_loop]. replace (i =? 0) with false by lia. change (0 =? 0) with true.
        rewrite set_remaining, Ec. change (58 =? 58)%N with true. cbn [negb andb].
        destruct (span is_slash s) as [sl rest] eqn:E.
        rewrite (scheme_slashes s (i + 1) n true 0 sl rest) by (auto; lia). rewrite Z.add_0_l.
        destruct (len sl >=? 2); lia.
      * destruct (span is_slash (c :: s)) as [sl rest] eqn:E.
        rewrite (scheme_slashes (c :: s) i n false 0 sl rest); auto; try lia.
        -- rewrite Z.add_0_l. destruct (len sl >=? 2); lia.
        -- rewrite len_cons. lia.
Qed.

Lemma scheme_body_app : forall s body r, scheme_body s = (body, r) -> s = body ++ r.
Proof.
  intros s body r H. unfold scheme_body in H. destruct s as [|c t]; [injection H as <- <-; reflexivity|].
  destruct (alpha c); [|injection H as <- <-; reflexivity].
  destruct (span scheme_char t) as [x q] eqn:E. apply span_spec in E as (-> & _ & _).
  destruct q as [|b q].
  - injection H as <- <-. reflexivity.
  - destruct (N.eqb_spec b 58) as [->|Hb]; injection H as <- <-; cbn [app]; [|reflexivity].
    rewrite <- app_assoc. reflexivity.
Qed.

Lemma split_scheme_app : forall s a b, split_scheme s = (a, b) -> s = a ++ b.
Proof.
  intros s a b H. unfold split_scheme in H. destruct (scheme_body s) as [body r] eqn:Eb.
  destruct (span is_slash r) as [sl rest] eqn:Es. destruct (2 <=? length sl)%nat.
  - injection H as <- <-. rewrite (scheme_body_app _ _ _ Eb). apply span_spec in Es as (-> & _). apply app_assoc.
  - injection H as <- <-. reflexivity.
Qed.

Lemma scheme_spec : forall s a b, split_scheme s = (a, b) ->
  get_scheme_end_index s = if is_nil a then -1 else len a.
Proof.
  intros s a b H. unfold get_scheme_end_index, split_scheme in *.
  destruct s as [|c t].
  { cbn in H. injection H as <- <-. reflexivity. }
  unfold scheme_body in H. cbn [scheme_loop]. change (0 =? 0) with true. rewrite set_first, set_slashes.
  rewrite len_cons. destruct (alpha c) eqn:Ea.
  - destruct (span scheme_char t) as [x r] eqn:E.
    rewrite (scheme_rest t (0 + 1) (1 + len t) x r) by (auto; lia).
    destruct r as [|d r].
    { cbn [span length Nat.leb] in H. injection H as <- <-. reflexivity. }
    destruct (N.eqb_spec d 58) as [->|Hd].
    + change (58 =? 58)%N with true in H. destruct (span is_slash r) as [sl rest].
      unfold len at 1. destruct (Nat.leb_spec 2 (length sl)); injection H as <- <-.
      * replace (Z.of_nat (length sl) >=? 2) with true by lia. cbn [app is_nil].
        autorewrite with len. lia.
      * replace (Z.of_nat (length sl) >=? 2) with false by lia. reflexivity.
    + replace (d =? 58)%N with false in H by lia. destruct (span is_slash (d :: r)) as [sl rest].
      unfold len at 1. destruct (Nat.leb_spec 2 (length sl)); injection H as <- <-.
      * replace (Z.of_nat (length sl) >=? 2) with true by lia. cbn [app is_nil].
        autorewrite with len. lia.
      * replace (Z.of_nat (length sl) >=? 2) with false by lia. reflexivity.
  - cbn [span] in H. destruct (is_slash c) eqn:Es.
    + destruct (span is_slash t) as [sl rest] eqn:E.
      rewrite (scheme_slashes t (0 + 1) (1 + len t) false (0 + 1) sl rest) by (auto; lia).
      cbn [app length] in H. unfold len at 1. destruct (Nat.leb_spec 2 (S (length sl))); injection H as <- <-.
      * replace (0 + 1 + Z.of_nat (length sl) >=? 2) with true by lia. cbn [is_nil]. autorewrite with len. lia.
      * replace (0 + 1 + Z.of_nat (length sl) >=? 2) with false by lia. reflexivity.
    + cbn [length Nat.leb] in H. injection H as <- <-. reflexivity.
Qed.

(** ** UserInfo *)

Lemma last_index_byte_from_free : forall s c i best, memN c s = false -> last_index_byte_from s c i best = best.
Proof.
  induction s as [|x s IH]; intros c i best H; cbn [last_index_byte_from]; [reflexivity|].
  cbn [memN existsb] in H. apply orb_false_iff in H as [H1 H2]. rewrite N.eqb_sym in H1. rewrite H1.
  apply IH. exact H2.
Qed.
Lemma last_index_byte_from_mid : forall u c v i best, memN c v = false ->
  last_index_byte_from (u ++ [c] ++ v) c i best = i + len u.
Proof.
  induction u as [|x u IH]; intros c v i best H; cbn [last_index_byte_from app].
  - rewrite N.eqb_refl. rewrite last_index_byte_from_free by exact H. rewrite len_nil. lia.
  - change (u ++ c :: v) with (u ++ [c] ++ v). rewrite IH by exact H. rewrite len_cons. lia.
Qed.

Lemma last_index_byte_from_found : forall s c i best, memN c s = true -> forall j best',
  last_index_byte_from s c (i + j) best' = last_index_byte_from s c i best + j.
Proof.
  induction s as [|x s IH]; intros c i best H j best'; [discriminate|].
  cbn [last_index_byte_from memN existsb] in *. replace (i + j + 1) with (i + 1 + j) by lia.
  destruct (memN c s) eqn:Em.
  - apply IH. exact Em.
  - unfold memN in Em. rewrite Em, orb_false_r, N.eqb_sym in H. rewrite H.
    rewrite !last_index_byte_from_free by exact Em. reflexivity.
Qed.

Lemma last_occurrence : forall c s, memN c s = true -> exists u v, s = u ++ [c] ++ v /\ memN c v = false.
Proof.
  intros c. induction s as [|x s IH]; intros H; [discriminate|]. cbn [memN existsb] in H.
  destruct (memN c s) eqn:Em.
  - destruct (IH eq_refl) as (u & v & -> & Hv). exists (x :: u), v. auto.
  - unfold memN in Em. rewrite Em, orb_false_r in H. apply N.eqb_eq in H. subst x. exists [], s. auto.
Qed.

Lemma memN_rev : forall c l, memN c (rev l) = memN c l.
Proof.
  intros c l. induction l as [|x l IH]; [reflexivity|]. cbn [rev]. rewrite memN_app, IH.
  cbn [memN existsb]. unfold memN. rewrite orb_false_r. apply orb_comm.
Qed.

Lemma forall_not_memN : forall c l, Forall (fun b => negb (b =? c)%N = true) l <-> memN c l = false.
Proof.
  intros c l. induction l as [|x l IH]; cbn [memN existsb].
  - split; constructor.
  - rewrite Forall_cons_iff, IH, orb_false_iff, (N.eqb_sym c x).
    unfold memN. split; intros (A & B); split; auto; destruct (x =? c)%N; auto; discriminate.
Qed.

Lemma last_at_spec : forall s, match last_at s with
  | None => memN 64 s = false
  | Some (u, v) => s = u ++ [64%N] ++ v /\ memN 64 v = false
  end.
Proof.
  intros s. unfold last_at. destruct (span (fun b => negb (b =? 64)%N) (rev s)) as [v u] eqn:E.
  apply span_spec in E as (E & Hv & Hu). apply forall_not_memN in Hv.
  destruct u as [|x u].
  - rewrite app_nil_r in E. rewrite <- memN_rev, E. exact Hv.
  - cbn [no_head] in Hu. apply negb_false_iff, N.eqb_eq in Hu. subst x.
    split.
    + rewrite <- (rev_involutive s), E, rev_app_distr. cbn [rev]. rewrite <- app_assoc. reflexivity.
    + rewrite memN_rev. exact Hv.
Qed.

Lemma last_index_at : forall s,
  last_index_byte s 64 = match last_at s with None => -1 | Some (u, _) => len u end.
Proof.
  intros s. pose proof (last_at_spec s) as H. unfold last_index_byte. destruct (last_at s) as [[u v]|].
  - destruct H as (-> & Hv). rewrite last_index_byte_from_mid by exact Hv. lia.
  - apply last_index_byte_from_free. exact H.
Qed.

Lemma user_spec : forall s, exists a,
  index_last_byte_before s 64 invalid_user_info_chars_set = Ret a /\
  match split_user s with
  | (None, s') => a = -1 /\ s' = s
  | (Some u, s') => a = len u /\ s = u ++ [64%N] ++ s'
  end.
Proof.
  intros s. unfold index_last_byte_before, split_user.
  destruct (span (fun b => negb (is_path_char b || is_bracket b)) s) as [pre q] eqn:E.
  rewrite (index_any_span s _ _ pre q set_user E). apply span_spec in E as (-> & _ & _).
  pose proof (last_at_spec pre) as H. pose proof (last_index_at pre) as Hl.
  destruct q as [|x q].
  - change (-1 =? -1) with true. rewrite app_nil_r. eexists. split; [reflexivity|]. rewrite Hl.
    destruct (last_at pre) as [[u v]|].
    + split; [reflexivity|]. rewrite app_nil_r. apply H.
    + auto.
  - pose proof (len_nonneg _ pre). replace (len pre =? -1) with false by lia.
    rewrite slice_prefix by reflexivity. cbn [bind]. eexists. split; [reflexivity|]. rewrite Hl.
    destruct (last_at pre) as [[u v]|].
    + split; [reflexivity|]. destruct H as (-> & _). rewrite <- !app_assoc. reflexivity.
    + auto.
Qed.

(** ** Host *)

Definition host_stop (b : N) : bool := is_path_char b || (b =? 58)%N || is_bracket b.

Lemma scan_plain : forall s i n h q, 0 <= i ->
  (i = 0 -> has_prefix s [91%N] = false) ->
  span (fun b => negb (host_stop b)) s = (h, q) ->
  scan_host s i n (-1) (-1)
  = if has_prefix q [91%N] then inl ErrOpeningBracket
    else if has_prefix q [93%N] then inl ErrClosingBracket
    else inr (-1, -1, match q with [] => -1 | _ => i + len h end).
Proof.
  induction s as [|r s IH]; intros i n h q Hi H0 Hs; cbn [span] in Hs; cbn [scan_host].
  - injection Hs as <- <-. reflexivity.
  - rewrite set_host_end. destruct (N.eqb_spec r 91) as [->|H91].
    + change (host_stop 91) with true in Hs. cbn [negb] in Hs. injection Hs as <- <-.
      cbn [has_prefix]. change (91 =? 91)%N with true. cbn [andb has_prefix].
      destruct (Z.gtb_spec i 0) as [Hgt|Hgt]; cbn [andb]; [destruct s; reflexivity|].
      exfalso. assert (i = 0) by lia. specialize (H0 H). destruct s; discriminate.
    + cbn [andb]. change (-1 =? -1) with true.
      destruct (N.eqb_spec r 93) as [->|H93].
      * replace (i =? -1) with false by lia. cbn [negb].
        change (host_stop 93) with true in Hs. cbn [negb] in Hs. injection Hs as <- <-.
        cbn [has_prefix]. change (93 =? 91)%N with false. change (93 =? 93)%N with true.
        destruct s; reflexivity.
      * change (-1 =? -1) with true. cbn [negb].
        assert (Hst : host_stop r = is_path_char r || (r =? 58)%N).
        { unfold host_stop. replace (is_bracket r) with false; [apply orb_false_r|].
          unfold is_bracket, memN, str. cbn -[N.eqb]. lia. }
        rewrite Hst in Hs. destruct (is_path_char r || (r =? 58)%N) eqn:Ed; cbn [negb] in Hs.
        -- injection Hs as <- <-. cbn [has_prefix]. replace (91 =? r)%N with false by lia.
           replace (93 =? r)%N with false by lia. cbn [andb]. rewrite len_nil, Z.add_0_r. reflexivity.
        -- change (-1 <? -1) with false. rewrite andb_false_r.
           destruct (span (fun b => negb (host_stop b)) s) as [h' q'] eqn:E. injection Hs as <- <-.
           rewrite (IH (i + 1) n h' q') by (auto; lia). rewrite len_cons.
           destruct (has_prefix q' [91%N]); [reflexivity|]. destruct (has_prefix q' [93%N]); [reflexivity|].
           destruct q'; [reflexivity|]. replace (i + (1 + len h')) with (i + 1 + len h') by lia. reflexivity.
Qed.

(** After the first closing bracket. *)
Definition after_stop (b : N) : bool := is_path_char b || (b =? 91)%N.

Lemma scan_after : forall s i n c m q, 0 < c < i ->
  span (fun b => negb (after_stop b)) s = (m, q) ->
  exists e, scan_host s i n 0 c
  = if has_prefix q [91%N] then inl ErrOpeningBracket
    else inr (0, (if memN 93 m then i + last_index_byte m 93 else c), e).
Proof.
  induction s as [|r s IH]; intros i n c m q Hc Hs; cbn [span] in Hs; cbn [scan_host].
  - injection Hs as <- <-. eexists. reflexivity.
  - rewrite set_path. destruct (N.eqb_spec r 91) as [->|H91].
    + change (after_stop 91) with true in Hs. cbn [negb] in Hs. injection Hs as <- <-.
      replace (i >? 0) with true by lia. cbn [andb has_prefix]. exists 0. destruct s; reflexivity.
    + cbn [andb]. change (0 =? -1) with false.
      assert (Hst : after_stop r = is_path_char r).
      { unfold after_stop. replace (r =? 91)%N with false by lia. apply orb_false_r. }
      rewrite Hst in Hs. destruct (is_path_char r) eqn:Ed; cbn [negb] in Hs.
      * injection Hs as <- <-. rewrite andb_true_r. cbn [has_prefix memN existsb].
        replace (91 =? r)%N with false by lia. cbn [andb].
        assert (r <> 93%N) by (intros ->; discriminate). replace (r =? 93)%N with false by lia.
        replace (c >? 0) with true by lia. eexists. reflexivity.
      * rewrite andb_false_r.
        destruct (span (fun b => negb (after_stop b)) s) as [m' q'] eqn:E. injection Hs as <- <-.
        destruct (N.eqb_spec r 93) as [->|H93].
        -- replace (i <? 0) with false by lia. rewrite andb_false_r.
           destruct (IH (i + 1) n i m' q' ltac:(lia) eq_refl) as (e & ->). exists e.
           destruct (has_prefix q' [91%N]); [reflexivity|]. cbn [memN existsb]. change (93 =? 93)%N with true.
           cbn [orb]. change (existsb (N.eqb 93) m') with (memN 93 m'). repeat f_equal.
           unfold last_index_byte. cbn [last_index_byte_from]. change (93 =? 93)%N with true.
           destruct (memN 93 m') eqn:Em.
           ++ clear -Em. rewrite (last_index_byte_from_found m' 93 0 (-1) Em 1 0). lia.
           ++ rewrite last_index_byte_from_free by exact Em. lia.
        -- replace (c <? 0) with false by lia. rewrite andb_false_r.
           destruct (IH (i + 1) n c m' q' ltac:(lia) eq_refl) as (e & ->). exists e.
           destruct (has_prefix q' [91%N]); [reflexivity|]. cbn [memN existsb].
           replace (93 =? r)%N with false by lia. cbn [orb].
           change (existsb (N.eqb 93) m') with (memN 93 m'). repeat f_equal.
           destruct (memN 93 m') eqn:Em; [|reflexivity].
           unfold last_index_byte. cbn [last_index_byte_from]. replace (r =? 93)%N with false by lia.
           rewrite (last_index_byte_from_found m' 93 0 (-1) Em 1 (-1)). lia.
Qed.

(** Before the first closing bracket, after the opening one. *)
Lemma scan_inside : forall s i n a q, 0 < i -> n = i + len s ->
  span (fun b => negb (is_bracket b)) s = (a, q) ->
  scan_host s i n 0 (-1)
  = match q with
    | [] => if is_nil s then inr (0, -1, -1) else inl ErrIncompleteBrackets
    | b :: r => if (b =? 91)%N then inl ErrOpeningBracket
                else scan_host r (i + len a + 1) n 0 (i + len a)
    end.
Proof.
  induction s as [|r s IH]; intros i n a q Hi Hn Hs; cbn [span] in Hs.
  - injection Hs as <- <-. reflexivity.
  - rewrite len_cons in Hn. cbn [scan_host is_nil]. rewrite set_path. destruct (is_bracket r) eqn:Eb; cbn [negb] in Hs.
    + injection Hs as <- <-. rewrite len_nil, !Z.add_0_r.
      assert (r = 91%N \/ r = 93%N) as [-> | ->].
      { unfold is_bracket, memN, str in Eb. cbn -[N.eqb] in Eb. lia. }
      * replace (i >? 0) with true by lia. reflexivity.
      * cbn [andb]. change (93 =? 91)%N with false. change (93 =? 93)%N with true. cbn [andb].
        change (0 =? -1) with false. change (is_path_char 93) with false. rewrite andb_false_r.
        replace (i <? 0) with false by lia. rewrite andb_false_r. reflexivity.
    + destruct (span (fun b => negb (is_bracket b)) s) as [a' q'] eqn:E. injection Hs as <- <-.
      assert (Hr : r <> 91%N /\ r <> 93%N) by (split; intros ->; discriminate).
      replace (r =? 91)%N with false by lia. replace (r =? 93)%N with false by lia. cbn [andb].
      change (0 =? -1) with false. change (-1 >? 0) with false. cbn [andb]. change (-1 <? 0) with true.
      rewrite andb_true_r. rewrite len_cons.
      destruct (Z.eqb_spec i (n - 1)) as [Hl|Hl].
      * assert (s = []) by (apply len_zero; lia). subst s. cbn [span] in E. injection E as <- <-. reflexivity.
      * rewrite (IH (i + 1) n a' q') by (auto; lia).
        destruct q' as [|b q'].
        -- destruct s as [|? ?]; [rewrite len_nil in Hn; lia|reflexivity].
        -- destruct (b =? 91)%N; [reflexivity|]. repeat (f_equal; try lia).
Qed.

(** ** Recognisers *)

Lemma is_ipv6_v6 : forall s, is_ipv6 s = Ret (v6 s).
Proof. intros s. unfold v6. destruct (is_ipv6_spec s) as (b & -> & _). reflexivity. Qed.
Lemma v6_iff : forall s, v6 s = true <-> ipv6_literal s.
Proof. intros s. unfold v6. destruct (is_ipv6_spec s) as (b & -> & H). exact H. Qed.

Lemma octet_head : forall d, octet d -> exists b t, d = b :: t /\ is_digit b = true.
Proof. intros d (Hne & Ha & _). destruct d as [|b t]; [contradiction|]. inversion Ha; subst. eauto. Qed.

Lemma ipv4_text_shape : forall s, ipv4_text s -> 7 <= len s /\ exists b t, s = b :: t /\ is_digit b = true.
Proof.
  intros s (x & w & -> & (a & s1 & b & s2 & c & s3 & d & -> & Ha & Hb & Hc & Hd & H1 & H2 & H3) & _).
  destruct (octet_head a Ha) as (xa & ta & -> & Hxa). destruct (octet_head b Hb) as (xb & tb & -> & _).
  destruct (octet_head c Hc) as (xc & tc & -> & _). destruct (octet_head d Hd) as (xd & td & -> & _).
  pose proof (sep_text_len _ H1). pose proof (sep_text_len _ H2). pose proof (sep_text_len _ H3).
  split; [|cbn [app]; eauto].
  autorewrite with len. pose proof (len_nonneg _ ta). pose proof (len_nonneg _ tb).
  pose proof (len_nonneg _ tc). pose proof (len_nonneg _ td). pose proof (len_nonneg _ w). lia.
Qed.

Lemma ipv4_host_v4 : forall s, ipv4_host s = Ret (v4 s).
Proof.
  intros s. unfold v4, ipv4_host. destruct (Z.geb_spec (len s) 7) as [H|H]; [|reflexivity].
  destruct s as [|b s]; [rewrite len_nil in H; lia|]. rewrite index_head. cbn [bind].
  destruct (contains numeric_set b); [|reflexivity].
  destruct (is_ipv4_spec (b :: s)) as (x & -> & _). reflexivity.
Qed.
Lemma v4_iff : forall s, v4 s = true <-> ipv4_text s.
Proof.
  intros s. unfold v4, ipv4_host. destruct (Z.geb_spec (len s) 7) as [H|H].
  2:{ split; [discriminate|]. intros X. apply ipv4_text_shape in X as (X & _). lia. }
  destruct s as [|b s]; [rewrite len_nil in H; lia|]. rewrite index_head. cbn [bind].
  rewrite set_numeric. destruct (is_digit b) eqn:Eb.
  - destruct (is_ipv4_spec (b :: s)) as (x & -> & Hx). exact Hx.
  - split; [discriminate|]. intros X. apply ipv4_text_shape in X as (_ & b' & t & E & Hb).
    injection E as <- <-. congruence.
Qed.

Lemma sep_no_93 : forall s, is_sep_text s -> memN 93 s = false.
Proof. intros s [->|[->|[->| ->]]]; reflexivity. Qed.
Lemma digits_no_93 : forall d, all_digits d -> memN 93 d = false.
Proof.
  intros d H. apply forall_not_memN. eapply Forall_impl; [|exact H]. intros b Hb. cbv beta in *.
  unfold is_digit in Hb. lia.
Qed.
Lemma ipv4_no_93 : forall s, ipv4_text s -> memN 93 s = false.
Proof.
  intros s (x & w & -> & (a & s1 & b & s2 & c & s3 & d & -> & (_ & Ha & _) & (_ & Hb & _) & (_ & Hc & _) & (_ & Hd & _) & H1 & H2 & H3) & Hw).
  rewrite !memN_app. rewrite (digits_no_93 a Ha), (digits_no_93 b Hb), (digits_no_93 c Hc), (digits_no_93 d Hd).
  rewrite (sep_no_93 s1 H1), (sep_no_93 s2 H2), (sep_no_93 s3 H3). cbn [orb].
  induction Hw as [|s w Hs Hw IH]; [reflexivity|]. rewrite memN_app, sep_no_93, IH by assumption. reflexivity.
Qed.
Lemma group_no_93 : forall g, group g -> memN 93 g = false.
Proof.
  intros g (_ & H & _). apply forall_not_memN. eapply Forall_impl; [|exact H]. intros b Hb. cbv beta in *.
  unfold is_hex, is_digit in Hb. lia.
Qed.
Lemma pieces_no_93 : forall n s, pieces n s -> memN 93 s = false.
Proof.
  induction 1 as [g H|a H|g n s H Hs IH]; [apply group_no_93|apply ipv4_no_93|]; auto.
  rewrite !memN_app, group_no_93, IH by exact H. reflexivity.
Qed.
Lemma groups_no_93 : forall n s, groups n s -> memN 93 s = false.
Proof.
  induction 1 as [g H|g n s H Hs IH]; [apply group_no_93; auto|].
  rewrite !memN_app, group_no_93, IH by exact H. reflexivity.
Qed.
Lemma literal_no_93 : forall s, ipv6_literal s -> memN 93 s = false.
Proof.
  intros s [H|(n & a & m & b & -> & _ & Ha & Hb)]; [eapply pieces_no_93; eauto|].
  rewrite !memN_app.
  assert (memN 93 a = false) by (destruct Ha as [(_ & ->)|Ha]; [reflexivity|eapply groups_no_93; eauto]).
  assert (memN 93 b = false) by (destruct Hb as [(_ & ->)|Hb]; [reflexivity|eapply pieces_no_93; eauto]).
  rewrite H, H0. reflexivity.
Qed.

(** ** Port and path *)

Lemma path_char_not_colon : forall c, is_path_char c = true -> (c =? 58)%N = false.
Proof. intros c H. destruct (N.eqb_spec c 58) as [->|]; [discriminate|reflexivity]. Qed.

Lemma port_path_spec : forall u after, r_port u = [] -> r_path u = [] ->
  match after with [] => True | c :: _ => is_path_char c || (c =? 58)%N = true end ->
  port_path u after = Ret (match split_port after with
                           | None => (u, Some ErrInvalidPort)
                           | Some (port, path) => (with_path (with_port u port) path, None)
                           end).
Proof.
  intros u after Hu1 Hu2 Ha.
  assert (Hid : with_path (with_port u []) [] = u) by (destruct u; cbn in *; subst; reflexivity).
  unfold port_path, split_port. destruct after as [|c t].
  { rewrite len_nil. change (0 =? 0) with true. cbn [negb]. rewrite Hid. reflexivity. }
  rewrite len_eqb_zero. cbn [negb]. rewrite index_head. cbn [bind].
  destruct (N.eqb_spec c 58) as [->|Hc].
  - destruct (span (fun b => negb (is_path_char b)) t) as [p path] eqn:E.
    assert (E' : span (fun b => negb (is_path_char b)) (58%N :: t) = (58%N :: p, path)).
    { cbn [span]. change (is_path_char 58) with false. cbn [negb]. rewrite E. reflexivity. }
    rewrite (index_any_span _ _ _ _ _ set_path E'). rewrite len_cons.
    apply span_spec in E as (-> & _ & Hpath).
    assert (Hport : (if match path with [] => -1 | _ :: _ => 1 + len p end =? -1
                     then slice (58%N :: p ++ path) 1 (len (58%N :: p ++ path))
                     else slice (58%N :: p ++ path) 1 match path with [] => -1 | _ :: _ => 1 + len p end) = Ret p).
    { destruct path as [|x path].
      - change (-1 =? -1) with true. rewrite app_nil_r.
        apply (slice_suffix _ [58%N] p); autorewrite with len; reflexivity || lia.
      - pose proof (len_nonneg _ p). replace (1 + len p =? -1) with false by lia.
        apply (slice_mid _ [58%N] p (x :: path)); autorewrite with len; reflexivity || lia. }
    rewrite Hport. cbn [bind]. unfold port_ok.
    assert (Hrest : forall u',
      (if negb (match path with [] => -1 | _ :: _ => 1 + len p end =? -1)
          && negb (match path with [] => -1 | _ :: _ => 1 + len p end =? len (58%N :: p ++ path))
       then q <- slice (58%N :: p ++ path) match path with [] => -1 | _ :: _ => 1 + len p end (len (58%N :: p ++ path)) ;;
            Ret (with_path u' q, @None err)
       else Ret (u', None)) = Ret (if is_nil path then u' else with_path u' path, None)).
    { intros u'. destruct path as [|x path]; [reflexivity|]. pose proof (len_nonneg _ p).
      replace (1 + len p =? -1) with false by lia. cbn [negb andb].
      assert (Hl : len (58%N :: p ++ x :: path) = 1 + len p + 1 + len path) by (autorewrite with len; lia).
      pose proof (len_nonneg _ path). replace (1 + len p =? _) with false by lia. cbn [negb].
      rewrite (slice_suffix _ (58%N :: p) (x :: path)) by (autorewrite with len; reflexivity || lia).
      reflexivity. }
    destruct (atoi p) as [v|]; [|reflexivity].
    destruct ((0 <=? v) && (v <=? largest_port_number)); [|reflexivity]. cbn [bind].
    rewrite Hrest. destruct path; [|reflexivity]. cbn [is_nil].
    assert (Hid2 : with_path (with_port u p) [] = with_port u p) by (destruct u; cbn in *; subst; reflexivity).
    rewrite Hid2. reflexivity.
  - replace (c =? 58)%N with false in Ha by lia. rewrite orb_false_r in Ha.
    assert (E' : span (fun b => negb (is_path_char b)) (c :: t) = ([], c :: t)).
    { cbn [span]. rewrite Ha. reflexivity. }
    rewrite (index_any_span _ _ _ _ _ set_path E'). rewrite len_nil. cbn [bind].
    change (0 =? -1) with false. cbn [negb andb]. rewrite len_cons. pose proof (len_nonneg _ t).
    replace (0 =? 1 + len t) with false by lia. cbn [negb].
    rewrite slice_all by (autorewrite with len; reflexivity || lia). cbn [bind].
    assert (Hid2 : with_port u [] = u) by (destruct u; cbn in *; subst; reflexivity).
    rewrite Hid2. reflexivity.
Qed.

(** ** Extract *)

Lemma trim_ws_spec : forall s, fast_trim s whitespace_rune_set TrimBoth = Ret (trim_ws s)
  /\ trimmed whitespace_rune_set s (trim_ws s).
Proof.
  intros s. unfold trim_ws.
  assert (G : good_set whitespace_rune_set).
  { let l := eval vm_compute in whitespace_rune_set in change whitespace_rune_set with l.
    unfold good_set, valid_rune, rune_error. repeat constructor; lia. }
  destruct (fast_trim_both _ G s) as (m & -> & H). auto.
Qed.

(** From the authority on. *)
Definition extract_rest (ext : idna) (t : trie) (ignore puny : bool) (u : result) (netloc : bytes)
  : outcome (result * option err) :=
  match scan_host netloc 0 (len netloc) (-1) (-1) with
  | inl e => Ret (u, Some e)
  | inr (opening, closing, host_end) =>
    let host_end := if closing =? len netloc - 1 then -1
                    else if negb (closing =? -1) then closing + 1 else host_end in
    '(u, e) <-
      (if closing >? opening then
         inner <- slice netloc 1 closing ;;
         v6 <- is_ipv6 inner ;;
         if negb v6 then Ret (u, Some ErrInvalidIPv6)
         else
           trailing_ok <- (if negb (host_end =? -1)
                           then a <- slice netloc host_end (len netloc) ;;
                                Ret (index_any_ascii a end_of_host_delimiters_set =? 0)
                           else Ret true) ;;
           if negb trailing_ok then Ret (u, Some ErrTrailingAfterIPv6)
           else Ret (with_registered_domain (with_domain (with_host_type u HIPv6) inner) inner,
                     None)
       else Ret (u, None)) ;;
    match e with
    | Some e => Ret (u, Some e)
    | None =>
      '(after_host, netloc) <-
        (if negb (host_end =? -1)
         then a <- slice netloc host_end (len netloc) ;; b <- slice netloc 0 host_end ;; Ret (a, b)
         else Ret ([], netloc)) ;;
      '(u, e) <- port_path u after_host ;;
      match e with
      | Some e => Ret (u, Some e)
      | None =>
        match r_host_type u with
        | HIPv6 => Ret (u, None)
        | _ =>
          match convert_host ext puny netloc with
          | inl e => Ret (u, Some e)
          | inr host => extract_host t u host ignore
          end
        end
      end
    end
  end.

Lemma extract_rest_spec : forall ext t ignore puny u s,
  r_sub_domain u = [] -> r_domain u = [] -> r_port u = [] -> r_path u = [] -> r_host_type u = HNone ->
  extract_rest ext t ignore puny u s = Ret (extract_authority ext t ignore puny u s).
Proof.
  intros ext t ignore puny u s Hsub Hdom Hport Hpath Htype. unfold extract_rest, extract_authority, split_auth.
  destruct (has_prefix s [91%N]) eqn:Eb.
  - (* bracketed *)
    apply has_prefix_spec in Eb as (t0 & ->). cbn [app tl]. unfold split_bracketed.
    set (n := len (91%N :: t0)). cbn [scan_host]. change (91 =? 91)%N with true. change (0 >? 0) with false.
    cbn [andb]. change (91 =? 93)%N with false. cbv iota. change (0 =? -1) with false. change (-1 >? 0) with false.
    cbn [andb]. change (-1 <? 0) with true. rewrite andb_true_r. change (0 + 1) with 1.
    destruct (span (fun b => negb (is_bracket b)) t0) as [a q] eqn:Ea.
    assert (Hn : n = 1 + len t0) by (unfold n; autorewrite with len; lia). clearbody n.
    pose proof (len_nonneg _ t0) as Hl0.
    destruct (Z.eq_dec (len t0) 0) as [Hz|Hnz].
    { assert (t0 = []) by (apply len_zero; exact Hz). subst t0. cbn [span] in Ea. injection Ea as <- <-.
      replace (0 =? n - 1) with true by lia. reflexivity. }
    replace (0 =? n - 1) with false by lia.
    rewrite (scan_inside t0 1 n a q) by (auto; lia).
    apply span_spec in Ea as (Et0 & Ha & Hq). 
    destruct q as [|b r].
    { destruct t0; [rewrite len_nil in Hnz; lia|]. reflexivity. }
    cbn [no_head] in Hq. apply negb_false_iff in Hq.
    assert (Hb : b = 91%N \/ b = 93%N).
    { unfold is_bracket, memN, str in Hq. cbn -[N.eqb] in Hq. lia. }
    destruct Hb as [-> | ->]; [reflexivity|]. change (93 =? 91)%N with false. cbv iota.
    destruct (span (fun b => negb (is_path_char b || (b =? 91)%N)) r) as [m q2] eqn:Em.
    pose proof (len_nonneg _ a) as Hla.
    destruct (scan_after r (1 + len a + 1) n (1 + len a) m q2 ltac:(lia) Em) as (e & ->).
    apply span_spec in Em as (Er & _ & _).
    destruct (has_prefix q2 [91%N]); [reflexivity|]. cbv iota beta.
    assert (Hs : 91%N :: t0 = [91%N] ++ a ++ 93%N :: r) by (rewrite Et0; reflexivity).
    destruct (memN 93 m) eqn:Em93; cbn [orb].
    + (* several closing brackets *)
      assert (Hm : exists m1 m2, m = m1 ++ [93%N] ++ m2 /\ last_index_byte m 93 = len m1).
      { destruct (last_occurrence _ _ Em93) as (m1 & m2 & -> & Hm2). exists m1, m2. split; [reflexivity|].
        unfold last_index_byte. rewrite last_index_byte_from_mid by exact Hm2. lia. }
      destruct Hm as (m1 & m2 & Hm & ->).
      assert (Hs2 : 91%N :: t0 = [91%N] ++ (a ++ 93%N :: m1) ++ 93%N :: m2 ++ q2).
      { rewrite Hs, Er, Hm, <- !app_assoc. reflexivity. }
      pose proof (len_nonneg _ m1). replace (1 + len a + 1 + len m1 >? 0) with true by lia.
      rewrite Hs2.
      rewrite (slice_mid _ [91%N] (a ++ 93%N :: m1)) by (autorewrite with len; reflexivity || lia).
      cbn [bind]. rewrite is_ipv6_v6. cbn [bind].
      destruct (v6 (a ++ 93%N :: m1)) eqn:Ev; [|reflexivity].
      apply v6_iff, literal_no_93 in Ev. rewrite memN_app in Ev. cbn [memN existsb] in Ev.
      change (93 =? 93)%N with true in Ev. rewrite orb_true_r in Ev. discriminate.
    + replace (1 + len a >? 0) with true by lia.
      rewrite Hs. rewrite (slice_mid _ [91%N] a) by (autorewrite with len; reflexivity || lia).
      cbn [bind]. rewrite is_ipv6_v6. cbn [bind]. destruct (v6 a); cbn [negb]; [|reflexivity].
      assert (Hlen : n = 1 + len a + 1 + len r) by (rewrite Hn, Et0; autorewrite with len; lia).
      rewrite Hlen. replace (1 + len a + 1 + len r - 1) with (1 + len a + len r) by lia.
      pose proof (len_nonneg _ r).
      destruct r as [|c r].
      * rewrite len_nil. replace (1 + len a =? 1 + len a + 0) with true by lia.
        change (-1 =? -1) with true. cbn [negb bind].
        rewrite port_path_spec by (auto; destruct u; assumption).
        cbn [split_port bind]. destruct u; cbn in *; subst; reflexivity.
      * rewrite len_cons in *. pose proof (len_nonneg _ r).
        replace (1 + len a =? 1 + len a + (1 + len r)) with false by lia.
        replace (1 + len a =? -1) with false by lia. cbn [negb].
        replace (1 + len a + 1 =? -1) with false by lia. cbn [negb].
        assert (Hsl : slice ([91%N] ++ a ++ 93%N :: c :: r) (1 + len a + 1) (1 + len a + 1 + (1 + len r)) = Ret (c :: r)).
        { replace ([91%N] ++ a ++ 93%N :: c :: r) with (([91%N] ++ a ++ [93%N]) ++ (c :: r))
            by (rewrite <- !app_assoc; reflexivity).
          apply slice_suffix; autorewrite with len; lia. }
        assert (Hsl2 : slice ([91%N] ++ a ++ 93%N :: c :: r) 0 (1 + len a + 1) = Ret ([91%N] ++ a ++ [93%N])).
        { replace ([91%N] ++ a ++ 93%N :: c :: r) with (([91%N] ++ a ++ [93%N]) ++ (c :: r))
            by (rewrite <- !app_assoc; reflexivity).
          apply slice_prefix; autorewrite with len; lia. }
        rewrite Hsl. cbn [bind].
        assert (Hi : (index_any_ascii (c :: r) end_of_host_delimiters_set =? 0) = is_path_char c || (c =? 58)%N).
        { destruct (span (fun b => negb (is_path_char b || (b =? 58)%N)) (c :: r)) as [d q] eqn:E.
          rewrite (index_any_span _ _ _ _ _ set_host_end E). cbn [span] in E.
          destruct (is_path_char c || (c =? 58)%N); cbn [negb] in E.
          - injection E as <- <-. reflexivity.
          - destruct (span _ r) as [d' q']. injection E as <- <-. destruct q'; [reflexivity|].
            rewrite len_cons. pose proof (len_nonneg _ d'). lia. }
        rewrite Hi. destruct (is_path_char c || (c =? 58)%N) eqn:Ec; cbn [negb]; [|reflexivity].
        cbn [bind]. rewrite Hsl2. cbn [bind].
        rewrite port_path_spec by (auto; destruct u; assumption). cbn [bind].
        destruct (split_port (c :: r)) as [[port path]|]; [|reflexivity].
        destruct u; reflexivity.
  - (* plain host *)
    destruct (span (fun b => negb (is_path_char b || (b =? 58)%N || is_bracket b)) s) as [h q] eqn:Es.
    rewrite (scan_plain s 0 (len s) h q) by (auto; lia).
    apply span_spec in Es as (-> & _ & Hq).
    destruct (has_prefix q [91%N]) eqn:E91; [reflexivity|].
    destruct (has_prefix q [93%N]) eqn:E93; [reflexivity|].
    change (-1 =? -1) with true. change (-1 >? -1) with false. cbn [negb bind].
    assert (Hae : match q with [] => True | c :: _ => is_path_char c || (c =? 58)%N = true end).
    { destruct q as [|c q]; [exact I|]. cbn [no_head] in Hq. apply negb_false_iff in Hq.
      destruct (is_path_char c || (c =? 58)%N); [reflexivity|]. cbn [orb] in Hq.
      cbn [has_prefix] in E91, E93. unfold is_bracket, memN, str in Hq. cbn -[N.eqb] in Hq.
      destruct (N.eqb_spec 91 c) as [<-|H91]; [destruct q; discriminate|].
      destruct (N.eqb_spec 93 c) as [<-|H93]; [destruct q; discriminate|]. lia. }
    pose proof (len_nonneg _ h). pose proof (len_nonneg _ q).
    match goal with |- bind ?m _ = _ => assert (Hsplit : m = Ret (q, h)) end.
    { destruct q as [|c q].
      - rewrite app_nil_r. destruct (-1 =? len h - 1); reflexivity.
      - autorewrite with len. pose proof (len_nonneg _ q).
        replace (-1 =? len h + (1 + len q) - 1) with false by lia. rewrite Z.add_0_l.
        replace (len h =? -1) with false by lia. cbn [negb].
        rewrite slice_suffix by (autorewrite with len; lia). cbn [bind].
        rewrite slice_prefix by reflexivity. reflexivity. }
    rewrite Hsplit. cbn [bind].
    rewrite port_path_spec by auto. cbn [bind].
    destruct (split_port q) as [[port path]|]; [|reflexivity].
    replace (r_host_type (with_path (with_port u port) path)) with HNone by (destruct u; symmetry; assumption).
    destruct (convert_host ext puny h) as [e|h']; [reflexivity|].
    apply extract_host_outcome; [destruct u; assumption|destruct u; assumption|apply ipv4_host_v4].
Qed.

Theorem extract_spec : forall ext t p, extract ext t p = Ret (extracted ext t p).
Proof.
  intros ext t p. unfold extract, extracted.
  rewrite (proj1 (trim_ws_spec (p_url p))). cbn [bind].
  destruct (split_scheme (trim_ws (p_url p))) as [scheme s1] eqn:E1.
  rewrite (scheme_spec _ _ _ E1). apply split_scheme_app in E1. rewrite E1.
  match goal with |- bind ?m _ = _ => assert (Hs : m = Ret (with_scheme empty_result scheme, s1)) end.
  { destruct scheme as [|c scheme]; [reflexivity|]. cbn [is_nil].
    pose proof (len_nonneg _ (c :: scheme)). replace (len (c :: scheme) =? -1) with false by lia. cbn [negb].
    rewrite slice_prefix by reflexivity. cbn [bind]. rewrite slice_suffix by reflexivity. reflexivity. }
  rewrite Hs. cbn [bind]. clear Hs E1.
  destruct (user_spec s1) as (a & -> & Hu). cbn [bind].
  destruct (split_user s1) as [user s2].
  match goal with |- bind ?m _ = _ =>
    assert (Hs : m = Ret (with_user_info (with_scheme empty_result scheme) (user_text user), s2)) end.
  { destruct user as [x|]; cbn [user_text].
    - destruct Hu as (-> & ->). pose proof (len_nonneg _ x). replace (len x =? -1) with false by lia. cbn [negb].
      rewrite slice_prefix by reflexivity. cbn [bind]. rewrite app_assoc.
      rewrite slice_suffix by (autorewrite with len; lia). reflexivity.
    - destruct Hu as (-> & ->). reflexivity. }
  rewrite Hs. cbn [bind].
  change (match scan_host s2 0 (len s2) (-1) (-1) with | inl e => _ | inr x => _ end)
    with (extract_rest ext t (p_ignore_sub_domains p) (p_to_punycode p)
                       (with_user_info (with_scheme empty_result scheme) (user_text user)) s2).
  apply extract_rest_spec; reflexivity.
Qed.
