(** NetFacts.v - isIPv4 and isIPv6 recognise exactly the grammars of Addr.v. *)

From Verif Require Import Base BaseFacts Utf8 Chars Utf8Facts Str StrFacts Net Host HostFacts Addr.
From Coq Require Import ZifyBool ZifyNat ZifyN.
Local Open Scope Z_scope.

Lemma seps_star : forall w, seps w <-> star SEPS w.
Proof.
  intros w. split.
  - induction 1 as [|s w Hs Hw IH]; [constructor|]. apply sep_text_encode in Hs as (r & Hr & ->).
    constructor; assumption.
  - induction 1 as [|r w Hr Hw IH]; [constructor|]. constructor; [|exact IH].
    apply sep_text_encode. exists r. auto.
Qed.

(** ** dtoi *)

Definition dec_from (n : Z) (d : bytes) : Z := fold_left (fun a b => a * 10 + (Z.of_N b - 48)) d n.

Lemma digit_value : forall b, is_digit b = true -> 0 <= Z.of_N b - 48 <= 9.
Proof. intros b H. unfold is_digit in H. lia. Qed.

Lemma dec_from_ge : forall d n, all_digits d -> 0 <= n -> n <= dec_from n d.
Proof.
  induction d as [|b d IH]; intros n H Hn; [unfold dec_from; cbn [fold_left]; lia|].
  inversion H; subst. pose proof (digit_value b ltac:(assumption)).
  change (dec_from n (b :: d)) with (dec_from (n * 10 + (Z.of_N b - 48)) d).
  specialize (IH (n * 10 + (Z.of_N b - 48)) ltac:(assumption) ltac:(lia)). lia.
Qed.

Lemma dtoi_loop_spec : forall s n i d q, span is_digit s = (d, q) -> 0 <= n < big -> 0 <= i ->
  if dec_from n d <? big
  then dtoi_loop s n i = if i + len d =? 0 then (0, 0, false) else (dec_from n d, i + len d, true)
  else exists c, dtoi_loop s n i = (big, c, false).
Proof.
  induction s as [|b s IH]; intros n i d q Hs Hn Hi; cbn [span] in Hs; cbn [dtoi_loop].
  - injection Hs as <- <-. unfold dec_from. cbn [fold_left]. replace (n <? big) with true by lia.
    rewrite len_nil, Z.add_0_r. reflexivity.
  - destruct (is_digit b) eqn:Eb.
    + destruct (span is_digit s) as [d' q'] eqn:Es. injection Hs as <- <-.
      change (dec_from n (b :: d')) with (dec_from (n * 10 + (Z.of_N b - 48)) d').
      pose proof (digit_value b Eb). apply span_spec in Es as Hd. destruct Hd as (_ & Hd & _).
      destruct (Z.geb_spec (n * 10 + (Z.of_N b - 48)) big) as [H'|H'].
      * pose proof (dec_from_ge d' (n * 10 + (Z.of_N b - 48)) Hd ltac:(lia)).
        replace (_ <? big) with false by lia. eauto.
      * specialize (IH (n * 10 + (Z.of_N b - 48)) (i + 1) d' q' eq_refl ltac:(lia) ltac:(lia)).
        rewrite len_cons. replace (i + (1 + len d')) with (i + 1 + len d') by lia. exact IH.
    + injection Hs as <- <-. unfold dec_from. cbn [fold_left]. replace (n <? big) with true by lia.
      rewrite len_nil, Z.add_0_r. reflexivity.
Qed.

(** What the code does with the result of dtoi. *)
Lemma dtoi_spec : forall s d q, span is_digit s = (d, q) ->
  let '(n, c, ok) := dtoi s in
  (negb ok || (n >? 255) = false <-> d <> [] /\ decimal d <= 255)
  /\ (negb ok || (n >? 255) = false -> c = len d).
Proof.
  intros s d q Hs. pose proof (dtoi_loop_spec s 0 0 d q Hs ltac:(unfold big; lia) ltac:(lia)) as H.
  change (dec_from 0 d) with (decimal d) in H. unfold dtoi. unfold big in *.
  destruct (Z.ltb_spec (decimal d) 16777215) as [Hb|Hb].
  - rewrite H. cbn [Z.add] in *. destruct d as [|b d].
    + rewrite len_nil. change (0 =? 0) with true. cbv iota beta. cbn [negb orb]. split.
      * split; [discriminate|intros (A & _); contradiction].
      * discriminate.
    + rewrite len_cons. pose proof (len_nonneg _ d). replace (1 + len d =? 0) with false by lia.
      cbv iota beta. cbn [negb orb]. split; [|auto]. split.
      * intros. split; [discriminate|lia].
      * intros. lia.
  - destruct H as (c & ->). cbv iota beta. cbn [negb orb]. split; [|discriminate]. split; [discriminate|lia].
Qed.

(** ** isIPv4 *)

Inductive octets : nat -> bytes -> Prop :=   (* each preceded by a separator *)
| octets_nil : octets 0 []
| octets_cons : forall n s d q, is_sep_text s -> octet d -> octets n q -> octets (S n) (s ++ d ++ q).

Lemma octets_no_digit : forall n s, octets n s -> no_head is_digit s.
Proof.
  intros n s [|m sep d q Hs _ _]; [exact I|].
  destruct Hs as [->|[->|[->| ->]]]; reflexivity.
Qed.

Lemma lead_spec : forall d q, d <> [] -> all_digits d -> decimal d <= 255 ->
  exists b, (if len d >? 1 then x <- index (d ++ q) 0 ;; Ret (x =? 48)%N else Ret false) = Ret b
            /\ (b = false <-> octet d).
Proof.
  intros d q Hd Ha Hv. destruct d as [|b d]; [contradiction|].
  rewrite len_cons. destruct (Z.gtb_spec (1 + len d) 1) as [H|H].
  - cbn [app]. rewrite index_head. cbn [bind]. eexists. split; [reflexivity|].
    split.
    + intros E. split; [discriminate|]. split; [exact Ha|]. split; [exact Hv|]. right.
      exists b, d. split; [reflexivity|]. lia.
    + intros (_ & _ & _ & [E|(b' & t & E & Hb)]).
      * injection E as -> ->. rewrite len_nil in H. lia.
      * injection E as <- <-. lia.
  - exists false. split; [reflexivity|]. split; [|reflexivity]. intros _.
    pose proof (len_nonneg _ d). assert (d = []) by (apply len_zero; lia). subst d.
    split; [discriminate|]. split; [exact Ha|]. split; [exact Hv|].
    destruct (N.eq_dec b 48) as [->|Hb]; [left; reflexivity|right]. exists b, []. auto.
Qed.

Lemma octet_span : forall d q, octet d -> no_head is_digit q -> span is_digit (d ++ q) = (d, q).
Proof. intros d q (_ & A & _) H. apply span_spec. auto. Qed.

(** One octet and the rest, [k] more iterations. *)
Lemma octet_step : forall (k : nat) s (cont : bytes -> outcome bool) (L : bytes -> Prop),
  (forall q, exists b, cont q = Ret b /\ (b = true <-> L q)) ->
  (forall q, L q -> no_head is_digit q) ->
  exists b,
    (let '(n, c, ok) := dtoi s in
     if negb ok || (n >? 255) then Ret false
     else lead <- (if c >? 1 then x <- index s 0 ;; Ret (x =? 48)%N else Ret false) ;;
          (if lead : bool then Ret false
           else t <- slice s c (len s) ;; cont t)) = Ret b
    /\ (b = true <-> exists d q, s = d ++ q /\ octet d /\ L q).
Proof.
  intros _ s cont L Hcont HL. destruct (span is_digit s) as [d q] eqn:Es.
  pose proof (dtoi_spec s d q Es) as H. destruct (dtoi s) as [[n c] ok]. destruct H as (H1 & H2).
  apply span_spec in Es as Hd. destruct Hd as (-> & Hd & Hq).
  assert (Huniq : forall d' q', d ++ q = d' ++ q' -> octet d' -> L q' -> d' = d /\ q' = q).
  { intros d' q' E Ho Hl. pose proof (octet_span d' q' Ho (HL _ Hl)) as X. rewrite <- E in X.
    rewrite Es in X. injection X as <- <-. auto. }
  destruct (negb ok || (n >? 255)) eqn:Eg.
  - exists false. split; [reflexivity|]. split; [discriminate|].
    intros (d' & q' & E & Ho & Hl). destruct (Huniq d' q' E Ho Hl) as [-> ->].
    exfalso. destruct Ho as (A & _ & B & _). assert (true = false) by (apply H1; auto). discriminate.
  - destruct (proj1 H1 eq_refl) as (Hne & Hv). rewrite (H2 eq_refl).
    destruct (lead_spec d q Hne Hd Hv) as (b & -> & Hb). cbn [bind]. destruct b.
    + exists false. split; [reflexivity|]. split; [discriminate|].
      intros (d' & q' & E & Ho & Hl). destruct (Huniq d' q' E Ho Hl) as [-> ->].
      apply Hb in Ho. discriminate.
    + rewrite slice_suffix by reflexivity. cbn [bind]. destruct (Hcont q) as (b & -> & Hbq).
      exists b. split; [reflexivity|]. rewrite Hbq. split.
      * intros Hl. exists d, q. split; [reflexivity|]. split; [apply Hb; reflexivity|exact Hl].
      * intros (d' & q' & E & Ho & Hl). destruct (Huniq d' q' E Ho Hl) as [-> ->]. exact Hl.
Qed.

Lemma ipv4_loop_rest : forall k s, exists b, ipv4_loop k false s = Ret b /\ (b = true <-> octets k s).
Proof.
  induction k as [|k IH]; intros s; cbn [ipv4_loop].
  - exists (len s =? 0). split; [reflexivity|]. rewrite len_eqb_zero. destruct s as [|x s].
    + split; [constructor|reflexivity].
    + split; [discriminate|inversion 1].
  - rewrite len_eqb_zero. destruct s as [|x s].
    + exists false. split; [reflexivity|]. split; [discriminate|]. inversion 1 as [|? ? ? ? Hs].
      destruct Hs as [->|[->|[->| ->]]]; discriminate.
    + set (t := x :: s) in *. destruct (decode_rune t) as [r size] eqn:D.
      destruct (exists_in SEPS r) eqn:Er.
      * destruct (decode_first_in SEPS seps_good t r size ltac:(discriminate) D Er) as (q & Et & -> & Hin).
        rewrite Et. rewrite slice_suffix by reflexivity. cbn [bind].
        destruct (octet_step k q (ipv4_loop k false) (octets k) IH (octets_no_digit k)) as (b & Hb & Hiff).
        exists b. split; [exact Hb|]. rewrite Hiff. split.
        -- intros (d & q' & -> & Ho & Hl). constructor; auto. apply sep_text_encode. exists r. auto.
        -- intros H. inversion H as [|n sp d q' Hsp Ho Hq E1 E2]; subst.
           apply sep_text_encode in Hsp as (r' & Hr' & ->).
           destruct (encode_inj r' r (d ++ q') q) as [_ <-]; [apply (in_valid SEPS seps_good); auto ..| |].
           { exact E2. }
           exists d, q'. auto.
      * exists false. split; [reflexivity|]. split; [discriminate|]. intros H.
        inversion H as [|n sp d q' Hsp Ho Hq E1 E2]; subst.
        apply sep_text_encode in Hsp as (r' & Hr' & ->). exfalso.
        apply (decode_first_notin SEPS seps_good t r size D Er). exists r', (d ++ q'). auto.
Qed.

Lemma octets_address : forall s, ipv4_address s <-> exists d q, s = d ++ q /\ octet d /\ octets 3 q.
Proof.
  intros s. split.
  - intros (a & s1 & b & s2 & c & s3 & d & -> & Ha & Hb & Hc & Hd & H1 & H2 & H3).
    exists a, (s1 ++ b ++ s2 ++ c ++ s3 ++ d). split; [reflexivity|]. split; [exact Ha|].
    constructor; auto. constructor; auto. rewrite <- (app_nil_r d). constructor; auto. constructor.
  - intros (a & q & -> & Ha & H). inversion H as [|? s1 b q1 H1 Hb Hq1]; subst.
    inversion Hq1 as [|? s2 c q2 H2 Hc Hq2]; subst. inversion Hq2 as [|? s3 d q3 H3 Hd Hq3]; subst.
    inversion Hq3; subst. rewrite app_nil_r. exists a, s1, b, s2, c, s3, d. auto 12.
Qed.

Lemma octet_last : forall d, octet d -> exists p b, d = p ++ [b] /\ is_digit b = true.
Proof.
  intros d (Hne & Ha & _). destruct d as [|b p _] using rev_ind; [contradiction|].
  exists p, b. split; [reflexivity|]. apply Forall_app in Ha as [_ Ha]. inversion Ha; assumption.
Qed.

Lemma digit_not_sep_end : forall p b, is_digit b = true -> ~ ends SEPS (p ++ [b]).
Proof.
  intros p b Hb (p' & r & Hr & E).
  assert (Hs : is_sep_text (encode r)) by (apply sep_text_encode; eauto).
  assert (X : exists q c, encode r = q ++ [c] /\ is_digit c = false).
  { destruct Hs as [->|[->|[->| ->]]].
    - exists [], 46%N; auto.
    - exists [227;128]%N, 130%N; auto.
    - exists [239;188]%N, 142%N; auto.
    - exists [239;189]%N, 161%N; auto. }
  destruct X as (q & c & Ec & Hc). rewrite Ec, app_assoc in E. apply app_inj_tail in E as [_ ->]. congruence.
Qed.

Lemma address_no_end : forall a, ipv4_address a -> ~ ends SEPS a.
Proof.
  intros a (a1 & s1 & b & s2 & c & s3 & d & -> & _ & _ & _ & Hd & _).
  destruct (octet_last d Hd) as (p & x & -> & Hx). rewrite !app_assoc. apply digit_not_sep_end. exact Hx.
Qed.

Theorem is_ipv4_spec : forall s, exists b, is_ipv4 s = Ret b /\ (b = true <-> ipv4_text s).
Proof.
  intros s. unfold is_ipv4.
  destruct (fast_trim_right SEPS seps_good s) as (t & w & Es & Hw & Ht & ->). cbn [bind].
  change (Z.to_nat ipv4_len) with 4%nat. cbn [ipv4_loop].
  assert (Hiff : ipv4_text s <-> ipv4_address t).
  { split.
    - intros (a & w' & -> & Ha & Hw'). apply seps_star in Hw'.
      assert (t = a) by (eapply (trimmed_right_unique SEPS seps_good w t w' a); eauto using address_no_end).
      subst. exact Ha.
    - intros Ha. exists t, w. split; [exact Es|]. split; [exact Ha|]. apply seps_star. exact Hw. }
  rewrite len_eqb_zero. destruct t as [|x t].
  - exists false. split; [reflexivity|]. split; [discriminate|]. intros H. apply Hiff in H.
    apply octets_address in H as (d & q & E & (Hne & _) & _). destruct d; [contradiction|discriminate].
  - cbn [bind].
    destruct (octet_step 3 (x :: t) (ipv4_loop 3 false) (octets 3) (ipv4_loop_rest 3) (octets_no_digit 3))
      as (b & Hb & Hbi).
    exists b. split; [exact Hb|]. rewrite Hbi, Hiff, octets_address. reflexivity.
Qed.

(** ** xtoi *)

Definition hex_from (n : Z) (d : bytes) : Z := fold_left (fun a b => a * 16 + Z.of_N (unhex b)) d n.

Lemma hex_value_spec : forall b,
  hex_value b = if is_hex b then Some (Z.of_N (unhex b)) else None.
Proof.
  intros b. unfold hex_value, is_hex, unhex. unfold is_digit.
  destruct ((48 <=? b) && (b <=? 57))%N eqn:E1; cbn [orb]; [f_equal; lia|].
  destruct ((97 <=? b) && (b <=? 102))%N eqn:E2; cbn [orb]; [f_equal; lia|].
  destruct ((65 <=? b) && (b <=? 70))%N eqn:E3; [f_equal; lia|reflexivity].
Qed.

Lemma hex_from_ge : forall d n, 0 <= n -> n <= hex_from n d.
Proof.
  induction d as [|b d IH]; intros n Hn; [unfold hex_from; cbn [fold_left]; lia|].
  change (hex_from n (b :: d)) with (hex_from (n * 16 + Z.of_N (unhex b)) d).
  specialize (IH (n * 16 + Z.of_N (unhex b)) ltac:(lia)). lia.
Qed.

Lemma xtoi_loop_spec : forall s n i d q, span is_hex s = (d, q) -> 0 <= n < big -> 0 <= i ->
  if hex_from n d <? big
  then xtoi_loop s n i = if i + len d =? 0 then (0, i + len d, false) else (hex_from n d, i + len d, true)
  else exists c, xtoi_loop s n i = (0, c, false).
Proof.
  induction s as [|b s IH]; intros n i d q Hs Hn Hi; cbn [span] in Hs; cbn [xtoi_loop].
  - injection Hs as <- <-. unfold hex_from. cbn [fold_left]. replace (n <? big) with true by lia.
    rewrite len_nil, Z.add_0_r. reflexivity.
  - rewrite hex_value_spec. destruct (is_hex b) eqn:Eb.
    + destruct (span is_hex s) as [d' q'] eqn:Es. injection Hs as <- <-.
      change (hex_from n (b :: d')) with (hex_from (n * 16 + Z.of_N (unhex b)) d').
      destruct (Z.geb_spec (n * 16 + Z.of_N (unhex b)) big) as [H'|H'].
      * pose proof (hex_from_ge d' (n * 16 + Z.of_N (unhex b)) ltac:(lia)).
        replace (_ <? big) with false by lia. eauto.
      * specialize (IH (n * 16 + Z.of_N (unhex b)) (i + 1) d' q' eq_refl ltac:(lia) ltac:(lia)).
        rewrite len_cons. replace (i + (1 + len d')) with (i + 1 + len d') by lia. exact IH.
    + injection Hs as <- <-. unfold hex_from. cbn [fold_left]. replace (n <? big) with true by lia.
      rewrite len_nil, Z.add_0_r. reflexivity.
Qed.

Lemma xtoi_spec : forall s d q, span is_hex s = (d, q) ->
  let '(n, c, ok) := xtoi s in
  (negb ok || (n >? 65535) = false <-> group d)
  /\ (negb ok || (n >? 65535) = false -> c = len d).
Proof.
  intros s d q Hs. pose proof (xtoi_loop_spec s 0 0 d q Hs ltac:(unfold big; lia) ltac:(lia)) as H.
  change (hex_from 0 d) with (hexadecimal d) in H. unfold xtoi. unfold big in *.
  apply span_spec in Hs as (_ & Hd & _). unfold group.
  destruct (Z.ltb_spec (hexadecimal d) 16777215) as [Hb|Hb].
  - rewrite H. cbn [Z.add] in *. destruct d as [|b d].
    + rewrite len_nil. change (0 =? 0) with true. cbv iota beta. cbn [negb orb]. split.
      * split; [discriminate|intros (A & _); contradiction].
      * discriminate.
    + rewrite len_cons. pose proof (len_nonneg _ d). replace (1 + len d =? 0) with false by lia.
      cbv iota beta. cbn [negb orb]. split; [|auto]. split.
      * intros. split; [discriminate|]. split; [exact Hd|lia].
      * intros. lia.
  - destruct H as (c & ->). cbv iota beta. cbn [negb orb]. split; [|discriminate]. split; [discriminate|lia].
Qed.

(** ** isIPv6 *)

Lemma digit_hex : forall b, is_digit b = true -> is_hex b = true.
Proof. intros b H. unfold is_hex. rewrite H. reflexivity. Qed.

Lemma octet_group : forall d, octet d -> group d.
Proof.
  intros d (Hne & Ha & Hv & Hz). split; [exact Hne|]. split.
  { eapply Forall_impl; [|exact Ha]. intros b. apply digit_hex. }
  assert (Hu : forall b, is_digit b = true -> 0 <= Z.of_N (unhex b) <= 9).
  { intros b H. unfold unhex. rewrite H. unfold is_digit in H. lia. }
  destruct Hz as [->|(b & t & -> & Hb)]; [vm_compute; discriminate|].
  unfold decimal, hexadecimal in *.
  destruct t as [|c t].
  { inversion Ha as [|? ? H1]; subst. cbn [fold_left]. pose proof (Hu b H1). lia. }
  destruct t as [|d t].
  { inversion Ha as [|? ? H1 Ha1]; subst. inversion Ha1 as [|? ? H2]; subst. cbn [fold_left].
    pose proof (Hu b H1). pose proof (Hu c H2). lia. }
  destruct t as [|e t].
  { inversion Ha as [|? ? H1 Ha1]; subst. inversion Ha1 as [|? ? H2 Ha2]; subst.
    inversion Ha2 as [|? ? H3]; subst. cbn [fold_left].
    pose proof (Hu b H1). pose proof (Hu c H2). pose proof (Hu d H3). lia. }
  exfalso. inversion Ha as [|? ? H1 Ha1]; subst. inversion Ha1 as [|? ? H2 Ha2]; subst.
  inversion Ha2 as [|? ? H3 Ha3]; subst. inversion Ha3 as [|? ? H4 Ha4]; subst.
  cbn [fold_left] in Hv.
  pose proof (digit_value b H1). pose proof (digit_value c H2). pose proof (digit_value d H3). pose proof (digit_value e H4).
  match type of Hv with fold_left _ t ?n <= _ => pose proof (dec_from_ge t n Ha4 ltac:(lia)) as X; unfold dec_from in X end.
  lia.
Qed.

Definition sep_head (q : bytes) : Prop := exists s t, is_sep_text s /\ q = s ++ t.

Lemma sep_head_decode : forall q,
  exists_in SEPS (fst (decode_rune q)) = true <-> sep_head q.
Proof.
  intros q. destruct (decode_rune q) as [r n] eqn:D. cbn [fst]. split.
  - intros H. destruct q as [|b q].
    + cbn in D. injection D as <- <-. vm_compute in H. discriminate.
    + destruct (decode_first_in SEPS seps_good (b :: q) r n ltac:(discriminate) D H) as (t & E & _ & Hin).
      exists (encode r), t. split; [|exact E]. apply sep_text_encode. eauto.
  - intros (s & t & Hs & ->). apply sep_text_encode in Hs as (r' & Hr' & ->).
    destruct (exists_in SEPS r) eqn:E; [reflexivity|]. exfalso.
    apply (decode_first_notin SEPS seps_good _ r n D E). exists r', t. auto.
Qed.

Lemma sep_head_no_hex : forall q, sep_head q -> no_head is_hex q /\ q <> [] /\ forall t, q <> 58%N :: t.
Proof.
  intros q (s & t & [->|[->|[->| ->]]] & ->); (split; [reflexivity|split; [discriminate|intros ? ?; discriminate]]).
Qed.

(** How a string of pieces begins. *)
Lemma ipv4_text_head : forall a, ipv4_text a -> exists d q, a = d ++ q /\ group d /\ sep_head q.
Proof.
  intros a (x & w & -> & (a1 & s1 & b & s2 & c & s3 & d & -> & Ha & _ & _ & _ & Hs & _) & _).
  exists a1, ((s1 ++ b ++ s2 ++ c ++ s3 ++ d) ++ w). split; [rewrite <- !app_assoc; reflexivity|].
  split; [apply octet_group; exact Ha|]. exists s1, ((b ++ s2 ++ c ++ s3 ++ d) ++ w).
  split; [exact Hs|]. rewrite <- !app_assoc. reflexivity.
Qed.

Lemma group_span : forall g q, group g -> no_head is_hex q -> span is_hex (g ++ q) = (g, q).
Proof. intros g q (_ & A & _) H. apply span_spec. auto. Qed.

Lemma no_hex_colon : forall t, no_head is_hex (58%N :: t).
Proof. intros. reflexivity. Qed.

Section Read.
Variables (s g q : bytes).
Hypothesis Hspan : span is_hex s = (g, q).

Lemma read_eq : s = g ++ q.
Proof. apply span_spec in Hspan as (E & _). exact E. Qed.

(** reading pieces deterministically *)
Lemma pieces_read : forall n, pieces n s <->
  (group g /\ q = [] /\ n = 1%nat)
  \/ (n = 2%nat /\ sep_head q /\ ipv4_text s)
  \/ (group g /\ exists m t, q = 58%N :: t /\ n = S m /\ pieces m t).
Proof.
  intros n. split.
  - intros H. inversion H as [g' Hg E1 E2|a Ha E1 E2|g' m t Hg Hp E1 E2]; subst.
    + left. pose proof (group_span s [] Hg I) as X. rewrite app_nil_r in X. rewrite Hspan in X.
      injection X as -> ->. auto.
    + right; left. destruct (ipv4_text_head s Ha) as (d & r & E & Hg & Hs).
      pose proof (group_span d r Hg (proj1 (sep_head_no_hex r Hs))) as X. rewrite <- E, Hspan in X.
      injection X as -> ->. auto.
    + right; right. rewrite (group_span g' ([58%N] ++ t) Hg (no_hex_colon t)) in Hspan.
      injection Hspan as -> <-. split; [exact Hg|]. exists m, t. auto.
  - pose proof read_eq as E.
    intros [(Hg & -> & ->)|[(-> & _ & Ha)|(Hg & m & t & -> & -> & Hp)]].
    + rewrite app_nil_r in E. rewrite E. constructor. exact Hg.
    + constructor. exact Ha.
    + rewrite E. apply (pieces_more g m t); assumption.
Qed.

Definition ellipsis_text (n m : nat) (s : bytes) : Prop :=
  exists a b, s = a ++ [58; 58]%N ++ b /\ groups n a /\ ((m = 0%nat /\ b = []) \/ pieces m b).

Lemma ellipsis_read : forall n m, ellipsis_text n m s <->
  (group g /\ n = 1%nat /\ exists b, q = 58%N :: 58%N :: b /\ ((m = 0%nat /\ b = []) \/ pieces m b))
  \/ (group g /\ exists k t, q = 58%N :: t /\ n = S k /\ ellipsis_text k m t).
Proof.
  intros n m. split.
  - intros (a & b & E & Ha & Hb). inversion Ha as [g' Hg E1 E2|g' k t Hg Hp E1 E2]; subst.
    + left. rewrite (group_span a ([58;58]%N ++ b) Hg (no_hex_colon _)) in Hspan.
      injection Hspan as -> <-. split; [exact Hg|]. split; [reflexivity|]. exists b. auto.
    + right. replace ((g' ++ [58%N] ++ t) ++ [58; 58]%N ++ b) with (g' ++ 58%N :: t ++ [58;58]%N ++ b) in Hspan
        by (rewrite <- app_assoc; reflexivity).
      rewrite (group_span g' _ Hg (no_hex_colon _)) in Hspan.
      injection Hspan as -> <-. split; [exact Hg|]. exists k, (t ++ [58;58]%N ++ b).
      split; [reflexivity|]. split; [reflexivity|]. exists t, b. auto.
  - pose proof read_eq as E.
    intros [(Hg & -> & b & -> & Hb)|(Hg & k & t & -> & -> & (a & b & -> & Ha & Hb))].
    + exists g, b. split; [exact E|]. split; [constructor; exact Hg|exact Hb].
    + exists (g ++ [58%N] ++ a), b. split; [rewrite E, <- app_assoc; reflexivity|].
      split; [constructor; assumption|exact Hb].
Qed.
End Read.

Lemma pieces_pos : forall n s, pieces n s -> (1 <= n)%nat /\ exists b t, s = b :: t /\ b <> 58%N.
Proof.
  assert (Hg : forall g q, group g -> exists b t, g ++ q = b :: t /\ b <> 58%N).
  { intros g q (Hne & Ha & _). destruct g as [|b g]; [contradiction|]. exists b, (g ++ q).
    split; [reflexivity|]. inversion Ha; subst. intros ->. discriminate. }
  intros n s [g G|a Ha|g m t G Hp].
  - split; [lia|]. rewrite <- (app_nil_r g). apply Hg. exact G.
  - split; [lia|]. destruct (ipv4_text_head a Ha) as (d & q & -> & Hd & _). apply Hg. exact Hd.
  - split; [lia|]. apply Hg. exact G.
Qed.

Lemma ellipsis_text_head : forall n m s, ellipsis_text n m s -> (1 <= n)%nat /\ exists b t, s = b :: t /\ b <> 58%N.
Proof.
  assert (Hg : forall g q, group g -> exists b t, g ++ q = b :: t /\ b <> 58%N).
  { intros g q (Hne & Ha & _). destruct g as [|b g]; [contradiction|]. exists b, (g ++ q).
    split; [reflexivity|]. inversion Ha; subst. intros ->. discriminate. }
  intros n m s (a & b & -> & [g G|g k t G _] & _).
  - split; [lia|]. apply Hg. exact G.
  - split; [lia|]. rewrite <- app_assoc. apply Hg. exact G.
Qed.

(** Verdict on the state after the loop (net.go:158-172). *)
Definition v6_verdict (m : option (bytes * Z * Z)) : bool :=
  match m with
  | None => false
  | Some (s, i, ellipsis) =>
    if negb (len s =? 0) then false
    else if i <? ipv6_len then negb (ellipsis <? 0) else negb (ellipsis >=? 0)
  end.

(** What the loop accepts from state (s, k groups read, ellipsis). *)
Definition v6_rest (s : bytes) (k : nat) (e : Z) : Prop :=
  if e <? 0
  then (exists n, pieces n s /\ (k + n = 8)%nat)
       \/ (exists n m, ellipsis_text n m s /\ (k + n + m <= 7)%nat)
  else exists n, pieces n s /\ (k + n <= 7)%nat.

Lemma ipv6_loop_spec : forall fuel s k e, (k <= 8)%nat -> (8 - k <= fuel)%nat ->
  exists m, ipv6_loop fuel s (2 * Z.of_nat k) e = Ret m
            /\ ((k < 8)%nat -> v6_verdict m = true <-> v6_rest s k e)
            /\ (k = 8%nat -> v6_verdict m = true <-> (s = [] /\ e < 0)).
Proof.
  induction fuel as [|fuel IH]; intros s k e Hk Hf.
  { assert (k = 8%nat) by lia. subst k. cbn [ipv6_loop]. change (2 * Z.of_nat 8 <? ipv6_len) with false.
    eexists. split; [reflexivity|]. split; [lia|]. intros _. cbn [v6_verdict].
    change (2 * Z.of_nat 8 <? ipv6_len) with false. rewrite len_eqb_zero.
    destruct s; cbn [negb]; split; try discriminate.
    - intros H. split; [reflexivity|lia].
    - intros (_ & H). lia.
    - intros (H & _). discriminate. }
  cbn [ipv6_loop]. unfold ipv6_len. destruct (Z.ltb_spec (2 * Z.of_nat k) 16) as [Hi|Hi].
  2:{ assert (k = 8%nat) by lia. subst k.
    eexists. split; [reflexivity|]. split; [lia|]. intros _. cbn [v6_verdict].
    change (2 * Z.of_nat 8 <? ipv6_len) with false. rewrite len_eqb_zero.
    destruct s; cbn [negb]; split; try discriminate.
    - intros H. split; [reflexivity|lia].
    - intros (_ & H). lia.
    - intros (H & _). discriminate. }
  destruct (span is_hex s) as [g q] eqn:Hspan.
  pose proof (xtoi_spec s g q Hspan) as Hx. destruct (xtoi s) as [[n c] ok]. destruct Hx as (Hx1 & Hx2).
  pose proof (fun n => pieces_read s g q Hspan n) as Hpr.
  pose proof (fun n m => ellipsis_read s g q Hspan n m) as Her.
  apply span_spec in Hspan as Hsp. destruct Hsp as (Es & _ & Hq).
  destruct (negb ok || (n >? 65535)) eqn:Eg.
  { (* no group *)
    exists None. split; [reflexivity|]. split; [|lia]. intros _. cbn [v6_verdict].
    assert (Hng : ~ group g) by (intros H; apply Hx1 in H; discriminate).
    assert (Hnp : forall n, ~ pieces n s).
    { intros n' H. apply Hpr in H as [(H & _)|[(_ & Hs & H)|(H & _)]]; try contradiction.
      destruct (ipv4_text_head s H) as (d & r & E & Hd & Hr).
      pose proof (group_span d r Hd (proj1 (sep_head_no_hex r Hr))) as X. rewrite <- E, Hspan in X.
      injection X as -> ->. contradiction. }
    assert (Hne : forall n m, ~ ellipsis_text n m s).
    { intros n' m' H. apply Her in H as [(H & _)|(H & _)]; contradiction. }
    split; [discriminate|]. unfold v6_rest. intros H. exfalso. destruct (e <? 0).
    - destruct H as [(n' & H & _)|(n' & m' & H & _)]; [eapply Hnp|eapply Hne]; eassumption.
    - destruct H as (n' & H & _). eapply Hnp; eassumption. }
  assert (Hg : group g) by (apply Hx1; reflexivity). rewrite (Hx2 eq_refl).
  assert (Hsf : (if len g <? len s
                 then t <- slice s (len g) (len s) ;; Ret (exists_in SEPS (fst (decode_rune t)))
                 else Ret false) = Ret (exists_in SEPS (fst (decode_rune q)))).
  { rewrite Es. rewrite slice_suffix by reflexivity. cbn [bind]. autorewrite with len.
    destruct (Z.ltb_spec (len g) (len g + len q)) as [_|H]; [reflexivity|].
    pose proof (len_nonneg _ q). assert (q = []) by (apply len_zero; lia). subst q. reflexivity. }
  rewrite Hsf. cbn [bind]. clear Hsf. pose proof (sep_head_decode q) as Hsd.
  destruct (exists_in SEPS (fst (decode_rune q))) eqn:Esep.
  - (* IPv4 tail *)
    assert (Hsh : sep_head q) by (apply Hsd; reflexivity).
    destruct (sep_head_no_hex q Hsh) as (_ & Hqn & Hqc).
    assert (Hpr' : forall n, pieces n s <-> n = 2%nat /\ ipv4_text s).
    { intros n'. rewrite Hpr. split.
      - intros [(_ & H & _)|[(A & _ & B)|(_ & m & t & H & _)]]; [contradiction|auto|].
        exfalso. eapply Hqc; eassumption.
      - intros (A & B). auto. }
    assert (Her' : forall n m, ~ ellipsis_text n m s).
    { intros n' m' H. apply Her in H as [(_ & _ & b & H & _)|(_ & k' & t & H & _)]; eapply Hqc; eassumption. }
    assert (Hrest : v6_rest s k e <-> ipv4_text s /\ (if e <? 0 then k = 6%nat else (k <= 5)%nat)).
    { unfold v6_rest. destruct (e <? 0).
      - split.
        + intros [(n' & H & Hn)|(n' & m' & H & _)]; [|exfalso; eapply Her'; eassumption].
          apply Hpr' in H as (-> & H). split; [exact H|lia].
        + intros (H & ->). left. exists 2%nat. split; [apply Hpr'; auto|lia].
      - split.
        + intros (n' & H & Hn). apply Hpr' in H as (-> & H). split; [exact H|lia].
        + intros (H & Hk'). exists 2%nat. split; [apply Hpr'; auto|lia]. }
    unfold len_diff, ipv6_len, ipv4_len. change (16 - 4) with 12.
    destruct ((e <? 0) && negb (2 * Z.of_nat k =? 12)) eqn:Ec.
    { exists None. split; [reflexivity|]. split; [|lia]. intros _. cbn [v6_verdict].
      split; [discriminate|]. rewrite Hrest. intros (_ & H). replace (e <? 0) with true in H by lia. lia. }
    destruct (Z.gtb_spec (2 * Z.of_nat k) 12) as [Hgt|Hgt].
    { exists None. split; [reflexivity|]. split; [|lia]. intros _. cbn [v6_verdict].
      split; [discriminate|]. rewrite Hrest. intros (_ & H). destruct (e <? 0); lia. }
    destruct (is_ipv4_spec s) as (b & -> & Hb). cbn [bind]. destruct b; cbn [negb].
    + eexists. split; [reflexivity|]. split; [|lia]. intros _. cbn [v6_verdict]. rewrite len_nil.
      rewrite Hrest. change (0 =? 0) with true. cbn [negb]. unfold ipv6_len.
      assert (ipv4_text s) by (apply Hb; reflexivity).
      destruct (Z.ltb_spec (2 * Z.of_nat k + 4) 16), (Z.ltb_spec e 0); cbn [negb andb] in *;
        split; intros HH; try (split; [assumption|]); try (match type of HH with _ /\ _ => destruct HH as [_ HH] end); lia.
    + exists None. split; [reflexivity|]. split; [|lia]. intros _. cbn [v6_verdict].
      split; [discriminate|]. rewrite Hrest. intros (H & _). apply Hb in H. discriminate.
  - (* group *)
    assert (Hns : ~ sep_head q) by (intros H; apply Hsd in H; discriminate).
    assert (Hsl : slice s (len g) (len s) = Ret q) by (rewrite Es; apply slice_suffix; reflexivity).
    rewrite Hsl. cbn [bind].
    replace (2 * Z.of_nat k + 2) with (2 * Z.of_nat (S k)) by lia.
    rewrite !len_eqb_zero. destruct q as [|x q].
    + (* end of the text *)
      eexists. split; [reflexivity|]. split; [|lia]. intros _. cbn [v6_verdict]. rewrite len_nil.
      change (0 =? 0) with true. cbn [negb]. unfold ipv6_len.
      assert (Hpr' : forall n, pieces n s <-> n = 1%nat).
      { intros n'. rewrite Hpr. split; [|auto].
        intros [(_ & _ & H)|[(_ & H & _)|(_ & m & t & H & _)]]; [exact H|contradiction|discriminate]. }
      assert (Her' : forall n m, ~ ellipsis_text n m s).
      { intros n' m' H. apply Her in H as [(_ & _ & b & H & _)|(_ & k' & t & H & _)]; discriminate. }
      unfold v6_rest. destruct (Z.ltb_spec e 0) as [He|He].
      * destruct (Z.ltb_spec (2 * Z.of_nat (S k)) 16) as [H16|H16]; cbn [negb].
        -- split; [discriminate|]. intros [(n' & H & Hn)|(n' & m' & H & _)]; [|exfalso; eapply Her'; eassumption].
           apply Hpr' in H. lia.
        -- split; [|lia]. intros _. left. exists 1%nat. split; [apply Hpr'; reflexivity|lia].
      * destruct (Z.ltb_spec (2 * Z.of_nat (S k)) 16) as [H16|H16]; cbn [negb].
        -- split; [|reflexivity]. intros _. exists 1%nat. split; [apply Hpr'; reflexivity|lia].
        -- split; [lia|]. intros (n' & H & Hn). apply Hpr' in H. lia.
    + rewrite index_head. cbn [bind].
      destruct (N.eqb_spec x 58) as [->|Hx]; cbn [negb orb].
      2:{ exists None. split; [reflexivity|]. split; [|lia]. intros _. cbn [v6_verdict].
        split; [discriminate|]. intros H. exfalso. unfold v6_rest in H.
        assert (Hnp : forall n, ~ pieces n s).
        { intros n' H'. apply Hpr in H' as [(_ & H' & _)|[(_ & H' & _)|(_ & m & t & H' & _)]];
            [discriminate|contradiction|]. injection H' as -> _. contradiction. }
        assert (Hne : forall n m, ~ ellipsis_text n m s).
        { intros n' m' H'. apply Her in H' as [(_ & _ & b & H' & _)|(_ & k' & t & H' & _)];
            injection H' as -> _; contradiction. }
        destruct (e <? 0).
        - destruct H as [(n' & H & _)|(n' & m' & H & _)]; [eapply Hnp|eapply Hne]; eassumption.
        - destruct H as (n' & H & _). eapply Hnp; eassumption. }
      rewrite len_cons.
      assert (Hpr' : forall n, pieces n s <-> exists m, n = S m /\ pieces m q).
      { intros n'. rewrite Hpr. split.
        - intros [(_ & H & _)|[(_ & H & _)|(_ & m & t & H & -> & Hp)]]; [discriminate|contradiction|].
          injection H as <-. eauto.
        - intros (m & -> & Hp). right; right. split; [exact Hg|]. exists m, q. auto. }
      assert (Her' : forall n m, ellipsis_text n m s <->
                (n = 1%nat /\ exists b, q = 58%N :: b /\ ((m = 0%nat /\ b = []) \/ pieces m b))
                \/ (exists k, n = S k /\ ellipsis_text k m q)).
      { intros n' m'. rewrite Her. split.
        - intros [(_ & -> & b & H & Hb)|(_ & k' & t & H & -> & Hb)].
          + injection H as ->. left. split; [reflexivity|]. eauto.
          + injection H as <-. right. eauto.
        - intros [(-> & b & -> & Hb)|(k' & -> & Hb)].
          + left. split; [exact Hg|]. split; [reflexivity|]. eauto.
          + right. split; [exact Hg|]. exists k', q. auto. }
      clear Hpr Her. destruct q as [|y q].
      { (* text ends in a single ':' *)
        rewrite len_nil. change (1 + 0 =? 1) with true.
        exists None. split; [reflexivity|]. split; [|lia]. intros _. cbn [v6_verdict].
        split; [discriminate|]. intros H. exfalso. unfold v6_rest in H.
        assert (Hnp : forall n, ~ pieces n s).
        { intros n' H'. apply Hpr' in H' as (m & _ & H'). apply pieces_pos in H' as (_ & b & t & H' & _). discriminate. }
        assert (Hne : forall n m, ~ ellipsis_text n m s).
        { intros n' m' H'. apply Her' in H' as [(_ & b & H' & _)|(k' & _ & H')]; [discriminate|].
          apply ellipsis_text_head in H' as (_ & b & t & H' & _). discriminate. }
        destruct (e <? 0).
        - destruct H as [(n' & H & _)|(n' & m' & H & _)]; [eapply Hnp|eapply Hne]; eassumption.
        - destruct H as (n' & H & _). eapply Hnp; eassumption. }
      rewrite len_cons. pose proof (len_nonneg _ q). replace (1 + (1 + len q) =? 1) with false by lia.
      rewrite (slice_suffix _ [58%N] (y :: q)) by (autorewrite with len; reflexivity || lia). cbn [bind].
      rewrite index_head. cbn [bind].
      destruct (N.eqb_spec y 58) as [->|Hy].
      * (* '::' *)
        assert (Hnp : forall n, ~ pieces n s).
        { intros n' H'. apply Hpr' in H' as (m & _ & H'). apply pieces_pos in H' as (_ & b & t & H' & Hb).
          injection H' as <- _. contradiction. }
        assert (Her2 : forall n m, ellipsis_text n m s <-> n = 1%nat /\ ((m = 0%nat /\ q = []) \/ pieces m q)).
        { intros n' m'. rewrite Her'. split.
          - intros [(-> & b & H' & Hb)|(k' & _ & H')].
            + injection H' as ->. auto.
            + apply ellipsis_text_head in H' as (_ & b & t & H' & Hb). injection H' as <- _. contradiction.
          - intros (-> & H'). left. split; [reflexivity|]. exists q. auto. }
        destruct (Z.geb_spec e 0) as [He|He].
        -- exists None. split; [reflexivity|]. split; [|lia]. intros _. cbn [v6_verdict].
           split; [discriminate|]. unfold v6_rest. replace (e <? 0) with false by lia.
           intros (n' & H' & _). exfalso. eapply Hnp; eassumption.
        -- rewrite (slice_suffix _ [58%N] q) by (autorewrite with len; reflexivity || lia). cbn [bind].
           rewrite len_eqb_zero.
           assert (Hrest : v6_rest s k e <-> (q = [] /\ (k <= 6)%nat) \/ exists m, pieces m q /\ (S k + m <= 7)%nat).
           { unfold v6_rest. replace (e <? 0) with true by lia. split.
             - intros [(n' & H' & _)|(n' & m' & H' & Hn)]; [exfalso; eapply Hnp; eassumption|].
               apply Her2 in H' as (-> & [(-> & ->)|H']); [left; split; [reflexivity|lia]|].
               right. exists m'. split; [exact H'|lia].
             - intros [(-> & H')|(m & H' & Hm)]; right.
               + exists 1%nat, 0%nat. split; [apply Her2; auto|lia].
               + exists 1%nat, m. split; [apply Her2; auto|lia]. }
           destruct q as [|z q].
           ++ eexists. split; [reflexivity|]. split; [|lia]. intros _. rewrite Hrest. cbn [v6_verdict]. rewrite len_nil.
              change (0 =? 0) with true. cbn [negb]. unfold ipv6_len.
              destruct (Z.ltb_spec (2 * Z.of_nat (S k)) 16) as [H16|H16].
              ** replace (2 * Z.of_nat (S k) <? 0) with false by lia. cbn [negb]. split; [|reflexivity].
                 intros _. left. split; [reflexivity|lia].
              ** replace (2 * Z.of_nat (S k) >=? 0) with true by lia. cbn [negb]. split; [discriminate|].
                 intros [(_ & H')|(m & H' & _)]; [lia|].
                 apply pieces_pos in H' as (_ & b & t & H' & _). discriminate.
           ++ destruct (IH (z :: q) (S k) (2 * Z.of_nat (S k)) ltac:(lia) ltac:(lia)) as (m & Hm & Hm1 & Hm2).
              exists m. split; [exact Hm|]. split; [|lia]. intros _. rewrite Hrest.
              destruct (Nat.eq_dec (S k) 8) as [E8|E8].
              ** rewrite (Hm2 E8). split; [intros (H' & _); discriminate|].
                 intros [(H' & _)|(m' & H' & Hm')]; [discriminate|]. apply pieces_pos in H' as (H' & _). lia.
              ** rewrite (Hm1 ltac:(lia)). unfold v6_rest. replace (2 * Z.of_nat (S k) <? 0) with false by lia.
                 split; [intros H'; right; exact H'|]. intros [(H' & _)|H']; [discriminate|exact H'].
      * (* another group *)
        destruct (IH (y :: q) (S k) e ltac:(lia) ltac:(lia)) as (m & Hm & Hm1 & Hm2).
        exists m. split; [exact Hm|]. split; [|lia]. intros _.
        assert (Her2 : forall n m, ellipsis_text n m s <-> exists k, n = S k /\ ellipsis_text k m (y :: q)).
        { intros n' m'. rewrite Her'. split; [|auto]. intros [(_ & b & H' & _)|H']; [|exact H'].
          injection H' as -> _. contradiction. }
        assert (Hrest : v6_rest s k e <-> v6_rest (y :: q) (S k) e).
        { unfold v6_rest. destruct (e <? 0).
          - split.
            + intros [(n' & H' & Hn)|(n' & m' & H' & Hn)].
              * apply Hpr' in H' as (m0 & -> & H'). left. exists m0. split; [exact H'|lia].
              * apply Her2 in H' as (k0 & -> & H'). right. exists k0, m'. split; [exact H'|lia].
            + intros [(n' & H' & Hn)|(n' & m' & H' & Hn)].
              * left. exists (S n'). split; [apply Hpr'; eauto|lia].
              * right. exists (S n'), m'. split; [apply Her2; eauto|lia].
          - split.
            + intros (n' & H' & Hn). apply Hpr' in H' as (m0 & -> & H'). exists m0. split; [exact H'|lia].
            + intros (n' & H' & Hn). exists (S n'). split; [apply Hpr'; eauto|lia]. }
        rewrite Hrest. destruct (Nat.eq_dec (S k) 8) as [E8|E8].
        -- rewrite (Hm2 E8). split; [intros (H' & _); discriminate|]. unfold v6_rest.
           destruct (e <? 0).
           ++ intros [(n' & H' & Hn)|(n' & m' & H' & Hn)].
              ** apply pieces_pos in H' as (H' & _). lia.
              ** apply ellipsis_text_head in H' as (H' & _). lia.
           ++ intros (n' & H' & Hn). apply pieces_pos in H' as (H' & _). lia.
        -- apply Hm1. lia.
Qed.

Theorem is_ipv6_spec : forall s, exists b, is_ipv6 s = Ret b /\ (b = true <-> ipv6_literal s).
Proof.
  intros s. unfold is_ipv6.
  assert (Hlead : (exists t, s = 58%N :: 58%N :: t /\
     (if len s >=? 2 then x <- index s 0 ;; y <- index s 1 ;;
        (if ((x =? 58) && (y =? 58))%N then t <- slice s 2 (len s) ;; Ret (t, 0, len t =? 0) else Ret (s, -1, false))
      else Ret (s, -1, false)) = Ret (t, 0, len t =? 0))
   \/ ((forall t, s <> 58%N :: 58%N :: t) /\
     (if len s >=? 2 then x <- index s 0 ;; y <- index s 1 ;;
        (if ((x =? 58) && (y =? 58))%N then t <- slice s 2 (len s) ;; Ret (t, 0, len t =? 0) else Ret (s, -1, false))
      else Ret (s, -1, false)) = Ret (s, -1, false))).
  { destruct s as [|x [|y s]].
    - right. split; [discriminate|reflexivity].
    - right. split; [discriminate|reflexivity].
    - rewrite !len_cons. pose proof (len_nonneg _ s). replace (1 + (1 + len s) >=? 2) with true by lia.
      rewrite index_head. cbn [bind]. rewrite (index_mid _ [x] y s) by reflexivity. cbn [bind].
      destruct (N.eqb_spec x 58) as [->|Hx]; cbn [andb].
      + destruct (N.eqb_spec y 58) as [->|Hy].
        * left. exists s. split; [reflexivity|].
          rewrite (slice_suffix _ [58;58]%N s) by (autorewrite with len; reflexivity || lia). reflexivity.
        * right. split; [|reflexivity]. intros t H'. injection H' as -> _. contradiction.
      + right. split; [|reflexivity]. intros t H'. injection H' as -> _. contradiction. }
  assert (Hfin : forall m, match m with
      | None => Ret false
      | Some (s, i, ellipsis) =>
        if negb (len s =? 0) then Ret false
        else if i <? ipv6_len then Ret (negb (ellipsis <? 0)) else Ret (negb (ellipsis >=? 0))
      end = Ret (v6_verdict m)).
  { intros [[[s' i] e]|]; [|reflexivity]. cbn [v6_verdict]. destruct (negb _); [reflexivity|].
    destruct (i <? ipv6_len); reflexivity. }
  destruct Hlead as [(t & -> & ->)|(Hno & ->)]; cbn [bind].
  - rewrite len_eqb_zero. destruct t as [|x t].
    + exists true. split; [reflexivity|]. split; [|reflexivity]. intros _. right.
      exists 0%nat, [], 0%nat, []. split; [reflexivity|]. split; [lia|]. auto.
    + destruct (ipv6_loop_spec 8 (x :: t) 0 0 ltac:(lia) ltac:(lia)) as (m & Hm & Hm1 & _).
      change (2 * Z.of_nat 0) with 0 in Hm. rewrite Hm. cbn [bind]. rewrite Hfin.
      eexists. split; [reflexivity|]. rewrite (Hm1 ltac:(lia)). unfold v6_rest. change (0 <? 0) with false.
      cbn [Nat.add]. split.
      * intros (n & Hp & Hn). right. exists 0%nat, [], n, (x :: t). split; [reflexivity|]. split; [lia|]. auto.
      * intros [H|(n & a & m' & b & E & Hn & [(-> & ->)|Ha] & Hb)].
        -- apply pieces_pos in H as (_ & b & t' & E & Hb). injection E as <- _. contradiction.
        -- cbn [app] in E. injection E as <-. destruct Hb as [(_ & H)|Hb]; [discriminate|].
           exists m'. split; [exact Hb|lia].
        -- exfalso. assert (X : ellipsis_text n m' (58%N :: 58%N :: x :: t)) by (exists a, b; auto).
           apply ellipsis_text_head in X as (_ & c & t' & E' & Hc). injection E' as <- _. contradiction.
  - destruct (ipv6_loop_spec 8 s 0 (-1) ltac:(lia) ltac:(lia)) as (m & Hm & Hm1 & _).
    change (2 * Z.of_nat 0) with 0 in Hm. rewrite Hm. cbn [bind]. rewrite Hfin.
    eexists. split; [reflexivity|]. rewrite (Hm1 ltac:(lia)). unfold v6_rest. change (-1 <? 0) with true.
    cbn [Nat.add]. split.
    + intros [(n & Hp & ->)|(n & m' & (a & b & E & Ha & Hb) & Hn)]; [left; exact Hp|].
      right. exists n, a, m', b. auto.
    + intros [H|(n & a & m' & b & E & Hn & [(-> & ->)|Ha] & Hb)].
      * left. exists 8%nat. auto.
      * exfalso. apply (Hno b). exact E.
      * right. exists n, m'. split; [exists a, b; auto|lia].
Qed.
