(** AceProofs.v - if a host in Unicode form is accepted, so is its ASCII form (C62). *)

From Coq Require Import ZifyBool ZifyNat ZifyN.
From Verif Require Import Base BaseFacts Utf8 Chars Utf8Facts Str StrFacts Net TrieFacts Host HostFacts Trie
  Extract Parse ParseFacts UrlSpec UrlFacts ExtractFacts OutcomeFacts Addr NetFacts Walk WalkFacts Rfc CharProofs UrlProofs RuleSpec
  RuleProofs PslProofs VariantProofs ListSpec ListFacts Idna PunyProofs IdnaSpec IdnaProofs IdnaBuiltin ErrSpec InvalidProofs ErrProofs.
Local Open Scope N_scope.

(** ** Encoded labels *)

Lemma puny_shape : forall rs, Forall valid_rune rs -> (length rs <= 1024)%nat -> is_ascii (encode_all rs) = false ->
  exists out, puny_encode ace_prefix (encode_all rs)
      = Some (ace_prefix ++ below 128 rs ++ (if 0 <? N.of_nat (length (below 128 rs)) then [45] else []) ++ out)
    /\ out <> [] /\ ~ In 45 out.
Proof.
  intros rs V Len A. set (b := N.of_nat (length (below 128 rs))).
  assert (PE : puny_encode ace_prefix (encode_all rs) = option_map (fun out => ace_prefix ++ below 128 rs ++ (if 0 <? b then [45] else []) ++ out)
    (encode_rounds (length rs) rs (N.of_nat (length rs) - b) 128 b (mkEncoder 0 72 b))).
  { unfold puny_encode, range_str. rewrite range_runes by exact V. reflexivity. }
  destruct (encode_rounds_ok (length rs) rs 128 b (mkDecoder (below 128 rs) 0 128 72) (mkEncoder 0 72 b))
    as (out & E & G & d' & St & O); cbn [d_output d_bias d_n d_i e_h e_bias e_delta]; try reflexivity; try lia.
  { eapply Forall_impl; [|exact V]. intros r X. unfold valid_rune in X. lia. }
  cbn [e_h] in E. exists out. rewrite PE, E. cbn [option_map]. split; [reflexivity|]. split.
  - intros ->. assert (d' = mkDecoder (below 128 rs) 0 128 72) as ->.
    { inversion St as [|? ? ? ? ? ? X]; [reflexivity|discriminate X]. }
    cbn [d_output] in O. pose proof (below_low 128 rs) as L. rewrite O in L.
    assert (X : is_ascii (encode_all rs) = true); [|congruence]. rewrite encode_low by exact L.
    unfold is_ascii. apply forallb_forall. rewrite Forall_forall in L. intros c Hc. apply N.ltb_lt. apply L. exact Hc.
  - intros I. rewrite Forall_forall in G. destruct (G _ I) as (X & _). apply X. reflexivity.
Qed.

Definition alnum (c : N) : Prop := letter c \/ digit c.
Lemma alnum_dec : forall c, alnum c \/ (~ letter c /\ ~ digit c).
Proof. intros c. unfold alnum, letter, digit. lia. Qed.

(** The ASCII characters, a hyphen after them, and letters and digits. *)
Lemma a_label_shape : forall l, unicode_label l -> is_ascii l = false ->
  exists u v, a_label l = str "xn--" ++ u ++ v /\ (forall c, In c u -> c = 45 \/ In c l) /\ v <> [] /\ Forall alnum v.
Proof.
  intros l U A. destruct (a_label_cases l U) as (_ & [(X & _)|(_ & a & Ea & _ & Da)]); [congruence|].
  pose proof U as (rs & V & Len & El & _). subst l.
  assert (Len' : (length rs <= 1024)%nat) by (destruct Len as [X|X]; [apply ascii_iff in X; congruence|exact X]).
  destruct (puny_shape rs V Len' A) as (out & E & Ne & Nh).
  assert (Ea' : a_label (encode_all rs) = ace_prefix ++ below 128 rs ++ (if 0 <? N.of_nat (length (below 128 rs)) then [45] else []) ++ out).
  { unfold a_label, encode_label. rewrite A, E. reflexivity. }
  exists (below 128 rs ++ (if 0 <? N.of_nat (length (below 128 rs)) then [45] else [])), out.
  split; [rewrite Ea', <- app_assoc; reflexivity|]. split; [|split; [exact Ne|]].
  - intros c Hc. apply in_app_or in Hc as [Hc|Hc].
    + right. unfold below in Hc. apply filter_In in Hc as [Hc Lc]. apply in_split in Hc as (x & y & ->).
      unfold encode_all. rewrite flat_map_app. apply in_or_app. right. cbn [flat_map]. apply in_or_app. left.
      unfold encode. replace (c <? 128) with true by lia. left. reflexivity.
    + left. destruct (0 <? _); [destruct Hc as [<-|[]]; reflexivity|destruct Hc].
  - rewrite Ea in Ea'. apply app_inv_head in Ea'. apply Forall_forall. intros c Hc. destruct (alnum_dec c) as [X|(X1 & X2)]; [exact X|].
    exfalso. rewrite (decode_bad c a out) in Da; [discriminate| |exact Nh|exact Hc|apply digit_alnum; assumption].
    subst a. destruct (N.ltb_spec 0 (N.of_nat (length (below 128 rs)))) as [B|B].
    + right. exists (below 128 rs). reflexivity.
    + left. destruct (below 128 rs); [reflexivity|cbn [length] in B; lia].
Qed.

Lemma a_label_in : forall l c, unicode_label l -> In c (a_label l) -> c = 45 \/ alnum c \/ In c l.
Proof.
  intros l c U I. destruct (is_ascii l) eqn:A.
  - unfold a_label, encode_label in I. rewrite A in I. auto.
  - destruct (a_label_shape l U A) as (u & v & E & Hu & _ & Hv). rewrite E, !in_app_iff in I. destruct I as [I|[I|I]].
    + cbn in I. unfold alnum, letter. destruct I as [<-|[<-|[<-|[<-|[]]]]]; lia.
    + destruct (Hu _ I); auto.
    + rewrite Forall_forall in Hv. auto.
Qed.
Lemma a_label_start : forall l q, unicode_label l -> a_label l = 45 :: q -> exists q', l = 45 :: q'.
Proof.
  intros l q U E. destruct (is_ascii l) eqn:A.
  - unfold a_label, encode_label in E. rewrite A in E. eauto.
  - destruct (a_label_shape l U A) as (u & v & E' & _). rewrite E' in E. discriminate.
Qed.
Lemma a_label_end : forall l p, unicode_label l -> a_label l = p ++ [45] -> exists p', l = p' ++ [45].
Proof.
  intros l p U E. destruct (is_ascii l) eqn:A.
  - unfold a_label, encode_label in E. rewrite A in E. eauto.
  - exfalso. destruct (a_label_shape l U A) as (u & v & E' & _ & Ne & Hv). rewrite E' in E.
    destruct (exists_last Ne) as (v0 & c & ->). rewrite !app_assoc in E. apply app_inj_tail in E as [_ ->].
    apply Forall_app in Hv as [_ Hv]. inversion Hv as [|? ? X _]; subst. unfold alnum, letter, digit in X. lia.
Qed.

(** ** Hosts *)

Lemma host_front : forall f segs, Forall (fun g : seg => snd g = str ".") segs ->
  exists z, host f segs = f ++ z /\ (segs = [] -> z = []) /\ (segs <> [] -> exists z', z = 46 :: z').
Proof.
  intros f segs H. induction H as [|[l s] segs Hs H IH].
  - exists []. rewrite app_nil_r. split; [reflexivity|]. split; [reflexivity|contradiction].
  - cbn [snd] in Hs. subst s. destruct IH as (z & E & Z1 & Z2). exists (z ++ str "." ++ l). cbn [host]. rewrite E, <- app_assoc.
    split; [reflexivity|]. split; [discriminate|]. intros _. destruct segs as [|g segs].
    + rewrite Z1 by reflexivity. exists l. reflexivity.
    + destruct Z2 as (z' & ->); [discriminate|]. exists (z' ++ str "." ++ l). reflexivity.
Qed.
Lemma host_in : forall f segs c, Forall (fun g : seg => snd g = str ".") segs -> In c (host f segs) ->
  c = 46 \/ exists l, In l (labels f segs) /\ In c l.
Proof.
  intros f segs c H. unfold labels. induction H as [|[l s] segs Hs H IH]; cbn [host map app fst].
  - intros I. right. exists f. split; [left; reflexivity|exact I].
  - cbn [snd] in Hs. subst s. rewrite !in_app_iff. intros [I|[I|I]].
    + destruct (IH I) as [->|(k & Hk & Ik)]; [left; reflexivity|]. right. exists k. split; [right; exact Hk|exact Ik].
    + left. destruct I as [<-|[]]. reflexivity.
    + right. exists l. split; [left; reflexivity|exact I].
Qed.

Definition dot_end (s : bytes) : Prop := exists p, s = p ++ [46].
Definition two_dots (s : bytes) : Prop := exists p q, s = p ++ [46; 46] ++ q.
Lemma dot_end_host : forall f segs, ~ In 46 f -> Forall (fun g : seg => ~ In 46 (fst g) /\ snd g = str ".") segs ->
  dot_end (host f segs) <-> match segs with [] => False | g :: _ => fst g = [] end.
Proof.
  intros f [|[l s] segs] F H.
  - cbn [host]. split; [|intros []]. intros (p & ->). apply F. apply in_or_app. right. left. reflexivity.
  - inversion H as [|? ? (Nl & Hs) _]; subst. cbn [fst snd] in *. subst s. cbn [host]. split.
    + intros (p & E). destruct (rev_case _ l) as [->|(l0 & c & ->)]; [reflexivity|]. exfalso. rewrite !app_assoc in E.
      apply app_inj_tail in E as [_ ->]. apply Nl. apply in_or_app. right. left. reflexivity.
    + intros ->. exists (host f segs). reflexivity.
Qed.
Lemma two_dots_last : forall x l, ~ In 46 l -> two_dots (x ++ 46 :: l) <-> two_dots x \/ dot_end x.
Proof.
  intros x l N. split.
  - intros (p & q & E). change (p ++ [46; 46] ++ q) with (p ++ [46] ++ 46 :: q) in E. rewrite app_assoc in E.
    apply app_eq_app in E as (y & [(E1 & E2)|(E1 & E2)]).
    + destruct y as [|b y]; [right; exists p; rewrite E1, app_nil_r; reflexivity|]. injection E2 as <- _. left. exists p, y.
      rewrite E1, <- app_assoc. reflexivity.
    + destruct y as [|b y]; [right; exists p; rewrite app_nil_r in E1; congruence|]. exfalso. injection E2 as _ ->. apply N.
      apply in_or_app. right. left. reflexivity.
  - intros [(p & q & ->)|(p & ->)].
    + exists p, (q ++ 46 :: l). rewrite <- !app_assoc. reflexivity.
    + exists p, l. rewrite <- app_assoc. reflexivity.
Qed.
Lemma two_dots_host : forall f segs, dotted_segs f segs -> two_dots (host (a_label f) (map a_seg segs)) -> two_dots (host f segs).
Proof.
  intros f segs (Uf & Nf & H). induction segs as [|[l s] segs IH]; cbn [map host a_seg fst snd].
  - intros (p & q & E). exfalso. apply (a_label_no_dot f Uf Nf). rewrite E. apply in_or_app. right. left. reflexivity.
  - inversion H as [|? ? (Ul & Nl & Hs) H']; subst. cbn [fst snd] in *. subst s. specialize (IH H').
    change (str "." ++ a_label l) with (46 :: a_label l). change (str "." ++ l) with (46 :: l).
    rewrite (two_dots_last _ _ (a_label_no_dot l Ul Nl)), (two_dots_last _ _ Nl). intros [X|X]; [left; exact (IH X)|right].
    apply dot_end_host in X; [|apply a_label_no_dot; assumption|].
    + apply dot_end_host; [exact Nf|eapply Forall_impl; [|exact H']; cbv beta; tauto|].
      destruct segs as [|[k s] segs]; [exact X|]. cbn [map a_seg fst] in *. inversion H' as [|? ? (Uk & _) _]; subst. cbn [fst] in Uk.
      destruct k as [|c k]; [reflexivity|]. exfalso. apply (a_label_nonempty (c :: k)); [exact Uk|discriminate|exact X].
    + apply Forall_map. eapply Forall_impl; [|exact H']. intros g (A & B & C). cbn [a_seg fst snd]. split; [apply a_label_no_dot; assumption|exact C].
Qed.

Lemma host_ascii : forall f segs, dotted_segs f segs -> all_ascii (host (a_label f) (map a_seg segs)).
Proof.
  intros f segs (Uf & Nf & H). induction H as [|[l s] segs (Ul & Nl & Hs) H IH]; cbn [map host a_seg fst snd] in *.
  - apply a_label_ascii. exact Uf.
  - subst s. apply Forall_app. split; [exact IH|]. constructor; [reflexivity|]. apply a_label_ascii. exact Ul.
Qed.
Lemma seen_ascii : forall c, seen_char c -> 
  (c < 128 /\ encode c = [c] /\ c <> 45 /\ c <> 46 /\ ~ alnum c) \/ (exists b, In b (encode c) /\ 128 <= b).
Proof.
  intros c (I & _).
  assert (X : forallb (fun c => ((c <? 128) && negb (c =? 45) && negb (c =? 46)
    && negb ((65 <=? c) && (c <=? 90)) && negb ((97 <=? c) && (c <=? 122)) && negb ((48 <=? c) && (c <=? 57)))
    || existsb (fun b => 128 <=? b) (encode c)) forbidden = true) by (vm_compute; reflexivity).
  rewrite forallb_forall in X. specialize (X _ I). apply orb_true_iff in X as [X|X].
  - left. assert (L : c < 128) by lia. split; [exact L|]. split; [unfold encode; replace (c <? 128) with true by lia; reflexivity|].
    unfold alnum, letter, digit. lia.
  - right. apply existsb_exists in X as (b & Hb & L). exists b. split; [exact Hb|lia].
Qed.
Lemma sep_ascii : forall x, seen_sep x -> all_ascii x -> x = [46].
Proof. intros x [->|[->| ->]] A; [reflexivity|inversion A; lia|inversion A; lia]. Qed.

Lemma bad_ascii : forall f segs, dotted_segs f segs -> bad_text (host (a_label f) (map a_seg segs)) -> bad_text (host f segs).
Proof.
  intros f segs D H. pose proof (host_ascii f segs D) as As. pose proof D as (Uf & Nf & Hs).
  assert (Ds : Forall (fun g : seg => snd g = str ".") segs) by (eapply Forall_impl; [|exact Hs]; cbv beta; tauto).
  assert (Ds' : Forall (fun g : seg => snd g = str ".") (map a_seg segs)) by (apply Forall_map; exact Ds).
  destruct (host_front f segs Ds) as (z & Ez & Z1 & Z2). destruct (host_front (a_label f) (map a_seg segs) Ds') as (z' & Ez' & Z1' & Z2').
  destruct H as [(c & Sc & p & q & E)|[(q & E)|[(x & q & Sx & E)|[(p & E)|(p & x & y & q & Sx & Sy & E)]]]].
  - left. exists c. split; [exact Sc|]. rewrite E in As. apply Forall_app in As as [_ As]. apply Forall_app in As as [As _].
    destruct (seen_ascii c Sc) as [(L & Ec & N1 & N2 & N3)|(b & Hb & Lb)]; [|unfold all_ascii in As; rewrite Forall_forall in As; specialize (As _ Hb); lia].
    assert (I : In c (host (a_label f) (map a_seg segs))) by (rewrite E, Ec, !in_app_iff; right; left; left; reflexivity).
    apply (host_in _ _ _ Ds') in I as [X|(l & Hl & I)]; [contradiction|]. rewrite labels_a in Hl. apply in_map_iff in Hl as (k & <- & Hk).
    assert (Uk : unicode_label k).
    { unfold labels in Hk. apply in_app_or in Hk as [Hk|[<-|[]]]; [|exact Uf]. apply in_map_iff in Hk as (g & <- & Hg).
      rewrite Forall_forall in Hs. apply Hs. exact Hg. }
    destruct (a_label_in k c Uk I) as [X|[X|X]]; try contradiction. pose proof (labels_in _ _ _ _ Hk X) as Y. apply in_split in Y as (p' & q' & Y).
    exists p', q'. rewrite Ec. exact Y.
  - right. left. rewrite Ez' in E. destruct (a_label f) as [|c a] eqn:Ea.
    + exfalso. cbn [app] in E. destruct segs as [|g segs]; [rewrite Z1' in E by reflexivity; discriminate E|].
      destruct Z2' as (w & ->); [discriminate|]. discriminate E.
    + injection E as -> _. destruct (a_label_start f a Uf Ea) as (q' & ->). rewrite Ez. exists (q' ++ z). reflexivity.
  - right. right. left. rewrite E in As. apply Forall_app in As as [As _]. apply sep_ascii in As; [|exact Sx]. subst x.
    exists [46]. rewrite Ez' in E. destruct (a_label f) as [|c a] eqn:Ea.
    + assert (f = []) as ->. { destruct f as [|c f]; [reflexivity|]. exfalso. apply (a_label_nonempty (c :: f)); [exact Uf|discriminate|exact Ea]. }
      destruct segs as [|g segs]; [rewrite Z1' in E by reflexivity; discriminate E|]. destruct Z2 as (w & ->); [discriminate|].
      exists w. split; [left; reflexivity|exact Ez].
    + exfalso. injection E as -> _. apply (a_label_no_dot f Uf Nf). rewrite Ea. left. reflexivity.
  - right. right. right. left. destruct segs as [|[l s] segs]; cbn [map host a_seg fst snd] in E |- *.
    + apply a_label_end in E; [exact E|exact Uf].
    + inversion Hs as [|? ? (Ul & Nl & Es) _]; subst. cbn [fst snd] in *. subst s. destruct (rev_case _ (a_label l)) as [X|(a & c & X)].
      * exfalso. rewrite X, app_nil_r in E. apply app_inj_tail in E as [_ E]. discriminate E.
      * rewrite X, !app_assoc in E. apply app_inj_tail in E as [_ ->]. destruct (a_label_end l a Ul X) as (p' & ->).
        exists ((host f segs ++ str ".") ++ p'). rewrite !app_assoc. reflexivity.
  - right. right. right. right. rewrite E in As. apply Forall_app in As as [_ As]. apply Forall_app in As as [Ax As]. apply Forall_app in As as [Ay _].
    apply sep_ascii in Ax; [|exact Sx]. apply sep_ascii in Ay; [|exact Sy]. subst x y.
    destruct (two_dots_host f segs D) as (p' & q' & X); [exists p, q; rewrite E; reflexivity|].
    exists p', [46], [46], q'. split; [left; reflexivity|]. split; [left; reflexivity|]. rewrite X. reflexivity.
Qed.

Lemma v4_no_x : forall s, ipv4_text s -> ~ In 120 s.
Proof.
  assert (Sp : forall s, is_sep_text s -> ~ In 120 s).
  { intros s [->|[->|[->| ->]]] I; cbn in I; intuition discriminate. }
  assert (Oc : forall s, octet s -> ~ In 120 s).
  { intros s (_ & D & _) I. unfold all_digits in D. rewrite Forall_forall in D. specialize (D _ I). discriminate D. }
  intros s (a & w & -> & (a1 & s1 & a2 & s2 & a3 & s3 & a4 & -> & O1 & O2 & O3 & O4 & S1 & S2 & S3) & W) I.
  rewrite !in_app_iff in I. destruct I as [[I|[I|[I|[I|[I|[I|I]]]]]]|I]; try (exact (Sp _ S1 I)); try (exact (Sp _ S2 I)); try (exact (Sp _ S3 I));
    try (exact (Oc _ O1 I)); try (exact (Oc _ O2 I)); try (exact (Oc _ O3 I)); try (exact (Oc _ O4 I)).
  induction W as [|s w Hs W IH]; [destruct I|]. apply in_app_or in I as [I|I]; [exact (Sp _ Hs I)|exact (IH I)].
Qed.
Lemma host_same : forall f segs, dotted_segs f segs -> host (a_label f) (map a_seg segs) = host f segs \/ In 120 (host (a_label f) (map a_seg segs)).
Proof.
  assert (X : forall l, unicode_label l -> a_label l = l \/ In 120 (a_label l)).
  { intros l U. destruct (is_ascii l) eqn:A.
    - left. unfold a_label, encode_label. rewrite A. reflexivity.
    - right. destruct (a_label_shape l U A) as (u & v & -> & _). left. reflexivity. }
  intros f segs (Uf & Nf & H). induction H as [|[l s] segs (Ul & Nl & Hs) H IH]; cbn [map host a_seg fst snd] in *.
  - apply X. exact Uf.
  - rewrite !in_app_iff. destruct IH as [->|IH]; [|auto]. destruct (X l Ul) as [->|Y]; auto.
Qed.

(** ** Looked-up labels *)

Section Twins.
Variable rules : list bytes.
Hypothesis T : twinned rules.

Lemma longer_twin : forall path : list bytes, Forall unicode_label path ->
  (exists k, known rules (map a_label path ++ [k]) = true) <-> (exists k, known rules (path ++ [k]) = true).
Proof.
  intros path U. split; intros (k & K); apply known_iff in K as (rule & rest & I & E); rewrite <- app_assoc in E; cbn [app] in E.
  - destruct (twin_down rules T _ _ _ I E U) as (rule' & [|k' rest'] & I' & E' & X); [exfalso; pose proof (proj2 X eq_refl); discriminate|].
    exists k'. apply known_iff. exists rule', rest'. split; [exact I'|]. rewrite <- app_assoc. exact E'.
  - destruct (twin_up rules T _ _ _ I E U) as (rule' & [|k' rest'] & I' & E' & X); [exfalso; pose proof (proj2 X eq_refl); discriminate|].
    exists k'. apply known_iff. exists rule', rest'. split; [exact I'|]. rewrite <- app_assoc. exact E'.
Qed.
Lemma star_twin : forall path : list bytes, Forall unicode_label path -> known rules (map a_label path ++ [str "*"]) = known rules (path ++ [str "*"]).
Proof.
  intros path U. destruct star_label as (S1 & S2). rewrite <- S2 at 1. change [a_label (str "*")] with (map a_label [str "*"]). rewrite <- map_app.
  apply known_twin; [exact T|]. apply Forall_app. split; [exact U|]. constructor; [exact S1|constructor].
Qed.

Variable labs : list bytes.
Hypothesis U : Forall unicode_label labs.
Hypothesis D : forall l, In l labs -> decoded l = l /\ decoded (a_label l) = a_label l.

Lemma first_unicode : forall i, Forall unicode_label (firstn i labs).
Proof. intros i. pose proof U as X. rewrite <- (firstn_skipn i labs) in X. apply Forall_app in X as [X _]. exact X. Qed.
Lemma reach_plain : forall i, reach labs i = firstn i labs.
Proof.
  intros i. unfold reach. rewrite <- (map_id (firstn i labs)) at 2. apply map_ext_in. intros l Hl. apply D.
  rewrite <- (firstn_skipn i labs). apply in_or_app. left. exact Hl.
Qed.
Lemma reach_twin : forall i, reach (map a_label labs) i = map a_label (reach labs i).
Proof.
  intros i. rewrite reach_plain. unfold reach. rewrite firstn_map, map_map. apply map_ext_in. intros l Hl. apply D.
  rewrite <- (firstn_skipn i labs). apply in_or_app. left. exact Hl.
Qed.
Lemma reach_unicode : forall i, Forall unicode_label (reach labs i).
Proof. intros i. rewrite reach_plain. apply first_unicode. Qed.

Lemma looked_twin : forall i, looked_at rules (map a_label labs) i <-> looked_at rules labs i.
Proof.
  intros i. unfold looked_at. rewrite map_length. split; intros (L & H); (split; [exact L|]); intros j Hj; specialize (H j Hj) as (A & B).
  - rewrite !reach_twin in A, B. rewrite star_twin in A by apply reach_unicode. apply (proj1 (longer_twin _ (reach_unicode (S j)))) in B. auto.
  - rewrite !reach_twin. rewrite star_twin by apply reach_unicode. split; [exact A|]. apply longer_twin; [apply reach_unicode|exact B].
Qed.
Lemma last_twin : forall i, last_looked rules (map a_label labs) i <-> last_looked rules labs i.
Proof. intros i. unfold last_looked. rewrite !looked_twin. reflexivity. Qed.
Lemma nth_twin : forall i, nth i (map a_label labs) [] = [] -> nth i labs [] = [].
Proof.
  intros i. destruct (Nat.ltb_spec i (length labs)) as [L|L]; [|intros _; apply nth_overflow; exact L].
  rewrite (nth_indep (map a_label labs) [] (a_label [])) by (rewrite map_length; exact L). rewrite map_nth. intros E.
  destruct (nth i labs []) as [|c l] eqn:X; [reflexivity|]. exfalso. apply (a_label_nonempty (c :: l)); [|discriminate|exact E].
  rewrite <- X. rewrite Forall_forall in U. apply U. apply nth_In. exact L.
Qed.
Lemma empty_twin : empty_seen rules (map a_label labs) -> empty_seen rules labs.
Proof.
  intros (i & A & B & C). apply looked_twin in A. rewrite map_length in B. apply nth_twin in C. exists i. auto.
Qed.
End Twins.

Lemma checked_twin : forall rules first zs segs text', twinned rules -> dotted_segs first (zs ++ segs) -> dotted_segs first segs ->
  Forall unicode_label (labels first segs) -> (forall l, In l (labels first segs) -> decoded l = l /\ decoded (a_label l) = a_label l) ->
  checked rules (a_label first) (map a_seg zs) (map a_seg segs) text' ->
  exists text, checked rules first zs segs text /\ (bad_text text' -> bad_text text).
Proof.
  intros rules first zs segs text' T Dz Dg U D (m & M & H). rewrite labels_a in M, H.
  apply (last_twin rules T _ U D) in M. unfold checked.
  assert (Wk : walk rules [] (map a_label (labels first segs)) = walk rules [] (labels first segs)).
  { apply (walk_twin rules T _ []); [exact U|constructor|exact D]. }
  rewrite Wk in H. destruct (walk rules [] (labels first segs)) as [[k|] n].
  - rewrite map_length in H. destruct (n <=? length segs)%nat.
    + rewrite !(reach_twin _ D), star_twin, known_twin, skipn_map in H by (try exact T; apply (reach_unicode _ U D)).
      eexists. split; [exists m; split; [exact M|]; reflexivity|]. rewrite H. apply bad_ascii. apply dotted_skip. exact Dg.
    + eexists. split; [exists m; split; [exact M|]; reflexivity|]. rewrite H, <- map_app. apply bad_ascii. exact Dz.
  - rewrite skipn_map in H. eexists. split; [exists m; split; [exact M|]; reflexivity|]. rewrite H. apply bad_ascii. apply dotted_skip. exact Dg.
Qed.

Lemma c62_accepted : forall strict text private rules t ext p p' r scheme user raw h port path scheme' user' raw' h' port' path',
  used_rules (go_to_ascii strict) text private rules -> unicode_list text -> build_trie rules = Ret t ->
  extract ext t p = Ret (r, None) -> r_host_type r = HHostName ->
  url_parts ext p scheme user raw h port path -> url_parts ext p' scheme' user' raw' h' port' path' -> port_accepted port' ->
  dotted h -> unicode_rule h -> go_to_ascii strict h = Some h' ->
  exists r', extract ext t p' = Ret (r', None) /\ r_host_type r' = HHostName.
Proof.
  intros strict text private rules t ext p p' r sc us raw h po pa sc' us' raw' h' po' pa' Us Ul B X Ht Pa Pa' Ok' D U C.
  pose proof (used_twinned _ _ _ _ Us Ul) as T. destruct (labelled_total h) as (first & zs & segs & L).
  destruct (ascii_host strict _ _ _ _ _ L D U C) as (L' & Dz & Dg & Ulab & Nlab & Dec).
  assert (Ok : port_accepted po).
  { destruct (host_shape _ _ _ _ X Ht) as (sc1 & us1 & raw1 & h1 & po1 & pa1 & _ & _ & _ & _ & Pa1 & Ok & _).
    destruct (parts_unique _ _ _ _ _ _ _ _ _ _ _ _ _ _ Pa Pa1) as (_ & _ & _ & _ & -> & _). exact Ok. }
  assert (N4 : ~ ipv4_text h).
  { intros V. destruct (proj1 (c13 _ _ _ _ _ _ _ _ _ _ _ X Pa Ok) V) as (_ & Y). congruence. }
  assert (N4' : ~ ipv4_text h').
  { intros V. destruct (host_same first (zs ++ segs) Dz) as [E|E]; rewrite map_app in E;
      pose proof L as (Eh & _); pose proof L' as (Eh' & _); rewrite <- Eh' in E; [rewrite <- Eh in E; congruence|exact (v4_no_x _ V E)]. }
  destruct (c01 ext t p') as (r' & e' & X').
  destruct (c65 _ _ _ _ _ _ _ _ _ _ _ _ _ _ _ B X Pa Ok L N4) as [(_ & Y)|(Ne & tx & Ck & Un & [(_ & Y)|[(_ & _ & Y)|(Nb & Nd & _)]])]; try discriminate.
  destruct (c65 _ _ _ _ _ _ _ _ _ _ _ _ _ _ _ B X' Pa' Ok' L' N4') as [(Es & _)|(_ & tx' & Ck' & _ & [(Bt & _)|[(_ & Em & _)|(_ & _ & -> & Y)]])].
  - exfalso. apply Ne. rewrite labels_a in Es. exact (empty_twin rules T _ Ulab Dec Es).
  - exfalso. destruct (checked_twin _ _ _ _ _ T Dz Dg Ulab Dec Ck') as (tx2 & Ck2 & Bd). rewrite <- (Un _ Ck2) in Nb. exact (Nb (Bd Bt)).
  - exfalso. apply Nd. unfold no_domain in *. rewrite labels_a, (walk_twin rules T _ []) in Em; [|exact Ulab|constructor|exact Dec].
    destruct (walk rules [] (labels first segs)) as [[k|] n]; apply nth_twin in Em; assumption.
  - exists r'. auto.
Qed.
