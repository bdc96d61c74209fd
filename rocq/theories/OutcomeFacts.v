(** OutcomeFacts.v - the components of a host name, by cases and as parts of the host string. *)

From Verif Require Import Base BaseFacts Utf8 Utf8Facts Chars Str StrFacts Net Trie Extract Host HostFacts
  Walk WalkFacts Addr NetFacts Parse ParseFacts UrlSpec UrlFacts ExtractFacts.
From Coq Require Import ZifyBool ZifyNat ZifyN.

(** A host, its labels and the trailing separators: [zs] are empty labels on the right. *)
Definition stripped (h first : bytes) (zs segs : list seg) : Prop :=
  h = host first (zs ++ segs) /\ well_split first (zs ++ segs) /\ Forall (fun g => fst g = []) zs
  /\ match segs with [] => True | g :: _ => fst g <> [] end.

Lemma stripped_total : forall h, exists first zs segs, stripped h first zs segs
  /\ split_host h = (first, zs ++ segs) /\ strip_empty (zs ++ segs) = (zs, segs).
Proof.
  intros h. destruct (split_host h) as [first segs0] eqn:Es. destruct (strip_empty segs0) as [zs segs] eqn:Ez.
  pose proof (strip_empty_spec _ _ _ Ez) as (-> & A & B). pose proof Es as Es'.
  apply split_host_spec in Es' as (C & D). exists first, zs, segs. repeat split; auto; apply D.
Qed.

Lemma stripped_unique : forall h first zs segs first' zs' segs',
  stripped h first zs segs -> stripped h first' zs' segs' -> first = first' /\ zs = zs' /\ segs = segs'.
Proof.
  intros h first zs segs first' zs' segs' (-> & W & Z & H) (E & W' & Z' & H').
  destruct (split_unique _ _ _ _ W W' E) as [-> E2]. split; [reflexivity|]. clear E W W'.
  revert zs' Z' E2. induction Z as [|[l s] zs Hl Z IH]; intros zs' Z' E2; destruct Z' as [|[l' s'] zs' Hl' Z'].
  - auto.
  - exfalso. cbn [app] in E2. subst segs. cbn [fst] in *. contradiction.
  - exfalso. cbn [app] in E2. subst segs'. cbn [fst] in *. contradiction.
  - cbn [app] in E2. injection E2 as -> -> E2. destruct (IH _ Z' E2) as [-> ->]. auto.
Qed.

Lemma host_outcome_stripped : forall t u h ignore v first zs segs, stripped h first zs segs ->
  host_outcome t u h ignore v =
  match cwalk t false 0 0 0 (labels first segs) with
  | None => (u, Some ErrConsecutiveSeparators)
  | Some c =>
    if v then
      let dom := host first (skipn (c_prev c) segs) in
      (with_host_type (with_registered_domain (with_domain u dom) dom) HIPv4, None)
    else components u first zs segs ignore c
  end.
Proof.
  intros t u h ignore v first zs segs H.
  destruct (stripped_total h) as (f & z & s & H' & E1 & E2).
  destruct (stripped_unique _ _ _ _ _ _ _ H H') as (<- & <- & <-).
  unfold host_outcome. rewrite E1, E2. reflexivity.
Qed.

(** Labels looked at by the walk are not empty, except possibly the leftmost one. *)
Lemma cwalk_nonempty : forall labs node hs j start prev c i,
  cwalk node hs j start prev labs = Some c -> prev + i <= c_prev c -> S i < length labs -> nth i labs [] <> [].
Proof.
  induction labs as [|label more IH]; intros node hs j start prev c i H Hi Hl; [cbn [length] in Hl; lia|].
  cbn [cwalk] in H. destruct (is_nil label && negb (is_nil more)) eqn:E; [discriminate|].
  destruct i as [|i].
  - cbn [nth]. intros ->. cbn [is_nil andb] in E. destruct more; [cbn [length] in Hl; lia|discriminate].
  - cbn [nth]. destruct (child node (str "*")); [injection H as <-; cbn [c_prev] in Hi; lia|].
    destruct (child node (unescaped label)) as [val|]; [|injection H as <-; cbn [c_prev] in Hi; lia].
    destruct (is_nil (matches_of val) || is_nil more); [injection H as <-; cbn [c_prev] in Hi; lia|].
    eapply IH; [exact H|lia|cbn [length] in Hl; lia].
Qed.

Lemma labels_length : forall first segs, length (labels first segs) = S (length segs).
Proof. intros. unfold labels. rewrite app_length, map_length. apply Nat.add_1_r. Qed.

(** The invariants of the counts for the whole walk. *)
Record counts_ok (segs : list seg) (c : counts) : Prop := {
  ok_prev : c_prev c <= length segs;
  ok_cases : (c_start c = c_prev c /\ (c_sep c = c_prev c \/ c_sep c = S (c_prev c)))
             \/ (c_start c = S (c_prev c) /\ c_sep c = S (c_prev c));
  ok_end : c_has c = true -> c_end c < c_start c }.

Lemma cwalk_ok : forall t first segs c, cwalk t false 0 0 0 (labels first segs) = Some c -> counts_ok segs c.
Proof.
  intros t first segs c H. destruct (cwalk_inv _ _ _ _ _ _ H) as (A & B & C); [discriminate|].
  rewrite labels_length in A. constructor; auto; lia.
Qed.

(** ** Cases for host names *)

Definition the_domain (first : bytes) (segs : list seg) (c : counts) : bytes :=
  if c_has c then label_at first segs (c_sep c) else label_at first segs 0.
Definition the_suffix (segs : list seg) (c : counts) : bytes :=
  if c_has c then join (firstn (c_sep c - c_end c) (skipn (c_end c) segs)) else [].
(** The number of labels to the right of the subdomain. *)
Definition sub_from (c : counts) : nat := if c_has c then S (c_sep c) else 1.
Definition the_sub (first : bytes) (segs : list seg) (c : counts) : bytes :=
  if sub_from c <=? length segs then host first (skipn (sub_from c) segs) else [].
Definition the_registered (first : bytes) (segs : list seg) (c : counts) : bytes :=
  if c_has c then the_domain first segs c ++ sep_text_at segs (c_sep c - 1) ++ the_suffix segs c else [].
(** The text that is searched for invalid characters. *)
Definition checked_text (first : bytes) (segs : list seg) (c : counts) : bytes :=
  host first (skipn (if c_has c then c_start c else c_prev c) segs).

Lemma components_cases : forall scheme user port path first zs segs ignore c r e,
  counts_ok segs c -> components (base scheme user port path) first zs segs ignore c = (r, e) ->
  (e = Some ErrInvalidChars /\ r = base scheme user port path)
  \/ (e = Some ErrEmptyDomain /\ c_has c = true /\ c_sep c = S (length segs)
      /\ r = with_suffix (base scheme user port path) (host first (skipn (c_end c) segs)))
  \/ ((c_has c = true -> c_sep c <= length segs)
      /\ has_invalid_chars (checked_text first segs c) = false
      /\ ((the_domain first segs c <> [] /\ e = None
           /\ r = mkResult scheme (user_of user) (if ignore then [] else the_sub first segs c)
                    (the_domain first segs c) (the_suffix segs c) (the_registered first segs c)
                    (port_of port) path HHostName)
          \/ (the_domain first segs c = [] /\ e = Some ErrEmptyDomain
              /\ r = mkResult scheme (user_of user) (if ignore then [] else the_sub first segs c)
                    [] (the_suffix segs c) (the_registered first segs c)
                    (port_of port) path HNone))).
Proof.
  intros scheme user port path first zs segs ignore c r e OK H.
  destruct OK as [Hp Hc He]. unfold components in H.
  unfold the_domain, the_suffix, the_sub, the_registered, checked_text, sub_from.
  destruct (c_has c) eqn:Eh.
  - destruct (c_sep c =? S (length segs)) eqn:Ew.
    + apply Nat.eqb_eq in Ew. destruct (has_invalid_chars _).
      * injection H as <- <-. auto.
      * injection H as <- <-. right. left. auto.
    + apply Nat.eqb_neq in Ew. destruct (has_invalid_chars _) eqn:Ei.
      * injection H as <- <-. auto.
      * right. right. split; [intros _; lia|]. split; [first [exact Ei|reflexivity]|].
        unfold base, with_sub_domain, with_registered_domain, with_domain, with_suffix in H.
        cbn [r_scheme r_user_info r_sub_domain r_domain r_suffix r_registered_domain r_port r_path r_host_type] in H.
        unfold the_domain, the_suffix. rewrite Eh.
        destruct (label_at first segs (c_sep c)) as [|b d] eqn:Ed; cbn [is_nil] in H; injection H as <- <-.
        -- right. auto.
        -- left. split; [discriminate|]. split; reflexivity.
  - destruct (has_invalid_chars _) eqn:Ei.
    + injection H as <- <-. auto.
    + right. right. split; [discriminate|]. split; [first [exact Ei|reflexivity]|].
      unfold base, with_sub_domain, with_registered_domain, with_domain, with_suffix in H.
      cbn [r_scheme r_user_info r_sub_domain r_domain r_suffix r_registered_domain r_port r_path r_host_type] in H.
      destruct (label_at first segs 0) as [|b d] eqn:Ed; cbn [is_nil] in H; injection H as <- <-.
      * right. auto.
      * left. split; [discriminate|]. split; reflexivity.
Qed.

(** ** The components as parts of the host *)

Lemma empty_labels_seps : forall zs first segs, well_split first (zs ++ segs) -> Forall (fun g => fst g = []) zs ->
  exists tail, host first (zs ++ segs) = host first segs ++ tail /\ seps tail.
Proof.
  induction zs as [|[l s] zs IH]; intros first segs W Z; cbn [app host].
  - exists []. rewrite app_nil_r. split; [reflexivity|constructor].
  - inversion Z as [|? ? Hl Z']; subst. cbn [fst] in Hl. subst l. rewrite app_nil_r.
    destruct W as (Wf & Ws). inversion Ws as [|? ? (A & B) Ws']; subst.
    destruct (IH first segs (conj Wf Ws') Z') as (tail & -> & T). exists (tail ++ s).
    rewrite <- app_assoc. split; [reflexivity|]. clear - T B. cbn [snd] in B.
    induction T as [|x w Hx T IH]; cbn [app].
    + rewrite <- (app_nil_r s). constructor; [exact B|constructor].
    + rewrite <- app_assoc. constructor; auto.
Qed.

Lemma sep_ok : forall first segs i, well_split first segs -> i < length segs -> is_sep_text (sep_text_at segs i).
Proof. intros first segs i W H. apply (seg_ok first segs W i H). Qed.

Lemma label_no_sep : forall first segs i, well_split first segs -> no_sep (label_at first segs i).
Proof.
  intros first segs i W. unfold label_at. destruct (Nat.lt_ge_cases i (length segs)) as [H|H].
  - rewrite nth_labels by exact H. apply (seg_ok first segs W i H).
  - destruct (Nat.eq_dec i (length segs)) as [->|].
    + rewrite nth_labels_last. apply W.
    + rewrite nth_overflow; [apply no_sep_nil|]. rewrite labels_length. lia.
Qed.

(** The text of the labels from i on: what precedes label i, and label i. *)
Definition before (first : bytes) (segs : list seg) (i : nat) : bytes :=
  if S i <=? length segs then host first (skipn (S i) segs) ++ sep_text_at segs i else [].

Lemma text_label : forall first segs i, i <= length segs ->
  host first (skipn i segs) = before first segs i ++ label_at first segs i.
Proof.
  intros first segs i H. unfold before, label_at, sep_text_at. destruct (S i <=? length segs) eqn:E.
  - apply Nat.leb_le in E. rewrite nth_labels by lia.
    rewrite (skipn_cons_nth _ segs i ([],[])) by lia. destruct (nth i segs ([], [])) as [l s] eqn:En.
    cbn [host fst snd]. rewrite <- app_assoc. reflexivity.
  - apply Nat.leb_gt in E. assert (i = length segs) by lia. subst i. rewrite skipn_all, nth_labels_last. reflexivity.
Qed.

(** Text of labels i.. as: labels j.., separator, labels i..j-1 *)
Lemma text_join : forall first segs i j, i < j -> j <= length segs ->
  host first (skipn i segs) = host first (skipn j segs) ++ sep_text_at segs (j - 1)
                              ++ join (firstn (j - i) (skipn i segs)).
Proof.
  intros first segs i j H Hj. rewrite <- (firstn_skipn (j - i) (skipn i segs)) at 1.
  rewrite skipn_skipn'. replace (i + (j - i)) with j by lia.
  rewrite join_spec.
  - f_equal. f_equal. unfold sep_text_at. rewrite last_nth, firstn_length, skipn_length.
    replace (Nat.min (j - i) (length segs - i)) with (j - i) by lia.
    rewrite nth_firstn_lt by lia. rewrite nth_skipn'. f_equal. f_equal. lia.
  - intros E. apply (f_equal (@length seg)) in E. rewrite firstn_length, skipn_length in E. cbn [length] in E. lia.
Qed.

Lemma join_nonempty : forall a, a <> [] -> Forall (fun g : seg => fst g <> []) a -> join a <> [].
Proof.
  induction a as [|[l s] a IH]; intros H F; [contradiction|]. inversion F; subst. cbn [fst] in H2.
  destruct a as [|g a]; [exact H2|]. change (join ((l, s) :: g :: a)) with (join (g :: a) ++ s ++ l).
  intros E. apply app_eq_nil in E as [E _]. apply IH in E; [contradiction|discriminate|assumption].
Qed.

(** The suffix of a walk that found one is not empty. *)
Lemma suffix_nonempty : forall t first segs c, cwalk t false 0 0 0 (labels first segs) = Some c ->
  c_has c = true -> c_sep c <= length segs -> the_suffix segs c <> [].
Proof.
  intros t first segs c H Hh Hs. pose proof (cwalk_ok _ _ _ _ H) as [Hp Hc He]. specialize (He Hh).
  unfold the_suffix. rewrite Hh. apply join_nonempty.
  - intros E. apply (f_equal (@length seg)) in E. rewrite firstn_length, skipn_length in E. cbn [length] in E. lia.
  - apply Forall_forall. intros g Hg.
    destruct (In_nth _ _ ([],[]) Hg) as (k & Hk & <-). rewrite firstn_length, skipn_length in Hk.
    rewrite nth_firstn_lt by lia. rewrite nth_skipn'. rewrite <- (nth_labels first) by lia.
    eapply (cwalk_nonempty _ _ _ _ _ _ _ _ H).
    + lia.
    + rewrite labels_length. lia.
Qed.

(** The decomposition of the host with respect to the reported components. *)
Lemma host_parts : forall t h first zs segs c, stripped h first zs segs ->
  cwalk t false 0 0 0 (labels first segs) = Some c -> (c_has c = true -> c_sep c <= length segs) ->
  exists pre sep rest,
    h = pre ++ the_domain first segs c ++ sep ++ the_suffix segs c ++ rest
    /\ ((pre = [] /\ the_sub first segs c = []) \/ exists s, is_sep_text s /\ pre = the_sub first segs c ++ s)
    /\ no_sep (the_domain first segs c)
    /\ (c_has c = true -> is_sep_text sep /\ the_suffix segs c <> []
                          /\ the_registered first segs c = the_domain first segs c ++ sep ++ the_suffix segs c)
    /\ (c_has c = false -> sep = [] /\ the_suffix segs c = [] /\ the_registered first segs c = [])
    /\ (rest = [] \/ exists s q, is_sep_text s /\ rest = s ++ q)
    /\ (c_has c = false \/ c_end c = 0 -> seps rest).
Proof.
  intros t h first zs segs c (-> & W & Z & Hhd) Hw Hs.
  pose proof (cwalk_ok _ _ _ _ Hw) as [Hp Hc He].
  destruct (empty_labels_seps zs first segs W Z) as (tail & Eh & T).
  assert (W' : well_split first segs) by (eapply well_split_app; eauto).
  assert (Ttail : tail = [] \/ exists s q, is_sep_text s /\ tail = s ++ q).
  { destruct T as [|s w Hs' T]; [auto|]. right. exists s, w. auto. }
  rewrite Eh. pose proof (suffix_nonempty _ _ _ _ Hw) as Hne. unfold the_registered, the_sub, sub_from.
  unfold the_domain, the_suffix in *. destruct (c_has c) eqn:Ehas.
  - specialize (Hs eq_refl). specialize (He eq_refl). specialize (Hne eq_refl Hs).
    assert (Hse : c_end c < c_sep c) by lia.
    assert (Eb : (before first segs (c_sep c) = [] /\ (if S (c_sep c) <=? length segs then host first (skipn (S (c_sep c)) segs) else []) = [])
                 \/ exists s, is_sep_text s /\ before first segs (c_sep c) = (if S (c_sep c) <=? length segs then host first (skipn (S (c_sep c)) segs) else []) ++ s).
    { unfold before. destruct (S (c_sep c) <=? length segs) eqn:E; [right|left; auto].
      apply Nat.leb_le in E. exists (sep_text_at segs (c_sep c)). split; [|reflexivity]. eapply sep_ok; eauto. }
    set (sfx := join (firstn (c_sep c - c_end c) (skipn (c_end c) segs))) in *.
    (* the part right of the suffix *)
    assert (Er : exists r0, host first segs = host first (skipn (c_end c) segs) ++ r0
                 /\ (r0 = [] \/ exists s q, is_sep_text s /\ r0 = s ++ q) /\ (c_end c = 0 -> r0 = [])).
    { destruct (c_end c) as [|k] eqn:Ek.
      - exists []. rewrite app_nil_r. auto.
      - exists (sep_text_at segs k ++ join (firstn (S k) segs)).
        pose proof (text_join first segs 0 (S k) ltac:(lia) ltac:(lia)) as X. cbn [skipn] in X.
        replace (S k - 1) with k in X by lia. replace (S k - 0) with (S k) in X by lia.
        split; [exact X|]. split; [|discriminate]. right. eexists _, _. split; [|reflexivity]. eapply sep_ok; eauto. lia. }
    destruct Er as (r0 & Er & Hr0 & Hr0').
    exists (before first segs (c_sep c)), (sep_text_at segs (c_sep c - 1)), (r0 ++ tail).
    split.
    { rewrite Er. rewrite (text_join first segs (c_end c) (c_sep c)) by lia.
      rewrite (text_label first segs (c_sep c)) by lia. fold sfx. rewrite <- !app_assoc. reflexivity. }
    split; [exact Eb|]. split; [apply label_no_sep; exact W'|].
    split. { intros _. split; [eapply sep_ok; eauto; lia|]. split; [exact Hne|reflexivity]. }
    split; [discriminate|]. split.
    { destruct Hr0 as [->|(s & q & Hs' & ->)]; [exact Ttail|]. right. exists s, (q ++ tail).
      rewrite <- app_assoc. auto. }
    intros [|X]; [discriminate|]. rewrite (Hr0' X). exact T.
  - exists (before first segs 0), [], tail. split.
    { pose proof (text_label first segs 0 ltac:(lia)) as X. cbn [skipn] in X. rewrite X, <- !app_assoc. reflexivity. }
    split.
    { unfold before. destruct (1 <=? length segs) eqn:E; [right|left; auto].
      apply Nat.leb_le in E. exists (sep_text_at segs 0). split; [|reflexivity]. eapply sep_ok; eauto. }
    split; [apply label_no_sep; exact W'|]. split; [discriminate|]. split; [auto|]. split; [exact Ttail|auto].
Qed.

(** ** Extract on unbracketed hosts, by cases *)

Lemma outcome_cases : forall t scheme user port path h ignore v r e,
  host_outcome t (base scheme user port path) h ignore v = (r, e) ->
  exists first zs segs, stripped h first zs segs /\
  ((e = Some ErrConsecutiveSeparators /\ r = base scheme user port path
    /\ cwalk t false 0 0 0 (labels first segs) = None)
   \/ exists c, cwalk t false 0 0 0 (labels first segs) = Some c /\ counts_ok segs c /\
     ((v = true /\ e = None
       /\ r = mkResult scheme (user_of user) [] (host first (skipn (c_prev c) segs)) []
                (host first (skipn (c_prev c) segs)) (port_of port) path HIPv4)
      \/ (v = false /\ components (base scheme user port path) first zs segs ignore c = (r, e)))).
Proof.
  intros t scheme user port path h ignore v r e H.
  destruct (stripped_total h) as (first & zs & segs & S & _). exists first, zs, segs. split; [exact S|].
  rewrite (host_outcome_stripped _ _ _ _ _ _ _ _ S) in H.
  destruct (cwalk t false 0 0 0 (labels first segs)) as [c|] eqn:E.
  - right. exists c. split; [reflexivity|]. split; [eapply cwalk_ok; eauto|]. destruct v.
    + injection H as <- <-. left. auto.
    + right. auto.
  - injection H as <- <-. left. auto.
Qed.
