(** WalkFacts.v - the index based suffix loop and component code of Extract computes the
    index-free form of Walk.v. *)

From Verif Require Import Base BaseFacts Utf8 Chars Utf8Facts Str StrFacts Net Trie Extract Host HostFacts Walk.
From Coq Require Import ZifyBool ZifyNat ZifyN.

Lemma is_nil_len : forall A (l : list A), (len l =? 0)%Z = is_nil l.
Proof. intros A l. rewrite len_eqb_zero. reflexivity. Qed.

Lemma skipn_cons_nth : forall A (l : list A) i d, i < length l -> skipn i l = nth i l d :: skipn (S i) l.
Proof.
  induction l as [|x l IH]; intros i d H; [cbn [length] in H; lia|].
  destruct i as [|i]; [reflexivity|]. cbn [skipn nth]. cbn [length] in H.
  rewrite (IH i d) by lia. reflexivity.
Qed.

Lemma well_split_skipn : forall i first segs, well_split first segs -> well_split first (skipn i segs).
Proof.
  intros i first segs (A & B). split; [exact A|].
  rewrite <- (firstn_skipn i segs) in B. apply Forall_app in B as [_ B]. exact B.
Qed.

Lemma well_split_app : forall first a b, well_split first (a ++ b) -> well_split first b.
Proof. intros first a b (A & B). split; [exact A|]. apply Forall_app in B as [_ B]. exact B. Qed.

Ltac fields := cbn [w_has_suffix w_sep_idx w_suffix_start w_suffix_end w_previous_sep c_has c_end c_sep c_start c_prev].

Section Loop.
Variables (first : bytes) (segs : list seg) (tail : bytes).
Hypothesis W : well_split first segs.

Definition text (i : nat) : bytes := host first (skipn i segs).
(** byte index of the separator with i labels to its right *)
Definition pos (i : nat) : Z := if i <=? length segs then len (text i) else (-1)%Z.

Notation netloc := (host first segs ++ tail).

Lemma text_step : forall i, i < length segs ->
  text i = text (S i) ++ snd (nth i segs ([],[])) ++ fst (nth i segs ([],[])).
Proof.
  intros i H. unfold text. rewrite (skipn_cons_nth _ segs i ([],[])) by exact H.
  destruct (nth i segs ([],[])) as [l s]. reflexivity.
Qed.

Lemma seg_ok : forall i, i < length segs ->
  no_sep (fst (nth i segs ([],[]))) /\ is_sep_text (snd (nth i segs ([],[]))).
Proof.
  intros i H. destruct W as [_ B]. rewrite Forall_forall in B. apply B. apply nth_In. exact H.
Qed.

Lemma pos_text : forall i, i <= length segs -> pos i = len (text i).
Proof. intros i H. unfold pos. replace (i <=? length segs) with true by lia. reflexivity. Qed.

Lemma pos_top : pos (S (length segs)) = (-1)%Z.
Proof. unfold pos. replace (S (length segs) <=? length segs) with false by lia. reflexivity. Qed.

Lemma pos_step : forall i, i < length segs -> (len (text (S i)) < len (text i))%Z.
Proof.
  intros i H. rewrite (text_step i H). autorewrite with len.
  pose proof (sep_text_len _ (proj2 (seg_ok i H))). pose proof (len_nonneg _ (fst (nth i segs ([],[])))). lia.
Qed.

Lemma text_lt : forall i j, i < j -> j <= length segs -> (len (text j) < len (text i))%Z.
Proof.
  intros i j H. induction H as [|j H IH]; intros Hj; [apply pos_step; lia|].
  pose proof (pos_step j ltac:(lia)). specialize (IH ltac:(lia)). lia.
Qed.

Lemma text_prefix : forall i, i <= length segs -> exists q, netloc = text i ++ q.
Proof.
  intros i. induction i as [|i IH]; intros H.
  - exists tail. reflexivity.
  - destruct (IH ltac:(lia)) as (q & ->). rewrite (text_step i) by lia.
    rewrite <- app_assoc. eexists. reflexivity.
Qed.

Lemma text_all : text (length segs) = first.
Proof. unfold text. rewrite skipn_all. reflexivity. Qed.

Lemma labels_skipn : forall i, i < length segs ->
  labels first (skipn i segs) = fst (nth i segs ([],[])) :: labels first (skipn (S i) segs).
Proof.
  intros i H. unfold labels. rewrite (skipn_cons_nth _ segs i ([],[])) by exact H. reflexivity.
Qed.

Lemma labels_all : labels first (skipn (length segs) segs) = [first].
Proof. rewrite skipn_all. reflexivity. Qed.

Lemma labels_ne : forall s, is_nil (labels first s) = false.
Proof. intros s. unfold labels. destruct s; reflexivity. Qed.

(** The counts describe the loop's final indices. *)
Definition wrel (c : counts) (w : walk) : Prop :=
  w_has_suffix w = c_has c /\ w_previous_sep w = pos (c_prev c) /\ c_prev c <= length segs
  /\ (c_has c = true -> w_sep_idx w = pos (c_sep c) /\ w_suffix_start w = pos (c_start c)
                        /\ w_suffix_end w = pos (c_end c))
  /\ (c_has c = false -> w_suffix_end w = pos 0).

Ltac wsplit := unfold wrel; fields; split; [reflexivity|]; split; [try reflexivity|]; split; [lia|]; split; intros Hx.

Lemma suffix_loop_counts : forall fuel prev node hs j start hl ss se,
  prev <= length segs -> length segs - prev < fuel ->
  (hl = true \/ (prev < length segs -> is_nil (fst (nth prev segs ([],[]))) = false)) ->
  (hs = true -> se = pos j /\ ss = pos start /\ 0 < prev) ->
  (hs = false -> se = pos 0) ->
  match cwalk node hs j start prev (labels first (skipn prev segs)) with
  | None => suffix_loop fuel netloc node hs hl (pos prev) ss se = Ret (inl ErrConsecutiveSeparators)
  | Some c => exists w, suffix_loop fuel netloc node hs hl (pos prev) ss se = Ret (inr w) /\ wrel c w
  end.
Proof.
  induction fuel as [|fuel IH]; intros prev node hs j start hl ss se Hprev Hfuel Hhl Hhs Hnh; [lia|].
  destruct (Nat.eq_dec prev (length segs)) as [Hlast|Hlast].
  - (* leftmost label *)
    assert (Hcw : labels first (skipn prev segs) = [first]) by (subst prev; apply labels_all).
    rewrite Hcw. cbn [cwalk is_nil negb andb]. rewrite !andb_false_r.
    cbn [suffix_loop].
    assert (Hslice : slice netloc 0 (pos prev) = Ret first).
    { destruct (text_prefix prev Hprev) as (q & E). rewrite E.
      rewrite pos_text by exact Hprev. rewrite <- text_all, <- Hlast. apply slice_prefix. reflexivity. }
    rewrite !Hslice. cbn [bind].
    assert (Hli : last_index_any first SEPS = (-1)%Z) by (apply last_sep_none; apply W).
    rewrite Hli. change (-1 =? -1)%Z with true. cbn [negb andb bind].
    assert (Htop : pos (S prev) = (-1)%Z) by (subst prev; apply pos_top).
    destruct (child node (str "*")) as [wc|].
    + destruct (child node (str "!" ++ first)) as [ex|]; eexists; (split; [reflexivity|]); wsplit.
      * destruct (Hhs Hx) as (-> & -> & _). auto.
      * apply Hnh. exact Hx.
      * destruct (Hhs Hx) as (-> & -> & _). auto.
      * apply Hnh. exact Hx.
    + change (match query_unescape first with inr l => l | inl _ => [] end) with (unescaped first).
      destruct (child node (unescaped first)) as [val|].
      * rewrite !orb_true_r. destruct hs; cbn [orb negb andb].
        -- eexists. split; [reflexivity|]. wsplit; [|discriminate].
           destruct (Hhs eq_refl) as (-> & _ & _). auto.
        -- destruct (end_of val); eexists; (split; [reflexivity|]); wsplit; try discriminate; auto.
      * eexists. split; [reflexivity|]. wsplit; [|apply Hnh; exact Hx].
        destruct (Hhs Hx) as (-> & -> & H0).
        destruct (Z.eqb_spec (pos prev) (len netloc)) as [E|E]; [|auto]. exfalso.
        rewrite pos_text in E by exact Hprev. pose proof (text_lt 0 prev H0 Hprev).
        autorewrite with len in E. pose proof (len_nonneg _ tail). change (text 0) with (host first segs) in *. lia.
  - assert (Hp : prev < length segs) by lia.
    rewrite (labels_skipn prev Hp). cbn [cwalk]. rewrite labels_ne. cbn [negb]. rewrite andb_true_r.
    destruct (seg_ok prev Hp) as (Hl & Hs). pose proof (text_step prev Hp) as Ht.
    set (label := fst (nth prev segs ([],[]))) in *. set (sep := snd (nth prev segs ([],[]))) in *.
    cbn [suffix_loop]. rewrite (pos_text prev) by exact Hprev.
    destruct (text_prefix prev Hprev) as (q & E).
    assert (Hslice : slice netloc 0 (len (text prev)) = Ret (text prev)).
    { rewrite E. apply slice_prefix. reflexivity. }
    rewrite Hslice. cbn [bind].
    assert (Hli : last_index_any (text prev) SEPS = len (text (S prev))).
    { rewrite Ht. apply last_sep_some; assumption. }
    rewrite Hli. pose proof (len_nonneg _ (text (S prev))) as Hnn.
    replace (len (text (S prev)) =? -1)%Z with false by lia. cbn [negb bind andb].
    destruct (sep_text_size sep Hs) as (b & st & Esep & Hsize).
    assert (Hidx : index netloc (len (text (S prev))) = Ret b).
    { rewrite E, Ht, Esep, <- !app_assoc. cbn [app]. apply index_mid. reflexivity. }
    rewrite Hidx. cbn [bind]. rewrite Hsize.
    assert (Hlab : slice netloc (len (text (S prev)) + len sep) (len (text prev)) = Ret label).
    { rewrite E, Ht. replace ((text (S prev) ++ sep ++ label) ++ q) with ((text (S prev) ++ sep) ++ label ++ q)
        by (rewrite <- !app_assoc; reflexivity).
      apply slice_mid; autorewrite with len; lia. }
    rewrite Hlab. cbn [bind]. rewrite is_nil_len.
    destruct (is_nil label) eqn:Enil.
    + (* empty label *)
      destruct Hhl as [->|H]; [cbn [negb]; reflexivity|].
      specialize (H Hp). congruence.
    + rewrite orb_true_r.
      assert (HposS : pos (S prev) = len (text (S prev))) by (apply pos_text; lia).
      assert (Hpos : len (text prev) = pos prev) by (symmetry; apply pos_text; lia).
      rewrite <- HposS, Hpos.
      destruct (child node (str "*")) as [wc|].
      * destruct (child node (str "!" ++ label)) as [ex|]; eexists; (split; [reflexivity|]); wsplit.
        -- destruct (Hhs Hx) as (-> & -> & _). auto.
        -- apply Hnh. exact Hx.
        -- destruct (Hhs Hx) as (-> & -> & _). auto.
        -- apply Hnh. exact Hx.
      * change (match query_unescape label with inr l => l | inl _ => [] end) with (unescaped label).
        destruct (child node (unescaped label)) as [val|].
        -- rewrite is_nil_len, !orb_false_r.
           destruct (is_nil (matches_of val)) eqn:Eleaf; cbn [orb].
           ++ destruct hs; cbn [orb negb andb].
              ** eexists. split; [reflexivity|]. wsplit; [|discriminate].
                 destruct (Hhs eq_refl) as (-> & _ & _). auto.
              ** destruct (end_of val); eexists; (split; [reflexivity|]); wsplit; try discriminate; auto.
           ++ destruct hs; cbn [orb negb andb].
              ** apply IH; auto; try lia; intros _; destruct (Hhs eq_refl) as (-> & _ & _); repeat split; auto; lia.
              ** destruct (end_of val).
                 --- apply IH; auto; try lia; try discriminate; intros _; repeat split; auto; lia.
                 --- apply IH; auto; try lia; try discriminate.
        -- eexists. split; [reflexivity|]. wsplit; [|apply Hnh; exact Hx].
           destruct (Hhs Hx) as (-> & -> & H0).
           destruct (Z.eqb_spec (pos prev) (len netloc)) as [Ex|Ex]; [|auto].
           exfalso. rewrite pos_text in Ex by exact Hprev. pose proof (text_lt 0 prev H0 Hprev).
           autorewrite with len in Ex. pose proof (len_nonneg _ tail). change (text 0) with (host first segs) in *. lia.
Qed.

End Loop.

Lemma cwalk_inv : forall labs node hs j prev c,
  cwalk node hs j prev prev labs = Some c -> (hs = true -> j < prev) ->
  prev <= c_prev c < prev + length labs
  /\ ((c_start c = c_prev c /\ (c_sep c = c_prev c \/ c_sep c = S (c_prev c)))
      \/ (c_start c = S (c_prev c) /\ c_sep c = S (c_prev c)))
  /\ (c_has c = true -> c_end c < c_start c).
Proof.
  induction labs as [|label more IH]; intros node hs j prev c H Hj; cbn [cwalk] in H; [discriminate|].
  destruct (is_nil label && negb (is_nil more)); [discriminate|].
  destruct (child node (str "*")) as [wc|].
  { injection H as <-. fields. cbn [length]. split; [lia|]. split; [|exact Hj]. left.
    split; [reflexivity|].
    destruct (child node (33%N :: label)); auto. }
  destruct (child node (unescaped label)) as [val|].
  - destruct (is_nil (matches_of val) || is_nil more).
    + injection H as <-. fields. cbn [length]. split; [lia|]. split; [right; auto|].
      destruct hs; cbn [negb andb orb]; intros He; [specialize (Hj eq_refl); lia|].
      rewrite He. lia.
    + apply IH in H.
      * cbn [length]. destruct H as (A & B & C). split; [lia|]. split; [exact B|exact C].
      * destruct hs; cbn [negb andb orb]; intros He; [specialize (Hj eq_refl); lia|]. rewrite He. lia.
  - injection H as <-. fields. cbn [length]. split; [lia|]. split; [left; auto|exact Hj].
Qed.

Lemma strip_empty_spec : forall segs zs segs', strip_empty segs = (zs, segs') ->
  segs = zs ++ segs' /\ Forall (fun g => fst g = []) zs
  /\ match segs' with [] => True | g :: _ => fst g <> [] end.
Proof.
  induction segs as [|[l s] segs IH]; intros zs segs' H; cbn [strip_empty] in H.
  - injection H as <- <-. auto.
  - destruct l as [|b l].
    + destruct (strip_empty segs) as [a b] eqn:E. injection H as <- <-.
      destruct (IH a b eq_refl) as (-> & A & B). cbn [app]. auto.
    + injection H as <- <-. cbn [app fst]. split; [reflexivity|]. split; [constructor|discriminate].
Qed.

Lemma suffix_loop_skip : forall zs first segs tail fuel node ss se,
  well_split first (zs ++ segs) -> Forall (fun g => fst g = []) zs ->
  length zs <= fuel -> se = len (host first (zs ++ segs)) ->
  suffix_loop fuel (host first (zs ++ segs) ++ tail) node false false (len (host first (zs ++ segs))) ss se
  = suffix_loop (fuel - length zs) (host first (zs ++ segs) ++ tail) node false false
                (len (host first segs)) ss (len (host first segs)).
Proof.
  induction zs as [|[l s] zs IH]; intros first segs tail fuel node ss se W Hz Hf ->.
  - cbn [app length]. rewrite Nat.sub_0_r. reflexivity.
  - destruct fuel as [|fuel]; [cbn [length] in Hf; lia|].
    inversion Hz as [|? ? Hl Hz']; subst. cbn [fst] in Hl. subst l.
    destruct W as (Wf & Ws). cbn [app] in Ws. inversion Ws as [|? ? (_ & Hs) Ws']; subst. cbn [snd] in Hs.
    cbn [app host suffix_loop]. rewrite app_nil_r.
    set (H0 := host first (zs ++ segs)) in *.
    rewrite slice_prefix by reflexivity. cbn [bind].
    assert (Hli : last_index_any (H0 ++ s) SEPS = len H0).
    { rewrite <- (app_nil_r s). apply last_sep_some; [exact Hs|apply no_sep_nil]. }
    rewrite Hli. pose proof (len_nonneg _ H0). replace (len H0 =? -1)%Z with false by lia. cbn [negb bind].
    destruct (sep_text_size s Hs) as (b & st & Es & Hsize).
    assert (Hidx : index ((H0 ++ s) ++ tail) (len H0) = Ret b).
    { rewrite Es, <- app_assoc. cbn [app]. apply index_mid. reflexivity. }
    rewrite Hidx. cbn [bind]. rewrite Hsize.
    assert (Hlab : slice ((H0 ++ s) ++ tail) (len H0 + len s) (len (H0 ++ s)) = Ret []).
    { apply (slice_mid _ (H0 ++ s) [] tail); autorewrite with len; lia. }
    rewrite Hlab. cbn [bind]. rewrite len_nil. change (0 =? 0)%Z with true. cbn [andb negb].
    cbn [length]. rewrite Nat.sub_succ. rewrite <- app_assoc.
    apply IH; auto; [split; assumption|cbn [length] in Hf; lia].
Qed.

Lemma host_prefix : forall zs first segs, exists tail, host first (zs ++ segs) = host first segs ++ tail.
Proof.
  induction zs as [|[l s] zs IH]; intros first segs.
  - exists []. rewrite app_nil_r. reflexivity.
  - destruct (IH first segs) as (t & E). cbn [app host]. rewrite E, <- app_assoc. eexists. reflexivity.
Qed.

Lemma host_length : forall first segs, well_split first segs -> (length segs <= length (host first segs)).
Proof.
  intros first segs (_ & W). induction W as [|[l s] segs (_ & Hs) W IH]; cbn [host length]; [lia|].
  rewrite !app_length. cbn [snd] in Hs. pose proof (sep_text_len s Hs). unfold len in *. lia.
Qed.

(** The suffix loop of Extract, from its initial state. *)
Lemma suffix_loop_spec : forall t first zs segs,
  well_split first (zs ++ segs) -> Forall (fun g => fst g = []) zs ->
  match segs with [] => True | g :: _ => fst g <> [] end ->
  let h := host first (zs ++ segs) in
  match cwalk t false 0 0 0 (labels first segs) with
  | None => suffix_loop (S (length h)) h t false false (len h) (len h) (len h)
            = Ret (inl ErrConsecutiveSeparators)
  | Some c => exists w, suffix_loop (S (length h)) h t false false (len h) (len h) (len h) = Ret (inr w)
                        /\ wrel first segs c w
  end.
Proof.
  intros t first zs segs W Hz Hhd h.
  assert (Hlen : length zs + length segs <= length h).
  { pose proof (host_length _ _ W) as H. rewrite app_length in H. exact H. }
  pose proof (suffix_loop_skip zs first segs [] (S (length h)) t (len h) (len h) W Hz ltac:(lia) eq_refl) as Hskip.
  rewrite app_nil_r in Hskip. fold h in Hskip. rewrite Hskip.
  destruct (host_prefix zs first segs) as (tail & E).
  assert (W' : well_split first segs) by (eapply well_split_app; eauto).
  pose proof (suffix_loop_counts first segs tail W' (S (length h) - length zs) 0 t false 0 0 false
                (len h) (len (host first segs))) as H.
  rewrite pos_text in H by lia. cbn [skipn] in H. change (text first segs 0) with (host first segs) in H.
  rewrite <- E in H. fold h in H. apply H; auto; try lia; try discriminate.
  right. intros Hs. destruct segs as [|g segs]; [cbn [length] in Hs; lia|]. cbn [nth].
  destruct (fst g); [contradiction|reflexivity].
Qed.

(** ** Components *)

Lemma last_label : forall first segs, well_split first segs ->
  last_index_any (host first segs) SEPS
  = match segs with [] => (-1)%Z | _ :: segs' => len (host first segs') end.
Proof.
  intros first segs (Wf & W). destruct W as [|[l s] segs (Hl & Hs) W]; cbn [host].
  - apply last_sep_none. exact Wf.
  - apply last_sep_some; assumption.
Qed.

Lemma join_spec : forall a first b, a <> [] ->
  host first (a ++ b) = host first b ++ snd (last a ([],[])) ++ join a.
Proof.
  induction a as [|[l s] a IH]; intros first b H; [contradiction|].
  destruct a as [|g a]; [reflexivity|].
  change (host first (((l, s) :: g :: a) ++ b)) with (host first ((g :: a) ++ b) ++ s ++ l).
  rewrite IH by discriminate.
  change (join ((l, s) :: g :: a)) with (join (g :: a) ++ s ++ l).
  change (last ((l, s) :: g :: a) ([], [])) with (last (g :: a) ([], [])).
  rewrite <- !app_assoc. reflexivity.
Qed.

Lemma nth_labels : forall first segs i, i < length segs ->
  nth i (labels first segs) [] = fst (nth i segs ([],[])).
Proof.
  intros first segs i H. unfold labels. rewrite app_nth1 by (rewrite map_length; exact H).
  change (@nil N) with (fst (@nil N, @nil N)). rewrite map_nth. reflexivity.
Qed.
Lemma nth_labels_last : forall first segs, nth (length segs) (labels first segs) [] = first.
Proof.
  intros first segs. unfold labels. rewrite app_nth2 by (rewrite map_length; apply le_n).
  rewrite map_length, Nat.sub_diag. reflexivity.
Qed.

Lemma skipn_skipn' : forall A a b (l : list A), skipn a (skipn b l) = skipn (b + a) l.
Proof.
  intros A a b. induction b as [|b IH]; intros l; [reflexivity|].
  destruct l as [|x l]; [rewrite !skipn_nil; reflexivity|]. cbn [skipn Nat.add]. apply IH.
Qed.
Lemma nth_skipn' : forall A b i (l : list A) d, nth i (skipn b l) d = nth (b + i) l d.
Proof.
  intros A b. induction b as [|b IH]; intros i l d; [reflexivity|].
  destruct l as [|x l]; [destruct i; reflexivity|]. cbn [skipn Nat.add nth]. apply IH.
Qed.
Lemma nth_firstn_lt : forall A n i (l : list A) d, i < n -> nth i (firstn n l) d = nth i l d.
Proof.
  intros A n. induction n as [|n IH]; intros i l d H; [lia|].
  destruct l as [|x l]; [reflexivity|]. cbn [firstn]. destruct i as [|i]; [reflexivity|]. cbn [nth]. apply IH. lia.
Qed.
Lemma last_nth : forall A (l : list A) d, last l d = nth (length l - 1) l d.
Proof.
  intros A l d. induction l as [|x l IH]; [reflexivity|]. destruct l as [|y l]; [reflexivity|].
  change (last (x :: y :: l) d) with (last (y :: l) d). rewrite IH. cbn [length].
  replace (S (S (length l)) - 1) with (S (S (length l) - 1)) by lia. reflexivity.
Qed.

Lemma with_sub_id : forall r v, r_sub_domain r = [] -> v = [] -> with_sub_domain r v = r.
Proof. intros [] v H ->. cbn in H. subst. reflexivity. Qed.

Lemma host_components_spec : forall u first zs segs ignore c w,
  well_split first (zs ++ segs) -> r_sub_domain u = [] -> r_domain u = [] ->
  wrel first segs c w ->
  (c_has c = true -> c_end c < c_start c /\ c_start c <= c_sep c /\ c_sep c <= S (length segs)) ->
  host_components u (host first (zs ++ segs)) ignore w = Ret (components u first zs segs ignore c).
Proof.
  intros u first zs segs ignore c w W Hsub Hdom (R1 & R2 & R3 & R4 & R5) Hc.
  assert (W' : well_split first segs) by (eapply well_split_app; eauto).
  destruct (host_prefix zs first segs) as (tail & Eh).
  set (h := host first (zs ++ segs)) in *.
  assert (Hslice : forall i, i <= length segs -> slice h 0 (pos first segs i) = Ret (text first segs i)).
  { intros i Hi. rewrite pos_text by exact Hi. rewrite Eh.
    destruct (text_prefix first segs tail i Hi) as (q & ->). apply slice_prefix. reflexivity. }
  assert (Hlt : forall i, 0 < i -> i <= length segs -> (len (text first segs i) < len h)%Z).
  { intros i Hi Hi'. pose proof (text_lt first segs W' 0 i Hi Hi'). rewrite Eh. autorewrite with len.
    pose proof (len_nonneg _ tail). change (text first segs 0) with (host first segs) in *. lia. }
  assert (Htl : forall i, (0 <= len (text first segs i))%Z) by (intros; apply len_nonneg).
  unfold host_components, components. rewrite R1, R2. fold h.
  change (fun i => host first (skipn i segs)) with (text first segs).
  destruct (c_has c) eqn:Ehas.
  - destruct (R4 eq_refl) as (-> & -> & ->). destruct (Hc eq_refl) as (C1 & C2 & C3). clear R4 R5 Hc.
    destruct (Nat.eqb_spec (c_sep c) (S (length segs))) as [Ew|Ew].
    + (* the whole host is suffix *)
      rewrite Ew, pos_top. change (-1 =? -1)%Z with true. cbv iota beta.
      rewrite slice_all by reflexivity. cbn [bind].
      destruct (has_invalid_chars h); [reflexivity|].
      rewrite Z.ltb_irrefl. rewrite Hslice by lia. cbn [bind].
      destruct ignore; cbn [negb andb].
      * cbn [bind]. cbn [with_suffix r_domain]. rewrite Hdom. reflexivity.
      * change (0 =? -1)%Z with false. cbn [negb]. rewrite (slice_prefix _ [] h) by reflexivity.
        cbn [bind].
        rewrite with_sub_id by (first [exact Hsub | reflexivity]). cbn [with_suffix r_domain]. rewrite Hdom. reflexivity.
    + assert (Hsep : c_sep c <= length segs) by lia.
      rewrite (pos_text first segs (c_sep c)) by lia.
      replace (len (text first segs (c_sep c)) =? -1)%Z with false by (pose proof (Htl (c_sep c)); lia).
      cbv iota beta. rewrite Hslice by lia. cbn [bind].
      change (host first (skipn (c_start c) segs)) with (text first segs (c_start c)).
      destruct (has_invalid_chars (text first segs (c_start c))); [reflexivity|].
      replace (len (text first segs (c_sep c)) <? len h)%Z with true by (pose proof (Hlt (c_sep c)); lia).
      destruct (seg_ok first segs W' (c_sep c - 1) ltac:(lia)) as (_ & Hs).
      set (s := snd (nth (c_sep c - 1) segs ([],[]))) in *.
      destruct (sep_text_size s Hs) as (b & st & Es & Hsize).
      set (mid := firstn (c_sep c - c_end c) (skipn (c_end c) segs)).
      assert (Emid : skipn (c_end c) segs = mid ++ skipn (c_sep c) segs).
      { unfold mid. rewrite <- (firstn_skipn (c_sep c - c_end c) (skipn (c_end c) segs)) at 1.
        rewrite skipn_skipn'. repeat f_equal. lia. }
      assert (Hmid : mid <> []).
      { unfold mid. intros Em. apply (f_equal (@length seg)) in Em.
        rewrite firstn_length, skipn_length in Em. cbn [length] in Em. lia. }
      assert (Elast : snd (last mid ([],[])) = s).
      { unfold s, mid. rewrite last_nth. rewrite firstn_length, skipn_length, Nat.min_l by lia.
        rewrite nth_firstn_lt by lia. rewrite nth_skipn'. do 2 f_equal. lia. }
      assert (Et : text first segs (c_end c) = text first segs (c_sep c) ++ s ++ join mid).
      { unfold text at 1. rewrite Emid, join_spec by exact Hmid. rewrite Elast. reflexivity. }
      destruct (text_prefix first segs tail (c_end c) ltac:(lia)) as (q & Eq). rewrite <- Eh in Eq.
      assert (Hidx : index h (len (text first segs (c_sep c))) = Ret b).
      { rewrite Eq, Et, Es, <- !app_assoc. cbn [app]. apply index_mid. reflexivity. }
      rewrite Hidx. cbn [bind]. rewrite Hsize.
      rewrite (pos_text first segs (c_end c)) by lia.
      assert (Hsfx : slice h (len (text first segs (c_sep c)) + len s) (len (text first segs (c_end c)))
                     = Ret (join mid)).
      { rewrite Eq, Et. replace ((text first segs (c_sep c) ++ s ++ join mid) ++ q)
          with ((text first segs (c_sep c) ++ s) ++ join mid ++ q) by (rewrite <- !app_assoc; reflexivity).
        apply slice_mid; autorewrite with len; lia. }
      rewrite Hsfx. cbn [bind].
      assert (Hhead : slice h 0 (len (text first segs (c_sep c))) = Ret (text first segs (c_sep c))).
      { rewrite <- pos_text by lia. apply Hslice. lia. }
      rewrite Hhead. cbn [bind].
      assert (Wt : well_split first (skipn (c_sep c) segs)) by (apply well_split_skipn; exact W').
      assert (Hll : last_index_any (text first segs (c_sep c)) SEPS
                    = match skipn (c_sep c) segs with [] => (-1)%Z | _ :: segs' => len (host first segs') end).
      { unfold text. apply (last_label _ _ Wt). }
      rewrite !Hll.
      change (sep_text_at segs (c_sep c - 1)) with s.
      destruct (Nat.eq_dec (c_sep c) (length segs)) as [El|El].
      * (* domain is the leftmost label *)
        rewrite El, skipn_all. change (-1 =? -1)%Z with true. cbn [negb].
        assert (Hreg : slice h 0 (len (text first segs (c_end c)))
                       = Ret (first ++ s ++ join mid)).
        { rewrite Eq. rewrite slice_prefix by reflexivity. rewrite Et, El, text_all. reflexivity. }
        rewrite Hreg. cbn [bind].
        change (-1 =? -1)%Z with true. cbn [negb]. rewrite !andb_false_r. cbn [bind].
        unfold label_at. rewrite nth_labels_last, text_all.
        replace (S (length segs) <=? length segs) with false by lia.
        rewrite is_nil_len.
        rewrite with_sub_id by (first [exact Hsub | destruct ignore; reflexivity]).
        destruct (is_nil _); reflexivity.
      * assert (Hl : c_sep c < length segs) by lia.
        rewrite (skipn_cons_nth _ segs (c_sep c) ([],[])) by exact Hl.
        change (host first (skipn (S (c_sep c)) segs)) with (text first segs (S (c_sep c))).
        replace (len (text first segs (S (c_sep c))) =? -1)%Z with false by (pose proof (Htl (S (c_sep c))); lia).
        cbn [negb].
        destruct (seg_ok first segs W' (c_sep c) Hl) as (_ & Hs').
        pose proof (text_step first segs (c_sep c) Hl) as Est.
        set (s' := snd (nth (c_sep c) segs ([],[]))) in *. set (dom := fst (nth (c_sep c) segs ([],[]))) in *.
        destruct (sep_text_size s' Hs') as (b' & st' & Es' & Hsize').
        destruct (text_prefix first segs tail (c_sep c) ltac:(lia)) as (q' & Eq'). rewrite <- Eh in Eq'.
        assert (Hidx' : index h (len (text first segs (S (c_sep c)))) = Ret b').
        { rewrite Eq', Est, Es', <- !app_assoc. cbn [app]. apply index_mid. reflexivity. }
        rewrite !Hidx'. cbn [bind]. rewrite Hsize'.
        assert (Hd : slice h (len (text first segs (S (c_sep c))) + len s') (len (text first segs (c_sep c))) = Ret dom).
        { rewrite Eq', Est. replace ((text first segs (S (c_sep c)) ++ s' ++ dom) ++ q')
            with ((text first segs (S (c_sep c)) ++ s') ++ dom ++ q') by (rewrite <- !app_assoc; reflexivity).
          apply slice_mid; autorewrite with len; lia. }
        rewrite Hd. cbn [bind].
        assert (Hreg : slice h (len (text first segs (S (c_sep c))) + len s') (len (text first segs (c_end c)))
                       = Ret (dom ++ s ++ join mid)).
        { rewrite Eq, Et, Est.
          replace (((text first segs (S (c_sep c)) ++ s' ++ dom) ++ s ++ join mid) ++ q)
            with ((text first segs (S (c_sep c)) ++ s') ++ (dom ++ s ++ join mid) ++ q)
            by (rewrite <- !app_assoc; reflexivity).
          apply slice_mid; autorewrite with len; lia. }
        rewrite Hreg. cbn [bind].
        replace (len (text first segs (S (c_sep c))) =? -1)%Z with false by (pose proof (Htl (S (c_sep c))); lia).
        cbn [negb]. rewrite andb_true_r.
        replace (S (c_sep c) <=? length segs) with true by lia.
        unfold label_at. rewrite nth_labels by exact Hl. fold dom.
        assert (Hsl : slice h 0 (len (text first segs (S (c_sep c)))) = Ret (text first segs (S (c_sep c)))).
        { rewrite <- pos_text by lia. apply Hslice. lia. }
        destruct ignore; cbn [negb]; rewrite ?Hsl; cbn [bind]; rewrite is_nil_len.
        -- rewrite with_sub_id by (first [exact Hsub | reflexivity]). destruct (is_nil _); reflexivity.
        -- change (host first (skipn (S (c_sep c)) segs)) with (text first segs (S (c_sep c))).
           destruct (is_nil _); reflexivity.
  - (* no suffix *)
    rewrite (R5 eq_refl). clear R4 R5 Hc.
    assert (Hchk : forall X, (let '(sep_idx, suffix_start) :=
      if (w_sep_idx w =? -1)%Z then (len h, len h) else (w_sep_idx w, w_suffix_start w) in X) = (X : outcome (result * option err))).
    { intros X. destruct (w_sep_idx w =? -1)%Z; reflexivity. }
    transitivity (checked <- slice h 0 (pos first segs (c_prev c)) ;;
      (if has_invalid_chars checked then Ret (u, Some ErrInvalidChars)
       else '(u0, domain_start_sep) <- (head <- slice h 0 (pos first segs 0) ;;
            let d := last_index_any head SEPS in
            start <- (if negb (d =? -1)%Z then y <- index h d ;; Ret (d + sep_size y)%Z else Ret 0%Z) ;;
            dom <- slice h start (pos first segs 0) ;; Ret (with_domain u dom, d)) ;;
          u1 <- (if negb ignore && negb (domain_start_sep =? -1)%Z
                 then sub <- slice h 0 domain_start_sep ;; Ret (with_sub_domain u0 sub) else Ret u0) ;;
          if (len (r_domain u1) =? 0)%Z then Ret (u1, Some ErrEmptyDomain)
          else Ret (with_host_type u1 HHostName, None))).
    { destruct (w_sep_idx w =? -1)%Z; reflexivity. }
    rewrite Hslice by exact R3. cbn [bind].
    change (host first (skipn (c_prev c) segs)) with (text first segs (c_prev c)).
    destruct (has_invalid_chars (text first segs (c_prev c))); [reflexivity|].
    rewrite Hslice by lia. cbn [bind]. change (text first segs 0) with (host first segs).
    rewrite (last_label _ _ W'). rewrite (pos_text first segs 0) by lia.
    change (text first segs 0) with (host first segs).
    destruct segs as [|[l s] segs'].
    + change (-1 =? -1)%Z with true. cbn [negb bind host].
      rewrite Eh. cbn [host]. rewrite slice_prefix by reflexivity. cbn [bind].
      change (-1 =? -1)%Z with true. cbn [negb]. rewrite andb_false_r. cbn [bind].
      rewrite is_nil_len. cbn [length label_at labels map app nth Nat.leb].
      rewrite with_sub_id by (first [exact Hsub | destruct ignore; reflexivity]). destruct (is_nil _); reflexivity.
    + pose proof (len_nonneg _ (host first segs')).
      replace (len (host first segs') =? -1)%Z with false by lia. cbn [negb].
      destruct W' as (_ & Ws). inversion Ws as [|? ? (_ & Hs) _]; subst. cbn [snd] in Hs.
      destruct (sep_text_size s Hs) as (b & st & Es & Hsize).
      assert (Hidx : index h (len (host first segs')) = Ret b).
      { rewrite Eh. cbn [host]. rewrite Es, <- !app_assoc. cbn [app]. apply index_mid. reflexivity. }
      rewrite Hidx. cbn [bind]. rewrite Hsize.
      assert (Hd : slice h (len (host first segs') + len s) (len (host first ((l, s) :: segs'))) = Ret l).
      { rewrite Eh. cbn [host]. replace ((host first segs' ++ s ++ l) ++ tail)
          with ((host first segs' ++ s) ++ l ++ tail) by (rewrite <- !app_assoc; reflexivity).
        apply slice_mid; autorewrite with len; lia. }
      match goal with |- context [slice h (_ + _)%Z ?b] => change b with (len (host first ((l, s) :: segs'))) end.
      setoid_rewrite Hd. cbn [bind].
      replace (len (host first segs') =? -1)%Z with false by lia. cbn [negb]. rewrite andb_true_r.
      assert (Hsl : slice h 0 (len (host first segs')) = Ret (host first segs')).
      { rewrite Eh. cbn [host]. rewrite <- !app_assoc. apply slice_prefix. reflexivity. }
      cbn [length label_at labels map app nth Nat.leb skipn fst].
      destruct ignore; cbn [negb]; rewrite ?Hsl; cbn [bind]; rewrite is_nil_len.
      * rewrite with_sub_id by (first [exact Hsub | reflexivity]). destruct (is_nil _); reflexivity.
      * destruct (is_nil _); reflexivity.
Qed.

(** Everything Extract does with the final host string, given the answer of the IPv4 test. *)
Theorem extract_host_outcome : forall t u h ignore v4,
  r_sub_domain u = [] -> r_domain u = [] -> ipv4_host h = Ret v4 ->
  extract_host t u h ignore = Ret (host_outcome t u h ignore v4).
Proof.
  intros t u h ignore v4 Hsub Hdom Hv4. unfold extract_host, host_outcome.
  destruct (split_host h) as [first segs0] eqn:Es. apply split_host_spec in Es as (Eh & W).
  destruct (strip_empty segs0) as [zs segs] eqn:Ez. apply strip_empty_spec in Ez as (-> & Hz & Hhd).
  subst h. pose proof (suffix_loop_spec t first zs segs W Hz Hhd) as H. cbv zeta in H.
  destruct (cwalk t false 0 0 0 (labels first segs)) as [c|] eqn:Ec; [|rewrite H; reflexivity].
  destruct H as (w & -> & R). cbn [bind]. rewrite Hv4. cbn [bind].
  assert (W' : well_split first segs) by (eapply well_split_app; eauto).
  destruct v4.
  - destruct R as (_ & -> & Hp & _). rewrite pos_text by exact Hp.
    destruct (host_prefix zs first segs) as (tail & ->).
    destruct (text_prefix first segs tail (c_prev c) Hp) as (q & ->).
    rewrite slice_prefix by reflexivity. reflexivity.
  - apply host_components_spec; auto.
    apply cwalk_inv in Ec as (A & B & C); [|discriminate].
    intros Hh. specialize (C Hh). destruct R as (_ & _ & Hp & _). lia.
Qed.
