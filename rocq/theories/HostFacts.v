(** HostFacts.v - every host has exactly one decomposition in labels and separators. *)

From Verif Require Import Base BaseFacts Utf8 Chars Utf8Facts Str StrFacts Host.
From Coq Require Import ZifyBool ZifyNat ZifyN.
Local Open Scope N_scope.

Notation SEPS := label_separators_rune_set.

Lemma seps_eq : SEPS = [46; 12290; 65294; 65377].
Proof. vm_compute. reflexivity. Qed.

Lemma seps_good : good_set SEPS.
Proof.
  rewrite seps_eq. unfold good_set, valid_rune, rune_error. repeat constructor; lia.
Qed.

Lemma sep_text_encode : forall s, is_sep_text s <-> exists r, In r SEPS /\ s = encode r.
Proof.
  intros s. rewrite seps_eq. unfold is_sep_text. split.
  - intros [->|[->|[->| ->]]].
    + exists 46. split; [cbn; auto|reflexivity].
    + exists 12290. split; [cbn; auto|reflexivity].
    + exists 65294. split; [cbn; auto|reflexivity].
    + exists 65377. split; [cbn; auto 6|reflexivity].
  - intros (r & [<-|[<-|[<-|[<-|[]]]]] & ->); [left|right;left|right;right;left|right;right;right]; reflexivity.
Qed.

Lemma no_sep_free : forall s, no_sep s <-> free SEPS s.
Proof.
  intros s. split.
  - intros H p r q Hr. apply H. apply sep_text_encode. exists r. auto.
  - intros H p sep q Hs. apply sep_text_encode in Hs as (r & Hr & ->). apply H. exact Hr.
Qed.

Lemma no_sep_nil : no_sep [].
Proof. apply no_sep_free. apply (free_nil _ seps_good). Qed.

Lemma sep_text_size : forall sep, is_sep_text sep ->
  exists b t, sep = b :: t /\ sep_size b = len sep.
Proof.
  intros s [->|[->|[->| ->]]]; eexists _, _; (split; [reflexivity|]); reflexivity.
Qed.

Lemma sep_text_nonempty : forall sep, is_sep_text sep -> sep <> [].
Proof. intros s [->|[->|[->| ->]]]; discriminate. Qed.

Lemma sep_text_len : forall sep, is_sep_text sep -> (1 <= len sep)%Z.
Proof. intros s [->|[->|[->| ->]]]; cbv; discriminate. Qed.

(** Searching the last separator of a decomposed host. *)
Lemma last_sep_none : forall s, no_sep s -> last_index_any s SEPS = (-1)%Z.
Proof. intros s H. apply last_index_any_free; [apply seps_good|]. apply no_sep_free. exact H. Qed.

Lemma last_sep_some : forall p sep l, is_sep_text sep -> no_sep l ->
  last_index_any (p ++ sep ++ l) SEPS = len p.
Proof.
  intros p sep l Hs Hl. apply sep_text_encode in Hs as (r & Hr & ->).
  apply last_index_any_occ; [apply seps_good|exact Hr|]. apply no_sep_free. exact Hl.
Qed.

Lemma last_sep_cases : forall s,
  (no_sep s) \/ (exists p sep l, s = p ++ sep ++ l /\ is_sep_text sep /\ no_sep l).
Proof.
  intros s. destruct (last_index_any_spec SEPS seps_good s) as [(_ & H)|(p & r & q & Hr & -> & _ & H)].
  - left. apply no_sep_free. exact H.
  - right. exists p, (encode r), q. split; [reflexivity|]. split; [|apply no_sep_free; exact H].
    apply sep_text_encode. exists r. auto.
Qed.

Lemma split_exists : forall h, exists first segs, h = host first segs /\ well_split first segs.
Proof.
  intros h. remember (length h) as n eqn:En. revert h En.
  induction n as [n IH] using (well_founded_induction lt_wf). intros h ->.
  destruct (last_sep_cases h) as [H|(p & sep & l & -> & Hs & Hl)].
  - exists h, []. split; [reflexivity|]. split; [exact H|constructor].
  - destruct (IH (length p)) with (h := p) as (first & segs & -> & Hf & Hsegs); [|reflexivity|].
    + rewrite !app_length. pose proof (sep_text_len sep Hs). unfold len in *. lia.
    + exists first, ((l, sep) :: segs). split; [reflexivity|]. split; [exact Hf|]. constructor; auto.
Qed.

Lemma split_unique : forall segs first first' segs', well_split first segs -> well_split first' segs' ->
  host first segs = host first' segs' -> first = first' /\ segs = segs'.
Proof.
  induction segs as [|[l s] segs IH]; intros first first' segs' (Hf & Hs) (Hf' & Hs') E;
    destruct segs' as [|[l' s'] segs']; cbn [host] in E.
  - auto.
  - exfalso. inversion Hs' as [|? ? (Hl & Ht) _]. eapply (Hf _ s' l'); eauto.
  - exfalso. inversion Hs as [|? ? (Hl & Ht) _]. eapply (Hf' _ s l); eauto.
  - inversion Hs as [|? ? (Hl & Ht) Hr]; subst. inversion Hs' as [|? ? (Hl' & Ht') Hr']; subst.
    cbn [fst snd] in *.
    apply sep_text_encode in Ht as (r & Hin & ->). apply sep_text_encode in Ht' as (r' & Hin' & ->).
    destruct (occurrence_unique SEPS seps_good _ r l _ r' l' Hin Hin' E) as (E1 & -> & ->);
      try (apply no_sep_free; assumption).
    destruct (IH first first' segs') as (-> & ->); auto; split; auto.
Qed.

Lemma host_app : forall a b first, host first (a ++ b) = host (host first b) a.
Proof.
  induction a as [|[l s] a IH]; intros b first; cbn [host app]; [reflexivity|].
  rewrite IH. reflexivity.
Qed.

(** [split_host] computes the decomposition. *)
Lemma has_prefix_spec : forall p s, has_prefix s p = true <-> exists q, s = p ++ q.
Proof.
  induction p as [|a p IH]; intros s.
  - split; [intros _; exists s; reflexivity|destruct s; reflexivity].
  - destruct s as [|b s]; cbn [has_prefix app].
    + split; [discriminate|intros (q & H); discriminate].
    + rewrite andb_true_iff, IH, N.eqb_eq. split.
      * intros (-> & q & ->). exists q. reflexivity.
      * intros (q & H). injection H as -> ->. eauto.
Qed.

Lemma sep_at_zero : forall s sep q, sep_at s = 0%nat -> is_sep_text sep -> s <> sep ++ q.
Proof.
  intros s sep q H Hs E. unfold sep_at in H.
  assert (P : has_prefix s sep = true) by (apply has_prefix_spec; exists q; exact E).
  destruct Hs as [->|[->|[->| ->]]]; rewrite P in H; rewrite ?orb_true_r in H; cbn [orb] in H;
    destruct (has_prefix s [46]); discriminate.
Qed.

Lemma sep_at_pos : forall s k, sep_at s = S k ->
  exists sep q, s = sep ++ q /\ is_sep_text sep /\ length sep = S k.
Proof.
  intros s k H. unfold sep_at in H. unfold is_sep_text.
  destruct (has_prefix s [46]) eqn:E0.
  { apply has_prefix_spec in E0 as (q & ->). exists [46], q. repeat split; auto. }
  destruct (has_prefix s [227; 128; 130]) eqn:E1.
  { apply has_prefix_spec in E1 as (q & ->). exists [227; 128; 130], q. repeat split; auto. }
  destruct (has_prefix s [239; 188; 142]) eqn:E2.
  { apply has_prefix_spec in E2 as (q & ->). exists [239; 188; 142], q. repeat split; auto. }
  destruct (has_prefix s [239; 189; 161]) eqn:E3; [|discriminate].
  apply has_prefix_spec in E3 as (q & ->). exists [239; 189; 161], q. repeat split; auto.
Qed.

Lemma no_sep_cons : forall b l t r, sep_at (b :: l ++ t) = 0%nat -> no_sep l -> r = b :: l -> no_sep r.
Proof.
  intros b l t r H Hl -> p sep q Hs E. destruct p as [|c p]; cbn [app] in E.
  - eapply (sep_at_zero (b :: l ++ t) sep (q ++ t)); eauto. rewrite app_assoc, <- E. reflexivity.
  - injection E as -> ->. eapply (Hl p sep q); eauto.
Qed.

Lemma split_from_skip : forall k s, (k <= length s)%nat -> split_from s k = split_from (skipn k s) 0.
Proof.
  induction k as [|k IH]; intros s H; [reflexivity|].
  destruct s as [|b s]; [cbn [length] in H; lia|]. cbn [split_from skipn]. apply IH. cbn [length] in H. lia.
Qed.

Lemma host_rev_snoc : forall segs first l s, host first (segs ++ [(l, s)]) = first ++ s ++ host l segs.
Proof.
  intros segs first l s. rewrite host_app. cbn [host].
  induction segs as [|[l0 s0] segs IH]; cbn [host]; [reflexivity|].
  rewrite IH, <- !app_assoc. reflexivity.
Qed.

Lemma split_from_spec : forall s first segs, split_from s 0 = (first, segs) ->
  s = host first (rev segs) /\ well_split first segs /\ exists t, s = first ++ t.
Proof.
  intros s. remember (length s) as n eqn:En. revert s En.
  induction n as [n IH] using (well_founded_induction lt_wf). intros s -> first segs H.
  destruct s as [|b t].
  - injection H as <- <-. split; [reflexivity|]. split; [|exists []; reflexivity].
    split; [apply no_sep_nil|constructor].
  - cbn [split_from] in H. destruct (sep_at (b :: t)) as [|k] eqn:E.
    + destruct (split_from t 0) as [l r] eqn:Et. injection H as <- <-.
      destruct (IH (length t)) with (s := t) (first := l) (segs := r) as (A & (B & C) & (u & D)); auto.
      split; [|split].
      * rewrite A. clear. induction (rev r) as [|[x y] z IHz]; cbn [host]; [reflexivity|].
        rewrite <- IHz. reflexivity.
      * split; [|exact C]. apply (no_sep_cons b l u); [rewrite <- D; exact E|exact B|reflexivity].
      * exists u. cbn [app]. congruence.
    + destruct (split_from t k) as [l r] eqn:Et. injection H as <- <-.
      destruct (sep_at_pos _ _ E) as (sep & q & Eq & Hs & Hl).
      assert (Hskip : split_from t k = split_from q 0).
      { rewrite split_from_skip.
        - f_equal. destruct sep as [|c sep]; [discriminate|]. cbn [app] in Eq. injection Eq as -> ->.
          cbn [length] in Hl. injection Hl as <-. rewrite skipn_app, skipn_all, Nat.sub_diag. reflexivity.
        - apply (f_equal (@length N)) in Eq. rewrite app_length in Eq. cbn [length] in Eq. lia. }
      rewrite Hskip in Et.
      destruct (IH (length q)) with (s := q) (first := l) (segs := r) as (A & (B & C) & _); auto.
      { apply (f_equal (@length N)) in Eq. rewrite app_length in Eq. cbn [length] in *. lia. }
      assert (F : firstn (S k) (b :: t) = sep).
      { rewrite Eq, <- Hl, firstn_app, firstn_all, Nat.sub_diag. cbn [firstn]. apply app_nil_r. }
      change (b :: firstn k t) with (firstn (S k) (b :: t)). rewrite F.
      split; [|split].
      * cbn [rev]. rewrite host_rev_snoc. cbn [app]. rewrite <- A. exact Eq.
      * split; [apply no_sep_nil|]. constructor; [split; assumption|exact C].
      * exists (b :: t). reflexivity.
Qed.

Lemma split_host_spec : forall h first segs,
  split_host h = (first, segs) <-> h = host first segs /\ well_split first segs.
Proof.
  intros h first segs. unfold split_host. destruct (split_from h 0) as [f s] eqn:E.
  destruct (split_from_spec h f s E) as (A & (B & C) & _).
  assert (W : well_split f (rev s)).
  { split; [exact B|]. apply Forall_rev. exact C. }
  split.
  - intros H. injection H as <- <-. auto.
  - intros (E' & W'). rewrite A in E'. destruct (split_unique _ _ _ _ W W' E') as (-> & ->). reflexivity.
Qed.
