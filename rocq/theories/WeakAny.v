(** WeakAny.v - Extract with any answers at all from memory. *)

From Verif Require Import Base BaseFacts Chars Str Trie TrieFacts UrlSpec ListSpec Extract HostFacts ParseFacts UrlFacts ExtractFacts UrlProofs CostProofs World Calls CallFacts Heap Weak WeakSpec WeakProofs.
From Coq Require Import ZifyBool ZifyNat ZifyN.

(** [p] can end in [o] if every operation may give any answer. *)
Fixpoint may_end {A : Type} (p : hprog A) (o : outcome A) : Prop :=
  match p with
  | HDone r => r = o
  | HSys _ k => exists x, may_end (k x) o
  | HHeap _ k => exists x, may_end (k x) o
  end.
Lemma may_end_bind : forall A B (p : hprog A) (k : A -> hprog B) o, may_end (hbind p k) o ->
  exists r, may_end p r /\ match r with Ret a => may_end (k a) o | Panic => o = Panic | OutOfFuel => o = OutOfFuel end.
Proof.
  intros A B. induction p as [r|R op c IH|R op c IH]; intros k o H; cbn [hbind may_end] in *.
  - exists r. split; [reflexivity|]. destruct r; [exact H|symmetry; exact H|symmetry; exact H].
  - destruct H as (x & H). destruct (IH x k o H) as (r & H1 & H2). exists r. split; [exists x; exact H1|exact H2].
  - destruct H as (x & H). destruct (IH x k o H) as (r & H1 & H2). exists r. split; [exists x; exact H1|exact H2].
Qed.

Lemma get_one : forall k t, get [(k, t)] k = Some t.
Proof. intros k t. cbn [get]. destruct (bytes_eqb k k) eqn:E; [reflexivity|]. rewrite bytes_eqb_refl in E. discriminate. Qed.
Lemma get_cons_other : forall k t m k', k <> k' -> get ((k, t) :: m) k' = get m k'.
Proof. intros k t m k' N. cbn [get]. destruct (bytes_eqb k k') eqn:E; [|reflexivity]. apply bytes_eqb_eq in E. contradiction. Qed.

Definition no_star (netloc : bytes) : Prop := forall part, has_text netloc part -> query_unescape part <> inr (str "*").

Lemma slice_part : forall s i j x, slice s i j = Ret x -> has_text s x.
Proof.
  intros s i j x H. unfold slice in H. destruct (_ && _) in H; [|discriminate]. injection H as <-.
  unfold has_text. set (r := skipn (Z.to_nat i) s). exists (firstn (Z.to_nat i) s), (skipn (Z.to_nat (j - i)) r).
  rewrite firstn_skipn. unfold r. symmetry. apply firstn_skipn.
Qed.

Lemma loop_any : forall netloc a, no_star netloc -> forall fuel i hs hl sep st en o,
  may_end (suffix_loop_heap fuel netloc a i hs hl sep st en) o ->
  exists m, m <> [] /\ forall b, suffix_loop fuel netloc (Node b m) hs hl sep st en = o.
Proof.
  intros netloc a NS. induction fuel as [|fuel IH]; intros i hs hl sep st en o H; cbn [suffix_loop_heap suffix_loop] in *.
  { exists [(str "*", empty_trie)]. split; [discriminate|]. intros b. exact H. }
  set (any := [(str "*", empty_trie)]). assert (Na : any <> []) by discriminate.
  destruct (slice netloc 0 sep) as [head| |] eqn:Eh; cbn [hbind may_end bind] in *; [|exists any; auto..]. cbv zeta in *.
  set (sp := last_index_any head label_separators_rune_set) in *.
  set (pick := if negb (sp =? -1)%Z then _ else _) in *.
  assert (Pk : forall label e, pick = Ret (label, e) -> has_text netloc label).
  { intros label e E. unfold pick in E. destruct (negb (sp =? -1)%Z).
    - match type of E with bind ?x _ = _ => destruct x end; cbn [bind] in E; try discriminate. match type of E with bind ?x _ = _ => destruct x eqn:Es end; cbn [bind] in E; try discriminate.
      injection E as <- _. exact (slice_part _ _ _ _ Es).
    - cbn [bind] in E. injection E as <- _. exact (slice_part _ _ _ _ Eh). }
  destruct pick as [[label e]| |]; cbn [hbind may_end bind] in *; [|exists any; auto..]. specialize (Pk label e eq_refl).
  destruct (negb (sp =? -1)%Z && (len label =? 0)%Z).
  { destruct (negb hl); [apply (IH _ _ _ _ _ _ _ H)|]. cbn [hret may_end] in H. exists any. auto. }
  cbn [on hbind hret may_end] in H. destruct H as (star & H). destruct star as [s|].
  - cbn [on hbind hret may_end] in H. destruct H as (exc & H). cbn [hret may_end] in H.
    exists ((str "*", empty_trie) :: match exc with Some _ => [(str "!" ++ label, empty_trie)] | None => [] end).
    split; [discriminate|]. intros b. unfold child. cbn [matches_of].
    change (get ((str "*", empty_trie) :: match exc with Some _ => [(str "!" ++ label, empty_trie)] | None => [] end) (str "*")) with (Some empty_trie).
    cbv iota. rewrite get_cons_other by discriminate. destruct exc as [j|]; [rewrite get_one|cbn [get]]; exact H.
  - cbn [on hbind hret may_end] in H. destruct H as (val & H). cbv zeta in H.
    set (key := match query_unescape label with inr l => l | inl _ => [] end) in *.
    assert (Nk : key <> str "*").
    { pose proof (NS label Pk) as Ns. unfold key. destruct (query_unescape label) as [x|x]; [discriminate|]. congruence. }
    destruct val as [j|].
    + set (tail := fun en' hs' => size <== on a (Len j) ;;
          if (size =? 0)%Z || e
          then hret (inr (mkWalk hs' sp sp en' sep))
          else suffix_loop_heap fuel netloc a j hs' (hl || negb (sp =? -1)%Z) sp sp en') in *.
      assert (Bit : exists bit : bool, let '(en', hs') := if negb hs && bit then (sep, true) else (en, hs) in may_end (tail en' hs') o).
      { destruct hs; cbn [negb hbind hret on may_end andb] in *.
        - exists true. exact H.
        - destruct H as (bit & H). cbn [hbind hret may_end] in H. exists bit. destruct bit; exact H. }
      clear H. destruct Bit as (bit & H). destruct (if negb hs && bit then (sep, true) else (en, hs)) as [en' hs'] eqn:Ep.
      unfold tail in H. cbn [on hbind hret may_end] in H. destruct H as (size & H). clear tail.
      assert (X : exists m', may_end (if (len m' =? 0)%Z || e then hret (inr (mkWalk hs' sp sp en' sep)) else HDone
                    (suffix_loop fuel netloc (Node bit m') hs' (hl || negb (sp =? -1)%Z) sp sp en')) o).
      { destruct ((size =? 0)%Z || e) eqn:Z0.
        - exists []. exact H.
        - destruct (IH _ _ _ _ _ _ _ H) as (m' & Nm & K). exists m'.
          apply Bool.orb_false_iff in Z0. destruct Z0 as (_ & ->). destruct m' as [|x m']; [congruence|].
          assert (L : (len (x :: m') =? 0)%Z = false) by (unfold len; cbn [length]; lia). rewrite L. cbn [orb may_end]. apply K. }
      destruct X as (m' & X). exists [(key, Node bit m')]. split; [discriminate|]. intros b. unfold child. cbn [matches_of].
      rewrite get_cons_other by exact Nk. cbn [get]. fold key. rewrite bytes_eqb_refl. cbn [end_of matches_of]. rewrite Ep.
      destruct ((len m' =? 0)%Z || e); cbn [hret may_end] in X; exact X.
    + cbn [hret may_end] in H. exists [(0%N :: key, empty_trie)]. split; [discriminate|]. intros b. unfold child. cbn [matches_of].
      rewrite (get_cons_other _ _ [] (str "*")) by discriminate. fold key.
      rewrite (get_cons_other _ _ [] key) by (intros E; apply (f_equal (@length N)) in E; cbn [length] in E; lia). exact H.
Qed.

Lemma extract_any : forall ext f p o,
  (forall u host, extract_front ext p = Ret (inr (u, host)) -> no_star host) ->
  may_end (extract_heap ext f p) o -> exists t, extract ext t p = o.
Proof.
  intros ext f p o NS H. setoid_rewrite extract_split. unfold extract_heap in H.
  destruct (extract_front ext p) as [[r|[u host]]| |]; cbn [hbind hret may_end bind] in *; [exists empty_trie; exact H| |exists empty_trie; exact H..].
  destruct H as (x & H). specialize (NS u host eq_refl). unfold extract_host_heap in H. apply may_end_bind in H.
  destruct H as (r & H & K). destruct (loop_any _ _ NS _ _ _ _ _ _ _ _ H) as (m & _ & L). exists (Node false m).
  unfold extract_host. rewrite L. destruct r as [[e|w]| |]; cbn [bind] in *; [exact K| |symmetry; exact K..].
  destruct (ipv4_host host) as [[|]| |]; cbn [hbind hret may_end bind] in *; [|exact K..].
  destruct (slice host 0 _); cbn [hbind hret may_end bind] in *; exact K.
Qed.

(** ** No panic *)

Lemma last_sep_at : forall netloc k head, slice netloc 0 k = Ret head -> let d := last_index_any head label_separators_rune_set in
  d = (-1)%Z \/ exists b, index netloc d = Ret b /\ (0 <= d /\ d + sep_size b <= k /\ 1 <= sep_size b)%Z.
Proof.
  intros netloc k head H. cbv zeta. apply slice_inv in H. destruct H as (p & q & -> & Lp & ->).
  destruct p; [|unfold len in Lp; cbn [length] in Lp; lia]. cbn [app].
  destruct (last_sep_cases head) as [N|(p & sep & l & -> & S & N)]; [left; apply last_sep_none; exact N|]. right.
  rewrite last_sep_some by assumption. pose proof (sep_text_len _ S) as L1. destruct (sep_text_size _ S) as (b & t & -> & Sz). exists b.
  rewrite <- !app_assoc. cbn [app]. rewrite index_mid by reflexivity. split; [reflexivity|].
  rewrite Sz. unfold len in *. rewrite app_length. cbn [length] in *. rewrite app_length. lia.
Qed.
Lemma slice_in : forall (s : bytes) a b, (0 <= a <= b)%Z -> (b <= len s)%Z -> exists m, slice s a b = Ret m.
Proof. intros s a b H1 H2. destruct (slice_ret _ s a b H1 H2) as (p & m & q & _ & _ & _ & E). exists m. exact E. Qed.

Definition walk_fits (netloc : bytes) (w : walk) : Prop :=
  (0 <= w_previous_sep w <= len netloc)%Z /\ (0 <= w_suffix_end w <= len netloc)%Z
  /\ (w_has_suffix w = true -> w_sep_idx w = (-1)%Z \/ (0 <= w_suffix_start w <= len netloc)%Z
       /\ exists b, index netloc (w_sep_idx w) = Ret b /\ (0 <= w_sep_idx w /\ w_sep_idx w + sep_size b <= w_suffix_end w /\ 1 <= sep_size b)%Z).

Lemma loop_fits : forall netloc a fuel i hs hl sep st en o,
  may_end (suffix_loop_heap fuel netloc a i hs hl sep st en) o ->
  (0 <= sep <= en)%Z -> (en <= len netloc)%Z -> (sep < Z.of_nat fuel)%Z ->
  (hs = true -> hl = true /\ st = sep /\ exists b, index netloc sep = Ret b /\ (sep + sep_size b <= en /\ 1 <= sep_size b)%Z) ->
  (exists e, o = Ret (inl e)) \/ exists w, o = Ret (inr w) /\ walk_fits netloc w.
Proof.
  intros netloc a. induction fuel as [|fuel IH]; intros i hs hl sep st en o H B1 B2 B3 Bs; [lia|]. cbn [suffix_loop_heap] in H.
  destruct (slice netloc 0 sep) as [head| |] eqn:Eh; [|destruct (slice_in netloc 0 sep ltac:(lia) ltac:(lia)); congruence..].
  cbn [hbind may_end] in H. cbv zeta in H.
  pose proof (last_sep_at _ _ _ Eh) as Ls. cbv zeta in Ls. set (sp := last_index_any head label_separators_rune_set) in *.
  assert (Pk : exists label e, (if negb (sp =? -1)%Z then x <- index netloc sp ;; l <- slice netloc (sp + sep_size x) sep ;; Ret (l, false)
                                else l <- Ret head ;; Ret (l, true)) = Ret (label, e) /\ (e = false -> sp <> (-1)%Z)).
  { destruct Ls as [->|(b & -> & Lb)].
    - change (negb (-1 =? -1)%Z) with false. cbv iota. cbn [bind]. eexists. eexists. split; [reflexivity|discriminate].
    - destruct (Z.eqb_spec sp (-1)) as [E|E]; [lia|]. cbn [negb bind]. destruct (slice_in netloc (sp + sep_size b) sep ltac:(lia) ltac:(lia)) as (m & ->).
      cbn [bind]. eexists. eexists. split; [reflexivity|]. intros _. exact E. }
  destruct Pk as (label & e & Ep & Ne). cbn [bind] in Ep, H. rewrite Ep in H. cbn [hbind may_end] in H.
  assert (Fit : forall idx st' en' hs', (0 <= en' <= len netloc)%Z ->
      (hs' = true -> idx = (-1)%Z \/ (0 <= st' <= len netloc)%Z /\ exists b, index netloc idx = Ret b /\ (0 <= idx /\ idx + sep_size b <= en' /\ 1 <= sep_size b)%Z) ->
      walk_fits netloc (mkWalk hs' idx st' en' sep)).
  { intros idx st' en' hs' H1 H2. unfold walk_fits. cbn [w_previous_sep w_suffix_end w_has_suffix w_sep_idx w_suffix_start]. split; [lia|]. split; [exact H1|exact H2]. }
  assert (Back : hs = true -> (0 <= st <= len netloc)%Z /\ exists b, index netloc sep = Ret b /\ (0 <= sep /\ sep + sep_size b <= en /\ 1 <= sep_size b)%Z).
  { intros Hs. destruct (Bs Hs) as (_ & -> & b & E & L). split; [lia|]. exists b. split; [exact E|]. lia. }
  assert (Here : hs = true -> sp = (-1)%Z \/ (0 <= st <= len netloc)%Z /\ exists b, index netloc sp = Ret b /\ (0 <= sp /\ sp + sep_size b <= en /\ 1 <= sep_size b)%Z).
  { intros Hs. destruct Ls as [L|(b & E & L)]; [left; exact L|]. right. destruct (Back Hs) as (Bt & _). split; [exact Bt|]. exists b. split; [exact E|]. lia. }
  destruct (negb (sp =? -1)%Z && (len label =? 0)%Z) eqn:Sk.
  { destruct hl; cbn [negb] in H; [cbn [hret may_end] in H; left; eauto|].
    destruct Ls as [L|(b & E & L)]; [rewrite L in Sk; discriminate Sk|]. destruct hs; [destruct (Bs eq_refl) as (X & _); discriminate X|].
    eapply IH; [exact H|lia|lia|lia|discriminate]. }
  cbn [on hbind hret may_end] in H. destruct H as (star & H). destruct star as [s|].
  - cbn [on hbind hret may_end] in H. destruct H as (exc & H). cbn [hret may_end] in H. right. eexists. split; [symmetry; exact H|].
    apply Fit; [lia|]. intros Hs. destruct exc; [right; apply Back; exact Hs|apply Here; exact Hs].
  - cbn [on hbind hret may_end] in H. destruct H as (val & H). destruct val as [j|].
    + assert (Tail : forall en' hs', (sep <= en' <= len netloc)%Z ->
          may_end (size <== on a (Len j) ;; if (size =? 0)%Z || e then hret (inr (mkWalk hs' sp sp en' sep))
                   else suffix_loop_heap fuel netloc a j hs' (hl || negb (sp =? -1)%Z) sp sp en') o ->
          (exists e, o = Ret (inl e)) \/ exists w, o = Ret (inr w) /\ walk_fits netloc w).
      { intros en' hs' Le T. cbn [on hbind hret may_end] in T. destruct T as (size & T). destruct ((size =? 0)%Z || e) eqn:Z0.
        - cbn [hret may_end] in T. right. eexists. split; [symmetry; exact T|]. apply Fit; [lia|]. intros Hs.
          destruct Ls as [L|(b & E & L)]; [left; exact L|]. right. split; [lia|]. exists b. split; [exact E|]. lia.
        - apply Bool.orb_false_iff in Z0. destruct Z0 as (_ & ->). destruct Ls as [L|(b & E & L)]; [destruct (Ne eq_refl L)|].
          eapply IH; [exact T|lia|lia|lia|]. intros _. split; [destruct (Z.eqb_spec sp (-1)); [lia|apply Bool.orb_true_r]|]. split; [reflexivity|]. exists b. split; [exact E|]. lia. }
      destruct hs; cbn [negb hbind hret on may_end] in H.
      * apply (Tail en true); [lia|exact H].
      * destruct H as (bit & H). cbn [hbind hret may_end] in H. destruct bit; [apply (Tail sep true)|apply (Tail en false)]; try lia; exact H.
    + cbn [hret may_end] in H. right. eexists. split; [symmetry; exact H|]. apply Fit; [lia|]. intros Hs.
      destruct (negb (sep =? len netloc)%Z); [right; apply Back; exact Hs|apply Here; exact Hs].
Qed.

Lemma components_end : forall u netloc ignore w, walk_fits netloc w -> exists r, host_components u netloc ignore w = Ret r.
Proof.
  intros u netloc ignore w (B1 & B2 & B3). destruct w as [hs idx st en prev].
  cbn [w_previous_sep w_suffix_end w_has_suffix w_sep_idx w_suffix_start] in *. unfold host_components.
  cbn [w_previous_sep w_suffix_end w_has_suffix w_sep_idx w_suffix_start].
  assert (Sub : forall v d, (d = -1 \/ 0 <= d <= len netloc)%Z ->
    exists r, (u1 <- (if negb ignore && negb (d =? -1)%Z then sub <- slice netloc 0 d ;; Ret (with_sub_domain v sub) else Ret v) ;;
      if (len (r_domain u1) =? 0)%Z then Ret (u1, Some ErrEmptyDomain) else Ret (with_host_type u1 HHostName, None)) = Ret r).
  { intros v d Bd. assert (X : exists v', (if negb ignore && negb (d =? -1)%Z then sub <- slice netloc 0 d ;; Ret (with_sub_domain v sub) else Ret v) = Ret v').
    { destruct (negb ignore && negb (d =? -1)%Z) eqn:E; [|eauto]. destruct (slice_in netloc 0 d ltac:(lia) ltac:(lia)) as (m & ->). cbn [bind]. eauto. }
    destruct X as (v' & ->). cbn [bind]. destruct (len (r_domain v') =? 0)%Z; eauto. }
  destruct hs.
  - specialize (B3 eq_refl). destruct (Z.eqb_spec idx (-1)) as [->|Ni].
    + destruct (slice_in netloc 0 (len netloc) ltac:(lia) ltac:(lia)) as (m & ->). cbn [bind]. destruct (has_invalid_chars m); [eauto|].
      replace (len netloc <? len netloc)%Z with false by lia. destruct (slice_in netloc 0 en ltac:(lia) ltac:(lia)) as (m2 & ->). cbn [bind]. apply Sub. lia.
    + destruct B3 as [E|(B4 & b & Ei & Bi)]; [lia|].
      destruct (slice_in netloc 0 st ltac:(lia) ltac:(lia)) as (m & ->). cbn [bind]. destruct (has_invalid_chars m); [eauto|].
      replace (idx <? len netloc)%Z with true by lia. rewrite Ei. cbn [bind].
      destruct (slice_in netloc (idx + sep_size b) en ltac:(lia) ltac:(lia)) as (sfx & ->). cbn [bind].
      destruct (slice_in netloc 0 idx ltac:(lia) ltac:(lia)) as (head & Eh). rewrite Eh. cbn [bind]. cbv zeta.
      destruct (last_sep_at _ _ _ Eh) as [->|(y & Ey & By)].
      * change (negb (-1 =? -1)%Z) with false. cbv iota. destruct (slice_in netloc 0 en ltac:(lia) ltac:(lia)) as (reg & ->). cbn [bind]. apply Sub. auto.
      * replace (negb (last_index_any head label_separators_rune_set =? -1)%Z) with true by lia. rewrite Ey. cbn [bind].
        destruct (slice_in netloc (last_index_any head label_separators_rune_set + sep_size y) idx ltac:(lia) ltac:(lia)) as (dom & ->). cbn [bind].
        destruct (slice_in netloc (last_index_any head label_separators_rune_set + sep_size y) en ltac:(lia) ltac:(lia)) as (reg & ->). cbn [bind]. apply Sub. lia.
  - assert (X : exists m, slice netloc 0 prev = Ret m) by (apply slice_in; lia). destruct X as (m & Em).
    destruct (if (idx =? -1)%Z then (len netloc, len netloc) else (idx, st)) as [i1 s1]. rewrite Em. cbn [bind]. destruct (has_invalid_chars m); [eauto|].
    destruct (slice_in netloc 0 en ltac:(lia) ltac:(lia)) as (head & Eh). rewrite Eh. cbn [bind]. cbv zeta.
    destruct (last_sep_at _ _ _ Eh) as [->|(y & Ey & By)].
    + change (negb (-1 =? -1)%Z) with false. cbv iota. cbn [bind]. rewrite Eh. cbn [bind]. apply Sub. auto.
    + replace (negb (last_index_any head label_separators_rune_set =? -1)%Z) with true by lia. rewrite Ey. cbn [bind].
      destruct (slice_in netloc (last_index_any head label_separators_rune_set + sep_size y) en ltac:(lia) ltac:(lia)) as (dom & ->). cbn [bind]. apply Sub. lia.
Qed.
Lemma extract_ends : forall ext f p o, may_end (extract_heap ext f p) o -> exists r, o = Ret r.
Proof.
  intros ext f p o H. unfold extract_heap in H. destruct (c01 ext empty_trie p) as (r0 & e0 & E0). rewrite extract_split in E0.
  destruct (extract_front ext p) as [[r|[u host]]| |]; cbn [hbind hret may_end bind] in *; [eauto| |discriminate..].
  destruct H as (x & H). unfold extract_host_heap in H. apply may_end_bind in H. destruct H as (r & H & K).
  assert (X : (exists e, r = Ret (inl e)) \/ exists w, r = Ret (inr w) /\ walk_fits host w).
  { eapply loop_fits; [exact H|unfold len; lia|lia|unfold len; lia|discriminate]. }
  destruct X as [(e & ->)|(w & -> & Fw)].
  - cbn [hret may_end] in K. eauto.
  - rewrite ipv4_host_v4 in K. cbn [hbind may_end] in K. match type of K with context [if ?x then _ else _] => destruct x end.
    + destruct (slice_in host 0 (w_previous_sep w)) as (m & Em); [pose proof (proj1 Fw); lia|pose proof (proj1 Fw); lia|]. rewrite Em in K. cbn [hbind hret may_end] in K. eauto.
    + cbn [may_end] in K. destruct (components_end u host (p_ignore_sub_domains p) w Fw) as (r & Er). rewrite Er in K. eauto.
Qed.
(** ** Executions *)
Lemma read_bounds : forall w v l x v', weak_read w v l x v' -> (forall l, v l <= c_last (w_cell w l)) -> forall l, v' l <= c_last (w_cell w l).
Proof. intros w v l x v' (k & _ & L & _ & ->) B l'. unfold put_at. destruct (location_eqb_spec l' l) as [->|]; [exact L|apply B]. Qed.
Lemma write_bounds : forall w v l x, (forall l, v l <= c_last (w_cell w l)) ->
  (forall l', c_last (w_cell w l') <= c_last (w_cell (weak_write w l x) l')) /\
  forall l', sees_write w v l l' <= c_last (w_cell (weak_write w l x) l').
Proof.
  intros w v l x B. split; [apply write_last|]. intros l'. unfold sees_write. rewrite write_cell. unfold put_at.
  destruct (location_eqb_spec l' l) as [->|]; [apply le_n|apply B].
Qed.
Lemma step_bounds : forall R (o : heap_op R) w v x w' v', weak_step o w v x w' v' -> (forall l, v l <= c_last (w_cell w l)) ->
  (forall l, c_last (w_cell w l) <= c_last (w_cell w' l)) /\ forall l, v' l <= c_last (w_cell w' l).
Proof.
  intros R o w v x w' v' S B. destruct o as [R a o| |y|f|f path|f a]; cbn [weak_step] in S.
  - destruct o; cbn [weak_on] in S.
    + destruct S as (_ & -> & ->). apply (write_bounds (mkWeak (w_cell w) _ _ _ _)). exact B.
    + destruct S as (n & S & _ & ->). split; [auto|]. eapply read_bounds; eassumption.
    + destruct S as (n & v1 & S & -> & ->). apply write_bounds. eapply read_bounds; eassumption.
    + destruct S as (n & S & _ & ->). split; [auto|]. eapply read_bounds; eassumption.
    + destruct S as (n & S & _ & ->). split; [auto|]. eapply read_bounds; eassumption.
    + destruct S as (n & S & _ & ->). split; [auto|]. eapply read_bounds; eassumption.
    + destruct S as (n & v1 & S & -> & ->). apply write_bounds. eapply read_bounds; eassumption.
  - destruct S as (_ & -> & ->). apply (write_bounds (mkWeak (w_cell w) _ _ _ _)). exact B.
  - destruct S as (_ & -> & ->). set (f := w_next_extractor w). set (w1 := mkWeak _ _ _ _ _).
    destruct (write_bounds w1 v (PathAt f) (PathValue (x_path y)) B) as (G1 & G2).
    destruct (write_bounds _ _ (TrieAt f) (TrieValue (x_trie y)) G2) as (G3 & G4). split.
    + intros l. specialize (G1 l). specialize (G3 l). change (w_cell w l) with (w_cell w1 l). lia.
    + exact G4.
  - destruct S as (p & t & v1 & S1 & S2 & _ & ->). split; [auto|]. eapply read_bounds; [exact S2|]. eapply read_bounds; eassumption.
  - destruct S as (-> & ->). apply write_bounds. exact B.
  - destruct S as (-> & ->). apply write_bounds. exact B.
Qed.
(** ** The host *)

Definition host_err (x : err) : Prop := x = ErrConsecutiveSeparators \/ x = ErrInvalidChars \/ x = ErrEmptyDomain.
Lemma loop_err : forall fuel netloc node hs hl sep start en x,
  suffix_loop fuel netloc node hs hl sep start en = Ret (inl x) -> x = ErrConsecutiveSeparators.
Proof.
  induction fuel as [|fuel IH]; intros netloc node hs hl sep start en x H; [discriminate H|]. cbn [suffix_loop] in H.
  destruct (slice netloc 0 sep) as [head| |]; cbn [bind] in H; try discriminate H.
  match type of H with bind ?m _ = _ => destruct m as [[label e]| |] end; cbn [bind] in H; try discriminate H.
  destruct (negb _ && _); [destruct (negb hl); [eapply IH; exact H|injection H as <-; reflexivity]|].
  destruct (child node (str "*")); [discriminate H|]. destruct (child node _) as [val|]; [|discriminate H].
  destruct (if negb hs && end_of val then _ else _) as [en' hs']. destruct (_ || e); [discriminate H|]. eapply IH; exact H.
Qed.
Lemma host_kind : forall t u host ig r e, extract_host t u host ig = Ret (r, e) ->
  (e = None /\ r_host_type r <> HIPv6) \/ exists x, e = Some x /\ host_err x.
Proof.
  intros t u host ig r e H. unfold extract_host in H.
  destruct (suffix_loop _ host t false false _ _ _) as [[x|w]| |] eqn:L; cbn [bind] in H; try discriminate H.
  { injection H as <- <-. apply loop_err in L. subst x. right. eexists. split; [reflexivity|]. left. reflexivity. }
  destruct (ipv4_host host) as [[|]| |]; cbn [bind] in H; try discriminate H.
  { destruct (slice host 0 (w_previous_sep w)); cbn [bind] in H; try discriminate H. injection H as <- <-. left. split; [reflexivity|discriminate]. }
  unfold host_components in H. destruct (if w_sep_idx w =? -1 then _ else _)%Z as [si ss].
  destruct (slice host 0 _) as [ch| |]; cbn [bind] in H; try discriminate H.
  destruct (has_invalid_chars ch). { injection H as <- <-. right. eexists. split; [reflexivity|]. right. left. reflexivity. }
  match type of H with bind ?m _ = _ => destruct m as [[u1 ds]| |] end; cbn [bind] in H; try discriminate H.
  match type of H with bind ?m _ = _ => destruct m as [u2| |] end; cbn [bind] in H; try discriminate H.
  destruct (len (r_domain u2) =? 0)%Z; injection H as <- <-.
  - right. eexists. split; [reflexivity|]. right. right. reflexivity.
  - left. split; [reflexivity|discriminate].
Qed.
Lemma front_parts : forall ext p u h, Calls.extract_front ext p = Ret (inr (u, h)) ->
  exists scheme user raw port path, url_parts ext p scheme user raw h port path.
Proof.
  intros ext p u h F. destruct (c01 ext (Node false []) p) as (r & e & E).
  destruct (extract_cases _ _ _ _ _ E) as (sc & us & re & Fr & C). pose proof E as K. rewrite extract_split, F in K. cbn [bind] in K.
  apply host_kind in K.
  assert (Bad : forall x, e = Some x -> host_err x).
  { intros x ->. destruct K as [(K & _)|(y & K & Hy)]; [discriminate K|]. injection K as ->. exact Hy. }
  destruct C as [(x & -> & _ & C)|[(a & af & po & pa & _ & _ & _ & [(_ & -> & ->)|(_ & -> & _)])|(raw & af & po & pa & -> & Hr & A & _ & [(x & Cv & -> & _)|(h' & Cv & _)])]].
  - exfalso. specialize (Bad x eq_refl). unfold host_err in Bad.
    destruct C as [(? & ? & ? & ? & _ & _ & _ & _ & ->)|(_ & I)].
    + destruct Bad as [Bad|[Bad|Bad]]; discriminate Bad.
    + cbn [In] in I. destruct Bad as [-> |[-> | ->]]; repeat (destruct I as [I|I]; [discriminate I|]); destruct I.
  - exfalso. destruct K as [(_ & K)|(y & K & _)]; [|discriminate K]. apply K. reflexivity.
  - exfalso. destruct (Bad _ eq_refl) as [X|[X|X]]; discriminate X.
  - exfalso. specialize (Bad x eq_refl). unfold convert_host in Cv.
    destruct (query_unescape raw) as [y|d]; [injection Cv as <-; destruct Bad as [X|[X|X]]; discriminate X|].
    destruct (p_to_punycode p); [discriminate Cv|]. destruct (idna_to_unicode_err ext d); [|discriminate Cv].
    injection Cv as <-. destruct Bad as [X|[X|X]]; discriminate X.
  - assert (U : url_parts ext p sc us raw h' po pa) by (exists af; auto).
    rewrite (front_host _ _ _ _ _ _ _ _ _ _ U F). eauto 10.
Qed.

Section Executions.
Variable to_ascii : bytes -> option bytes.
Variable hardcoded : bytes.
Variable ext : idna.
Lemma advance_end : forall w v (p : hprog answer) tr w' v' p' o, weak_advance w v p tr w' v' p' -> may_end p' o -> may_end p o.
Proof.
  intros w v p tr w' v' p' o A H. destruct p as [r|R op k|R op k]; cbn [weak_advance may_end] in *; [destruct A| |].
  - destruct A as (_ & _ & x & _ & ->). exists x. exact H.
  - destruct A as (_ & x & _ & ->). exists x. exact H.
Qed.
Lemma threads_end : forall q, wpool_steps to_ascii hardcoded ext first_wpool q ->
  forall th, In th (wp_threads q) -> forall o, may_end (wt_rest th) o -> may_end (heap_program to_ascii hardcoded ext (wt_call th)) o.
Proof.
  intros q H. remember first_wpool as q0 eqn:E0. induction H as [q|q1 q2 q3 H IH S]; subst; [intros th []|]. specialize (IH eq_refl).
  destruct S as [w known ts n tr d c May|w known ts1 i c p v ts2 n tr d tr' w' v' p' Adv|w known ts1 i c r v ts2 n tr d]; cbn [wp_threads] in *; intros th I1 o M.
  - apply in_app_iff in I1. destruct I1 as [I1|[<-|[]]]; [apply (IH th I1 o M)|exact M].
  - apply in_app_iff in I1. destruct I1 as [I1|[<-|I1]].
    + apply (IH th); [apply in_app_iff; auto|exact M].
    + apply (IH (mkWThread i c p v)); [apply in_app_iff; right; left; reflexivity|]. cbn [wt_rest] in *. eapply advance_end; eassumption.
    + apply (IH th); [apply in_app_iff; right; right; exact I1|exact M].
  - apply (IH th); [|exact M]. apply in_app_iff in I1. apply in_app_iff. destruct I1; [left|right; right]; assumption.
Qed.
Lemma c102_any : forall q i f p o v, wpool_steps to_ascii hardcoded ext first_wpool q ->
  In (mkWThread i (CallExtract f p) (HDone o) v) (wp_threads q) ->
  (forall scheme user raw h port path, url_parts ext p scheme user raw h port path ->
   forall part, has_text h part -> ~ percent_decoded part (str "*")) ->
  exists t r, extract ext t p = Ret r /\ o = Ret (FromExtract r).
Proof.
  intros q i f p o v H I1 NS. pose proof (threads_end q H _ I1 o eq_refl) as M. cbn [wt_call heap_program] in M.
  apply may_end_bind in M. destruct M as (r & M & K).
  destruct (extract_any ext f p r) as (t & E).
  - intros u host F part T Q. destruct (front_parts _ _ _ _ F) as (sc & us & raw & po & pa & U).
    apply (NS _ _ _ _ _ _ U part T). apply percent_decoded_iff. exact Q.
  - exact M.
  - destruct (c01 ext t p) as (a & e & Ea).
    rewrite Ea in E. subst r. cbn [hret may_end] in K. exists t, (a, e). auto.
Qed.
(** Views stay within what was written. *)
Lemma views_bounded : forall q, wpool_steps to_ascii hardcoded ext first_wpool q ->
  (forall th, In th (wp_threads q) -> forall l, wt_view th l <= c_last (w_cell (wp_weak q) l))
  /\ forall l, wp_ended q l <= c_last (w_cell (wp_weak q) l).
Proof.
  intros q H. remember first_wpool as q0 eqn:E0. induction H as [q|q1 q2 q3 H IH S]; subst.
  { split; [intros th []|]. intros l. apply le_n. }
  specialize (IH eq_refl). destruct IH as (IH1 & IH2).
  destruct S as [w known ts n tr d c May|w known ts1 i c p v ts2 n tr d tr' w' v' p' Adv|w known ts1 i c r v ts2 n tr d]; cbn [wp_threads wp_weak wp_ended] in *.
  - split; [|exact IH2]. intros th I1. apply in_app_iff in I1. destruct I1 as [I1|[<-|[]]]; [apply IH1; exact I1|exact IH2].
  - assert (Bv : forall l, v l <= c_last (w_cell w l)) by (apply (IH1 (mkWThread i c p v)); apply in_app_iff; right; left; reflexivity).
    assert (G : (forall l, c_last (w_cell w l) <= c_last (w_cell w' l)) /\ forall l, v' l <= c_last (w_cell w' l)).
    { destruct p as [r|R op k|R op k]; cbn [weak_advance] in Adv; [destruct Adv| |].
      - destruct Adv as (-> & -> & _). auto.
      - destruct Adv as (_ & x & St & _). exact (step_bounds _ _ _ _ _ _ _ St Bv). }
    destruct G as (G1 & G2). split; [|intros l; specialize (G1 l); specialize (IH2 l); lia].
    intros th I1 l. apply in_app_iff in I1. destruct I1 as [I1|[<-|I1]]; [|apply G2|];
      (specialize (G1 l); assert (X : wt_view th l <= c_last (w_cell w l)) by (apply IH1; apply in_app_iff; cbn [In]; auto); lia).
  - split.
    + intros th I1. apply IH1. apply in_app_iff in I1. apply in_app_iff. destruct I1; [left|right; right]; assumption.
    + intros l. unfold join. specialize (IH2 l).
      assert (X : v l <= c_last (w_cell w l)) by (apply (IH1 (mkWThread i c (HDone r) v)); apply in_app_iff; right; left; reflexivity). lia.
Qed.
Lemma c102_returns : forall q i f p o v, wpool_steps to_ascii hardcoded ext first_wpool q ->
  In (mkWThread i (CallExtract f p) (HDone o) v) (wp_threads q) -> exists r, o = Ret (FromExtract r).
Proof.
  intros q i f p o v H I1. pose proof (threads_end q H _ I1 o eq_refl) as M. cbn [wt_call heap_program] in M.
  apply may_end_bind in M. destruct M as (r & M & K). destruct (extract_ends ext f p r M) as (a & ->). cbn [hret may_end] in K. eauto.
Qed.
End Executions.
