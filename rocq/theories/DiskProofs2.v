(** DiskProofs2.v - New on a file system: which list it uses and when it downloads. *)

From Verif Require Import Base BaseFacts Chars Str StrFacts Trie Psl ListSpec ListFacts World Update UpdateSpec WorldFacts
  NewFacts UpdateProofs DiskProofs.
From Coq Require Import ZifyBool ZifyNat ZifyN.

Lemma markers_app : forall a b, has_markers a -> has_markers (a ++ b).
Proof.
  assert (T : forall a b s, has_text a s -> has_text (a ++ b) s).
  { intros a b s (x & y & ->). exists x, (y ++ b). rewrite <- !app_assoc. reflexivity. }
  intros a b (A & B & C & D). repeat split; apply T; assumption.
Qed.

Lemma from_cache_disk : forall to_ascii hardcoded n f path d m tr d' m' r text mt, disk_ok d ->
  runs disk_step (new_from_cache to_ascii hardcoded n f path) d m tr d' m' r -> (f < m_next_extractor m)%nat ->
  list_at d path text mt ->
  d' = d /\ r = Ret (f, None) /\ serves to_ascii m' f (lp_private n) text
  /\ x_path (m_extractor m' f) = x_path (m_extractor m f) /\ ~ downloads tr.
Proof.
  intros to_ascii hardcoded n f path d m tr d' m' r text mt Ok H Hf L.
  pose proof (path_nonempty _ _ _ _ Ok L) as Hne.
  pose proof (new_from_cache_wrote _ _ _ _ _ _ _ _ _ _ _ _ _ H Hf) as [_ ND].
  apply new_from_cache_runs in H as (_ & _ & [(P & _)|(_ & x & (-> & ->) & -> & H)]); [contradiction| |exact Hf].
  destruct L as (_ & _ & wr & L). rewrite L in *. destruct H as (-> & Sv & Hx & _).
  split; [reflexivity|]. split; [reflexivity|]. split; [exact Sv|]. rewrite Hx. auto.
Qed.

(** Paths keep their meaning. *)
Lemma step_names : forall R (o : sys R) d x d', disk_step R o d x d' ->
  d_temp d' = d_temp d /\ d_abs d' = d_abs d /\ d_name d' = d_name d.
Proof.
  assert (W : forall d fd data, d_temp (written d fd data) = d_temp d /\ d_abs (written d fd data) = d_abs d
    /\ d_name (written d fd data) = d_name d).
  { intros d fd data. unfold written. destruct (d_fd d fd) as [n off]. destruct (d_entry d n); auto. }
  intros R o d x d' H. destruct o; cbn [disk_step] in H.
  - destruct H as (_ & ->); auto.
  - destruct H as (_ & ->); auto.
  - destruct H as (-> & _); auto.
  - destruct H as (_ & ->); auto.
  - destruct H as (-> & _); auto.
  - destruct H as (-> & _); auto.
  - destruct (at_path d path) as [[]|t b|c t rd []]; [destruct H as (rd & _ & ->)|destruct H as (_ & ->)..]; auto.
  - destruct H as [(_ & ->)|(_ & ->)]; auto.
  - destruct H as [(_ & ->)|[(_ & k & _ & ->)|(_ & ->)]]; auto.
  - subst d'. auto.
Qed.
Lemma runs_names : forall A (p : prog A) d m tr d' m' r, runs disk_step p d m tr d' m' r ->
  d_temp d' = d_temp d /\ d_abs d' = d_abs d /\ d_name d' = d_name d.
Proof.
  intros A. induction p as [o|R o c IH|R o c IH]; intros d m tr d' m' r H; cbn [runs] in H.
  - destruct H as (_ & -> & _). auto.
  - destruct H as (x & d1 & tr1 & S & -> & H). apply step_names in S as (A1 & A2 & A3).
    apply IH in H as (B1 & B2 & B3). rewrite A1 in B1. rewrite A2 in B2. rewrite A3 in B3. auto.
  - destruct (mem_step o m) as [x m1]. eapply IH; eauto.
Qed.

(** What New does on a disk, by cases. *)
Lemma new_disk : forall to_ascii hardcoded n p d m tr d' m' r,
  disk_ok d -> trimmed white_space (lp_path n) p -> unpadded (default_path d) ->
  runs disk_step (new to_ascii hardcoded n) d m tr d' m' r ->
  (exists text mt d0 m0 tr0 tr1, list_at d p text mt /\ later d d0 /\ tr = tr0 ++ tr1 /\ ~ downloads tr0
     /\ m_next_extractor m0 = S (m_next_extractor m)
     /\ runs disk_step (new_from_cache to_ascii hardcoded n (m_next_extractor m) (lp_path n)) d0 m0 tr1 d' m' r)
  \/ (no_list_at d p /\ exists t, (d_now d <= t <= d_now d')%Z /\ exists f, r = Ret (f, None) /\
      ((~ can_open d (d_temp d) /\ serves to_ascii m' f (lp_private n) hardcoded /\ ~ downloads tr /\ d_entry d' = d_entry d)
       \/ (can_open d (d_temp d) /\ exists text mt, list_at d (default_path d) text mt /\ (t - mt <= psl_max_age)%Z
           /\ serves to_ascii m' f (lp_private n) text /\ x_path (m_extractor m' f) = default_path d
           /\ ~ downloads tr /\ d_entry d' = d_entry d)
       \/ (can_open d (d_temp d)
           /\ ~ (exists text mt, list_at d (default_path d) text mt /\ (t - mt <= psl_max_age)%Z)
           /\ (downloads tr <-> can_write d (default_path d))
           /\ (forall path, d_name d path <> d_name d (default_path d) -> at_path d' path = at_path d path)
           /\ (serves to_ascii m' f (lp_private n) hardcoded
               \/ exists text, stored d' (default_path d) text /\ has_markers text
                  /\ serves to_ascii m' f (lp_private n) text /\ x_path (m_extractor m' f) = default_path d)))).
Proof.
  intros to_ascii hardcoded n p d m tr d' m' r Ok T Td H. apply new_runs in H.
  destruct H as (tr0 & d0 & valid & age & tr1 & C & -> & H).
  destruct (check_disk _ _ _ _ _ _ _ _ _ Ok T C) as (_ & Lt & ND & V).
  destruct V as [(-> & text & mt & L & _)|(-> & N)].
  { left. destruct H as [(_ & H)|(X & _)]; [|discriminate].
    exists text, mt, d0, (start_memory m (lp_path n) (lp_private n)), tr0, tr1. auto 10. }
  right. split; [exact N|]. destruct H as [(X & _)|(_ & temp & d1 & opened & d2 & tr2 & (-> & ->) & (-> & ->) & -> & H)]; [discriminate|].
  pose proof (later_ok _ _ Lt Ok) as Ok0.
  assert (Hp : d_temp d0 ++ default_psl_file_name = default_path d) by exact (later_default _ _ Lt).
  assert (Tm : d_temp d0 = d_temp d) by (destruct Lt as (? & _ & ->); reflexivity).
  rewrite Tm in *. rewrite (later_at _ _ _ Lt) in *.
  set (opened := match at_path d (d_temp d) with Absent _ => false | Directory _ b => b | Regular _ _ rd _ => rd end) in *.
  assert (Op : opened = true <-> can_open d (d_temp d)).
  { unfold opened, can_open. destruct (at_path d (d_temp d)); split; auto; try discriminate; try contradiction. }
  assert (LtE : forall d1, later d0 d1 -> d_entry d1 = d_entry d /\ (d_now d <= d_now d1)%Z).
  { intros d1 L1. destruct (later_trans _ _ _ Lt L1) as (t & Ht & ->). cbn. auto. }
  destruct H as [(O & H)|(O & H)].
  { apply new_hardcoded_runs in H as (-> & -> & _ & -> & _ & _ & _ & _ & Sv).
    destruct (LtE d0 (later_refl _)) as (En & Tn). exists (d_now d). split; [lia|]. eexists. split; [reflexivity|]. left.
    split; [rewrite <- Op, O; discriminate|]. split; [exact Sv|]. split; [|exact En].
    rewrite downloads_app, !downloads_cons. intros [X|[X|[X|X]]]; auto using downloads_nil. }
  assert (Co : can_open d (d_temp d)) by (apply Op; exact O).
  cbn zeta in H. destruct H as (valid' & age' & tr3 & tr4 & d3 & C' & -> & H). rewrite Hp in *.
  destruct (check_disk _ _ _ _ _ _ _ _ _ Ok0 Td C') as (_ & Lt3 & ND3 & V').
  pose proof (later_trans _ _ _ Lt Lt3) as L03. pose proof (later_ok _ _ L03 Ok) as Ok3.
  destruct (LtE d3 Lt3) as (En3 & Tn3).
  assert (Dl : forall tr, downloads (tr0 ++ Event TempDir (d_temp d) :: Event (OpenDir (d_temp d)) opened :: tr3 ++ tr) <-> downloads tr).
  { intros tr. rewrite downloads_app, !downloads_cons, downloads_app. split; [|tauto].
    intros [X|[X|[X|[X|X]]]]; try contradiction; auto; contradiction X; reflexivity. }
  exists (d_now d3). destruct H as [(-> & Age & H)|(Inv & tr5 & tr6 & d5 & m5 & u & U & -> & H)].
  - destruct V' as [(_ & text & mt & L & ->)|(X & _)]; [|discriminate].
    apply (later_list _ _ _ _ _ Lt) in L. pose proof L as L'. apply (later_list _ _ _ _ _ L03) in L'.
    destruct (from_cache_disk _ _ _ _ _ _ _ _ _ _ _ _ _ Ok3 H (Nat.lt_succ_diag_r _) L') as (-> & -> & Sv & Xp & ND4).
    split; [lia|]. eexists. split; [reflexivity|]. right. left. split; [exact Co|].
    exists text, mt. split; [exact L|]. split; [exact Age|]. split; [exact Sv|].
    split; [rewrite Xp; cbn [default_memory set_extractor m_extractor]; rewrite upd_same; reflexivity|].
    split; [rewrite Dl; exact ND4|exact En3].
  - assert (Stale : ~ (exists text mt, list_at d (default_path d) text mt /\ (d_now d3 - mt <= psl_max_age)%Z)).
    { intros (text & mt & L & A). apply (later_list _ _ _ _ _ Lt) in L.
      destruct V' as [(-> & text' & mt' & L' & ->)|(-> & N')]; [|exact (N' _ _ L)].
      destruct Inv as [X|X]; [discriminate|]. destruct L as (_ & _ & w & L). destruct L' as (_ & _ & w' & L').
      rewrite L in L'. injection L' as -> -> ->. lia. }
    assert (Xp : x_path (m_extractor (default_memory m (lp_path n) (lp_private n) (default_path d)) (m_next_extractor m)) = default_path d3).
    { cbn [default_memory set_extractor m_extractor]. rewrite upd_same. cbn [x_path]. symmetry. exact (later_default _ _ L03). }
    destruct (update_disk _ _ _ _ _ _ _ _ _ U Xp) as (Sb & Du & R).
    rewrite (later_default _ _ L03) in *.
    assert (Cw : can_write d3 (default_path d) <-> can_write d (default_path d)).
    { unfold can_write. rewrite (later_at _ _ _ L03). reflexivity. }
    assert (Oth : forall path, d_name d path <> d_name d (default_path d) -> at_path d5 path = at_path d path).
    { intros path Hn. rewrite <- (later_at _ _ path L03). destruct L03 as (t3 & _ & E3). rewrite E3 in *.
      destruct Sb as (_ & _ & Nm & _ & En). unfold at_path. rewrite Nm. apply En. exact Hn. }
    assert (Now5 : d_now d5 = d_now d3) by apply Sb.
    destruct u as [er|].
    + apply new_hardcoded_runs in H as (-> & -> & _ & -> & _ & _ & _ & _ & Sv).
      split; [lia|]. eexists. split; [reflexivity|]. right. right. split; [exact Co|]. split; [exact Stale|].
      split; [rewrite Dl, app_nil_r, Du; exact Cw|]. split; [exact Oth|]. left. exact Sv.
    + destruct H as (-> & -> & -> & ->). destruct (R eq_refl) as (old & body & before & I & St & Pb & M & D & W & _ & Sv).
      split; [lia|]. eexists. split; [reflexivity|]. right. right. split; [exact Co|]. split; [exact Stale|].
      split; [rewrite Dl, app_nil_r, Du; exact Cw|]. split; [exact Oth|]. right.
      exists (body ++ skipn (length body) before). split; [exact St|]. split; [apply markers_app; exact M|].
      split; [|].
      * cbn [default_memory set_extractor m_extractor] in Sv. rewrite upd_same in Sv. exact Sv.
      * apply update_effect in U as (_ & _ & _ & [(er & X & _)|(_ & P & _)]); [discriminate|]. rewrite P.
        cbn [default_memory set_extractor m_extractor]. rewrite upd_same. reflexivity.
Qed.

(** ** C36: lists without the markers are not used *)

Lemma c36_used_partial : forall to_ascii hardcoded n d m tr d' m' r,
  disk_ok d -> unpadded (lp_path n) -> unpadded (default_path d) ->
  runs disk_step (new to_ascii hardcoded n) d m tr d' m' r ->
  exists f, r = Ret (f, None) /\
    (serves to_ascii m' f (lp_private n) hardcoded
     \/ exists text, has_markers text /\ (stored d' (lp_path n) text \/ stored d' (default_path d) text)
        /\ serves to_ascii m' f (lp_private n) text).
Proof.
  intros to_ascii hardcoded n d m tr d' m' r Ok Up Ud H.
  pose proof (new_disk _ _ _ _ _ _ _ _ _ _ Ok Up Ud H) as D.
  destruct D as [(text & mt & d0 & m0 & tr0 & tr1 & L & Lt & -> & ND & Ne & R)|(N & t & Ht & f & -> & D)].
  - pose proof L as L0. apply (later_list _ _ _ _ _ Lt) in L0. pose proof (later_ok _ _ Lt Ok) as Ok0.
    destruct (from_cache_disk _ _ _ _ _ _ _ _ _ _ _ _ _ Ok0 R ltac:(lia) L0) as (-> & -> & Sv & _).
    eexists. split; [reflexivity|]. right. exists text. destruct L0 as (_ & M & w & L0). split; [exact M|].
    split; [left; exists mt, true, w; exact L0|exact Sv].
  - exists f. split; [reflexivity|]. destruct D as [(_ & Sv & _)|[(_ & text & mt & L & _ & Sv & _ & _ & En)|(_ & _ & _ & _ & [Sv|(text & St & M & Sv & _)])]].
    + auto.
    + right. exists text. destruct L as (_ & M & w & L). split; [exact M|]. split; [|exact Sv].
      right. assert (Nm : d_name d' = d_name d).
      { apply (runs_names _ _ _ _ _ _ _ _ H). }
      exists mt, true, w. unfold at_path. rewrite En, Nm. exact L.
    + auto.
    + right. exists text. auto.
Qed.
