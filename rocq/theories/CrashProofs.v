(** CrashProofs.v - exactly which texts an interrupted Update can leave: proofs of C92. *)

From Verif Require Import Base BaseFacts Chars Str StrFacts Trie Psl ListSpec ListFacts World Update UpdateSpec WorldFacts
  UpdateProofs DiskProofs NewSpec NewProofs ExactDisk CrashSpec.
From Coq Require Import ZifyBool ZifyNat ZifyN.
Local Open Scope Z_scope.

Lemma layered_same : forall c old, layered c old old.
Proof. induction c as [|c IH]; intros old; cbn [layered]; auto. Qed.

Lemma layered_piece : forall c old body k new, has_markers body -> (k <= length body)%nat ->
  (k < length body -> layered c (firstn k body ++ skipn k old) new)%nat ->
  (k = length body -> new = body ++ skipn (length body) old) -> layered (S c) old new.
Proof.
  intros c old body k new M K A B. cbn [layered]. right. exists body. split; [exact M|].
  destruct (Nat.eq_dec k (length body)) as [E|E]; [auto|]. right. exists k. split; [lia|]. apply A. lia.
Qed.

Lemma runs_reaches : forall E (step : forall R : Type, sys R -> E -> R -> E -> Prop) during A (p : prog A) e m tr e' m' r,
  runs step p e m tr e' m' r -> reaches step during p e m e'.
Proof.
  intros E step during A. induction p as [o|R o c IH|R o c IH]; intros e m tr e' m' r H; cbn [runs reaches] in *.
  - left. apply H.
  - destruct H as (x & e1 & tr1 & S & _ & H). right. right. eauto.
  - destruct (mem_step o m) as [x m1]. right. eauto.
Qed.

Lemma reaches_first : forall E (step : forall R : Type, sys R -> E -> R -> E -> Prop) during A B (p : prog A) (k : A -> prog B) e m e',
  reaches step during p e m e' -> reaches step during (pbind p k) e m e'.
Proof.
  intros E step during A B p k. induction p as [o|R o c IH|R o c IH]; intros e m e' H.
  - cbn [reaches] in H. destruct H as [->|[]]. apply reaches_start.
  - cbn [pbind reaches] in *. destruct H as [->|[H|(x & e1 & S & H)]]; [auto|auto|]. right. right. eauto.
  - cbn [pbind reaches] in *. destruct H as [->|H]; [auto|]. right. destruct (mem_step o m) as [x m1]. auto.
Qed.

(** The texts behind the file while the sources are tried ... *)
Lemma update_file_layers : forall fd n sources d m d' text,
  reaches disk_step disk_during (update_file fd sources) d m d' -> open_text d fd n text ->
  same_but n d d' /\ exists text', open_text d' fd n text' /\ layered (length sources) text text'.
Proof.
  intros fd n. induction sources as [|s rest IH]; intros d m d' text H O; cbn [update_file] in H.
  { cbn [reaches ret] in H. destruct H as [->|[]]. split; [apply same_but_refl|]. exists text. split; [exact O|reflexivity]. }
  assert (Here : same_but n d d /\ exists text', open_text d fd n text' /\ layered (length (s :: rest)) text text')
    by (split; [apply same_but_refl|eauto using layered_same]).
  assert (Next : forall d1, reaches disk_step disk_during (update_file fd rest) d1 m d' -> same_but n d d1 ->
    open_text d1 fd n text -> same_but n d d' /\ exists text', open_text d' fd n text' /\ layered (length (s :: rest)) text text').
  { intros d1 G S1 O1. destruct (IH _ _ _ _ G O1) as (S2 & text' & O2 & L2). split; [eapply same_but_trans; eauto|].
    exists text'. split; [exact O2|]. cbn [length layered]. auto. }
  unfold download_file in H. cbn [pbind sys_do ret] in H. apply reaches_sys in H as [->|[[]|(resp & d1 & S & H)]]; [exact Here|].
  cbn [disk_step] in S. subst d1.
  destruct resp as [|status body complete]; [eapply Next; eauto using same_but_refl|].
  destruct (status =? 200)%Z; [|eapply Next; eauto using same_but_refl].
  destruct complete; [|eapply Next; eauto using same_but_refl].
  cbn [pbind ret] in H. destruct (valid_psl_delimiters body) eqn:D; cbn [negb] in H; [|eapply Next; eauto using same_but_refl].
  apply delimiters_iff in D. cbn [pbind sys_do ret] in H. apply reaches_sys in H as [->|[[]|(x & d2 & S2 & H)]]; [exact Here|].
  destruct (seek_disk _ _ _ _ _ _ S2 O) as (Sb & O2 & _ & Off).
  destruct x; cbn [negb] in H; [|eapply Next; eauto].
  cbn [pbind sys_do ret] in H. apply reaches_sys in H as [->|[(k & Hk & ->)|(ok & d3 & S3 & H)]]; [split; eauto using layered_same| |].
  - destruct (written_start d2 fd n text (firstn k body) O2 (Off eq_refl)) as (Sb3 & O3).
    rewrite firstn_length_le' in O3 by exact Hk. split; [eapply same_but_trans; eauto|].
    eexists. split; [exact O3|]. cbn [length]. apply layered_piece with (body := body) (k := k); [assumption|assumption|intros _; apply layered_same|].
    intros ->. rewrite firstn_all. reflexivity.
  - cbn [disk_step] in S3. destruct S3 as [(-> & ->)|[(-> & k & Hk & ->)|(-> & ->)]].
    + cbn [negb ret reaches] in H. destruct H as [->|[]].
      destruct (written_start d2 fd n text body O2 (Off eq_refl)) as (Sb3 & O3). split; [eapply same_but_trans; eauto|].
      eexists. split; [exact O3|]. cbn [length layered]. right. exists body. auto.
    + destruct (written_start d2 fd n text (firstn k body) O2 (Off eq_refl)) as (Sb3 & O3).
      rewrite firstn_length_le' in O3 by lia. cbn [negb] in H. destruct (IH _ _ _ _ H O3) as (S4 & text' & O4 & L4).
      split; [eapply same_but_trans; [exact Sb|]; eapply same_but_trans; eauto|]. exists text'. split; [exact O4|].
      cbn [length layered]. right. exists body. split; [exact D|]. right. exists k. auto.
    + cbn [negb] in H. eapply Next; eauto.
Qed.

(** ... and all of them occur. *)
Lemma layers_update_file : forall fd n sources d m text new, open_text d fd n text -> layered (length sources) text new ->
  exists d', reaches disk_step disk_during (update_file fd sources) d m d' /\ same_but n d d' /\ open_text d' fd n new.
Proof.
  intros fd n. induction sources as [|s rest IH]; intros d m text new O L.
  { cbn [length layered] in L. subst new. exists d. split; [apply reaches_start|]. split; [apply same_but_refl|exact O]. }
  cbn [length layered] in L. destruct L as [L|(body & M & L)].
  { destruct (IH d m text new O L) as (d' & R & S & O'). exists d'. split; [|auto]. cbn [update_file]. unfold download_file.
    cbn [pbind sys_do ret reaches]. right. right. exists NoResponse, d. split; [reflexivity|]. exact R. }
  pose (d2 := with_fd d fd (fst (d_fd d fd), 0%nat)).
  assert (S2 : disk_step _ (SeekStart fd) d true d2) by (left; split; reflexivity).
  destruct (seek_disk _ _ _ _ _ _ S2 O) as (Sb2 & Op2 & _ & Off). apply delimiters_iff in M.
  assert (Go : forall d', reaches disk_step disk_during
      (w <~ sys_do (Write fd body) ;; if negb w then update_file fd rest else ret None) d2 m d' ->
      reaches disk_step disk_during (update_file fd (s :: rest)) d m d').
  { intros d' G. cbn [update_file]. unfold download_file. cbn [pbind sys_do ret reaches]. right. right.
    exists (Response 200 body true), d. split; [reflexivity|]. change (200 =? 200) with true. cbn [pbind ret]. rewrite M.
    cbn [negb pbind sys_do ret reaches]. right. right. exists true, d2. split; [exact S2|]. cbn [negb]. exact G. }
  destruct L as [->|(k & K & L)].
  - destruct (written_start d2 fd _ _ body Op2 (Off eq_refl)) as (Sb3 & Op3). exists (written d2 fd body).
    split; [|split; [exact (same_but_trans _ _ _ _ Sb2 Sb3)|exact Op3]]. apply Go. cbn [pbind sys_do ret reaches]. right. left.
    exists (length body). split; [lia|]. rewrite firstn_all. reflexivity.
  - destruct (written_start d2 fd _ _ (firstn k body) Op2 (Off eq_refl)) as (Sb3 & Op3).
    rewrite firstn_length_le' in Op3 by lia.
    destruct (IH _ m _ _ Op3 L) as (d' & R & S & O'). exists d'.
    split; [|split; [exact (same_but_trans _ _ _ _ Sb2 (same_but_trans _ _ _ _ Sb3 S))|exact O']].
    apply Go. cbn [pbind sys_do ret reaches]. right. right. exists false, (written d2 fd (firstn k body)).
    split; [|exact R]. right. left. split; [reflexivity|]. exists k. auto.
Qed.

Lemma c92 : forall to_ascii hardcoded f d m old text, x_path (m_extractor m f) = default_path d ->
  can_write d (default_path d) -> initial_text d (default_path d) old ->
  ((exists d', reaches disk_step disk_during (update to_ascii hardcoded f) d m d' /\ initial_text d' (default_path d) text)
   <-> layered 2 old text).
Proof.
  intros to_ascii hardcoded f d m old text P Cw I. split.
  - intros (d' & H & T).
    assert (Same : d' = d -> layered 2 old text).
    { intros ->. rewrite (initial_unique _ _ _ _ T I). apply layered_same. }
    unfold update in H. cbn [pbind sys_do ret] in H. apply reaches_sys in H as [X|[[]|(temp & d1 & (-> & ->) & H)]]; [auto|].
    cbn [pbind mem_do ret reaches mem_step] in H. destruct H as [X|H]; [auto|].
    destruct (negb _); [cbn [ret reaches] in H; destruct H as [X|[]]; auto|].
    change (d_temp d ++ default_psl_file_name) with (default_path d) in H.
    cbn [pbind sys_do ret] in H. apply reaches_sys in H as [X|[[]|(file & d2 & S2 & H)]]; [auto|].
    destruct (open_disk _ _ _ _ S2) as [(-> & -> & Nw)|(_ & -> & Sb & old' & I' & O)]; [contradiction|].
    rewrite (initial_unique _ _ _ _ I' I) in O.
    assert (Fin : reaches disk_step disk_during (update_file (d_next_fd d) public_suffix_list_sources) d2 m d' -> layered 2 old text).
    { intros R. destruct (update_file_layers _ _ _ _ _ _ _ R O) as (S3 & text' & (_ & mt & rd & E) & L).
      assert (St : initial_text d' (default_path d) text').
      { left. exists mt, rd, true. rewrite (same_but_at d d'); [exact E|]. eapply same_but_trans; eauto. }
      rewrite (initial_unique _ _ _ _ T St). exact L. }
    apply reaches_bind in H as [H|(tr & d3 & m3 & u & R & H)]; [auto|]. apply Fin.
    assert (D3 : d' = d3).
    { destruct u as [er|]; [cbn [ret reaches] in H; tauto|].
      cbn [pbind mem_do ret reaches mem_step] in H. destruct H as [->|H]; [reflexivity|].
      apply reaches_bind in H as [H|(tr4 & d4 & m4 & (a & e) & R4 & H)].
      - apply trie_construct_reaches in H. exact H.
      - apply trie_construct_runs in R4 as (_ & _ & _ & _ & [(_ & _ & -> & _)|(_ & x & (-> & _) & _)]);
          destruct e; cbn [pbind mem_do ret reaches mem_step] in H; tauto. }
    subst d'. eapply runs_reaches. exact R.
  - intros L.
    assert (O : exists d1, disk_step _ (OpenWrite (default_path d)) d (Some (d_next_fd d)) d1).
    { cbn [disk_step]. unfold can_write in Cw. destruct (at_path d (default_path d)) as [[]|t b|txt mt rd []]; try contradiction; try discriminate.
      - eexists. exists true. split; reflexivity.
      - eexists. split; reflexivity. }
    destruct O as (d1 & O). destruct (open_disk _ _ _ _ O) as [(X & _)|(_ & _ & Sb & old' & I' & Op)]; [discriminate|].
    rewrite (initial_unique _ _ _ _ I' I) in Op.
    destruct (layers_update_file _ _ public_suffix_list_sources _ m _ _ Op L) as (d' & R & S & (_ & mt & rd & E)).
    exists d'. split.
    + unfold update. cbn [pbind sys_do ret reaches]. right. right. exists (d_temp d), d. split; [split; reflexivity|].
      change (d_temp d ++ default_psl_file_name) with (default_path d).
      cbn [pbind mem_do ret reaches mem_step]. right.
      assert (Q : bytes_eqb (x_path (m_extractor m f)) (default_path d) = true) by (apply bytes_eqb_eq; exact P).
      rewrite Q. cbn [negb pbind sys_do ret reaches]. right. right. eexists. exists d1. split; [exact O|].
      cbn beta iota. apply reaches_first. exact R.
    + left. exists mt, rd, true. rewrite (same_but_at d d'); [exact E|]. eapply same_but_trans; eauto.
Qed.

Lemma layered_length : forall c old new, layered c old new -> (length old <= length new)%nat.
Proof.
  induction c as [|c IH]; intros old new H; cbn [layered] in H; [subst; lia|].
  destruct H as [H|(body & _ & [->|(k & K & H)])]; [auto|rewrite app_length, skipn_length; lia|].
  apply IH in H. rewrite app_length, firstn_length, skipn_length in H. lia.
Qed.

Lemma c92_length : forall to_ascii hardcoded f d m d' old text, x_path (m_extractor m f) = default_path d ->
  can_write d (default_path d) -> initial_text d (default_path d) old ->
  reaches disk_step disk_during (update to_ascii hardcoded f) d m d' -> initial_text d' (default_path d) text ->
  (length old <= length text)%nat.
Proof.
  intros to_ascii hardcoded f d m d' old text P Cw I R T. apply (layered_length 2).
  apply (proj1 (c92 to_ascii hardcoded f d m old text P Cw I)). eauto.
Qed.
