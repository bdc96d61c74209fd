(** ExactDisk.v - exact conditions for the properties of the cache file that do not always hold. *)

From Verif Require Import Base BaseFacts Chars Str StrFacts Trie Psl ListSpec ListFacts World Update UpdateSpec WorldFacts
  NewFacts UpdateProofs DiskProofs DiskProofs2 EndProofs NewSpec NewProofs.
From Coq Require Import ZifyBool ZifyNat ZifyN.
Local Open Scope Z_scope.

Lemma c40_exact : forall to_ascii hardcoded net f d m tr d' m' old,
  runs disk_step (update to_ascii hardcoded f) d m tr d' m' (Ret None) -> smooth net tr ->
  initial_text d (default_path d) old ->
  exists before url after body, the_sources = before ++ url :: after /\ Forall (offers_none net) before /\ offers net url body
    /\ (stored d' (default_path d) body <-> (length old <= length body)%nat).
Proof.
  intros to_ascii hardcoded net f d m tr d' m' old H Sm I.
  destruct (c68_update _ _ _ _ _ _ _ _ _ _ H Sm) as [(_ & X & _)|(_ & y & urls & R & _ & Fa & _ & _ & Nm & _ & X)]; [discriminate|].
  destruct R as [Nw|Cw No|before url after body old' Cw Src No Of I']; [destruct X; discriminate..|].
  rewrite (initial_unique _ _ _ _ I' I) in *. exists before, url, after, body. split; [exact Src|]. split; [exact No|]. split; [exact Of|].
  assert (St : stored d' (default_path d) (body ++ skipn (length body) old)).
  { destruct (Fa (default_path d)) as [(Q & _)|(_ & rd & E & _)]; [contradiction|]. exists (d_now d'), rd, true. exact E. }
  split.
  - intros (mt & rd & wr & E). destruct St as (mt' & rd' & wr' & E'). rewrite E in E'. injection E' as E' _ _ _.
    apply (f_equal (@length N)) in E'. rewrite app_length, skipn_length in E'. lia.
  - intros L. rewrite skipn_all2, app_nil_r in St by exact L. exact St.
Qed.

Lemma c41_every : forall to_ascii hardcoded f d m old body k, x_path (m_extractor m f) = default_path d ->
  can_write d (default_path d) -> initial_text d (default_path d) old -> has_markers body -> (k <= length body)%nat ->
  exists d', reaches disk_step disk_during (update to_ascii hardcoded f) d m d'
    /\ stored d' (default_path d) (firstn k body ++ skipn k old).
Proof.
  intros to_ascii hardcoded f d m old body k P Cw I M K.
  assert (O : exists d1, disk_step _ (OpenWrite (default_path d)) d (Some (d_next_fd d)) d1).
  { cbn [disk_step]. unfold can_write in Cw. destruct (at_path d (default_path d)) as [[]|t b|text mt rd []]; try contradiction; try discriminate.
    - eexists. exists true. split; reflexivity.
    - eexists. split; reflexivity. }
  destruct O as (d1 & O). destruct (open_disk _ _ _ _ O) as [(X & _)|(_ & _ & Sb & old' & I' & Op)]; [discriminate|].
  rewrite (initial_unique _ _ _ _ I' I) in *.
  set (fd := d_next_fd d) in *. pose (d2 := with_fd d1 fd (fst (d_fd d1 fd), 0%nat)).
  assert (S2 : disk_step _ (SeekStart fd) d1 true d2) by (left; split; reflexivity).
  destruct (seek_disk _ _ _ _ _ _ S2 Op) as (Sb2 & Op2 & _ & Off).
  destruct (written_start d2 fd _ _ (firstn k body) Op2 (Off eq_refl)) as (Sb3 & Op3).
  exists (written d2 fd (firstn k body)). split.
  - unfold update. cbn [pbind sys_do ret reaches]. right. right. exists (d_temp d), d. split; [split; reflexivity|].
    change (d_temp d ++ default_psl_file_name) with (default_path d).
    cbn [pbind mem_do ret reaches mem_step]. right.
    assert (Q : bytes_eqb (x_path (m_extractor m f)) (default_path d) = true) by (apply bytes_eqb_eq; exact P).
    rewrite Q. cbn [negb pbind sys_do ret reaches]. right. right. exists (Some fd), d1. split; [exact O|].
    change public_suffix_list_sources with the_sources. unfold the_sources. cbn [update_file]. unfold download_file.
    cbn [pbind sys_do ret reaches]. right. right. exists (Response 200 body true), d1. split; [reflexivity|].
    change (200 =? 200) with true. cbn [pbind ret]. apply delimiters_iff in M. rewrite M. cbn [negb pbind sys_do ret reaches]. right. right. exists true, d2. split; [exact S2|].
    cbn [negb pbind sys_do ret reaches]. right. left. exists k. split; [exact K|reflexivity].
  - rewrite firstn_length_le' in Op3 by exact K. destruct Op3 as (_ & mt & rd & E). exists mt, rd, true. unfold at_path.
    destruct Sb as (_ & _ & N1 & _), Sb2 as (_ & _ & N2 & _), Sb3 as (_ & _ & N3 & _). rewrite N3, N2, N1. exact E.
Qed.
