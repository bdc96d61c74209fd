(** EndProofs.v - New and Update together with Extract. *)

From Verif Require Import Base BaseFacts Chars Str StrFacts Trie Extract Psl ListSpec ListFacts World Update UpdateSpec WorldFacts
  NewFacts UpdateProofs DiskProofs DiskProofs2 FileProofs.
From Coq Require Import ZifyBool ZifyNat ZifyN.

(** ** Without any list to read *)

Lemma c59 : forall E (step : forall R : Type, sys R -> E -> R -> E -> Prop) to_ascii hardcoded n e m tr e' m1 r, memory_ok m ->
  runs step (new to_ascii hardcoded n) e m tr e' m1 r -> (forall path text, ~ was_read tr path text) ->
  exists f rules t, r = Ret (f, None) /\ used_rules to_ascii hardcoded (lp_private n) rules /\ build_trie rules = Ret t
    /\ forall m2, calls to_ascii hardcoded m1 m2 -> forall ext p, extract ext (trie_in m2 f) p = extract ext t p.
Proof.
  intros E step to_ascii hardcoded n e m tr e' m1 r Ok H N.
  destruct (c38_new _ _ _ _ _ _ _ _ _ _ _ Ok H) as (f & -> & [(text & R & _)|((rules & Us & B) & K)]).
  - exfalso. exact (N _ _ R).
  - exists f, rules, (trie_in m1 f). split; [reflexivity|]. split; [exact Us|]. split; [exact B|].
    intros m2 C ext p. apply (proj1 (K m2 C)).
Qed.

(** ** New after Update *)

Lemma written_time : forall d fd n text data, open_text d fd n text -> snd (d_fd d fd) = 0%nat ->
  exists text' rd, d_entry (written d fd data) n = Regular text' (d_now d) rd true.
Proof.
  intros d fd n text data (F & mt & rd & E) O. unfold written. destruct (d_fd d fd) as [n' off] eqn:D. cbn [fst snd] in *. subst n' off.
  rewrite E. cbn. unfold upd_entry. rewrite N.eqb_refl. eauto.
Qed.

Lemma update_file_time : forall fd n sources d m tr d' m' text,
  runs disk_step (update_file fd sources) d m tr d' m' (Ret None) -> open_text d fd n text ->
  exists text' rd, d_entry d' n = Regular text' (d_now d) rd true.
Proof.
  intros fd n. induction sources as [|s rest IH]; intros d m tr d' m' text H O; cbn [update_file] in H.
  { destruct H as (_ & _ & _ & X). discriminate. }
  unfold download_file in H. cbn [pbind sys_do ret runs] in H. destruct H as (resp & d1 & tr1 & S & -> & H).
  cbn [disk_step] in S. subst d1.
  destruct resp as [|status body complete]; [eapply IH; eauto|].
  destruct (status =? 200)%Z; [|eapply IH; eauto]. destruct complete; [|eapply IH; eauto].
  cbn [pbind ret] in H. destruct (valid_psl_delimiters body); cbn [negb] in H; [|eapply IH; eauto].
  cbn [pbind sys_do ret runs] in H. destruct H as (sought & d2 & tr2 & S2 & -> & H).
  destruct (seek_disk _ _ _ _ _ _ S2 O) as (Sb & O2 & _ & Off).
  assert (N2 : d_now d2 = d_now d) by apply Sb. rewrite <- N2.
  destruct sought; cbn [negb] in H; [|eapply IH; eauto].
  cbn [pbind sys_do ret runs] in H. destruct H as (ok & d3 & tr3 & S3 & -> & H).
  destruct (write_disk _ _ _ _ _ _ _ S3 O2 (Off eq_refl)) as (Sb3 & k & Hk & O3 & Kk).
  assert (N3 : d_now d3 = d_now d2) by apply Sb3.
  destruct ok; cbn [negb] in H; [|rewrite <- N3; eapply IH; eauto].
  cbn [ret runs] in H. destruct H as (_ & -> & _ & _).
  destruct S3 as [(_ & ->)|[(X & _)|(X & _)]]; [|discriminate..].
  eapply written_time; eauto.
Qed.

Lemma update_result : forall to_ascii hardcoded f d m tr d' m',
  runs disk_step (update to_ascii hardcoded f) d m tr d' m' (Ret None) ->
  exists text, at_path d' (default_path d) = Regular text (d_now d) true true /\ has_markers text
    /\ serves to_ascii m' f (x_private (m_extractor m f)) text
    /\ d_temp d' = d_temp d /\ d_abs d' = d_abs d /\ d_name d' = d_name d /\ d_now d' = d_now d.
Proof.
  intros to_ascii hardcoded f d m tr d' m' H.
  destruct (c40_stored _ _ _ _ _ _ _ _ H) as (body & before & old & _ & M & _ & _ & (mt0 & rd0 & wr0 & St) & Sv & _).
  assert (P : x_path (m_extractor m f) = default_path d).
  { destruct (list_eq_dec N.eq_dec (x_path (m_extractor m f)) (default_path d)) as [X|X]; [exact X|].
    apply c38 in H as (H & _); [discriminate|exact X]. }
  pose proof (proj1 (update_disk _ _ _ _ _ _ _ _ _ H P)) as Sb.
  exists (body ++ skipn (length body) before).
  cut (exists text, at_path d' (default_path d) = Regular text (d_now d) true true).
  { intros (text & X). pose proof (eq_trans (eq_sym X) St) as Y. injection Y as Y _ _ _. rewrite Y in X. split; [exact X|]. split; [apply markers_app; exact M|].
    split; [exact Sv|]. destruct Sb as (A & B & C & D & _). auto. }
  clear St Sv M. apply update_runs in H as (temp & e1 & tr1 & (-> & ->) & -> & H).
  change (d_temp d ++ default_psl_file_name) with (default_path d) in H.
  destruct H as [(N & _)|(_ & file & d2 & tr2 & S2 & -> & H)]; [contradiction|].
  destruct (open_disk _ _ _ _ S2) as [(-> & -> & Nw)|(Cw & -> & Sb2 & old2 & I & O)].
  - destruct H as [(_ & A1 & A2 & A3 & A4)|(fd & tr3 & tr4 & e3 & u & X & _)]; discriminate.
  - destruct H as [(X & _)|(fd & tr3 & tr4 & d3 & u & X & -> & Hu & H)]; [discriminate|]. injection X as <-.
    destruct H as [(er & _ & X & _)|(-> & x & (-> & ->) & -> & Kt & Ne & Nt & H)]; [discriminate|].
    destruct (update_file_time _ _ _ _ _ _ _ _ _ Hu O) as (text & rd & T).
    assert (N2 : d_now d2 = d_now d) by apply Sb2. rewrite N2 in T.
    rewrite (same_but_at d d3) in * by exact Sb. rewrite T in *. exists text.
    destruct rd; [reflexivity|]. destruct H as (X & _). discriminate.
Qed.

Lemma serves_same : forall to_ascii m f m' g private text, serves to_ascii m f private text -> serves to_ascii m' g private text ->
  trie_in m' g = trie_in m f.
Proof.
  intros to_ascii m f m' g private text (rules & U & B) (rules' & U' & B').
  apply used_rules_iff in U. apply used_rules_iff in U'. rewrite <- U in B. rewrite <- U' in B'.
  pose proof (eq_trans (eq_sym B) B') as E. injection E as E. symmetry. exact E.
Qed.

Lemma c60 : forall to_ascii hardcoded f d m tr d1 m1 n p tr2 d2 m2 r, memory_ok m -> (f < m_next_extractor m)%nat ->
  runs disk_step (update to_ascii hardcoded f) d m tr d1 m1 (Ret None) ->
  runs disk_step (new to_ascii hardcoded n) d1 m1 tr2 d2 m2 r ->
  disk_ok d1 -> trimmed white_space (lp_path n) p -> no_list_at d1 p -> unpadded (default_path d) ->
  can_open d1 (d_temp d) -> d_abs d (default_path d) <> None ->
  (d_now d2 - d_now d <= 72 * 3600 * 1000000000)%Z -> lp_private n = x_private (m_extractor m f) ->
  exists g, r = Ret (g, None) /\ ~ downloads tr2 /\ g <> f
    /\ forall ext q, extract ext (trie_in m2 g) q = extract ext (trie_in m2 f) q.
Proof.
  intros to_ascii hardcoded f d m tr d1 m1 n p tr2 d2 m2 r Mok Hf H H2 Ok T N U Co A Age Pr.
  destruct (update_result _ _ _ _ _ _ _ _ H) as (text & At & M & Sv & E1 & E2 & E3 & E4).
  assert (Dp : default_path d1 = default_path d) by (unfold default_path; rewrite E1; reflexivity).
  assert (L : list_at d1 (default_path d1) text (d_now d)).
  { rewrite Dp. split; [rewrite E2; exact A|]. split; [exact M|]. exists true. exact At. }
  rewrite <- Dp in U. rewrite <- E1 in Co.
  destruct (c37_fresh to_ascii hardcoded n p d1 m1 tr2 d2 m2 r text (d_now d) Ok T N U Co H2 L Age) as (g & -> & Sg & ND & _).
  pose proof (memory_ok_update _ _ _ _ _ _ _ _ _ _ _ Mok H) as Mok1.
  destruct (update_effect _ _ _ _ _ _ _ _ _ _ _ H) as (_ & Ne & _).
  assert (Hf1 : (f < m_next_extractor m1)%nat) by lia.
  destruct (c51 _ _ _ _ _ _ _ _ _ _ _ Mok1 H2) as ((g' & Eg & Hg) & Old). injection Eg as <-.
  exists g. split; [reflexivity|]. split; [exact ND|]. split; [lia|]. intros ext q.
  destruct (Old f Hf1) as (_ & Same). rewrite Same. rewrite Pr in Sg.
  rewrite (serves_same _ _ _ _ _ _ _ Sv Sg). reflexivity.
Qed.

(** Where files cannot be read, none is. *)
Lemma runs_unread : forall E (step : forall R : Type, sys R -> E -> R -> E -> Prop),
  (forall path e x e', step _ (ReadFile path) e x e' -> x = None) ->
  forall A (p : prog A) e m tr e' m' r, runs step p e m tr e' m' r -> forall path text, ~ was_read tr path text.
Proof.
  intros E step N A. induction p as [o|R o c IH|R o c IH]; intros e m tr e' m' r H path text; cbn [runs] in H.
  - destruct H as (-> & _). intros (x & [] & _).
  - destruct H as (x & e1 & tr1 & S & -> & H). intros (ev & [<-|Hi] & X).
    + destruct o; try discriminate X. pose proof (N _ _ _ _ S) as ->. discriminate X.
    + apply (IH x _ _ _ _ _ _ H path text). exists ev. auto.
  - destruct (mem_step o m) as [x m1]. eapply IH; eauto.
Qed.
