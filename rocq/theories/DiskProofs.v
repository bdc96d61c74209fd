(** DiskProofs.v - proofs about New and Update on a file system. *)

From Verif Require Import Base BaseFacts Chars Str StrFacts Trie Psl ListSpec ListFacts World Update UpdateSpec WorldFacts
  NewFacts UpdateProofs.
From Coq Require Import ZifyBool ZifyNat ZifyN.

(** ** Time *)

Lemma with_now_self : forall d, with_now d (d_now d) = d.
Proof. intros []. reflexivity. Qed.

Definition later (d d' : disk) : Prop := exists t, (d_now d <= t)%Z /\ d' = with_now d t.

Lemma later_refl : forall d, later d d.
Proof. intros d. exists (d_now d). split; [lia|]. symmetry. apply with_now_self. Qed.
Lemma later_trans : forall d1 d2 d3, later d1 d2 -> later d2 d3 -> later d1 d3.
Proof. intros d1 d2 d3 (t & L & ->) (t' & L' & ->). exists t'. split; [|reflexivity]. cbn in L'. lia. Qed.

Lemma later_ok : forall d d', later d d' -> disk_ok d -> disk_ok d'.
Proof. intros d d' (t & _ & ->) H. exact H. Qed.
Lemma later_list : forall d d' p text mt, later d d' -> list_at d' p text mt <-> list_at d p text mt.
Proof. intros d d' p text mt (t & _ & ->). reflexivity. Qed.
Lemma later_default : forall d d', later d d' -> default_path d' = default_path d.
Proof. intros d d' (t & _ & ->). reflexivity. Qed.
Lemma later_at : forall d d' p, later d d' -> at_path d' p = at_path d p.
Proof. intros d d' p (t & _ & ->). reflexivity. Qed.

(** ** checkCacheFile *)

Lemma check_disk : forall path p d m tr d' m' valid age, disk_ok d -> trimmed white_space path p ->
  runs disk_step (check_cache_file path) d m tr d' m' (Ret (valid, age)) ->
  m' = m /\ later d d' /\ ~ downloads tr
  /\ ((valid = true /\ exists text mt, list_at d p text mt /\ age = (d_now d' - mt)%Z)
      \/ (valid = false /\ no_list_at d p)).
Proof.
  intros path p d m tr d' m' valid age [A [Z W]] T H. pose proof (check_cache_wrote _ _ _ _ _ _ _ _ _ H) as [_ ND].
  apply check_cache_runs in H as (-> & valid' & age' & R & abs & d1 & st & d2 & d3 & c & tr3 & Sa & Ss & St & Sr & -> & V).
  injection R as <- <-. apply trim_space_iff in T. rewrite T in *. split; [reflexivity|].
  destruct Sa as (-> & ->). destruct Ss as (-> & ->). destruct Sr as (-> & ->).
  set (q := match d_abs d p with Some x => x | None => [] end) in *.
  assert (L : later d d3).
  { destruct (at_path d q); cbn match in St.
    - destruct St as (-> & _). apply later_refl.
    - destruct St as (now & (Hn & ->) & _). exists now. auto.
    - destruct St as (now & (Hn & ->) & _). exists now. auto. }
  split; [exact L|]. split; [exact ND|]. rewrite (later_at _ _ _ L) in V.
  assert (Q : forall text mt rd wr, d_abs d p <> None -> at_path d q = Regular text mt rd wr -> at_path d p = Regular text mt rd wr).
  { intros text mt rd wr Ha Hq. unfold q in Hq. destruct (d_abs d p) as [x|] eqn:Ab; [|contradiction].
    destruct p as [|b0 p0].
    - exfalso. exact (W x _ _ _ _ Ab Hq).
    - unfold at_path in *. rewrite <- (A (b0 :: p0) x ltac:(discriminate) Ab). exact Hq. }
  assert (Q' : forall text mt rd wr, d_abs d p <> None -> at_path d p = Regular text mt rd wr -> at_path d q = Regular text mt rd wr).
  { intros text mt rd wr Ha Hp. unfold q. destruct (d_abs d p) as [x|] eqn:Ab; [|contradiction].
    destruct p as [|b0 p0]; [rewrite Z in Hp; discriminate|].
    unfold at_path in *. rewrite (A (b0 :: p0) x ltac:(discriminate) Ab). exact Hp. }
  destruct valid.
  - left. split; [reflexivity|]. destruct V as [V _]. destruct (V eq_refl) as (Ha & (mt & Hs) & text & Hc & Hm).
    destruct (at_path d q) as [b|t b|text' mt' rd wr] eqn:X; try discriminate.
    destruct rd; [|discriminate]. injection Hc as ->. injection Hs as ->.
    exists text, mt. split.
    + split; [exact Ha|]. split; [exact Hm|]. exists wr. eapply Q; eauto.
    + cbn match in St. destruct St as (now & (Hn & ->) & _ & ->). reflexivity.
  - right. split; [reflexivity|]. intros text mt (Ha & Hm & wr & Hp). destruct V as [_ V].
    rewrite (Q' _ _ _ _ Ha Hp) in V. cbn match in V. discriminate V. split; [exact Ha|].
    split; [exists mt; reflexivity|]. exists text. auto.
Qed.

Lemma downloads_app : forall tr1 tr2, downloads (tr1 ++ tr2) <-> downloads tr1 \/ downloads tr2.
Proof.
  intros tr1 tr2. split.
  - intros (e & resp & H & D). apply in_app_or in H as [H|H]; [left|right]; exists e, resp; auto.
  - intros [(e & resp & H & D)|(e & resp & H & D)]; exists e, resp; split; auto; apply in_or_app; auto.
Qed.
Lemma downloads_cons : forall e tr, downloads (e :: tr) <-> download_of e <> None \/ downloads tr.
Proof.
  intros e tr. split.
  - intros (x & resp & [<-|H] & D); [left; congruence|]. right. exists x, resp. auto.
  - intros [H|(x & resp & H & D)].
    + destruct (download_of e) as [resp|] eqn:D; [|contradiction]. exists e, resp. split; [left; reflexivity|exact D].
    + exists x, resp. split; [right; exact H|exact D].
Qed.
Lemma downloads_nil : ~ downloads [].
Proof. intros (e & resp & [] & _). Qed.

(** ** A valid custom list *)

Lemma path_nonempty : forall d p text mt, disk_ok d -> list_at d p text mt -> p <> [].
Proof. intros d p text mt (_ & Z & _) (_ & _ & wr & H) ->. rewrite Z in H. discriminate. Qed.

Lemma c35_partial : forall to_ascii hardcoded n d m tr d' m' r text mt,
  disk_ok d -> unpadded (lp_path n) -> list_at d (lp_path n) text mt ->
  runs disk_step (new to_ascii hardcoded n) d m tr d' m' r ->
  exists f, r = Ret (f, None) /\ serves to_ascii m' f (lp_private n) text
    /\ x_path (m_extractor m' f) = lp_path n /\ ~ downloads tr /\ d_entry d' = d_entry d.
Proof.
  intros to_ascii hardcoded n d m tr d' m' r text mt Ok Up L H. apply new_runs in H.
  destruct H as (tr0 & e0 & valid & age & tr1 & C & -> & H).
  destruct (check_disk _ _ _ _ _ _ _ _ _ Ok Up C) as (_ & Lt & ND & [(-> & text' & mt' & L' & _)|(_ & N)]);
    [|exfalso; exact (N _ _ L)].
  destruct H as [(_ & H)|(X & _)]; [|discriminate].
  pose proof (path_nonempty _ _ _ _ Ok L) as Hne.
  apply new_from_cache_runs in H as (_ & _ & [(P & _)|(_ & x & S & -> & H)]); [contradiction| |apply Nat.lt_succ_diag_r].
  destruct S as (-> & ->). destruct L as (_ & _ & wr & L). rewrite (later_at _ _ _ Lt), L in *.
  destruct H as (-> & Sv & Hx & _). exists (m_next_extractor m). split; [reflexivity|]. split; [exact Sv|].
  rewrite Hx. cbn [x_path start_memory m_extractor]. rewrite upd_same. split; [reflexivity|]. split.
  - rewrite downloads_app, downloads_cons. intros [X|[X|X]]; [exact (ND X)|apply X; reflexivity|exact (downloads_nil X)].
  - destruct Lt as (t & _ & ->). reflexivity.
Qed.

(** ** Writing the cache file *)

(** [d'] is [d] except for the object [n] and the open files. *)
Definition same_but (n : N) (d d' : disk) : Prop :=
  d_temp d' = d_temp d /\ d_abs d' = d_abs d /\ d_name d' = d_name d /\ d_now d' = d_now d
  /\ forall k, k <> n -> d_entry d' k = d_entry d k.

Lemma same_but_refl : forall n d, same_but n d d.
Proof. intros n d. repeat split. Qed.
Lemma same_but_trans : forall n d1 d2 d3, same_but n d1 d2 -> same_but n d2 d3 -> same_but n d1 d3.
Proof.
  intros n d1 d2 d3 (A & B & C & D & E) (A' & B' & C' & D' & E').
  repeat split; try congruence. intros k Hk. rewrite E', E by exact Hk. reflexivity.
Qed.

(** The file behind [fd] is the object [n] with this text. *)
Definition open_text (d : disk) (fd : nat) (n : N) (text : bytes) : Prop :=
  fst (d_fd d fd) = n /\ exists mt rd, d_entry d n = Regular text mt rd true.

Lemma overwrite_start : forall old data, overwrite old 0 data = data ++ skipn (length data) old.
Proof. intros old data. reflexivity. Qed.

Lemma written_start : forall d fd n text data, open_text d fd n text -> snd (d_fd d fd) = 0%nat ->
  same_but n d (written d fd data) /\ open_text (written d fd data) fd n (data ++ skipn (length data) text).
Proof.
  intros d fd n text data (F & mt & rd & E) O. unfold written. destruct (d_fd d fd) as [n' off] eqn:D. cbn [fst snd] in *. subst n' off.
  rewrite E. split.
  - unfold same_but. cbn. repeat split. intros k Hk. unfold upd_entry. apply N.eqb_neq in Hk. rewrite Hk. reflexivity.
  - split; cbn.
    + rewrite upd_same. reflexivity.
    + exists (d_now d), rd. unfold upd_entry. rewrite N.eqb_refl. reflexivity.
Qed.

Lemma firstn_length_le' : forall (b : bytes) k, (k <= length b)%nat -> length (firstn k b) = k.
Proof. intros b k H. apply firstn_length_le. exact H. Qed.

Lemma patched_all : forall old text body, patched old text -> has_markers body ->
  patched old (body ++ skipn (length body) text).
Proof.
  intros old text body P M. pose proof (patched_piece old text body (length body) P M (le_n _)) as X.
  rewrite firstn_all in X. exact X.
Qed.

(** Seek and write on the disk. *)
Lemma seek_disk : forall fd n text d x d', disk_step _ (SeekStart fd) d x d' -> open_text d fd n text ->
  same_but n d d' /\ open_text d' fd n text /\ d_entry d' = d_entry d /\ (x = true -> snd (d_fd d' fd) = 0%nat).
Proof.
  intros fd n text d x d' [(-> & ->)|(-> & ->)] O.
  - split; [repeat split|]. split; [|split; [reflexivity|]].
    + destruct O as (F & O). split; [cbn; rewrite upd_same; exact F|exact O].
    + intros _. cbn. rewrite upd_same. reflexivity.
  - split; [apply same_but_refl|]. split; [exact O|]. split; [reflexivity|]. discriminate.
Qed.

Lemma write_disk : forall fd n text body d x d', disk_step _ (Write fd body) d x d' -> open_text d fd n text ->
  snd (d_fd d fd) = 0%nat ->
  same_but n d d' /\ exists k, (k <= length body)%nat /\ open_text d' fd n (firstn k body ++ skipn k text)
    /\ (x = true -> k = length body).
Proof.
  intros fd n text body d x d' H O Of. destruct H as [(-> & ->)|[(-> & k & Hk & ->)|(-> & ->)]].
  - destruct (written_start d fd n text body O Of) as [S O']. split; [exact S|]. exists (length body).
    rewrite firstn_all. auto.
  - destruct (written_start d fd n text (firstn k body) O Of) as [S O']. split; [exact S|].
    rewrite firstn_length_le' in O' by lia. exists k. split; [lia|]. split; [exact O'|discriminate].
  - split; [apply same_but_refl|]. exists 0%nat. split; [lia|]. split; [exact O|discriminate].
Qed.

Lemma firstn_whole : forall (b : bytes) k, k = length b -> firstn k b = b.
Proof. intros b k ->. apply firstn_all. Qed.

Lemma update_file_disk : forall fd n old sources d m tr d' m' r text,
  runs disk_step (update_file fd sources) d m tr d' m' r -> open_text d fd n text -> patched old text ->
  same_but n d d' /\ exists text', open_text d' fd n text' /\ patched old text' /\
  (r = Ret None -> exists body before, text' = body ++ skipn (length body) before /\ patched old before
     /\ has_markers body /\ downloaded tr body /\ wrote tr body true
     /\ ((forall data, ~ wrote tr data false) -> before = text)).
Proof.
  intros fd n old. induction sources as [|s rest IH]; intros d m tr d' m' r text H O P; cbn [update_file] in H.
  { destruct H as (-> & -> & -> & ->). split; [apply same_but_refl|]. exists text. split; [exact O|]. split; [exact P|discriminate]. }
  assert (Next : forall d1 t tr1 text1, runs disk_step (update_file fd rest) d1 m tr1 d' m' r ->
    same_but n d d1 -> open_text d1 fd n text1 -> patched old text1 -> ((forall data, ~ wrote (t ++ tr1) data false) -> text1 = text) ->
    same_but n d d' /\ exists text', open_text d' fd n text' /\ patched old text' /\
    (r = Ret None -> exists body before, text' = body ++ skipn (length body) before /\ patched old before
      /\ has_markers body /\ downloaded (t ++ tr1) body /\ wrote (t ++ tr1) body true
      /\ ((forall data, ~ wrote (t ++ tr1) data false) -> before = text))).
  { intros d1 t tr1 text1 G S1 O1 P1 W1. destruct (IH _ _ _ _ _ _ _ G O1 P1) as (S2 & text' & O' & P' & R).
    split; [eapply same_but_trans; eauto|]. exists text'. split; [exact O'|]. split; [exact P'|].
    intros X. destruct (R X) as (body & before & E & Pb & M & (e & De & De') & (e2 & We & We') & Wb). exists body, before.
    split; [exact E|]. split; [exact Pb|]. split; [exact M|]. split; [exists e; split; [apply in_or_app; auto|exact De']|].
    split; [exists e2; split; [apply in_or_app; auto|exact We']|].
    intros Nw. rewrite Wb; [apply W1; exact Nw|]. intros data (e3 & Hi & Hw). apply (Nw data). exists e3.
    split; [apply in_or_app; auto|exact Hw]. }
  unfold download_file in H. cbn [pbind sys_do ret runs] in H. destruct H as (resp & d1 & tr1 & S & -> & H).
  cbn [disk_step] in S. subst d1.
  assert (Skip : forall resp0, runs disk_step (update_file fd rest) d m tr1 d' m' r ->
    same_but n d d' /\ exists text', open_text d' fd n text' /\ patched old text' /\
    (r = Ret None -> exists body before, text' = body ++ skipn (length body) before /\ patched old before
      /\ has_markers body /\ downloaded (Event (HttpGet s) resp0 :: tr1) body /\ wrote (Event (HttpGet s) resp0 :: tr1) body true
      /\ ((forall data, ~ wrote (Event (HttpGet s) resp0 :: tr1) data false) -> before = text))).
  { intros resp0 G. apply (Next d [Event (HttpGet s) resp0] tr1 text G); auto using same_but_refl. }
  destruct resp as [|status body complete]; [apply Skip; exact H|].
  destruct (status =? 200)%Z eqn:St; [|apply Skip; exact H]. apply Z.eqb_eq in St. subst status.
  destruct complete; [|apply Skip; exact H].
  cbn [pbind ret] in H. destruct (valid_psl_delimiters body) eqn:D; cbn [negb] in H; [|apply Skip; exact H].
  apply delimiters_iff in D. clear Skip. cbn [pbind sys_do ret runs] in H. destruct H as (sought & d2 & tr2 & S2 & -> & H).
  destruct (seek_disk _ _ _ _ _ _ S2 O) as (Sb & O2 & _ & Off).
  destruct sought; cbn [negb] in H.
  2:{ apply (Next d2 [Event (HttpGet s) (Response 200 body true); Event (SeekStart fd) false] tr2 text H); auto. }
  cbn [pbind sys_do ret runs] in H. destruct H as (ok & d3 & tr3 & S3 & -> & H).
  destruct (write_disk _ _ _ _ _ _ _ S3 O2 (Off eq_refl)) as (Sb3 & k & Hk & O3 & Kk).
  destruct ok; cbn [negb] in H.
  2:{ apply (Next d3 [Event (HttpGet s) (Response 200 body true); Event (SeekStart fd) true; Event (Write fd body) false]
                  tr3 (firstn k body ++ skipn k text) H).
      - eapply same_but_trans; eauto.
      - exact O3.
      - apply patched_piece; assumption.
      - intros Nw. exfalso. apply (Nw body). exists (Event (Write fd body) false). split; [right; right; left; reflexivity|reflexivity]. }
  cbn [ret runs] in H. destruct H as (-> & -> & -> & ->). rewrite (Kk eq_refl), firstn_all in O3.
  split; [eapply same_but_trans; eauto|]. exists (body ++ skipn (length body) text). split; [exact O3|].
  split; [apply patched_all; assumption|]. intros _. exists body, text. split; [reflexivity|]. split; [exact P|]. split; [exact D|].
  split; [exists (Event (HttpGet s) (Response 200 body true)); split; [left; reflexivity|reflexivity]|].
  split; [exists (Event (Write fd body) true); split; [right; right; left; reflexivity|reflexivity]|]. auto.
Qed.

Lemma update_file_downloads : forall E (step : forall R : Type, sys R -> E -> R -> E -> Prop) file s rest e m tr e' m' r,
  runs step (update_file file (s :: rest)) e m tr e' m' r -> downloads tr.
Proof.
  intros E step file s rest e m tr e' m' r H. cbn [update_file] in H. unfold download_file in H.
  cbn [pbind sys_do ret runs] in H. destruct H as (resp & e1 & tr1 & S & -> & H).
  exists (Event (HttpGet s) resp), resp. split; [left; reflexivity|reflexivity].
Qed.

(** ** Update on the disk *)

(** Opening the cache file. *)
Lemma open_disk : forall path d x d', disk_step _ (OpenWrite path) d x d' ->
  (x = None /\ d' = d /\ ~ can_write d path)
  \/ (can_write d path /\ x = Some (d_next_fd d) /\ same_but (d_name d path) d d'
      /\ exists text, initial_text d path text /\ open_text d' (d_next_fd d) (d_name d path) text).
Proof.
  intros path d x d' H. cbn [disk_step] in H. unfold can_write, initial_text, stored.
  destruct (at_path d path) as [b|t b|text mt rd wr] eqn:A.
  - destruct b; [|left; destruct H as (-> & ->); auto]. right. destruct H as (rd & -> & ->).
    split; [reflexivity|]. split; [reflexivity|]. split.
    + unfold same_but. cbn. repeat split. intros k Hk. unfold upd_entry. apply N.eqb_neq in Hk. rewrite Hk. reflexivity.
    + exists []. split; [right; eauto|]. split; cbn.
      * rewrite upd_same. reflexivity.
      * exists (d_now d), rd. unfold upd_entry. rewrite N.eqb_refl. reflexivity.
  - destruct H as (-> & ->). left. auto.
  - destruct wr; [|left; destruct H as (-> & ->); auto]. right. destruct H as (-> & ->).
    split; [reflexivity|]. split; [reflexivity|]. split; [repeat split|].
    exists text. split; [left; eauto|]. split; cbn; [rewrite upd_same; reflexivity|]. exists mt, rd. exact A.
Qed.

Lemma same_but_at : forall d d' path, same_but (d_name d path) d d' -> at_path d' path = d_entry d' (d_name d path).
Proof. intros d d' path (_ & _ & C & _). unfold at_path. rewrite C. reflexivity. Qed.

Lemma initial_unique : forall d path a b, initial_text d path a -> initial_text d path b -> a = b.
Proof.
  intros d path a b [(mt & rd & wr & A)|((x & A) & ->)] [(mt' & rd' & wr' & B)|((x' & B) & ->)]; congruence.
Qed.

(** Everything Update does on a disk. *)
Lemma update_disk : forall to_ascii hardcoded f d m tr d' m' r,
  runs disk_step (update to_ascii hardcoded f) d m tr d' m' r -> x_path (m_extractor m f) = default_path d ->
  same_but (d_name d (default_path d)) d d' /\ (downloads tr <-> can_write d (default_path d)) /\
  (r = Ret None -> exists old body before, initial_text d (default_path d) old
     /\ stored d' (default_path d) (body ++ skipn (length body) before) /\ patched old before /\ has_markers body
     /\ downloaded tr body /\ wrote tr body true /\ ((forall data, ~ wrote tr data false) -> before = old)
     /\ serves to_ascii m' f (x_private (m_extractor m f)) (body ++ skipn (length body) before)).
Proof.
  intros to_ascii hardcoded f d m tr d' m' r H P.
  apply update_runs in H as (temp & e1 & tr1 & (-> & ->) & -> & H).
  change (d_temp d ++ default_psl_file_name) with (default_path d) in H.
  destruct H as [(N & _)|(_ & file & d2 & tr2 & S2 & -> & H)]; [contradiction|].
  destruct (open_disk _ _ _ _ S2) as [(-> & -> & Nw)|(Cw & -> & Sb & old & I & O)].
  - destruct H as [(_ & -> & -> & -> & ->)|(fd & tr3 & tr4 & e3 & u & X & _)]; [|discriminate].
    split; [apply same_but_refl|]. split; [|discriminate]. rewrite !downloads_cons. split.
    + intros [X|[X|X]]; [contradiction X; reflexivity|contradiction X; reflexivity|destruct (downloads_nil X)].
    + intros X. contradiction.
  - destruct H as [(X & _)|(fd & tr3 & tr4 & d3 & u & X & -> & Hu & H)]; [discriminate|]. injection X as <-.
    destruct (update_file_disk _ _ old _ _ _ _ _ _ _ _ Hu O (patched_same old)) as (Sb3 & text' & O3 & P3 & R3).
    pose proof (update_file_downloads _ _ _ _ _ _ _ _ _ _ _ Hu) as Dl.
    assert (Sb4 : same_but (d_name d (default_path d)) d d').
    { destruct H as [(er & _ & _ & _ & -> & _)|(_ & x & (-> & _) & _)]; eapply same_but_trans; eauto. }
    split; [exact Sb4|]. split.
    + rewrite !downloads_cons, downloads_app. split; [intros _; exact Cw|]. auto.
    + intros ->. destruct H as [(er & _ & X & _)|(-> & x & (-> & ->) & -> & Kt & Ne & Nt & H)]; [discriminate|].
      destruct (R3 eq_refl) as (body & before & -> & Pb & M & (e & De & De') & (e2 & We & We') & Wb).
      rewrite (same_but_at d d3) in * by exact Sb4. destruct O3 as (_ & mt & rd & O3).
      rewrite O3 in H. destruct rd; [|destruct H as (X & _); discriminate].
      destruct H as (_ & _ & _ & Sv). exists old, body, before. split; [exact I|].
      split; [exists mt, true, true; rewrite (same_but_at d d3) by exact Sb4; exact O3|]. split; [exact Pb|]. split; [exact M|].
      split; [exists e; split; [do 2 right; apply in_or_app; auto|exact De']|].
      split; [exists e2; split; [do 2 right; apply in_or_app; auto|exact We']|].
      split; [|exact Sv]. intros Nw. apply Wb. intros data (e3 & Hi & Hw). apply (Nw data). exists e3.
      split; [do 2 right; apply in_or_app; auto|exact Hw].
Qed.

Lemma c40_stored : forall to_ascii hardcoded f d m tr d' m',
  runs disk_step (update to_ascii hardcoded f) d m tr d' m' (Ret None) ->
  exists body before old, downloaded tr body /\ has_markers body /\ initial_text d (default_path d) old /\ patched old before
    /\ stored d' (default_path d) (body ++ skipn (length body) before)
    /\ serves to_ascii m' f (x_private (m_extractor m f)) (body ++ skipn (length body) before)
    /\ forall path, d_name d path <> d_name d (default_path d) -> at_path d' path = at_path d path.
Proof.
  intros to_ascii hardcoded f d m tr d' m' H.
  assert (P : x_path (m_extractor m f) = default_path d).
  { destruct (list_eq_dec N.eq_dec (x_path (m_extractor m f)) (default_path d)) as [X|X]; [exact X|].
    apply c38 in H as (H & _); [discriminate|exact X]. }
  destruct (update_disk _ _ _ _ _ _ _ _ _ H P) as (Sb & _ & R).
  destruct (R eq_refl) as (old & body & before & I & St & Pb & M & D & W & _ & Sv).
  exists body, before, old. split; [exact D|]. split; [exact M|]. split; [exact I|]. split; [exact Pb|]. split; [exact St|].
  split; [exact Sv|]. intros path Hp. destruct Sb as (_ & _ & Nm & _ & En). unfold at_path. rewrite Nm. apply En. exact Hp.
Qed.

Lemma c40_partial : forall to_ascii hardcoded f d m tr d' m' old,
  runs disk_step (update to_ascii hardcoded f) d m tr d' m' (Ret None) ->
  initial_text d (default_path d) old ->
  (forall data ok, wrote tr data ok -> ok = true /\ (length old <= length data)%nat) ->
  exists body, downloaded tr body /\ stored d' (default_path d) body
    /\ serves to_ascii m' f (x_private (m_extractor m f)) body.
Proof.
  intros to_ascii hardcoded f d m tr d' m' old H I W.
  assert (P : x_path (m_extractor m f) = default_path d).
  { destruct (list_eq_dec N.eq_dec (x_path (m_extractor m f)) (default_path d)) as [X|X]; [exact X|].
    apply c38 in H as (H & _); [discriminate|exact X]. }
  destruct (update_disk _ _ _ _ _ _ _ _ _ H P) as (_ & _ & R).
  destruct (R eq_refl) as (old' & body & before & I' & St & Pb & M & D & Wb & Nf & Sv).
  rewrite (initial_unique _ _ _ _ I' I) in *. rewrite (Nf ltac:(intros data X; destruct (W _ _ X); discriminate)) in *.
  destruct (W _ _ Wb) as (_ & L). rewrite skipn_all2, app_nil_r in St, Sv by exact L. exists body. auto.
Qed.

(** ** Crashes *)

Lemma reaches_bind : forall E (step : forall R : Type, sys R -> E -> R -> E -> Prop) during A B (p : prog A) (k : A -> prog B) e m e',
  reaches step during (pbind p k) e m e' ->
  reaches step during p e m e' \/ exists tr e1 m1 a, runs step p e m tr e1 m1 (Ret a) /\ reaches step during (k a) e1 m1 e'.
Proof.
  intros E step during A B p k. induction p as [o|R o c IH|R o c IH]; intros e m e' H.
  - destruct o as [a| |]; cbn [pbind] in H.
    + right. exists [], e, m, a. split; [cbn [runs]; auto|exact H].
    + left. cbn [reaches] in *. exact H.
    + left. cbn [reaches] in *. exact H.
  - cbn [pbind reaches] in H. destruct H as [->|[H|(x & e1 & S & H)]].
    + left. cbn [reaches]. auto.
    + left. cbn [reaches]. auto.
    + apply IH in H as [H|(tr & e2 & m2 & a & H & K)].
      * left. cbn [reaches]. right. right. eauto.
      * right. exists (Event o x :: tr), e2, m2, a. split; [|exact K]. cbn [runs]. exists x, e1, tr. auto.
  - cbn [pbind reaches] in H. cbn [reaches runs]. destruct H as [->|H]; [auto|].
    destruct (mem_step o m) as [x m1]. apply IH in H as [H|(tr & e2 & m2 & a & H & K)]; [auto|].
    right. exists tr, e2, m2, a. auto.
Qed.

Lemma reaches_start : forall E (step : forall R : Type, sys R -> E -> R -> E -> Prop) during A (p : prog A) e m,
  reaches step during p e m e.
Proof. intros E step during A p e m. destruct p; cbn [reaches]; auto. Qed.

Lemma reaches_sys : forall E (step : forall R : Type, sys R -> E -> R -> E -> Prop) during A R (o : sys R) (k : R -> prog A) e m e',
  reaches step during (Sys o k) e m e' ->
  e' = e \/ during _ o e e' \/ exists x e1, step _ o e x e1 /\ reaches step during (k x) e1 m e'.
Proof. intros. cbn [reaches] in H. exact H. Qed.

Lemma trie_construct_reaches : forall to_ascii hardcoded private path d m d',
  reaches disk_step disk_during (trie_construct to_ascii hardcoded private path) d m d' -> d' = d.
Proof.
  intros to_ascii hardcoded private path d m d' H.
  assert (Mem : forall A (p : prog A), (forall d m d', reaches disk_step disk_during p d m d' -> d' = d) -> True) by auto.
  assert (I : forall a l d m d', reaches disk_step disk_during (insert_suffixes a l) d m d' -> d' = d).
  { intros a. induction l as [|s l IH]; intros e m1 e' G; cbn [insert_suffixes] in G.
    - cbn [reaches ret] in G. tauto.
    - apply reaches_bind in G as [G|(tr & e1 & m2 & sp & R & G)].
      + cbn [reaches] in G. tauto.
      + cbn [runs] in R. destruct R as (_ & -> & -> & _). cbn [pbind mem_do ret reaches] in G.
        destruct G as [->|G]; [reflexivity|]. cbn [mem_step] in G. eapply IH; eauto. }
  unfold trie_construct in H. cbn [pbind mem_do ret reaches] in H. destruct H as [->|H]; [reflexivity|].
  cbn [mem_step] in H.
  assert (F : forall l e m1 e', reaches disk_step disk_during (_ <~ insert_suffixes (m_next_trie m) l ;;
        _ <~ mem_do (MarkWildcards (m_next_trie m)) ;; ret (m_next_trie m, @None io_err)) e m1 e' -> e' = e).
  { intros l e m1 e' G. apply reaches_bind in G as [G|(tr & e1 & m2 & [] & R & G)]; [eapply I; eauto|].
    apply insert_suffixes_runs in R as (_ & -> & _). cbn [pbind mem_do ret reaches mem_step] in G. tauto. }
  destruct (negb (bytes_eqb path [])).
  - cbn [get_public_suffix_list pbind sys_do ret] in H. apply reaches_sys in H as [->|[H|(x & d1 & (-> & ->) & H)]]; [reflexivity|destruct H|].
    destruct (match at_path d path with Regular c _ true _ => Some c | _ => None end) as [c|].
    + cbn [pbind ret] in H. apply F in H. exact H.
    + cbn [pbind ret reaches] in H. tauto.
  - cbn [get_hardcoded_public_suffix_list pbind ret] in H. apply F in H. exact H.
Qed.

Lemma update_file_reaches : forall fd n old sources d m d' text,
  reaches disk_step disk_during (update_file fd sources) d m d' -> open_text d fd n text -> patched old text ->
  same_but n d d' /\ exists text', open_text d' fd n text' /\ patched old text'.
Proof.
  intros fd n old. induction sources as [|s rest IH]; intros d m d' text H O P; cbn [update_file] in H.
  { cbn [reaches ret] in H. destruct H as [->|[]]. split; [apply same_but_refl|]. eauto. }
  assert (Here : same_but n d d /\ exists text', open_text d fd n text' /\ patched old text') by (split; [apply same_but_refl|eauto]).
  assert (Next : forall d1 text1, reaches disk_step disk_during (update_file fd rest) d1 m d' -> same_but n d d1 ->
    open_text d1 fd n text1 -> patched old text1 -> same_but n d d' /\ exists text', open_text d' fd n text' /\ patched old text').
  { intros d1 text1 G S1 O1 P1. destruct (IH _ _ _ _ G O1 P1) as (S2 & X). split; [eapply same_but_trans; eauto|exact X]. }
  unfold download_file in H. cbn [pbind sys_do ret] in H. apply reaches_sys in H as [->|[[]|(resp & d1 & S & H)]]; [exact Here|].
  cbn [disk_step] in S. subst d1.
  destruct resp as [|status body complete]; [eapply Next; eauto using same_but_refl|].
  destruct (status =? 200)%Z; [|eapply Next; eauto using same_but_refl].
  destruct complete; [|eapply Next; eauto using same_but_refl].
  cbn [pbind ret] in H. destruct (valid_psl_delimiters body) eqn:D; cbn [negb] in H; [|eapply Next; eauto using same_but_refl].
  apply delimiters_iff in D. cbn [pbind sys_do ret] in H. apply reaches_sys in H as [->|[[]|(x & d2 & S2 & H)]]; [exact Here|].
  destruct (seek_disk _ _ _ _ _ _ S2 O) as (Sb & O2 & _ & Off).
  destruct x; cbn [negb] in H; [|eapply Next; eauto].
  cbn [pbind sys_do ret] in H. apply reaches_sys in H as [->|[(k & Hk & ->)|(ok & d3 & S3 & H)]]; [split; eauto| |].
  - destruct (written_start d2 fd n text (firstn k body) O2 (Off eq_refl)) as (Sb3 & O3).
    rewrite firstn_length_le' in O3 by exact Hk. split; [eapply same_but_trans; eauto|].
    eexists. split; [exact O3|]. apply patched_piece; assumption.
  - destruct (write_disk _ _ _ _ _ _ _ S3 O2 (Off eq_refl)) as (Sb3 & k & Hk & O3 & _).
    assert (Sb3' : same_but n d d3) by (eapply same_but_trans; eauto).
    assert (P3 : patched old (firstn k body ++ skipn k text)) by (apply patched_piece; assumption).
    destruct ok; cbn [negb] in H; [|eapply Next; eauto]. cbn [ret reaches] in H. destruct H as [->|[]]. split; eauto.
Qed.

Lemma c41_partial : forall to_ascii hardcoded f d m d', reaches disk_step disk_during (update to_ascii hardcoded f) d m d' ->
  (at_path d' (default_path d) = at_path d (default_path d)
   \/ exists old new, initial_text d (default_path d) old /\ patched old new /\ stored d' (default_path d) new)
  /\ forall path, d_name d path <> d_name d (default_path d) -> at_path d' path = at_path d path.
Proof.
  intros to_ascii hardcoded f d m d' H.
  assert (Same : forall p, d' = d -> (at_path d' p = at_path d p
     \/ exists old new, initial_text d p old /\ patched old new /\ stored d' p new)
     /\ forall path, d_name d path <> d_name d p -> at_path d' path = at_path d path) by (intros p ->; auto).
  unfold update in H. cbn [pbind sys_do ret] in H. apply reaches_sys in H as [X|[[]|(temp & d1 & (-> & ->) & H)]]; [auto|].
  cbn [pbind mem_do ret reaches mem_step] in H. destruct H as [X|H]; [auto|].
  destruct (negb _); [cbn [ret reaches] in H; destruct H as [X|[]]; auto|].
  change (d_temp d ++ default_psl_file_name) with (default_path d) in H.
  cbn [pbind sys_do ret] in H. apply reaches_sys in H as [X|[[]|(file & d2 & S2 & H)]]; [auto|].
  destruct (open_disk _ _ _ _ S2) as [(-> & -> & Nw)|(Cw & -> & Sb & old & I & O)].
  { cbn [ret reaches] in H. destruct H as [X|[]]; auto. }
  assert (Fin : same_but (d_name d (default_path d)) d d' -> (exists text', open_text d' (d_next_fd d) (d_name d (default_path d)) text' /\ patched old text') ->
    (at_path d' (default_path d) = at_path d (default_path d)
   \/ exists old new, initial_text d (default_path d) old /\ patched old new /\ stored d' (default_path d) new)
  /\ forall path, d_name d path <> d_name d (default_path d) -> at_path d' path = at_path d path).
  { intros Sb' (new & (_ & mt & rd & E) & Pn). split.
    - right. exists old, new. split; [exact I|]. split; [exact Pn|]. exists mt, rd, true. rewrite (same_but_at d d') by exact Sb'. exact E.
    - intros path Hp. destruct Sb' as (_ & _ & Nm & _ & En). unfold at_path. rewrite Nm. apply En. exact Hp. }
  apply reaches_bind in H as [H|(tr & d3 & m3 & u & R & H)].
  - destruct (update_file_reaches _ _ old _ _ _ _ _ H O (patched_same old)) as (Sb3 & X).
    apply Fin; [eapply same_but_trans; eauto|exact X].
  - destruct (update_file_disk _ _ old _ _ _ _ _ _ _ _ R O (patched_same old)) as (Sb3 & text' & O3 & P3 & _).
    assert (D3 : d' = d3).
    { destruct u as [er|]; [cbn [ret reaches] in H; tauto|].
      cbn [pbind mem_do ret reaches mem_step] in H. destruct H as [->|H]; [reflexivity|].
      apply reaches_bind in H as [H|(tr4 & d4 & m4 & (a & e) & R4 & H)].
      - apply trie_construct_reaches in H. exact H.
      - apply trie_construct_runs in R4 as (_ & _ & _ & _ & [(_ & _ & -> & _)|(_ & x & (-> & _) & _)]);
          destruct e; cbn [pbind mem_do ret reaches mem_step] in H; tauto. }
    subst d'. apply Fin; [eapply same_but_trans; eauto|eauto].
Qed.
