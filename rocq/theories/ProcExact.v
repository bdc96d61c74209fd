(** ProcExact.v - all the mixtures of C98 occur. *)

From Verif Require Import Base BaseFacts Chars Str StrFacts Trie Extract Psl ListSpec ListFacts World Update UpdateSpec WorldFacts NewFacts
  UpdateProofs DiskProofs NewSpec NewProofs CrashProofs Calls CallFacts CallProofs Procs ProcSpec ProcProofs.
From Coq Require Import ZifyBool ZifyNat ZifyN.
Local Open Scope nat_scope.

(** A download, if the event is one, brings a list of [L]. *)
Definition brings (L : bytes -> Prop) (e : event) : Prop := forall body, download_of e = Some (Response 200 body true) -> L body.

(** A call running while nothing else does. *)
Inductive solo (L : bytes -> Prop) {A : Type} : prog A -> disk -> memory -> prog A -> disk -> memory -> Prop :=
| solo_rests : forall p d m, solo L p d m p d m
| solo_sys : forall R (o : sys R) k d m x d1 p' d' m', disk_step R o d x d1 -> brings L (Event o x) -> solo L (k x) d1 m p' d' m' ->
    solo L (Sys o k) d m p' d' m'
| solo_mem : forall R (o : mem_op R) k d m p' d' m', solo L (k (fst (mem_step o m))) d (snd (mem_step o m)) p' d' m' ->
    solo L (Mem o k) d m p' d' m'.
Ltac quiet := intros ? Hb; discriminate Hb.

Lemma runs_solo : forall L A (p : prog A) d m tr d' m' r, runs disk_step p d m tr d' m' r -> Forall (brings L) tr -> solo L p d m (Done r) d' m'.
Proof.
  intros L A. induction p as [o|R o c IH|R o c IH]; intros d m tr d' m' r H F; cbn [runs] in H.
  - destruct H as (_ & -> & -> & ->). apply solo_rests.
  - destruct H as (x & d1 & tr1 & S & -> & H). inversion F; subst. eapply solo_sys; eauto.
  - apply solo_mem. destruct (mem_step o m) as [x m1]. eapply IH; eauto.
Qed.
Lemma solo_bind : forall L A B (p : prog A) (K : A -> prog B) d m p' d' m', solo L p d m p' d' m' ->
  solo L (pbind p K) d m (pbind p' K) d' m'.
Proof.
  intros L A B p K d m p' d' m' H. induction H as [p d m|R o k d m x d1 p' d' m' S Br H IH|R o k d m p' d' m' H IH].
  - apply solo_rests.
  - cbn [pbind]. eapply solo_sys; [exact S|exact Br|exact IH].
  - cbn [pbind]. apply solo_mem. exact IH.
Qed.
Lemma solo_trans : forall L A (p1 p2 p3 : prog A) d1 m1 d2 m2 d3 m3, solo L p1 d1 m1 p2 d2 m2 -> solo L p2 d2 m2 p3 d3 m3 ->
  solo L p1 d1 m1 p3 d3 m3.
Proof.
  intros L A p1 p2 p3 d1 m1 d2 m2 d3 m3 H G. induction H as [p d m|R o k d m x d1 p' d' m' S Br H IH|R o k d m p' d' m' H IH];
    [exact G|eapply solo_sys; eauto|apply solo_mem; auto].
Qed.

(** Only the time may have changed. *)
Definition same_files (d d' : disk) : Prop :=
  d_temp d' = d_temp d /\ d_abs d' = d_abs d /\ d_name d' = d_name d /\ d_entry d' = d_entry d /\ d_fd d' = d_fd d /\ d_next_fd d' = d_next_fd d.

Section Exact.
Variable to_ascii : bytes -> option bytes.
Variable hardcoded : bytes.
Variable ext : idna.
Variable L : bytes -> Prop.
Hypothesis Lm : forall body, L body -> has_markers body.
Notation machine_steps := (machine_steps to_ascii hardcoded ext).
Notation machine_step := (machine_step to_ascii hardcoded ext).

Lemma machine_one : forall s s', machine_step s s' -> machine_steps s s'.
Proof. intros s s' H. apply (machine_goes_on _ _ _ s s s'); [apply machine_rests|exact H]. Qed.

Lemma machine_quiet : forall d r d' r' rs1 rs2 ev, process_step to_ascii hardcoded ext d r d' r' [] ->
  machine_steps (mkMachine d (rs1 ++ r :: rs2) ev) (mkMachine d' (rs1 ++ r' :: rs2) ev).
Proof. intros d r d' r' rs1 rs2 ev H. apply machine_one. rewrite <- (app_nil_r ev) at 2. apply runs_on. exact H. Qed.

Lemma solo_machine : forall p d m p' d' m' rs1 rs2 ev known ks1 ks2 i c n tr, solo L p d m p' d' m' ->
  exists tr', Forall (brings L) tr' /\ machine_steps
    (mkMachine d (rs1 ++ mkProcess m known (ks1 ++ mkTask (mkThread i c p) 0 [] :: ks2) n tr :: rs2) ev)
    (mkMachine d' (rs1 ++ mkProcess m' known (ks1 ++ mkTask (mkThread i c p') 0 [] :: ks2) n (tr ++ tr') :: rs2) (ev ++ tr')).
Proof.
  intros p d m p' d' m' rs1 rs2 ev known ks1 ks2 i c n tr H. revert ev tr. induction H as [p d m|R o k d m x d1 p' d' m' S Br H IH|R o k d m p' d' m' H IH]; intros ev tr.
  - exists []. split; [constructor|]. rewrite !app_nil_r. apply machine_rests.
  - destruct (IH (ev ++ [Event o x]) (tr ++ [Event o x])) as (tr' & Fb & G). exists (Event o x :: tr'). split; [constructor; assumption|].
    rewrite <- !app_assoc in G. cbn [app] in G. eapply machine_trans; [|exact G]. clear G IH H Fb Br.
    destruct o; try (apply machine_one, runs_on, asks; [exact I|exact S]; fail).
    + cbn [disk_step] in S. destruct S as (-> & ->). destruct (at_path d path) as [b|t b|text mt [] wr] eqn:P;
        try (apply machine_one, runs_on, reads_fail; fail).
      eapply machine_trans.
      * apply machine_quiet. apply reads_some with (len' := length text) (text := text) (mtime := mt) (wr := wr). exact P.
      * cbn [app length skipn]. rewrite firstn_all. apply machine_one, runs_on.
        apply reads_end with (text := text) (mtime := mt) (wr := wr); [exact P|lia].
    + cbn [disk_step] in S. assert (W : forall q, q <= length data -> forall ok, (ok = true -> q = length data) ->
        machine_steps (mkMachine d (rs1 ++ mkProcess m known (ks1 ++ mkTask (mkThread i c (Sys (Write fd data) k)) 0 [] :: ks2) n tr :: rs2) ev)
          (mkMachine (written d fd (firstn q data)) (rs1 ++ mkProcess m known (ks1 ++ mkTask (mkThread i c (k ok)) 0 [] :: ks2) n
                       (tr ++ [Event (Write fd data) ok]) :: rs2) (ev ++ [Event (Write fd data) ok]))).
      { intros q Hq ok Ok. eapply machine_trans.
        - apply machine_quiet. apply (writes_some _ _ _ d m known ks1 i c fd data k 0 q). lia.
        - rewrite Nat.sub_0_r. cbn [skipn]. apply machine_one, runs_on, writes_end. exact Ok. }
      destruct S as [(-> & ->)|[(-> & q & Hq & ->)|(-> & ->)]].
      * specialize (W (length data) (Nat.le_refl _) true (fun _ => eq_refl)). rewrite firstn_all in W. exact W.
      * apply W; [lia|discriminate].
      * apply machine_one, runs_on, writes_end. discriminate.
  - destruct (IH ev tr) as (tr' & Fb & G). exists tr'. split; [exact Fb|]. eapply machine_trans; [|exact G].
    apply machine_quiet, computes.
Qed.

(** ** One update that is interrupted for ever *)

Definition stable (d : disk) : Prop := disk_ok d /\ exists mt, at_path d (d_temp d) = Directory mt true.

(** Looking at a file, at a time when it is too old. *)
Lemma check_solo : forall path d m, exists v age d1,
  solo L (check_cache_file path) d m (ret (v, age)) d1 m /\ same_files d d1 /\
  (negb v || (age >? psl_max_age)%Z = true)%bool /\
  ((forall q, d_abs d (trim_space path) = Some q -> forall c mt rd wr, at_path d q <> Regular c mt rd wr) -> v = false).
Proof.
  intros path d m. unfold check_cache_file.
  set (q := match d_abs d (trim_space path) with Some p => p | None => [] end).
  set (st := match at_path d q with Absent _ => None | Directory t _ => Some (true, t) | Regular _ t _ _ => Some (false, t) end).
  set (now := match st with Some (_, t) => Z.max (d_now d) (t + psl_max_age + 1) | None => 0%Z end).
  set (d1 := match st with Some _ => with_now d now | None => d end).
  assert (Sf : same_files d d1) by (unfold d1; destruct st; repeat split).
  set (con := match at_path d1 q with Regular c _ true _ => Some c | _ => None end).
  set (valid := match con with Some c => valid_psl_delimiters c | None => false end).
  set (v := match d_abs d (trim_space path) with
            | None => false
            | Some _ => match st with None => false | Some (is_dir, _) => negb is_dir && valid end end).
  set (age := match st with Some (_, t) => (now - t)%Z | None => 0%Z end).
  exists v, age, d1. split; [|split; [exact Sf|split]].
  - cbn [pbind sys_do ret]. apply solo_sys with (x := d_abs d (trim_space path)) (d1 := d); [split; reflexivity|quiet|].
    fold q. apply solo_sys with (x := st) (d1 := d); [split; reflexivity|quiet|].
    assert (Next : forall a, a = age -> solo L
      (pbind (sys_do (ReadFile q)) (fun contents => ret (match d_abs d (trim_space path) with
         | None => false
         | Some _ => match st with None => false | Some (is_dir, _) =>
             negb is_dir && match contents with Some c => valid_psl_delimiters c | None => false end end end, a))) d1 m (ret (v, age)) d1 m).
    { intros a ->. cbn [pbind sys_do ret]. apply solo_sys with (x := con) (d1 := d1); [split; reflexivity|quiet|]. apply solo_rests. }
    destruct st as [[is_dir t]|] eqn:Es.
    + cbn [pbind sys_do ret]. apply solo_sys with (x := now) (d1 := with_now d now); [split; [unfold now; lia|reflexivity]|quiet|].
      apply Next. reflexivity.
    + cbn [pbind sys_do ret]. apply Next. reflexivity.
  - unfold v, age, now. destruct st as [[is_dir t]|]; [|destruct (d_abs _ _); reflexivity].
    apply orb_true_iff. right. lia.
  - intros H. unfold v, valid, con. destruct (d_abs d (trim_space path)) as [p|] eqn:A; [|reflexivity].
    destruct st as [[is_dir t]|]; [|reflexivity]. unfold at_path. rewrite (proj1 (proj2 (proj2 Sf))), (proj1 (proj2 (proj2 (proj2 Sf)))).
    change (d_entry d (d_name d q)) with (at_path d q). specialize (H q eq_refl).
    destruct (at_path d q) as [b|t' b|c mt rd wr]; [apply andb_false_r|apply andb_false_r|]. destruct (H c mt rd wr eq_refl).
Qed.

Lemma same_files_trans : forall a b c, same_files a b -> same_files b c -> same_files a c.
Proof. intros a b c (A & B & C & D & E & F) (A' & B' & C' & D' & E' & F'). repeat split; congruence. Qed.

(** New gets to the point where it has sought the start of the cache file and writes. *)
Lemma new_gets_to_write : forall d m text mt rd body, stable d -> at_path d (default_path d) = Regular text mt rd true -> L body ->
  exists k d1 m1, same_files d d1 /\
    solo L (program to_ascii hardcoded ext (CallNew (mkListParams [] false))) d m
         (Sys (Write (d_next_fd d) body) k)
         (with_fd (with_new_fd d1 (d_name d (default_path d), 0)) (d_next_fd d) (d_name d (default_path d), 0)) m1.
Proof.
  intros d m text mt rd body ((O1 & O2 & O3) & tm & Tp) P Lb. pose proof (Lm _ Lb) as M. apply delimiters_iff in M.
  cut (exists k d1 m1, same_files d d1 /\ solo L (new to_ascii hardcoded (mkListParams [] false)) d m (Sys (Write (d_next_fd d) body) k)
    (with_fd (with_new_fd d1 (d_name d (default_path d), 0)) (d_next_fd d) (d_name d (default_path d), 0)) m1).
  { intros (k & d1 & m1 & Sf & H). exists (fun x => pbind (k x) (fun r => ret (FromNew r))), d1, m1. split; [exact Sf|].
    cbn [program]. apply (solo_bind L _ _ _ (fun r => ret (FromNew r))) in H. exact H. }
  set (f := m_next_extractor m).
  set (m1 := snd (mem_step (NewExtractor (mkExtractor [] (m_next_trie m) false)) (snd (mem_step NewTrie m)))).
  destruct (check_solo [] d m1) as (v & age & d1 & C1 & Sf1 & _ & V).
  assert (v = false).
  { apply V. intros q A c mt' rd' wr'. apply O3. exact A. }
  subst v. clear V.
  set (m2 := snd (mem_step (StorePath f (default_path d)) m1)).
  destruct (check_solo (default_path d) d1 m2) as (v & age2 & d2 & C2 & Sf2 & Old & _).
  assert (Sf : same_files d d2) by (eapply same_files_trans; eauto).
  destruct Sf1 as (T1 & _ & N1 & E1 & _). destruct Sf as (T2 & A2 & N2 & E2 & F2 & X2).
  eexists. exists d2, m2. split; [repeat split; assumption|].
  unfold new. cbn [pbind mem_do ret lp_path lp_private]. apply solo_mem, solo_mem. cbn [fst mem_step]. fold m1.
  eapply solo_trans; [apply solo_bind; exact C1|]. cbn [pbind ret negb sys_do].
  apply solo_sys with (x := d_temp d) (d1 := d1); [split; [symmetry; exact T1|reflexivity]|quiet|].
  apply solo_sys with (x := true) (d1 := d1); [|quiet|].
  { split; [reflexivity|]. unfold at_path. rewrite N1, E1. fold (at_path d (d_temp d)). rewrite Tp. reflexivity. }
  cbn [negb mem_do pbind ret]. apply solo_mem. change (d_temp d ++ default_psl_file_name) with (default_path d).
  match goal with |- solo _ _ _ ?mm _ _ _ => change mm with m2 end.
  eapply solo_trans; [apply solo_bind; exact C2|]. cbn [pbind ret]. rewrite Old.
  match goal with |- solo _ (pbind (update _ _ ?ff) ?KK) _ _ _ _ _ => change ff with f end.
  eapply solo_trans; [apply solo_bind|].
  { unfold update. cbn [pbind sys_do mem_do ret]. apply solo_sys with (x := d_temp d) (d1 := d2); [split; [symmetry; exact T2|reflexivity]|quiet|].
    apply solo_mem. change (d_temp d ++ default_psl_file_name) with (default_path d).
    assert (Xp : x_path (fst (mem_step (ReadExtractor f) m2)) = default_path d).
    { unfold m2, m1. cbn. rewrite upd_same. reflexivity. }
    rewrite Xp. assert (Q : bytes_eqb (default_path d) (default_path d) = true) by (apply bytes_eqb_eq; reflexivity). rewrite Q.
    cbn [negb snd mem_step pbind sys_do ret].
    apply solo_sys with (x := Some (d_next_fd d)) (d1 := with_new_fd d2 (d_name d (default_path d), 0)); [|quiet|].
    { cbn [disk_step]. unfold at_path. rewrite N2, E2. fold (at_path d (default_path d)). rewrite P, X2. split; reflexivity. }
    cbn [public_suffix_list_sources update_file]. unfold download_file. cbn [pbind sys_do ret].
    eapply solo_sys with (x := Response 200 body true); [reflexivity|(intros ? Hb; injection Hb as <-; exact Lb)|]. change (200 =? 200)%Z with true. cbn [pbind ret]. rewrite M. cbn [negb pbind sys_do ret].
    eapply solo_sys with (x := true); [left; split; reflexivity|quiet|]. cbn [negb pbind sys_do ret]. cbn [with_new_fd d_fd]. rewrite X2, upd_same. cbn [fst].
    apply solo_rests. }
  cbn [pbind]. apply solo_rests.
Qed.

(** The cache file, ready for another update. *)
Definition holds (d0 d : disk) (text : bytes) : Prop :=
  stable d /\ d_temp d = d_temp d0 /\ d_abs d = d_abs d0 /\ d_name d = d_name d0 /\ exists mt, at_path d (default_path d0) = Regular text mt true true.

Lemma layer : forall d0 d text body k rs ev, holds d0 d text -> L body -> k <= length body ->
  exists d' r ev', Forall (brings L) ev' /\ machine_steps (mkMachine d rs ev) (mkMachine d' (rs ++ [r]) (ev ++ ev')) /\ holds d0 d' (firstn k body ++ skipn k text).
Proof.
  intros d0 d text body k rs ev (St & Tp & Ab & Nm & mt & P) M Hk.
  assert (Dp : default_path d = default_path d0) by (unfold default_path; rewrite Tp; reflexivity).
  rewrite <- Dp in P. destruct (new_gets_to_write d (p_memory first_pool) text mt true body St P M) as (K & d1 & m1 & Sf & H).
  set (n0 := d_name d (default_path d)) in *.
  set (d2 := with_fd (with_new_fd d1 (n0, 0)) (d_next_fd d) (n0, 0)) in *.
  destruct (solo_machine _ _ _ _ _ _ rs [] ev [] [] [] 0 (CallNew (mkListParams [] false)) 1 [] H) as (tr' & Fb & G). cbn [app] in G.
  exists (written d2 (d_next_fd d) (firstn k body)).
  exists (mkProcess m1 [] [mkTask (mkThread 0 (CallNew (mkListParams [] false)) (Sys (Write (d_next_fd d) body) K)) k []] 1 tr'), tr'.
  split; [exact Fb|]. split.
  - eapply machine_trans; [apply machine_one, is_started|].
    eapply machine_trans; [apply machine_quiet; apply (begins _ _ _ d (p_memory first_pool) [] [] 0 [] (CallNew (mkListParams [] false))); exact I|].
    cbn [app]. eapply machine_trans; [exact G|]. apply machine_quiet.
    pose proof (writes_some to_ascii hardcoded ext d2 m1 [] [] 0 (CallNew (mkListParams [] false)) (d_next_fd d) body K 0 k [] [] 1 tr') as W.
    rewrite Nat.sub_0_r in W. cbn [skipn app] in W. apply W. lia.
  - destruct Sf as (T1 & A1 & N1 & E1 & F1 & X1). destruct St as ((O1 & O2 & O3) & tm & Td).
    assert (W : written d2 (d_next_fd d) (firstn k body) =
      with_fd (with_entry d2 n0 (Regular (firstn k body ++ skipn k text) (d_now d2) true true)) (d_next_fd d) (n0, k)).
    { unfold written, d2 at 1. cbn [with_fd d_fd]. rewrite upd_same. cbn [with_new_fd d_entry d2 with_fd]. rewrite E1.
      change (d_entry d n0) with (at_path d (default_path d)). rewrite P, overwrite_start, firstn_length_le' by exact Hk. reflexivity. }
    rewrite W. clear W.
    set (dd := with_fd (with_entry d2 n0 (Regular (firstn k body ++ skipn k text) (d_now d2) true true)) (d_next_fd d) (n0, k)).
    assert (Tdd : d_temp dd = d_temp d) by exact T1. assert (Add : d_abs dd = d_abs d) by exact A1.
    assert (Ndd : d_name dd = d_name d) by exact N1.
    assert (At : forall path, d_name d path <> n0 -> at_path dd path = at_path d path).
    { intros path N. unfold at_path. rewrite Ndd. cbn. rewrite E1. unfold upd_entry. apply N.eqb_neq in N. rewrite N. reflexivity. }
    assert (Here : at_path dd (default_path d) = Regular (firstn k body ++ skipn k text) (d_now d2) true true).
    { unfold at_path. rewrite Ndd. fold n0. cbn. unfold upd_entry. rewrite N.eqb_refl. reflexivity. }
    assert (Diff : forall path, (forall c m rd wr, at_path d path <> Regular c m rd wr) -> d_name d path <> n0).
    { intros path Hn X. unfold at_path in Hn. rewrite X in Hn. unfold at_path in P. fold n0 in P. apply (Hn _ _ _ _ P). }
    clearbody dd. split; [|split; [congruence|split; [congruence|split; [congruence|]]]].
    + split; [split; [|split]|].
      * rewrite Add, Ndd. exact O1.
      * rewrite At; [exact O2|]. apply Diff. rewrite O2. discriminate.
      * intros q c m rd wr. rewrite Add. intros Q. rewrite At; [apply O3; exact Q|]. apply Diff. intros. apply O3. exact Q.
      * exists tm. rewrite Tdd, At; [exact Td|]. apply Diff. rewrite Td. discriminate.
    + eexists. rewrite <- Dp. exact Here.
Qed.

Lemma skip_nth : forall A q (l : list A) b, nth_error l q = Some b -> skipn q l = b :: skipn (S q) l.
Proof.
  intros A. induction q as [|q IH]; intros [|x l] b H; cbn [nth_error] in H; try discriminate; [injection H as ->; reflexivity|].
  change (skipn q l = b :: skipn (S q) l). auto.
Qed.
Lemma skip_piece : forall q (body v : bytes) b, nth_error body q = Some b -> skipn q (firstn (S q) body ++ v) = b :: v.
Proof.
  induction q as [|q IH]; intros [|x l] v b H; cbn [nth_error] in H; try discriminate; [injection H as ->; reflexivity|].
  change (skipn q (firstn (S q) l ++ v) = b :: v). auto.
Qed.

Lemma brings_offered : forall ev body, Forall (brings L) ev -> offered ev body -> L body.
Proof. intros ev body F ((e & I & D) & _). rewrite Forall_forall in F. apply (F e I body D). Qed.

Lemma c98_file_exact : forall d old text mt, disk_ok d -> (exists tm, at_path d (d_temp d) = Directory tm true) ->
  at_path d (default_path d) = Regular old mt true true ->
  ((exists s, machine_steps (first_machine d) s /\ (forall body, offered (y_events s) body -> L body) /\ stored (y_disk s) (default_path d) text)
   <-> overlaid L old text).
Proof.
  intros d old text mt Ok Tp P. split.
  - intros (s & H & O & S). assert (I : initial_text d (default_path d) old) by (left; exists mt, true, true; exact P).
    destruct (c98_file _ _ _ d old s text I H (or_introl S)) as (top & E & F). exists top. split; [exact E|].
    intros i b N. destruct (F i b N) as (body & M & X). exists body. auto.
  - intros (top & E & F).
    assert (G : forall c, c <= length top -> exists d' rs ev u, machine_steps (first_machine d) (mkMachine d' rs ev) /\ Forall (brings L) ev
      /\ holds d d' u /\ skipn (length top - c) u = skipn (length top - c) text).
    { induction c as [|c IH]; intros Hc.
      - exists d, [], [], old. split; [apply machine_rests|]. split; [constructor|]. split; [split; [split; assumption|]; eauto 10|].
        rewrite Nat.sub_0_r, E, skipn_app, skipn_all, Nat.sub_diag. reflexivity.
      - destruct IH as (d' & rs & ev & u & R & Fe & H & U); [lia|]. set (q := length top - S c) in *.
        assert (Q : length top - c = S q) by lia. rewrite Q in U.
        destruct (nth_error top q) as [b|] eqn:N; [|apply nth_error_None in N; lia].
        destruct (F q b N) as (body & M & B). assert (Lb : q < length body) by (apply nth_error_Some; congruence).
        destruct (layer d d' u body (S q) rs ev H M) as (d2 & r & ev' & Fe' & R2 & H2); [lia|].
        exists d2, (rs ++ [r]), (ev ++ ev'), (firstn (S q) body ++ skipn (S q) u).
        split; [eapply machine_trans; eauto|]. split; [apply Forall_app; auto|]. split; [exact H2|].
        assert (Nt : nth_error text q = Some b) by (rewrite E, nth_error_app1 by lia; exact N).
        rewrite (skip_nth _ _ _ _ Nt), <- U. apply skip_piece. exact B. }
    destruct (G (length top) (Nat.le_refl _)) as (d' & rs & ev & u & R & Fe & (_ & _ & _ & _ & mt' & H) & U). rewrite Nat.sub_diag in U. cbn [skipn] in U. subst u.
    exists (mkMachine d' rs ev). split; [exact R|]. split; [intros body; apply brings_offered; exact Fe|]. exists mt', true, true. exact H.
Qed.

(** ** A New that reads while others write *)

Lemma runs_weaker : forall E (step1 step2 : forall R : Type, sys R -> E -> R -> E -> Prop),
  (forall R (o : sys R) e x e', step1 R o e x e' -> step2 R o e x e') ->
  forall A (p : prog A) e m tr e' m' r, runs step1 p e m tr e' m' r -> runs step2 p e m tr e' m' r.
Proof.
  intros E step1 step2 W A. induction p as [o|R o c IH|R o c IH]; intros e m tr e' m' r H; cbn [runs] in *; [exact H| |].
  - destruct H as (x & e1 & tr1 & S & T & H). exists x, e1, tr1. auto.
  - destruct (mem_step o m) as [x m1]. auto.
Qed.

(** A disk where reading may also give [text]. *)
Definition disk_or (text : bytes) (R : Type) (o : sys R) (d : disk) (x : R) (d' : disk) : Prop :=
  disk_step R o d x d' \/ (d' = d /\ match o in sys R return R -> Prop with ReadFile _ => fun x => x = Some text | _ => fun _ => False end x).

Lemma cache_opens : forall n f path, path <> [] -> exists K, new_from_cache to_ascii hardcoded n f path =
  Mem NewTrie (fun a => Sys (ReadFile path) (K a)).
Proof.
  intros n f path Hp. unfold new_from_cache, trie_construct, get_public_suffix_list.
  assert (Q : bytes_eqb path [] = false) by (destruct path; [contradiction|reflexivity]). rewrite Q.
  cbn [negb pbind mem_do sys_do ret]. eexists. reflexivity.
Qed.

Lemma new_gets_to_read : forall d m old mt private, unpadded (default_path d) -> disk_ok d -> d_abs d (default_path d) <> None -> has_markers old ->
  at_path d (default_path d) = Regular old mt true true ->
  exists d1 m1, same_files d d1 /\ m_next_extractor m1 = S (m_next_extractor m) /\ x_private (m_extractor m1 (m_next_extractor m)) = private /\
    solo L (new to_ascii hardcoded (mkListParams (default_path d) private)) d m
      (new_from_cache to_ascii hardcoded (mkListParams (default_path d) private) (m_next_extractor m) (default_path d)) d1 m1.
Proof.
  intros d m old mt private Up (O1 & _) Ab M P. apply delimiters_iff in M. apply trim_space_iff in Up.
  assert (Ne : default_path d <> []) by (unfold default_path; destruct (d_temp d); discriminate).
  destruct (d_abs d (default_path d)) as [q|] eqn:A; [|contradiction]. specialize (O1 _ _ Ne A).
  assert (Q : at_path d q = Regular old mt true true) by (unfold at_path; rewrite O1; exact P).
  exists (with_now d (d_now d)). eexists. split; [repeat split|]. split; [|split; [|
    unfold new; cbn [pbind mem_do ret lp_path lp_private]; apply solo_mem, solo_mem; cbn [fst];
    unfold check_cache_file; rewrite Up; cbn [pbind sys_do ret];
    eapply solo_sys with (x := Some q) (d1 := d); [split; [symmetry; exact A|reflexivity]|quiet|];
    eapply solo_sys with (x := Some (false, mt)) (d1 := d); [split; [reflexivity|rewrite Q; reflexivity]|quiet|];
    cbn [pbind sys_do ret]; eapply solo_sys with (x := d_now d) (d1 := with_now d (d_now d)); [split; [lia|reflexivity]|quiet|];
    cbn [pbind sys_do ret]; eapply solo_sys with (x := Some old) (d1 := with_now d (d_now d));
      [split; [reflexivity|]; change (at_path (with_now d (d_now d)) q) with (at_path d q); rewrite Q; reflexivity|quiet|];
    cbn [pbind ret]; rewrite M; cbn [negb andb]; apply solo_rests]]; cbn.
  - reflexivity.
  - rewrite upd_same. reflexivity.
Qed.

(** What is done with the text once it is read. *)
Lemma rest_runs : forall n f path K text d m, path <> [] -> f < m_next_extractor m ->
  new_from_cache to_ascii hardcoded n f path = Mem NewTrie (fun a => Sys (ReadFile path) (K a)) ->
  exists m', solo L (pbind (K (m_next_trie m) (Some text)) (fun r => ret (FromNew r))) d (snd (mem_step NewTrie m)) (Done (Ret (FromNew (f, None)))) d m'
    /\ serves to_ascii m' f (lp_private n) text /\ x_private (m_extractor m' f) = x_private (m_extractor m f).
Proof.
  intros n f path K text d m Hp Hf E.
  destruct (c68_possible (fun _ => NoResponse) _ (K (m_next_trie m) (Some text)) d (snd (mem_step NewTrie m))) as (tr & d' & m' & r & R & _).
  assert (R2 : runs (disk_or text) (new_from_cache to_ascii hardcoded n f path) d m (Event (ReadFile path) (Some text) :: tr) d' m' r).
  { rewrite E. cbn [runs mem_step]. exists (Some text), d, tr. split; [right; split; reflexivity|]. split; [reflexivity|].
    eapply runs_weaker; [|exact R]. intros R0 o e x e' S. left. exact S. }
  apply new_from_cache_runs in R2 as (_ & _ & [(X & _)|(_ & x & S & T & B)]); [contradiction| |exact Hf].
  assert (x = Some text /\ tr = []) as (-> & ->).
  { pose proof (f_equal (map read_of) T) as Q. cbn [map read_of] in Q. destruct x as [t|]; [|discriminate]. injection Q as Q1 Q2. subst t.
    split; [reflexivity|]. destruct tr; [reflexivity|discriminate]. }
  destruct B as (-> & B1 & B2 & _). exists m'. split; [|split; [exact B1|rewrite B2; reflexivity]].
  apply (runs_solo L) in R as G; [|constructor]. apply (solo_bind L _ _ _ (fun r => ret (FromNew r))) in G.
  assert (d' = d).
  { destruct S as [(-> & _)|(-> & _)]; reflexivity. }
  subst d'. exact G.
Qed.

Lemma c98_used_exact : forall d old text mt private, disk_ok d -> (exists tm, at_path d (d_temp d) = Directory tm true) ->
  unpadded (default_path d) -> d_abs d (default_path d) <> None -> at_path d (default_path d) = Regular old mt true true -> has_markers old ->
  patchwork L old text ->
  exists s r f, machine_steps (first_machine d) s /\ (forall body, offered (y_events s) body -> L body) /\ In r (y_processes s) /\ In f (r_known r)
    /\ x_private (m_extractor (r_memory r) f) = private /\ serves to_ascii (r_memory r) f private text
    /\ was_read (r_trace r) (default_path d) text.
Proof.
  intros d old text mt private Ok Tp Up Ab P M (Ln & Pw). set (n := mkListParams (default_path d) private).
  assert (Ne : default_path d <> []) by (unfold default_path; destruct (d_temp d); discriminate).
  set (m0 := p_memory first_pool).
  destruct (new_gets_to_read d m0 old mt private Up Ok Ab M P) as (d1 & m1 & Sf & Nx & Xp & H). fold n in H.
  change (m_next_extractor m0) with 0 in *.
  destruct (cache_opens n 0 (default_path d) Ne) as (K & E).
  set (KK := fun r => ret (FromNew r)).
  assert (H2 : solo L (program to_ascii hardcoded ext (CallNew n)) d m0
    (Sys (ReadFile (default_path d)) (fun x => pbind (K (m_next_trie m1) x) KK)) d1 (snd (mem_step NewTrie m1))).
  { cbn [program]. apply (solo_bind L _ _ _ KK) in H. eapply solo_trans; [exact H|]. rewrite E. cbn [pbind]. apply solo_mem. apply solo_rests. }
  destruct (solo_machine _ _ _ _ _ _ [] [] [] [] [] [] 0 (CallNew n) 1 [] H2) as (tr & Ft & G). cbn [app] in G.
  set (m2 := snd (mem_step NewTrie m1)) in *.
  pose (reader := fun g => mkProcess m2 [] [mkTask (mkThread 0 (CallNew n) (Sys (ReadFile (default_path d)) (fun x => pbind (K (m_next_trie m1) x) KK))) 0 g] 1 tr).
  assert (Hold : holds d d1 old).
  { destruct Sf as (T1 & A1 & N1 & E1 & _). destruct Ok as (O1 & O2 & O3). destruct Tp as (tm & Tp).
    split; [|split; [exact T1|split; [exact A1|split; [exact N1|]]]].
    - split; [split; [|split]|].
      + rewrite A1, N1. exact O1.
      + unfold at_path. rewrite N1, E1. exact O2.
      + intros q c mt' rd wr. rewrite A1. unfold at_path. rewrite N1, E1. apply O3.
      + exists tm. unfold at_path. rewrite N1, E1, T1. exact Tp.
    - exists mt. unfold at_path. rewrite N1, E1. exact P. }
  assert (Loop : forall i, i <= length text -> exists d' rs ev u, machine_steps (first_machine d) (mkMachine d' (reader (firstn i text) :: rs) ev)
    /\ Forall (brings L) ev /\ holds d d' u /\ skipn i u = skipn i old).
  { induction i as [|i IH]; intros Hi.
    - exists d1, [], tr, old. split; [|split; [exact Ft|split; [exact Hold|reflexivity]]].
      eapply machine_trans; [apply machine_one, is_started|].
      pose proof (begins to_ascii hardcoded ext d m0 [] [] 0 [] (CallNew n) I) as Bg. apply (machine_quiet _ _ _ _ [] [] []) in Bg.
      eapply machine_trans; [exact Bg|]. exact G.
    - destruct IH as (d' & rs & ev & u & R & Fe & Hu & U); [lia|].
      destruct (nth_error text i) as [b|] eqn:Nt; [|apply nth_error_None in Nt; lia].
      assert (Read : forall d2 rs2 ev2 u2, holds d d2 u2 -> nth_error u2 i = Some b ->
        machine_steps (first_machine d) (mkMachine d2 (reader (firstn i text) :: rs2) ev2) ->
        machine_steps (first_machine d) (mkMachine d2 (reader (firstn (S i) text) :: rs2) ev2)).
      { intros d2 rs2 ev2 u2 (_ & _ & _ & _ & mt2 & P2) N2 R2. eapply machine_trans; [exact R2|].
        apply (machine_quiet d2 (reader (firstn i text)) d2 (reader (firstn (S i) text)) [] rs2).
        assert (Q : firstn (S i) text = firstn i text ++ firstn 1 (skipn (length (firstn i text)) u2)).
        { rewrite firstn_length, Nat.min_l by lia. rewrite (skip_nth _ _ _ _ N2).
          transitivity (firstn (i + 1) text); [f_equal; lia|]. rewrite first_add, (skip_nth _ _ _ _ Nt). reflexivity. }
        rewrite Q. unfold reader.
        apply (reads_some to_ascii hardcoded ext d2 m2 [] [] 0 (CallNew n) (default_path d) _ 0 (firstn i text) 1 u2 mt2 true [] 1 tr P2). }
      destruct (Pw i b Nt) as [B|(body & Mb & B)].
      + exists d', rs, ev, u. split; [|split; [exact Fe|split; [exact Hu|]]].
        * eapply Read; eauto. rewrite (skip_nth _ _ _ _ B) in U.
          pose proof (nth_skip _ i 0 u) as Q. rewrite U, Nat.add_0_r in Q. symmetry. exact Q.
        * replace (S i) with (i + 1) by lia. rewrite <- !skip_skip. rewrite U. reflexivity.
      + assert (Lb : i < length body) by (apply nth_error_Some; congruence).
        destruct (layer d d' u body (S i) (reader (firstn i text) :: rs) ev Hu Mb) as (d2 & r & ev' & Fe' & R2 & H3); [lia|].
        cbn [app] in R2. exists d2, (rs ++ [r]), (ev ++ ev'), (firstn (S i) body ++ skipn (S i) u). split; [|split; [apply Forall_app; auto|split; [exact H3|]]].
        * eapply Read; [exact H3| |eapply machine_trans; eauto].
          pose proof (nth_skip _ i 0 (firstn (S i) body ++ skipn (S i) u)) as Q. rewrite (skip_piece _ _ _ _ B), Nat.add_0_r in Q. symmetry. exact Q.
        * rewrite skipn_app, skipn_all2 by (rewrite firstn_length; lia). rewrite firstn_length_le' by lia. rewrite Nat.sub_diag, skipn_O. cbn [app].
          replace (S i) with (i + 1) by lia. rewrite <- !skip_skip. rewrite U. reflexivity. }
  destruct (Loop (length text) (Nat.le_refl _)) as (d' & rs & ev & u & R & Fe & (_ & _ & _ & _ & mt' & Hu) & U). rewrite firstn_all in R.
  rewrite (skipn_all2 old) in U by exact Ln.
  assert (Lu : length u <= length text).
  { apply (f_equal (@length N)) in U. rewrite skipn_length in U. cbn [length] in U. lia. }
  destruct (rest_runs n 0 (default_path d) K text d' m1 Ne ltac:(lia) E) as (m' & Go & Sv & Xm). fold m2 in Go.
  set (tr2 := tr ++ [Event (ReadFile (default_path d)) (Some text)]). set (ev2 := ev ++ [Event (ReadFile (default_path d)) (Some text)]).
  destruct (solo_machine _ _ _ _ _ _ [] rs ev2 [] [] [] 0 (CallNew n) 1 tr2 Go) as (tr' & Ft' & G2). cbn [app] in G2.
  exists (mkMachine d' (mkProcess m' [0] [] 1 (tr2 ++ tr') :: rs) (ev2 ++ tr')). exists (mkProcess m' [0] [] 1 (tr2 ++ tr')), 0.
  split; [|split; [|split; [left; reflexivity|split; [left; reflexivity|split; [|split; [exact Sv|]]]]]].
  2: { intros body. apply brings_offered. apply Forall_app. split; [|exact Ft']. apply Forall_app. split; [exact Fe|].
       constructor; [quiet|constructor]. }
  - eapply machine_trans; [exact R|]. eapply machine_trans.
    + apply machine_one. apply (runs_on to_ascii hardcoded ext d' d' [] (reader text) (mkProcess m2 [] [mkTask (mkThread 0 (CallNew n) (pbind (K (m_next_trie m1) (Some text)) KK)) 0 []] 1 tr2) rs).
      apply (reads_end to_ascii hardcoded ext d' m2 [] [] 0 (CallNew n) (default_path d) (fun x => pbind (K (m_next_trie m1) x) KK) 0 text [] 1 tr u mt' true Hu Lu).
    + cbn [app]. eapply machine_trans; [exact G2|].
      apply (machine_quiet d' _ d' (mkProcess m' [0] [] 1 (tr2 ++ tr')) [] rs).
      apply (gives_back to_ascii hardcoded ext d' m' [] [] 0 (CallNew n) (Ret (FromNew (0, None))) 0 [] [] 1 (tr2 ++ tr')).
  - cbn [r_memory]. rewrite Xm. exact Xp.
  - cbn [r_trace]. exists (Event (ReadFile (default_path d)) (Some text)). split; [|reflexivity].
    apply in_or_app. left. apply in_or_app. right. left. reflexivity.
Qed.

Lemma c98_read_exact : forall d old text mt, disk_ok d -> (exists tm, at_path d (d_temp d) = Directory tm true) ->
  unpadded (default_path d) -> d_abs d (default_path d) <> None -> at_path d (default_path d) = Regular old mt true true -> has_markers old ->
  ((exists s, machine_steps (first_machine d) s /\ (forall body, offered (y_events s) body -> L body)
      /\ was_read (y_events s) (default_path d) text)
   <-> patchwork L old text).
Proof.
  intros d old text mt Ok Tp Up Ab P M. split.
  - intros (s & H & O & W). assert (I : initial_text d (default_path d) old) by (left; exists mt, true, true; exact P).
    pose proof (c98_read _ _ _ d old s _ text I H W) as R. rewrite N.eqb_refl in R. destruct R as (Ln & R). split; [exact Ln|].
    intros i b N. destruct (R i b N) as [X|(body & B & X)]; [auto|]. right. exists body. auto.
  - intros H. destruct (c98_used_exact d old text mt false Ok Tp Up Ab P M H) as (s & r & f & St & O & I & _ & _ & _ & W).
    exists s. split; [exact St|]. split; [exact O|]. destruct W as (e & E & W). exists e. split; [|exact W].
    apply (machine_pools _ _ _ d s St r I). exact E.
Qed.
End Exact.

Lemma c98_serves : forall to_ascii hardcoded ext d old s r f, initial_text d (default_path d) old ->
  machine_steps to_ascii hardcoded ext (first_machine d) s -> In r (y_processes s) -> In f (r_known r) ->
  exists text, serves to_ascii (r_memory r) f (x_private (m_extractor (r_memory r) f)) text /\
    (text = hardcoded \/ patchwork (offered (y_events s)) old text
     \/ exists path mt wr, d_name d path <> d_name d (default_path d) /\ at_path d path = Regular text mt true wr).
Proof.
  intros to_ascii hardcoded ext d old s r f I H J K. destruct (machine_pools _ _ _ d s H r J) as (P & Inc).
  destruct (c43_serves _ _ _ _ f P K) as (text & T & S). exists text. split; [exact S|].
  destruct T as [T|(path & e & W & E)]; [auto|]. right.
  assert (W' : was_read (y_events s) path text) by (exists e; split; [apply Inc; exact W|exact E]).
  pose proof (c98_read _ _ _ d old s path text I H W') as R. destruct (N.eqb_spec (d_name d path) (d_name d (default_path d))); [auto|].
  right. destruct R as (mt & wr & R). eauto 10.
Qed.

(** If everybody installs the same list, nobody sees anything but a beginning of it. *)
Lemma patchwork_one : forall (lists : bytes -> Prop) list k text, (forall body, lists body -> body = list) -> patchwork lists (firstn k list) text ->
  text = firstn (length text) list.
Proof.
  intros lists list k text O (_ & H).
  assert (G : forall i b, nth_error text i = Some b -> nth_error list i = Some b).
  { intros i b N. destruct (H i b N) as [X|(body & B & X)]; [apply nth_first in X; apply X|]. rewrite (O body B) in X. exact X. }
  clear O H. revert list G. induction text as [|x text IH]; intros list G; [reflexivity|].
  pose proof (G 0 x eq_refl) as Z. destruct list as [|y list]; [discriminate|]. injection Z as ->. cbn [length firstn]. f_equal.
  apply IH. intros i b N. apply (G (S i) b N).
Qed.

Lemma overlaid_patchwork : forall lists old text, overlaid lists old text -> patchwork lists old text.
Proof.
  intros lists old text (top & -> & F). split; [rewrite app_length, skipn_length; lia|].
  intros i b N. apply nth_app in N as [(_ & N)|(G & N)]; [auto|]. left. rewrite nth_skip in N. rewrite <- N. f_equal. lia.
Qed.

Lemma c98_one_list : forall to_ascii hardcoded ext d list k s, initial_text d (default_path d) (firstn k list) ->
  machine_steps to_ascii hardcoded ext (first_machine d) s -> (forall body, offered (y_events s) body -> body = list) ->
  forall text, (initial_text (y_disk s) (default_path d) text \/
                exists path, d_name d path = d_name d (default_path d) /\ was_read (y_events s) path text) ->
  text = firstn (length text) list /\ (length (firstn k list) <= length text).
Proof.
  intros to_ascii hardcoded ext d list k s I H O text C.
  assert (P : patchwork (offered (y_events s)) (firstn k list) text).
  { destruct C as [C|(path & N & W)]; [apply overlaid_patchwork; eapply c98_file; eauto|].
    pose proof (c98_read _ _ _ d _ s path text I H W) as R. rewrite N, N.eqb_refl in R. exact R. }
  split; [eapply patchwork_one; eauto|apply P].
Qed.
