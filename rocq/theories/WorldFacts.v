(** WorldFacts.v - facts about runs of programs. *)

From Verif Require Import Base BaseFacts Chars Str Trie RuleSpec TrieFacts Psl ListSpec ListFacts World Update UpdateSpec.
From Coq Require Import ZifyBool ZifyNat ZifyN.

Section Runs.
Variable E : Type.
Variable step : forall R : Type, sys R -> E -> R -> E -> Prop.

Lemma runs_bind : forall A B (p : prog A) (k : A -> prog B) e m tr e' m' r,
  runs step (pbind p k) e m tr e' m' r <->
  exists tr1 e1 m1 o, runs step p e m tr1 e1 m1 o /\
    match o with
    | Ret a => exists tr2, tr = tr1 ++ tr2 /\ runs step (k a) e1 m1 tr2 e' m' r
    | Panic => tr = tr1 /\ e' = e1 /\ m' = m1 /\ r = Panic
    | OutOfFuel => tr = tr1 /\ e' = e1 /\ m' = m1 /\ r = OutOfFuel
    end.
Proof.
  induction p as [o|R o c IH|R o c IH]; intros k e m tr e' m' r.
  - cbn [pbind runs]. split.
    + intros H. exists [], e, m, o. split; [auto|]. destruct o.
      * exists tr. auto.
      * cbn [runs] in H. tauto.
      * cbn [runs] in H. tauto.
    + intros (tr1 & e1 & m1 & o' & (-> & -> & -> & ->) & H). destruct o.
      * destruct H as (tr2 & -> & H). exact H.
      * cbn [runs]. tauto.
      * cbn [runs]. tauto.
  - cbn [pbind runs]. split.
    + intros (x & e1 & tr1 & S & -> & H). apply IH in H as (tr2 & e2 & m2 & o2 & H & K).
      exists (Event o x :: tr2), e2, m2, o2. split; [exists x, e1, tr2; auto|].
      destruct o2; [destruct K as (tr3 & -> & K); exists tr3; auto| |]; destruct K as (-> & K); auto.
    + intros (tr1 & e1 & m1 & o1 & (x & e2 & tr2 & S & -> & H) & K).
      destruct o1 as [a| |].
      * destruct K as (tr3 & -> & K). exists x, e2, (tr2 ++ tr3). split; [exact S|]. split; [reflexivity|].
        apply IH. exists tr2, e1, m1, (Ret a). split; [exact H|]. exists tr3. auto.
      * destruct K as (-> & K). exists x, e2, tr2. split; [exact S|]. split; [reflexivity|].
        apply IH. exists tr2, e1, m1, Panic. auto.
      * destruct K as (-> & K). exists x, e2, tr2. split; [exact S|]. split; [reflexivity|].
        apply IH. exists tr2, e1, m1, OutOfFuel. auto.
  - cbn [pbind runs]. destruct (mem_step o m) as [x m1]. apply IH.
Qed.

Lemma runs_ret : forall A (a : A) e m tr e' m' r,
  runs step (ret a) e m tr e' m' r <-> tr = [] /\ e' = e /\ m' = m /\ r = Ret a.
Proof. reflexivity. Qed.

(** Binding a program that always returns. *)
Lemma runs_bind_ret : forall A B (p : prog A) (k : A -> prog B) e m tr e' m' r,
  runs step (pbind p k) e m tr e' m' r ->
  (forall tr1 e1 m1 o, runs step p e m tr1 e1 m1 o -> exists a, o = Ret a) ->
  exists tr1 tr2 e1 m1 a, runs step p e m tr1 e1 m1 (Ret a) /\ tr = tr1 ++ tr2
    /\ runs step (k a) e1 m1 tr2 e' m' r.
Proof.
  intros A B p k e m tr e' m' r H T. apply runs_bind in H as (tr1 & e1 & m1 & o & H & K).
  destruct (T _ _ _ _ H) as (a & ->). destruct K as (tr2 & -> & K). exists tr1, tr2, e1, m1, a. auto.
Qed.

(** [m'] has the tries and extractors of [m] and possibly more. *)
Definition keeps_tries (m m' : memory) : Prop :=
  (m_next_trie m <= m_next_trie m')%nat
  /\ forall b, (b < m_next_trie m)%nat -> m_trie m' b = m_trie m b.

Lemma keeps_refl : forall m, keeps_tries m m.
Proof. intros m. split; auto. Qed.
Lemma keeps_trans : forall m1 m2 m3, keeps_tries m1 m2 -> keeps_tries m2 m3 -> keeps_tries m1 m3.
Proof.
  intros m1 m2 m3 [L1 H1] [L2 H2]. split; [lia|]. intros b Hb. rewrite H2 by lia. apply H1. exact Hb.
Qed.

Lemma upd_same : forall A (f : nat -> A) a v, upd f a v a = v.
Proof. intros. unfold upd. rewrite Nat.eqb_refl. reflexivity. Qed.
Lemma upd_other : forall A (f : nat -> A) a v b, b <> a -> upd f a v b = f b.
Proof. intros A f a v b H. unfold upd. apply Nat.eqb_neq in H. rewrite H. reflexivity. Qed.

Lemma insert_suffixes_runs : forall l a e m tr e' m' r, runs step (insert_suffixes a l) e m tr e' m' r ->
  tr = [] /\ e' = e /\ r = Ret tt /\ insert_all (m_trie m a) l = Ret (m_trie m' a)
  /\ (forall b, b <> a -> m_trie m' b = m_trie m b) /\ m_next_trie m' = m_next_trie m
  /\ m_extractor m' = m_extractor m /\ m_next_extractor m' = m_next_extractor m.
Proof.
  induction l as [|s l IH]; intros a e m tr e' m' r H; cbn [insert_suffixes] in H.
  - destruct H as (-> & -> & -> & ->). cbn [insert_all]. auto 10.
  - rewrite reverse_spec in H. cbn [pbind runs mem_step mem_do ret] in H. cbn [insert_all]. rewrite reverse_spec. cbn [bind].
    apply IH in H as (-> & -> & -> & H & Ho & Hn & Hx & Hy). cbn [set_trie m_trie m_next_trie m_extractor m_next_extractor] in *.
    rewrite upd_same in H. split; [reflexivity|]. split; [reflexivity|]. split; [reflexivity|]. split; [exact H|].
    split; [|auto]. intros b Hb. rewrite Ho by exact Hb. apply upd_other. exact Hb.
Qed.

Variable to_ascii : bytes -> option bytes.
Variable hardcoded : bytes.

(** The trie at address [a] is the one of a list file. *)
Definition built (m : memory) (a : nat) (private : bool) (text : bytes) : Prop :=
  exists rules, used_rules to_ascii text private rules /\ build_trie rules = Ret (m_trie m a).

Lemma trie_construct_runs : forall private path e m tr e' m' r,
  runs step (trie_construct to_ascii hardcoded private path) e m tr e' m' r ->
  keeps_tries m m' /\ m_extractor m' = m_extractor m /\ m_next_extractor m' = m_next_extractor m
  /\ m_next_trie m' = S (m_next_trie m)
  /\ ((path = [] /\ tr = [] /\ e' = e /\ r = Ret (m_next_trie m, None) /\ built m' (m_next_trie m) private hardcoded)
      \/ (path <> [] /\ exists x, step _ (ReadFile path) e x e' /\ tr = [Event (ReadFile path) x] /\
          match x with
          | None => r = Ret (m_next_trie m, Some ErrReadList)
          | Some text => r = Ret (m_next_trie m, None) /\ built m' (m_next_trie m) private text
          end)).
Proof.
  intros private path e m tr e' m' r H. unfold trie_construct in H. cbn [pbind runs mem_step mem_do ret] in H.
  set (m1 := mkMemory _ _ _ _) in H.
  assert (F : forall l e1 tr1, runs step (_ <~ insert_suffixes (m_next_trie m) l ;;
        _ <~ mem_do (MarkWildcards (m_next_trie m)) ;; ret (m_next_trie m, @None io_err)) e1 m1 tr1 e' m' r ->
      tr1 = [] /\ e' = e1 /\ r = Ret (m_next_trie m, None) /\ build_trie l = Ret (m_trie m' (m_next_trie m))
      /\ keeps_tries m m' /\ m_extractor m' = m_extractor m /\ m_next_extractor m' = m_next_extractor m
      /\ m_next_trie m' = S (m_next_trie m)).
  { intros l e1 tr1 G. apply runs_bind in G as (tra & ea & ma & o & G & K).
    apply insert_suffixes_runs in G as (-> & -> & -> & I & Ho & Hn & Hx & Hy).
    destruct K as (trb & -> & K). cbn [pbind runs mem_step mem_do ret] in K. destruct K as (-> & -> & -> & ->).
    unfold m1 in *. cbn [m_trie m_next_trie m_extractor m_next_extractor set_trie] in *. rewrite upd_same in *.
    split; [reflexivity|]. split; [reflexivity|]. split; [reflexivity|]. split; [unfold build_trie; rewrite I; reflexivity|].
    split; [|auto]. split; cbn [m_trie m_next_trie set_trie]; [lia|]. intros b Hb.
    rewrite upd_other by lia. rewrite Ho by lia. apply upd_other. lia. }
  destruct (bytes_eqb path []) eqn:P; cbn [negb] in H.
  - apply bytes_eqb_eq in P. cbn [get_hardcoded_public_suffix_list pbind ret] in H.
    apply F in H as (-> & -> & -> & B & K & X & Y & Z). split; [exact K|]. split; [exact X|]. split; [exact Y|]. split; [exact Z|].
    left. split; [exact P|]. split; [reflexivity|]. split; [reflexivity|]. split; [reflexivity|].
    eexists. split; [|exact B]. apply used_rules_iff. reflexivity.
  - apply bytes_eqb_neq in P. cbn [get_public_suffix_list pbind sys_do ret runs] in H.
    destruct H as (x & e1 & tr1 & S & -> & H). destruct x as [text|].
    + cbn [pbind ret] in H. apply F in H as (-> & -> & -> & B & K & X & Y & Z).
      split; [exact K|]. split; [exact X|]. split; [exact Y|]. split; [exact Z|]. right. split; [exact P|].
      exists (Some text). split; [exact S|]. split; [reflexivity|]. split; [reflexivity|].
      eexists. split; [|exact B]. apply used_rules_iff. reflexivity.
    + cbn [pbind ret runs] in H. destruct H as (-> & -> & -> & ->). unfold m1. cbn [m_trie m_next_trie m_extractor m_next_extractor].
      split; [split; cbn [m_trie m_next_trie]; [lia|]; intros b Hb; apply upd_other; lia|].
      split; [reflexivity|]. split; [reflexivity|]. split; [reflexivity|].
      right. split; [exact P|]. exists None. auto.
Qed.

(** newHardcodedPSL *)
Lemma new_hardcoded_runs : forall n e m tr e' m' r,
  runs step (new_hardcoded_psl to_ascii hardcoded n) e m tr e' m' r ->
  tr = [] /\ e' = e /\ keeps_tries m m' /\ r = Ret (m_next_extractor m, None)
  /\ m_next_extractor m' = S (m_next_extractor m)
  /\ (forall g, g <> m_next_extractor m -> m_extractor m' g = m_extractor m g)
  /\ m_extractor m' (m_next_extractor m) = mkExtractor [] (m_next_trie m) (lp_private n)
  /\ (m_next_trie m < m_next_trie m')%nat
  /\ serves to_ascii m' (m_next_extractor m) (lp_private n) hardcoded.
Proof.
  intros n e m tr e' m' r H. unfold new_hardcoded_psl in H.
  apply runs_bind in H as (tr1 & e1 & m1 & o & H & K).
  apply trie_construct_runs in H as (Kt & X & Y & Z & [(_ & -> & -> & -> & B)|(N & _)]); [|contradiction].
  destruct K as (tr2 & -> & K). cbn [pbind mem_do ret runs mem_step] in K. destruct K as (-> & -> & -> & ->).
  rewrite X, Y in *. cbn [m_next_extractor m_extractor m_trie m_next_trie].
  split; [reflexivity|]. split; [reflexivity|]. split; [exact Kt|]. split; [reflexivity|]. split; [reflexivity|].
  split; [intros g Hg; apply upd_other; exact Hg|]. rewrite upd_same. split; [reflexivity|].
  split; [lia|]. destruct B as (rules & U & B). exists rules. split; [exact U|].
  unfold trie_in. cbn [m_extractor m_trie]. rewrite upd_same. exact B.
Qed.

(** Files of checkCacheFile *)
Lemma check_cache_runs : forall path e m tr e' m' r,
  runs step (check_cache_file path) e m tr e' m' r ->
  m' = m /\ exists valid age, r = Ret (valid, age) /\
  exists abs e1 st e2 e3 c tr3,
    step _ (Abs (trim_space path)) e abs e1 /\
    let path' := match abs with Some p => p | None => [] end in
    step _ (Stat path') e1 st e2 /\
    match st with
    | Some (_, mtime) => exists now, step _ Now e2 now e3 /\ tr3 = [Event Now now] /\ age = (now - mtime)%Z
    | None => e3 = e2 /\ tr3 = [] /\ age = 0%Z
    end /\
    step _ (ReadFile path') e3 c e' /\
    tr = [Event (Abs (trim_space path)) abs; Event (Stat path') st] ++ tr3 ++ [Event (ReadFile path') c] /\
    (valid = true <-> abs <> None /\ (exists mtime, st = Some (false, mtime)) /\ exists text, c = Some text /\ has_markers text).
Proof.
  intros path e m tr e' m' r H. unfold check_cache_file in H. cbn [pbind sys_do ret runs] in H.
  destruct H as (abs & e1 & tr1 & Sa & -> & st & e2 & tr2 & Ss & -> & H).
  set (path' := match abs with Some p => p | None => [] end) in *.
  set (valid := fun c => match abs with None => false | Some _ =>
     match st with None => false | Some (is_dir, _) => negb is_dir && match c with Some c => valid_psl_delimiters c | None => false end end end).
  assert (V : forall c, valid c = true <-> abs <> None /\ (exists mtime, st = Some (false, mtime)) /\ exists text, c = Some text /\ has_markers text).
  { intros c. unfold valid. destruct abs as [p|]; [|split; [discriminate|intros [X _]; contradiction]].
    destruct st as [[dir mt]|]; [|split; [discriminate|intros (_ & (t & X) & _); discriminate]].
    rewrite andb_true_iff, negb_true_iff. split.
    - intros [-> D]. split; [discriminate|]. split; [exists mt; reflexivity|]. destruct c as [c|]; [|discriminate].
      exists c. split; [reflexivity|]. apply delimiters_iff. exact D.
    - intros (_ & (t & X) & text & -> & M). injection X as -> ->. split; [reflexivity|]. apply delimiters_iff. exact M. }
  destruct st as [[dir mt]|].
  - cbn [pbind sys_do ret runs] in H. destruct H as (now & e3 & tr3 & Sn & -> & c & e4 & tr4 & Sr & -> & -> & -> & -> & ->).
    split; [reflexivity|]. exists (valid c), (now - mt)%Z. split; [reflexivity|].
    exists abs, e1, (Some (dir, mt)), e2, e3, c, [Event Now now]. cbn zeta. split; [exact Sa|]. split; [exact Ss|].
    split; [exists now; auto|]. split; [exact Sr|]. split; [reflexivity|]. apply V.
  - cbn [pbind sys_do ret runs] in H. destruct H as (c & e4 & tr4 & Sr & -> & -> & -> & -> & ->).
    split; [reflexivity|]. exists (valid c), 0%Z. split; [reflexivity|].
    exists abs, e1, None, e2, e2, c, []. cbn zeta. split; [exact Sa|]. split; [exact Ss|].
    split; [auto|]. split; [exact Sr|]. split; [reflexivity|]. apply V.
Qed.

(** update *)
Lemma update_file_runs : forall file sources e m tr e' m' r,
  runs step (update_file file sources) e m tr e' m' r ->
  m' = m /\
  ((r = Ret None /\ exists before s after trs trl, sources = before ++ s :: after
      /\ Forall2 (fun s t => attempt file s t false) before trs /\ attempt file s trl true /\ tr = concat trs ++ trl)
   \/ (r = Ret (Some ErrNoSource) /\ exists trs, Forall2 (fun s t => attempt file s t false) sources trs /\ tr = concat trs)).
Proof.
  intros file. induction sources as [|s rest IH]; intros e m tr e' m' r H; cbn [update_file] in H.
  - destruct H as (-> & -> & -> & ->). split; [reflexivity|]. right. split; [reflexivity|]. exists []. auto.
  - assert (Next : forall e1 t tr1, attempt file s t false -> runs step (update_file file rest) e1 m tr1 e' m' r ->
      m' = m /\
  ((r = Ret None /\ exists before s0 after trs trl, s :: rest = before ++ s0 :: after
      /\ Forall2 (fun s t => attempt file s t false) before trs /\ attempt file s0 trl true /\ t ++ tr1 = concat trs ++ trl)
   \/ (r = Ret (Some ErrNoSource) /\ exists trs, Forall2 (fun s t => attempt file s t false) (s :: rest) trs /\ t ++ tr1 = concat trs))).
    { intros e1 t tr1 A G. apply IH in G as (-> & [(-> & b & s' & a & trs & trl & -> & F & L & ->)|(-> & trs & F & ->)]); split; auto.
      - left. split; [reflexivity|]. exists (s :: b), s', a, (t :: trs), trl. split; [reflexivity|]. split; [constructor; auto|].
        split; [exact L|]. cbn [concat]. rewrite app_assoc. reflexivity.
      - right. split; [reflexivity|]. exists (t :: trs). split; [constructor; auto|]. reflexivity. }
    unfold download_file in H. cbn [pbind sys_do ret runs] in H. destruct H as (resp & e1 & tr1 & S & -> & H).
    destruct resp as [|status body complete].
    { apply (Next e1 [Event (HttpGet s) NoResponse] tr1); [constructor; discriminate|exact H]. }
    destruct (status =? 200)%Z eqn:St.
    2:{ apply (Next e1 [Event (HttpGet s) (Response status body complete)] tr1); [|exact H]. constructor.
        intros b X. injection X as -> _ _. discriminate. }
    apply Z.eqb_eq in St. subst status. destruct complete.
    2:{ apply (Next e1 [Event (HttpGet s) (Response 200 body false)] tr1); [|exact H]. constructor. intros b X. discriminate. }
    cbn [pbind ret] in H. destruct (valid_psl_delimiters body) eqn:D; cbn [negb] in H.
    2:{ apply (Next e1 [Event (HttpGet s) (Response 200 body true)] tr1); [|exact H]. apply no_list.
        rewrite <- delimiters_iff. congruence. }
    apply delimiters_iff in D. cbn [pbind sys_do ret runs] in H. destruct H as (sought & e2 & tr2 & S2 & -> & H).
    destruct sought; cbn [negb] in H.
    2:{ apply (Next e2 [Event (HttpGet s) (Response 200 body true); Event (SeekStart file) false] tr2); [|exact H].
        apply no_seek. exact D. }
    cbn [pbind sys_do ret runs] in H. destruct H as (ok & e3 & tr3 & S3 & -> & H). destruct ok; cbn [negb] in H.
    2:{ apply (Next e3 [Event (HttpGet s) (Response 200 body true); Event (SeekStart file) true; Event (Write file body) false] tr3);
        [|exact H]. apply no_write. exact D. }
    cbn [ret runs] in H. destruct H as (-> & -> & -> & ->). split; [reflexivity|]. left. split; [reflexivity|].
    exists [], s, rest, [], [Event (HttpGet s) (Response 200 body true); Event (SeekStart file) true; Event (Write file body) true].
    split; [reflexivity|]. split; [constructor|]. split; [apply installed; exact D|reflexivity].
Qed.

(** Update *)
Lemma update_runs : forall f e m tr e' m' r,
  runs step (update to_ascii hardcoded f) e m tr e' m' r ->
  exists temp e1 tr1, step _ TempDir e temp e1 /\ tr = Event TempDir temp :: tr1 /\
  let path := temp ++ default_psl_file_name in
  (x_path (m_extractor m f) <> path /\ r = Ret (Some ErrNoOp) /\ tr1 = [] /\ e' = e1 /\ m' = m)
  \/ (x_path (m_extractor m f) = path /\ exists file e2 tr2, step _ (OpenWrite path) e1 file e2
      /\ tr1 = Event (OpenWrite path) file :: tr2 /\
      ((file = None /\ r = Ret (Some ErrOpenCache) /\ tr2 = [] /\ e' = e2 /\ m' = m)
       \/ (exists fd tr3 tr4 e3 u, file = Some fd /\ tr2 = tr3 ++ tr4
           /\ runs step (update_file fd public_suffix_list_sources) e2 m tr3 e3 m (Ret u) /\
           ((exists er, u = Some er /\ r = Ret (Some er) /\ tr4 = [] /\ e' = e3 /\ m' = m)
            \/ (u = None /\ exists x, step _ (ReadFile path) e3 x e' /\ tr4 = [Event (ReadFile path) x]
                /\ keeps_tries m m' /\ m_next_extractor m' = m_next_extractor m /\ m_next_trie m' = S (m_next_trie m) /\
                match x with
                | None => r = Ret (Some ErrReadList) /\ m_extractor m' = m_extractor m
                | Some text => r = Ret None
                    /\ (forall g, g <> f -> m_extractor m' g = m_extractor m g)
                    /\ m_extractor m' f = mkExtractor path (m_next_trie m) (x_private (m_extractor m f))
                    /\ serves to_ascii m' f (x_private (m_extractor m f)) text
                end))))).
Proof.
  intros f e m tr e' m' r H. unfold update in H. cbn [pbind sys_do mem_do mem_step ret runs] in H.
  destruct H as (temp & e1 & tr1 & S & -> & H). exists temp, e1, tr1. split; [exact S|]. split; [reflexivity|]. cbn zeta.
  set (path := temp ++ default_psl_file_name) in *.
  assert (Pne : path <> []) by (unfold path; intros X; apply app_eq_nil in X as [_ X]; discriminate).
  destruct (bytes_eqb (x_path (m_extractor m f)) path) eqn:B; cbn [negb] in H.
  2:{ apply bytes_eqb_neq in B. left. cbn [ret runs] in H. destruct H as (-> & -> & -> & ->). auto. }
  apply bytes_eqb_eq in B. right. split; [exact B|]. cbn [pbind sys_do ret runs] in H.
  destruct H as (file & e2 & tr2 & S2 & -> & H). exists file, e2, tr2. split; [exact S2|]. split; [reflexivity|].
  destruct file as [fd|]; [|left; cbn [ret runs] in H; destruct H as (-> & -> & -> & ->); auto].
  right. apply runs_bind in H as (tr3 & e3 & m3 & o & H & K).
  pose proof (update_file_runs _ _ _ _ _ _ _ _ H) as (-> & Q).
  assert (exists u, o = Ret u) as (u & ->) by (destruct Q as [(-> & _)|(-> & _)]; eauto).
  destruct K as (tr4 & -> & K). exists fd, tr3, tr4, e3, u. split; [reflexivity|]. split; [reflexivity|]. split; [exact H|].
  destruct u as [er|].
  { left. cbn [ret runs] in K. destruct K as (-> & -> & -> & ->). exists er. auto. }
  right. split; [reflexivity|]. cbn [pbind mem_do mem_step ret runs] in K.
  apply runs_bind in K as (tr5 & e5 & m5 & o & G & K).
  apply trie_construct_runs in G as (Kt & X & Y & Z & [(N & _)|(_ & x & S3 & -> & G)]); [contradiction|].
  exists x. destruct x as [text|].
  - destruct G as (-> & Bu). destruct K as (tr6 & -> & K).
    cbn [pbind mem_do mem_step ret runs] in K. destruct K as (-> & -> & -> & ->).
    cbn [set_extractor m_extractor m_trie m_next_trie m_next_extractor x_trie x_path x_private].
    rewrite !upd_same. cbn [x_trie x_path x_private]. split; [exact S3|]. split; [reflexivity|]. split; [exact Kt|].
    split; [exact Y|]. split; [exact Z|]. split; [reflexivity|].
    split; [intros g Hg; rewrite !upd_other by exact Hg; rewrite X; reflexivity|].
    rewrite X. split; [reflexivity|]. destruct Bu as (rules & U & Bu). exists rules. split; [exact U|].
    unfold trie_in. cbn [m_extractor m_trie set_extractor]. rewrite !upd_same. cbn [x_trie]. exact Bu.
  - subst o. destruct K as (tr6 & -> & K). cbn [ret runs] in K. destruct K as (-> & -> & -> & ->).
    split; [exact S3|]. split; [reflexivity|]. auto.
Qed.
End Runs.
