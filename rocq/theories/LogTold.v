(** LogTold.v - proofs about what is logged. *)

From Verif Require Import Base BaseFacts Chars Str Net Trie Extract Psl ListSpec ListFacts World Update UpdateSpec WorldFacts
  Calls Logs LogSpec LogProofs.
From Coq Require Import ZifyBool ZifyNat ZifyN.

Lemma plain_app : forall a b, plain (a ++ b) = plain a ++ plain b.
Proof. intros. apply flat_map_app. Qed.
Lemma log_app : forall a b, log_of (a ++ b) = log_of a ++ log_of b.
Proof. intros. apply flat_map_app. Qed.
Lemma plain_did : forall tr, plain (map Did tr) = tr.
Proof. induction tr as [|e tr IH]; [reflexivity|]. change (e :: plain (map Did tr) = e :: tr). rewrite IH. reflexivity. Qed.
Lemma log_did : forall tr, log_of (map Did tr) = [].
Proof. induction tr as [|e tr IH]; [reflexivity|]. exact IH. Qed.

Lemma all_tell_nil : forall to_ascii, all_tell to_ascii [] [].
Proof. intros. exists []. split; [constructor|reflexivity]. Qed.
Lemma all_tell_app : forall to_ascii a la b lb, all_tell to_ascii a la -> all_tell to_ascii b lb -> all_tell to_ascii (a ++ b) (la ++ lb).
Proof.
  intros to_ascii a la b lb (x & X & ->) (y & Y & ->). exists (x ++ y). split; [apply Forall2_app; auto|]. symmetry. apply concat_app.
Qed.
Lemma all_tell_one : forall to_ascii e lg, tells to_ascii e lg -> all_tell to_ascii [e] lg.
Proof.
  intros to_ascii e lg H. exists [lg]. split; [constructor; [exact H|constructor]|]. cbn [concat]. symmetry. apply app_nil_r.
Qed.
Lemma all_tell_cons : forall to_ascii e lg b lb, tells to_ascii e lg -> all_tell to_ascii b lb -> all_tell to_ascii (e :: b) (lg ++ lb).
Proof. intros. apply (all_tell_app to_ascii [e] lg); [apply all_tell_one|]; assumption. Qed.

Section Told.
Variable E : Type.
Variable step : forall R : Type, sys R -> E -> R -> E -> Prop.

Lemma work_bind : forall A B (p : work A) (k : A -> work B) e m tr e' m' r,
  work_runs step (wbind p k) e m tr e' m' r ->
  exists tr1 e1 m1 o, work_runs step p e m tr1 e1 m1 o /\
    match o with
    | Ret a => exists tr2, tr = tr1 ++ tr2 /\ work_runs step (k a) e1 m1 tr2 e' m' r
    | Panic => tr = tr1 /\ e' = e1 /\ m' = m1 /\ r = Panic
    | OutOfFuel => tr = tr1 /\ e' = e1 /\ m' = m1 /\ r = OutOfFuel
    end.
Proof.
  intros A B.
  assert (Cons : forall w tr2 e2 m2 (o2 : outcome A) tr1 k e' m' (r : outcome B),
    match o2 with
    | Ret a => exists tr3, tr1 = tr2 ++ tr3 /\ work_runs step (k a) e2 m2 tr3 e' m' r
    | Panic => tr1 = tr2 /\ e' = e2 /\ m' = m2 /\ r = Panic
    | OutOfFuel => tr1 = tr2 /\ e' = e2 /\ m' = m2 /\ r = OutOfFuel
    end ->
    match o2 with
    | Ret a => exists tr3, w :: tr1 = (w :: tr2) ++ tr3 /\ work_runs step (k a) e2 m2 tr3 e' m' r
    | Panic => w :: tr1 = w :: tr2 /\ e' = e2 /\ m' = m2 /\ r = Panic
    | OutOfFuel => w :: tr1 = w :: tr2 /\ e' = e2 /\ m' = m2 /\ r = OutOfFuel
    end).
  { intros w tr2 e2 m2 [a| |] tr1 k e' m' r K; [destruct K as (tr3 & -> & K); exists tr3; auto| |]; destruct K as (-> & K); auto. }
  induction p as [o|R o c IH|R o c IH|x c IH|l c IH]; intros k e m tr e' m' r H; cbn [wbind work_runs] in *.
  - exists [], e, m, o. split; [auto|]. destruct o; [exists tr; auto| |]; cbn [work_runs] in H; tauto.
  - destruct H as (x & e1 & tr1 & S & -> & H). apply IH in H as (tr2 & e2 & m2 & o2 & H & K).
    exists (Did (Event o x) :: tr2), e2, m2, o2. split; [exists x, e1, tr2; auto|]. apply Cons. exact K.
  - destruct (mem_step o m) as [x m1]. apply IH in H. exact H.
  - destruct H as (tr1 & -> & H). apply IH in H as (tr2 & e2 & m2 & o2 & H & K).
    exists (WasClosed x :: tr2), e2, m2, o2. split; [exists tr2; auto|]. apply Cons. exact K.
  - destruct H as (tr1 & -> & H). apply IH in H as (tr2 & e2 & m2 & o2 & H & K).
    exists (Logged l :: tr2), e2, m2, o2. split; [exists tr2; auto|]. apply Cons. exact K.
Qed.
Lemma work_deferred : forall A h (p : work A) e m tr e' m' r, work_runs step (deferred h p) e m tr e' m' r ->
  exists tr1, tr = tr1 ++ [WasClosed h] /\ work_runs step p e m tr1 e' m' r.
Proof.
  intros A h. induction p as [o|R o c IH|R o c IH|x c IH|l c IH]; intros e m tr e' m' r H; cbn [deferred work_runs] in *.
  - destruct H as (tr1 & -> & -> & H). exists []. auto.
  - destruct H as (x & e1 & tr1 & S & -> & H). apply IH in H as (tr2 & -> & H).
    exists (Did (Event o x) :: tr2). split; [reflexivity|]. exists x, e1, tr2. auto.
  - destruct (mem_step o m) as [x m1]. apply IH in H. exact H.
  - destruct H as (tr1 & -> & H). apply IH in H as (tr2 & -> & H). exists (WasClosed x :: tr2). split; [reflexivity|]. exists tr2. auto.
  - destruct H as (tr1 & -> & H). apply IH in H as (tr2 & -> & H). exists (Logged l :: tr2). split; [reflexivity|]. exists tr2. auto.
Qed.
Lemma work_lifted : forall A (p : prog A) e m tr e' m' r, work_runs step (lifted p) e m tr e' m' r ->
  exists tr1, tr = map Did tr1 /\ runs step p e m tr1 e' m' r.
Proof.
  intros A. induction p as [o|R o c IH|R o c IH]; intros e m tr e' m' r H; cbn [lifted work_runs runs] in *.
  - destruct H as (-> & H). exists []. auto.
  - destruct H as (x & e1 & tr1 & S & -> & H). apply IH in H as (tr2 & -> & H).
    exists (Event o x :: tr2). split; [reflexivity|]. exists x, e1, tr2. auto.
  - destruct (mem_step o m) as [x m1]. apply IH in H. exact H.
Qed.

Variable to_ascii : bytes -> option bytes.
Variable hardcoded : bytes.

Lemma process_line_told : forall line psl private e m tr e' m' r,
  work_runs step (process_line_log to_ascii line psl private) e m tr e' m' r ->
  e' = e /\ m' = m /\ plain tr = [] /\ line_tells to_ascii line (log_of tr) /\ exists a, r = Ret a.
Proof.
  intros line psl private e m tr e' m' r H. unfold process_line_log in H. pose proof (trim_space_spec line) as T.
  destruct ((len (trim_space line) =? 0)%Z || has_prefix (trim_space line) (str "//")) eqn:I.
  - destruct H as (-> & -> & -> & ->). apply ignored_iff in I. split; [reflexivity|]. split; [reflexivity|]. split; [reflexivity|].
    split; [|eauto]. apply line_in_order. left. exists (trim_space line). auto.
  - assert (NI : ~ ignored_text (trim_space line)) by (rewrite <- ignored_iff; congruence).
    destruct (to_ascii (trim_space line)) as [a|] eqn:A.
    + destruct H as (-> & -> & -> & ->). split; [reflexivity|]. split; [reflexivity|]. split; [reflexivity|].
      split; [|eauto]. apply line_in_order. right. exists (trim_space line). split; [exact T|]. congruence.
    + destruct H as (tr1 & -> & -> & -> & -> & ->). split; [reflexivity|]. split; [reflexivity|]. split; [reflexivity|].
      split; [|eauto]. apply line_dropped; assumption.
Qed.
Lemma process_lines_told : forall lines psl private e m tr e' m' r,
  work_runs step (process_lines_log to_ascii lines psl private) e m tr e' m' r ->
  e' = e /\ m' = m /\ plain tr = [] /\ (exists logs, Forall2 (line_tells to_ascii) lines logs /\ log_of tr = concat logs)
  /\ exists a, r = Ret a.
Proof.
  induction lines as [|line rest IH]; intros psl private e m tr e' m' r H; cbn [process_lines_log] in H.
  - destruct H as (-> & -> & -> & ->). split; [reflexivity|]. split; [reflexivity|]. split; [reflexivity|]. split; [|eauto].
    exists []. split; [constructor|reflexivity].
  - apply work_bind in H as (tr1 & e1 & m1 & o & H & K). apply process_line_told in H as (-> & -> & P & L & (psl' & private') & ->).
    destruct K as (tr2 & -> & K). apply IH in K as (-> & -> & P2 & (logs & F & L2) & R).
    split; [reflexivity|]. split; [reflexivity|]. rewrite plain_app, log_app, P, P2, L2. split; [reflexivity|]. split; [|exact R].
    exists (log_of tr1 :: logs). split; [constructor; assumption|reflexivity].
Qed.
Lemma parse_told : forall text e m tr e' m' r, work_runs step (parse_list_log to_ascii text) e m tr e' m' r ->
  e' = e /\ m' = m /\ plain tr = [] /\ text_tells to_ascii text (log_of tr) /\ exists a, r = Ret a.
Proof.
  intros text e m tr e' m' r H. apply process_lines_told in H as (-> & -> & P & (logs & F & L) & R).
  split; [reflexivity|]. split; [reflexivity|]. split; [exact P|]. split; [|exact R].
  exists (split_byte text 10), logs. split; [apply split_lines|]. auto.
Qed.

Lemma trie_told : forall private path e m tr e' m' r,
  work_runs step (trie_construct_log to_ascii hardcoded private path) e m tr e' m' r ->
  exists a, (path = [] /\ plain tr = [] /\ text_tells to_ascii hardcoded (log_of tr) /\ r = Ret (a, None))
  \/ (path <> [] /\ exists x, plain tr = [Event (ReadFile path) x] /\ tells to_ascii (Event (ReadFile path) x) (log_of tr) /\
      match x with None => r = Ret (a, Some (ReadFailed path)) | Some text => r = Ret (a, None) end).
Proof.
  intros private path e m tr e' m' r H. unfold trie_construct_log in H.
  apply work_bind in H as (tr1 & e1 & m1 & o & H & K). cbn [wmem wret work_runs mem_step] in H. destruct H as (-> & -> & -> & ->).
  destruct K as (tr2 & -> & K). cbn [app]. set (a := m_next_trie m) in *. exists a.
  assert (F : forall l e1 m1 tr1, work_runs step (_ <<~ lifted (insert_suffixes a l) ;; _ <<~ wmem (MarkWildcards a) ;;
      wret (a, @None failure)) e1 m1 tr1 e' m' r -> plain tr1 = [] /\ log_of tr1 = [] /\ r = Ret (a, None)).
  { intros l e2 m2 tr3 G. apply work_bind in G as (tra & ea & ma & o & G & K2). apply work_lifted in G as (tr4 & -> & G).
    apply insert_suffixes_runs in G as (-> & -> & -> & _). destruct K2 as (trb & -> & K2).
    cbn [wbind wmem wret work_runs mem_step] in K2. destruct K2 as (-> & -> & -> & ->). auto. }
  apply work_bind in K as (tr3 & e3 & m3 & o & G & K). destruct (bytes_eqb path []) eqn:P; cbn [negb] in G.
  - apply bytes_eqb_eq in P. left. split; [exact P|].
    apply work_bind in G as (tr4 & e4 & m4 & o4 & G & K4). apply parse_told in G as (-> & -> & P4 & L4 & psl & ->).
    destruct K4 as (tr5 & -> & -> & -> & -> & ->). destruct K as (tr6 & -> & K). apply F in K as (P6 & L6 & ->).
    rewrite !plain_app, !log_app, P4, P6, L6. cbn [plain log_of flat_map app]. rewrite !app_nil_r. auto.
  - apply bytes_eqb_neq in P. right. split; [exact P|].
    apply work_bind in G as (tr4 & e4 & m4 & o4 & G & K4). cbn [wsys wret work_runs] in G.
    destruct G as (x & e5 & tr5 & S & -> & -> & -> & -> & ->). destruct K4 as (tr6 & -> & K4). exists x. destruct x as [text|].
    + apply work_bind in K4 as (tr7 & e7 & m7 & o7 & G & K7). apply parse_told in G as (-> & -> & P4 & L4 & psl & ->).
      destruct K7 as (tr8 & -> & -> & -> & -> & ->). destruct K as (tr9 & -> & K). apply F in K as (P6 & L6 & ->).
      rewrite !plain_app, !log_app, P4, P6, L6. cbn [plain log_of flat_map app did_of line_of]. rewrite !app_nil_r. auto.
    + cbn [wbind log_println wret work_runs] in K4. destruct K4 as (tr7 & -> & -> & -> & -> & ->).
      destruct K as (tr9 & -> & K). cbn [wbind log_println wret work_runs] in K. destruct K as (tr8 & -> & -> & -> & -> & ->).
      cbn [plain log_of flat_map app did_of line_of tells]. auto.
Qed.

Lemma new_hardcoded_told : forall err n e m tr e' m' r,
  work_runs step (new_hardcoded_psl_log to_ascii hardcoded err n) e m tr e' m' r ->
  exists f lg, r = Ret (f, None) /\ plain tr = [] /\
    log_of tr = fallback_line (match err with Some e => Error e | None => NilError end) :: lg /\ text_tells to_ascii hardcoded lg
    /\ serves to_ascii m' f (lp_private n) hardcoded /\ m_extractor m' f = mkExtractor [] (m_next_trie m) (lp_private n).
Proof.
  intros err n e m tr e' m' r H.
  pose proof (mirrors_runs _ _ _ _ _ _ _ (new_hardcoded_mirrors to_ascii hardcoded err n) _ _ _ _ _ _ H) as M.
  apply new_hardcoded_runs in M as (_ & _ & _ & R & _ & _ & X & _ & S).
  unfold new_hardcoded_psl_log in H. apply work_bind in H as (tr1 & e1 & m1 & o & H & K).
  cbn [log_println wret work_runs] in H. destruct H as (tr2 & -> & -> & -> & -> & ->). destruct K as (tr3 & -> & K).
  apply work_bind in K as (tr4 & e4 & m4 & o & G & K). apply trie_told in G as (a & [(_ & P & L & ->)|(N & _)]); [|contradiction].
  destruct K as (tr5 & -> & K). cbn [wbind wmem wret work_runs mem_step] in K. destruct K as (-> & -> & Em & ->).
  cbn [same_result pair_io fst snd option_map] in R. injection R as R.
  exists (m_next_extractor m4), (log_of tr4). split; [reflexivity|]. rewrite app_nil_r.
  cbn [app]. split; [exact P|]. split; [reflexivity|]. split; [exact L|]. rewrite R. split; [exact S|exact X].
Qed.

Lemma attempt_unread : forall file s tr ok path x, attempt file s tr ok -> ~ In (Event (ReadFile path) x) tr.
Proof.
  intros file s tr ok path x A I. destruct A; cbn [In] in I; repeat (destruct I as [I|I]; [discriminate I|]); exact I.
Qed.
Lemma attempts_unread : forall file sources trs path x, Forall2 (fun s t => attempt file s t false) sources trs ->
  ~ In (Event (ReadFile path) x) (concat trs).
Proof.
  intros file sources trs path x F. induction F as [|s t ss ts A _ IH]; [intros []|]. cbn [concat]. rewrite in_app_iff.
  intros [X|X]; [exact (attempt_unread _ _ _ _ _ _ A X)|exact (IH X)].
Qed.
Lemma update_file_unread : forall file sources e m tr e' m' r path x, runs step (update_file file sources) e m tr e' m' r ->
  ~ In (Event (ReadFile path) x) tr.
Proof.
  intros file sources e m tr e' m' r path x H.
  apply update_file_runs in H as (_ & [(_ & b & s & a & trs & trl & _ & F & L & ->)|(_ & trs & F & ->)]).
  - rewrite in_app_iff. intros [X|X]; [exact (attempts_unread _ _ _ _ _ F X)|exact (attempt_unread _ _ _ _ _ _ L X)].
  - apply (attempts_unread _ _ _ _ _ F).
Qed.

Lemma download_told : forall url e m tr e' m' r, work_runs step (download_file_log url) e m tr e' m' r ->
  exists resp, plain tr = [Event (HttpGet url) resp] /\ log_of tr = [] /\ m' = m /\
  ((exists body, resp = Response 200 body true /\ r = Ret (body, None))
   \/ exists b er, r = Ret (b, Some er) /\ tells to_ascii (Event (HttpGet url) resp) [[Error er]]).
Proof.
  intros url e m tr e' m' r H. unfold download_file_log in H. cbn [wbind wsys wret work_runs] in H.
  destruct H as (resp & e1 & tr1 & S & -> & H). exists resp. destruct resp as [|status body complete].
  - destruct H as (-> & -> & -> & ->). split; [reflexivity|]. split; [reflexivity|]. split; [reflexivity|]. right.
    eexists _, _. split; reflexivity.
  - apply work_deferred in H as (tr2 & -> & H). destruct (status =? 200)%Z eqn:Q.
    + destruct H as (-> & -> & -> & ->). split; [reflexivity|]. split; [reflexivity|]. split; [reflexivity|]. apply Z.eqb_eq in Q. subst status.
      destruct complete; [left; eauto|right; eexists _, _; split; reflexivity].
    + destruct H as (-> & -> & -> & ->). split; [reflexivity|]. split; [reflexivity|]. split; [reflexivity|].
      right. eexists _, _. split; [reflexivity|]. cbn [tells]. rewrite Q. reflexivity.
Qed.

Lemma update_file_told : forall file sources e m tr e' m' r,
  work_runs step (update_file_log file sources) e m tr e' m' r -> all_tell to_ascii (plain tr) (log_of tr).
Proof.
  intros file. induction sources as [|s rest IH]; intros e m tr e' m' r H; cbn [update_file_log] in H.
  - destruct H as (-> & _). apply all_tell_nil.
  - apply work_bind in H as (tr1 & e1 & m1 & o & H & K). apply download_told in H as (resp & P & L & -> & [(body & -> & ->)|(b & er & -> & T)]).
    2:{ destruct K as (tr2 & -> & K). cbn [wbind log_println wret work_runs] in K. destruct K as (tr3 & -> & K).
        rewrite plain_app, log_app, P, L. apply (all_tell_cons to_ascii _ [[Error er]]); [exact T|]. exact (IH _ _ _ _ _ _ K). }
    destruct K as (tr2 & -> & K). rewrite plain_app, log_app, P, L.
    apply (all_tell_cons to_ascii _ []); [reflexivity|]. clear tr1 P L.
    destruct (negb (valid_psl_delimiters body)); [exact (IH _ _ _ _ _ _ K)|].
    cbn [wbind wsys wret work_runs] in K. destruct K as (sought & e2 & tr3 & S2 & -> & K). destruct sought; cbn [negb] in K.
    2:{ cbn [wbind log_println wret work_runs] in K. destruct K as (tr4 & -> & K).
        apply (all_tell_cons to_ascii _ [[Error SeekFailed]]); [reflexivity|]. exact (IH _ _ _ _ _ _ K). }
    apply (all_tell_cons to_ascii _ []); [reflexivity|].
    cbn [wbind wsys wret work_runs] in K. destruct K as (ok & e3 & tr4 & S3 & -> & K). destruct ok; cbn [negb] in K.
    2:{ cbn [wbind log_println wret work_runs] in K. destruct K as (tr5 & -> & K).
        apply (all_tell_cons to_ascii _ [[Error WriteFailed]]); [reflexivity|]. exact (IH _ _ _ _ _ _ K). }
    cbn [wbind log_println wret work_runs] in K. destruct K as (tr5 & -> & -> & -> & -> & ->).
    apply (all_tell_cons to_ascii _ [updated_line]); [reflexivity|]. apply all_tell_nil.
Qed.

Lemma update_told : forall f e m tr e' m' r, work_runs step (update_log to_ascii hardcoded f) e m tr e' m' r ->
  all_tell to_ascii (plain tr) (log_of tr).
Proof.
  intros f e m tr e' m' r H. unfold update_log in H. cbn [wbind wsys wmem mem_step wret work_runs] in H.
  destruct H as (temp & e1 & tr1 & S & -> & H). apply (all_tell_cons to_ascii _ []); [reflexivity|]. change (flat_map did_of tr1) with (plain tr1).
  destruct (negb _); [destruct H as (-> & _); apply all_tell_nil|].
  cbn [wbind wsys wret work_runs] in H. destruct H as (file & e2 & tr2 & S2 & -> & H).
  apply (all_tell_cons to_ascii _ []); [reflexivity|]. change (flat_map did_of tr2) with (plain tr2).
  destruct file as [fd|]; [|destruct H as (-> & _); apply all_tell_nil].
  apply work_deferred in H as (tr3 & -> & H). rewrite plain_app, log_app. cbn [plain log_of flat_map did_of line_of app]. rewrite !app_nil_r.
  change (flat_map did_of tr3) with (plain tr3). change (flat_map line_of tr3) with (log_of tr3).
  apply work_bind in H as (tr4 & e4 & m4 & o & H & K).
  pose proof (update_file_told _ _ _ _ _ _ _ _ H) as T. destruct o as [u| |]; [|destruct K as (-> & _); exact T|destruct K as (-> & _); exact T].
  destruct K as (tr5 & -> & K). rewrite plain_app, log_app. apply all_tell_app; [exact T|].
  destruct u as [er|]; [destruct K as (-> & _); apply all_tell_nil|].
  cbn [wbind wmem mem_step wret work_runs] in K. apply work_bind in K as (tr6 & e6 & m6 & o & G & K).
  apply trie_told in G as (a & [(N & _)|(_ & x & P & Tx & R)]).
  { apply app_eq_nil in N as (_ & N). discriminate N. }
  assert (Q : exists y, o = Ret y /\ exists tr2, tr5 = tr6 ++ tr2 /\ plain tr2 = [] /\ log_of tr2 = []).
  { destruct x as [text|]; subst o; eexists; (split; [reflexivity|]); destruct K as (tr7 & -> & K); exists tr7; (split; [reflexivity|]);
      cbn [wbind wmem mem_step wret work_runs] in K; destruct K as (-> & _); auto. }
  destruct Q as (y & _ & tr7 & -> & P7 & L7). rewrite plain_app, log_app, P7, L7, P, !app_nil_r. apply all_tell_one. exact Tx.
Qed.

Lemma last_not : forall tr text, ends_in_list tr text -> exists path, In (Event (ReadFile path) (Some text)) tr.
Proof. intros tr text (before & path & ->). exists path. rewrite in_app_iff. right. left. reflexivity. Qed.
Lemma ends_snoc : forall tr e text, ends_in_list (tr ++ [e]) text -> exists path, e = Event (ReadFile path) (Some text).
Proof. intros tr e text (before & path & X). apply app_inj_tail in X as (_ & X). eauto. Qed.

Lemma update_ends : forall f e m tr e' m' r, runs step (update to_ascii hardcoded f) e m tr e' m' r ->
  updating tr /\ exists u, r = Ret u /\
  match u with
  | None => exists text, ends_in_list tr text /\ serves to_ascii m' f (x_private (m_extractor m f)) text
  | Some _ => (forall text, ~ ends_in_list tr text)
  end.
Proof.
  intros f e m tr e' m' r H.
  apply update_runs in H as (temp & e1 & tr1 & S & -> & [(N & -> & -> & -> & ->)|(P & file & e2 & tr2 & S2 & -> & H)]).
  { split; [exists temp; left; reflexivity|]. eexists. split; [reflexivity|]. intros text X. apply last_not in X as (path & [X|[]]). apply (f_equal read_of) in X; discriminate X. }
  split; [exists temp; right; eauto|].
  destruct H as [(-> & -> & -> & -> & ->)|(fd & tr3 & tr4 & e3 & u & -> & -> & Hu & [(er & -> & -> & -> & -> & ->)|(-> & x & S3 & -> & Kt & Ne & Nt & Hx)])].
  - eexists. split; [reflexivity|]. intros text X. apply last_not in X as (path & [X|[X|[]]]); apply (f_equal read_of) in X; discriminate X.
  - eexists. split; [reflexivity|]. intros text X. apply last_not in X as (path & [X|[X|X]]); [apply (f_equal read_of) in X; discriminate X|apply (f_equal read_of) in X; discriminate X|].
    rewrite app_nil_r in X. exact (update_file_unread _ _ _ _ _ _ _ _ _ _ Hu X).
  - destruct x as [text|].
    + destruct Hx as (-> & _ & _ & Sv). eexists. split; [reflexivity|]. exists text. split; [|exact Sv].
      exists (Event TempDir temp :: Event (OpenWrite (temp ++ default_psl_file_name)) (Some fd) :: tr3), (temp ++ default_psl_file_name).
      reflexivity.
    + destruct Hx as (-> & _). eexists. split; [reflexivity|]. intros text X.
      apply (ends_snoc (Event TempDir temp :: Event (OpenWrite (temp ++ default_psl_file_name)) (Some fd) :: tr3)) in X as (path & X). apply (f_equal read_of) in X; discriminate X.
Qed.

Lemma check_looking : forall path e m tr e' m' r, runs step (check_cache_file path) e m tr e' m' r ->
  m' = m /\ Forall looking tr /\ exists x, r = Ret x.
Proof.
  intros path e m tr e' m' r H.
  apply check_cache_runs in H as (-> & valid & age & -> & abs & e1 & st & e2 & e3 & c & tr3 & _ & _ & T & _ & -> & _).
  split; [reflexivity|]. split; [|eauto]. rewrite !Forall_app. split; [repeat constructor|]. split; [|repeat constructor].
  destruct st as [[d mt]|]; [destruct T as (now & _ & -> & _); repeat constructor|destruct T as (_ & -> & _); constructor].
Qed.

Lemma new_from_cache_told : forall n f path e m tr e' m' r,
  work_runs step (new_from_cache_log to_ascii hardcoded n f path) e m tr e' m' r ->
  exists g, r = Ret (g, None) /\
  ((path = [] /\ plain tr = [] /\ text_tells to_ascii hardcoded (log_of tr) /\ serves to_ascii m' g (lp_private n) hardcoded)
   \/ (exists text, plain tr = [Event (ReadFile path) (Some text)] /\ text_tells to_ascii text (log_of tr)
        /\ serves to_ascii m' g (lp_private n) text)
   \/ (exists lg, plain tr = [Event (ReadFile path) None]
        /\ log_of tr = [Error (ReadFailed path)] :: [Error (ReadFailed path)] :: fallback_line (Error (ReadFailed path)) :: lg
        /\ text_tells to_ascii hardcoded lg /\ serves to_ascii m' g (lp_private n) hardcoded /\ x_path (m_extractor m' g) = [])).
Proof.
  intros n f path e m tr e' m' r H. unfold new_from_cache_log in H. apply work_bind in H as (tr1 & e1 & m1 & o & H & K).
  pose proof (mirrors_runs _ _ _ _ _ _ _ (trie_construct_mirrors to_ascii hardcoded (lp_private n) path) _ _ _ _ _ _ H) as M.
  apply trie_construct_runs in M as (_ & _ & _ & _ & M). apply trie_told in H as (a & H).
  assert (Sv : forall text e2 m2 tr2, built to_ascii m1 a (lp_private n) text ->
      work_runs step (_ <<~ wmem (StoreTrie f a) ;; wret (f, @None failure)) e2 m1 tr2 e' m2 r ->
      r = Ret (f, None) /\ tr2 = [] /\ serves to_ascii m2 f (lp_private n) text).
  { intros text e2 m2 tr2 (rules & U & B) G. cbn [wbind wmem wret mem_step work_runs] in G. destruct G as (-> & -> & -> & ->).
    split; [reflexivity|]. split; [reflexivity|]. exists rules. split; [exact U|]. unfold trie_in.
    cbn [set_extractor m_extractor m_trie]. rewrite upd_same. exact B. }
  destruct H as [(-> & P & L & ->)|(N & x & P & T & R)].
  - destruct M as [(_ & _ & _ & R & B)|(N & _)]; [|contradiction].
    cbn [same_result pair_io fst snd option_map] in R. injection R as R. rewrite <- R in B.
    destruct K as (tr2 & -> & K). apply (Sv _ _ _ _ B) in K as (-> & -> & K). exists f. split; [reflexivity|].
    left. rewrite app_nil_r. auto.
  - destruct M as [(N' & _)|(_ & x' & _ & P' & B)]; [contradiction|]. rewrite P in P'.
    assert (X : x = x').
    { destruct x as [t|], x' as [t'|]; [| | |reflexivity]; apply (f_equal (map read_of)) in P'; cbn [map read_of] in P'; congruence. }
    subst x'. destruct x as [text|].
    + subst o. destruct B as (R & B). cbn [same_result pair_io fst snd option_map] in R. injection R as R. rewrite <- R in B.
      destruct K as (tr2 & -> & K). apply (Sv _ _ _ _ B) in K as (-> & -> & K). exists f. split; [reflexivity|].
      right. left. exists text. rewrite app_nil_r. auto.
    + subst o. destruct K as (tr2 & -> & K). apply new_hardcoded_told in K as (g & lg & -> & P2 & L2 & T2 & Sg & X).
      exists g. split; [reflexivity|]. right. right. exists lg. rewrite plain_app, log_app, P, P2, L2. cbn [tells] in T. rewrite T.
      rewrite X. auto 10.
Qed.

Lemma new_told : forall n e m tr e' m' r, work_runs step (new_log to_ascii hardcoded n) e m tr e' m' r ->
  exists f text fallback, r = Ret (f, None) /\ new_tells to_ascii hardcoded n (plain tr) (log_of tr) text fallback
    /\ serves to_ascii m' f (lp_private n) text /\ (fallback = true -> x_path (m_extractor m' f) = []).
Proof.
  intros n e m tr e' m' r H. unfold new_log in H. cbn [wbind wmem wret mem_step work_runs] in H.
  set (m1 := mkMemory _ _ _ _) in H. set (f := m_next_extractor m) in *.
  apply work_bind in H as (tr1 & e1 & m2 & o & H & K). apply work_lifted in H as (tr2 & -> & H).
  apply check_looking in H as (-> & L1 & [valid age] & ->). destruct K as (tr3 & -> & K). rewrite plain_app, log_app, plain_did, log_did.
  cbn [app].
  assert (Cache : forall looks path tr e1 m2, Forall looking looks -> (path = [] -> lp_path n = []) ->
    work_runs step (new_from_cache_log to_ascii hardcoded n f path) e1 m2 tr e' m' r ->
    exists f text fallback, r = Ret (f, None) /\ new_tells to_ascii hardcoded n (looks ++ plain tr) (log_of tr) text fallback
    /\ serves to_ascii m' f (lp_private n) text /\ (fallback = true -> x_path (m_extractor m' f) = [])).
  { intros looks path tr e2 m2 Lk Pn G. apply new_from_cache_told in G as (g & -> & [(-> & P & T & S)|[(text & P & T & S)|(lg & P & Lg & T & S & X)]]).
    - exists g, hardcoded, false. split; [reflexivity|]. rewrite P, app_nil_r. split; [apply new_no_path; auto|]. split; [exact S|discriminate].
    - exists g, text, false. split; [reflexivity|]. rewrite P. split; [apply new_list; auto|]. split; [exact S|discriminate].
    - exists g, hardcoded, true. split; [reflexivity|]. rewrite P, Lg. split; [apply new_not_read; auto|]. auto. }
  destruct valid; cbn [negb] in K; [apply (Cache tr2 (lp_path n) tr3 _ _ L1 (fun x => x) K)|].
  cbn [wbind wsys wret work_runs] in K. destruct K as (temp & e3 & tr4 & S1 & -> & opened & e4 & tr5 & S2 & -> & K).
  destruct opened; cbn [negb] in K.
  2:{ apply new_hardcoded_told in K as (g & lg & -> & P & L & T & S & X). exists g, hardcoded, true. split; [reflexivity|].
      cbn [plain log_of flat_map did_of line_of app]. change (flat_map did_of tr5) with (plain tr5). change (flat_map line_of tr5) with (log_of tr5).
      rewrite P, L. split; [|split; [exact S|intros _; rewrite X; reflexivity]].
      replace (tr2 ++ [Event TempDir temp; Event (OpenDir temp) false]) with ((tr2 ++ [Event TempDir temp]) ++ [Event (OpenDir temp) false])
        by (rewrite <- app_assoc; reflexivity).
      apply new_no_folder; [|exact T]. apply Forall_app. split; [exact L1|repeat constructor]. }
  apply work_deferred in K as (tr6 & -> & K). cbn [wbind wmem wret mem_step work_runs] in K. set (m3 := set_extractor _ _ _) in K.
  apply work_bind in K as (tr7 & e7 & m7 & o & H & K). apply work_lifted in H as (tr8 & -> & H).
  apply check_looking in H as (-> & L2 & [valid' age'] & ->). destruct K as (tr9 & -> & K).
  set (looks := tr2 ++ Event TempDir temp :: Event (OpenDir temp) true :: tr8).
  assert (Lk : Forall looking looks).
  { apply Forall_app. split; [exact L1|]. repeat (constructor; [exact I|]). exact L2. }
  assert (P9 : tr2 ++ plain (Did (Event TempDir temp) :: Did (Event (OpenDir temp) true) :: (map Did tr8 ++ tr9) ++ [WasClosed Folder])
     = looks ++ plain tr9).
  { change (plain (Did (Event TempDir temp) :: Did (Event (OpenDir temp) true) :: (map Did tr8 ++ tr9) ++ [WasClosed Folder]))
      with (Event TempDir temp :: Event (OpenDir temp) true :: plain ((map Did tr8 ++ tr9) ++ [WasClosed Folder])).
    rewrite !plain_app, plain_did. change (plain [WasClosed Folder]) with (@nil event). rewrite app_nil_r.
    unfold looks. rewrite <- app_assoc. reflexivity. }
  assert (L9 : log_of (Did (Event TempDir temp) :: Did (Event (OpenDir temp) true) :: (map Did tr8 ++ tr9) ++ [WasClosed Folder]) = log_of tr9).
  { change (log_of (Did (Event TempDir temp) :: Did (Event (OpenDir temp) true) :: (map Did tr8 ++ tr9) ++ [WasClosed Folder]))
      with (log_of ((map Did tr8 ++ tr9) ++ [WasClosed Folder])).
    rewrite !log_app, log_did. change (log_of [WasClosed Folder]) with (@nil (list item)). rewrite app_nil_r. reflexivity. }
  rewrite P9, L9. destruct (negb valid' || (age' >? psl_max_age)%Z).
  2:{ apply (Cache looks (temp ++ default_psl_file_name) tr9 e7 m3 Lk); [|exact K]. intros X. apply app_eq_nil in X as (_ & X). discriminate X. }
  apply work_bind in K as (tra & ea & ma & o & H & K).
  pose proof (mirrors_runs _ _ _ _ _ _ _ (update_mirrors to_ascii hardcoded f) _ _ _ _ _ _ H) as M.
  apply update_ends in M as (Up & u & Ru & M). apply update_told in H.
  destruct o as [u'| |]; [|discriminate Ru|discriminate Ru]. cbn [same_result] in Ru. injection Ru as Ru. destruct K as (trb & -> & K).
  rewrite plain_app, log_app. destruct u' as [er|].
  - subst u. cbn [option_map] in M. apply new_hardcoded_told in K as (g & lg & -> & P & L & T & S & X). rewrite P, L, app_nil_r.
    exists g, hardcoded, true. split; [reflexivity|]. split; [apply new_no_update; assumption|]. split; [exact S|]. intros _. rewrite X. reflexivity.
  - subst u. cbn [option_map] in M. destruct M as (text & En & S). cbn [wret work_runs] in K. destruct K as (-> & -> & -> & ->).
    cbn [plain log_of flat_map]. rewrite !app_nil_r. exists f, text, false. split; [reflexivity|]. split; [apply new_updated; assumption|].
    split; [|discriminate]. revert S. unfold m3, m1, f. cbn [set_extractor m_extractor x_private]. rewrite upd_same. cbn [x_private].
    rewrite upd_same. cbn [x_private]. exact (fun S => S).
Qed.
End Told.
