(** UpdateProofs.v - proofs about New and Update that hold in any environment. *)

From Verif Require Import Base BaseFacts Chars Str Trie Extract Psl ListSpec ListFacts World Update UpdateSpec WorldFacts NewFacts.
From Coq Require Import ZifyBool ZifyNat ZifyN.

(** ** New *)

Lemma runs_exist : forall E (step : forall R : Type, sys R -> E -> R -> E -> Prop),
  (forall R (o : sys R) e, exists x e', step R o e x e') ->
  forall A (p : prog A) e m, exists tr e' m' r, runs step p e m tr e' m' r.
Proof.
  intros E step T A. induction p as [o|R o c IH|R o c IH]; intros e m.
  - exists [], e, m, o. cbn [runs]. auto.
  - destruct (T R o e) as (x & e1 & S). destruct (IH x e1 m) as (tr & e' & m' & r & H).
    exists (Event o x :: tr), e', m', r. cbn [runs]. exists x, e1, tr. auto.
  - cbn [runs]. destruct (mem_step o m) as [x m1]. apply IH.
Qed.

Lemma c34 : forall E (step : forall R : Type, sys R -> E -> R -> E -> Prop) to_ascii hardcoded n e m tr e' m' r,
  runs step (new to_ascii hardcoded n) e m tr e' m' r ->
  exists f, r = Ret (f, None) /\ x_private (m_extractor m' f) = lp_private n /\
    ((serves to_ascii m' f (lp_private n) hardcoded /\ x_path (m_extractor m' f) = [])
     \/ exists text, was_read tr (x_path (m_extractor m' f)) text /\ serves to_ascii m' f (lp_private n) text).
Proof.
  intros E step to_ascii hardcoded n e m tr e' m' r H. apply new_outcome in H as (f & -> & _ & P & H).
  exists f. split; [reflexivity|]. split; [exact P|]. destruct H as [H|(path & text & Hr & H & <-)]; [auto|]. right. eauto.
Qed.

(** ** Update *)

Lemma update_effect : forall E (step : forall R : Type, sys R -> E -> R -> E -> Prop) to_ascii hardcoded f e m tr e' m' r,
  runs step (update to_ascii hardcoded f) e m tr e' m' r ->
  keeps_tries m m' /\ m_next_extractor m' = m_next_extractor m
  /\ (forall g, g <> f -> m_extractor m' g = m_extractor m g)
  /\ ((exists er, r = Ret (Some er) /\ m_extractor m' f = m_extractor m f)
      \/ (r = Ret None /\ x_path (m_extractor m' f) = x_path (m_extractor m f)
          /\ x_private (m_extractor m' f) = x_private (m_extractor m f)
          /\ x_path (m_extractor m f) <> []
          /\ (x_trie (m_extractor m' f) < m_next_trie m')%nat)).
Proof.
  intros E step to_ascii hardcoded f e m tr e' m' r H.
  apply update_runs in H as (temp & e1 & tr1 & S & -> & [(N & -> & -> & -> & ->)|(P & file & e2 & tr2 & S2 & -> & [(-> & -> & -> & -> & ->)|(fd & tr3 & tr4 & e3 & u & -> & -> & Hu & [(er & -> & -> & -> & -> & ->)|(-> & x & S3 & -> & Kt & Ne & Nt & Hx)])])]).
  - split; [apply keeps_refl|]. split; [reflexivity|]. split; [auto|]. left. eauto.
  - split; [apply keeps_refl|]. split; [reflexivity|]. split; [auto|]. left. eauto.
  - split; [apply keeps_refl|]. split; [reflexivity|]. split; [auto|]. left. eauto.
  - split; [exact Kt|]. split; [exact Ne|]. destruct x as [text|].
    + destruct Hx as (-> & Ho & Hf & Sv). split; [exact Ho|]. right. rewrite Hf. cbn [x_path x_private x_trie].
      split; [reflexivity|]. split; [symmetry; exact P|]. split; [reflexivity|]. split; [|lia].
      rewrite P. intros X. apply app_eq_nil in X as [_ X]. discriminate.
    + destruct Hx as (-> & Ho). rewrite Ho. split; [auto|]. left. eauto.
Qed.

Lemma keeps_trie_in : forall m m' f, memory_ok m -> (f < m_next_extractor m)%nat -> keeps_tries m m' ->
  m_extractor m' f = m_extractor m f -> trie_in m' f = trie_in m f.
Proof.
  intros m m' f Ok Hf [_ K] X. unfold trie_in. rewrite X. apply K. apply Ok. exact Hf.
Qed.

Lemma c39 : forall E (step : forall R : Type, sys R -> E -> R -> E -> Prop) to_ascii hardcoded f e m tr e' m' er,
  memory_ok m -> runs step (update to_ascii hardcoded f) e m tr e' m' (Ret (Some er)) ->
  forall g, (g < m_next_extractor m)%nat ->
    m_extractor m' g = m_extractor m g /\
    forall ext p, extract ext (trie_in m' g) p = extract ext (trie_in m g) p.
Proof.
  intros E step to_ascii hardcoded f e m tr e' m' er Ok H g Hg.
  apply update_effect in H as (K & _ & Ho & [(er' & _ & Hf)|(X & _)]); [|discriminate].
  assert (X : m_extractor m' g = m_extractor m g) by (destruct (Nat.eq_dec g f) as [->|D]; auto).
  split; [exact X|]. intros ext p. rewrite (keeps_trie_in m m' g); auto.
Qed.

Lemma c39_others : forall E (step : forall R : Type, sys R -> E -> R -> E -> Prop) to_ascii hardcoded f e m tr e' m' r,
  memory_ok m -> runs step (update to_ascii hardcoded f) e m tr e' m' r ->
  forall g, (g < m_next_extractor m)%nat -> g <> f ->
    m_extractor m' g = m_extractor m g /\
    forall ext p, extract ext (trie_in m' g) p = extract ext (trie_in m g) p.
Proof.
  intros E step to_ascii hardcoded f e m tr e' m' r Ok H g Hg D.
  apply update_effect in H as (K & _ & Ho & _). split; [auto|]. intros ext p. rewrite (keeps_trie_in m m' g); auto.
Qed.

(** ** Histories *)

Lemma memory_ok_update : forall E (step : forall R : Type, sys R -> E -> R -> E -> Prop) to_ascii hardcoded f e m tr e' m' r,
  memory_ok m -> runs step (update to_ascii hardcoded f) e m tr e' m' r -> memory_ok m'.
Proof.
  intros E step to_ascii hardcoded f e m tr e' m' r Ok H g Hg.
  apply update_effect in H as ([L _] & Ne & Ho & Hf). rewrite Ne in Hg.
  destruct (Nat.eq_dec g f) as [->|D].
  - destruct Hf as [(er & _ & X)|(_ & _ & _ & _ & X)]; [|exact X]. rewrite X. specialize (Ok f Hg). lia.
  - rewrite Ho by exact D. specialize (Ok g Hg). lia.
Qed.

Lemma memory_ok_new : forall E (step : forall R : Type, sys R -> E -> R -> E -> Prop) to_ascii hardcoded n e m tr e' m' r,
  memory_ok m -> runs step (new to_ascii hardcoded n) e m tr e' m' r -> memory_ok m'.
Proof.
  intros E step to_ascii hardcoded n e m tr e' m' r Ok H g Hg.
  apply new_outcome in H as (f & _ & ((L & _) & Hf & Ho & Hn) & _ & _).
  destruct (Nat.lt_ge_cases g (m_next_extractor m)) as [A|A].
  - rewrite Ho by exact A. specialize (Ok g A). lia.
  - apply Hn. lia.
Qed.

Lemma c38_history : forall to_ascii hardcoded m m', calls to_ascii hardcoded m m' ->
  forall f, memory_ok m -> (f < m_next_extractor m)%nat -> x_path (m_extractor m f) = [] ->
  memory_ok m' /\ (m_next_extractor m <= m_next_extractor m')%nat
  /\ m_extractor m' f = m_extractor m f /\ trie_in m' f = trie_in m f.
Proof.
  intros to_ascii hardcoded m m' H f Ok Hf Hp. induction H as [m|m m1 m2 n tr r H IH R|m m1 m2 g tr r H IH Hg R].
  - auto.
  - destruct (IH Ok Hf Hp) as (Ok1 & L & X & T). pose proof (memory_ok_new _ _ _ _ _ _ _ _ _ _ _ Ok1 R) as Ok2.
    apply new_outcome in R as (f' & _ & (K & Hf' & Ho & Hn) & _). split; [exact Ok2|]. split; [lia|].
    assert (X2 : m_extractor m2 f = m_extractor m1 f) by (apply Ho; lia).
    split; [congruence|]. rewrite <- T. apply keeps_trie_in; auto. lia.
  - destruct (IH Ok Hf Hp) as (Ok1 & L & X & T). pose proof (memory_ok_update _ _ _ _ _ _ _ _ _ _ _ Ok1 R) as Ok2.
    apply update_effect in R as (K & Ne & Ho & U). split; [exact Ok2|]. split; [lia|].
    assert (X2 : m_extractor m2 f = m_extractor m1 f).
    { destruct (Nat.eq_dec f g) as [<-|D]; [|apply Ho; exact D].
      destruct U as [(er & _ & U)|(_ & _ & _ & U & _)]; [exact U|]. exfalso. apply U. rewrite X. exact Hp. }
    split; [congruence|]. rewrite <- T. apply keeps_trie_in; auto. lia.
Qed.

Lemma no_download_temp : forall temp, ~ downloads [Event TempDir temp].
Proof. intros temp (e & resp & [<-|[]] & X). discriminate. Qed.

Lemma c38_any : forall E (step : forall R : Type, sys R -> E -> R -> E -> Prop) to_ascii hardcoded f e m tr e' m' r,
  runs step (update to_ascii hardcoded f) e m tr e' m' r -> x_path (m_extractor m f) = [] ->
  r = Ret (Some ErrNoOp) /\ m' = m /\ exists temp, tr = [Event TempDir temp].
Proof.
  intros E step to_ascii hardcoded f e m tr e' m' r H P.
  apply update_runs in H as (temp & e1 & tr1 & S & -> & [(N & -> & -> & -> & ->)|(P' & _)]); [eauto|].
  exfalso. rewrite P in P'. symmetry in P'. apply app_eq_nil in P' as [_ X]. discriminate.
Qed.

Lemma c38_fallback : forall to_ascii hardcoded m m' f, memory_ok m -> (f < m_next_extractor m)%nat ->
  x_path (m_extractor m f) = [] -> calls to_ascii hardcoded m m' ->
  (forall ext p, extract ext (trie_in m' f) p = extract ext (trie_in m f) p)
  /\ forall tr m'' r, runs any_step (update to_ascii hardcoded f) tt m' tr tt m'' r ->
     r = Ret (Some ErrNoOp) /\ m'' = m' /\ ~ downloads tr /\ forall data ok, ~ wrote tr data ok.
Proof.
  intros to_ascii hardcoded m m' f Ok Hf Hp H. destruct (c38_history _ _ _ _ H f Ok Hf Hp) as (Ok' & L & X & T).
  split; [intros ext p; rewrite T; reflexivity|]. intros tr m'' r R.
  destruct (c38_any _ _ _ _ _ _ _ _ _ _ _ R) as (-> & -> & temp & ->); [rewrite X; exact Hp|].
  split; [reflexivity|]. split; [reflexivity|]. split; [apply no_download_temp|].
  intros data ok (e & [<-|[]] & Y). discriminate.
Qed.

Lemma c38_new : forall E (step : forall R : Type, sys R -> E -> R -> E -> Prop) to_ascii hardcoded n e m tr e' m1 r, memory_ok m ->
  runs step (new to_ascii hardcoded n) e m tr e' m1 r ->
  exists f, r = Ret (f, None) /\
    ((exists text, was_read tr (x_path (m_extractor m1 f)) text /\ serves to_ascii m1 f (lp_private n) text)
     \/ (serves to_ascii m1 f (lp_private n) hardcoded
        /\ forall m2, calls to_ascii hardcoded m1 m2 ->
           (forall ext p, extract ext (trie_in m2 f) p = extract ext (trie_in m1 f) p)
           /\ forall tr' m3 r', runs any_step (update to_ascii hardcoded f) tt m2 tr' tt m3 r' ->
              r' = Ret (Some ErrNoOp) /\ m3 = m2 /\ ~ downloads tr' /\ forall data ok, ~ wrote tr' data ok)).
Proof.
  intros E step to_ascii hardcoded n e m tr e' m1 r Ok H. pose proof (memory_ok_new _ _ _ _ _ _ _ _ _ _ _ Ok H) as Ok1.
  apply new_outcome in H as (f & -> & (_ & Hf & _) & _ & H). exists f. split; [reflexivity|].
  destruct H as [(Sv & P)|(path & text & Hr & Sv & <-)]; [right|left; eauto].
  split; [exact Sv|]. intros m2 C. apply (c38_fallback _ _ m1 m2 f); auto. lia.
Qed.

Lemma c51 : forall E (step : forall R : Type, sys R -> E -> R -> E -> Prop) to_ascii hardcoded n e m tr e' m' r,
  memory_ok m -> runs step (new to_ascii hardcoded n) e m tr e' m' r ->
  (exists f, r = Ret (f, None) /\ (m_next_extractor m <= f)%nat)
  /\ forall g, (g < m_next_extractor m)%nat ->
    m_extractor m' g = m_extractor m g /\
    forall ext p, extract ext (trie_in m' g) p = extract ext (trie_in m g) p.
Proof.
  intros E step to_ascii hardcoded n e m tr e' m' r Ok H.
  apply new_outcome in H as (f & -> & (K & Hf & Ho & _) & _). split; [exists f; split; [reflexivity|lia]|].
  intros g Hg. split; [auto|]. intros ext p. rewrite (keeps_trie_in m m' g); auto.
Qed.

Lemma c38 : forall to_ascii hardcoded f d m tr d' m' r,
  runs disk_step (update to_ascii hardcoded f) d m tr d' m' r -> x_path (m_extractor m f) <> default_path d ->
  r = Ret (Some ErrNoOp) /\ m' = m /\ d' = d /\ ~ downloads tr.
Proof.
  intros to_ascii hardcoded f d m tr d' m' r H N.
  apply update_runs in H as (temp & e1 & tr1 & S & -> & [(N' & -> & -> & -> & ->)|(P' & _)]); destruct S as (-> & ->).
  - split; [reflexivity|]. split; [reflexivity|]. split; [reflexivity|]. apply no_download_temp.
  - contradiction.
Qed.

(** ** Mirrors *)

Lemma attempt_wrote : forall file s tr ok data b, attempt file s tr ok -> wrote tr data b ->
  has_markers data /\ b = ok.
Proof.
  intros file s tr ok data b A (e & Hi & W). destruct A; cbn [In] in Hi;
    repeat (destruct Hi as [<-|Hi]); try contradiction; cbn [write_of] in W; try discriminate;
    injection W as <- <-; auto.
Qed.

Lemma wrote_app : forall tr1 tr2 data b, wrote (tr1 ++ tr2) data b -> wrote tr1 data b \/ wrote tr2 data b.
Proof. intros tr1 tr2 data b (e & H & W). apply in_app_or in H as [H|H]; [left|right]; exists e; auto. Qed.
Lemma wrote_cons : forall e tr data b, wrote (e :: tr) data b -> write_of e = Some (data, b) \/ wrote tr data b.
Proof. intros e tr data b (x & [<-|H] & W); [auto|]. right. exists x. auto. Qed.
Lemma wrote_nil : forall data b, ~ wrote [] data b.
Proof. intros data b (e & [] & _). Qed.

Lemma attempts_wrote : forall file sources trs, Forall2 (fun s t => attempt file s t false) sources trs ->
  forall data b, wrote (concat trs) data b -> has_markers data.
Proof.
  intros file sources trs F. induction F as [|s t ss ts A F IH]; intros data b W.
  - destruct (wrote_nil _ _ W).
  - cbn [concat] in W. apply wrote_app in W as [W|W]; [|eauto]. eapply attempt_wrote; eauto.
Qed.

Lemma update_file_wrote : forall E (step : forall R : Type, sys R -> E -> R -> E -> Prop) file sources e m tr e' m' r,
  runs step (update_file file sources) e m tr e' m' r -> forall data b, wrote tr data b -> has_markers data.
Proof.
  intros E step file sources e m tr e' m' r H data b W.
  apply update_file_runs in H as (_ & [(_ & before & s & after & trs & trl & _ & F & A & ->)|(_ & trs & F & ->)]).
  - apply wrote_app in W as [W|W]; [eapply attempts_wrote; eauto|]. eapply attempt_wrote; eauto.
  - eapply attempts_wrote; eauto.
Qed.

Lemma update_wrote : forall E (step : forall R : Type, sys R -> E -> R -> E -> Prop) to_ascii hardcoded f e m tr e' m' r,
  runs step (update to_ascii hardcoded f) e m tr e' m' r -> forall data b, wrote tr data b -> has_markers data.
Proof.
  intros E step to_ascii hardcoded f e m tr e' m' r H data b W.
  apply update_runs in H as (temp & e1 & tr1 & S & -> & H). apply wrote_cons in W as [W|W]; [discriminate|].
  destruct H as [(_ & _ & -> & _)|(_ & file & e2 & tr2 & _ & -> & H)]; [destruct (wrote_nil _ _ W)|].
  apply wrote_cons in W as [W|W]; [discriminate|].
  destruct H as [(_ & _ & -> & _)|(fd & tr3 & tr4 & e3 & u & _ & -> & Hu & H)]; [destruct (wrote_nil _ _ W)|].
  apply wrote_app in W as [W|W]; [eapply update_file_wrote; eauto|]. exfalso.
  destruct H as [(er & _ & _ & -> & _)|(_ & x & _ & -> & _)]; [destruct (wrote_nil _ _ W)|].
  apply wrote_cons in W as [W|W]; [discriminate|]. destruct (wrote_nil _ _ W).
Qed.

Lemma check_cache_wrote : forall E (step : forall R : Type, sys R -> E -> R -> E -> Prop) path e m tr e' m' r,
  runs step (check_cache_file path) e m tr e' m' r -> (forall data b, ~ wrote tr data b) /\ ~ downloads tr.
Proof.
  intros E step path e m tr e' m' r H.
  apply check_cache_runs in H as (_ & valid & age & _ & abs & e1 & st & e2 & e3 & c & tr3 & _ & _ & T & _ & -> & _).
  assert (T' : tr3 = [] \/ exists now, tr3 = [Event Now now]).
  { destruct st as [[dir mt]|]; [destruct T as (now & _ & -> & _); eauto|destruct T as (_ & -> & _); auto]. }
  destruct T' as [->|(now & ->)]; split.
  - intros data b (x & Hi & W). cbn in Hi. repeat (destruct Hi as [<-|Hi]); try contradiction; discriminate.
  - intros (x & resp & Hi & W). cbn in Hi. repeat (destruct Hi as [<-|Hi]); try contradiction; discriminate.
  - intros data b (x & Hi & W). cbn in Hi. repeat (destruct Hi as [<-|Hi]); try contradiction; discriminate.
  - intros (x & resp & Hi & W). cbn in Hi. repeat (destruct Hi as [<-|Hi]); try contradiction; discriminate.
Qed.

Lemma new_from_cache_wrote : forall E (step : forall R : Type, sys R -> E -> R -> E -> Prop) to_ascii hardcoded n f path e m tr e' m' r,
  runs step (new_from_cache to_ascii hardcoded n f path) e m tr e' m' r -> (f < m_next_extractor m)%nat ->
  (forall data b, ~ wrote tr data b) /\ ~ downloads tr.
Proof.
  intros E step to_ascii hardcoded n f path e m tr e' m' r H Hf.
  apply new_from_cache_runs in H as (_ & _ & [(_ & -> & _)|(_ & x & _ & -> & _)]); [| |exact Hf].
  - split; [apply wrote_nil|]. intros (x & resp & [] & _).
  - split; [intros data b (y & [<-|[]] & W)|intros (y & resp & [<-|[]] & W)]; discriminate.
Qed.

Lemma new_wrote : forall E (step : forall R : Type, sys R -> E -> R -> E -> Prop) to_ascii hardcoded n e m tr e' m' r,
  runs step (new to_ascii hardcoded n) e m tr e' m' r -> forall data b, wrote tr data b -> has_markers data.
Proof.
  intros E step to_ascii hardcoded n e m tr e' m' r H data b W. apply new_runs in H.
  destruct H as (tr0 & e0 & valid & age & tr1 & C & -> & H).
  apply wrote_app in W as [W|W]; [exfalso; edestruct check_cache_wrote as [X _]; [eassumption|]; exact (X _ _ W)|].
  destruct H as [(_ & H)|(_ & temp & e1 & opened & e2 & tr2 & S1 & S2 & -> & H)].
  - exfalso. apply new_from_cache_wrote in H as [X _]; [exact (X _ _ W)|]. apply Nat.lt_succ_diag_r.
  - do 2 (apply wrote_cons in W as [W|W]; [discriminate|]). destruct H as [(_ & H)|(_ & H)].
    + apply new_hardcoded_runs in H as (-> & _). destruct (wrote_nil _ _ W).
    + destruct H as (valid' & age' & tr3 & tr4 & e3 & C' & -> & H).
      apply wrote_app in W as [W|W]; [exfalso; edestruct check_cache_wrote as [X _]; [eassumption|]; exact (X _ _ W)|].
      destruct H as [(_ & _ & H)|(_ & tr5 & tr6 & e5 & m5 & u & U & -> & H)].
      * exfalso. apply new_from_cache_wrote in H as [X _]; [exact (X _ _ W)|]. apply Nat.lt_succ_diag_r.
      * apply wrote_app in W as [W|W]; [eapply update_wrote; eauto|]. exfalso. destruct u.
        -- apply new_hardcoded_runs in H as (-> & _). destruct (wrote_nil _ _ W).
        -- destruct H as (-> & _). destruct (wrote_nil _ _ W).
Qed.
