(** LogExtract.v - proofs about what Extract logs. *)

From Verif Require Import Base BaseFacts Utf8 Chars Str Net Trie Extract Host HostFacts Walk WalkFacts Addr Parse ParseFacts
  Rfc UrlSpec RuleSpec UrlFacts ExtractFacts UrlProofs IdnaBuiltin World Update UpdateSpec Calls CallFacts Logs LogSpec LogProofs LogTold.
From Coq Require Import ZifyBool ZifyNat ZifyN.
Local Open Scope Z_scope.

(** ** Extract up to the conversion of the host *)

Definition convert_next_log (ext : idna) (puny : bool) (x : (result * option err) + (result * bytes))
  : work ((result * option err) + (result * bytes)) :=
  match x with
  | inl r => wret (inl r)
  | inr (u, netloc) =>
    r <<~ convert_host_log ext puny netloc ;;
    match r with inl e => wret (inl (u, Some e)) | inr host => wret (inr (u, host)) end
  end.
Definition convert_next (ext : idna) (puny : bool) (x : (result * option err) + (result * bytes))
  : outcome ((result * option err) + (result * bytes)) :=
  match x with
  | inl r => Ret (inl r)
  | inr (u, netloc) => match convert_host ext puny netloc with inl e => Ret (inl (u, Some e)) | inr host => Ret (inr (u, host)) end
  end.
Definition no_idna (e : option err) : Prop := forall x, e <> Some (ErrIdna x).

Lemma scan_no_idna : forall t i n o c e, scan_host t i n o c = inl e -> no_idna (Some e).
Proof.
  induction t as [|r t IH]; intros i n o c e H; cbn [scan_host] in H; [discriminate|].
  repeat match type of H with
  | (if ?b then _ else _) = _ => destruct b
  | inl _ = inl _ => injection H as <-; intros x; discriminate
  | inr _ = inl _ => discriminate
  | scan_host _ _ _ _ _ = _ => exact (IH _ _ _ _ _ H)
  | (let _ := _ in _) = _ => cbv zeta in H
  end.
Qed.
Lemma port_no_idna : forall u a u' e, port_path u a = Ret (u', e) -> no_idna e.
Proof.
  intros u a u' e H x. unfold port_path in H. destruct (negb (len a =? 0)); [|injection H as <- <-; discriminate].
  cbv zeta in H. destruct (index a 0) as [c| |]; cbn [bind] in H; [|discriminate..].
  assert (K : forall (o : outcome (result * option err)) k, bind o k = Ret (u', e) -> exists b, o = Ret b /\ k b = Ret (u', e)).
  { intros [b| |] k K; [eauto|discriminate..]. }
  apply K in H as ([u1 e1] & H1 & H).
  assert (N : e1 <> Some (ErrIdna x)).
  { destruct (c =? 58)%N; [|injection H1 as <- <-; discriminate].
    match type of H1 with bind ?o _ = _ => destruct o as [b| |]; cbn [bind] in H1; [|discriminate..] end.
    destruct (atoi b) as [z|]; [|injection H1 as <- <-; discriminate].
    destruct ((0 <=? z) && (z <=? largest_port_number)); injection H1 as <- <-; discriminate. }
  destruct e1 as [e1|]; [injection H as <- <-; exact N|].
  match type of H with (if ?b then _ else _) = _ => destruct b end; [|injection H as <- <-; discriminate].
  match type of H with bind ?o _ = _ => destruct o as [b| |] end; [injection H as <- <-; discriminate|discriminate H..].
Qed.

Lemma loop_error : forall fuel h node hs hl sep st en e, suffix_loop fuel h node hs hl sep st en = Ret (inl e) -> e = ErrConsecutiveSeparators.
Proof.
  induction fuel as [|fuel IH]; intros h node hs hl sep st en e H; cbn [suffix_loop] in H; [discriminate|]. cbv zeta in H.
  destruct (slice h 0 sep) as [head| |]; cbn [bind] in H; [|discriminate..].
  match type of H with bind ?o _ = _ => destruct o as [[label end_]| |] end; cbn [bind] in H; [|discriminate..].
  match type of H with (if ?b then _ else _) = _ => destruct b end.
  - destruct (negb hl); [exact (IH _ _ _ _ _ _ _ _ H)|]. injection H as <-. reflexivity.
  - destruct (child node (str "*")); [discriminate|].
    match type of H with match ?c with Some _ => _ | None => _ end = _ => destruct c as [val|] end; [|discriminate].
    match type of H with (let '(_, _) := ?c in _) = _ => destruct c as [en' hs'] end.
    match type of H with (if ?b then _ else _) = _ => destruct b end; [discriminate|]. exact (IH _ _ _ _ _ _ _ _ H).
Qed.
Lemma bind_ret : forall A B (o : outcome A) (k : A -> outcome B) b, bind o k = Ret b -> exists a, o = Ret a /\ k a = Ret b.
Proof. intros A B [a| |] k b H; [eauto|discriminate..]. Qed.
Lemma host_no_idna : forall t u h ig r e, extract_host t u h ig = Ret (r, e) -> no_idna e.
Proof.
  intros t u h ig r e H x. unfold extract_host in H. apply bind_ret in H as ([y|w] & L & H).
  { apply loop_error in L as ->. injection H as <- <-. discriminate. }
  apply bind_ret in H as ([] & _ & H).
  { apply bind_ret in H as (d & _ & H). injection H as <- <-. discriminate. }
  unfold host_components in H.
  match type of H with (let '(_, _) := ?c in _) = _ => destruct c as [a b] end.
  apply bind_ret in H as (c & _ & H). destruct (has_invalid_chars c); [injection H as <- <-; discriminate|].
  apply bind_ret in H as ([u1 d] & _ & H). apply bind_ret in H as (u2 & _ & H).
  destruct (len (r_domain u2) =? 0); injection H as <- <-; discriminate.
Qed.
(** Without a host, there is no domain. *)
Lemma host_empty : forall t u ig, r_domain u = [] -> exists r, host_outcome t u [] ig (v4 []) = (r, Some ErrEmptyDomain).
Proof.
  intros t u ig D. unfold host_outcome. change (split_host []) with (([], []) : bytes * list seg).
  cbn [strip_empty labels map app cwalk is_nil negb andb]. change (v4 []) with false. cbv iota beta zeta.
  assert (K : forall c, c_has c = false \/ c_sep c = 1%nat -> exists r, components u [] [] [] ig c = (r, Some ErrEmptyDomain)).
  { intros [hs j sp st pv] C. cbn [c_has c_sep] in C. unfold components. cbn [c_has c_sep c_start c_prev c_end].
    assert (X : forall i, host [] (skipn i []) = []) by (intros []; reflexivity). cbv zeta. rewrite !X.
    destruct hs.
    - destruct C as [C| ->]; [discriminate|]. cbn [length Nat.eqb app host]. change (has_invalid_chars []) with false. cbv iota.
      destruct u as [a1 a2 a3 a4 a5 a6 a7 a8 a9]. cbn [r_domain with_suffix] in *. subst a4. cbn [is_nil]. eauto.
    - change (has_invalid_chars []) with false. cbv iota. destruct u. cbn. eauto. }
  destruct (child t (str "*")); [apply K; auto|].
  change (unescaped []) with (@nil N). destruct (child t []) as [val|]; [|apply K; auto].
  rewrite orb_true_r. apply K. auto.
Qed.

Notation half := ((result * option err) + (result * bytes))%type.
(** Two programs that do the same up to the conversion of the host. *)
Definition shaped (W : idna -> bool -> work half) (F : idna -> bool -> outcome half) : Prop :=
  exists o : outcome half,
    (forall ext puny, W ext puny = wbind (WDone o) (convert_next_log ext puny) /\ F ext puny = bind o (convert_next ext puny))
    /\ forall u e, o = Ret (inl (u, e)) -> no_idna e.
Lemma shaped_bind : forall A (a : outcome A) W F, (forall x, a = Ret x -> shaped (W x) (F x)) ->
  shaped (fun ext puny => wbind (WDone a) (fun x => W x ext puny)) (fun ext puny => bind a (fun x => F x ext puny)).
Proof.
  intros A [x| |] W F H.
  - exact (H x eq_refl).
  - exists Panic. split; [intros; split; reflexivity|discriminate].
  - exists OutOfFuel. split; [intros; split; reflexivity|discriminate].
Qed.
Lemma shaped_done : forall u e, no_idna e -> shaped (fun _ _ => wret (inl (u, e))) (fun _ _ => Ret (inl (u, e))).
Proof. intros u e N. exists (Ret (inl (u, e))). split; [intros; split; reflexivity|]. intros u0 e0 X. injection X as <- <-. exact N. Qed.

Lemma front_shape : forall url ig, shaped (fun ext puny => extract_front_log ext (mkParams url ig puny))
  (fun ext puny => Calls.extract_front ext (mkParams url ig puny)).
Proof.
  intros url ig. unfold extract_front_log, Calls.extract_front. cbn [p_url p_to_punycode].
  apply (shaped_bind _ (fast_trim url whitespace_rune_set TrimBoth)). intros netloc _. cbv zeta.
  match goal with |- shaped (fun _ _ => wbind (WDone ?o) _) _ => apply (shaped_bind _ o) end. intros [u1 netloc1] _.
  match goal with |- shaped (fun _ _ => wbind (WDone ?o) _) _ => apply (shaped_bind _ o) end. intros at_idx _.
  match goal with |- shaped (fun _ _ => wbind (WDone ?o) _) _ => apply (shaped_bind _ o) end. intros [u2 netloc2] _.
  destruct (scan_host netloc2 0 (len netloc2) (-1) (-1)) as [e|[[opening closing] host_end]] eqn:Sc.
  { apply shaped_done. exact (scan_no_idna _ _ _ _ _ _ Sc). }
  match goal with |- shaped (fun _ _ => wbind (WDone ?o) _) _ => apply (shaped_bind _ o) end. intros [u3 [e|]] V6.
  { apply shaped_done. intros x.
    destruct (closing >? opening); [|discriminate].
    apply bind_ret in V6 as (a & _ & V6). apply bind_ret in V6 as (b & _ & V6). destruct (negb b); [injection V6 as <- <-; discriminate|].
    apply bind_ret in V6 as (c & _ & V6). destruct (negb c); [injection V6 as <- <-; discriminate|discriminate]. }
  match goal with |- shaped (fun _ _ => wbind (WDone ?o) _) _ => apply (shaped_bind _ o) end. intros [after netloc3] _.
  match goal with |- shaped (fun _ _ => wbind (WDone ?o) _) _ => apply (shaped_bind _ o) end. intros [u4 [e|]] Po.
  { apply shaped_done. exact (port_no_idna _ _ _ _ Po). }
  destruct (r_host_type u4);
    [exists (Ret (inr (u4, netloc3))); split; [intros; split; reflexivity|discriminate]..|].
  apply shaped_done. intros x. discriminate.
Qed.

(** ** What is logged *)

(** Which hosts are rejected, and with which line. *)
Definition rejects (ext : idna) (puny : bool) (d : bytes) : option bytes :=
  if puny then match idna_to_puny ext d with Some _ => None | None => Some d end else idna_to_unicode_err ext d.
Definition reject_line (puny : bool) (x : bytes) : list item := [ErrorStart (if puny then NotPuny x else NotUnicode x)].
(** Asking for the IDNA error instead. *)
Definition asking (ext : idna) (puny : bool) : idna := mkIdna (rejects ext puny) (idna_to_puny ext).

Lemma convert_told : forall E (step : forall R : Type, sys R -> E -> R -> E -> Prop) ext puny raw e m tr e' m' r,
  work_runs step (convert_host_log ext puny raw) e m tr e' m' r ->
  e' = e /\ m' = m /\ r = Ret (convert_host ext puny raw)
  /\ ((exists x, convert_host (asking ext puny) false raw = inl (ErrIdna x) /\ tr = [Logged (reject_line puny x)])
      \/ ((forall x, convert_host (asking ext puny) false raw <> inl (ErrIdna x)) /\ tr = [])).
Proof.
  intros E step ext puny raw e m tr e' m' r H. unfold convert_host_log, convert_host, asking, rejects in *.
  cbn [idna_to_unicode_err]. unfold format_as_punycode.
  destruct (query_unescape raw) as [y|d].
  { destruct H as (-> & -> & -> & ->). split; [reflexivity|]. split; [reflexivity|]. split; [reflexivity|].
    right. split; [discriminate|reflexivity]. }
  destruct puny.
  - destruct (idna_to_puny ext d).
    + destruct H as (-> & -> & -> & ->). split; [reflexivity|]. split; [reflexivity|]. split; [reflexivity|].
      right. split; [discriminate|reflexivity].
    + cbn [wbind log_println wret work_runs] in H. destruct H as (tr1 & -> & -> & -> & -> & ->).
      split; [reflexivity|]. split; [reflexivity|]. split; [reflexivity|]. left. exists d. split; reflexivity.
  - destruct (idna_to_unicode_err ext d).
    + cbn [wbind log_println wret work_runs] in H. destruct H as (tr1 & -> & -> & -> & -> & ->).
      split; [reflexivity|]. split; [reflexivity|]. split; [reflexivity|]. left. eexists. split; reflexivity.
    + destruct H as (-> & -> & -> & ->). split; [reflexivity|]. split; [reflexivity|]. split; [reflexivity|].
      right. split; [discriminate|reflexivity].
Qed.

Lemma front_told : forall E (step : forall R : Type, sys R -> E -> R -> E -> Prop) ext p t e m tr e' m' r,
  work_runs step (extract_front_log ext p) e m tr e' m' r ->
  (exists x u, extract (asking ext (p_to_punycode p)) t (mkParams (p_url p) (p_ignore_sub_domains p) false) = Ret (u, Some (ErrIdna x))
     /\ tr = [Logged (reject_line (p_to_punycode p) x)])
  \/ ((forall x u, extract (asking ext (p_to_punycode p)) t (mkParams (p_url p) (p_ignore_sub_domains p) false) <> Ret (u, Some (ErrIdna x)))
     /\ tr = []).
Proof.
  intros E step ext [url ig puny] t e m tr e' m' r H. cbn [p_url p_ignore_sub_domains p_to_punycode].
  destruct (front_shape url ig) as (o & Sh & No). rewrite extract_split.
  destruct (Sh ext puny) as [Wp _]. destruct (Sh (asking ext puny) false) as [_ Fq]. cbn beta in *. rewrite Wp in H. rewrite Fq. clear Sh Wp Fq.
  destruct o as [[[u er]|[u raw]]| |]; cbn [wbind bind convert_next convert_next_log] in *.
  - destruct H as (-> & _ & _ & _). right. split; [|reflexivity]. intros x v X. injection X as X1 X2. exact (No u _ eq_refl x X2).
  - apply work_bind in H as (tr1 & e1 & m1 & a & R1 & R2). apply convert_told in R1 as (-> & -> & -> & T).
    assert (Tr : tr = tr1).
    { destruct R2 as (tr2 & -> & R2).
      assert (X : tr2 = []) by (destruct (convert_host ext puny raw); destruct R2 as (X & _); exact X). subst tr2. apply app_nil_r. }
    subst tr1. clear R2. destruct T as [(x & -> & ->)|(N & ->)].
    + left. exists x, u. split; reflexivity.
    + right. split; [|reflexivity]. intros x v X. destruct (convert_host (asking ext puny) false raw) as [y|h]; cbn [bind] in X.
      * injection X as X1 X2. apply (N x). rewrite X2. reflexivity.
      * exact (host_no_idna _ _ _ _ _ _ X x eq_refl).
  - destruct H as (-> & _ & _ & _). right. split; [discriminate|reflexivity].
  - destruct H as (-> & _ & _ & _). right. split; [discriminate|reflexivity].
Qed.

(** The host of the URL, from Extract. *)
Lemma asked : forall ext t url ig x u, extract ext t (mkParams url ig false) = Ret (u, Some (ErrIdna x)) ->
  exists d, host_text (mkParams url ig false) d /\ idna_to_unicode_err ext d = Some x.
Proof.
  intros ext t url ig x u H.
  destruct (extract_cases _ _ _ _ _ H) as (sc & us & re & F & [(y & Y & _ & [(raw & af & po & pa & _ & _ & _ & _ & ->)|(_ & I)])|[(a & af & po & pa & _ & _ & _ & [(_ & X & _)|(_ & X & _)])|(raw & af & po & pa & -> & Hr & A & Ok & [(y & Cv & Y & _)|(h & Cv & O)])]]).
  - discriminate.
  - injection Y as <-. repeat (destruct I as [I|I]; [discriminate|]). destruct I.
  - discriminate.
  - discriminate.
  - injection Y as <-. unfold convert_host in Cv. destruct (query_unescape raw) as [y|d] eqn:Q; [discriminate|].
    cbn [p_to_punycode] in Cv. destruct (idna_to_unicode_err ext d) as [y|] eqn:I; [|discriminate]. injection Cv as <-.
    exists d. split; [|exact I]. exists sc, us, raw, af, po, pa. apply percent_decoded_iff in Q. auto.
  - exfalso. destruct (outcome_error _ _ _ _ _ _ _ _ _ _ O) as [(X & _)|[(X & _)|([X|[X|X]] & _)]]; discriminate.
Qed.
Lemma asked_back : forall ext t url ig x d, host_text (mkParams url ig false) d -> idna_to_unicode_err ext d = Some x ->
  exists u, extract ext t (mkParams url ig false) = Ret (u, Some (ErrIdna x)).
Proof.
  intros ext t url ig x d (sc & us & raw & af & po & pa & F & Hr & A & Ok & D) X.
  destruct (c01 ext t (mkParams url ig false)) as (u & e & H). exists u. rewrite H. f_equal. f_equal.
  apply (c63 _ _ _ _ _ _ _ _ _ _ _ _ H F Hr A Ok D). split; [reflexivity|exact X].
Qed.

Lemma c100_extract : forall E (step : forall R : Type, sys R -> E -> R -> E -> Prop) ext f p e m tr e' m' r,
  work_runs step (extract_log ext f p) e m tr e' m' r ->
  tr = map Logged (log_of tr) /\ e' = e /\ m' = m /\ r = extract ext (trie_in m f) p
  /\ extract_tells ext p (log_of tr)
  /\ (forall x, log_of tr = [[ErrorStart (NotUnicode x)]] -> exists u, r = Ret (u, Some (ErrIdna x)))
  /\ (forall d, log_of tr = [[ErrorStart (NotPuny d)]] -> exists u, r = Ret (u, Some ErrEmptyDomain)).
Proof.
  intros E step ext f p e m tr e' m' r H.
  pose proof (mirrors_runs _ step _ _ _ _ _ (extract_mirrors ext f p) _ _ _ _ _ _ H) as R. rewrite same_id in R.
  apply c43_read_only in R as (P & -> & -> & R).
  assert (L : exists trf ef mf rf, work_runs step (extract_front_log ext p) e m trf ef mf rf /\ tr = trf).
  { apply work_bind in H as (tr1 & e1 & m1 & a & R1 & R2). exists tr1, e1, m1, a. split; [exact R1|].
    destruct a as [[x|[u h]]| |].
    - destruct R2 as (tr2 & -> & -> & _). apply app_nil_r.
    - destruct R2 as (tr2 & -> & R2). cbn [wbind wmem wret work_runs mem_step] in R2.
      apply work_lifted in R2 as (tr3 & -> & _). rewrite plain_app, plain_did in P. apply app_eq_nil in P as (_ & ->). apply app_nil_r.
    - destruct R2 as (-> & _). reflexivity.
    - destruct R2 as (-> & _). reflexivity. }
  destruct L as (trf & ef & mf & rf & Fr & <-). clear H P.
  apply (front_told _ _ _ _ (trie_in m f)) in Fr. destruct p as [url ig puny]. cbn [p_url p_ignore_sub_domains p_to_punycode] in *.
  assert (Tr : tr = map Logged (log_of tr)) by (destruct Fr as [(x & u & _ & ->)|(_ & ->)]; reflexivity).
  split; [exact Tr|]. clear Tr. split; [reflexivity|]. split; [reflexivity|]. split; [exact R|].
  destruct Fr as [(x & u & X & ->)|(N & ->)].
  - change (log_of [Logged (reject_line puny x)]) with [reject_line puny x]. apply asked in X as (d & Hd & Rj).
    unfold asking, rejects, reject_line in *. cbn [idna_to_unicode_err] in Rj. destruct puny.
    + destruct (idna_to_puny ext d) eqn:Pn; [discriminate|]. injection Rj as <-.
      split; [apply tells_not_puny; auto|]. split; [discriminate|]. intros d' Y. injection Y as <-.
      destruct Hd as (sc & us & raw & af & po & pa & F & Hr & A & Ok & D). cbn [p_url] in F.
      destruct (host_empty (trie_in m f) (base sc us po pa) ig eq_refl) as (v & V). exists v. subst r.
      rewrite (UrlFacts.extract_front ext _ (mkParams url ig true) _ _ _ F). f_equal. unfold extract_authority.
      rewrite (split_auth_plain raw af Hr (after_host_starts _ _ _ A)).
      rewrite (proj1 (split_port_spec af po pa A) Ok). apply percent_decoded_iff in D.
      unfold convert_host. cbn [p_to_punycode p_ignore_sub_domains]. rewrite D. unfold format_as_punycode. rewrite Pn. exact V.
    + split; [eapply tells_not_unicode; eauto|]. split; [|discriminate]. intros x' Y. injection Y as <-.
      subst r. eapply asked_back; eauto.
  - change (log_of []) with (@nil (list item)). split; [|split; discriminate]. apply tells_nothing.
    cbn [p_to_punycode]. intros d Hd. 
    assert (G : rejects ext puny d = None).
    { destruct (rejects ext puny d) as [x|] eqn:Rj; [|reflexivity]. exfalso.
      destruct (asked_back (asking ext puny) (trie_in m f) url ig x d Hd Rj) as (u & X). exact (N x u X). }
    unfold rejects in G. destruct puny; [|exact G]. intros X. rewrite X in G. discriminate.
Qed.
