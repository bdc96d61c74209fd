(** NewProofs.v - New and Update do what NewSpec.v says. *)

From Verif Require Import Base BaseFacts Chars Str StrFacts Trie Psl ListSpec ListFacts World Update UpdateSpec WorldFacts
  NewFacts UpdateProofs DiskProofs DiskProofs2 EndProofs NewSpec.
From Coq Require Import ZifyBool ZifyNat ZifyN.
Local Open Scope Z_scope.

Lemma asked_app : forall a b, asked (a ++ b) = asked a ++ asked b.
Proof. intros a b. apply flat_map_app. Qed.
Lemma not_asked : forall tr, ~ downloads tr -> asked tr = [].
Proof.
  induction tr as [|e tr IH]; intros N; [reflexivity|]. rewrite downloads_cons in N. cbn [asked flat_map]. fold (asked tr).
  rewrite IH by tauto. destruct e as [R [] x]; try reflexivity. destruct N. left. discriminate.
Qed.
Lemma smooth_app : forall net a b, smooth net (a ++ b) <-> smooth net a /\ smooth net b.
Proof. intros net a b. apply Forall_app. Qed.
Lemma smooth_cons : forall net e tr, smooth net (e :: tr) <-> smooth_event net e /\ smooth net tr.
Proof. intros net e tr. split; [intros H; inversion H; auto|intros []; constructor; auto]. Qed.

(** ** Refreshing *)

Lemma update_file_smooth : forall net fd n text mt rd sources d m tr d' m' r,
  runs disk_step (update_file fd sources) d m tr d' m' r -> smooth net tr ->
  fst (d_fd d fd) = n -> d_entry d n = Regular text mt rd true ->
  (r = Ret (Some ErrNoSource) /\ d' = d /\ Forall (offers_none net) sources /\ asked tr = sources)
  \/ (r = Ret None /\ exists before url after body, sources = before ++ url :: after /\ Forall (offers_none net) before
      /\ offers net url body /\ asked tr = before ++ [url] /\ same_but n d d'
      /\ d_entry d' n = Regular (body ++ skipn (length body) text) (d_now d) rd true).
Proof.
  intros net fd n text mt rd. induction sources as [|s rest IH]; intros d m tr d' m' r H Sm F O; cbn [update_file] in H.
  { destruct H as (-> & -> & -> & ->). left. auto. }
  unfold download_file in H. cbn [pbind sys_do ret runs] in H. destruct H as (resp & d1 & tr1 & S & -> & H).
  cbn [disk_step] in S. subst d1. apply smooth_cons in Sm as (Sr & Sm). cbn [smooth_event] in Sr.
  assert (Skip : offers_none net s -> runs disk_step (update_file fd rest) d m tr1 d' m' r ->
    (r = Ret (Some ErrNoSource) /\ d' = d /\ Forall (offers_none net) (s :: rest) /\ asked (Event (HttpGet s) resp :: tr1) = s :: rest)
    \/ (r = Ret None /\ exists before url after body, s :: rest = before ++ url :: after /\ Forall (offers_none net) before
      /\ offers net url body /\ asked (Event (HttpGet s) resp :: tr1) = before ++ [url] /\ same_but n d d'
      /\ d_entry d' n = Regular (body ++ skipn (length body) text) (d_now d) rd true)).
  { intros No G. destruct (IH _ _ _ _ _ _ G Sm F O) as [(-> & -> & Fo & A)|(-> & before & url & after & body & -> & Fo & Of & A & X)].
    - left. split; [reflexivity|]. split; [reflexivity|]. split; [constructor; auto|].
      cbn [asked flat_map asked_of app]. fold (asked tr1). rewrite A. reflexivity.
    - right. split; [reflexivity|]. exists (s :: before), url, after, body. split; [reflexivity|]. split; [constructor; auto|].
      split; [exact Of|]. split; [|exact X]. cbn [asked flat_map asked_of app]. fold (asked tr1). rewrite A. reflexivity. }
  destruct resp as [|status body complete]; [apply Skip; [|exact H]; intros b (X & _); congruence|].
  destruct (status =? 200)%Z eqn:St.
  2:{ apply Skip; [|exact H]. intros b (X & _). rewrite X in Sr. injection Sr as -> _ _. discriminate. }
  apply Z.eqb_eq in St. subst status. destruct complete; [|apply Skip; [|exact H]; intros b (X & _); congruence].
  cbn [pbind ret] in H. destruct (valid_psl_delimiters body) eqn:D; cbn [negb] in H.
  2:{ apply Skip; [|exact H]. intros b (X & M). rewrite X in Sr. injection Sr as ->. apply delimiters_iff in M. congruence. }
  apply delimiters_iff in D. clear Skip. cbn [pbind sys_do ret runs] in H. destruct H as (sought & d2 & tr2 & S2 & -> & H).
  apply smooth_cons in Sm as (Ss & Sm). cbn [smooth_event] in Ss. subst sought. cbn [negb pbind sys_do ret runs] in H.
  destruct H as (ok & d3 & tr3 & S3 & -> & H). apply smooth_cons in Sm as (Sw & Sm). cbn [smooth_event] in Sw. subst ok.
  cbn [negb ret runs] in H. destruct H as (-> & -> & -> & ->).
  assert (Op : open_text d fd n text) by (split; eauto).
  destruct (seek_disk _ _ _ _ _ _ S2 Op) as (Sb2 & O2 & E2 & Off).
  destruct (write_disk _ _ _ _ _ _ _ S3 O2 (Off eq_refl)) as (Sb3 & _).
  right. split; [reflexivity|]. exists [], s, rest, body. split; [reflexivity|]. split; [constructor|]. split; [split; auto|].
  split; [reflexivity|]. split; [eapply same_but_trans; eauto|].
  destruct S3 as [(_ & ->)|[(X & _)|(X & _)]]; [|discriminate..].
  destruct O2 as (F2 & _). specialize (Off eq_refl). unfold written. destruct (d_fd d2 fd) as [n' off]. cbn [fst snd] in *. subst n' off.
  rewrite E2, O. cbn. unfold upd_entry. rewrite N.eqb_refl. destruct Sb2 as (_ & _ & _ & -> & _). reflexivity.
Qed.

(** Opening the cache file, in detail. *)
Lemma open_details : forall path d x d', disk_step _ (OpenWrite path) d x d' ->
  (x = None /\ d' = d /\ ~ can_write d path)
  \/ (can_write d path /\ x = Some (d_next_fd d) /\ same_but (d_name d path) d d' /\ fst (d_fd d' (d_next_fd d)) = d_name d path
      /\ exists text mt rd, initial_text d path text /\ d_entry d' (d_name d path) = Regular text mt rd true
         /\ (((exists b, at_path d path = Absent b) /\ text = [] /\ mt = d_now d) \/ at_path d path = Regular text mt rd true)).
Proof.
  intros path d x d' H. cbn [disk_step] in H. unfold can_write, initial_text, stored.
  destruct (at_path d path) as [b|t b|text mt rd wr] eqn:A.
  - destruct b; [|left; destruct H as (-> & ->); auto]. right. destruct H as (rd & -> & ->).
    split; [reflexivity|]. split; [reflexivity|]. split; [|split].
    + unfold same_but. cbn. repeat split. intros k Hk. unfold upd_entry. apply N.eqb_neq in Hk. rewrite Hk. reflexivity.
    + cbn. rewrite upd_same. reflexivity.
    + exists [], (d_now d), rd. split; [right; eauto|]. cbn. unfold upd_entry. rewrite N.eqb_refl. eauto 6.
  - destruct H as (-> & ->). left. auto.
  - destruct wr; [|left; destruct H as (-> & ->); auto]. right. destruct H as (-> & ->).
    split; [reflexivity|]. split; [reflexivity|]. split; [repeat split|]. split; [cbn; rewrite upd_same; reflexivity|].
    exists text, mt, rd. split; [left; eauto|]. split; [exact A|]. auto.
Qed.

Lemma c68_update : forall to_ascii hardcoded net f d m tr d' m' r,
  runs disk_step (update to_ascii hardcoded f) d m tr d' m' r -> smooth net tr ->
  (x_path (m_extractor m f) <> default_path d /\ r = Ret (Some ErrNoOp) /\ d' = d /\ m' = m /\ asked tr = [])
  \/ (x_path (m_extractor m f) = default_path d /\ exists y urls, refreshes d net y urls /\ asked tr = urls /\ files_after d d' y
      /\ d_temp d' = d_temp d /\ d_abs d' = d_abs d /\ d_name d' = d_name d /\ d_now d' = d_now d /\
      match y with
      | Closed => r = Ret (Some ErrOpenCache) /\ m' = m
      | NotOffered => r = Ret (Some ErrNoSource) /\ m' = m
      | NewText text =>
        (readable d' (default_path d) text /\ r = Ret None
         /\ serves to_ascii m' f (x_private (m_extractor m f)) text
         /\ x_path (m_extractor m' f) = default_path d)
        \/ ((forall text, ~ readable d' (default_path d) text) /\ r = Ret (Some ErrReadList) /\ m_extractor m' = m_extractor m)
      end).
Proof.
  intros to_ascii hardcoded net f d m tr d' m' r H Sm.
  apply update_runs in H as (temp & e1 & tr1 & (-> & ->) & -> & H).
  change (d_temp d ++ default_psl_file_name) with (default_path d) in H.
  destruct H as [(N & -> & -> & -> & ->)|(P & file & d2 & tr2 & S2 & -> & H)]; [left; auto 6|]. right. split; [exact P|].
  apply smooth_cons in Sm as (_ & Sm). apply smooth_cons in Sm as (_ & Sm).
  cbn [asked flat_map asked_of app]. fold (asked tr2).
  destruct (open_details _ _ _ _ S2) as [(-> & -> & Nw)|(Cw & -> & Sb & Fd & old & mt & rd & I & O & Was)].
  - destruct H as [(_ & -> & -> & -> & ->)|(fd & tr3 & tr4 & e3 & u & X & _)]; [|discriminate].
    exists Closed, []. split; [constructor; exact Nw|]. cbn. auto 8.
  - destruct H as [(X & _)|(fd & tr3 & tr4 & d3 & u & X & -> & Hu & H)]; [discriminate|]. injection X as <-.
    apply smooth_app in Sm as (Sm3 & Sm4). rewrite asked_app.
    assert (Nm2 : d_name d2 = d_name d) by apply Sb. assert (Nw2 : d_now d2 = d_now d) by apply Sb.
    set (n := d_name d (default_path d)) in *.
    destruct (update_file_smooth _ _ _ _ _ _ _ _ _ _ _ _ _ Hu Sm3 Fd O)
      as [(X & -> & No & As)|(X & before & url & after & body & Src & No & Of & As & Sb3 & E3)]; injection X as ->.
    + destruct H as [(er & X & -> & -> & -> & ->)|(X & _)]; [|discriminate]. injection X as <-.
      exists NotOffered, the_sources. split; [constructor; auto|]. split; [rewrite As; reflexivity|]. split.
      * intros path. destruct (N.eq_dec (d_name d path) n) as [Q|Q].
        -- right. split; [exact Q|]. unfold at_path in *. rewrite Nm2, Q. rewrite O. fold n in Was. rewrite Nw2.
           destruct Was as [(Ab & -> & ->)|Was]; [left|right; rewrite Was]; eauto 10.
        -- left. split; [exact Q|]. unfold at_path. rewrite Nm2. apply Sb. exact Q.
      * destruct Sb as (A & B & C & D & _). auto 8.
    + assert (Sb' : same_but n d d3) by (eapply same_but_trans; eauto).
      assert (Nm3 : d_name d3 = d_name d) by apply Sb'. assert (Nw3 : d_now d3 = d_now d) by apply Sb'. rewrite Nw2, <- Nw3 in E3.
      set (text := body ++ skipn (length body) old) in *.
      assert (Fa : files_after d d3 (NewText text)).
      { intros path. destruct (N.eq_dec (d_name d path) n) as [Q|Q].
        - right. split; [exact Q|]. exists rd. unfold at_path. rewrite Nm3, Q. split; [exact E3|].
          intros text0 mt0 rd0 wr0 A0. unfold at_path in Was. fold n in Was. rewrite A0 in Was. destruct Was as [((b & X) & _)|X]; congruence.
        - left. split; [exact Q|]. unfold at_path. rewrite Nm3. apply Sb'. exact Q. }
      destruct H as [(er & X & _)|(_ & x & (-> & ->) & -> & Kt & Ne & Nt & H)]; [discriminate|].
      exists (NewText text), (before ++ [url]).
      split; [econstructor; eauto; exact Src|].
      split; [rewrite As; apply app_nil_r|]. split; [exact Fa|].
      destruct Sb' as (A & B & C & D & _). split; [exact A|]. split; [exact B|]. split; [exact C|]. split; [exact D|].
      assert (At : at_path d3 (default_path d) = Regular text (d_now d3) rd true) by (unfold at_path; rewrite Nm3; exact E3).
      rewrite At in H. destruct rd.
      * left. destruct H as (-> & _ & Hx & Sv). split; [exists (d_now d3), true; exact At|]. split; [reflexivity|]. split; [exact Sv|].
        rewrite Hx. reflexivity.
      * right. destruct H as (-> & Hx). split; [|auto]. intros t (mt' & wr & X). congruence.
Qed.

(** ** New *)

Lemma refreshes_later : forall d d1 net y urls, later d d1 -> refreshes d1 net y urls -> refreshes d net y urls.
Proof. intros d d1 net y urls (t & _ & ->) H. inversion H; subst; econstructor; eauto. Qed.
Lemma files_later : forall d d1 d2 y, later d d1 -> files_after d1 d2 y -> files_after d d2 y.
Proof. intros d d1 d2 y (t & _ & ->) H. exact H. Qed.

Lemma readable_dec : forall d path, (exists text, readable d path text) \/ forall text, ~ readable d path text.
Proof.
  intros d path. unfold readable. destruct (at_path d path) as [b|t b|text mt [] wr].
  1,2,4: right; intros text0 (mt0 & wr0 & X); discriminate. eauto.
Qed.

Lemma c68_new : forall to_ascii hardcoded net n d m tr d' m' r, disk_ok d -> unpadded (default_path d) ->
  runs disk_step (new to_ascii hardcoded n) d m tr d' m' r -> smooth net tr ->
  exists f x y urls, r = Ret (f, None) /\ uses d d' (lp_path n) net x y urls /\ asked tr = urls
    /\ (d_now d <= d_now d')%Z
    /\ match y with None => d_entry d' = d_entry d | Some y => files_after d d' y end
    /\ holds_list to_ascii hardcoded m' f (lp_private n) x.
Proof.
  intros to_ascii hardcoded net n d m tr d' m' r Ok Td H Sm. apply new_runs in H.
  destruct H as (tr0 & d0 & valid & age & tr1 & C & -> & H).
  assert (T : exists p, trimmed white_space (lp_path n) p) by (eexists; apply trim_space_iff; reflexivity). destruct T as (p & T).
  destruct (check_disk _ _ _ _ _ _ _ _ _ Ok T C) as (_ & Lt & ND & V). apply smooth_app in Sm as (_ & Sm).
  rewrite asked_app, (not_asked tr0 ND). cbn [app]. pose proof (later_ok _ _ Lt Ok) as Ok0.
  assert (Nw0 : (d_now d <= d_now d0)%Z /\ d_entry d0 = d_entry d) by (destruct Lt as (t & Ht & ->); auto).
  destruct Nw0 as (Nw0 & En0).
  destruct V as [(-> & text & mt & L & _)|(-> & N)].
  { destruct H as [(_ & H)|(X & _)]; [|discriminate].
    assert (Hne : lp_path n <> []).
    { intros X. rewrite X in T. apply trim_space_iff in T. subst p. exact (path_nonempty _ _ _ _ Ok L eq_refl). }
    apply new_from_cache_runs in H as (_ & _ & [(P & _)|(_ & x & (-> & ->) & -> & H)]); [contradiction| |apply Nat.lt_succ_diag_r].
    rewrite (later_at _ _ _ Lt) in H.
    destruct (readable_dec d (lp_path n)) as [(text' & mt' & wr' & R)|R].
    - rewrite R in H. destruct H as (-> & Sv & Hx & _).
      eexists. exists (ListFile (lp_path n) text'), None, []. split; [reflexivity|].
      split; [econstructor; eauto; exists mt', wr'; exact R|]. split; [reflexivity|]. split; [exact Nw0|]. split; [exact En0|].
      split; [exact Sv|]. rewrite Hx. cbn [x_path start_memory m_extractor]. rewrite upd_same. reflexivity.
    - assert (X : match at_path d (lp_path n) with Regular c _ true _ => Some c | _ => None end = None).
      { destruct (at_path d (lp_path n)) as [b|t b|c t [] w] eqn:A; try reflexivity. exfalso. apply (R c). exists t, w. exact A. }
      rewrite X in H. destruct H as (-> & Sv & Hx & _).
      eexists. exists BuiltIn, None, []. split; [reflexivity|]. split; [econstructor; eauto|]. split; [reflexivity|].
      split; [exact Nw0|]. split; [exact En0|]. split; [exact Sv|]. rewrite Hx. reflexivity. }
  destruct H as [(X & _)|(_ & temp & d1 & opened & d2 & tr2 & (-> & ->) & (-> & ->) & -> & H)]; [discriminate|].
  assert (Hp : d_temp d0 ++ default_psl_file_name = default_path d) by exact (later_default _ _ Lt).
  assert (Tm : d_temp d0 = d_temp d) by (destruct Lt as (? & _ & ->); reflexivity).
  rewrite Tm in *. rewrite (later_at _ _ _ Lt) in *.
  set (opened := match at_path d (d_temp d) with Absent _ => false | Directory _ b => b | Regular _ _ rd _ => rd end) in *.
  assert (Op : opened = true <-> can_open d (d_temp d)).
  { unfold opened, can_open. destruct (at_path d (d_temp d)); split; auto; try discriminate; try contradiction. }
  apply smooth_cons in Sm as (_ & Sm). apply smooth_cons in Sm as (_ & Sm). cbn [asked flat_map asked_of app]. fold (asked tr2).
  destruct H as [(O & H)|(O & H)].
  { apply new_hardcoded_runs in H as (-> & -> & _ & -> & _ & _ & Hx & _ & Sv).
    eexists. exists BuiltIn, None, []. split; [reflexivity|].
    split; [apply (uses_no_folder _ _ _ _ p); auto; rewrite <- Op, O; discriminate|]. split; [reflexivity|]. split; [exact Nw0|]. split; [exact En0|].
    split; [exact Sv|]. rewrite Hx. reflexivity. }
  assert (Co : can_open d (d_temp d)) by (apply Op; exact O).
  cbn zeta in H. destruct H as (valid' & age' & tr3 & tr4 & d3 & C' & -> & H). rewrite Hp in *.
  destruct (check_disk _ _ _ _ _ _ _ _ _ Ok0 Td C') as (_ & Lt3 & ND3 & V').
  pose proof (later_trans _ _ _ Lt Lt3) as L03. pose proof (later_ok _ _ L03 Ok) as Ok3.
  assert (Nw3 : (d_now d <= d_now d3)%Z /\ d_entry d3 = d_entry d) by (destruct L03 as (t & Ht & ->); auto).
  destruct Nw3 as (Nw3 & En3). apply smooth_app in Sm as (_ & Sm). rewrite asked_app, (not_asked tr3 ND3). cbn [app].
  destruct H as [(-> & Age & H)|(Inv & tr5 & tr6 & d5 & m5 & u & U & -> & H)].
  - destruct V' as [(_ & text & mt & L & ->)|(X & _)]; [|discriminate].
    apply (later_list _ _ _ _ _ Lt) in L. pose proof L as L'. apply (later_list _ _ _ _ _ L03) in L'.
    destruct (from_cache_disk _ _ _ _ _ _ _ _ _ _ _ _ _ Ok3 H (Nat.lt_succ_diag_r _) L') as (-> & -> & Sv & Xp & ND4).
    eexists. exists (ListFile (default_path d) text), None, []. split; [reflexivity|].
    split; [apply (uses_cache _ _ _ _ p text mt); auto|]. split; [apply not_asked; exact ND4|]. split; [exact Nw3|].
    split; [exact En3|]. split; [exact Sv|]. rewrite Xp. cbn [default_memory set_extractor m_extractor]. rewrite upd_same. reflexivity.
  - assert (Stale : forall text mt, list_at d (default_path d) text mt -> (psl_max_age < d_now d3 - mt)%Z).
    { intros text mt L. apply (later_list _ _ _ _ _ Lt) in L.
      destruct V' as [(-> & text' & mt' & L' & ->)|(-> & N')]; [|destruct (N' _ _ L)].
      destruct Inv as [X|X]; [discriminate|]. destruct L as (_ & _ & w & L). destruct L' as (_ & _ & w' & L').
      rewrite L in L'. injection L' as -> -> ->. exact X. }
    apply smooth_app in Sm as (Sm5 & _). rewrite asked_app.
    assert (Xp : x_path (m_extractor (default_memory m (lp_path n) (lp_private n) (default_path d)) (m_next_extractor m)) = default_path d3).
    { cbn [default_memory set_extractor m_extractor]. rewrite upd_same. cbn [x_path]. symmetry. exact (later_default _ _ L03). }
    destruct (c68_update _ _ _ _ _ _ _ _ _ _ U Sm5) as [(X & _)|(_ & y & urls & Rf & As & Fa & Dt & Da & Dn & Dw & Y)]; [contradiction|].
    apply (refreshes_later _ _ _ _ _ L03) in Rf. apply (files_later _ _ _ _ L03) in Fa.
    rewrite (later_default _ _ L03) in *. rewrite As.
    assert (Xq : x_private (m_extractor (default_memory m (lp_path n) (lp_private n) (default_path d)) (m_next_extractor m)) = lp_private n).
    { cbn [default_memory set_extractor m_extractor]. rewrite upd_same. reflexivity. }
    rewrite Xq in Y. rewrite <- Dw in *.
    assert (Not : forall er, u = Some er -> (forall text, y = NewText text -> ~ readable d5 (default_path d) text) ->
      exists f x y urls0, r = Ret (f, None) /\ uses d d' (lp_path n) net x y urls0 /\ urls ++ asked tr6 = urls0
      /\ (d_now d <= d_now d')%Z
      /\ match y with None => d_entry d' = d_entry d | Some y => files_after d d' y end
      /\ holds_list to_ascii hardcoded m' f (lp_private n) x).
    { intros er -> Nr. apply new_hardcoded_runs in H as (-> & -> & _ & -> & _ & _ & Hx & _ & Sv).
      eexists. exists BuiltIn, (Some y), urls. split; [reflexivity|]. split; [eapply uses_not_refreshed; eauto|].
      split; [apply app_nil_r|]. split; [exact Nw3|]. split; [exact Fa|]. split; [exact Sv|]. rewrite Hx. reflexivity. }
    destruct y as [| |text].
    + destruct Y as (Y & _). injection Y as ->. apply (Not _ eq_refl). discriminate.
    + destruct Y as (Y & _). injection Y as ->. apply (Not _ eq_refl). discriminate.
    + destruct Y as [(R & Y & Sv & Px)|(R & Y & _)]; injection Y as ->.
      * destruct H as (-> & -> & -> & ->). eexists. exists (ListFile (default_path d) text), (Some (NewText text)), urls.
        split; [reflexivity|]. split; [eapply uses_refreshed; eauto|]. split; [apply app_nil_r|]. split; [exact Nw3|].
        split; [exact Fa|]. split; [exact Sv|exact Px].
      * apply (Not _ eq_refl). intros text' _. apply R.
Qed.

(** ** The description is consistent *)

Lemma list_at_unique : forall d path text mt text' mt', list_at d path text mt -> list_at d path text' mt' -> text = text' /\ mt = mt'.
Proof. intros d path text mt text' mt' (_ & _ & w & A) (_ & _ & w' & B). rewrite A in B. injection B as -> -> _. auto. Qed.
Lemma readable_unique : forall d path text text', readable d path text -> readable d path text' -> text = text'.
Proof. intros d path text text' (mt & w & A) (mt' & w' & B). congruence. Qed.
Lemma trimmed_unique : forall path p p', trimmed white_space path p -> trimmed white_space path p' -> p = p'.
Proof. intros path p p' A B. apply trim_space_iff in A. apply trim_space_iff in B. congruence. Qed.

Lemma first_offer : forall net sources before url after body before' url' after' body',
  sources = before ++ url :: after -> sources = before' ++ url' :: after' ->
  Forall (offers_none net) before -> Forall (offers_none net) before' -> offers net url body -> offers net url' body' ->
  before = before' /\ url = url' /\ body = body'.
Proof.
  intros net. induction sources as [|s rest IH]; intros before url after body before' url' after' body' A B Fb Fb' O O'.
  { destruct before; discriminate. }
  destruct before as [|b before], before' as [|b' before']; injection A as A1 A2; injection B as B1 B2; subst.
  - split; [reflexivity|]. split; [reflexivity|]. destruct O as (O & _). destruct O' as (O' & _). congruence.
  - inversion Fb'; subst. edestruct H1; eauto.
  - inversion Fb; subst. edestruct H1; eauto.
  - inversion Fb; subst. inversion Fb'; subst. destruct (IH before url after body before' url' after' body') as (-> & -> & ->); auto.
Qed.

Lemma refreshes_unique : forall d net y urls y' urls', refreshes d net y urls -> refreshes d net y' urls' -> y = y' /\ urls = urls'.
Proof.
  assert (No : forall net before url after body, Forall (offers_none net) the_sources -> the_sources = before ++ url :: after ->
    offers net url body -> False).
  { intros net before url after body F E O. rewrite E in F. apply Forall_app in F as (_ & F). inversion F; subst. exact (H1 _ O). }
  intros d net y urls y' urls' A B. inversion A; subst; inversion B; subst; auto; try contradiction; try (exfalso; eapply No; eauto; fail).
  destruct (first_offer net _ _ _ _ _ _ _ _ _ H0 H5 H1 H6 H2 H7) as (-> & -> & ->).
  rewrite (initial_unique _ _ _ _ H3 H8). auto.
Qed.

Lemma c68_unique : forall d d' path net x y urls x' y' urls', uses d d' path net x y urls -> uses d d' path net x' y' urls' ->
  x = x' /\ y = y' /\ urls = urls'.
Proof.
  intros d d' path net x y urls x' y' urls' A B.
  inversion A; subst; inversion B; subst;
    repeat match goal with
    | P : trimmed white_space path ?p, Q : trimmed white_space path ?q |- _ =>
      pose proof (trimmed_unique _ _ _ P Q); subst; clear Q
    end; auto;
    repeat match goal with
    | P : no_list_at ?d ?p, Q : list_at ?d ?p _ _ |- _ => destruct (P _ _ Q)
    | P : readable ?d ?p ?t, Q : readable ?d ?p ?t' |- _ => pose proof (readable_unique _ _ _ _ P Q); subst; clear Q
    | P : readable ?d ?p ?t, Q : forall text, ~ readable ?d ?p text |- _ => destruct (Q _ P)
    | P : ~ ?X, Q : ?X |- _ => contradiction
    | P : list_at ?d ?p _ _, Q : list_at ?d ?p _ _ |- _ => destruct (list_at_unique _ _ _ _ _ _ P Q); subst; clear Q
    | P : list_at ?d (default_path ?d) _ ?mt, Q : forall text mtime, list_at ?d (default_path ?d) text mtime -> _ |- _ =>
      specialize (Q _ _ P)
    | P : refreshes ?d ?net _ _, Q : refreshes ?d ?net _ _ |- _ =>
      let X := fresh in let Y := fresh in destruct (refreshes_unique _ _ _ _ _ _ P Q) as (X & Y); clear Q; subst; try injection X as X; subst
    end; auto; try lia.
  - match goal with Q : forall text, NewText _ = NewText text -> _ |- _ => destruct (Q _ eq_refl); assumption end.
  - match goal with Q : forall text, NewText _ = NewText text -> _ |- _ => destruct (Q _ eq_refl); assumption end.
Qed.

Lemma c68_possible : forall net A (p : prog A) d m, exists tr d' m' r, runs disk_step p d m tr d' m' r /\ smooth net tr.
Proof.
  intros net A. induction p as [o|R o c IH|R o c IH]; intros d m.
  - exists [], d, m, o. split; [cbn [runs]; auto|constructor].
  - assert (T : exists x d1, disk_step R o d x d1 /\ smooth_event net (Event o x)).
    { destruct o; cbn [disk_step smooth_event].
      - eexists. eexists. split; [split; reflexivity|exact I].
      - eexists. eexists. split; [split; reflexivity|exact I].
      - eexists. eexists. split; [split; reflexivity|exact I].
      - exists (d_now d), (with_now d (d_now d)). split; [split; [lia|reflexivity]|exact I].
      - eexists. eexists. split; [split; reflexivity|exact I].
      - eexists. eexists. split; [split; reflexivity|exact I].
      - destruct (at_path d path) as [[]|t b|c0 t rd []].
        + eexists. eexists. split; [exists true; split; reflexivity|exact I].
        + eexists. eexists. split; [split; reflexivity|exact I].
        + eexists. eexists. split; [split; reflexivity|exact I].
        + eexists. eexists. split; [split; reflexivity|exact I].
        + eexists. eexists. split; [split; reflexivity|exact I].
      - eexists. eexists. split; [left; split; reflexivity|reflexivity].
      - eexists. eexists. split; [left; split; reflexivity|reflexivity].
      - eexists. eexists. split; [reflexivity|reflexivity]. }
    destruct T as (x & d1 & S & Se). destruct (IH x d1 m) as (tr & d' & m' & r & H & Sm).
    exists (Event o x :: tr), d', m', r. split; [cbn [runs]; exists x, d1, tr; auto|constructor; auto].
  - cbn [runs]. destruct (mem_step o m) as [x m1]. apply IH.
Qed.
