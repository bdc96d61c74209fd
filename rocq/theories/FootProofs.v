(** FootProofs.v - New and Update touch little. *)

From Verif Require Import Base BaseFacts Chars Str Trie Psl ListSpec ListFacts World Update UpdateSpec WorldFacts CallFacts NewSpec FootSpec.
From Coq Require Import ZifyBool ZifyNat ZifyN.

Section Allowed.
Variable ok : list event -> event -> Prop.
(** [allowed Q p h]: after the events [h], every event of [p] is [ok], and [p] ends in [Q]. *)
Fixpoint allowed {A : Type} (Q : list event -> outcome A -> Prop) (p : prog A) (h : list event) : Prop :=
  match p with
  | Done r => Q h r
  | Sys o k => forall x, ok h (Event o x) /\ allowed Q (k x) (h ++ [Event o x])
  | Mem o k => forall x, allowed Q (k x) h
  end.
Lemma allowed_bind : forall A B (Q1 : list event -> outcome A -> Prop) (Q : list event -> outcome B -> Prop) p (k : A -> prog B) h,
  allowed Q1 p h ->
  (forall h o, Q1 h o -> match o with Ret a => allowed Q (k a) h | Panic => Q h Panic | OutOfFuel => Q h OutOfFuel end) ->
  allowed Q (pbind p k) h.
Proof.
  intros A B Q1 Q. induction p as [r|R o c IH|R o c IH]; intros k h H K; cbn [allowed pbind] in *.
  - specialize (K _ _ H). destruct r; exact K.
  - intros x. destruct (H x) as (H1 & H2). split; [exact H1|]. apply IH; auto.
  - intros x. apply IH; auto.
Qed.
Lemma allowed_weaken : forall A (Q1 Q : list event -> outcome A -> Prop) p h,
  allowed Q1 p h -> (forall h o, Q1 h o -> Q h o) -> allowed Q p h.
Proof.
  intros A Q1 Q. induction p as [r|R o c IH|R o c IH]; intros h H K; cbn [allowed] in *; auto.
  intros x. destruct (H x). auto.
Qed.
Lemma allowed_runs : forall E (step : forall R : Type, sys R -> E -> R -> E -> Prop) A (Q : list event -> outcome A -> Prop) (p : prog A) h e m tr e' m' r,
  allowed Q p h -> runs step p e m tr e' m' r ->
  Q (h ++ tr) r /\ forall tr1 x tr2, tr = tr1 ++ x :: tr2 -> ok (h ++ tr1) x.
Proof.
  intros E step A Q. induction p as [a|R o c IH|R o c IH]; intros h e m tr e' m' r H K; cbn [allowed runs] in *.
  - destruct K as (-> & -> & -> & ->). rewrite app_nil_r. split; [exact H|]. intros [|y tr1] x tr2 X; discriminate X.
  - destruct K as (x & e1 & tr0 & _ & -> & K). destruct (H x) as (H1 & H2). destruct (IH _ _ _ _ _ _ _ _ H2 K) as (H3 & H4).
    rewrite <- app_assoc in H3. split; [exact H3|]. intros [|y tr1] z tr2 X.
    + injection X as <- _. rewrite app_nil_r. exact H1.
    + injection X as <- X. specialize (H4 _ _ _ X). rewrite <- app_assoc in H4. exact H4.
  - destruct (mem_step o m) as [x m1]. eapply IH; [apply H|exact K].
Qed.
End Allowed.

(** ** The events of New and Update *)

Definition event_ok (may_read : list event -> bytes -> Prop) (h : list event) (e : event) : Prop :=
  modest_event may_read h e /\ exists k, asked (h ++ [e]) = firstn k the_sources.

Lemma flat_map_snoc : forall A B (f : A -> list B) l x, flat_map f (l ++ [x]) = flat_map f l ++ f x.
Proof. intros. rewrite flat_map_app. cbn [flat_map]. rewrite app_nil_r. reflexivity. Qed.
Lemma asked_snoc : forall h e, asked (h ++ [e]) = asked h ++ asked_of e.
Proof. intros. apply flat_map_snoc. Qed.
Lemma firstn_prefix : forall A (l a b : list A), l = a ++ b -> a = firstn (length a) l.
Proof. intros A l a b ->. rewrite firstn_app, firstn_all, Nat.sub_diag. cbn [firstn]. rewrite app_nil_r. reflexivity. Qed.

Ltac plain_event :=
  split; [constructor; cbn [open_of handle_of write_of read_path_of In]; intros; try contradiction; try discriminate|].

Section Foot.
Variable to_ascii : bytes -> option bytes.
Variable hardcoded : bytes.
Variable may_read : list event -> bytes -> Prop.
Local Notation ok := (event_ok may_read).

(** An event that asks nothing, opens nothing, writes nothing and reads nothing. *)
Lemma quiet_event : forall h e, (exists k, asked h = firstn k the_sources) -> asked_of e = [] -> open_of e = [] ->
  handle_of e = None -> write_of e = None -> (forall path, read_path_of e = Some path -> may_read h path) -> ok h e.
Proof.
  intros h e (k & A) B C D E F. split.
  - constructor.
    + intros path fd X. rewrite C in X. destruct X.
    + intros fd X. rewrite D in X. discriminate X.
    + intros data b X. rewrite E in X. discriminate X.
    + exact F.
  - exists k. rewrite asked_snoc, B, app_nil_r. exact A.
Qed.

(** What has happened so far: nothing asked for, nothing opened. *)
Definition fresh (h : list event) : Prop := asked h = [] /\ flat_map open_of h = [].
Lemma fresh_asked : forall h, fresh h -> exists k, asked h = firstn k the_sources.
Proof. intros h (A & _). exists 0. exact A. Qed.
Lemma fresh_snoc : forall h e, fresh h -> asked_of e = [] -> open_of e = [] -> fresh (h ++ [e]).
Proof. intros h e (A & B) C D. split; [rewrite asked_snoc, A, C|rewrite flat_map_snoc, B, D]; reflexivity. Qed.

Definition asked_ok (h : list event) : Prop := exists k, asked h = firstn k the_sources.
Lemma asked_ok_snoc : forall h e, asked_ok h -> asked_of e = [] -> asked_ok (h ++ [e]).
Proof. intros h e (k & A) B. exists k. rewrite asked_snoc, B, app_nil_r. exact A. Qed.
Lemma downloaded_app : forall h h' body, downloaded h body -> downloaded (h ++ h') body.
Proof. intros h h' body (e & I & D). exists e. split; [apply in_or_app; auto|exact D]. Qed.

Lemma insert_allowed : forall a l h, allowed ok (fun h' _ => h' = h) (insert_suffixes a l) h.
Proof.
  intros a. induction l as [|s l IH]; intros h; cbn [insert_suffixes]; [reflexivity|].
  eapply (allowed_bind _ _ _ (fun h' _ => h' = h)); [reflexivity|]. intros h' [sp| |] ->; [|reflexivity..].
  cbn [pbind mem_do ret allowed]. auto.
Qed.
Lemma update_file_allowed : forall fd path sources before h, In (path, Some fd) (flat_map open_of h) ->
  asked h = before -> the_sources = before ++ sources ->
  allowed ok (fun h' _ => asked_ok h' /\ exists h1, h' = h ++ h1) (update_file fd sources) h.
Proof.
  intros fd path. induction sources as [|s rest IH]; intros before h O A S; cbn [update_file].
  - cbn [ret allowed]. split; [|exists []; rewrite app_nil_r; reflexivity]. exists (length before).
    rewrite A. eapply firstn_prefix. exact S.
  - unfold download_file. cbn [pbind sys_do ret allowed]. intros resp.
    assert (A1 : asked (h ++ [Event (HttpGet s) resp]) = before ++ [s]) by (rewrite asked_snoc, A; reflexivity).
    assert (S1 : the_sources = (before ++ [s]) ++ rest) by (rewrite <- app_assoc; exact S).
    assert (O1 : forall h1, In (path, Some fd) (flat_map open_of (h ++ h1))) by (intros h1; rewrite flat_map_app; apply in_or_app; auto).
    assert (K1 : asked_ok (h ++ [Event (HttpGet s) resp])) by (exists (length (before ++ [s])); rewrite A1; eapply firstn_prefix; exact S1).
    assert (Next : forall h1, asked (h ++ h1) = before ++ [s] ->
      allowed ok (fun h' _ => asked_ok h' /\ exists h1, h' = h ++ h1) (update_file fd rest) (h ++ h1)).
    { intros h1 E. eapply allowed_weaken; [eapply IH; [apply O1|exact E|exact S1]|]. cbv beta. intros h' o (X & h2 & ->).
      split; [exact X|]. exists (h1 ++ h2). rewrite app_assoc. reflexivity. }
    split.
    { plain_event. exact K1. }
    destruct resp as [|status body complete]; [apply Next; exact A1|].
    destruct (status =? 200)%Z eqn:Es; [|apply Next; exact A1]. cbn [pbind ret]. destruct complete; [|apply Next; exact A1].
    destruct (valid_psl_delimiters body) eqn:V; cbn [negb]; [|apply Next; exact A1]. apply (proj1 (delimiters_iff body)) in V.
    apply Z.eqb_eq in Es. subst status. cbn [pbind sys_do ret allowed]. intros sought.
    set (h1 := [Event (HttpGet s) (Response 200 body true)]) in *.
    assert (A2 : asked ((h ++ h1) ++ [Event (SeekStart fd) sought]) = before ++ [s]) by (rewrite asked_snoc, A1, app_nil_r; reflexivity).
    split.
    { plain_event; [|apply asked_ok_snoc; [exact K1|reflexivity]]. injection H as <-. exists path. apply O1. }
    destruct sought; cbn [negb]; [|rewrite <- app_assoc in *; apply Next; exact A2]. cbn [pbind sys_do ret allowed]. intros done.
    assert (A3 : asked (((h ++ h1) ++ [Event (SeekStart fd) true]) ++ [Event (Write fd body) done]) = before ++ [s])
      by (rewrite asked_snoc, A2, app_nil_r; reflexivity).
    assert (K2 : asked_ok (((h ++ h1) ++ [Event (SeekStart fd) true]) ++ [Event (Write fd body) done])).
    { apply asked_ok_snoc; [apply asked_ok_snoc; [exact K1|reflexivity]|reflexivity]. }
    split.
    { plain_event; [..|exact K2].
      - injection H as <-. exists path. rewrite <- app_assoc. apply O1.
      - injection H as <- <-. split; [exact V|]. apply downloaded_app. exists (Event (HttpGet s) (Response 200 body true)).
        split; [apply in_or_app; right; left; reflexivity|reflexivity]. }
    destruct done; cbn [negb].
    + cbn [allowed]. split; [exact K2|]. rewrite <- !app_assoc. eexists. reflexivity.
    + rewrite <- !app_assoc in *. apply Next. exact A3.
Qed.

Lemma update_allowed : forall f h, fresh h -> (forall h1 path, cache_path (h ++ h1) path -> may_read (h ++ h1) path) ->
  allowed ok (fun h' _ => asked_ok h') (update to_ascii hardcoded f) h.
Proof.
  intros f h F R. unfold update. cbn [pbind sys_do mem_do ret allowed]. intros temp.
  pose proof (fresh_snoc h (Event TempDir temp) F eq_refl eq_refl) as F1. set (h1 := h ++ [Event TempDir temp]) in *.
  assert (C : cache_path h1 (temp ++ default_psl_file_name)).
  { exists temp. split; [|reflexivity]. unfold h1. rewrite flat_map_snoc. apply in_or_app. right. left. reflexivity. }
  split; [apply quiet_event; try reflexivity; [apply fresh_asked; exact F|discriminate]|]. intros x.
  destruct (negb _); [apply fresh_asked; exact F1|]. cbn [pbind sys_do ret allowed]. intros file.
  pose proof (fresh_asked _ F1) as K1.
  split.
  { plain_event; [|apply asked_ok_snoc; [exact K1|reflexivity]]. destruct H as [H|[]]. injection H as <- <-. split; [exact C|apply F1]. }
  destruct file as [fd|]; [|apply asked_ok_snoc; [exact K1|reflexivity]].
  eapply allowed_bind; [apply (update_file_allowed fd (temp ++ default_psl_file_name) public_suffix_list_sources [])|].
  - rewrite flat_map_snoc. apply in_or_app. right. left. reflexivity.
  - rewrite asked_snoc. destruct F1 as (-> & _). reflexivity.
  - reflexivity.
  - cbv beta. intros h' o (K2 & h2 & ->). destruct o as [[e|]| |]; try exact K2. cbn [pbind mem_do ret allowed]. intros x2.
    set (h3 := (h1 ++ [Event (OpenWrite (temp ++ default_psl_file_name)) (Some fd)]) ++ h2) in *.
    eapply (allowed_bind _ _ _ (fun h' _ => asked_ok h')).
    + unfold trie_construct. cbn [pbind mem_do ret allowed]. intros a.
      eapply (allowed_bind _ _ _ (fun h' _ => asked_ok h')).
      * destruct (bytes_eqb _ []) eqn:E; cbn [negb]; [exact K2|].
        cbn [get_public_suffix_list pbind sys_do ret allowed]. intros y. split.
        -- apply quiet_event; try reflexivity; [exact K2|]. intros p X. injection X as <-.
           unfold h3, h1. rewrite <- !app_assoc. apply R. destruct C as (t & Ct & ->). exists t. split; [|reflexivity].
           unfold h1 in Ct. rewrite flat_map_app in Ct |- *. apply in_app_or in Ct. apply in_or_app. destruct Ct as [X|X]; [auto|].
           right. rewrite flat_map_app. apply in_or_app. left. exact X.
        -- destruct y; apply asked_ok_snoc; auto.
      * cbv beta. intros h4 [[l [e|]]| |] K4; try exact K4.
        eapply allowed_bind; [apply insert_allowed|]. intros h5 [u| |] ->; [|exact K4..].
        cbn [pbind mem_do ret allowed]. intros _. exact K4.
    + cbv beta. intros h4 [[a [e|]]| |] K4; try exact K4. cbn [pbind mem_do ret allowed]. auto.
Qed.
End Foot.

(** ** Results *)

Lemma modest_from : forall may_read tr, asked_ok tr ->
  (forall tr1 e tr2, tr = tr1 ++ e :: tr2 -> event_ok may_read tr1 e) -> modest may_read tr.
Proof. intros may_read tr A H. split; [exact A|]. intros tr1 e tr2 E. apply (H _ _ _ E). Qed.

Lemma c79_update : forall to_ascii hardcoded E (step : forall R : Type, sys R -> E -> R -> E -> Prop) f e m tr e' m' r,
  runs step (update to_ascii hardcoded f) e m tr e' m' r -> modest cache_path tr.
Proof.
  intros to_ascii hardcoded E step f e m tr e' m' r H.
  destruct (allowed_runs (event_ok cache_path) E step _ _ _ [] _ _ _ _ _ _
    (update_allowed to_ascii hardcoded cache_path f [] (conj eq_refl eq_refl) (fun _ _ X => X)) H) as (A & B).
  apply modest_from; [exact A|exact B].
Qed.

Section New.
Variable to_ascii : bytes -> option bytes.
Variable hardcoded : bytes.
Variable n : list_params.
Local Notation reads := (new_reads (lp_path n)).
Local Notation ok := (event_ok reads).

Lemma check_allowed : forall path h, fresh h ->
  allowed ok (fun h' _ => fresh h' /\ exists h1, h' = h ++ h1) (check_cache_file path) h.
Proof.
  intros path h F. unfold check_cache_file. cbn [pbind sys_do ret allowed]. intros abs.
  split; [apply quiet_event; try reflexivity; [apply fresh_asked; exact F|discriminate]|].
  pose proof (fresh_snoc h (Event (Abs (trim_space path)) abs) F eq_refl eq_refl) as F1.
  set (h1 := h ++ [Event (Abs (trim_space path)) abs]) in *. intros st.
  set (p := match abs with Some p => p | None => [] end) in *.
  assert (Rd : forall h2, reads (h1 ++ h2) p).
  { intros h2. unfold p. destruct abs as [q|]; [right; left|right; right; left; reflexivity].
    rewrite flat_map_app. apply in_or_app. left. unfold h1. rewrite flat_map_snoc. apply in_or_app. right. left. reflexivity. }
  split; [apply quiet_event; try reflexivity; [apply fresh_asked; exact F1|discriminate]|].
  pose proof (fresh_snoc h1 (Event (Stat p) st) F1 eq_refl eq_refl) as F2.
  destruct st as [[dir mt]|]; cbn [pbind sys_do ret allowed].
  - intros now. split; [apply quiet_event; try reflexivity; [apply fresh_asked; exact F2|discriminate]|].
    pose proof (fresh_snoc _ (Event Now now) F2 eq_refl eq_refl) as F3. intros c. split.
    + apply quiet_event; try reflexivity; [apply fresh_asked; exact F3|]. intros q X. injection X as <-. rewrite <- app_assoc. apply Rd.
    + split; [apply fresh_snoc; [exact F3|reflexivity|reflexivity]|]. unfold h1. rewrite <- !app_assoc. eexists. reflexivity.
  - intros c. split.
    + apply quiet_event; try reflexivity; [apply fresh_asked; exact F2|]. intros q X. injection X as <-. apply Rd.
    + split; [apply fresh_snoc; [exact F2|reflexivity|reflexivity]|]. unfold h1. rewrite <- !app_assoc. eexists. reflexivity.
Qed.
Lemma construct_asked : forall private path h, asked_ok h -> (path <> [] -> reads h path) ->
  allowed ok (fun h' _ => asked_ok h') (trie_construct to_ascii hardcoded private path) h.
Proof.
  intros private path h A R. unfold trie_construct. cbn [pbind mem_do ret allowed]. intros a.
  eapply (allowed_bind _ _ _ (fun h' o => asked_ok h')).
  - destruct (bytes_eqb path []) eqn:E; cbn [negb]; [exact A|].
    cbn [get_public_suffix_list pbind sys_do ret allowed]. intros x. split.
    + apply quiet_event; try reflexivity; [exact A|]. intros p X. injection X as <-. apply R. intros ->. discriminate E.
    + destruct x; apply asked_ok_snoc; auto.
  - cbv beta. intros h' [[l [e|]]| |] K; try exact K.
    eapply allowed_bind; [apply insert_allowed|]. intros h2 [u| |] ->; [|exact K..].
    cbn [pbind mem_do ret allowed]. intros _. exact K.
Qed.
Lemma hardcoded_asked : forall h, asked_ok h -> allowed ok (fun h' _ => asked_ok h') (new_hardcoded_psl to_ascii hardcoded n) h.
Proof.
  intros h A. unfold new_hardcoded_psl. eapply allowed_bind; [apply construct_asked; [exact A|contradiction]|].
  cbv beta. intros h' [[a e]| |] K; [|exact K..]. cbn [pbind mem_do ret allowed]. auto.
Qed.
Lemma cache_asked : forall f path h, asked_ok h -> (path <> [] -> reads h path) ->
  allowed ok (fun h' _ => asked_ok h') (new_from_cache to_ascii hardcoded n f path) h.
Proof.
  intros f path h A R. unfold new_from_cache. eapply allowed_bind; [apply construct_asked; [exact A|exact R]|].
  cbv beta. intros h' [[a [e|]]| |] K; try exact K; [apply hardcoded_asked; exact K|]. cbn [pbind mem_do ret allowed]. auto.
Qed.
Lemma new_allowed : allowed ok (fun h' _ => asked_ok h') (new to_ascii hardcoded n) [].
Proof.
  unfold new. cbn [pbind mem_do ret allowed]. intros a f.
  eapply allowed_bind; [apply check_allowed; split; reflexivity|]. cbv beta. intros h [[v age]| |] (F & h1 & ->);
    try (apply fresh_asked; exact F). cbn [app] in *.
  destruct (negb v).
  2:{ apply cache_asked; [apply fresh_asked; exact F|]. intros _. left. reflexivity. }
  cbn [pbind sys_do ret allowed]. intros temp.
  split; [apply quiet_event; try reflexivity; [apply fresh_asked; exact F|discriminate]|].
  pose proof (fresh_snoc _ (Event TempDir temp) F eq_refl eq_refl) as F1.
  intros opened. split; [apply quiet_event; try reflexivity; [apply fresh_asked; exact F1|discriminate]|].
  pose proof (fresh_snoc _ (Event (OpenDir temp) opened) F1 eq_refl eq_refl) as F2.
  set (h2 := (h1 ++ [Event TempDir temp]) ++ [Event (OpenDir temp) opened]) in *.
  assert (C : forall h3, cache_path (h2 ++ h3) (temp ++ default_psl_file_name)).
  { intros h3. exists temp. split; [|reflexivity]. unfold h2. rewrite !flat_map_app. cbn. rewrite <- !app_assoc. apply in_or_app. right. left. reflexivity. }
  destruct (negb opened); [apply hardcoded_asked; apply fresh_asked; exact F2|].
  cbn [pbind mem_do ret allowed]. intros _.
  eapply allowed_bind; [apply check_allowed; exact F2|]. cbv beta. intros h [[v2 age2]| |] (F3 & h4 & ->);
    try (apply fresh_asked; exact F3).
  destruct (_ || _).
  - eapply allowed_bind; [apply update_allowed; [exact F3|]|].
    + intros h5 path X. right. right. right. exact X.
    + cbv beta. intros h [[e|]| |] K; try exact K. apply hardcoded_asked. exact K.
  - apply cache_asked; [apply fresh_asked; exact F3|]. intros _. right. right. right. apply C.
Qed.
End New.

Lemma c79_new : forall to_ascii hardcoded E (step : forall R : Type, sys R -> E -> R -> E -> Prop) n e m tr e' m' r,
  runs step (new to_ascii hardcoded n) e m tr e' m' r -> modest (new_reads (lp_path n)) tr.
Proof.
  intros to_ascii hardcoded E step n e m tr e' m' r H.
  destruct (allowed_runs (event_ok (new_reads (lp_path n))) E step _ _ _ [] _ _ _ _ _ _ (new_allowed to_ascii hardcoded n) H) as (A & B).
  apply modest_from; [exact A|exact B].
Qed.
