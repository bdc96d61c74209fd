(** LinProofs.v - calls running at the same time are calls of the machine of LinSpec.v. *)

From Verif Require Import Base BaseFacts Chars Str Net Trie Extract RuleSpec TrieFacts Psl ListSpec ListFacts World Update UpdateSpec
  WorldFacts UrlProofs OutcomeFacts Calls CallFacts CallProofs NewSpec ErrSpec CompleteProofs LibSpec LibProofs LinSpec.
From Coq Require Import ZifyBool ZifyNat ZifyN.
Local Open Scope Z_scope.

(** ** What New and Update do with what they own and what they have been answered *)

Section Lin.
Variable to_ascii : bytes -> option bytes.
Variable hardcoded : bytes.
Local Notation new := (new to_ascii hardcoded).
Local Notation update := (update to_ascii hardcoded).
Local Notation trie_construct := (trie_construct to_ascii hardcoded).
Local Notation new_hardcoded_psl := (new_hardcoded_psl to_ascii hardcoded).
Local Notation new_from_cache := (new_from_cache to_ascii hardcoded).

(** The trie of a list text. *)
Definition built (private : bool) (text : bytes) (t : trie) : Prop :=
  exists rules, used_rules to_ascii text private rules /\ build_trie rules = Ret t.

(** [lin sh P Q p tr ot ox]: like [safe], with the answers [tr] so far.  The extractors in [sh]
    have these paths and flags.  The only operation that changes one of them is one after which
    [P] holds. *)
Fixpoint lin {A : Type} (sh : nat -> option (bytes * bool))
         (P : list event -> nat -> nat -> own_tries -> prog A -> Prop)
         (Q : list event -> own_tries -> own_extractors -> outcome A -> Prop)
         (p : prog A) (tr : list event) (ot : own_tries) (ox : own_extractors) : Prop :=
  match p with
  | Done r => Q tr ot ox r
  | Sys o k => forall x, lin sh P Q (k x) (tr ++ [Event o x]) ot ox
  | @Mem _ R o k =>
    match o in mem_op R return (R -> prog A) -> (R -> own_tries -> own_extractors -> Prop) -> Prop with
    | NewTrie => fun _ K => forall a, ot a = None -> K a (upd ot a (Some empty_trie)) ox
    | Insert a keys => fun _ K => exists t, ot a = Some t /\ K tt (upd ot a (Some (nested_dict t keys))) ox
    | MarkWildcards a => fun _ K => exists t, ot a = Some t /\ K tt (upd ot a (Some (mark_wildcard_tlds t))) ox
    | NewExtractor x => fun _ K => forall f, ox f = None -> K f ot (upd ox f (Some x))
    | ReadExtractor f => fun _ K =>
        (exists x, ox f = Some x /\ K x ot ox)
        \/ (ox f = None /\ exists path b, sh f = Some (path, b) /\ forall x, x_path x = path -> x_private x = b -> K x ot ox)
    | StorePath f path => fun _ K =>
        exists x, ox f = Some x /\ K tt ot (upd ox f (Some (mkExtractor path (x_trie x) (x_private x))))
    | StoreTrie f a => fun k K =>
        (exists x, ox f = Some x /\ K tt ot (upd ox f (Some (mkExtractor (x_path x) a (x_private x)))))
        \/ (ox f = None /\ P tr f a ot (k tt))
    | ReadNode a path => fun _ _ => False
    end k (fun x ot ox => lin sh P Q (k x) tr ot ox)
  end.

Definition no_store {A : Type} (tr : list event) (f a : nat) (ot : own_tries) (p : prog A) : Prop := False.

Lemma lin_bind_store : forall A B sh (P1 : list event -> nat -> nat -> own_tries -> prog A -> Prop)
    (P : list event -> nat -> nat -> own_tries -> prog B -> Prop)
    (Q1 : list event -> own_tries -> own_extractors -> outcome A -> Prop)
    (Q : list event -> own_tries -> own_extractors -> outcome B -> Prop) (p : prog A) (k : A -> prog B) tr ot ox,
  lin sh P1 Q1 p tr ot ox ->
  (forall tr f a ot p, P1 tr f a ot p -> P tr f a ot (pbind p k)) ->
  (forall tr ot ox o, Q1 tr ot ox o -> match o with
                                 | Ret a => lin sh P Q (k a) tr ot ox
                                 | Panic => Q tr ot ox Panic
                                 | OutOfFuel => Q tr ot ox OutOfFuel
                                 end) ->
  lin sh P Q (pbind p k) tr ot ox.
Proof.
  intros A B sh P1 P Q1 Q. induction p as [r|R o c IH|R o c IH]; intros k tr ot ox H HP K.
  - cbn [lin] in H. specialize (K _ _ _ _ H). destruct r; cbn [pbind lin]; exact K.
  - cbn [pbind lin] in *. intros x. apply IH; auto.
  - cbn [pbind]. destruct o; cbn [lin] in *; auto.
    + destruct H as (t & E & H). exists t. auto.
    + destruct H as (t & E & H). exists t. auto.
    + destruct H as [(x & E & H)|(E & path & b & S & H)]; [left; exists x; auto|right; split; [exact E|]; exists path, b; auto].
    + destruct H as (x & E & H). exists x. auto.
    + destruct H as [(x & E & H)|(E & H)]; [left; exists x; auto|right; auto].
Qed.
Lemma lin_bind : forall A B sh (P : list event -> nat -> nat -> own_tries -> prog B -> Prop)
    (Q1 : list event -> own_tries -> own_extractors -> outcome A -> Prop)
    (Q : list event -> own_tries -> own_extractors -> outcome B -> Prop) (p : prog A) (k : A -> prog B) tr ot ox,
  lin sh no_store Q1 p tr ot ox ->
  (forall tr ot ox o, Q1 tr ot ox o -> match o with
                                 | Ret a => lin sh P Q (k a) tr ot ox
                                 | Panic => Q tr ot ox Panic
                                 | OutOfFuel => Q tr ot ox OutOfFuel
                                 end) ->
  lin sh P Q (pbind p k) tr ot ox.
Proof. intros A B sh P Q1 Q p k tr ot ox H K. eapply lin_bind_store; [exact H|intros ? ? ? ? ? []|exact K]. Qed.
Lemma lin_weaken : forall A sh (Q1 Q : list event -> own_tries -> own_extractors -> outcome A -> Prop) (p : prog A) tr ot ox,
  lin sh no_store Q1 p tr ot ox -> (forall tr ot ox o, Q1 tr ot ox o -> Q tr ot ox o) -> lin sh no_store Q p tr ot ox.
Proof.
  intros A sh Q1 Q. induction p as [r|R o c IH|R o c IH]; intros tr ot ox H K.
  - cbn [lin] in *. auto.
  - cbn [lin] in *. auto.
  - destruct o; cbn [lin] in *; auto.
    + destruct H as (t & E & H). exists t. auto.
    + destruct H as (t & E & H). exists t. auto.
    + destruct H as [(x & E & H)|(E & path & b & S & H)]; [left; exists x; auto|right; split; [exact E|]; exists path, b; auto].
    + destruct H as (x & E & H). exists x. auto.
    + destruct H as [(x & E & H)|(E & [])]. left. exists x. auto.
Qed.

Lemma insert_lin : forall sh l a tr ot ox t, ot a = Some t ->
  lin sh no_store (fun tr' ot' ox' r => r = Ret tt /\ tr' = tr /\ ox' = ox
             /\ exists t', ot' a = Some t' /\ insert_all t l = Ret t') (insert_suffixes a l) tr ot ox.
Proof.
  intros sh. induction l as [|s l IH]; intros a tr ot ox t E; cbn [insert_suffixes].
  - cbn [ret lin insert_all]. split; [reflexivity|]. split; [reflexivity|]. split; [reflexivity|]. exists t. auto.
  - rewrite reverse_spec. cbn [pbind mem_do ret lin]. exists t. split; [exact E|].
    eapply lin_weaken; [apply IH; apply upd_same|]. cbv beta. intros tr' ot' ox' o (-> & -> & -> & t' & Et & I).
    split; [reflexivity|]. split; [reflexivity|]. split; [reflexivity|].
    exists t'. split; [exact Et|]. cbn [insert_all]. rewrite reverse_spec. cbn [bind]. exact I.
Qed.

(** trieConstruct reads the file, if it is given one, and builds the trie of what it has read. *)
Lemma construct_lin : forall sh private path tr ot ox,
  lin sh no_store (fun tr' ot' ox' r => exists a e, r = Ret (a, e) /\ ox' = ox /\
       ((path = [] /\ e = None /\ tr' = tr /\ exists t, ot' a = Some t /\ built private hardcoded t)
        \/ (path <> [] /\ e = Some ErrReadList /\ tr' = tr ++ [Event (ReadFile path) None])
        \/ (path <> [] /\ e = None /\ exists text t, tr' = tr ++ [Event (ReadFile path) (Some text)] /\ ot' a = Some t /\ built private text t)))
      (trie_construct private path) tr ot ox.
Proof.
  intros sh private path tr ot ox. unfold Update.trie_construct. cbn [pbind mem_do ret lin]. intros a Ea.
  set (ot1 := upd ot a (Some empty_trie)). set (Q := fun _ _ _ _ => _).
  assert (F : forall tr1 text, (forall ot' t, ot' a = Some t -> built private text t -> Q tr1 ot' ox (Ret (a, None))) ->
    lin sh no_store Q
    (_ <~ insert_suffixes a (if private : bool then s_all (parse_list to_ascii text) else s_public (parse_list to_ascii text)) ;;
     _ <~ mem_do (MarkWildcards a) ;; ret (a, @None io_err)) tr1 ot1 ox).
  { intros tr1 text HQ. eapply lin_bind; [apply insert_lin; apply upd_same|].
    cbv beta. intros tr2 ot2 ox2 o (-> & -> & -> & t' & Et & I). cbn [pbind mem_do ret lin]. exists t'. split; [exact Et|].
    apply (HQ _ (mark_wildcard_tlds t')); [apply upd_same|]. eexists. split; [apply used_rules_iff; reflexivity|].
    unfold build_trie. rewrite I. reflexivity. }
  destruct (bytes_eqb path []) eqn:Ep; cbn [negb].
  - apply bytes_eqb_eq in Ep. cbn [get_hardcoded_public_suffix_list pbind ret]. apply F. intros ot' t Et B.
    exists a, None. split; [reflexivity|]. split; [reflexivity|]. left. eauto 8.
  - assert (Np : path <> []) by (intros ->; discriminate Ep).
    cbn [get_public_suffix_list pbind sys_do ret lin]. intros [text|]; cbn [pbind ret].
    + apply F. intros ot' t Et B. exists a, None. split; [reflexivity|]. split; [reflexivity|]. right. right. eauto 8.
    + cbn [lin]. exists a, (Some ErrReadList). split; [reflexivity|]. split; [reflexivity|]. right. left. auto.
Qed.

Lemma attempts_lin : forall sh file sources tr ot ox,
  lin sh no_store (fun tr' ot' ox' r => ot' = ot /\ ox' = ox /\ exists trs, tr' = tr ++ trs /\
       ((r = Ret None /\ attempts file sources trs true) \/ (r = Ret (Some ErrNoSource) /\ attempts file sources trs false)))
      (update_file file sources) tr ot ox.
Proof.
  intros sh file. induction sources as [|s rest IH]; intros tr ot ox; cbn [update_file].
  - cbn [ret lin]. split; [reflexivity|]. split; [reflexivity|]. exists []. rewrite app_nil_r. split; [reflexivity|]. right.
    split; [reflexivity|constructor].
  - set (Q := fun _ _ _ _ => _).
    assert (Next : forall t, attempt file s t false -> lin sh no_store Q (update_file file rest) (tr ++ t) ot ox).
    { intros t At. eapply lin_weaken; [apply IH|]. cbv beta. intros tr' ot' ox' o (-> & -> & trs & -> & D).
      split; [reflexivity|]. split; [reflexivity|]. exists (t ++ trs). rewrite app_assoc. split; [reflexivity|].
      destruct D as [(-> & D)|(-> & D)]; [left|right]; (split; [reflexivity|]); apply attempts_next; assumption. }
    unfold download_file. cbn [pbind sys_do ret lin]. intros [|status body complete].
    { apply Next. constructor. discriminate. }
    destruct (status =? 200)%Z eqn:St.
    2:{ apply Next. constructor. intros b X. injection X as -> _ _. discriminate. }
    apply Z.eqb_eq in St. subst status. destruct complete.
    2:{ apply Next. constructor. intros b X. discriminate. }
    cbn [pbind ret]. destruct (valid_psl_delimiters body) eqn:D; cbn [negb].
    2:{ apply Next. apply no_list. rewrite <- delimiters_iff. congruence. }
    apply delimiters_iff in D. cbn [pbind sys_do ret lin]. intros [|]; cbn [negb].
    2:{ rewrite <- app_assoc. apply Next. apply no_seek. exact D. }
    cbn [pbind sys_do ret lin]. intros [|]; cbn [negb].
    2:{ rewrite <- !app_assoc. apply Next. apply no_write. exact D. }
    cbn [ret lin]. split; [reflexivity|]. split; [reflexivity|]. rewrite <- !app_assoc. eexists. split; [reflexivity|]. left.
    split; [reflexivity|]. apply attempts_done. apply installed. exact D.
Qed.

Lemma looks_lin : forall sh path tr ot ox,
  lin sh no_store (fun tr' ot' ox' r => ot' = ot /\ ox' = ox /\ exists trs valid age, tr' = tr ++ trs /\ r = Ret (valid, age) /\
       looks path trs (if valid : bool then Some age else None)) (check_cache_file path) tr ot ox.
Proof.
  intros sh path tr ot ox. unfold check_cache_file. cbn [pbind sys_do ret lin].
  pose proof (trim_space_spec path) as T. intros abs st. set (q := match abs with Some p => p | None => [] end).
  destruct st as [[dir mt]|]; cbn [pbind sys_do ret lin].
  - intros now c. split; [reflexivity|]. split; [reflexivity|]. rewrite <- !app_assoc. do 3 eexists. split; [reflexivity|].
    split; [reflexivity|]. cbn [app].
    assert (No : abs = None \/ dir = true \/ (forall text, c = Some text -> ~ has_markers text) ->
      looks path [Event (Abs (trim_space path)) abs; Event (Stat q) (Some (dir, mt)); Event Now now; Event (ReadFile q) c] None).
    { intros H. eapply looks_other; eauto. }
    destruct abs as [p|]; [|apply No; auto]. destruct dir; [apply No; auto|]. destruct c as [text|]; [|apply No; right; right; discriminate].
    cbn [negb andb]. destruct (valid_psl_delimiters text) eqn:D.
    + apply looks_list; [exact T|]. apply delimiters_iff. exact D.
    + apply No. right. right. intros t X. injection X as <-. rewrite <- delimiters_iff. congruence.
  - intros c. split; [reflexivity|]. split; [reflexivity|]. rewrite <- !app_assoc. do 3 eexists. split; [reflexivity|].
    split; [reflexivity|]. cbn [app]. assert (X : match abs with Some _ => false | None => false end = false) by (destruct abs; reflexivity).
    rewrite X. apply (looks_absent path (trim_space path) abs q c); [exact T|reflexivity].
Qed.

(** Update of an extractor that others know. *)
Definition stores (f : nat) (path : bytes) (b : bool) (tr : list event) (g a : nat) (ot : own_tries) (p : prog answer) : Prop :=
  g = f /\ exists text t, update_asks path tr (inr text) /\ ot a = Some t /\ built b text t
    /\ p = Mem (StorePath f path) (fun _ => Done (Ret (FromUpdate None))).
Definition fails (path : bytes) (tr : list event) (ot : own_tries) (ox : own_extractors) (r : outcome answer) : Prop :=
  exists e, r = Ret (FromUpdate (Some e)) /\ update_asks path tr (inl e).

Lemma update_lin_shared : forall (sh : nat -> option (bytes * bool)) f path b ot ox, sh f = Some (path, b) -> ox f = None ->
  lin sh (stores f path b) (fails path) (r <~ update f ;; ret (FromUpdate r)) [] ot ox.
Proof.
  intros sh f path b ot ox Sh E.
  apply (lin_bind_store _ _ sh
    (fun tr g a ot p => g = f /\ exists text t, update_asks path tr (inr text) /\ ot a = Some t /\ built b text t
       /\ p = Mem (StorePath f path) (fun _ => Done (Ret None))) _
    (fun tr ot ox r => exists e, r = Ret (Some e) /\ update_asks path tr (inl e))).
  2:{ intros tr g a ot' p (-> & text & t & A & B & C & ->). split; [reflexivity|]. exists text, t. auto. }
  2:{ intros tr ot' ox' o (e & -> & A). cbn [ret lin]. exists e. auto. }
  unfold Update.update. cbn [pbind sys_do mem_do ret lin app]. intros temp. right.
  split; [exact E|]. exists path, b. split; [exact Sh|]. intros x Px Bx. rewrite Px.
  destruct (bytes_eqb path (temp ++ default_psl_file_name)) eqn:Ep; cbn [negb].
  2:{ cbn [lin]. exists ErrNoOp. split; [reflexivity|]. apply asks_other. intros X.
      change (str "public_suffix_list.dat") with default_psl_file_name in X. rewrite <- X in Ep.
      assert (Y : bytes_eqb (temp ++ default_psl_file_name) (temp ++ default_psl_file_name) = true) by (apply bytes_eqb_eq; reflexivity).
      congruence. }
  apply bytes_eqb_eq in Ep. rewrite <- Ep. assert (Ep' : temp ++ str "public_suffix_list.dat" = path) by (symmetry; exact Ep).
  cbn [pbind sys_do ret lin app]. intros [fd|].
  2:{ cbn [lin]. exists ErrOpenCache. split; [reflexivity|]. apply asks_closed. exact Ep'. }
  eapply lin_bind; [apply attempts_lin|]. cbv beta. intros tr' ot' ox' o (-> & -> & trs & -> & [(-> & At)|(-> & At)]).
  2:{ cbn [ret lin]. exists ErrNoSource. split; [reflexivity|]. cbn [app]. eapply asks_no_source; eauto. }
  cbn [pbind mem_do ret lin]. right. split; [exact E|]. exists path, b. split; [exact Sh|]. intros x2 Px2 Bx2. rewrite Bx2.
  eapply lin_bind; [apply construct_lin|]. cbv beta.
  intros tr2 ot2 ox2 o (a & e & -> & -> & [(Np & _)|[(_ & -> & ->)|(_ & -> & text & t & -> & Et & B)]]).
  - exfalso. rewrite Np in Ep'. apply app_eq_nil in Ep'. destruct Ep' as (_ & Z). discriminate Z.
  - cbn [ret lin]. exists ErrReadList. split; [reflexivity|]. cbn [app]. eapply asks_unreadable; eauto.
  - cbn [pbind mem_do ret lin]. right. split; [exact E|]. split; [reflexivity|]. exists text, t. cbn [app].
    split; [eapply asks_text; eauto|]. auto.
Qed.

(** Update of an extractor that only this program knows. *)
Lemma update_lin_own : forall sh f tr ot ox x, ox f = Some x ->
  lin sh no_store (fun tr' ot' ox' r => exists trs, tr' = tr ++ trs /\
      ((exists e, r = Ret (Some e) /\ update_asks (x_path x) trs (inl e))
       \/ (r = Ret None /\ exists text t a, update_asks (x_path x) trs (inr text)
           /\ ox' f = Some (mkExtractor (x_path x) a (x_private x)) /\ ot' a = Some t /\ built (x_private x) text t)))
    (update f) tr ot ox.
Proof.
  intros sh f tr ot ox x E. set (Q := fun _ _ _ _ => _).
  assert (Fail : forall trs ot' ox' e, update_asks (x_path x) trs (inl e) -> Q (tr ++ trs) ot' ox' (Ret (Some e))).
  { intros trs ot' ox' e A. exists trs. split; [reflexivity|]. left. eauto. }
  unfold Update.update. cbn [pbind sys_do mem_do ret lin app]. intros temp. left. exists x. split; [exact E|].
  destruct (bytes_eqb (x_path x) (temp ++ default_psl_file_name)) eqn:Ep; cbn [negb].
  2:{ cbn [lin]. apply Fail. apply asks_other. intros X.
      change (str "public_suffix_list.dat") with default_psl_file_name in X. rewrite <- X in Ep.
      assert (Y : bytes_eqb (temp ++ default_psl_file_name) (temp ++ default_psl_file_name) = true) by (apply bytes_eqb_eq; reflexivity).
      congruence. }
  apply bytes_eqb_eq in Ep. rewrite <- Ep. assert (Ep' : temp ++ str "public_suffix_list.dat" = x_path x) by (symmetry; exact Ep).
  cbn [pbind sys_do ret lin app]. intros [fd|].
  2:{ cbn [lin]. rewrite <- app_assoc. apply Fail. apply asks_closed. exact Ep'. }
  eapply lin_bind; [apply attempts_lin|]. cbv beta. intros tr' ot' ox' o (-> & -> & trs & -> & [(-> & At)|(-> & At)]).
  2:{ cbn [ret lin]. rewrite <- !app_assoc. apply Fail. cbn [app]. eapply asks_no_source; eauto. }
  cbn [pbind mem_do ret lin]. left. exists x. split; [exact E|].
  eapply lin_bind; [apply construct_lin|]. cbv beta.
  intros tr2 ot2 ox2 o (a & e & -> & -> & [(Np & _)|[(_ & -> & ->)|(_ & -> & text & t & -> & Et & B)]]).
  - exfalso. rewrite Np in Ep'. apply app_eq_nil in Ep'. destruct Ep' as (_ & Z). discriminate Z.
  - cbn [ret lin]. rewrite <- !app_assoc. apply Fail. cbn [app]. eapply asks_unreadable; eauto.
  - cbn [pbind mem_do ret lin]. left. exists x. split; [exact E|]. eexists. split; [apply upd_same|]. cbn [x_trie x_private].
    rewrite <- !app_assoc. eexists. split; [reflexivity|]. right. split; [reflexivity|]. exists text, t, a. cbn [app].
    split; [eapply asks_text; eauto|]. split; [apply upd_same|]. auto.
Qed.

(** New ends with an extractor of its own. *)
Definition new_done (n : list_params) (tr : list event) (ot : own_tries) (ox : own_extractors)
    (r : outcome (nat * option io_err)) : Prop :=
  exists f x t u, r = Ret (f, None) /\ new_asks (lp_path n) tr u /\ ox f = Some x /\ ot (x_trie x) = Some t
    /\ x_path x = v_path (view_of hardcoded (lp_private n) u) /\ x_private x = lp_private n
    /\ built (lp_private n) (v_text (view_of hardcoded (lp_private n) u)) t.

Lemma new_hardcoded_lin : forall sh n tr ot ox, new_asks (lp_path n) tr BuiltIn ->
  lin sh no_store (new_done n) (new_hardcoded_psl n) tr ot ox.
Proof.
  intros sh n tr ot ox A. unfold Update.new_hardcoded_psl. eapply lin_bind; [apply construct_lin|].
  cbv beta. intros tr2 ot2 ox2 o (a & e & -> & -> & [(_ & -> & -> & t & Et & B)|[(Z & _)|(Z & _)]]); [|destruct (Z eq_refl)..].
  cbn [pbind mem_do ret lin]. intros f Ef. exists f. do 2 eexists. exists BuiltIn. split; [reflexivity|]. split; [exact A|].
  split; [apply upd_same|]. split; [exact Et|]. split; [reflexivity|]. split; [reflexivity|]. exact B.
Qed.

Lemma from_cache_lin : forall sh n f path tr ot ox x, ox f = Some x -> x_private x = lp_private n -> x_path x = path ->
  (path = [] -> new_asks (lp_path n) tr BuiltIn) ->
  (path <> [] -> forall c, new_asks (lp_path n) (tr ++ [Event (ReadFile path) c])
                             (match c with Some text => ListFile path text | None => BuiltIn end)) ->
  lin sh no_store (new_done n) (new_from_cache n f path) tr ot ox.
Proof.
  intros sh n f path tr ot ox x E Pr Pa A0 A1. unfold Update.new_from_cache. eapply lin_bind; [apply construct_lin|].
  cbv beta. intros tr2 ot2 ox2 o (a & e & -> & -> & [(-> & -> & -> & t & Et & B)|[(Z & -> & ->)|(Z & -> & text & t & -> & Et & B)]]).
  - cbn [pbind mem_do ret lin]. left. exists x. split; [exact E|]. exists f. do 2 eexists. exists BuiltIn.
    split; [reflexivity|]. split; [auto|]. split; [apply upd_same|]. split; [exact Et|]. cbn [x_path x_private]. auto.
  - apply new_hardcoded_lin. apply (A1 Z None).
  - cbn [pbind mem_do ret lin]. left. exists x. split; [exact E|]. exists f. do 2 eexists. exists (ListFile path text).
    split; [reflexivity|]. split; [apply (A1 Z (Some text))|]. split; [apply upd_same|]. split; [exact Et|]. cbn [x_path x_private]. auto.
Qed.

Lemma new_lin : forall sh n ot ox, lin sh no_store (new_done n) (new n) [] ot ox.
Proof.
  intros sh n ot ox. unfold Update.new. cbn [pbind mem_do ret lin]. intros a Ea f Ef.
  set (ot1 := upd ot a _). set (ox1 := upd ox f _).
  eapply lin_bind; [apply looks_lin|]. cbv beta. intros tr' ot' ox' o (-> & -> & tr & valid & age & -> & -> & Lk). cbn [app].
  destruct valid; cbn [negb].
  { eapply from_cache_lin; [apply upd_same|reflexivity|reflexivity| |].
    - intros Z. eapply asks_nothing; eauto.
    - intros Z c. eapply asks_given; eauto. }
  cbn [pbind sys_do ret lin]. intros temp opened. rewrite <- app_assoc. cbn [app].
  destruct opened; cbn [negb]; [|apply new_hardcoded_lin; apply asks_folder; exact Lk].
  set (path := temp ++ default_psl_file_name).
  cbn [pbind mem_do ret lin]. eexists. split; [apply upd_same|]. cbn [x_trie x_private].
  set (ox2 := upd ox1 f _). eapply lin_bind; [apply looks_lin|]. cbv beta.
  intros tr' ot' ox' o (-> & -> & tr2 & valid & age2 & -> & -> & Lk2). rewrite <- app_assoc.
  destruct (negb valid || (age2 >? psl_max_age)) eqn:Old.
  - assert (O : forall ag, (if valid then Some age2 else None) = Some ag -> 72 * 3600 * 1000000000 < ag).
    { intros ag X. destruct valid; [|discriminate]. injection X as <-. unfold psl_max_age in Old. cbn [negb orb] in Old. lia. }
    eapply lin_bind; [apply update_lin_own; apply upd_same|]. cbv beta. cbn [x_path x_private].
    intros tr' ot' ox' o (trs & -> & [(e & -> & A)|(-> & text & t & a' & A & Eo & Et & B)]); rewrite <- !app_assoc.
    + apply new_hardcoded_lin. exact (asks_update _ tr temp path tr2 _ trs _ Lk eq_refl Lk2 O A).
    + cbn [ret lin]. exists f. do 2 eexists. exists (ListFile path text). split; [reflexivity|].
      split; [exact (asks_update _ tr temp path tr2 _ trs _ Lk eq_refl Lk2 O A)|].
      split; [exact Eo|]. split; [exact Et|]. auto.
  - destruct valid; [|discriminate]. cbn [negb orb] in Old.
    assert (O : age2 <= 72 * 3600 * 1000000000) by (unfold psl_max_age in Old; lia).
    eapply from_cache_lin; [apply upd_same|reflexivity|reflexivity| |].
    + intros Z. apply app_eq_nil in Z. destruct Z as (_ & Z). discriminate Z.
    + intros _ c. rewrite <- !app_assoc. exact (asks_cache _ tr temp path tr2 age2 c Lk eq_refl Lk2 O).
Qed.
End Lin.

(** ** The simulation *)

Section Sim.
Variable to_ascii : bytes -> option bytes.
Variable hardcoded : bytes.
Variable ext : idna.
Definition any_text (text : bytes) : Prop := True.
Local Notation owned := (owned to_ascii any_text).
Local Notation finished := (finished to_ascii any_text).
Local Notation program := (program to_ascii hardcoded ext).
Local Notation seen := (seen to_ascii hardcoded ext).
Local Notation atomic := (atomic to_ascii hardcoded ext).
Local Notation built := (built to_ascii).

Lemma built_finished : forall b text t, built b text t -> finished b t.
Proof. intros b text t (rules & U & B). exists text, rules. split; [exact I|]. auto. Qed.

Lemma owned_freeze : forall m known OT OX F f, owned m known OT OX F -> In f known ->
  owned m known OT OX ((x_trie (m_extractor m f), trie_in m f) :: F).
Proof.
  intros m known OT OX F f [H1 H2 H3 H4 H5 H6] K. constructor; auto.
  intros a t [E|E]; [|apply H6; exact E]. injection E as <- <-. destruct (H5 f K) as (A & B & C & D). auto.
Qed.

Lemma owned_return : forall m known OT OX F i ks, owned m known OT OX F ->
  (forall f, In f ks -> exists x t, OX i f = Some x /\ OT i (x_trie x) = Some t /\ finished (x_private x) t) ->
  owned m (ks ++ known) (upd OT i (fun _ => None)) (upd OX i (fun _ => None)) F.
Proof.
  intros m known OT OX F i ks [H1 H2 H3 H4 H5 H6] P.
  assert (Le : forall j b u, upd OT i (fun _ => None) j b = Some u -> j <> i /\ OT j b = Some u).
  { intros j b u. rewrite upd_at. destruct (Nat.eqb_spec j i); [discriminate|auto]. }
  assert (Lx : forall j b u, upd OX i (fun _ => None) j b = Some u -> j <> i /\ OX j b = Some u).
  { intros j b u. rewrite upd_at. destruct (Nat.eqb_spec j i); [discriminate|auto]. }
  assert (No : forall j b, OT j b = None -> upd OT i (fun _ => None) j b = None).
  { intros j b. rewrite upd_at. destruct (Nat.eqb_spec j i); auto. }
  constructor.
  - intros j a t X. apply Le in X. apply (H1 j). tauto.
  - intros j1 j2 a t t' X Y. apply Le in X. apply Le in Y. apply (H2 j1 j2 a t t'); tauto.
  - intros j f x X. apply Lx in X. destruct X as (D & X). destruct (H3 _ _ _ X) as (A & B & C).
    split; [exact A|]. split; [exact B|]. intros K. apply in_app_or in K. destruct K as [K|K]; [|contradiction].
    destruct (P f K) as (x' & t & Ex & _). apply D. exact (H4 _ _ _ _ _ X Ex).
  - intros j1 j2 a t t' X Y. apply Lx in X. apply Lx in Y. apply (H4 j1 j2 a t t'); tauto.
  - intros f K. apply in_app_or in K. destruct K as [K|K].
    + destruct (P f K) as (x & t & Ex & Et & Ft). destruct (H3 _ _ _ Ex) as (A & B & C). destruct (H1 _ _ _ Et) as (D & E).
      unfold trie_in. rewrite B. split; [exact A|]. split; [exact D|]. split; [rewrite E; exact Ft|].
      intros j. destruct (upd OT i (fun _ => None) j (x_trie x)) as [u|] eqn:X; [|reflexivity].
      apply Le in X. destruct X as (X & Y). exfalso. apply X. exact (H2 _ _ _ _ _ Y Et).
    + destruct (H5 f K) as (A & B & C & D). auto.
  - intros a t K. destruct (H6 a t K) as (A & B & C). auto.
Qed.

(** One operation on the memory by New or Update, before Update stores the trie. *)
Lemma lin_mem_owned : forall A R (o : mem_op R) sh (P : list event -> nat -> nat -> own_tries -> prog A -> Prop) Q k m known OT OX F i tr,
  owned m known OT OX F ->
  (forall f path b, sh f = Some (path, b) -> In f known /\ x_path (m_extractor m f) = path /\ x_private (m_extractor m f) = b) ->
  lin sh P Q (Mem o k) tr (OT i) (OX i) ->
  (exists ot ox, owned (snd (mem_step o m)) known (upd OT i ot) (upd OX i ox) F
     /\ lin sh P Q (k (fst (mem_step o m))) tr ot ox
     /\ forall g, In g known -> m_extractor (snd (mem_step o m)) g = m_extractor m g)
  \/ exists f a, snd (mem_step o m) = snd (mem_step (StoreTrie f a) m)
       /\ OX i f = None /\ P tr f a (OT i) (k (fst (mem_step o m))).
Proof.
  intros A R o sh P Q k m known OT OX F i tr O Sh L.
  set (K := fun x ot ox => lin sh P Q (k x) tr ot ox).
  assert (M : forall sh0 : nat -> option (bool * bool), (forall f, sh0 f = None) ->
    safe to_ascii any_text sh0 (fun ot ox r => match r with Ret x => K x ot ox | _ => False end) (Mem o (fun x => Done (Ret x))) (OT i) (OX i) ->
    exists ot ox, owned (snd (mem_step o m)) known (upd OT i ot) (upd OX i ox) F
     /\ lin sh P Q (k (fst (mem_step o m))) tr ot ox
     /\ forall g, In g known -> m_extractor (snd (mem_step o m)) g = m_extractor m g).
  { intros sh0 N S. assert (Sh0 : forall f b w, sh0 f = Some (b, w) -> In f known /\ x_private (m_extractor m f) = b)
      by (intros f b w X; rewrite N in X; discriminate).
    destruct (mem_owned _ _ _ _ _ _ _ _ _ _ _ _ _ _ O Sh0 S) as (ot & ox & O' & S' & Pr).
    exists ot, ox. split; [exact O'|]. split; [exact S'|]. intros g G. apply (Pr g G). intros b. rewrite N. discriminate. }
  specialize (M (fun _ => None) (fun _ => eq_refl)).
  destruct o; cbn [lin] in L.
  - left. apply M. exact L.
  - left. apply M. exact L.
  - left. apply M. exact L.
  - left. apply M. exact L.
  - destruct L as [L|(E & path & b & S & L)]; [left; apply M; left; exact L|]. left.
    exists (OT i), (OX i). cbn [mem_step fst snd]. split; [apply owned_same; exact O|]. destruct (Sh _ _ _ S) as (_ & Pa & Pr).
    split; [apply L; assumption|reflexivity].
  - left. apply M. left. exact L.
  - destruct L as [L|(E & L)]; [left; apply M; left; exact L|]. right. exists f, a. cbn [mem_step fst snd].
    auto.
  - destruct L.
Qed.

(** All lists in use are frozen. *)
Lemma owned_freeze_all : forall m known OT OX F, owned m known OT OX F ->
  owned m known OT OX (map (fun f => (x_trie (m_extractor m f), trie_in m f)) known ++ F).
Proof.
  intros m known OT OX F [H1 H2 H3 H4 H5 H6]. constructor; auto.
  intros a t E. apply in_app_or in E. destruct E as [E|E]; [|apply H6; exact E]. apply in_map_iff in E.
  destruct E as (f & E & K). injection E as <- <-. destruct (H5 f K) as (A & B & C & D). auto.
Qed.
Lemma owned_less : forall m known OT OX F F', owned m known OT OX F -> incl F' F -> owned m known OT OX F'.
Proof. intros m known OT OX F F' [H1 H2 H3 H4 H5 H6] I. constructor; auto. Qed.

Definition keeps (m m' : memory) (known : list nat) : Prop :=
  forall g, In g known -> m_extractor m' g = m_extractor m g /\ trie_in m' g = trie_in m g.
Lemma keeps_frozen : forall m m' known OT OX F, (forall g, In g known -> m_extractor m' g = m_extractor m g) ->
  owned m' known OT OX (map (fun f => (x_trie (m_extractor m f), trie_in m f)) known ++ F) -> keeps m m' known.
Proof.
  intros m m' known OT OX F E [_ _ _ _ _ H6] g G. split; [apply E; exact G|].
  destruct (H6 (x_trie (m_extractor m g)) (trie_in m g)) as (_ & B & _).
  - apply in_or_app. left. apply in_map_iff. exists g. auto.
  - unfold trie_in at 1. rewrite E by exact G. exact B.
Qed.

(** The lists of the known extractors do not change. *)
Lemma lin_mem : forall A R (o : mem_op R) sh (P : list event -> nat -> nat -> own_tries -> prog A -> Prop) Q k m known OT OX F i tr,
  owned m known OT OX F ->
  (forall f path b, sh f = Some (path, b) -> In f known /\ x_path (m_extractor m f) = path /\ x_private (m_extractor m f) = b) ->
  lin sh P Q (Mem o k) tr (OT i) (OX i) ->
  (exists ot ox, owned (snd (mem_step o m)) known (upd OT i ot) (upd OX i ox) F
     /\ lin sh P Q (k (fst (mem_step o m))) tr ot ox /\ keeps m (snd (mem_step o m)) known)
  \/ exists f a, snd (mem_step o m) = snd (mem_step (StoreTrie f a) m)
       /\ OX i f = None /\ P tr f a (OT i) (k (fst (mem_step o m))).
Proof.
  intros A R o sh P Q k m known OT OX F i tr O Sh L.
  destruct (lin_mem_owned _ _ _ _ _ _ _ _ _ _ _ _ _ _ (owned_freeze_all _ _ _ _ _ O) Sh L) as [(ot & ox & O' & L' & Ke)|H];
    [left|right; exact H].
  exists ot, ox. split; [|split; [exact L'|]].
  - eapply owned_less; [exact O'|]. apply incl_appr. apply incl_refl.
  - eapply keeps_frozen; [exact Ke|exact O'].
Qed.

(** Update stores the trie of an extractor that others know. *)
Lemma store_mem : forall m known OT OX F i f a t, owned m known OT OX F -> In f known -> OX i f = None ->
  OT i a = Some t -> finished (x_private (m_extractor m f)) t ->
  let m' := snd (mem_step (StoreTrie f a) m) in
  owned m' known (upd OT i (upd (OT i) a None)) (upd OX i (OX i)) F
  /\ (forall g, In g known -> g <> f -> m_extractor m' g = m_extractor m g /\ trie_in m' g = trie_in m g)
  /\ m_extractor m' f = mkExtractor (x_path (m_extractor m f)) a (x_private (m_extractor m f)) /\ trie_in m' f = t.
Proof.
  intros m known OT OX F i f a t O K E Et Ft m'. set (b := x_private (m_extractor m f)) in *.
  set (sh := fun g => if Nat.eqb g f then Some (b, true) else None).
  assert (Sh : forall g b' w, sh g = Some (b', w) -> In g known /\ x_private (m_extractor m g) = b').
  { intros g b' w. unfold sh. destruct (Nat.eqb_spec g f) as [-> |]; [|discriminate]. intros X. injection X as <- _. auto. }
  assert (Shf : sh f = Some (b, true)) by (unfold sh; rewrite Nat.eqb_refl; reflexivity).
  assert (S : safe to_ascii any_text sh (fun ot ox _ => ot = upd (OT i) a None /\ ox = OX i) (Mem (StoreTrie f a) (fun x => Done (Ret x))) (OT i) (OX i)).
  { cbn [safe]. right. split; [exact E|]. exists b, t. auto. }
  destruct (mem_owned _ _ _ _ _ _ _ _ _ _ _ _ _ _ O Sh S) as (ot & ox & O' & (-> & ->) & _). split; [exact O'|].
  assert (N : forall g, g <> f -> m_extractor m' g = m_extractor m g).
  { intros g D. unfold m'. cbn [mem_step snd set_extractor m_extractor]. apply upd_other. exact D. }
  split; [|split].
  - intros g G D. split; [apply N; exact D|]. unfold trie_in. rewrite N by exact D. reflexivity.
  - unfold m'. cbn [mem_step snd set_extractor m_extractor]. apply upd_same.
  - unfold trie_in, m'. cbn [mem_step snd set_extractor m_extractor m_trie]. rewrite upd_same. cbn [x_trie].
    destruct O as [H1 _ _ _ _ _]. apply (H1 _ _ _ Et).
Qed.
(** ... and its path, which it has already. *)
Lemma path_mem : forall m known OT OX F i f path, owned m known OT OX F -> In f known ->
  x_path (m_extractor m f) = path ->
  let m' := snd (mem_step (StorePath f path) m) in
  owned m' known (upd OT i (OT i)) (upd OX i (OX i)) F /\ keeps m m' known.
Proof.
  intros m known OT OX F i f path O K E m'.
  assert (X : forall g, m_extractor m' g = m_extractor m g).
  { intros g. unfold m'. cbn [mem_step snd set_extractor m_extractor]. rewrite upd_at. destruct (Nat.eqb_spec g f) as [-> |]; [|reflexivity].
    rewrite <- E. destruct (m_extractor m f); reflexivity. }
  split; [|intros g _; split; [apply X|unfold trie_in; rewrite X; reflexivity]].
  destruct (owned_same _ _ m known OT OX F i O) as [H1 H2 H3 H4 H5 H6].
  constructor; auto.
  - intros j g x Y. rewrite X. exact (H3 _ _ _ Y).
  - intros g G. unfold trie_in. rewrite X. exact (H5 g G).
Qed.

(** The memory represents the views, which are those of the known extractors. *)
Definition shows (m : memory) (known : list nat) (views : nat -> option view) : Prop :=
  forall f, match views f with
            | Some v => In f known /\ x_path (m_extractor m f) = v_path v /\ x_private (m_extractor m f) = v_private v
                        /\ serves to_ascii m f (v_private v) (v_text v)
            | None => ~ In f known
            end.
Lemma shows_kept : forall m m' known views, shows m known views -> keeps m m' known -> shows m' known views.
Proof.
  intros m m' known views S K f. specialize (S f). destruct (views f) as [v|]; [|exact S]. destruct S as (A & B & C & D).
  destruct (K f A) as (X & T). rewrite X. split; [exact A|]. split; [exact B|]. split; [exact C|]. eapply serves_kept; eauto.
Qed.

Definition only (f : nat) (path : bytes) (b : bool) (g : nat) : option (bytes * bool) :=
  if Nat.eqb g f then Some (path, b) else None.
Definition new_ends (n : list_params) (tr : list event) (ot : own_tries) (ox : own_extractors) (r : outcome answer) : Prop :=
  exists r', r = Ret (FromNew r') /\ new_done to_ascii hardcoded n tr ot ox (Ret r').

(** A running call and what is left of it. *)
Definition call_ok (views : nat -> option view) (F : list (nat * trie)) (c : call) (rest : prog answer) (tr : list event)
    (oa : option answer) (ot : own_tries) (ox : own_extractors) : Prop :=
  match c with
  | CallNew n => oa = None /\ lin (fun _ => None) no_store (new_ends n) rest tr ot ox
  | CallUpdate f => exists path b text, views f = Some (mkView path b text) /\
      ((oa = None /\ lin (only f path b) (stores to_ascii f path b) (fails path) rest tr ot ox)
       \/ (oa = Some (FromUpdate None) /\
           (rest = Mem (StorePath f path) (fun _ => Done (Ret (FromUpdate None))) \/ rest = Done (Ret (FromUpdate None)))))
  | CallExtract f p => (exists v, views f = Some v) /\
      ((oa = None /\ tr = [] /\ rest = program (CallExtract f p))
       \/ exists a t ans, oa = Some (FromExtract ans) /\ In (a, t) F /\ answers a t rest (Ret (FromExtract ans)))
  end.

(** Paths and flags do not change. *)
Definition later (views views' : nat -> option view) : Prop :=
  forall f path b text, views f = Some (mkView path b text) -> exists text', views' f = Some (mkView path b text').
Lemma later_refl : forall views, later views views.
Proof. intros views f path b text H. eauto. Qed.
Lemma call_later : forall views views' F F' c rest tr oa ot ox, later views views' -> incl F F' ->
  call_ok views F c rest tr oa ot ox -> call_ok views' F' c rest tr oa ot ox.
Proof.
  intros views views' F F' [n|f|f p] rest tr oa ot ox L I H; cbn [call_ok] in *.
  - exact H.
  - destruct H as (path & b & text & V & H). destruct (L _ _ _ _ V) as (text' & V'). exists path, b, text'. auto.
  - destruct H as (([path b text] & V) & H). destruct (L _ _ _ _ V) as (text' & V'). split; [eauto|].
    destruct H as [H|(a & t & ans & A & B & C)]; [left; exact H|]. right. exists a, t, ans. auto.
Qed.

Lemma start_ok : forall m known views F c ot ox, shows m known views -> may_call known c -> (forall f, ox f = None) ->
  call_ok views F c (program c) [] None ot ox.
Proof.
  intros m known views F [n|f|f p] ot ox S M Ox; cbn [call_ok may_call] in *.
  - split; [reflexivity|]. unfold Calls.program. eapply lin_bind; [apply new_lin|]. intros tr ot' ox' o (g & x & t & u & -> & H).
    cbn [ret lin]. eexists. split; [reflexivity|]. exists g, x, t, u. auto.
  - specialize (S f). destruct (views f) as [[path b text]|]; [|contradiction]. exists path, b, text. split; [reflexivity|].
    left. split; [reflexivity|]. apply update_lin_shared; [unfold only; rewrite Nat.eqb_refl; reflexivity|apply Ox].
  - specialize (S f). destruct (views f) as [v|]; [|contradiction]. split; [eauto|]. left. auto.
Qed.

Definition sim (q : pool) (views : nat -> option view) (calls : nat -> option running) : Prop :=
  exists OT OX F, owned (p_memory q) (p_known q) OT OX F /\ NoDup (map t_number (p_threads q))
    /\ shows (p_memory q) (p_known q) views
    /\ (forall th, In th (p_threads q) -> (t_number th < p_count q)%nat /\ exists tr oa,
          calls (t_number th) = Some (mkRunning (t_call th) tr oa)
          /\ call_ok views F (t_call th) (t_rest th) tr oa (OT (t_number th)) (OX (t_number th)))
    /\ (forall i, (p_count q <= i)%nat -> (forall a, OT i a = None) /\ (forall f, OX i f = None) /\ calls i = None).

(** One operation of a call. *)
Lemma sim_work : forall known ts1 i c p ts2 n tr views calls OT OX F m' p' ot ox F' views' tr1 oa1 tr0 calls',
  NoDup (map t_number (ts1 ++ mkThread i c p :: ts2)) ->
  (forall th, In th (ts1 ++ mkThread i c p :: ts2) -> (t_number th < n)%nat /\ exists tr oa,
          calls (t_number th) = Some (mkRunning (t_call th) tr oa)
          /\ call_ok views F (t_call th) (t_rest th) tr oa (OT (t_number th)) (OX (t_number th))) ->
  (forall i, (n <= i)%nat -> (forall a, OT i a = None) /\ (forall f, OX i f = None) /\ calls i = None) ->
  owned m' known (upd OT i ot) (upd OX i ox) F' -> shows m' known views' -> incl F F' -> later views views' ->
  call_ok views' F' c p' tr1 oa1 ot ox -> calls' i = Some (mkRunning c tr1 oa1) -> (forall j, j <> i -> calls' j = calls j) ->
  sim (mkPool m' known (ts1 ++ mkThread i c p' :: ts2) n (tr ++ tr0)) views' calls'.
Proof.
  intros known ts1 i c p ts2 n tr views calls OT OX F m' p' ot ox F' views' tr1 oa1 tr0 calls' N T L O' S' I' La C' Ci Cj.
  exists (upd OT i ot), (upd OX i ox), F'. cbn [p_memory p_known p_threads p_count].
  assert (Li : (i < n)%nat) by (apply (T (mkThread i c p)); apply in_elt).
  split; [exact O'|]. split; [|split; [exact S'|split]].
  - rewrite map_app in *. exact N.
  - rewrite map_app in N. cbn [map t_number] in N. apply NoDup_remove in N. destruct N as (_ & N).
    assert (Other : forall th, In th (ts1 ++ ts2) -> (t_number th < n)%nat /\ exists tr oa,
          calls' (t_number th) = Some (mkRunning (t_call th) tr oa)
          /\ call_ok views' F' (t_call th) (t_rest th) tr oa (upd OT i ot (t_number th)) (upd OX i ox (t_number th))).
    { intros th X. assert (D : t_number th <> i).
      { intros E. apply N. rewrite <- map_app. apply in_map_iff. exists th. auto. }
      rewrite !upd_other by exact D. rewrite Cj by exact D. destruct (T th) as (A & t & oa & B & C).
      { apply in_app_or in X. apply in_or_app. cbn. tauto. }
      split; [exact A|]. exists t, oa. split; [exact B|]. eapply call_later; eauto. }
    intros th X. apply in_app_or in X. destruct X as [X|[<- |X]].
    + apply Other. apply in_or_app. auto.
    + cbn [t_number t_call t_rest]. rewrite !upd_same. split; [exact Li|]. exists tr1, oa1. auto.
    + apply Other. apply in_or_app. auto.
  - intros j Hj. rewrite !upd_other by lia. rewrite Cj by lia. apply L. exact Hj.
Qed.

(** The answer of Extract with the list of its extractor. *)
Lemma extract_effect : forall m known views f p v, shows m known views -> views f = Some v ->
  exists r e, extract ext (trie_in m f) p = Ret (r, e) /\ effect to_ascii hardcoded ext views (CallExtract f p) [] (FromExtract (r, e)) views.
Proof.
  intros m known views f p v S V. specialize (S f). rewrite V in S. destruct S as (_ & _ & _ & rules & U & B).
  destruct (c01 ext (trie_in m f) p) as (r & e & X). exists r, e. split; [exact X|].
  eapply effect_extract; eauto. apply (c67 _ _ _ _ _ _ B). exact X.
Qed.

Lemma c85_sim : forall q l, seen q l -> exists views calls, atomic views (p_known q) calls l /\ sim q views calls.
Proof.
  intros q l H. induction H as [|m known ts n tr l c H (views & calls & A & OT & OX & F & O & N & S & T & L) M
    |m known ts1 i c p ts2 n tr tr' m' p' l H (views & calls & A & OT & OX & F & O & N & S & T & L) Ad
    |m known ts1 i c r ts2 n tr l H (views & calls & A & OT & OX & F & O & N & S & T & L)];
    cbn [p_memory p_known p_threads p_count] in *.
  - exists no_views, no_calls. split; [constructor|]. exists (fun _ _ => None), (fun _ _ => None), []. cbn [first_pool p_memory p_known p_threads p_count].
    split; [constructor; cbn; try discriminate; intros; contradiction|]. split; [constructor|]. split; [intros f []|].
    split; [intros th []|]. auto.
  - destruct (L n (le_n n)) as (Ln1 & Ln2 & Ln3).
    exists views, (upd calls n (Some (mkRunning c [] None))). split; [apply atomic_begins; assumption|].
    exists OT, OX, F. cbn [p_memory p_known p_threads p_count]. split; [exact O|].
    assert (Fresh : forall th, In th ts -> t_number th <> n) by (intros th X E; destruct (T th X) as (Y & _); lia).
    split; [|split; [exact S|split]].
    + rewrite map_app. cbn [map t_number]. apply NoDup_app_snoc; [exact N|]. intros X. apply in_map_iff in X.
      destruct X as (th & E & X). exact (Fresh th X E).
    + intros th X. apply in_app_or in X. destruct X as [X|[<- |[]]].
      * destruct (T th X) as (Y & t & oa & B & C). split; [lia|]. exists t, oa. rewrite upd_other by (apply Fresh; exact X). auto.
      * cbn [t_number t_call t_rest]. split; [lia|]. exists [], None. rewrite upd_same. split; [reflexivity|].
        eapply start_ok; eauto.
    + intros j Hj. rewrite upd_other by lia. apply L. lia.
  - destruct (T (mkThread i c p)) as (Li & tri & oa & Ci & Ok); [apply in_elt|]. cbn [t_number t_call t_rest] in *.
    pose proof (fun m' p' ot ox F' views' tr1 oa1 tr0 calls' => sim_work known ts1 i c p ts2 n tr views calls OT OX F m' p' ot ox F' views' tr1 oa1 tr0 calls' N T L) as W.
    set (Goal := exists views calls, atomic views known calls (l ++ map (Asks i) tr')
      /\ sim (mkPool m' known (ts1 ++ mkThread i c p' :: ts2) n (tr ++ tr')) views calls).
    (* an operation on the environment *)
    assert (Sy : forall e, tr' = [e] -> m' = m -> oa = None -> call_ok views F c p' (tri ++ [e]) None (OT i) (OX i) -> Goal).
    { intros e -> -> -> K. exists views, (upd calls i (Some (mkRunning c (tri ++ [e]) None))).
      split; [apply atomic_asks; [exact A|exact Ci]|].
      eapply W; [apply owned_same; exact O|exact S|apply incl_refl|apply later_refl|exact K|apply upd_same|intros j D; apply upd_other; exact D]. }
    (* an operation on the memory that changes no view *)
    assert (Me : tr' = [] -> forall ot ox F', owned m' known (upd OT i ot) (upd OX i ox) F' -> incl F F' -> keeps m m' known ->
      call_ok views F' c p' tri oa ot ox -> Goal).
    { intros -> ot ox F' O' I' K C'. exists views, calls. cbn [map]. split; [rewrite app_nil_r; exact A|].
      eapply W; [exact O'|eapply shows_kept; eauto|exact I'|apply later_refl|exact C'|exact Ci|reflexivity]. }
    (* an operation on the memory at which the call takes effect *)
    assert (Ef : tr' = [] -> oa = None -> forall a views' ot ox F', effect to_ascii hardcoded ext views c tri a views' ->
      owned m' known (upd OT i ot) (upd OX i ox) F' -> incl F F' -> shows m' known views' -> later views views' ->
      call_ok views' F' c p' tri (Some a) ot ox -> Goal).
    { intros -> -> a views' ot ox F' E O' I' S' La C'. exists views', (upd calls i (Some (mkRunning c tri (Some a)))).
      cbn [map]. split; [rewrite app_nil_r; eapply atomic_effect; eauto|].
      eapply W; [exact O'|exact S'|exact I'|exact La|exact C'|apply upd_same|intros j D; apply upd_other; exact D]. }
    destruct c as [pn|f|f pu]; cbn [call_ok] in Ok.
    + (* New *)
      destruct Ok as (-> & Ok). destruct p as [r|R o k|R o k]; cbn [advance] in Ad; [contradiction| |].
      * destruct Ad as (-> & x & -> & ->). apply (Sy (Event o x)); auto. cbn [call_ok]. split; [reflexivity|apply Ok].
      * destruct Ad as (-> & -> & ->).
        assert (Sh : forall f path b, (fun _ : nat => @None (bytes * bool)) f = Some (path, b) ->
          In f known /\ x_path (m_extractor m f) = path /\ x_private (m_extractor m f) = b) by (intros f path b X; discriminate X).
        destruct (lin_mem _ _ _ _ _ _ _ _ _ _ _ _ _ _ O Sh Ok) as [(ot & ox & O' & L' & K)|(f & a & _ & _ & [])].
        apply (Me eq_refl ot ox F); auto; [apply incl_refl|]. cbn [call_ok]. auto.
    + (* Update *)
      destruct Ok as (path & b & text & V & [(-> & Ok)|(-> & [-> | ->])]); [| |cbn [advance] in Ad; contradiction].
      * pose proof (S f) as Sf. rewrite V in Sf. cbn [v_path v_private v_text] in Sf. destruct Sf as (Kf & Pf & Bf & Svf).
        destruct p as [r|R o k|R o k]; cbn [advance] in Ad; [contradiction| |].
        -- destruct Ad as (-> & x & -> & ->). apply (Sy (Event o x)); auto. cbn [call_ok]. exists path, b, text. split; [exact V|].
           left. split; [reflexivity|apply Ok].
        -- destruct Ad as (-> & -> & ->).
           assert (Sh : forall g path' b', only f path b g = Some (path', b') ->
             In g known /\ x_path (m_extractor m g) = path' /\ x_private (m_extractor m g) = b').
           { intros g path' b'. unfold only. destruct (Nat.eqb_spec g f) as [-> |]; [|discriminate]. intros X. injection X as <- <-. auto. }
           destruct (lin_mem _ _ _ _ _ _ _ _ _ _ _ _ _ _ O Sh Ok) as [(ot & ox & O' & L' & K)|(g & a & Em & Ox & St)].
           ++ apply (Me eq_refl ot ox F); auto; [apply incl_refl|]. cbn [call_ok]. exists path, b, text. auto.
           ++ destruct St as (-> & text' & t & As & Et & B & Er). rewrite Em, Er in Ef.
              assert (Ft : finished (x_private (m_extractor m f)) t) by (rewrite Bf; eapply built_finished; exact B).
              destruct (store_mem _ _ _ _ _ _ _ _ _ O Kf Ox Et Ft) as (O' & Ko & Xf & Tf).
              apply (Ef eq_refl eq_refl (FromUpdate None) (with_view views f (mkView path b text')) (upd (OT i) a None) (OX i) F).
              ** apply (effect_updated to_ascii hardcoded ext views f (mkView path b text) tri text'); auto.
              ** exact O'.
              ** apply incl_refl.
              ** intros g. destruct (Nat.eq_dec g f) as [->|D].
                 --- rewrite with_same. cbn [v_path v_private v_text]. rewrite Xf. cbn [x_path x_private]. split; [exact Kf|].
                     split; [exact Pf|]. split; [exact Bf|]. destruct B as (rules & U & B). exists rules. rewrite Tf. auto.
                 --- rewrite with_other by exact D. specialize (S g). destruct (views g) as [v|]; [|exact S].
                     destruct S as (S1 & S2 & S3 & S4). destruct (Ko g S1 D) as (Y1 & Y2). rewrite Y1. split; [exact S1|].
                     split; [exact S2|]. split; [exact S3|]. eapply serves_kept; eauto.
              ** intros g path' b' text0 Vg. destruct (Nat.eq_dec g f) as [->|D].
                 --- rewrite with_same. rewrite V in Vg. injection Vg as <- <- _. eauto.
                 --- rewrite with_other by exact D. eauto.
              ** cbn [call_ok]. exists path, b, text'. split; [apply with_same|]. right. auto.
      * pose proof (S f) as Sf. rewrite V in Sf. cbn [v_path v_private v_text] in Sf. destruct Sf as (Kf & Pf & Bf & Svf).
        cbn [advance] in Ad. destruct Ad as (-> & -> & ->).
        destruct (path_mem _ _ _ _ _ i f path O Kf Pf) as (O' & K).
        apply (Me eq_refl (OT i) (OX i) F); auto; [apply incl_refl|]. cbn [call_ok]. exists path, b, text. auto.
    + (* Extract *)
      destruct Ok as ((v & V) & [(-> & -> & ->)|(a & t & ans & -> & Fr & An)]).
      * destruct (extract_effect _ _ _ f pu v S V) as (r & e & X & E).
        unfold Calls.program, extract_prog in Ad. rewrite extract_split in X.
        destruct (extract_front ext pu) as [[y|[u host]]| |]; cbn [bind pbind ret mem_do advance] in *; try contradiction.
        destruct Ad as (-> & -> & ->). cbn [mem_step fst snd] in *.
        assert (Kf : In f known) by (specialize (S f); rewrite V in S; apply S).
        apply (Ef eq_refl eq_refl _ views (OT i) (OX i) ((x_trie (m_extractor m f), trie_in m f) :: F) E); auto.
        -- apply owned_same. apply owned_freeze; assumption.
        -- apply incl_tl. apply incl_refl.
        -- apply later_refl.
        -- cbn [call_ok]. split; [eauto|]. right. do 3 eexists. split; [reflexivity|]. split; [left; reflexivity|].
           eapply answers_bind; [apply host_answers|]. rewrite X. reflexivity.
      * destruct p as [r|R o k|R o k]; cbn [advance] in Ad; [contradiction|destruct An|].
        destruct o; cbn [answers] in An; try contradiction. destruct An as (-> & An). destruct Ad as (-> & -> & ->).
        cbn [mem_step fst snd] in Me. destruct (own_frozen _ _ _ _ _ _ _ O _ _ Fr) as (_ & Ta & _). rewrite Ta in Me.
        apply (Me eq_refl (OT i) (OX i) F); [apply owned_same; exact O|apply incl_refl|intros g G; auto|].
        cbn [call_ok]. split; [eauto|]. right. exists a, t, ans. auto.
  - destruct (T (mkThread i c (Done r))) as (Li & tri & oa & Ci & Ok); [apply in_elt|]. cbn [t_number t_call t_rest] in *.
    rewrite map_app in N. cbn [map t_number] in N. apply NoDup_remove in N. destruct N as (N1 & N).
    (* the machine answers *)
    assert (En : forall a views' calls', r = Ret a -> atomic views' known calls' l -> calls' i = Some (mkRunning c tri (Some a)) ->
      (forall j, j <> i -> calls' j = calls j) -> later views views' ->
      shows m (returned (Ret a) ++ known) views' ->
      (forall f, In f (returned (Ret a)) -> exists x t, OX i f = Some x /\ OT i (x_trie x) = Some t /\ finished (x_private x) t) ->
      exists views calls, atomic views (returned r ++ known) calls (l ++ [Ends i r])
        /\ sim (mkPool m (returned r ++ known) (ts1 ++ ts2) n tr) views calls).
    { intros a views' calls' -> A' Ci' Cj' La S' P. exists views', (upd calls' i None). split; [eapply atomic_ends; eauto|].
      exists (upd OT i (fun _ => None)), (upd OX i (fun _ => None)), F. cbn [p_memory p_known p_threads p_count].
      split; [apply owned_return; assumption|]. split; [rewrite map_app; exact N1|]. split; [exact S'|]. split.
      - intros th X. assert (D : t_number th <> i).
        { intros E. apply N. rewrite <- map_app. apply in_map_iff. exists th. auto. }
        rewrite !upd_other by exact D. rewrite Cj' by exact D. destruct (T th) as (B & t & o & C & G).
        { apply in_app_or in X. apply in_or_app. cbn. tauto. }
        split; [exact B|]. exists t, o. split; [exact C|]. eapply call_later; [exact La|apply incl_refl|exact G].
      - intros j Hj. rewrite !upd_other by lia. rewrite Cj' by lia. apply L. exact Hj. }
    assert (Ef : forall a views', oa = None -> effect to_ascii hardcoded ext views c tri a views' ->
      atomic views' known (upd calls i (Some (mkRunning c tri (Some a)))) l).
    { intros a views' -> E. eapply atomic_effect; eauto. }
    destruct c as [pn|f|f pu]; cbn [call_ok] in Ok.
    + (* New *)
      destruct Ok as (-> & r' & -> & g & x & t & u & E & As & Ex & Et & Px & Bx & B). injection E as ->.
      destruct (own_ext _ _ _ _ _ _ _ O _ _ _ Ex) as (_ & Xg & Ng). destruct (own_trie _ _ _ _ _ _ _ O _ _ _ Et) as (_ & Tg).
      assert (Vg : views g = None) by (specialize (S g); destruct (views g) as [v|]; [destruct S; contradiction|reflexivity]).
      set (v := view_of hardcoded (lp_private pn) u) in *.
      eapply (En _ (with_view views g v)); [reflexivity|apply Ef; [reflexivity|eapply effect_new; eauto]|apply upd_same|
        intros j D; apply upd_other; exact D| | |].
      * intros f path b text Vf. destruct (Nat.eq_dec f g) as [->|D]; [congruence|]. rewrite with_other by exact D. eauto.
      * intros f. cbn [returned app]. destruct (Nat.eq_dec f g) as [->|D].
        -- rewrite with_same. assert (Pv : v_private v = lp_private pn) by (unfold v; destruct u; reflexivity). rewrite Xg, Pv.
           split; [left; reflexivity|]. split; [exact Px|]. split; [exact Bx|].
           destruct B as (rules & U & B). exists rules. unfold trie_in. rewrite Xg, Tg. auto.
        -- rewrite with_other by exact D. specialize (S f). destruct (views f) as [w|].
           ++ destruct S as (S1 & S2). split; [right; exact S1|exact S2].
           ++ intros [X|X]; [congruence|contradiction].
      * intros f [<- |[]]. exists x, t. split; [exact Ex|]. split; [exact Et|]. rewrite Bx. eapply built_finished; exact B.
    + (* Update *)
      destruct Ok as (path & b & text & V & [(-> & e & -> & As)|(-> & [X|X])]); [|discriminate X|].
      * eapply (En _ views); [reflexivity|apply Ef; [reflexivity|eapply effect_failed; eauto]|apply upd_same|
          intros j D; apply upd_other; exact D|apply later_refl|exact S|intros g []].
      * injection X as ->. eapply (En _ views calls); [reflexivity|exact A|exact Ci|reflexivity|apply later_refl|exact S|intros g []].
    + (* Extract *)
      destruct Ok as ((v & V) & [(-> & -> & X)|(a & t & ans & -> & Fr & An)]).
      * destruct (extract_effect _ _ _ f pu v S V) as (r' & e & Y & E).
        assert (Er : r = Ret (FromExtract (r', e))).
        { unfold Calls.program, extract_prog in X. rewrite extract_split in Y.
          destruct (extract_front ext pu) as [[y|[uu host]]| |]; cbn [bind pbind ret mem_do] in *; try discriminate.
          unfold ret in X. congruence. }
        eapply (En _ views); [exact Er|apply Ef; [reflexivity|exact E]|apply upd_same|
          intros j D; apply upd_other; exact D|apply later_refl|exact S|intros g []].
      * cbn [answers] in An. eapply (En _ views calls); [exact An|exact A|exact Ci|reflexivity|apply later_refl|exact S|intros g []].
Qed.
End Sim.
