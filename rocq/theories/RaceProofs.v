(** RaceProofs.v - calls race only with Update of the same extractor. *)

From Verif Require Import Base BaseFacts Chars Str Net Trie Extract RuleSpec TrieFacts Psl ListSpec ListFacts World Update UpdateSpec
  WorldFacts Calls CallFacts CallProofs RaceSpec.
From Coq Require Import ZifyBool ZifyNat ZifyN.

(** Programs that read no nodes. *)
Fixpoint no_nodes {A : Type} (p : prog A) : Prop :=
  match p with
  | Done _ => True
  | Sys _ k => forall x, no_nodes (k x)
  | @Mem _ R o k =>
    match o with ReadNode _ _ => False | _ => True end /\ forall x, no_nodes (k x)
  end.
Lemma no_nodes_bind : forall A B (p : prog A) (k : A -> prog B), no_nodes p -> (forall a, no_nodes (k a)) -> no_nodes (pbind p k).
Proof.
  intros A B. induction p as [r|R o c IH|R o c IH]; intros k H K; cbn [pbind no_nodes] in *.
  - destruct r; cbn [no_nodes]; auto.
  - auto.
  - destruct H as (H1 & H2). split; [exact H1|auto].
Qed.
Lemma no_mem_nodes : forall A (p : prog A), no_mem p -> no_nodes p.
Proof.
  intros A. induction p as [r|R o c IH|R o c IH]; intros H; cbn [no_mem no_nodes] in *; auto. contradiction.
Qed.
Ltac nn := cbn [sys_do mem_do ret no_nodes]; auto.

Section New.
Variable to_ascii : bytes -> option bytes.
Variable hardcoded : bytes.

Lemma insert_nodes : forall a l, no_nodes (insert_suffixes a l).
Proof.
  intros a. induction l as [|s l IH]; cbn [insert_suffixes]; [exact I|].
  apply no_nodes_bind; [exact I|]. intros sp. apply no_nodes_bind; [nn|]. auto.
Qed.
Lemma construct_nodes : forall private path, no_nodes (trie_construct to_ascii hardcoded private path).
Proof.
  intros private path. unfold trie_construct. apply no_nodes_bind; [nn|]. intros a. apply no_nodes_bind.
  - destruct (negb _); [|exact I]. unfold get_public_suffix_list. apply no_nodes_bind; [nn|]. intros []; exact I.
  - intros [l [e|]]; [exact I|]. apply no_nodes_bind; [apply insert_nodes|]. intros _. apply no_nodes_bind; nn.
Qed.
Lemma hardcoded_nodes : forall n, no_nodes (new_hardcoded_psl to_ascii hardcoded n).
Proof.
  intros n. unfold new_hardcoded_psl. apply no_nodes_bind; [apply construct_nodes|]. intros [a e]. apply no_nodes_bind; nn.
Qed.
Lemma cache_nodes : forall n f path, no_nodes (new_from_cache to_ascii hardcoded n f path).
Proof.
  intros n f path. unfold new_from_cache. apply no_nodes_bind; [apply construct_nodes|]. intros [a [e|]]; [apply hardcoded_nodes|].
  apply no_nodes_bind; nn.
Qed.
Lemma update_nodes : forall f, no_nodes (update to_ascii hardcoded f).
Proof.
  intros f. unfold update. apply no_nodes_bind; [nn|]. intros temp. cbv zeta. apply no_nodes_bind; [nn|]. intros x.
  destruct (negb _); [exact I|]. apply no_nodes_bind; [nn|]. intros [fd|]; [|exact I].
  apply no_nodes_bind; [apply no_mem_nodes; apply update_file_no_mem|]. intros [e|]; [exact I|].
  apply no_nodes_bind; [nn|]. intros x2. apply no_nodes_bind; [apply construct_nodes|]. intros [a [e|]]; [exact I|].
  apply no_nodes_bind; [nn|]. intros _. apply no_nodes_bind; nn.
Qed.
Lemma new_nodes : forall n, no_nodes (new to_ascii hardcoded n).
Proof.
  intros n. unfold new. apply no_nodes_bind; [nn|]. intros a. apply no_nodes_bind; [nn|]. intros f.
  apply no_nodes_bind; [apply no_mem_nodes; apply check_no_mem|]. intros [v age]. destruct (negb v); [|apply cache_nodes].
  apply no_nodes_bind; [nn|]. intros temp. cbv zeta. apply no_nodes_bind; [nn|]. intros o. destruct (negb o); [apply hardcoded_nodes|].
  apply no_nodes_bind; [nn|]. intros _. apply no_nodes_bind; [apply no_mem_nodes; apply check_no_mem|]. intros [v2 age2].
  destruct (_ || _); [|apply cache_nodes]. apply no_nodes_bind; [apply update_nodes|]. intros [e|]; [apply hardcoded_nodes|exact I].
Qed.
End New.

(** Programs that read only nodes of tries in [D] or of tries of extractor [f]. *)
Fixpoint nodes_ok (f : nat) (D : list nat) {A : Type} (p : prog A) : Prop :=
  match p with
  | Done _ => True
  | Sys _ k => forall x, nodes_ok f D (k x)
  | @Mem _ R o k =>
    match o in mem_op R return (list nat -> R -> Prop) -> Prop with
    | ReadNode a _ => fun K => In a D /\ forall x, K D x
    | ReadExtractor g => fun K => g = f /\ forall x, K (x_trie x :: D) x
    | _ => fun K => forall x, K D x
    end (fun D x => nodes_ok f D (k x))
  end.
Lemma nodes_more : forall A f (p : prog A) D D', nodes_ok f D p -> incl D D' -> nodes_ok f D' p.
Proof.
  intros A f. induction p as [r|R o c IH|R o c IH]; intros D D' H L.
  - exact I.
  - cbn [nodes_ok] in *. eauto.
  - destruct o; cbn [nodes_ok] in *; eauto.
    + destruct H as (-> & H). split; [reflexivity|]. intros x. eapply IH; [apply H|].
      intros y [<- |Y]; [left; reflexivity|right; auto].
    + destruct H as (X & H). split; [auto|eauto].
Qed.
Lemma nodes_bind : forall A B f (p : prog A) (k : A -> prog B) D, nodes_ok f D p -> (forall a, nodes_ok f D (k a)) -> nodes_ok f D (pbind p k).
Proof.
  intros A B f. induction p as [r|R o c IH|R o c IH]; intros k D H K.
  - destruct r; cbn [pbind nodes_ok]; auto.
  - cbn [pbind nodes_ok] in *. auto.
  - cbn [pbind]. destruct o; cbn [nodes_ok] in *; auto.
    + destruct H as (-> & H). split; [reflexivity|]. intros x. apply IH; [apply H|]. intros a.
      eapply nodes_more; [apply K|]. intros y Y. right. exact Y.
    + destruct H as (X & H). split; [exact X|auto].
Qed.
Lemma loop_nodes : forall g a fuel netloc path hs hl sep st en,
  nodes_ok g [a] (suffix_loop_prog fuel netloc a path hs hl sep st en).
Proof.
  intros g a. induction fuel as [|fuel IH]; intros netloc path hs hl sep st en; cbn [suffix_loop_prog]; [exact I|].
  apply nodes_bind; [exact I|]. intros head. cbv zeta. apply nodes_bind; [exact I|]. intros [label e].
  destruct (_ && _); [destruct (negb hl); [apply IH|exact I]|].
  assert (R : forall p, nodes_ok g [a] (mem_do (ReadNode a p))) by (intros p; cbn; auto).
  apply nodes_bind; [apply R|]. intros [x|]; [apply nodes_bind; [apply R|]; intros y; exact I|].
  apply nodes_bind; [apply R|]. intros [[v h]|]; [|exact I]. destruct (if _ : bool then _ else _) as [en' hs'].
  destruct (_ || _); [exact I|apply IH].
Qed.
Lemma extract_nodes : forall ext f p, nodes_ok f [] (extract_prog ext f p).
Proof.
  intros ext f p. unfold extract_prog. apply nodes_bind; [exact I|]. intros [r|[u h]]; [exact I|].
  cbn [pbind mem_do ret nodes_ok]. split; [reflexivity|]. intros x. unfold extract_host_prog.
  apply nodes_bind; [apply loop_nodes|]. intros [e|w]; [exact I|]. apply nodes_bind; [exact I|]. intros [].
  - apply nodes_bind; [exact I|]. intros d. exact I.
  - exact I.
Qed.

Section Pools.
Variable to_ascii : bytes -> option bytes.
Variable hardcoded : bytes.
Variable ext : idna.
Local Notation pool_ok := (pool_ok to_ascii (fun _ => True)).
Local Notation pool_step := (pool_step to_ascii hardcoded ext).
Local Notation pool_steps := (pool_steps to_ascii hardcoded ext).

Definition thread_nodes (F : list (nat * trie)) (th : thread) : Prop :=
  no_nodes (t_rest th) \/ exists f p, t_call th = CallExtract f p /\ nodes_ok f (map fst F) (t_rest th).
Definition nodes_inv (q : pool) (F : list (nat * trie)) : Prop :=
  pool_ok q F /\ forall th, In th (p_threads q) -> thread_nodes F th.

Lemma reads_any : forall q, reads_ok (fun _ => True) q.
Proof. intros q path text W. exact I. Qed.

Lemma nodes_step : forall q q' F, nodes_inv q F -> pool_step q q' -> exists F', nodes_inv q' F'.
Proof.
  intros q q' F (Ok & T) S.
  assert (Next : forall F, pool_ok q F -> pool_ok q' F) by (intros F0 H; eapply step_ok; [exact I|exact H|exact S|apply reads_any]).
  destruct S as [m known ts n tr c M|m known ts1 i c p ts2 n tr tr' m' p' Ad|m known ts1 i c r ts2 n tr];
    cbn [p_memory p_known p_threads p_count p_trace] in *.
  - exists F. split; [auto|]. cbn [p_threads]. intros th X. apply in_app_or in X as [X|[<- |[]]]; [auto|].
    destruct c as [l|f|f u]; unfold thread_nodes, program; cbn [t_rest t_call].
    + left. apply no_nodes_bind; [apply new_nodes|nn].
    + left. apply no_nodes_bind; [apply update_nodes|nn].
    + right. exists f, u. split; [reflexivity|]. apply nodes_bind; [|intros a; exact I].
      eapply nodes_more; [apply extract_nodes|]. intros x [].
  - set (th0 := mkThread i c p) in *.
    assert (Hin : In th0 (ts1 ++ th0 :: ts2)) by (apply in_elt).
    assert (P : exists F', pool_ok (mkPool m known (ts1 ++ th0 :: ts2) n tr) F' /\ incl F F' /\ thread_nodes F' (mkThread i c p')).
    { destruct (T _ Hin) as [N|(f & u & Ec & N)]; unfold thread_nodes; cbn [t_rest t_call th0] in *.
      - exists F. split; [exact Ok|]. split; [apply incl_refl|]. left. destruct p as [o|R o k|R o k]; cbn [advance no_nodes] in *.
        + contradiction.
        + destruct Ad as (_ & x & _ & ->). auto.
        + destruct Ad as (_ & _ & ->). apply N.
      - subst c. destruct p as [o|R o k|R o k]; cbn [advance] in Ad.
        + contradiction.
        + exists F. split; [exact Ok|]. split; [apply incl_refl|]. right. exists f, u. split; [reflexivity|].
          destruct Ad as (_ & x & _ & ->). apply N.
        + destruct Ad as (_ & _ & ->). destruct o as [|a keys|a|x|g|g path|g a|a path]; cbn [nodes_ok mem_step fst] in N |- *;
            try (exists F; split; [exact Ok|]; split; [apply incl_refl|]; right; exists f, u; split; [reflexivity|]; apply N).
          destruct N as (-> & N).
          assert (K : In f known).
          { destruct Ok as (OT & OX & _ & _ & TT & _). cbn [p_threads p_known] in TT. destruct (TT _ Hin) as (_ & b & Sh & _).
            cbn [th0 t_call shared] in Sh. destruct (Sh f b false) as (X & _); [rewrite Nat.eqb_refl; reflexivity|exact X]. }
          exists ((x_trie (m_extractor m f), trie_in m f) :: F). split; [|split].
          * apply (frozen_more to_ascii (fun _ => True) _ _ f Ok K).
          * intros y Y. right. exact Y.
          * right. exists f, u. split; [reflexivity|]. cbn [map fst]. apply N. }
    destruct P as (F' & Ok' & Inc & Th). exists F'. split; [auto|]. cbn [p_threads].
    assert (Up : forall th, In th (ts1 ++ th0 :: ts2) -> thread_nodes F' th).
    { intros th X. destruct (T th X) as [N|(f & u & Ec & N)]; [left; exact N|]. right. exists f, u. split; [exact Ec|].
      eapply nodes_more; [exact N|]. intros a A. apply in_map_iff in A as (y & <- & Y). apply in_map. auto. }
    intros th X. apply in_app_or in X as [X|[<- |X]].
    + apply Up. apply in_or_app. auto.
    + exact Th.
    + apply Up. apply in_or_app. right. right. exact X.
  - exists F. split; [auto|]. cbn [p_threads]. intros th X. apply T. apply in_app_or in X. apply in_or_app. cbn. tauto.
Qed.

Lemma nodes_steps : forall q, pool_steps first_pool q -> exists F, nodes_inv q F.
Proof.
  intros q S. remember first_pool as q0 eqn:E. induction S as [q|q1 q2 q3 S IH St].
  - subst q. exists []. split; [apply first_ok|]. intros th [].
  - destruct (IH E) as (F & H). eapply nodes_step; eauto.
Qed.

Lemma race_sided : forall q F th1 th2 l w, nodes_inv q F -> In th1 (p_threads q) -> In th2 (p_threads q) ->
  t_number th1 <> t_number th2 -> about_to th1 l true -> about_to th2 l w ->
  exists f, In f (p_known q) /\ (l = PathField f \/ l = TrieField f) /\ t_call th1 = CallUpdate f /\ call_on f (t_call th2).
Proof.
  intros q F [i c1 p1] [j c2 p2] l w ((OT & OX & O & _ & T & _) & Nd) I1 I2 D A1 A2. unfold about_to in *. cbn [t_rest t_number t_call] in *.
  destruct p1 as [r|R o k|R o k]; try contradiction. destruct p2 as [r|R2 o2 k2|R2 o2 k2]; try contradiction.
  destruct (T _ I1) as (_ & b1 & Sh1 & S1). destruct (T _ I2) as (_ & b2 & Sh2 & S2). cbn [t_rest t_number t_call] in *.
  specialize (Nd _ I2). unfold thread_nodes in Nd. cbn [t_rest t_call] in Nd.
  destruct O as [H1 H2 H3 H4 H5 H6].
  assert (TrieCase : forall a t, l = TrieNodes a -> OT i a = Some t -> False).
  { intros a t -> E. destruct o2; cbn [touches] in A2; try contradiction; cbn [safe nodes_ok no_nodes] in *.
    - destruct A2 as (X & _). injection X as <-. destruct S2 as (t2 & E2 & _). exact (D (H2 _ _ _ _ _ E E2)).
    - destruct A2 as (X & _). injection X as <-. destruct S2 as (t2 & E2 & _). exact (D (H2 _ _ _ _ _ E E2)).
    - destruct A2 as ([X|[X|X]] & _); discriminate X.
    - destruct A2 as (X & _). discriminate X.
    - destruct A2 as (X & _). discriminate X.
    - destruct A2 as (X & _). injection X as <-. destruct Nd as [(N & _)|(f & p & _ & N & _)]; [exact N|].
      apply in_map_iff in N as ([a' t'] & Ea & N). cbn in Ea. subst a'. destruct (H6 _ _ N) as (_ & _ & Z). rewrite Z in E. discriminate E. }
  (* the other call uses the fields of [f]: it is its own one or shared *)
  assert (FieldCase : forall f, l = PathField f \/ l = TrieField f ->
     (exists x, OX j f = Some x) \/ exists b w, shared c2 b2 f = Some (b, w)).
  { intros f L. destruct o2; cbn [touches] in A2; try contradiction; cbn [safe] in S2.
    - destruct A2 as (X & _). destruct L; congruence.
    - destruct A2 as (X & _). destruct L; congruence.
    - assert (f0 = f) by (destruct L, A2 as ([|[|]] & _); congruence). subst f0.
      destruct S2 as [(x & E & _)|(_ & b & v & E & _)]; eauto.
    - assert (f0 = f) by (destruct L, A2 as (X & _); congruence). subst f0.
      destruct S2 as [(x & E & _)|(_ & (b & E) & _)]; eauto.
    - assert (f0 = f) by (destruct L, A2 as (X & _); congruence). subst f0.
      destruct S2 as [(x & E & _)|(_ & b & t & E & _)]; eauto.
    - destruct A2 as (X & _). destruct L; congruence. }
  assert (Fin : forall f, l = PathField f \/ l = TrieField f ->
     (exists x, OX i f = Some x) \/ (exists b, shared c1 b1 f = Some (b, true)) ->
     exists f, In f (p_known q) /\ (l = PathField f \/ l = TrieField f) /\ c1 = CallUpdate f /\ call_on f c2).
  { intros f L W. exists f. destruct (FieldCase f L) as [(x2 & E2)|(b & w2 & E2)].
    - exfalso. destruct W as [(x & E)|(b & E)]; [exact (D (H4 _ _ _ _ _ E E2))|].
      destruct (Sh1 _ _ _ E) as (K & _). destruct (H3 _ _ _ E2) as (_ & _ & Nk). contradiction.
    - destruct (Sh2 _ _ _ E2) as (K & _). destruct W as [(x & E)|(b' & E)].
      + destruct (H3 _ _ _ E) as (_ & _ & Nk). contradiction.
      + split; [exact K|]. split; [exact L|]. split.
        * destruct c1 as [n|g|g u]; cbn [shared] in E; try discriminate; destruct (Nat.eqb_spec f g); try discriminate. subst g. reflexivity.
        * destruct c2 as [n|g|g u]; cbn [shared] in E2; try discriminate; destruct (Nat.eqb_spec f g); try discriminate; subst g;
            [left; reflexivity|right; exists u; reflexivity]. }
  destruct o; cbn [touches] in A1; try contradiction; cbn [safe] in S1.
  - destruct A1 as (L & _). destruct S1 as (t & E & _). destruct (TrieCase _ _ L E).
  - destruct A1 as (L & _). destruct S1 as (t & E & _). destruct (TrieCase _ _ L E).
  - destruct A1 as (_ & X). discriminate X.
  - destruct A1 as (L & _). apply (Fin f); [auto|]. destruct S1 as [(x & E & _)|(_ & (b & E) & _)]; eauto.
  - destruct A1 as (L & _). apply (Fin f); [auto|]. destruct S1 as [(x & E & _)|(_ & b & t & E & _)]; eauto.
  - destruct A1 as (_ & X). discriminate X.
Qed.

Lemma c78_races : forall q l th1 th2, pool_steps first_pool q -> race q l th1 th2 ->
  exists f, In f (p_known q) /\ (l = PathField f \/ l = TrieField f) /\ call_on f (t_call th1) /\ call_on f (t_call th2)
    /\ (t_call th1 = CallUpdate f \/ t_call th2 = CallUpdate f).
Proof.
  intros q l th1 th2 S ((ts1 & ts2 & ts3 & E) & R). destruct (nodes_steps q S) as (F & H).
  assert (D : t_number th1 <> t_number th2).
  { destruct H as ((OT & OX & _ & N & _) & _). rewrite E, map_app in N. cbn [map] in N. apply NoDup_remove in N as (_ & N).
    intros X. apply N. rewrite X. apply in_or_app. right. rewrite map_app. cbn [map]. apply in_elt. }
  assert (I1 : In th1 (p_threads q)) by (rewrite E; apply in_elt).
  assert (I2 : In th2 (p_threads q)) by (rewrite E; apply in_or_app; right; right; apply in_elt).
  destruct R as [(A & w & B)|(A & w & B)].
  - destruct (race_sided q F th1 th2 l w H I1 I2 D A B) as (f & K & L & C1 & C2). exists f.
    split; [exact K|]. split; [exact L|]. split; [left; exact C1|]. split; [exact C2|]. left. exact C1.
  - destruct (race_sided q F th2 th1 l w H I2 I1 (not_eq_sym D) A B) as (f & K & L & C1 & C2). exists f.
    split; [exact K|]. split; [exact L|]. split; [exact C2|]. split; [left; exact C1|]. right. exact C1.
Qed.
End Pools.
