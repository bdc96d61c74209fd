(** CallProofs.v - calls running at the same time do not disturb each other. *)

From Verif Require Import Base BaseFacts Chars Str Net Trie Extract RuleSpec TrieFacts Psl ListSpec ListFacts World Update UpdateSpec
  WorldFacts UrlProofs OutcomeFacts Calls CallFacts.
From Coq Require Import ZifyBool ZifyNat ZifyN.
Local Open Scope Z_scope.

Lemma steps_trans : forall to_ascii hardcoded ext q1 q2 q3,
  pool_steps to_ascii hardcoded ext q1 q2 -> pool_steps to_ascii hardcoded ext q2 q3 ->
  pool_steps to_ascii hardcoded ext q1 q3.
Proof.
  intros to_ascii hardcoded ext q1 q2 q3 H K. induction K as [|q2 q3 q4 K IH L]; [exact H|].
  eapply steps_more; [apply IH; exact H|exact L].
Qed.

Lemma step_trace : forall to_ascii hardcoded ext q q', pool_step to_ascii hardcoded ext q q' ->
  exists tr, p_trace q' = p_trace q ++ tr.
Proof. intros to_ascii hardcoded ext q q' H. destruct H; cbn [p_trace]; [exists []|exists tr'|exists []]; rewrite ?app_nil_r; reflexivity. Qed.
Lemma steps_trace : forall to_ascii hardcoded ext q q', pool_steps to_ascii hardcoded ext q q' ->
  exists tr, p_trace q' = p_trace q ++ tr.
Proof.
  intros to_ascii hardcoded ext q q' H. induction H as [|q1 q2 q3 H (tr & IH) K]; [exists []; rewrite app_nil_r; reflexivity|].
  destruct (step_trace _ _ _ _ _ K) as (tr' & ->). exists (tr ++ tr'). rewrite IH, app_assoc. reflexivity.
Qed.
Lemma was_read_app_l : forall tr1 tr2 p c, was_read tr1 p c -> was_read (tr1 ++ tr2) p c.
Proof. intros tr1 tr2 p c (e & H & X). exists e. split; [apply in_or_app; auto|exact X]. Qed.

Section Pools.
Variable to_ascii : bytes -> option bytes.
Variable hardcoded : bytes.
Variable ext : idna.
(** The list texts that are read during the execution, and the built-in one. *)
Variable src : bytes -> Prop.
Hypothesis src_hardcoded : src hardcoded.
Local Notation finished := (finished to_ascii src).
Local Notation safe := (safe to_ascii src).
Local Notation program := (program to_ascii hardcoded ext).
Local Notation pool_step := (pool_step to_ascii hardcoded ext).
Local Notation pool_steps := (pool_steps to_ascii hardcoded ext).

(** Every call owns some tries and extractors; what is owned is as its owner knows it and is
    not reachable for others; the tries in [F] are owned by nobody. *)
Record owned (m : memory) (known : list nat) (OT : nat -> own_tries) (OX : nat -> own_extractors)
       (F : list (nat * trie)) : Prop := mkOwned {
  own_trie : forall i a t, OT i a = Some t -> (a < m_next_trie m)%nat /\ m_trie m a = t;
  own_one : forall i j a t t', OT i a = Some t -> OT j a = Some t' -> i = j;
  own_ext : forall i f x, OX i f = Some x -> (f < m_next_extractor m)%nat /\ m_extractor m f = x /\ ~ In f known;
  own_one_ext : forall i j f x x', OX i f = Some x -> OX j f = Some x' -> i = j;
  own_known : forall f, In f known -> (f < m_next_extractor m)%nat /\
    (x_trie (m_extractor m f) < m_next_trie m)%nat /\ finished (x_private (m_extractor m f)) (trie_in m f) /\
    forall i, OT i (x_trie (m_extractor m f)) = None;
  own_frozen : forall a t, In (a, t) F -> (a < m_next_trie m)%nat /\ m_trie m a = t /\ forall i, OT i a = None
}.

Lemma upd_at : forall V (g : nat -> V) a b v, upd g a v b = if Nat.eqb b a then v else g b.
Proof.
  intros V g a b v. destruct (Nat.eqb_spec b a) as [->|N]; [apply upd_same|apply upd_other; exact N].
Qed.

Ltac split_upd :=
  repeat match goal with
  | H : context [upd _ ?a _ ?b] |- _ => rewrite (upd_at _ _ a b) in H
  | |- context [upd _ ?a _ ?b] => rewrite (upd_at _ _ a b)
  | H : context [Nat.eqb ?a ?b] |- _ => destruct (Nat.eqb_spec a b)
  | |- context [Nat.eqb ?a ?b] => destruct (Nat.eqb_spec a b)
  end; subst; try congruence.

Lemma NoDup_app_snoc : forall (l : list nat) x, NoDup l -> ~ In x l -> NoDup (l ++ [x]).
Proof.
  intros l x H N. apply NoDup_rev in H. rewrite <- (rev_involutive (l ++ [x])). apply NoDup_rev.
  rewrite rev_app_distr. cbn [rev app]. constructor; [|exact H]. rewrite <- in_rev. exact N.
Qed.

Lemma owned_same : forall m known OT OX F i, owned m known OT OX F -> owned m known (upd OT i (OT i)) (upd OX i (OX i)) F.
Proof.
  intros m known OT OX F i [H1 H2 H3 H4 H5 H6].
  assert (T : forall j a, upd OT i (OT i) j a = OT j a) by (intros; split_upd; reflexivity).
  assert (X : forall j a, upd OX i (OX i) j a = OX j a) by (intros; split_upd; reflexivity).
  constructor; intros.
  - rewrite T in *. eauto.
  - rewrite T in *. eauto.
  - rewrite X in *. eauto.
  - rewrite X in *. eauto.
  - destruct (H5 _ H) as (A & B & C & D). repeat split; auto. intros j. rewrite T. auto.
  - destruct (H6 _ _ H) as (A & B & D). repeat split; auto. intros j. rewrite T. auto.
Qed.

(** Changing an own trie. *)
Lemma owned_set : forall m known OT OX F i a t t', owned m known OT OX F -> OT i a = Some t ->
  owned (set_trie m a t') known (upd OT i (upd (OT i) a (Some t'))) (upd OX i (OX i)) F.
Proof.
  intros m known OT OX F i a t t' O E. pose proof O as [H1 H2 H3 H4 H5 H6].
  destruct (owned_same m known OT OX F i O) as [_ _ S3 S4 _ _].
  constructor; cbn [set_trie m_trie m_next_trie m_extractor m_next_extractor].
  - intros j b u. split_upd; intros X.
    + injection X as ->. split; [apply (H1 _ _ _ E)|reflexivity].
    + apply (H1 _ _ _ X).
    + exfalso. apply n. exact (H2 _ _ _ _ _ X E).
    + apply (H1 _ _ _ X).
  - intros j1 j2 b u u'. split_upd; intros X Y; try reflexivity;
      first [exact (H2 _ _ _ _ _ X Y)|exact (H2 _ _ _ _ _ E Y)|exact (H2 _ _ _ _ _ X E)].
  - exact S3.
  - exact S4.
  - intros f K. destruct (H5 f K) as (A & B & C & D).
    assert (N : x_trie (m_extractor m f) <> a) by (intros Y; rewrite <- Y, D in E; discriminate).
    split; [exact A|]. split; [exact B|]. split.
    + unfold trie_in in *. cbn [set_trie m_trie m_extractor]. rewrite upd_other by exact N. exact C.
    + intros j. split_upd; first [contradiction|apply D].
  - intros b u K. destruct (H6 b u K) as (A & B & D).
    assert (N : b <> a) by (intros Y; rewrite <- Y, D in E; discriminate).
    split; [exact A|]. split; [rewrite upd_other by exact N; exact B|]. intros j. split_upd; first [contradiction|apply D].
Qed.

(** Changing an own extractor. *)
Lemma owned_set_ext : forall m known OT OX F i f x x', owned m known OT OX F -> OX i f = Some x ->
  owned (set_extractor m f x') known (upd OT i (OT i)) (upd OX i (upd (OX i) f (Some x'))) F.
Proof.
  intros m known OT OX F i f x x' O E. pose proof O as [H1 H2 H3 H4 H5 H6].
  destruct (owned_same m known OT OX F i O) as [S1 S2 _ _ S5 S6].
  constructor; cbn [set_extractor m_trie m_next_trie m_extractor m_next_extractor].
  - exact S1.
  - exact S2.
  - intros j g u. destruct (H3 _ _ _ E) as (A & B & C). split_upd; intros X.
    + injection X as ->. auto.
    + apply (H3 _ _ _ X).
    + exfalso. apply n. exact (H4 _ _ _ _ _ X E).
    + apply (H3 _ _ _ X).
  - intros j1 j2 b u u'. split_upd; intros X Y; try reflexivity;
      first [exact (H4 _ _ _ _ _ X Y)|exact (H4 _ _ _ _ _ E Y)|exact (H4 _ _ _ _ _ X E)].
  - intros g K. destruct (S5 g K) as (A & B & C & D).
    assert (N : g <> f) by (intros ->; destruct (H3 _ _ _ E) as (_ & _ & Z); contradiction).
    unfold trie_in. cbn [set_extractor m_trie m_extractor]. rewrite upd_other by exact N. auto.
  - exact S6.
Qed.

Lemma mem_owned : forall R (o : mem_op R) A (sh : nat -> option (bool * bool)) (Q : own_tries -> own_extractors -> outcome A -> Prop) k m known OT OX F i,
  owned m known OT OX F -> (forall f b w, sh f = Some (b, w) -> In f known /\ x_private (m_extractor m f) = b) -> safe sh Q (Mem o k) (OT i) (OX i) ->
  exists ot ox, owned (snd (mem_step o m)) known (upd OT i ot) (upd OX i ox) F /\
                safe sh Q (k (fst (mem_step o m))) ot ox /\
                forall g, In g known -> x_private (m_extractor (snd (mem_step o m)) g) = x_private (m_extractor m g)
                  /\ ((forall b, sh g <> Some (b, true)) -> m_extractor (snd (mem_step o m)) g = m_extractor m g).
Proof.
  intros R o A sh Q k m known OT OX F i O Sh S. pose proof O as [H1 H2 H3 H4 H5 H6].
  destruct o; cbn [CallFacts.safe] in S; cbn [mem_step fst snd].
  - (* NewTrie *)
    assert (N : forall j, OT j (m_next_trie m) = None).
    { intros j. destruct (OT j (m_next_trie m)) as [t|] eqn:E; [|reflexivity]. destruct (H1 _ _ _ E) as (L & _). lia. }
    exists (upd (OT i) (m_next_trie m) (Some empty_trie)), (OX i). split; [|split; [apply S; apply N|split; reflexivity]].
    destruct (owned_same m known OT OX F i O) as [_ _ S3 S4 _ _].
    constructor; cbn [m_trie m_next_trie m_extractor m_next_extractor].
    + intros j b u. split_upd; intros X; try (rewrite N in X; discriminate X);
        first [destruct (H1 _ _ _ X); split; [lia|assumption]|injection X as ->; split; [lia|reflexivity]].
    + intros j1 j2 b u u'. split_upd; intros X Y; try reflexivity; try (rewrite N in *; discriminate); exact (H2 _ _ _ _ _ X Y).
    + exact S3.
    + exact S4.
    + intros f K. destruct (H5 f K) as (B & C & D & E).
      assert (M : x_trie (m_extractor m f) <> m_next_trie m) by lia.
      split; [exact B|]. split; [lia|]. split.
      * unfold trie_in in *. cbn [m_trie m_extractor]. rewrite upd_other by exact M. exact D.
      * intros j. split_upd; first [contradiction|apply E].
    + intros b u K. destruct (H6 b u K) as (B & C & D).
      assert (M : b <> m_next_trie m) by lia.
      split; [lia|]. split; [rewrite upd_other by exact M; exact C|]. intros j. split_upd; first [contradiction|apply D].
  - (* Insert *)
    destruct S as (t & E & S). destruct (H1 _ _ _ E) as (_ & <-).
    do 2 eexists. split; [eapply owned_set; eauto|]. split; [exact S|split; reflexivity].
  - (* MarkWildcards *)
    destruct S as (t & E & S). destruct (H1 _ _ _ E) as (_ & <-).
    do 2 eexists. split; [eapply owned_set; eauto|]. split; [exact S|split; reflexivity].
  - (* NewExtractor *)
    assert (N : forall j, OX j (m_next_extractor m) = None).
    { intros j. destruct (OX j (m_next_extractor m)) as [t|] eqn:E; [|reflexivity]. destruct (H3 _ _ _ E) as (L & _). lia. }
    exists (OT i), (upd (OX i) (m_next_extractor m) (Some x)). split; [|split; [apply S; apply N|]];
      [|cbn [m_extractor]; intros g K; destruct (H5 g K); rewrite upd_other by lia; split; reflexivity].
    destruct (owned_same m known OT OX F i O) as [S1 S2 _ _ S5 S6].
    constructor; cbn [m_trie m_next_trie m_extractor m_next_extractor].
    + exact S1.
    + exact S2.
    + assert (NK : ~ In (m_next_extractor m) known) by (intros K; destruct (H5 _ K); lia).
      intros j b u. split_upd; intros X; try (rewrite N in X; discriminate X);
        first [destruct (H3 _ _ _ X) as (B & C & D); split; [lia|auto]|injection X as ->; split; [lia|auto]].
    + intros j1 j2 b u u'. split_upd; intros X Y; try reflexivity; try (rewrite N in *; discriminate); exact (H4 _ _ _ _ _ X Y).
    + intros g K. destruct (S5 g K) as (B & C & D & E).
      assert (M : g <> m_next_extractor m) by lia. unfold trie_in in *. cbn [m_trie m_extractor].
      rewrite upd_other by exact M. auto.
    + exact S6.
  - (* ReadExtractor *)
    exists (OT i), (OX i). split; [apply owned_same; exact O|]. split; [|split; reflexivity].
    destruct S as [(x & E & S)|(E & b & w & K & S)]; [|apply S; apply (Sh _ _ _ K)]. destruct (H3 _ _ _ E) as (_ & <- & _). exact S.
  - (* StorePath *)
    destruct S as [(x & E & S)|(E & K & S)].
    + destruct (H3 _ _ _ E) as (_ & <- & _). do 2 eexists. split; [eapply owned_set_ext; eauto|]. split; [exact S|].
      intros g Kg. cbn [set_extractor m_extractor]. destruct (H3 _ _ _ E) as (_ & _ & Nk).
      rewrite upd_other by (intros ->; contradiction). split; reflexivity.
    + exists (OT i), (OX i). split; [|split; [exact S|]];
        [|intros g _; cbn [set_extractor m_extractor]; rewrite upd_at; destruct (Nat.eqb_spec g f) as [-> |]; [|split; reflexivity];
          split; [reflexivity|]; destruct K as (b & K); intros Z; destruct (Z _ K)].
      destruct K as (b & Ks). apply Sh in Ks as (K & Kp).
      destruct (owned_same m known OT OX F i O) as [S1 S2 S3 S4 S5 S6].
      assert (T : forall g, x_trie (upd (m_extractor m) f (mkExtractor path (x_trie (m_extractor m f)) (x_private (m_extractor m f))) g)
                            = x_trie (m_extractor m g)) by (intros g; split_upd; reflexivity).
      assert (P : forall g, x_private (upd (m_extractor m) f (mkExtractor path (x_trie (m_extractor m f)) (x_private (m_extractor m f))) g)
                            = x_private (m_extractor m g)) by (intros g; split_upd; reflexivity).
      constructor; cbn [set_extractor m_trie m_next_trie m_extractor m_next_extractor]; auto.
      * intros j g x X. destruct (S3 _ _ _ X) as (B & C & D). split; [exact B|]. split; [|exact D].
        rewrite upd_other; [exact C|]. intros ->. contradiction.
      * intros g G. destruct (S5 g G) as (B & C & D & E'). unfold trie_in in *. cbn [m_trie m_extractor set_extractor].
        rewrite T, P. auto.
  - (* StoreTrie *)
    destruct S as [(x & E & S)|(E & b & t & Ks & Et & Ft & S)].
    + destruct (H3 _ _ _ E) as (_ & <- & _). do 2 eexists. split; [eapply owned_set_ext; eauto|]. split; [exact S|].
      intros g Kg. cbn [set_extractor m_extractor]. destruct (H3 _ _ _ E) as (_ & _ & Nk).
      rewrite upd_other by (intros ->; contradiction). split; reflexivity.
    + exists (upd (OT i) a None), (OX i). split; [|split; [exact S|]];
        [|intros g _; cbn [set_extractor m_extractor]; rewrite upd_at; destruct (Nat.eqb_spec g f) as [-> |]; [|split; reflexivity];
          split; [reflexivity|]; intros Z; destruct (Z _ Ks)].
      apply Sh in Ks as (K & Kp).
      destruct (owned_same m known OT OX F i O) as [S1 S2 S3 S4 S5 S6].
      assert (Le : forall j b u, upd OT i (upd (OT i) a None) j b = Some u -> OT j b = Some u).
      { intros j c u. split_upd. }
      assert (No : forall j b, OT j b = None -> upd OT i (upd (OT i) a None) j b = None).
      { intros j c. split_upd; auto. }
      assert (Na : forall j, upd OT i (upd (OT i) a None) j a = None).
      { intros j. destruct (Nat.eq_dec j i) as [->|Nj]; [rewrite upd_same; apply upd_same|].
        rewrite upd_other by exact Nj. destruct (OT j a) as [u|] eqn:Ej; [|reflexivity].
        exfalso. apply Nj. exact (H2 _ _ _ _ _ Ej Et). }
      destruct (H1 _ _ _ Et) as (La & Ma).
      constructor; cbn [set_extractor m_trie m_next_trie m_extractor m_next_extractor]; auto.
      * intros j c u X. apply (H1 j). auto.
      * intros j1 j2 c u u' X Y. exact (H2 _ _ _ _ _ (Le _ _ _ X) (Le _ _ _ Y)).
      * intros j g x X. destruct (S3 _ _ _ X) as (B & C & D). split; [exact B|]. split; [|exact D].
        rewrite upd_other; [exact C|]. intros ->. contradiction.
      * intros g G. destruct (H5 g G) as (B & C & D & E'). unfold trie_in in *. cbn [m_trie m_extractor set_extractor].
        rewrite upd_at. destruct (Nat.eqb_spec g f) as [->|N]; cbn [x_trie x_private].
        -- rewrite Ma, Kp. auto.
        -- auto.
      * intros c u G. destruct (H6 c u G) as (B & C & D). auto.
  - (* ReadNode *)
    exists (OT i), (OX i). split; [apply owned_same; exact O|]. split; [apply S|split; reflexivity].
Qed.

(** ** The invariant of pools *)

(** The extractor a call uses, when it includes private rules iff [b]; only Update changes it. *)
Definition shared (c : call) (b : bool) : nat -> option (bool * bool) :=
  match c with
  | CallNew _ => fun _ => None
  | CallUpdate f => fun g => if Nat.eqb g f then Some (b, true) else None
  | CallExtract f _ => fun g => if Nat.eqb g f then Some (b, false) else None
  end.
(** What a call returns is its own. *)
Definition post (ot : own_tries) (ox : own_extractors) (r : outcome answer) : Prop :=
  forall f, In f (returned r) -> exists x t, ox f = Some x /\ ot (x_trie x) = Some t /\ finished (x_private x) t.

Lemma program_safe : forall c b ot ox, (forall f, shared c b f <> None -> ox f = None) -> safe (shared c b) post (program c) ot ox.
Proof.
  intros [n|f|f p] b ot ox H; unfold Calls.program.
  - eapply safe_bind; [apply new_safe; exact src_hardcoded|]. intros ot' ox' [[f [e|]]| |] K; cbn [ret CallFacts.safe].
    + intros g [].
    + intros g [<- |[]]. apply K. reflexivity.
    + intros g [].
    + intros g [].
  - eapply safe_bind; [eapply update_safe_shared; [exact src_hardcoded|cbn [shared]; rewrite Nat.eqb_refl; reflexivity|
      apply H; cbn [shared]; rewrite Nat.eqb_refl; discriminate]|].
    intros ot' ox' [e| |] K; cbn [ret CallFacts.safe]; intros g [].
  - eapply safe_bind; [eapply extract_safe; [cbn [shared]; rewrite Nat.eqb_refl; reflexivity|
      apply H; cbn [shared]; rewrite Nat.eqb_refl; discriminate]|].
    intros ot' ox' [e| |] K; cbn [ret CallFacts.safe]; intros g [].
Qed.

Definition pool_ok (q : pool) (F : list (nat * trie)) : Prop :=
  exists OT OX, owned (p_memory q) (p_known q) OT OX F
    /\ NoDup (map t_number (p_threads q))
    /\ (forall th, In th (p_threads q) -> (t_number th < p_count q)%nat
          /\ exists b, (forall f b' w, shared (t_call th) b f = Some (b', w) -> In f (p_known q) /\ x_private (m_extractor (p_memory q) f) = b')
             /\ safe (shared (t_call th) b) post (t_rest th) (OT (t_number th)) (OX (t_number th)))
    /\ (forall i, (p_count q <= i)%nat -> (forall a, OT i a = None) /\ (forall f, OX i f = None)).

Lemma first_ok : pool_ok first_pool [].
Proof.
  exists (fun _ _ => None), (fun _ _ => None). split; [|split; [constructor|split; [intros th []|auto]]].
  constructor; cbn; try discriminate; intros; contradiction.
Qed.

Lemma frozen_more : forall q F f, pool_ok q F -> In f (p_known q) ->
  pool_ok q ((x_trie (m_extractor (p_memory q) f), trie_in (p_memory q) f) :: F).
Proof.
  intros q F f (OT & OX & O & N & T & L) K. exists OT, OX. split; [|auto].
  destruct O as [H1 H2 H3 H4 H5 H6]. constructor; auto.
  intros a t [E|E]; [|apply H6; exact E]. injection E as <- <-. destruct (H5 f K) as (A & B & C & D). auto.
Qed.

(** Only texts of [src] have been read. *)
Definition reads_ok (q : pool) : Prop := forall path text, was_read (p_trace q) path text -> src text.

Lemma step_ok : forall q q' F, pool_ok q F -> pool_step q q' -> reads_ok q' -> pool_ok q' F.
Proof.
  intros q q' F (OT & OX & O & N & T & L) S Rd.
  destruct S as [m known ts n tr c M|m known ts1 i c p ts2 n tr tr' m' p' Ad|m known ts1 i c r ts2 n tr];
    unfold reads_ok in Rd; cbn [p_memory p_known p_threads p_count p_trace] in *.
  - exists OT, OX. cbn [p_memory p_known p_threads p_count]. split; [exact O|].
    assert (Sh : exists b, forall f b' w, shared c b f = Some (b', w) -> In f known /\ x_private (m_extractor m f) = b').
    { destruct c as [l|f0|f0 p0]; cbn [shared may_call] in *; [exists true; discriminate| |];
        exists (x_private (m_extractor m f0)); intros f b' w; destruct (Nat.eqb_spec f f0) as [-> |]; try discriminate;
        intros X; injection X as <- _; auto. }
    destruct Sh as (b & Sh).
    split; [|split].
    + rewrite map_app. cbn [map t_number]. apply NoDup_app_snoc; [exact N|]. intros X. apply in_map_iff in X.
      destruct X as (th & E & X). destruct (T th X) as (A & _). lia.
    + intros th X. apply in_app_or in X. destruct X as [X|[<- |[]]].
      * destruct (T th X) as (A & B). auto.
      * cbn [t_number t_call t_rest]. split; [lia|]. exists b. split; [exact Sh|]. apply program_safe.
        intros f _. apply L. lia.
    + intros i Hi. apply L. lia.
  - assert (In (mkThread i c p) (ts1 ++ mkThread i c p :: ts2)) as Hin by (apply in_elt).
    destruct (T _ Hin) as (Li & b & Sh & Sf). cbn [t_number t_call t_rest] in *.
    assert (X : exists ot ox, owned m' known (upd OT i ot) (upd OX i ox) F /\ safe (shared c b) post p' ot ox
      /\ forall g, In g known -> x_private (m_extractor m' g) = x_private (m_extractor m g)
           /\ ((forall b', shared c b g <> Some (b', true)) -> m_extractor m' g = m_extractor m g)).
    { destruct p as [r|R o k|R o k]; cbn [advance] in Ad.
      - contradiction.
      - destruct Ad as (-> & x & -> & ->). exists (OT i), (OX i). split; [apply owned_same; exact O|]. split; [|split; reflexivity].
        apply Sf. intros path text Hr. apply (Rd path). exists (Event o x). split; [apply in_or_app; right; left; reflexivity|exact Hr].
      - destruct Ad as (-> & -> & ->). eapply mem_owned; eauto. }
    destruct X as (ot & ox & O' & S' & Pr). exists (upd OT i ot), (upd OX i ox). cbn [p_memory p_known p_threads p_count].
    split; [exact O'|]. split; [|split].
    + rewrite map_app in *. exact N.
    + rewrite map_app in N. cbn [map t_number] in N. apply NoDup_remove in N. destruct N as (_ & N).
      assert (Keep : forall th, In th (ts1 ++ mkThread i c p :: ts2) -> (t_number th < n)%nat /\ exists b,
        (forall f b' w, shared (t_call th) b f = Some (b', w) -> In f known /\ x_private (m_extractor m' f) = b')
        /\ safe (shared (t_call th) b) post (t_rest th) (OT (t_number th)) (OX (t_number th))).
      { intros th X. destruct (T th X) as (A & b0 & B & C). split; [exact A|]. exists b0. split; [|exact C].
        intros f b' w Hf. destruct (B f b' w Hf) as (Z & <-). split; [exact Z|]. apply Pr. exact Z. }
      intros th X. apply in_app_or in X. destruct X as [X|[<- |X]].
      * assert (D : t_number th <> i) by (intros E; apply N; apply in_or_app; left; apply in_map_iff; exists th; auto).
        rewrite !upd_other by exact D. apply Keep. apply in_or_app. auto.
      * cbn [t_number t_call t_rest]. rewrite !upd_same. split; [exact Li|]. exists b. split; [|exact S'].
        intros f b' w Hf. destruct (Sh f b' w Hf) as (Z & <-). split; [exact Z|]. apply Pr. exact Z.
      * assert (D : t_number th <> i) by (intros E; apply N; apply in_or_app; right; apply in_map_iff; exists th; auto).
        rewrite !upd_other by exact D. apply Keep. apply in_or_app. cbn. auto.
    + intros j Hj. assert (D : j <> i) by lia. rewrite !upd_other by exact D. apply L. exact Hj.
  - assert (In (mkThread i c (Done r)) (ts1 ++ mkThread i c (Done r) :: ts2)) as Hin by (apply in_elt).
    destruct (T _ Hin) as (Li & b0 & Sh & P). cbn [t_number t_call t_rest CallFacts.safe] in *. unfold post in P.
    exists (upd OT i (fun _ => None)), (upd OX i (fun _ => None)). cbn [p_memory p_known p_threads p_count].
    rewrite map_app in N. cbn [map t_number] in N. apply NoDup_remove in N. destruct N as (N1 & N).
    assert (Le : forall j b u, upd OT i (fun _ => None) j b = Some u -> j <> i /\ OT j b = Some u).
    { intros j b u. split_upd; auto. }
    assert (Lx : forall j b u, upd OX i (fun _ => None) j b = Some u -> j <> i /\ OX j b = Some u).
    { intros j b u. split_upd; auto. }
    assert (No : forall j b, OT j b = None -> upd OT i (fun _ => None) j b = None).
    { intros j b. split_upd; auto. }
    split; [|split; [|split]].
    + destruct O as [H1 H2 H3 H4 H5 H6]. constructor.
      * intros j a t X. apply Le in X. apply (H1 j). tauto.
      * intros j1 j2 a t t' X Y. apply Le in X. apply Le in Y. apply (H2 j1 j2 a t t'); tauto.
      * intros j f x X. apply Lx in X. destruct X as (D & X). destruct (H3 _ _ _ X) as (A & B & C).
        split; [exact A|]. split; [exact B|]. intros K. apply in_app_or in K. destruct K as [K|K]; [|contradiction].
        destruct (P f K) as (x' & t & Ex & _). apply D. exact (H4 _ _ _ _ _ X Ex).
      * intros j1 j2 a t t' X Y. apply Lx in X. apply Lx in Y. apply (H4 j1 j2 a t t'); tauto.
      * intros f K. apply in_app_or in K. destruct K as [K|K].
        -- destruct (P f K) as (x & t & Ex & Et & Ft). destruct (H3 _ _ _ Ex) as (A & B & C). destruct (H1 _ _ _ Et) as (D & E).
           unfold trie_in. rewrite B. split; [exact A|]. split; [exact D|]. split; [rewrite E; exact Ft|].
           intros j. destruct (upd OT i (fun _ => None) j (x_trie x)) as [u|] eqn:X; [|reflexivity].
           apply Le in X. destruct X as (X & Y). exfalso. apply X. exact (H2 _ _ _ _ _ Y Et).
        -- destruct (H5 f K) as (A & B & C & D). auto.
      * intros a t K. destruct (H6 a t K) as (A & B & C). auto.
    + rewrite map_app. exact N1.
    + intros th X.
      assert (D : t_number th <> i).
      { intros E. apply N. apply in_app_or in X. apply in_or_app. destruct X; [left|right]; apply in_map_iff; exists th; auto. }
      rewrite !upd_other by exact D. destruct (T th) as (A & b & B & C).
      { apply in_app_or in X. apply in_or_app. cbn. tauto. }
      split; [exact A|]. exists b. split; [|exact C]. intros f b' w Hf. destruct (B f b' w Hf). split; [apply in_or_app; auto|auto].
    + intros j Hj. assert (D : j <> i) by lia. rewrite !upd_other by exact D. apply L. exact Hj.
Qed.

Lemma reads_before : forall q q', pool_steps q q' -> reads_ok q' -> reads_ok q.
Proof.
  intros q q' H R path text W. destruct (steps_trace _ _ _ _ _ H) as (tr & E). apply (R path). rewrite E.
  apply was_read_app_l. exact W.
Qed.
Lemma reads_step : forall q q', pool_step q q' -> reads_ok q' -> reads_ok q.
Proof. intros q q' H. apply reads_before. eapply steps_more; [apply steps_none|exact H]. Qed.

Lemma steps_ok : forall q q' F, pool_ok q F -> pool_steps q q' -> reads_ok q' -> pool_ok q' F.
Proof.
  intros q q' F H S. induction S as [|q1 q2 q3 S IH St]; intros R; [exact H|].
  eapply step_ok; [apply IH; [exact H|eapply reads_step; eauto]|exact St|exact R].
Qed.

Lemma c43_installed : forall q f, pool_steps first_pool q -> reads_ok q -> In f (p_known q) ->
  finished (x_private (m_extractor (p_memory q) f)) (trie_in (p_memory q) f).
Proof.
  intros q f S R K. destruct (steps_ok _ _ _ first_ok S R) as (OT & OX & [H1 H2 H3 H4 H5 H6] & _).
  destruct (H5 f K) as (_ & _ & A & _). exact A.
Qed.

(** ** One Extract among others *)

Lemma answers_frozen : forall a t m (p : prog answer) o tr m' p' (q : pool) F,
  answers a t p o -> pool_ok q F -> p_memory q = m -> In (a, t) F -> advance m p tr m' p' -> answers a t p' o.
Proof.
  intros a t m p o tr m' p' q F H (OT & OX & [H1 H2 H3 H4 H5 H6] & _) Em K Ad.
  destruct (H6 a t K) as (_ & B & _). rewrite Em in B.
  destruct p as [r|R op k|R op k]; cbn [advance] in Ad; [contradiction| |].
  - destruct H.
  - destruct op; cbn [answers] in H; try contradiction. destruct H as (-> & H). destruct Ad as (_ & _ & ->).
    cbn [mem_step fst]. rewrite B. exact H.
Qed.

Definition wrapped (t : trie) (p : url_params) : outcome answer := r <- extract ext t p ;; Ret (FromExtract r).

Lemma c43_atomic : forall q1 m known ts n tr f p q3 o,
  pool_steps first_pool q1 -> q1 = mkPool m known ts n tr -> In f known ->
  let q2 := mkPool m known (ts ++ [mkThread n (CallExtract f p) (program (CallExtract f p))]) (S n) tr in
  pool_steps q2 q3 -> reads_ok q3 -> In (mkThread n (CallExtract f p) (Done o)) (p_threads q3) ->
  exists q, pool_steps q2 q /\ pool_steps q q3 /\ o = wrapped (trie_in (p_memory q) f) p.
Proof.
  intros q1 m known ts n tr f p q3 o S1 E1 K q2 S2 R3 X.
  assert (R2 : reads_ok q2) by (eapply reads_before; eauto).
  assert (St : pool_step q1 q2) by (subst q1; apply starts; exact K).
  assert (R1 : reads_ok q1) by (eapply reads_step; eauto).
  assert (Ok1 : pool_ok q1 []) by (eapply steps_ok; [apply first_ok|exact S1|exact R1]).
  assert (Ok2 : pool_ok q2 []) by (eapply step_ok; [exact Ok1|exact St|exact R2]).
  assert (P : forall q, pool_steps q2 q -> reads_ok q -> (n < p_count q)%nat /\ In f (p_known q) /\ pool_ok q [] /\
    forall rest c, In (mkThread n c rest) (p_threads q) -> c = CallExtract f p /\
      (rest = program (CallExtract f p) \/
       exists qk F, pool_steps q2 qk /\ pool_steps qk q /\
         pool_ok q F /\ In (x_trie (m_extractor (p_memory qk) f), trie_in (p_memory qk) f) F /\
         answers (x_trie (m_extractor (p_memory qk) f)) (trie_in (p_memory qk) f) rest (wrapped (trie_in (p_memory qk) f) p))).
  { intros q S. remember q2 as q0 eqn:E0. induction S as [q|qa qb qc S IH Sb]; intros Rc.
    - subst q. split; [cbn; lia|]. split; [exact K|]. split; [exact Ok2|]. intros rest c H.
      cbn [p_threads q2] in H. apply in_app_or in H. destruct H as [H|[H|[]]].
      + destruct Ok1 as (OT & OX & _ & _ & T & _). rewrite E1 in T. cbn [p_threads p_count] in T.
        destruct (T _ H) as (A & _). cbn [t_number] in A. lia.
      + injection H as <- <-. auto.
    - specialize (IH E0 S2 R2 St Ok2 (reads_step _ _ Sb Rc)). subst qa. destruct IH as (Ln & Kn & Okb & Th).
      assert (Okc : pool_ok qc []) by (eapply step_ok; [exact Okb|exact Sb|exact Rc]).
      assert (Mono : forall F, pool_ok qb F -> pool_ok qc F) by (intros F HF; eapply step_ok; [exact HF|exact Sb|exact Rc]).
      assert (Old : forall rest c, In (mkThread n c rest) (p_threads qb) -> c = CallExtract f p /\
        (rest = program (CallExtract f p) \/
         exists qk F, pool_steps q2 qk /\ pool_steps qk qc /\
           pool_ok qc F /\ In (x_trie (m_extractor (p_memory qk) f), trie_in (p_memory qk) f) F /\
           answers (x_trie (m_extractor (p_memory qk) f)) (trie_in (p_memory qk) f) rest (wrapped (trie_in (p_memory qk) f) p))).
      { intros rest c H. destruct (Th rest c H) as (A & [B|(qk & F & B1 & B2 & B3 & B4 & B5)]).
        - auto.
        - split; [exact A|]. right. exists qk, F. split; [exact B1|]. split; [eapply steps_more; eauto|]. auto. }
      destruct Sb as [m0 known0 ts0 n0 tr0 c0 M|m0 known0 ts1 i c0 p0 ts2 n0 tr0 tr' m' p' Ad|m0 known0 ts1 i c0 r ts2 n0 tr0];
        cbn [p_memory p_known p_threads p_count] in *.
      + split; [lia|]. split; [exact Kn|]. split; [exact Okc|]. intros rest c H. apply in_app_or in H.
        destruct H as [H|[H|[]]]; [apply Old; exact H|]. injection H as H _ _. lia.
      + split; [lia|]. split; [exact Kn|]. split; [exact Okc|]. intros rest c H. apply in_app_or in H.
        destruct H as [H|[H|H]]; [apply Old; apply in_or_app; auto| |apply Old; apply in_or_app; cbn; auto].
        injection H as -> -> ->. destruct (Th p0 c) as (A & B); [apply in_elt|]. split; [exact A|]. right.
        destruct B as [B|(qk & F & B1 & B2 & B3 & B4 & B5)].
        * set (qb := mkPool m0 known0 (ts1 ++ mkThread n c p0 :: ts2) n0 tr0) in *.
          exists qb, [(x_trie (m_extractor (p_memory qb) f), trie_in (p_memory qb) f)].
          split; [exact S|]. split; [eapply steps_more; [apply steps_none|apply works; exact Ad]|].
          split; [apply Mono; apply frozen_more; assumption|]. split; [left; reflexivity|].
          subst p0. unfold Calls.program, extract_prog, wrapped in *. rewrite extract_split.
          destruct (extract_front ext p) as [[x|[u host]]| |]; cbn [bind pbind ret mem_do advance] in *; try contradiction.
          destruct Ad as (_ & _ & ->). cbn [mem_step fst]. eapply answers_bind; [apply host_answers|].
          cbn [p_memory qb]. destruct (extract_host _ _ _ _); reflexivity.
        * exists qk, F. split; [exact B1|]. split; [eapply steps_more; [exact B2|apply works; exact Ad]|].
          split; [auto|]. split; [exact B4|]. eapply answers_frozen; [exact B5|exact B3|reflexivity|exact B4|exact Ad].
      + split; [lia|]. split; [apply in_or_app; auto|]. split; [exact Okc|]. intros rest c H. apply Old.
        apply in_app_or in H. apply in_or_app. cbn. tauto. }
  destruct (P q3 S2 R3) as (_ & _ & _ & T). destruct (T _ _ X) as (_ & [B|(qk & F & B1 & B2 & B3 & B4 & B5)]).
  - exists q3. split; [exact S2|]. split; [apply steps_none|].
    unfold Calls.program, extract_prog, wrapped in *. rewrite extract_split.
    destruct (extract_front ext p) as [[x|[u host]]| |]; cbn [bind pbind ret mem_do] in *; [|discriminate|..]; unfold ret in B; congruence.
  - exists qk. split; [exact B1|]. split; [exact B2|]. exact B5.
Qed.

(** ** Nothing but Update changes the list of an extractor *)

Lemma step_same : forall q q' F f, pool_ok q F -> pool_step q q' -> In f (p_known q) ->
  (forall th, In th (p_threads q) -> t_call th <> CallUpdate f) ->
  m_extractor (p_memory q') f = m_extractor (p_memory q) f.
Proof.
  intros q q' F f (OT & OX & O & N & T & L) S K U.
  destruct S as [m known ts n tr c M|m known ts1 i c p ts2 n tr tr' m' p' Ad|m known ts1 i c r ts2 n tr];
    cbn [p_memory p_known p_threads p_count p_trace] in *; try reflexivity.
  assert (In (mkThread i c p) (ts1 ++ mkThread i c p :: ts2)) as Hin by (apply in_elt).
  destruct (T _ Hin) as (Li & b & Sh & Sf). cbn [t_number t_call t_rest] in *.
  destruct p as [r|R o k|R o k]; cbn [advance] in Ad.
  - contradiction.
  - destruct Ad as (-> & _). reflexivity.
  - destruct Ad as (_ & -> & _). destruct (mem_owned _ _ _ _ _ _ _ _ _ _ _ _ O Sh Sf) as (ot & ox & _ & _ & Pr).
    apply (Pr f K). specialize (U _ Hin). cbn [t_call] in U. intros b' X. destruct c as [l|g|g u]; cbn [shared] in X; try discriminate.
    + destruct (Nat.eqb_spec f g) as [-> |]; [apply U; reflexivity|discriminate].
    + destruct (Nat.eqb f g); discriminate.
Qed.
Lemma quiet_all : forall f q q', quiet_steps to_ascii hardcoded ext f q q' -> pool_steps q q'.
Proof. intros f q q' H. induction H as [|q1 q2 q3 H IH S U]; [apply steps_none|]. eapply steps_more; eauto. Qed.
Lemma quiet_same : forall f q q', quiet_steps to_ascii hardcoded ext f q q' ->
  pool_ok q [(x_trie (m_extractor (p_memory q) f), trie_in (p_memory q) f)] -> In f (p_known q) -> reads_ok q' ->
  m_extractor (p_memory q') f = m_extractor (p_memory q) f /\ trie_in (p_memory q') f = trie_in (p_memory q) f
  /\ In f (p_known q').
Proof.
  intros f q q' H Ok K. set (F := [_]) in *.
  assert (P : reads_ok q' -> pool_ok q' F /\ In f (p_known q') /\ m_extractor (p_memory q') f = m_extractor (p_memory q) f).
  { induction H as [|q1 q2 q3 H IH S U]; intros R; [auto|]. destruct (IH Ok K (reads_step _ _ S R)) as (Ok2 & K2 & E2).
    split; [eapply step_ok; eauto|]. split.
    - destruct S; cbn [p_known] in *; auto. apply in_or_app. auto.
    - rewrite (step_same _ _ _ f Ok2 S K2 U). exact E2. }
  intros R. destruct (P R) as (Ok2 & K2 & E). split; [exact E|]. split; [|exact K2].
  destruct Ok2 as (OT & OX & [_ _ _ _ _ H6] & _). destruct (H6 _ _ (or_introl eq_refl)) as (_ & B & _).
  unfold trie_in at 1. rewrite E. exact B.
Qed.

Lemma c52_thread : forall q1 m known ts n tr f p q3 o,
  pool_steps first_pool q1 -> q1 = mkPool m known ts n tr -> In f known ->
  let q2 := mkPool m known (ts ++ [mkThread n (CallExtract f p) (program (CallExtract f p))]) (S n) tr in
  quiet_steps to_ascii hardcoded ext f q2 q3 -> reads_ok q3 -> In (mkThread n (CallExtract f p) (Done o)) (p_threads q3) ->
  o = wrapped (trie_in m f) p.
Proof.
  intros q1 m known ts n tr f p q3 o S1 E1 K q2 Q2 R3 X.
  assert (R2 : reads_ok q2) by (eapply reads_before; [eapply quiet_all; exact Q2|exact R3]).
  assert (St : pool_step q1 q2) by (subst q1; apply starts; exact K).
  assert (Ok1 : pool_ok q1 []) by (eapply steps_ok; [apply first_ok|exact S1|eapply reads_step; eauto]).
  assert (Ok2 : pool_ok q2 []) by (eapply step_ok; [exact Ok1|exact St|exact R2]).
  set (a := x_trie (m_extractor m f)). set (t := trie_in m f).
  assert (OkF : pool_ok q2 [(a, t)]) by (apply (frozen_more q2 [] f Ok2 K)).
  assert (P : forall q, quiet_steps to_ascii hardcoded ext f q2 q -> reads_ok q ->
    (n < p_count q)%nat /\ In f (p_known q) /\ pool_ok q [(a, t)] /\ m_extractor (p_memory q) f = m_extractor m f /\
    forall rest c, In (mkThread n c rest) (p_threads q) -> rest = program (CallExtract f p) \/ answers a t rest (wrapped t p)).
  { intros q S. remember q2 as q0 eqn:E0. induction S as [q|qa qb qc S IH Sb U]; intros Rc.
    - subst q. split; [cbn; lia|]. split; [exact K|]. split; [exact OkF|]. split; [reflexivity|]. intros rest c H.
      cbn [p_threads q2] in H. apply in_app_or in H. destruct H as [H|[H|[]]].
      + destruct Ok1 as (OT & OX & _ & _ & T & _). rewrite E1 in T. cbn [p_threads p_count] in T.
        destruct (T _ H) as (A & _). cbn [t_number] in A. lia.
      + injection H as <- <-. auto.
    - destruct (IH E0 Q2 R2 St Ok2 OkF (reads_step _ _ Sb Rc)) as (Ln & Kn & Okb & Eb & Th). clear IH.
      assert (Okc : pool_ok qc [(a, t)]) by (eapply step_ok; [exact Okb|exact Sb|exact Rc]).
      assert (Ec : m_extractor (p_memory qc) f = m_extractor m f) by (rewrite (step_same _ _ _ f Okb Sb Kn U); exact Eb).
      destruct Sb as [m0 known0 ts0 n0 tr0 c0 M|m0 known0 ts1 i c0 p0 ts2 n0 tr0 tr' m' p' Ad|m0 known0 ts1 i c0 r ts2 n0 tr0];
        cbn [p_memory p_known p_threads p_count] in *.
      + split; [lia|]. split; [exact Kn|]. split; [exact Okc|]. split; [exact Ec|]. intros rest c H. apply in_app_or in H.
        destruct H as [H|[H|[]]]; [eapply Th; exact H|]. injection H as H _ _. lia.
      + split; [lia|]. split; [exact Kn|]. split; [exact Okc|]. split; [exact Ec|]. intros rest c H. apply in_app_or in H.
        destruct H as [H|[H|H]]; [eapply Th; apply in_or_app; left; exact H| |eapply Th; apply in_or_app; right; right; exact H].
        injection H as -> -> ->. right. destruct (Th p0 c) as [B|B]; [apply in_elt| |].
        * subst p0. unfold Calls.program, extract_prog, wrapped in *. rewrite extract_split.
          destruct (extract_front ext p) as [[x|[u host]]| |]; cbn [bind pbind ret mem_do advance] in *; try contradiction.
          destruct Ad as (_ & _ & ->). cbn [mem_step fst]. rewrite Eb. eapply answers_bind; [apply host_answers|].
          destruct (extract_host _ _ _ _); reflexivity.
        * eapply answers_frozen; [exact B|exact Okb|reflexivity|left; reflexivity|exact Ad].
      + split; [lia|]. split; [apply in_or_app; auto|]. split; [exact Okc|]. split; [exact Ec|]. intros rest c H.
        apply (Th rest c). apply in_app_or in H. apply in_or_app. cbn. tauto. }
  destruct (P q3 Q2 R3) as (_ & _ & _ & _ & T). destruct (T _ _ X) as [B|B]; [|exact B].
  unfold Calls.program, extract_prog, wrapped in *. rewrite extract_split.
  destruct (extract_front ext p) as [[x|[u host]]| |]; cbn [bind pbind ret mem_do] in *; [|discriminate|..]; unfold ret in B; congruence.
Qed.
End Pools.

(** The texts read so far, and the built-in one. *)
Definition read_texts (hardcoded : bytes) (tr : list event) (text : bytes) : Prop :=
  text = hardcoded \/ exists path, was_read tr path text.

Lemma c43_serves : forall to_ascii hardcoded ext q f,
  pool_steps to_ascii hardcoded ext first_pool q -> In f (p_known q) ->
  exists text, (text = hardcoded \/ exists path, was_read (p_trace q) path text)
    /\ serves to_ascii (p_memory q) f (x_private (m_extractor (p_memory q) f)) text.
Proof.
  intros to_ascii hardcoded ext q f S K.
  destruct (c43_installed to_ascii hardcoded ext (read_texts hardcoded (p_trace q)) (or_introl eq_refl) q f S)
    as (text & rules & R & U & B); [intros path text W; right; exists path; exact W|exact K|].
  exists text. split; [exact R|]. exists rules. auto.
Qed.

Lemma pool_known : forall to_ascii hardcoded ext q q', pool_steps to_ascii hardcoded ext q q' ->
  incl (p_known q) (p_known q').
Proof.
  intros to_ascii hardcoded ext q q' S. induction S as [|q1 q2 q3 S IH St]; [apply incl_refl|].
  intros f K. apply IH in K. destruct St; cbn [p_known] in *; auto. apply in_or_app. auto.
Qed.

Lemma c43_isolated : forall to_ascii hardcoded ext m known ts n tr f p q3 o,
  pool_steps to_ascii hardcoded ext first_pool (mkPool m known ts n tr) -> In f known ->
  let q2 := mkPool m known (ts ++ [mkThread n (CallExtract f p) (program to_ascii hardcoded ext (CallExtract f p))]) (S n) tr in
  pool_steps to_ascii hardcoded ext q2 q3 -> In (mkThread n (CallExtract f p) (Done o)) (p_threads q3) ->
  exists q text r, pool_steps to_ascii hardcoded ext q2 q /\ pool_steps to_ascii hardcoded ext q q3
    /\ (text = hardcoded \/ exists path, was_read (p_trace q) path text)
    /\ serves to_ascii (p_memory q) f (x_private (m_extractor (p_memory q) f)) text
    /\ extract ext (trie_in (p_memory q) f) p = Ret r /\ o = Ret (FromExtract r).
Proof.
  intros to_ascii hardcoded ext m known ts n tr f p q3 o S1 K q2 S2 X.
  destruct (c43_atomic to_ascii hardcoded ext (fun _ => True) I _ m known ts n tr f p q3 o S1 eq_refl K S2) as (q & A & B & C);
    [intros path text W; exact I|exact X|].
  assert (S3 : pool_steps to_ascii hardcoded ext first_pool q).
  { eapply steps_trans; [|exact A]. eapply steps_more; [exact S1|]. apply starts. exact K. }
  destruct (c43_serves _ _ _ q f S3) as (text & R & Sv).
  { apply (pool_known _ _ _ _ _ A). exact K. }
  destruct (c01 ext (trie_in (p_memory q) f) p) as (r & e & E). exists q, text, (r, e).
  split; [exact A|]. split; [exact B|]. split; [exact R|]. split; [exact Sv|]. split; [exact E|].
  unfold wrapped in C. rewrite E in C. exact C.
Qed.

(** ** Extractors that are not being updated *)

Lemma c52_quiet : forall to_ascii hardcoded ext q q' f,
  pool_steps to_ascii hardcoded ext first_pool q -> In f (p_known q) -> quiet_steps to_ascii hardcoded ext f q q' ->
  m_extractor (p_memory q') f = m_extractor (p_memory q) f /\ trie_in (p_memory q') f = trie_in (p_memory q) f.
Proof.
  intros to_ascii hardcoded ext q q' f S K Q.
  assert (R : forall q, reads_ok (fun _ => True) q) by (intros q0 path text W; exact I).
  destruct (quiet_same to_ascii hardcoded ext (fun _ => True) I f q q' Q) as (A & B & _); auto.
  apply frozen_more; [|exact K]. eapply steps_ok; [exact I|apply first_ok|exact S|apply R].
Qed.

Lemma c52_extract : forall to_ascii hardcoded ext m known ts n tr f p q3 o,
  pool_steps to_ascii hardcoded ext first_pool (mkPool m known ts n tr) -> In f known ->
  let q2 := mkPool m known (ts ++ [mkThread n (CallExtract f p) (program to_ascii hardcoded ext (CallExtract f p))]) (S n) tr in
  quiet_steps to_ascii hardcoded ext f q2 q3 -> In (mkThread n (CallExtract f p) (Done o)) (p_threads q3) ->
  exists r, extract ext (trie_in m f) p = Ret r /\ o = Ret (FromExtract r).
Proof.
  intros to_ascii hardcoded ext m known ts n tr f p q3 o S1 K q2 Q X.
  pose proof (c52_thread to_ascii hardcoded ext (fun _ => True) I _ m known ts n tr f p q3 o S1 eq_refl K Q
    (fun _ _ _ => I) X) as E.
  destruct (c01 ext (trie_in m f) p) as (r & e & E'). exists (r, e). split; [exact E'|]. unfold wrapped in E. rewrite E' in E. exact E.
Qed.
