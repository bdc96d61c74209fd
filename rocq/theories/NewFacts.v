(** NewFacts.v - what New does, in any environment. *)

From Verif Require Import Base BaseFacts Chars Str Trie Psl ListSpec ListFacts World Update UpdateSpec WorldFacts.
From Coq Require Import ZifyBool ZifyNat ZifyN.

Section New.
Variable E : Type.
Variable step : forall R : Type, sys R -> E -> R -> E -> Prop.
Variable to_ascii : bytes -> option bytes.
Variable hardcoded : bytes.
Local Notation new := (new to_ascii hardcoded).
Local Notation new_hardcoded_psl := (new_hardcoded_psl to_ascii hardcoded).
Local Notation new_from_cache := (new_from_cache to_ascii hardcoded).
Local Notation update := (update to_ascii hardcoded).
Local Notation serves := (serves to_ascii).

(** The memory after the first two allocations of New, and after setting the default path. *)
Definition start_memory (m : memory) (path : bytes) (private : bool) : memory :=
  mkMemory (upd (m_trie m) (m_next_trie m) empty_trie) (S (m_next_trie m))
           (upd (m_extractor m) (m_next_extractor m) (mkExtractor path (m_next_trie m) private))
           (S (m_next_extractor m)).
Definition default_memory (m : memory) (path : bytes) (private : bool) (path' : bytes) : memory :=
  set_extractor (start_memory m path private) (m_next_extractor m) (mkExtractor path' (m_next_trie m) private).

Lemma start_keeps : forall m path private, keeps_tries m (start_memory m path private).
Proof.
  intros m path private. split; cbn [start_memory m_next_trie m_trie]; [lia|].
  intros b Hb. apply upd_other. lia.
Qed.

Lemma default_keeps : forall m path private path', keeps_tries m (default_memory m path private path').
Proof. intros m path private path'. exact (start_keeps m path private). Qed.

Lemma new_from_cache_runs : forall n f path e m tr e' m' r,
  runs step (new_from_cache n f path) e m tr e' m' r -> (f < m_next_extractor m)%nat ->
  keeps_tries m m' /\ (forall g, (g < m_next_extractor m)%nat -> g <> f -> m_extractor m' g = m_extractor m g) /\
  ((path = [] /\ tr = [] /\ e' = e /\ r = Ret (f, None) /\ serves m' f (lp_private n) hardcoded
      /\ m_extractor m' f = mkExtractor (x_path (m_extractor m f)) (m_next_trie m) (x_private (m_extractor m f))
      /\ m_next_extractor m' = m_next_extractor m /\ m_next_trie m' = S (m_next_trie m))
   \/ (path <> [] /\ exists x, step _ (ReadFile path) e x e' /\ tr = [Event (ReadFile path) x] /\
       match x with
       | Some text => r = Ret (f, None) /\ serves m' f (lp_private n) text
           /\ m_extractor m' f = mkExtractor (x_path (m_extractor m f)) (m_next_trie m) (x_private (m_extractor m f))
           /\ m_next_extractor m' = m_next_extractor m /\ m_next_trie m' = S (m_next_trie m)
       | None => r = Ret (m_next_extractor m, None) /\ serves m' (m_next_extractor m) (lp_private n) hardcoded
           /\ m_extractor m' (m_next_extractor m) = mkExtractor [] (S (m_next_trie m)) (lp_private n)
           /\ m_extractor m' f = m_extractor m f
           /\ m_next_extractor m' = S (m_next_extractor m) /\ (S (m_next_trie m) < m_next_trie m')%nat
       end)).
Proof.
  intros n f path e m tr e' m' r H Hf. unfold Update.new_from_cache in H.
  apply runs_bind in H as (tr1 & e1 & m1 & o & H & K).
  apply trie_construct_runs in H as (Kt & X & Y & Z & [(P & -> & -> & -> & B)|(P & x & S & -> & B)]).
  - destruct K as (tr2 & -> & K). cbn [pbind mem_do mem_step ret runs] in K. destruct K as (-> & -> & -> & ->).
    split; [exact Kt|]. cbn [set_extractor m_extractor m_next_extractor m_next_trie]. rewrite X.
    split; [intros g _ Hg; apply upd_other; exact Hg|]. left. rewrite upd_same.
    split; [exact P|]. split; [reflexivity|]. split; [reflexivity|]. split; [reflexivity|]. split; [|auto].
    destruct B as (rules & U & B). exists rules. split; [exact U|]. unfold trie_in. cbn [set_extractor m_extractor m_trie].
    rewrite upd_same. exact B.
  - destruct x as [text|].
    + destruct B as (-> & B). destruct K as (tr2 & -> & K). cbn [pbind mem_do mem_step ret runs] in K.
      destruct K as (-> & -> & -> & ->). split; [exact Kt|]. cbn [set_extractor m_extractor m_next_extractor m_next_trie]. rewrite X.
      split; [intros g _ Hg; apply upd_other; exact Hg|]. right. split; [exact P|]. exists (Some text). rewrite upd_same.
      split; [exact S|]. split; [reflexivity|]. split; [reflexivity|]. split; [|auto].
      destruct B as (rules & U & B). exists rules. split; [exact U|]. unfold trie_in. cbn [set_extractor m_extractor m_trie].
      rewrite upd_same. exact B.
    + subst o. destruct K as (tr2 & -> & K). apply new_hardcoded_runs in K as (-> & -> & Kt2 & -> & Ne & Ho & Hx & Hn & Sv).
      rewrite Y, Z in *. split; [eapply keeps_trans; eauto|]. rewrite <- X.
      split; [intros g Hg _; apply Ho; lia|]. right. split; [exact P|]. exists None.
      split; [exact S|]. split; [reflexivity|]. split; [reflexivity|]. split; [exact Sv|]. split; [exact Hx|].
      split; [apply Ho; lia|]. auto.
Qed.

Lemma update_returns : forall f e m tr e' m' r, runs step (update f) e m tr e' m' r -> exists u, r = Ret u.
Proof.
  intros f e m tr e' m' r H.
  apply update_runs in H as (temp & e1 & tr1 & S & -> & [(N & -> & _)|(P & file & e2 & tr2 & S2 & -> & [(-> & -> & _)|(fd & tr3 & tr4 & e3 & u & -> & -> & Hu & [(er & -> & -> & _)|(-> & x & S3 & -> & Kt & Ne & Nt & Hx)])])]);
    eauto. destruct x; destruct Hx as (-> & _); eauto.
Qed.

Lemma new_runs : forall n e m tr e' m' r, runs step (new n) e m tr e' m' r ->
  let f := m_next_extractor m in
  let m0 := start_memory m (lp_path n) (lp_private n) in
  exists tr0 e0 valid age tr1, runs step (check_cache_file (lp_path n)) e m0 tr0 e0 m0 (Ret (valid, age))
  /\ tr = tr0 ++ tr1 /\
  ((valid = true /\ runs step (new_from_cache n f (lp_path n)) e0 m0 tr1 e' m' r)
   \/ (valid = false /\ exists temp e1 opened e2 tr2, step _ TempDir e0 temp e1 /\ step _ (OpenDir temp) e1 opened e2
       /\ tr1 = Event TempDir temp :: Event (OpenDir temp) opened :: tr2 /\
       ((opened = false /\ runs step (new_hardcoded_psl n) e2 m0 tr2 e' m' r)
        \/ (opened = true /\
            let path := temp ++ default_psl_file_name in
            let m1 := default_memory m (lp_path n) (lp_private n) path in
            exists valid' age' tr3 tr4 e3,
            runs step (check_cache_file path) e2 m1 tr3 e3 m1 (Ret (valid', age')) /\ tr2 = tr3 ++ tr4 /\
            ((valid' = true /\ (age' <= psl_max_age)%Z /\ runs step (new_from_cache n f path) e3 m1 tr4 e' m' r)
             \/ ((valid' = false \/ (psl_max_age < age')%Z) /\ exists tr5 tr6 e5 m5 u,
                 runs step (update f) e3 m1 tr5 e5 m5 (Ret u) /\ tr4 = tr5 ++ tr6 /\
                 match u with
                 | Some _ => runs step (new_hardcoded_psl n) e5 m5 tr6 e' m' r
                 | None => tr6 = [] /\ e' = e5 /\ m' = m5 /\ r = Ret (f, None)
                 end)))))).
Proof.
  intros n e m tr e' m' r H f m0. unfold Update.new in H. cbn [pbind mem_do mem_step ret runs] in H.
  change (m_next_extractor (mkMemory _ _ _ _)) with f in H. cbn [m_trie m_next_trie m_extractor m_next_extractor] in H.
  fold f in H. change (mkMemory _ _ _ _) with m0 in H.
  apply runs_bind in H as (tr0 & e0 & m0' & o & H & K).
  pose proof (check_cache_runs _ _ _ _ _ _ _ _ _ H) as (-> & valid & age & -> & _).
  destruct K as (tr1 & -> & K). exists tr0, e0, valid, age, tr1. split; [exact H|]. split; [reflexivity|].
  destruct valid; cbn [negb] in K; [left; auto|]. right. split; [reflexivity|].
  cbn [pbind sys_do ret runs] in K. destruct K as (temp & e1 & tr1' & S1 & -> & opened & e2 & tr2 & S2 & -> & K).
  exists temp, e1, opened, e2, tr2. split; [exact S1|]. split; [exact S2|]. split; [reflexivity|].
  destruct opened; cbn [negb] in K; [|left; auto]. right. split; [reflexivity|]. intros path m1.
  cbn [pbind mem_do mem_step ret runs] in K. fold path in K.
  assert (M1 : set_extractor m0 f (mkExtractor path (x_trie (m_extractor m0 f)) (x_private (m_extractor m0 f))) = m1).
  { unfold m1, default_memory, m0, start_memory. cbn [m_extractor]. fold f. rewrite upd_same. reflexivity. }
  rewrite M1 in K. clear M1.
  apply runs_bind in K as (tr3 & e3 & m1' & o & G & K).
  pose proof (check_cache_runs _ _ _ _ _ _ _ _ _ G) as (-> & valid' & age' & -> & _).
  destruct K as (tr4 & -> & K). exists valid', age', tr3, tr4, e3. split; [exact G|]. split; [reflexivity|].
  destruct (negb valid' || (age' >? psl_max_age)%Z) eqn:C.
  - right. split; [destruct valid'; [right; lia|left; reflexivity]|].
    apply runs_bind in K as (tr5 & e5 & m5 & o & U & K). destruct (update_returns _ _ _ _ _ _ _ U) as (u & ->).
    destruct K as (tr6 & -> & K). exists tr5, tr6, e5, m5, u. split; [exact U|]. split; [reflexivity|].
    destruct u; exact K.
  - left. split; [destruct valid'; [reflexivity|discriminate]|]. split; [lia|]. exact K.
Qed.

(** ** New always returns an extractor, leaves the others alone *)

Lemma was_read_app_r : forall tr1 tr2 p c, was_read tr2 p c -> was_read (tr1 ++ tr2) p c.
Proof. intros tr1 tr2 p c (e & H & X). exists e. split; [apply in_or_app; auto|exact X]. Qed.
Lemma was_read_here : forall tr p c, was_read (Event (ReadFile p) (Some c) :: tr) p c.
Proof. intros tr p c. eexists. split; [left; reflexivity|reflexivity]. Qed.
Lemma was_read_cons : forall e tr p c, was_read tr p c -> was_read (e :: tr) p c.
Proof. intros e tr p c (x & H & X). exists x. split; [right; exact H|exact X]. Qed.

(** What New leaves behind. *)
Definition new_effect (m m' : memory) (f : nat) : Prop :=
  keeps_tries m m' /\ (m_next_extractor m <= f < m_next_extractor m')%nat
  /\ (forall g, (g < m_next_extractor m)%nat -> m_extractor m' g = m_extractor m g)
  /\ (forall g, (m_next_extractor m <= g < m_next_extractor m')%nat -> (x_trie (m_extractor m' g) < m_next_trie m')%nat).

Lemma new_outcome : forall n e m tr e' m' r, runs step (new n) e m tr e' m' r ->
  exists f, r = Ret (f, None) /\ new_effect m m' f /\ x_private (m_extractor m' f) = lp_private n /\
  ((serves m' f (lp_private n) hardcoded /\ x_path (m_extractor m' f) = [])
   \/ exists path text, was_read tr path text /\ serves m' f (lp_private n) text /\ x_path (m_extractor m' f) = path).
Proof.
  intros n e m tr e' m' r H. apply new_runs in H.
  destruct H as (tr0 & e0 & valid & age & tr1 & C & -> & H). set (f := m_next_extractor m) in *.
  set (m0 := start_memory m (lp_path n) (lp_private n)) in *.
  (* the fallback *)
  assert (Fall : forall tra e1 tr2 m1, runs step (new_hardcoded_psl n) e1 m1 tr2 e' m' r -> keeps_tries m m1 ->
    m_next_extractor m1 = S f -> (forall g, (g < f)%nat -> m_extractor m1 g = m_extractor m g) ->
    (x_trie (m_extractor m1 f) < m_next_trie m1)%nat ->
    exists f, r = Ret (f, None) /\ new_effect m m' f /\ x_private (m_extractor m' f) = lp_private n /\
    ((serves m' f (lp_private n) hardcoded /\ x_path (m_extractor m' f) = [])
     \/ exists path text, was_read (tra ++ tr2) path text /\ serves m' f (lp_private n) text /\ x_path (m_extractor m' f) = path)).
  { intros tra e1 tr2 m1 G Kt Nx Ho Hx. apply new_hardcoded_runs in G as (-> & -> & Kt2 & -> & Ne & Ho2 & Hx2 & Hn & Sv).
    rewrite Nx in *. exists (S f). split; [reflexivity|]. split; [|rewrite Hx2; split; [reflexivity|]; left; auto].
    split; [eapply keeps_trans; eauto|]. rewrite Ne. fold f. split; [lia|].
    split; [intros g Hg; rewrite Ho2 by lia; apply Ho; exact Hg|].
    intros g Hg. destruct (Nat.eq_dec g (S f)) as [->|D]; [rewrite Hx2; exact Hn|]. replace g with f by lia.
    rewrite Ho2 by lia. destruct Kt2 as [L _]. lia. }
  (* construction from a file *)
  assert (Cache : forall tra path e1 tr2 m1, runs step (new_from_cache n f path) e1 m1 tr2 e' m' r -> keeps_tries m m1 ->
    m_next_extractor m1 = S f -> (forall g, (g < f)%nat -> m_extractor m1 g = m_extractor m g) ->
    (x_trie (m_extractor m1 f) < m_next_trie m1)%nat -> x_path (m_extractor m1 f) = path ->
    x_private (m_extractor m1 f) = lp_private n ->
    exists f, r = Ret (f, None) /\ new_effect m m' f /\ x_private (m_extractor m' f) = lp_private n /\
    ((serves m' f (lp_private n) hardcoded /\ x_path (m_extractor m' f) = [])
     \/ exists path text, was_read (tra ++ tr2) path text /\ serves m' f (lp_private n) text /\ x_path (m_extractor m' f) = path)).
  { intros tra path e1 tr2 m1 G Kt Nx Ho Hx Hp Hq.
    apply new_from_cache_runs in G as (Kt2 & Ho2 & [(P & -> & -> & -> & Sv & Hx2 & Ne & Nt)|(P & x & Sr & -> & G)]); [| |lia].
    - exists f. split; [reflexivity|]. split; [|rewrite Hx2; cbn [x_private x_path]; split; [exact Hq|]; left; split; [exact Sv|congruence]].
      split; [eapply keeps_trans; eauto|]. fold f. rewrite Ne, Nx in *. split; [lia|].
      split; [intros g Hg; rewrite Ho2 by lia; apply Ho; exact Hg|].
      intros g Hg. replace g with f by lia. rewrite Hx2. cbn [x_trie]. lia.
    - destruct x as [text|].
      + destruct G as (-> & Sv & Hx2 & Ne & Nt).
        exists f. split; [reflexivity|]. split; [|rewrite Hx2; cbn [x_private x_path]; split; [exact Hq|]; right].
        * split; [eapply keeps_trans; eauto|]. fold f. rewrite Ne, Nx in *. split; [lia|].
          split; [intros g Hg; rewrite Ho2 by lia; apply Ho; exact Hg|].
          intros g Hg. replace g with f by lia. rewrite Hx2. cbn [x_trie]. lia.
        * exists path, text. split; [apply was_read_app_r, was_read_here|]. split; [exact Sv|exact Hp].
      + destruct G as (-> & Sv & Hx2 & Hf & Ne & Nt). rewrite Nx in *.
        exists (S f). split; [reflexivity|]. split; [|rewrite Hx2; cbn [x_private x_path]; split; [reflexivity|]; left; auto].
        split; [eapply keeps_trans; eauto|]. fold f. rewrite Ne. split; [lia|].
        split; [intros g Hg; rewrite Ho2 by lia; apply Ho; exact Hg|].
        intros g Hg. destruct (Nat.eq_dec g (S f)) as [->|D]; [rewrite Hx2; cbn [x_trie]; lia|]. replace g with f by lia.
        rewrite Hf. lia. }
  assert (M0o : forall g, (g < f)%nat -> m_extractor m0 g = m_extractor m g) by (intros g Hg; apply upd_other; lia).
  assert (M0f : m_extractor m0 f = mkExtractor (lp_path n) (m_next_trie m) (lp_private n)) by apply upd_same.
  destruct H as [(_ & H)|(_ & temp & e1 & opened & e2 & tr2 & S1 & S2 & -> & H)].
  - apply (Cache tr0 _ _ _ _ H); auto.
    + apply start_keeps.
    + rewrite M0f. cbn. lia.
    + rewrite M0f. reflexivity.
    + rewrite M0f. reflexivity.
  - destruct H as [(_ & H)|(_ & H)].
    + replace (tr0 ++ Event TempDir temp :: Event (OpenDir temp) opened :: tr2)
        with ((tr0 ++ [Event TempDir temp; Event (OpenDir temp) opened]) ++ tr2) by (rewrite <- app_assoc; reflexivity).
      apply (Fall _ _ _ _ H); auto; [apply start_keeps|]. rewrite M0f. cbn. lia.
    + destruct H as (valid' & age' & tr3 & tr4 & e3 & C' & -> & H).
      set (path := temp ++ default_psl_file_name) in *. set (m1 := default_memory m (lp_path n) (lp_private n) path) in *.
      assert (M1o : forall g, (g < f)%nat -> m_extractor m1 g = m_extractor m g).
      { intros g Hg. unfold m1, default_memory. cbn [set_extractor m_extractor]. rewrite upd_other by (fold f; lia). apply M0o. exact Hg. }
      assert (M1f : m_extractor m1 f = mkExtractor path (m_next_trie m) (lp_private n)) by apply upd_same.
      assert (Pne : path <> []) by (unfold path; intros X; apply app_eq_nil in X as [_ X]; discriminate).
      replace (tr0 ++ Event TempDir temp :: Event (OpenDir temp) opened :: tr3 ++ tr4)
        with ((tr0 ++ [Event TempDir temp; Event (OpenDir temp) opened] ++ tr3) ++ tr4) by (rewrite <- !app_assoc; reflexivity).
      set (tra := tr0 ++ _ ++ tr3).
      destruct H as [(_ & _ & H)|(_ & tr5 & tr6 & e5 & m5 & u & U & -> & H)].
      * apply (Cache tra _ _ _ _ H); auto.
        -- apply default_keeps.
        -- rewrite M1f. cbn. lia.
        -- rewrite M1f. reflexivity.
        -- rewrite M1f. reflexivity.
      * pose proof (default_keeps m (lp_path n) (lp_private n) path) as K1. fold m1 in K1.
        apply update_runs in U as (temp' & e1' & tr1' & S1' & -> & U).
        destruct U as [(N & X & -> & -> & ->)|(P & file & e2' & tr2' & S2' & -> & U)].
        { injection X as ->. cbn match in H.
          replace (tra ++ [Event TempDir temp'] ++ tr6) with ((tra ++ [Event TempDir temp']) ++ tr6) by (rewrite <- app_assoc; reflexivity).
          apply (Fall _ _ _ _ H); auto. rewrite M1f. cbn. lia. }
        destruct U as [(-> & X & -> & -> & ->)|(fd & tr3' & tr4' & e3' & u' & -> & -> & Hu & U)].
        { injection X as ->. cbn match in H.
          set (trb := Event TempDir temp' :: _ :: []) in *.
          replace (tra ++ trb ++ tr6) with ((tra ++ trb) ++ tr6) by (rewrite <- app_assoc; reflexivity).
          apply (Fall _ _ _ _ H); auto. rewrite M1f. cbn. lia. }
        set (trb := Event TempDir temp' :: Event (OpenWrite (temp' ++ default_psl_file_name)) (Some fd) :: tr3' ++ tr4') in *.
        replace (tra ++ trb ++ tr6) with ((tra ++ trb) ++ tr6) by (rewrite <- app_assoc; reflexivity).
        destruct U as [(er & -> & X & -> & -> & ->)|(-> & x & S3' & -> & Kt & Ne & Nt & U)].
        { injection X as ->. cbn match in H. apply (Fall _ _ _ _ H); auto. rewrite M1f. cbn. lia. }
        destruct x as [text|].
        -- destruct U as (X & Uo & Uf & Us). injection X as ->. destruct H as (-> & -> & -> & ->). exists f. split; [reflexivity|].
           rewrite M1f in *. cbn [x_private] in *. split.
           ++ split; [eapply keeps_trans; eauto|]. rewrite Ne. change (m_next_extractor m1) with (S f). fold f. split; [lia|].
              split; [intros g Hg; rewrite Uo by lia; apply M1o; exact Hg|].
              intros g Hg. replace g with f by lia. rewrite Uf. cbn [x_trie]. lia.
           ++ rewrite Uf. cbn [x_private x_path]. split; [reflexivity|]. right.
              exists (temp' ++ default_psl_file_name), text. split; [|split; [exact Us|reflexivity]].
              rewrite app_nil_r. apply was_read_app_r. unfold trb. do 2 apply was_read_cons. apply was_read_app_r, was_read_here.
        -- destruct U as (X & Uo). injection X as ->. cbn match in H. apply (Fall _ _ _ _ H); auto.
           ++ eapply keeps_trans; eauto.
           ++ rewrite Uo. exact M1o.
           ++ rewrite Uo, M1f. cbn [x_trie]. rewrite Nt. change (m_next_trie m1) with (S (m_next_trie m)). lia.
Qed.
End New.
