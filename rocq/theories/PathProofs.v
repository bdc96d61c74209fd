(** PathProofs.v - which file New uses, for all paths: proofs of C91. *)

From Verif Require Import Base BaseFacts Chars Str StrFacts Trie Psl ListSpec ListFacts World Update UpdateSpec WorldFacts
  NewFacts UpdateProofs DiskProofs DiskProofs2 EndProofs NewSpec NewProofs.
From Coq Require Import ZifyBool ZifyNat ZifyN.
Local Open Scope Z_scope.

Lemma default_nonempty : forall temp, temp ++ default_psl_file_name <> [].
Proof. intros temp X. apply app_eq_nil in X as [_ X]. discriminate. Qed.

(** If there is no list at the path without white space around it, New uses another list. *)
Lemma not_custom : forall to_ascii hardcoded n p d m tr d' m' r, disk_ok d -> trimmed white_space (lp_path n) p ->
  no_list_at d p -> runs disk_step (new to_ascii hardcoded n) d m tr d' m' r ->
  exists f, r = Ret (f, None) /\ (x_path (m_extractor m' f) = [] \/ x_path (m_extractor m' f) = default_path d).
Proof.
  intros to_ascii hardcoded n p d m tr d' m' r Ok T N H. apply new_runs in H.
  destruct H as (tr0 & d0 & valid & age & tr1 & C & -> & H).
  destruct (check_disk _ _ _ _ _ _ _ _ _ Ok T C) as (_ & Lt & _ & [(-> & text & mt & L & _)|(-> & _)]).
  { destruct (N _ _ L). }
  destruct H as [(X & _)|(_ & temp & d1 & opened & d2 & tr2 & (-> & ->) & (-> & ->) & -> & H)]; [discriminate|].
  assert (Hp : d_temp d0 ++ default_psl_file_name = default_path d) by exact (later_default _ _ Lt).
  destruct H as [(O & H)|(O & H)].
  { apply new_hardcoded_runs in H as (-> & -> & _ & -> & _ & _ & Hx & _). eexists. split; [reflexivity|]. rewrite Hx. auto. }
  cbn zeta in H. destruct H as (valid' & age' & tr3 & tr4 & d3 & _ & -> & H). rewrite Hp in *.
  destruct H as [(-> & Age & H)|(Inv & tr5 & tr6 & d5 & m5 & u & U & -> & H)].
  - apply new_from_cache_runs in H as (_ & _ & [(P & _)|(_ & x & _ & _ & H)]); [|destruct x as [text|]|apply Nat.lt_succ_diag_r].
    + rewrite <- Hp in P. destruct (default_nonempty _ P).
    + destruct H as (-> & _ & Hx & _). eexists. split; [reflexivity|]. rewrite Hx. right.
      cbn [default_memory set_extractor m_extractor x_path]. rewrite upd_same. reflexivity.
    + destruct H as (-> & _ & Hx & _). eexists. split; [reflexivity|]. rewrite Hx. auto.
  - destruct u as [er|].
    + apply new_hardcoded_runs in H as (-> & -> & _ & -> & _ & _ & Hx & _). eexists. split; [reflexivity|]. rewrite Hx. auto.
    + destruct H as (-> & -> & -> & ->). eexists. split; [reflexivity|]. right.
      apply update_effect in U as (_ & _ & _ & [(er & X & _)|(_ & Hx & _)]); [discriminate|]. rewrite Hx.
      cbn [default_memory set_extractor m_extractor]. rewrite upd_same. reflexivity.
Qed.

(** If there is one, New reads the path as it is. *)
Lemma custom : forall to_ascii hardcoded n p d m tr d' m' r text0 mt, disk_ok d -> trimmed white_space (lp_path n) p ->
  list_at d p text0 mt -> runs disk_step (new to_ascii hardcoded n) d m tr d' m' r ->
  exists f, r = Ret (f, None) /\ ~ downloads tr /\ d_entry d' = d_entry d /\
    ((exists text, readable d (lp_path n) text /\ serves to_ascii m' f (lp_private n) text
        /\ x_path (m_extractor m' f) = lp_path n)
     \/ ((forall text, ~ readable d (lp_path n) text) /\ serves to_ascii m' f (lp_private n) hardcoded
        /\ x_path (m_extractor m' f) = [])).
Proof.
  intros to_ascii hardcoded n p d m tr d' m' r text0 mt0 Ok T L H. apply new_runs in H.
  destruct H as (tr0 & d0 & valid & age & tr1 & C & -> & H).
  destruct (check_disk _ _ _ _ _ _ _ _ _ Ok T C) as (_ & Lt & ND & [(-> & text & mt & _ & _)|(_ & N)]); [|destruct (N _ _ L)].
  destruct H as [(_ & H)|(X & _)]; [|discriminate].
  assert (Hne : lp_path n <> []).
  { intros X. rewrite X in T. apply trim_space_iff in T. subst p. exact (path_nonempty _ _ _ _ Ok L eq_refl). }
  assert (En : d_entry d0 = d_entry d) by (destruct Lt as (t & _ & ->); reflexivity).
  apply new_from_cache_runs in H as (_ & _ & [(P & _)|(_ & x & (-> & ->) & -> & H)]); [contradiction| |apply Nat.lt_succ_diag_r].
  assert (ND' : forall x, ~ downloads (tr0 ++ [Event (ReadFile (lp_path n)) x])).
  { intros x. rewrite downloads_app, downloads_cons. intros [X|[X|X]]; [exact (ND X)|apply X; reflexivity|exact (downloads_nil X)]. }
  rewrite (later_at _ _ _ Lt) in *.
  destruct (readable_dec d (lp_path n)) as [(text' & mt' & wr' & R)|R].
  - rewrite R in *. destruct H as (-> & Sv & Hx & _). eexists. split; [reflexivity|]. split; [apply ND'|]. split; [exact En|].
    left. exists text'. split; [exists mt', wr'; exact R|]. split; [exact Sv|].
    rewrite Hx. cbn [x_path start_memory m_extractor]. rewrite upd_same. reflexivity.
  - assert (X : match at_path d (lp_path n) with Regular c _ true _ => Some c | _ => None end = None).
    { destruct (at_path d (lp_path n)) as [b|t b|c t [] w] eqn:A; try reflexivity. exfalso. apply (R c). exists t, w. exact A. }
    rewrite X in *. destruct H as (-> & Sv & Hx & _). eexists. split; [reflexivity|]. split; [apply ND'|]. split; [exact En|].
    right. split; [exact R|]. split; [exact Sv|]. rewrite Hx. reflexivity.
Qed.

Lemma c91_used : forall to_ascii hardcoded n p d m tr d' m' r, disk_ok d -> trimmed white_space (lp_path n) p ->
  lp_path n <> [] -> lp_path n <> default_path d -> runs disk_step (new to_ascii hardcoded n) d m tr d' m' r ->
  exists f, r = Ret (f, None)
    /\ (x_path (m_extractor m' f) = lp_path n
        <-> (exists text mt, list_at d p text mt) /\ exists text, readable d (lp_path n) text)
    /\ (x_path (m_extractor m' f) = lp_path n -> exists text, readable d (lp_path n) text
          /\ serves to_ascii m' f (lp_private n) text /\ ~ downloads tr /\ d_entry d' = d_entry d).
Proof.
  intros to_ascii hardcoded n p d m tr d' m' r Ok T Ne Nd H.
  assert (D : (exists text mt, list_at d p text mt) \/ no_list_at d p).
  { pose proof H as H'. apply new_runs in H' as (tr0 & d0 & valid & age & tr1 & C & _).
    destruct (check_disk _ _ _ _ _ _ _ _ _ Ok T C) as (_ & _ & _ & [(_ & text & mt & L & _)|(_ & N)]); eauto. }
  destruct D as [(text0 & mt & L)|N].
  - destruct (custom _ _ _ _ _ _ _ _ _ _ _ _ Ok T L H) as (f & -> & Dn & En & [(text & R & Sv & X)|(R & Sv & X)]);
      exists f; (split; [reflexivity|]).
    + split; [split; [intros _; eauto|auto]|]. intros _. eauto 6.
    + rewrite X. split; [|congruence]. split; [congruence|]. intros (_ & text & Y). destruct (R _ Y).
  - destruct (not_custom _ _ _ _ _ _ _ _ _ _ Ok T N H) as (f & -> & X). exists f. split; [reflexivity|].
    assert (Xn : x_path (m_extractor m' f) <> lp_path n) by (destruct X; congruence).
    split; [|contradiction]. split; [contradiction|]. intros ((text & mt & L) & _). destruct (N _ _ L).
Qed.

(** The text used has the markers, or is that of a file that was not checked. *)
Lemma c91_markers : forall to_ascii hardcoded n p d m tr d' m' r, disk_ok d -> trimmed white_space (lp_path n) p ->
  unpadded (default_path d) -> runs disk_step (new to_ascii hardcoded n) d m tr d' m' r ->
  exists f, r = Ret (f, None) /\
    (serves to_ascii m' f (lp_private n) hardcoded
     \/ (exists text, has_markers text /\ stored d' (default_path d) text /\ serves to_ascii m' f (lp_private n) text)
     \/ exists text text0 mt, list_at d p text0 mt /\ readable d (lp_path n) text /\ serves to_ascii m' f (lp_private n) text
        /\ (has_markers text \/ lp_path n <> p)).
Proof.
  intros to_ascii hardcoded n p d m tr d' m' r Ok T Ud H.
  destruct (new_disk _ _ _ _ _ _ _ _ _ _ Ok T Ud H) as [(text0 & mt & _ & _ & _ & _ & L & _)|(N & t & Ht & f & -> & D)].
  - destruct (custom _ _ _ _ _ _ _ _ _ _ _ _ Ok T L H) as (f & -> & Dn & En & [(text & R & Sv & X)|(R & Sv & X)]);
      exists f; (split; [reflexivity|]); [|auto]. right. right. exists text, text0, mt. split; [exact L|]. split; [exact R|].
    split; [exact Sv|]. destruct (bytes_eqb (lp_path n) p) eqn:E.
    + apply bytes_eqb_eq in E. left. destruct L as (_ & M & w & L). destruct R as (mt' & wr & R). rewrite E, L in R.
      injection R as <- _ _. exact M.
    + right. intros X'. rewrite X', bytes_eqb_refl in E. discriminate.
  - exists f. split; [reflexivity|].
    destruct D as [(_ & Sv & _)|[(_ & text & mt & L & _ & Sv & _ & _ & En)|(_ & _ & _ & _ & [Sv|(text & St & M & Sv & _)])]]; auto.
    + right. left. exists text. destruct L as (_ & M & w & L). split; [exact M|]. split; [|exact Sv].
      assert (Nm : d_name d' = d_name d) by apply (runs_names _ _ _ _ _ _ _ _ H).
      exists mt, true, w. unfold at_path. rewrite En, Nm. exact L.
    + right. left. exists text. auto.
Qed.
