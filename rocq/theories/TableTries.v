(** TableTries.v - tries made of hash tables behave as those of Trie.v. *)

From Verif Require Import Base BaseFacts Str Net Trie TrieFacts Extract Psl World Update Calls CallFacts Table TableSpec TableProofs TableFacts.
From Coq Require Import Permutation ZifyBool ZifyNat ZifyN.

(** ** Assignments through pointers *)

Section Assign.
Context {V : Type}.
Variable hash : bytes -> N.
Implicit Types (m : table V).
Definition assign_to (f : bytes -> V -> V) (x : bytes * option V) : bytes * option V :=
  (fst x, match snd x with Some v => Some (f (fst x) v) | None => None end).
Definition revalue (f : bytes -> V -> V) (b : entry V) : entry V :=
  set_value b (match e_value b with Some v => Some (f (e_key b) v) | None => None end).
Lemma filter_revalue : forall f bs, filter occ (map (revalue f) bs) = map (revalue f) (filter occ bs).
Proof.
  intros f. induction bs as [|b bs IH]; cbn [map filter]; [reflexivity|]. change (occ (revalue f b)) with (occ b).
  destruct (occ b); cbn [map]; rewrite IH; reflexivity.
Qed.
Lemma nth_revalue : forall f bs i, nth i (map (revalue f) bs) unused = revalue f (nth i bs unused).
Proof. intros f bs i. change (@unused V) with (revalue f unused) at 1. apply map_nth. Qed.
Lemma assign_scan : forall m f, table_scan (table_assign m f) = map (assign_to f) (table_scan m).
Proof.
  intros m f. rewrite !scan_ents. unfold table_assign. cbn [t_buckets]. unfold ents. change (map _ (t_buckets m)) with (map (revalue f) (t_buckets m)).
  rewrite filter_revalue, !map_map. reflexivity.
Qed.
Lemma assign_sound : forall m f, sound hash m -> sound hash (table_assign m f).
Proof.
  intros m f [->|([G Em Eg El] & L)]; [left; reflexivity|]. right. split; [|exact L].
  assert (U : used (map (revalue f) (t_buckets m)) = used (t_buckets m)) by (unfold used; rewrite filter_revalue; apply map_length).
  split; cbn [table_assign t_buckets t_mask t_grow_at t_length]; change (map _ (t_buckets m)) with (map (revalue f) (t_buckets m));
    rewrite ?map_length, ?U; try assumption.
  assert (M : forall e j, fit hash (t_buckets m) e j -> fit hash (map (revalue f) (t_buckets m)) (revalue f e) j).
  { intros e j [F1 F2 F3]. split; [exact F1|exact F2|]. rewrite map_length. intros i Hi. unfold bat. rewrite map_length, nth_revalue. apply (F3 i Hi). }
  split.
  - rewrite map_length. apply (good_size _ _ G).
  - intros i O. rewrite map_length. rewrite nth_revalue in O |- *. destruct (good_fit _ _ G i O) as (j & F & E). exists j. split; [apply M; exact F|exact E].
  - unfold keys. rewrite filter_revalue, map_map. apply (good_keys _ _ G).
  - rewrite U, map_length. apply (good_room _ _ G).
  - rewrite U. apply (good_small _ _ G).
Qed.
End Assign.

(** ** Tries *)

Section Tries.
Variable hash : bytes -> N.

Definition held (x : bytes * ttrie) : bytes * option ttrie := (fst x, Some (snd x)).
(** The table trie stands for the trie; no node has more than [c] children. *)
Inductive stands (c : nat) : ttrie -> trie -> Prop :=
| stands_node : forall e m l hs, sound hash m -> (length l <= c)%nat -> Permutation (table_scan m) (map held hs) ->
    Forall2 (fun x y => fst x = fst y /\ stands c (snd x) (snd y)) hs l -> stands c (TNode e m) (Node e l).
Lemma stands_more : forall c h t, stands c h t -> stands (S c) h t.
Proof.
  intros c. fix IH 3. intros h t H. destruct H as [e m l hs So L P F]. apply (stands_node _ e m l hs So (le_S _ _ L) P).
  clear So L P. induction F as [|x y hs l [E S] F IHF]; constructor; [|exact IHF]. split; [exact E|apply IH; exact S].
Qed.
Lemma stands_empty : forall c, stands c (TNode false zero_table) empty_trie.
Proof. intros c. apply (stands_node c false zero_table [] []); [apply sound_zero|cbn [length]; lia|reflexivity|constructor]. Qed.

Section Node.
Variables (c : nat) (m : table ttrie) (l : list (bytes * trie)) (hs : list (bytes * ttrie)).
Hypothesis So : sound hash m.
Hypothesis P : Permutation (table_scan m) (map held hs).
Hypothesis F : Forall2 (fun x y => fst x = fst y /\ stands c (snd x) (snd y)) hs l.
Lemma node_keys : map fst hs = map fst l.
Proof. clear So P. induction F as [|x y hs l [E _] F' IH]; cbn [map]; [reflexivity|]. f_equal; [exact E|apply IH; exact F']. Qed.
Lemma scan_keys : Permutation (map fst (table_scan m)) (map fst l).
Proof. rewrite (Permutation_map fst P). rewrite map_map. change (map (fun x => fst (held x)) hs) with (map fst hs). rewrite node_keys. reflexivity. Qed.
Lemma node_nodup : NoDup (map fst l).
Proof. rewrite <- scan_keys. apply (sound_keys hash). exact So. Qed.
Lemma get_in_l : forall k t, get l k = Some t -> exists h, In (k, h) hs /\ stands c h t.
Proof.
  clear So P. induction F as [|[k1 h1] [k2 t2] hs l [E S] F' IH]; intros k t G; cbn [get] in G; [discriminate G|]. cbn [fst snd] in *. subst k2.
  destruct (bytes_eqb k1 k) eqn:Ek.
  - apply bytes_eqb_eq in Ek. subst k1. injection G as <-. exists h1. split; [left; reflexivity|exact S].
  - destruct (IH F' k t G) as (h & I1 & Sh). exists h. split; [right; exact I1|exact Sh].
Qed.
Lemma get_none_l : forall k, get l k = None -> ~ In k (map fst l).
Proof.
  clear. induction l as [|[k1 t1] l' IH]; intros k G; cbn [get map fst In] in *; [tauto|]. destruct (bytes_eqb k1 k) eqn:Ek; [discriminate G|].
  intros [->|I1]; [rewrite (proj2 (bytes_eqb_eq k k) eq_refl) in Ek; discriminate Ek|exact (IH k G I1)].
Qed.
Lemma get_stands : forall k,
  match get l k with
  | Some t => exists h, In (k, h) hs /\ table_get hash m k = Ret (Some h, true) /\ stands c h t
  | None => table_get hash m k = Ret (None, false)
  end.
Proof.
  intros k. destruct (get l k) as [t|] eqn:G.
  - destruct (get_in_l k t G) as (h & I1 & S). exists h. split; [exact I1|]. split; [|exact S]. apply get_in; [exact So|].
    apply (Permutation_in _ (Permutation_sym P)). apply (in_map held) in I1. exact I1.
  - apply get_out; [exact So|]. intros I1. apply (get_none_l k G). apply (Permutation_in _ scan_keys). exact I1.
Qed.
Lemma len_stands : table_len m = N.of_nat (length l).
Proof.
  rewrite (sound_len hash m So). f_equal. rewrite (Permutation_length P), map_length. clear P So. induction F; cbn [length]; [reflexivity|f_equal; auto].
Qed.
End Node.

Lemma put_old : forall l key v t, NoDup (map fst l) -> get l key = Some t ->
  put l key v = map (fun x => (fst x, if bytes_eqb (fst x) key then v else snd x)) l.
Proof.
  induction l as [|[k w] l IH]; intros key v t N G; cbn [get put map fst snd] in *; [discriminate G|]. apply NoDup_cons_iff in N as (Nk & N).
  destruct (bytes_eqb k key) eqn:E.
  - apply bytes_eqb_eq in E. subst k. f_equal. rewrite <- (map_id l) at 1. apply map_ext_in. intros [k' w'] I1. cbn [fst snd].
    destruct (bytes_eqb k' key) eqn:E'; [|reflexivity]. apply bytes_eqb_eq in E'. subst k'. destruct Nk. apply (in_map fst) in I1. exact I1.
  - f_equal. eapply IH; eassumption.
Qed.
Lemma put_new : forall l key v, get l key = None -> put l key v = l ++ [(key, v)].
Proof.
  induction l as [|[k w] l IH]; intros key v G; cbn [get put app] in *; [reflexivity|]. destruct (bytes_eqb k key); [discriminate G|]. f_equal. apply IH. exact G.
Qed.
Lemma map_old : forall (hs : list (bytes * ttrie)) key sub, ~ In key (map fst hs) ->
  map (assign_to (fun k old => if bytes_eqb k key then sub else old)) (map held hs) = map held hs.
Proof.
  intros hs key sub N. rewrite map_map. apply map_ext_in. intros [k h] I1. unfold assign_to, held. cbn [fst snd].
  destruct (bytes_eqb k key) eqn:E; [|reflexivity]. apply bytes_eqb_eq in E. subst k. destruct N. apply (in_map fst) in I1. exact I1.
Qed.

(** nestedDict *)
Lemma nested_stands : forall keys c h t, stands c h t -> (N.of_nat (S c) <= 65535)%N ->
  exists h', nested_tables hash h keys = Ret h' /\ stands (S c) h' (nested_dict t keys).
Proof.
  induction keys as [|key keys IH]; intros c h t H B; cbn [nested_tables nested_dict].
  - exists (TNode true (t_matches h)). split; [reflexivity|]. destruct (stands_more _ _ _ H) as [e m l hs So L P F]. cbn [t_matches set_end].
    eapply stands_node; eassumption.
  - destruct H as [e m l hs So L P F] eqn:Hx. clear Hx H. cbn [t_matches t_end end_of matches_of]. unfold child. cbn [matches_of].
    pose proof (get_stands c m l hs So P F key) as G. destruct (get l key) as [t|] eqn:Gl.
    + destruct G as (h & Ih & -> & S). cbn [bind negb]. rewrite (get_in hash m key (Some h) So) by (apply (Permutation_in _ (Permutation_sym P)); apply (in_map held) in Ih; exact Ih).
      cbn [bind]. destruct (IH c h t S B) as (h' & E & S'). rewrite E. cbn [bind]. eexists. split; [reflexivity|].
      rewrite (put_old l key _ t (node_nodup c m l hs So P F) Gl).
      apply (stands_node _ e _ _ (map (fun x => (fst x, if bytes_eqb (fst x) key then h' else snd x)) hs)).
      * apply assign_sound. exact So.
      * rewrite map_length. lia.
      * rewrite assign_scan, P. rewrite !map_map. apply Permutation_refl'. apply map_ext. intros [k x]. reflexivity.
      * clear - F S'. induction F as [|[k1 h1] [k2 t2] hs l [E Sx] F IHF]; cbn [map]; constructor; [|exact IHF]. cbn [fst snd] in *. split; [exact E|].
        subst k2. destruct (bytes_eqb k1 key); [exact S'|apply stands_more; exact Sx].
    + rewrite G. cbn [bind negb].
      assert (Nk : ~ In key (map fst (table_scan m))).
      { intros I1. apply (get_none_l l key Gl). apply (Permutation_in _ (scan_keys c m l hs P F)). exact I1. }
      assert (Ll : length (table_scan m) = length l) by (rewrite <- (map_length fst), <- (map_length fst l); apply Permutation_length; apply (scan_keys c m l hs P F)).
      destruct (set_spec hash m key (Some (TNode false zero_table)) So) as (m1 & rest & E1 & So1 & P1 & Hr); [left; rewrite Ll; lia|].
      destruct Hr as [(_ & Pr)|(v0 & Pr)]; [|destruct Nk; rewrite (Permutation_map fst Pr); left; reflexivity].
      rewrite E1. cbn [bind]. rewrite (get_in hash m1 key (Some (TNode false zero_table)) So1) by (rewrite P1; left; reflexivity). cbn [bind].
      destruct (IH c (TNode false zero_table) empty_trie (stands_empty c) B) as (h' & E & S'). rewrite E. cbn [bind]. eexists. split; [reflexivity|].
      rewrite (put_new l key _ Gl). apply (stands_node _ e _ _ (hs ++ [(key, h')])).
      * apply assign_sound. exact So1.
      * rewrite app_length. cbn [length]. lia.
      * rewrite assign_scan, P1, <- Pr, P. cbn [map]. rewrite map_old.
        -- unfold assign_to at 1. cbn [fst snd]. rewrite (proj2 (bytes_eqb_eq key key) eq_refl). rewrite map_app. cbn [map]. apply Permutation_cons_append.
        -- rewrite (node_keys c l hs F). apply (get_none_l l key Gl).
      * apply Forall2_app; [|constructor; [split; [reflexivity|exact S']|constructor]].
        clear - F. induction F as [|x y hs l [E Sx] F IHF]; constructor; [|exact IHF]. split; [exact E|apply stands_more; exact Sx].
Qed.
Lemma insert_stands : forall rules c h t, stands c h t -> (N.of_nat (c + length rules) <= 65535)%N ->
  exists h' t', insert_tables hash h rules = Ret h' /\ insert_all t rules = Ret t' /\ stands (c + length rules) h' t'.
Proof.
  induction rules as [|rule rules IH]; intros c h t H B; cbn [insert_tables insert_all length] in *.
  - exists h, t. rewrite Nat.add_0_r. split; [reflexivity|split; [reflexivity|exact H]].
  - rewrite reverse_spec. cbn [bind]. set (sp := rev (split_byte rule 46)).
    destruct (nested_stands sp c h t H) as (h1 & E1 & S1); [lia|]. rewrite E1. cbn [bind].
    destruct (IH (S c) h1 (nested_dict t sp) S1) as (h' & t' & E2 & E3 & S'); [lia|]. exists h', t'.
    replace (c + S (length rules))%nat with (S c + length rules)%nat by lia. split; [exact E2|split; [exact E3|exact S']].
Qed.

(** The wildcards *)
Lemma check_ok : forall c (hs : list (bytes * ttrie)) l, Forall2 (fun x y => fst x = fst y /\ stands c (snd x) (snd y)) hs l ->
  forall s, Permutation s (map held hs) -> check_all hash s = Ret tt.
Proof.
  intros c hs l F s P. assert (A : forall x, In x s -> exists k h t, x = (k, Some h) /\ stands c h t).
  { intros x Ix. apply (Permutation_in _ P) in Ix. clear P. induction F as [|[k1 h1] [k2 t2] hs l [E S] F IHF]; [destruct Ix|].
    destruct Ix as [<-|Ix]; [|apply IHF; exact Ix]. exists k1, h1, t2. split; [reflexivity|exact S]. }
  clear P F. induction s as [|x s IH]; [reflexivity|]. destruct (A x (or_introl eq_refl)) as (k & h & t & -> & S). cbn [check_all].
  destruct S as [e m l0 hs0 So _ P F]. cbn [t_matches]. pose proof (get_stands c m l0 hs0 So P F (str "*")) as G.
  destruct (get l0 (str "*")); [destruct G as (h0 & _ & -> & _)|rewrite G]; cbn [bind]; apply IH; intros x Ix; apply A; right; exact Ix.
Qed.
Lemma mark_stands : forall c h t, stands c h t -> stands c (mark_one hash h) (match child t (str "*") with Some _ => set_end t | None => t end).
Proof.
  intros c h t H. pose proof H as H'. destruct H as [e m l hs So L P F]. unfold mark_one, child. cbn [t_matches matches_of].
  pose proof (get_stands c m l hs So P F (str "*")) as G. destruct (get l (str "*")).
  - destruct G as (h0 & _ & -> & _). cbn [set_end]. eapply stands_node; eassumption.
  - rewrite G. exact H'.
Qed.
Lemma build_stands : forall rules, (N.of_nat (length rules) <= 65535)%N ->
  exists h t, build_tables hash rules = Ret h /\ build_trie rules = Ret t /\ stands (length rules) h t.
Proof.
  intros rules B. unfold build_tables, build_trie.
  destruct (insert_stands rules 0 _ _ (stands_empty 0)) as (h & t & -> & -> & S); [exact B|]. cbn [bind plus] in *.
  destruct S as [e m l hs So L P F]. unfold mark_tables. cbn [t_matches t_end]. rewrite (check_ok _ _ _ F _ P). cbn [bind].
  eexists. eexists. split; [reflexivity|]. split; [reflexivity|]. unfold mark_wildcard_tlds. cbn [end_of matches_of].
  apply (stands_node _ e _ _ (map (fun x => (fst x, mark_one hash (snd x))) hs)).
  - apply assign_sound. exact So.
  - rewrite map_length. exact L.
  - rewrite assign_scan, P, !map_map. apply Permutation_refl'. apply map_ext. intros [k x]. reflexivity.
  - clear - F. induction F as [|[k1 h1] [k2 t2] hs l [E S] F IHF]; cbn [map]; constructor; [|exact IHF]. cbn [fst snd] in *. split; [exact E|].
    apply mark_stands. exact S.
Qed.

(** Extract *)
Local Open Scope Z_scope.
Lemma loop_stands : forall fuel c netloc h t hs hl si ss se, stands c h t ->
  suffix_loop_tables hash fuel netloc h hs hl si ss se = suffix_loop fuel netloc t hs hl si ss se.
Proof.
  induction fuel as [|fuel IH]; intros c netloc h t hs hl si ss se H; cbn [suffix_loop_tables suffix_loop]; [reflexivity|]. cbv zeta.
  destruct (slice netloc 0 si) as [head| |]; cbn [bind]; [|reflexivity..].
  match goal with |- bind ?x _ = bind ?x _ => destruct x as [[label end_]| |] end; cbn [bind]; [|reflexivity..].
  match goal with |- (if ?x then _ else _) = _ => destruct x end.
  - destruct (negb hl); [eapply IH; exact H|reflexivity].
  - pose proof H as H'. destruct H as [e m l hs0 So L P F]. cbn [t_matches]. unfold child. cbn [matches_of].
    pose proof (get_stands c m l hs0 So P F) as G.
    pose proof (G (str "*")) as G1. destruct (get l (str "*")) as [t1|].
    + destruct G1 as (h1 & _ & -> & _). cbn [bind]. pose proof (G (str "!" ++ label)) as G2. destruct (get l (str "!" ++ label)).
      * destruct G2 as (h2 & _ & -> & _). reflexivity.
      * rewrite G2. reflexivity.
    + rewrite G1. cbn [bind]. set (lab := match query_unescape label with inl _ => [] | inr l0 => l0 end).
      pose proof (G lab) as G3. destruct (get l lab) as [t3|].
      * destruct G3 as (h3 & _ & -> & S3). cbn [bind]. pose proof S3 as S3'. destruct S3 as [e3 m3 l3 hs3 So3 L3 P3 F3]. cbn [t_end t_matches end_of matches_of].
        rewrite (len_stands c m3 l3 hs3 So3 P3 F3). replace ((N.of_nat (length l3) =? 0)%N) with (len l3 =? 0) by (unfold len; lia).
        destruct (negb hs && e3); (destruct ((len l3 =? 0) || end_); [reflexivity|eapply IH; exact S3']).
      * rewrite G3. reflexivity.
Qed.
Lemma extract_stands : forall ext c h t p, stands c h t -> extract_tables hash ext h p = extract ext t p.
Proof.
  intros ext c h t p H. rewrite extract_split. unfold extract_tables. destruct (extract_front ext p) as [[r|[u host]]| |]; cbn [bind]; try reflexivity.
  unfold extract_host_tables, extract_host. rewrite (loop_stands _ c _ h t _ _ _ _ _ H). reflexivity.
Qed.
End Tries.

(** ** Assignments one after the other *)

Section All.
Context {V : Type}.
Variable hash : bytes -> N.
Variable keys : list bytes.
Hypothesis small : (N.of_nat (length keys) <= 65535)%N.

(** The scan of the map agrees with the assignments. *)
Definition agrees (m : table V) (l : list (bytes * V)) : Prop :=
  forall k w, In (k, w) (table_scan m) <-> exists v, w = Some v /\ assigned l k v.
Lemma assigned_in : forall (l : list (bytes * V)) k v, assigned l k v -> In k (map fst l).
Proof. intros l k v (l1 & l2 & -> & _). rewrite map_app. apply in_or_app. right. left. reflexivity. Qed.
Lemma in_assigned : forall (l : list (bytes * V)) k, In k (map fst l) -> exists v, assigned l k v.
Proof.
  intros l k. induction l as [|[k1 v1] l IH] using rev_ind; cbn [map In]; [tauto|]. rewrite map_app. intros I1.
  destruct (bytes_eqb k1 k) eqn:E.
  - apply bytes_eqb_eq in E. subst k1. exists v1, l, []. split; [reflexivity|intros []].
  - assert (Ne : k1 <> k) by (intros ->; rewrite (proj2 (bytes_eqb_eq k k) eq_refl) in E; discriminate E).
    apply in_app_or in I1 as [I1|[I1|[]]]; [|cbn [fst] in I1; congruence]. destruct (IH I1) as (v & l1 & l2 & -> & N). exists v, l1, (l2 ++ [(k1, v1)]).
    split; [rewrite <- app_assoc; reflexivity|]. rewrite map_app. intros I2. apply in_app_or in I2 as [I2|[I2|[]]]; [exact (N I2)|cbn [fst] in I2; congruence].
Qed.
Lemma assigned_snoc : forall (l : list (bytes * V)) k1 v1 k v,
  assigned (l ++ [(k1, v1)]) k v <-> (k = k1 /\ v = v1) \/ (k <> k1 /\ assigned l k v).
Proof.
  intros l k1 v1 k v. split.
  - intros (a & b & E & N). destruct b as [|y b] using rev_ind.
    + apply app_inj_tail in E as (_ & E). injection E as -> ->. left. split; reflexivity.
    + clear IHb. rewrite app_comm_cons, app_assoc in E. apply app_inj_tail in E as (-> & <-). rewrite map_app in N. right. split.
      * intros ->. apply N. apply in_or_app. right. left. reflexivity.
      * exists a, b. split; [reflexivity|]. intros I1. apply N. apply in_or_app. left. exact I1.
  - intros [(-> & ->)|(Ne & a & b & -> & N)].
    + exists l, []. split; [reflexivity|intros []].
    + exists a, (b ++ [(k1, v1)]). split; [rewrite <- app_assoc; reflexivity|]. rewrite map_app. intros I1.
      apply in_app_or in I1 as [I1|[I1|[]]]; [exact (N I1)|cbn [fst] in I1; congruence].
Qed.
Lemma agrees_keys : forall m l, agrees m l -> forall k, In k (map fst (table_scan m)) <-> In k (map fst l).
Proof.
  intros m l A k. split; intros I1.
  - apply in_map_iff in I1 as ([k' w] & <- & I1). apply A in I1 as (v & _ & As). apply (assigned_in _ _ _ As).
  - destruct (in_assigned l k I1) as (v & As). apply (in_map fst _ (k, Some v)). apply A. exists v. split; [reflexivity|exact As].
Qed.
Lemma set_all_agrees : forall l m l0, sound hash m -> agrees m l0 -> incl (map fst (l0 ++ l)) keys ->
  exists m', set_all hash m l = Ret m' /\ sound hash m' /\ agrees m' (l0 ++ l).
Proof using small.
  induction l as [|[k v] l IH]; intros m l0 So A I; cbn [set_all].
  - exists m. rewrite app_nil_r. split; [reflexivity|split; assumption].
  - destruct (set_spec hash m k (Some v) So) as (m' & rest & E & So' & P & H).
    { destruct (in_dec (list_eq_dec N.eq_dec) k (map fst (table_scan m))) as [Ik|Nk]; [right; exact Ik|]. left.
      assert (L : (length (k :: map fst (table_scan m)) <= length keys)%nat).
      { apply NoDup_incl_length; [constructor; [exact Nk|apply (sound_keys hash); exact So]|]. intros x [<-|Ix]; apply I; rewrite map_app; apply in_or_app.
        - right. left. reflexivity.
        - left. apply (agrees_keys m l0 A). exact Ix. }
      cbn [length] in L. rewrite map_length in L. lia. }
    rewrite E. cbn [bind]. replace (l0 ++ (k, v) :: l) with ((l0 ++ [(k, v)]) ++ l) in * by (rewrite <- app_assoc; reflexivity).
    apply IH; [exact So'| |exact I]. clear IH I E.
    pose proof (sound_keys hash m' So') as N'. rewrite P in N'. cbn [map fst] in N'. apply NoDup_cons_iff in N' as (Nk & _).
    assert (R : forall k1 w, In (k1, w) rest <-> k1 <> k /\ In (k1, w) (table_scan m)).
    { intros k1 w. split.
      - intros I1. split; [intros ->; apply Nk; apply (in_map fst) in I1; exact I1|]. destruct H as [(_ & Pr)|(v0 & Pr)]; rewrite Pr; [|right]; exact I1.
      - intros (Ne & I1). destruct H as [(_ & Pr)|(v0 & Pr)]; rewrite Pr in I1; [exact I1|]. destruct I1 as [I1|I1]; [congruence|exact I1]. }
    intros k1 w. rewrite P. split.
    + intros [I1|I1].
      * injection I1 as <- <-. exists v. split; [reflexivity|]. apply assigned_snoc. left. split; reflexivity.
      * apply R in I1 as (Ne & I1). apply A in I1 as (v1 & -> & As). exists v1. split; [reflexivity|]. apply assigned_snoc. right. split; assumption.
    + intros (v1 & -> & As). apply assigned_snoc in As as [(-> & ->)|(Ne & As)]; [left; reflexivity|]. right. apply R. split; [exact Ne|]. apply A.
      exists v1. split; [reflexivity|exact As].
Qed.
End All.

Lemma c104_map : forall V (hash : bytes -> N) (keys : list bytes) (l : list (bytes * V)),
  (N.of_nat (length keys) <= 65535)%N -> (forall k v, In (k, v) l -> In k keys) ->
  exists m, set_all hash zero_table l = Ret m
    /\ (forall k v, assigned l k v -> table_get hash m k = Ret (Some v, true))
    /\ (forall k, ~ In k (map fst l) -> table_get hash m k = Ret (None, false))
    /\ NoDup (map fst (table_scan m))
    /\ (forall k w, In (k, w) (table_scan m) <-> exists v, w = Some v /\ assigned l k v)
    /\ table_len m = N.of_nat (length (table_scan m)).
Proof.
  intros V hash keys l B I. destruct (set_all_agrees hash keys B l zero_table []) as (m & E & So & A).
  - apply sound_zero.
  - intros k w. split; [intros []|]. intros (v & _ & l1 & l2 & E & _). destruct l1; discriminate E.
  - intros k Ik. apply in_map_iff in Ik as ([k' v] & <- & Ik). apply (I k' v). exact Ik.
  - cbn [app] in A. exists m. split; [exact E|]. split; [|split; [|split; [|split]]].
    + intros k v As. apply get_in; [exact So|]. apply A. exists v. split; [reflexivity|exact As].
    + intros k N. apply get_out; [exact So|]. intros Ik. apply N. apply (agrees_keys hash m l A). exact Ik.
    + apply (sound_keys hash). exact So.
    + exact A.
    + apply (sound_len hash). exact So.
Qed.
Lemma c104_build : forall (hash : bytes -> N) rules, (N.of_nat (length rules) <= 65535)%N ->
  exists h t, build_tables hash rules = Ret h /\ build_trie rules = Ret t
    /\ forall ext p, extract_tables hash ext h p = extract ext t p.
Proof.
  intros hash rules B. destruct (build_stands hash rules B) as (h & t & E1 & E2 & S). exists h, t. split; [exact E1|]. split; [exact E2|].
  intros ext p. apply (extract_stands hash ext _ h t p S).
Qed.
