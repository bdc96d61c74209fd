(** PropEnd.v - New and Update together with Extract: C59, C60. *)

From Verif Require Import Base BaseFacts Chars Str StrFacts Trie Extract Psl ListSpec ListFacts World Update UpdateSpec
  WorldFacts NewFacts UpdateProofs DiskProofs DiskProofs2 FileProofs EndProofs Host Addr UrlSpec RuleSpec Builtin BuiltinSpec
  BuiltinProofs ExampleBase ExampleDisk PropPsl PropRules PropBuiltin.
Local Open Scope N_scope.

(** C59: if New could not read any file, its extractor has the rules of the built-in list, and
    keeps them through all later calls of New and Update. *)
Theorem C59_offline : forall E (step : forall R : Type, sys R -> E -> R -> E -> Prop) to_ascii hardcoded n e m tr e' m1 r, memory_ok m ->
  runs step (new to_ascii hardcoded n) e m tr e' m1 r -> (forall path text, ~ was_read tr path text) ->
  exists f rules t, r = Ret (f, None) /\ used_rules to_ascii hardcoded (lp_private n) rules /\ build_trie rules = Ret t
    /\ forall m2, calls to_ascii hardcoded m1 m2 -> forall ext p, extract ext (trie_in m2 f) p = extract ext t p.
Proof. exact c59. Qed.
(** Together with C53: what such an extractor says about a host, in terms of the Public Suffix List. *)
Theorem C59_offline_suffix : forall E (step : forall R : Type, sys R -> E -> R -> E -> Prop) to_ascii n e m tr e' m1 r, memory_ok m ->
  idna_on_builtin to_ascii -> runs step (new to_ascii hardcoded_psl n) e m tr e' m1 r ->
  (forall path text, ~ was_read tr path text) ->
  exists f rules, r = Ret (f, None) /\ used_rules to_ascii hardcoded_psl (lp_private n) rules
    /\ forall m2, calls to_ascii hardcoded_psl m1 m2 ->
       forall ext p res scheme user raw h port path first zs segs,
         extract ext (trie_in m2 f) p = Ret (res, None) -> r_host_type res = HHostName ->
         url_parts ext p scheme user raw h port path -> labelled h first zs segs -> Forall plain_label (labels first segs) ->
         nth 0 (labels first segs) [] <> str "za" ->
         (forall name rest, In name (builtin_hidden (lp_private n)) -> labels first segs <> rule_path name ++ rest) ->
         ((exists k, psl_suffix rules (labels first segs) k /\ r_suffix res = labels_text (firstn k segs)
              /\ r_domain res = nth k (labels first segs) [])
          <-> ~ stops_in_gap rules (labels first segs)).
Proof.
  intros E step to_ascii n e m tr e' m1 r Ok Id H N.
  destruct (c59 _ _ _ _ _ _ _ _ _ _ _ Ok H N) as (f & rules & t & -> & Us & B & K).
  exists f, rules. split; [reflexivity|]. split; [exact Us|].
  intros m2 C ext p res sc us raw h po pa first zs segs X T U L P Z Hd. rewrite (K m2 C) in X.
  exact (C53_exact to_ascii ext (lp_private n) rules t p res sc us raw h po pa first zs segs Id Us B X T U L P Z Hd).
Qed.
(** An environment without readable files; everything else may happen. *)
Definition unreadable (R : Type) (o : sys R) (e : unit) (x : R) (e' : unit) : Prop :=
  match o in sys R return R -> Prop with ReadFile _ => fun x => x = None | _ => fun _ => True end x.
Example C59_example : memory_ok ex_memory /\ idna_on_builtin ex_ascii
  /\ exists tr m1 r, runs unreadable (new ex_ascii hardcoded_psl (mkListParams (str "/x") true)) tt ex_memory tr tt m1 r
  /\ forall path text, ~ was_read tr path text.
Proof.
  split; [intros f Hf; cbn in Hf; exfalso; exact (Nat.nlt_0_r _ Hf)|]. split; [exact ex_ascii_ok|].
  destruct (runs_exist unit unreadable) with (A := (nat * option io_err)%type) (p := new ex_ascii hardcoded_psl (mkListParams (str "/x") true))
    (e := tt) (m := ex_memory) as (tr & e' & m1 & r & H).
  - intros R o e. destruct o; cbn [unreadable]; try (exists None; exists tt; reflexivity).
    + exists []. exists tt. exact I.
    + exists 0%Z. exists tt. exact I.
    + exists true. exists tt. exact I.
    + exists true. exists tt. exact I.
    + exists true. exists tt. exact I.
    + exists NoResponse. exists tt. exact I.
  - destruct e'. exists tr, m1, r. split; [exact H|].
    refine (runs_unread unit unreadable _ _ _ _ _ _ _ _ _ H). intros path e x e' S. exact S.
Qed.

(** C60: after a successful Update of an extractor, New makes an extractor that behaves in the
    same way, without any download, as long as the cache file is fresh. *)
Theorem C60_new_after_update : forall to_ascii hardcoded f d m tr d1 m1 n p tr2 d2 m2 r, memory_ok m -> (f < m_next_extractor m)%nat ->
  runs disk_step (update to_ascii hardcoded f) d m tr d1 m1 (Ret None) ->
  runs disk_step (new to_ascii hardcoded n) d1 m1 tr2 d2 m2 r ->
  disk_ok d1 -> trimmed white_space (lp_path n) p -> no_list_at d1 p -> unpadded (default_path d) ->
  can_open d1 (d_temp d) -> d_abs d (default_path d) <> None ->
  (d_now d2 - d_now d <= 72 * 3600 * 1000000000)%Z -> lp_private n = x_private (m_extractor m f) ->
  exists g, r = Ret (g, None) /\ ~ downloads tr2 /\ g <> f
    /\ forall ext q, extract ext (trie_in m2 g) q = extract ext (trie_in m2 f) q.
Proof. exact c60. Qed.
(** The old cache file is longer than the downloaded list, so that its end stays in the file. *)
Example C60_example :
  let old := custom ++ str "stale" ++ nl in
  let m := ex_memory1 (str "/tmp/public_suffix_list.dat") in
  let d := ex_disk (old_files old) in
  let x := exec ex_mirror (update ex_to_ascii ex_built_in 0) d m in
  let y := exec ex_mirror (new ex_to_ascii ex_built_in (mkListParams [] false)) (ex_disk_of x) (ex_memory_of x) in
  memory_ok m /\ ex_result x = Ret None /\ disk_ok (ex_disk_of x) /\ trimmed white_space [] []
  /\ no_list_at (ex_disk_of x) [] /\ unpadded (default_path d) /\ can_open (ex_disk_of x) (d_temp d)
  /\ (d_now (ex_disk_of y) - d_now d <= 72 * 3600 * 1000000000)%Z
  /\ ex_result y = Ret (1%nat, None) /\ trie_in (ex_memory_of y) 1 = trie_in (ex_memory_of y) 0
  /\ trie_in (ex_memory_of y) 1 = trie_of [str "custom"].
Proof.
  cbv zeta. split; [intros f _; cbn; apply Nat.lt_0_1|]. split; [vm_compute; reflexivity|]. split; [|split].
  - split; [|split].
    + intros p q Hp E. destruct p; [contradiction|]. vm_compute in E. injection E as <-. reflexivity.
    + vm_compute. reflexivity.
    + intros q text mt rd wr E. vm_compute in E. injection E as <-. vm_compute. discriminate.
  - apply trimmed_b. vm_compute. reflexivity.
  - split. { intros text mt (_ & _ & w & X). vm_compute in X. discriminate X. }
    split; [apply trimmed_b; vm_compute; reflexivity|]. split; [vm_compute; reflexivity|]. split; [vm_compute; discriminate|].
    split; [vm_compute; reflexivity|]. split; vm_compute; reflexivity.
Qed.

Print Assumptions C59_offline.
Print Assumptions C59_offline_suffix.
Print Assumptions C60_new_after_update.
