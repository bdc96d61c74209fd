(** PropLib.v - statements C68 and C69: New and Update completely, and the library as a whole. *)

From Verif Require Import Base BaseFacts Chars Str StrFacts Trie Extract Psl ListSpec ListFacts World Update Calls UpdateSpec
  WorldFacts UpdateProofs DiskProofs CallFacts ErrSpec ErrProofs CompleteProofs NewSpec NewProofs LibSpec LibProofs
  UrlSpec UrlFacts ExampleBase ExampleDisk PropRules PropErr PropPsl.
From Coq Require Import ZifyBool ZifyNat ZifyN.
Local Open Scope N_scope.

(** C68: if seeking and writing do not fail, what New does is given by the files, the network and
    the time: the list it uses, the URLs it asks and the files it leaves. *)
Theorem C68_new : forall to_ascii hardcoded net n d m tr d' m' r, disk_ok d -> unpadded (default_path d) ->
  runs disk_step (new to_ascii hardcoded n) d m tr d' m' r -> smooth net tr ->
  exists f x y urls, r = Ret (f, None) /\ uses d d' (lp_path n) net x y urls /\ asked tr = urls
    /\ (d_now d <= d_now d')%Z
    /\ match y with None => d_entry d' = d_entry d | Some y => files_after d d' y end
    /\ holds_list to_ascii hardcoded m' f (lp_private n) x.
Proof. exact c68_new. Qed.
(** The same for Update, whose errors are told apart. *)
Theorem C68_update : forall to_ascii hardcoded net f d m tr d' m' r,
  runs disk_step (update to_ascii hardcoded f) d m tr d' m' r -> smooth net tr ->
  (x_path (m_extractor m f) <> default_path d /\ r = Ret (Some ErrNoOp) /\ d' = d /\ m' = m /\ asked tr = [])
  \/ (x_path (m_extractor m f) = default_path d /\ exists y urls, refreshes d net y urls /\ asked tr = urls /\ files_after d d' y
      /\ d_temp d' = d_temp d /\ d_abs d' = d_abs d /\ d_name d' = d_name d /\ d_now d' = d_now d /\
      match y with
      | Closed => r = Ret (Some ErrOpenCache) /\ m' = m
      | NotOffered => r = Ret (Some ErrNoSource) /\ m' = m
      | NewText text =>
        (readable d' (default_path d) text /\ r = Ret None
         /\ serves to_ascii m' f (x_private (m_extractor m f)) text
         /\ x_path (m_extractor m' f) = default_path d)
        \/ ((forall text, ~ readable d' (default_path d) text) /\ r = Ret (Some ErrReadList) /\ m_extractor m' = m_extractor m)
      end).
Proof. exact c68_update. Qed.
(** The descriptions are not contradictory, and apply to at least one run of every program. *)
Theorem C68_unique : forall d d' path net x y urls x' y' urls', uses d d' path net x y urls -> uses d d' path net x' y' urls' ->
  x = x' /\ y = y' /\ urls = urls'.
Proof. exact c68_unique. Qed.
Theorem C68_unique_refresh : forall d net y urls y' urls', refreshes d net y urls -> refreshes d net y' urls' -> y = y' /\ urls = urls'.
Proof. exact refreshes_unique. Qed.
Theorem C68_possible : forall net A (p : prog A) d m, exists tr d' m' r, runs disk_step p d m tr d' m' r /\ smooth net tr.
Proof. exact c68_possible. Qed.

Lemma exec_smooth : forall net A (p : prog A) d m, smooth net (ex_trace (exec net p d m)).
Proof.
  intros net A. unfold ex_trace. induction p as [o|R o c IH|R o c IH]; intros d m; cbn [exec].
  - constructor.
  - assert (S : smooth_event net (Event o (fst (disk_answer net R o d)))).
    { destruct o; cbn [smooth_event disk_answer fst]; auto. }
    destruct (disk_answer net R o d) as [x d1]. cbn [fst] in S. specialize (IH x d1 m).
    destruct (exec net (c x) d1 m) as [[[tr d2] m2] r]. cbn [fst snd] in *. constructor; assumption.
  - destruct (mem_step o m) as [x m1]. apply IH.
Qed.

(** An old cache file, longer than the list that the second source offers: its end stays, here
    the last byte of a comment, which becomes a rule. *)
Definition long_list : bytes := ex_list (str "cached") (str "a" ++ nl ++ str "b" ++ nl ++ str "c").
Definition old_cache : list (bytes * entry) :=
  [(str "/tmp/", Directory 0 true); (str "/tmp/public_suffix_list.dat", Regular long_list 0 true true)].
Definition mixed_text : bytes := custom ++ skipn (length custom) long_list.
Definition old_disk : disk := ex_disk old_cache.
Lemma old_refresh : refreshes old_disk ex_mirror (NewText mixed_text) the_sources.
Proof.
  apply (refresh_some old_disk ex_mirror [str "https://publicsuffix.org/list/public_suffix_list.dat"]
    (str "https://raw.githubusercontent.com/publicsuffix/list/master/public_suffix_list.dat") [] custom long_list).
  - vm_compute. reflexivity.
  - reflexivity.
  - constructor; [|constructor]. intros body (E & M). vm_compute in E. injection E as <-. revert M. apply no_markers_b. vm_compute. reflexivity.
  - split; [vm_compute; reflexivity|]. apply markers_b. vm_compute. reflexivity.
  - left. exists 0%Z, true, true. vm_compute. reflexivity.
Qed.
Example C68_example :
  let x := ex_new (mkListParams [] true) old_cache ex_mirror in
  disk_ok old_disk /\ unpadded (default_path old_disk) /\ smooth ex_mirror (ex_trace x)
  /\ uses old_disk (ex_disk_of x) [] ex_mirror (ListFile (str "/tmp/public_suffix_list.dat") mixed_text) (Some (NewText mixed_text)) the_sources
  /\ ex_result x = Ret (0%nat, None) /\ trie_in (ex_memory_of x) 0 = trie_of [str "custom"; str "own"; str "="].
Proof.
  cbv zeta. split; [apply ex_disk_ok; vm_compute; discriminate|]. split; [apply trimmed_b; vm_compute; reflexivity|].
  split; [apply exec_smooth|]. split; [|split; vm_compute; reflexivity].
  apply (uses_refreshed old_disk _ [] ex_mirror []).
  - apply trimmed_b. vm_compute. reflexivity.
  - intros text mt (_ & _ & w & X). discriminate X.
  - vm_compute. reflexivity.
  - intros text mt (_ & _ & w & X). vm_compute in X. injection X as _ <- _. vm_compute. reflexivity.
  - apply old_refresh.
  - eexists. eexists. vm_compute. reflexivity.
Qed.

(** C69: every history of calls is one of a machine without memory, tries and cursors, in which an
    extractor is a path, a flag and the text of a list, New and Update are described by C68 and
    Extract by C67. *)
Theorem C69_machine : forall to_ascii hardcoded ext m0 l d m known, memory_ok m0 -> history to_ascii hardcoded ext m0 l d m known ->
  exists views, machine_history to_ascii hardcoded ext l d views /\ forall f, In f known -> views f <> None.
Proof.
  intros to_ascii hardcoded ext m0 l d m known Mok H. destruct (c69_views _ _ _ _ _ _ _ _ Mok H) as (views & A & _ & B). eauto.
Qed.
(** Every call on an extractor that New has returned comes to an end with an answer, and New
    with an extractor that has not been returned before. *)
Theorem C69_answers : forall to_ascii hardcoded ext m0 l d m known c tr d' m' o, memory_ok m0 ->
  history to_ascii hardcoded ext m0 l d m known -> may_call known c ->
  runs disk_step (program to_ascii hardcoded ext c) d m tr d' m' o ->
  exists a, o = Ret a /\ match c with
                         | CallNew _ => exists f, a = FromNew (f, None) /\ ~ In f known
                         | CallUpdate _ => exists e, a = FromUpdate e
                         | CallExtract _ _ => exists r e, a = FromExtract (r, e)
                         end.
Proof. exact c69_answers. Qed.

Definition two_calls : list (call * answer) :=
  [(CallNew (mkListParams [] true), FromNew (0%nat, None));
   (CallExtract 0 (ex_params "https://a.b.own/"), FromExtract (mkResult (str "https://") [] (str "a") (str "b") (str "own") (str "b.own") [] (str "/") HHostName, None))].
Example C69_example : memory_ok ex_memory /\ exists d m known, history ex_to_ascii ex_built_in ex_idna ex_memory two_calls d m known.
Proof.
  split; [intros f H; inversion H|].
  pose (n := CallNew (mkListParams [] true)). pose (e := CallExtract 0 (ex_params "https://a.b.own/")).
  pose (x := exec ex_mirror (program ex_to_ascii ex_built_in ex_idna n) old_disk ex_memory).
  pose (y := exec ex_mirror (program ex_to_ascii ex_built_in ex_idna e) old_disk (ex_memory_of x)).
  assert (H1 : history ex_to_ascii ex_built_in ex_idna ex_memory [(n, FromNew (0%nat, None))] (ex_disk_of x) (ex_memory_of x) [0%nat]).
  { apply (h_call _ _ _ ex_memory [] old_disk ex_memory [] n ex_mirror (ex_trace x)).
    - constructor.
    - exact I.
    - apply ex_disk_ok; vm_compute; discriminate.
    - apply trimmed_b; vm_compute; reflexivity.
    - assert (R : ex_result x = Ret (FromNew (0%nat, None))) by (vm_compute; reflexivity). rewrite <- R. apply exec_runs.
    - apply exec_smooth. }
  exists (ex_disk_of y), (ex_memory_of y), [0%nat].
  apply (h_call _ _ _ ex_memory [(n, FromNew (0%nat, None))] old_disk (ex_memory_of x) [0%nat] e ex_mirror (ex_trace y)
    (ex_disk_of y) (ex_memory_of y) (FromExtract (mkResult (str "https://") [] (str "a") (str "b") (str "own") (str "b.own") [] (str "/") HHostName, None))).
  - eapply h_change. exact H1.
  - left. reflexivity.
  - apply ex_disk_ok; vm_compute; discriminate.
  - apply trimmed_b; vm_compute; reflexivity.
  - assert (R : ex_result y = Ret (FromExtract (mkResult (str "https://") [] (str "a") (str "b") (str "own") (str "b.own") [] (str "/") HHostName, None)))
      by (vm_compute; reflexivity). rewrite <- R. apply exec_runs.
  - apply exec_smooth.
Qed.

Print Assumptions C68_new.
Print Assumptions C68_update.
Print Assumptions C68_unique.
Print Assumptions C68_unique_refresh.
Print Assumptions C68_possible.
Print Assumptions C69_machine.
Print Assumptions C69_answers.
