(** PropLog.v - handles and the log: C99, C100.

    [work_runs step p e m tr e' m' r] is [runs] of PropPsl.v for programs that also close handles
    and write to the log; [plain tr] are the file, network and clock operations among the events
    [tr], [log_of tr] the lines written to the log. *)

From Verif Require Import Base BaseFacts Chars Str Trie Extract Psl ListSpec ListFacts World Update UpdateSpec WorldFacts
  Calls UrlSpec RuleSpec Logs LogSpec LogProofs LogTold LogExtract LogMore ExampleBase ExampleDisk.
Local Open Scope N_scope.

(** These programs do what those of the other theorems do. *)
Theorem C99_new_same : forall E (step : forall R : Type, sys R -> E -> R -> E -> Prop) to_ascii hardcoded n e m tr e' m' r,
  (work_runs step (new_log to_ascii hardcoded n) e m tr e' m' r ->
   runs step (new to_ascii hardcoded n) e m (plain tr) e' m' (same_result new_result r))
  /\ (forall tr0 r0, runs step (new to_ascii hardcoded n) e m tr0 e' m' r0 ->
      exists tr r, work_runs step (new_log to_ascii hardcoded n) e m tr e' m' r /\ plain tr = tr0 /\ same_result new_result r = r0).
Proof.
  intros. split.
  - intros H. exact (mirrors_runs _ step _ _ _ _ _ (new_mirrors to_ascii hardcoded n) _ _ _ _ _ _ H).
  - intros tr0 r0 H. exact (mirrors_back _ step _ _ _ _ _ (new_mirrors to_ascii hardcoded n) _ _ _ _ _ _ H).
Qed.
Theorem C99_update_same : forall E (step : forall R : Type, sys R -> E -> R -> E -> Prop) to_ascii hardcoded f e m tr e' m' r,
  (work_runs step (update_log to_ascii hardcoded f) e m tr e' m' r ->
   runs step (update to_ascii hardcoded f) e m (plain tr) e' m' (same_result (option_map io_of) r))
  /\ (forall tr0 r0, runs step (update to_ascii hardcoded f) e m tr0 e' m' r0 ->
      exists tr r, work_runs step (update_log to_ascii hardcoded f) e m tr e' m' r /\ plain tr = tr0
        /\ same_result (option_map io_of) r = r0).
Proof.
  intros. split.
  - intros H. exact (mirrors_runs _ step _ _ _ _ _ (update_mirrors to_ascii hardcoded f) _ _ _ _ _ _ H).
  - intros tr0 r0 H. exact (mirrors_back _ step _ _ _ _ _ (update_mirrors to_ascii hardcoded f) _ _ _ _ _ _ H).
Qed.

(** C99: every file, folder and response body that New opens is closed when it returns, what was
    opened last is closed first, nothing is closed twice or used after it was closed, and no more
    than three are open at a time; for every environment and whatever fails. *)
Theorem C99_new : forall E (step : forall R : Type, sys R -> E -> R -> E -> Prop) to_ascii hardcoded n e m tr e' m' r,
  work_runs step (new_log to_ascii hardcoded n) e m tr e' m' r ->
  held tr [] /\ forall tr1 tr2, tr = tr1 ++ tr2 -> exists hs, held tr1 hs /\ (length hs <= 3)%nat.
Proof. exact c99_new. Qed.
(** Update, too, and no more than two. *)
Theorem C99_update : forall E (step : forall R : Type, sys R -> E -> R -> E -> Prop) to_ascii hardcoded f e m tr e' m' r,
  work_runs step (update_log to_ascii hardcoded f) e m tr e' m' r ->
  held tr [] /\ forall tr1 tr2, tr = tr1 ++ tr2 -> exists hs, held tr1 hs /\ (length hs <= 2)%nat.
Proof. exact c99_update. Qed.
Theorem C99_unique : forall tr hs, held tr hs -> forall hs', held tr hs' -> hs = hs'.
Proof. exact held_unique. Qed.

(** Running these programs. *)
Fixpoint wexec (net : bytes -> response) {A : Type} (p : work A) (d : disk) (m : memory)
  : list work_event * disk * memory * outcome A :=
  match p with
  | WDone a => ([], d, m, a)
  | WSys o k =>
    let '(x, d1) := disk_answer net _ o d in
    let '(tr, d2, m2, r) := wexec net (k x) d1 m in (Did (Event o x) :: tr, d2, m2, r)
  | WMem o k => let '(x, m1) := mem_step o m in wexec net (k x) d m1
  | WClose h k => let '(tr, d2, m2, r) := wexec net k d m in (WasClosed h :: tr, d2, m2, r)
  | WLog line k => let '(tr, d2, m2, r) := wexec net k d m in (Logged line :: tr, d2, m2, r)
  end.
Definition wtrace {A} (x : list work_event * disk * memory * outcome A) := fst (fst (fst x)).
Definition wdisk {A} (x : list work_event * disk * memory * outcome A) := snd (fst (fst x)).
Definition wmemory {A} (x : list work_event * disk * memory * outcome A) := snd (fst x).
Definition wresult {A} (x : list work_event * disk * memory * outcome A) := snd x.
Lemma wexec_runs : forall net A (p : work A) d m,
  work_runs disk_step p d m (wtrace (wexec net p d m)) (wdisk (wexec net p d m)) (wmemory (wexec net p d m)) (wresult (wexec net p d m)).
Proof.
  intros net A. unfold wtrace, wdisk, wmemory, wresult.
  induction p as [o|R o c IH|R o c IH|h c IH|l c IH]; intros d m; cbn [wexec work_runs].
  - auto.
  - pose proof (disk_answer_step net R o d) as S. destruct (disk_answer net R o d) as [x d1]. cbn [fst snd] in S.
    specialize (IH x d1 m). destruct (wexec net (c x) d1 m) as [[[tr d2] m2] r]. cbn [fst snd] in *.
    exists x, d1, tr. auto.
  - destruct (mem_step o m) as [x m1]. apply IH.
  - specialize (IH d m). destruct (wexec net c d m) as [[[tr d2] m2] r]. cbn [fst snd] in *. eauto.
  - specialize (IH d m). destruct (wexec net c d m) as [[[tr d2] m2] r]. cbn [fst snd] in *. eauto.
Qed.
(** The handles that are open, computed. *)
Definition handle_eqb (a b : handle) : bool :=
  match a, b with Folder, Folder => true | File x, File y => Nat.eqb x y | Body, Body => true | _, _ => false end.
Lemma handle_eqb_eq : forall a b, handle_eqb a b = true -> a = b.
Proof. intros [|x|] [|y|] H; try discriminate; [reflexivity| |reflexivity]. apply Nat.eqb_eq in H as ->. reflexivity. Qed.
Fixpoint open_after (tr : list work_event) (hs : list handle) : option (list handle) :=
  match tr with
  | [] => Some hs
  | Did e :: tr => if forallb (fun h => existsb (handle_eqb h) hs) (needs e) then open_after tr (opens e ++ hs) else None
  | WasClosed h :: tr => match hs with k :: hs => if handle_eqb h k then open_after tr hs else None | [] => None end
  | Logged _ :: tr => open_after tr hs
  end.
Lemma open_after_held : forall tr tr0 hs hs', held tr0 hs -> open_after tr hs = Some hs' -> held (tr0 ++ tr) hs'.
Proof.
  induction tr as [|w tr IH]; intros tr0 hs hs' H O; cbn [open_after] in O.
  - injection O as <-. rewrite app_nil_r. exact H.
  - change (w :: tr) with ([w] ++ tr). rewrite app_assoc. destruct w as [e|h|line].
    + destruct (forallb _ _) eqn:N; [|discriminate]. eapply IH; [|exact O]. apply held_did; [exact H|].
      intros h I. rewrite forallb_forall in N. apply N in I. apply existsb_exists in I as (k & K & Q). apply handle_eqb_eq in Q as ->. exact K.
    + destruct hs as [|k hs]; [discriminate|]. destruct (handle_eqb h k) eqn:Q; [|discriminate]. apply handle_eqb_eq in Q as ->.
      eapply IH; [|exact O]. apply held_closed. exact H.
    + eapply IH; [|exact O]. apply held_logged. exact H.
Qed.

(** A list with a rule that has no ASCII form. *)
Definition odd_list : bytes := ex_list (str "com" ++ nl ++ str "a?b") [].
Definition odd_net (url : bytes) : response :=
  if bytes_eqb url (str "https://publicsuffix.org/list/public_suffix_list.dat") then Response 404 (str "<html>") true
  else Response 200 odd_list true.
Definition log_files (default : entry) : list (bytes * entry) :=
  [(str "/tmp/", Directory 0 true); (str "/tmp/public_suffix_list.dat", default)].
Definition log_new (net : bytes -> response) (default : entry) :=
  wexec net (new_log ex_to_ascii ex_built_in (mkListParams (str "/x") false)) (ex_disk (log_files default)) ex_memory.
Definition log_update (net : bytes -> response) (default : entry) :=
  wexec net (update_log ex_to_ascii ex_built_in 0) (ex_disk (log_files default)) (ex_memory1 (str "/tmp/public_suffix_list.dat")).
(** Folder, file and body are open at the same time here; the second source is used. *)
Example C99_example : let x := log_new odd_net (Absent true) in
  work_runs disk_step (new_log ex_to_ascii ex_built_in (mkListParams (str "/x") false)) (ex_disk (log_files (Absent true))) ex_memory
    (wtrace x) (wdisk x) (wmemory x) (wresult x)
  /\ wresult x = Ret (0%nat, None)
  /\ held (firstn 14 (wtrace x)) [Body; File 0; Folder]
  /\ filter (fun w => match w with WasClosed _ => true | _ => false end) (wtrace x)
     = [WasClosed Body; WasClosed Body; WasClosed (File 0); WasClosed Folder].
Proof.
  cbv zeta. split; [apply wexec_runs|]. split; [vm_compute; reflexivity|]. split; [|vm_compute; reflexivity].
  apply (open_after_held _ [] [] _ held_none). vm_compute. reflexivity.
Qed.

(** C100: what Update logs is determined by what it does, event by event; it logs "Public Suffix
    List updated." exactly if a list was written, and always if it succeeds. *)
Theorem C100_update : forall E (step : forall R : Type, sys R -> E -> R -> E -> Prop) to_ascii hardcoded f e m tr e' m' r,
  work_runs step (update_log to_ascii hardcoded f) e m tr e' m' r ->
  all_tell to_ascii (plain tr) (log_of tr)
  /\ (In updated_line (log_of tr) <-> exists data, wrote (plain tr) data true)
  /\ (r = Ret None -> In updated_line (log_of tr)).
Proof. exact c100_update. Qed.
(** What New logs, in all cases. *)
Theorem C100_new : forall E (step : forall R : Type, sys R -> E -> R -> E -> Prop) to_ascii hardcoded n e m tr e' m' r,
  work_runs step (new_log to_ascii hardcoded n) e m tr e' m' r ->
  exists f text fallback, r = Ret (f, None) /\ new_tells to_ascii hardcoded n (plain tr) (log_of tr) text fallback
    /\ serves to_ascii m' f (lp_private n) text /\ (fallback = true -> x_path (m_extractor m' f) = []).
Proof. exact new_told. Qed.
(** From the log one can tell whether a list was written to the cache file, and whether New had
    to fall back to the built-in list: it logs that it does exactly if it does. *)
Theorem C100_new_lines : forall E (step : forall R : Type, sys R -> E -> R -> E -> Prop) to_ascii hardcoded n e m tr e' m' r,
  work_runs step (new_log to_ascii hardcoded n) e m tr e' m' r ->
  exists f, r = Ret (f, None)
  /\ (In updated_line (log_of tr) <-> exists data, wrote (plain tr) data true)
  /\ ((exists reason, In (fallback_line reason) (log_of tr)) ->
        serves to_ascii m' f (lp_private n) hardcoded /\ x_path (m_extractor m' f) = [])
  /\ ((forall reason, ~ In (fallback_line reason) (log_of tr)) -> exists text, serves to_ascii m' f (lp_private n) text
        /\ ((exists path, was_read (plain tr) path text) \/ (lp_path n = [] /\ text = hardcoded))).
Proof. exact c100_new_lines. Qed.
(** The events determine the log. *)
Theorem C100_update_unique : forall to_ascii tr log log', all_tell to_ascii tr log -> all_tell to_ascii tr log' -> log = log'.
Proof. exact all_tell_fun. Qed.
Theorem C100_new_unique : forall to_ascii hardcoded n tr log text fallback log' text' fallback', lp_path n <> [] ->
  new_tells to_ascii hardcoded n tr log text fallback -> new_tells to_ascii hardcoded n tr log' text' fallback' ->
  log = log' /\ text = text' /\ fallback = fallback'.
Proof. exact new_tells_one. Qed.
(** Extract does nothing but log, and logs at most one line: why the IDNA library rejects the
    host.  Whenever it logs, it returns an error. *)
Theorem C100_extract : forall E (step : forall R : Type, sys R -> E -> R -> E -> Prop) ext f p e m tr e' m' r,
  work_runs step (extract_log ext f p) e m tr e' m' r ->
  tr = map Logged (log_of tr) /\ e' = e /\ m' = m /\ r = extract ext (trie_in m f) p
  /\ extract_tells ext p (log_of tr)
  /\ (forall x, log_of tr = [[ErrorStart (NotUnicode x)]] -> exists u, r = Ret (u, Some (ErrIdna x)))
  /\ (forall d, log_of tr = [[ErrorStart (NotPuny d)]] -> exists u, r = Ret (u, Some ErrEmptyDomain)).
Proof. exact c100_extract. Qed.
(** The first source answers with an error, the list of the second contains a rule that has no
    ASCII form. *)
Example C100_example :
  let x := log_update odd_net (Regular [] 0 true true) in
  let y := log_new odd_net (Absent true) in
  let z := log_new ex_net (Absent true) in
  wresult x = Ret None
  /\ log_of (wtrace x) = [[Error (BadStatus 404)]; updated_line; [Text (str "a?b"); Number 124; Error (NotAscii (str "a?b"))]]
  /\ log_of (wtrace y) = log_of (wtrace x)
  /\ wresult z = Ret (1%nat, None)
  /\ In (fallback_line NilError) (log_of (wtrace z)) /\ (length (log_of (wtrace z)) = 3)%nat.
Proof. vm_compute. auto 10. Qed.
Definition picky : idna := mkIdna (fun d => if memN 63 d then Some (str "bad") else None) (fun d => if memN 63 d then None else Some d).
Example C100_extract_example :
  let rejected := mkParams (str "https://a%3Fb.com/") false false in
  let hidden := mkParams (str "https://a%3Fb.com/") false true in
  let good := mkParams (str "https://ab.com/") false true in
  let x p := wexec ex_net (extract_log picky 0 p) (ex_disk []) (ex_memory1 []) in
  log_of (wtrace (x rejected)) = [[ErrorStart (NotUnicode (str "bad"))]]
  /\ log_of (wtrace (x hidden)) = [[ErrorStart (NotPuny (str "a?b.com"))]] /\ log_of (wtrace (x good)) = []
  /\ (exists u, wresult (x rejected) = Ret (u, Some (ErrIdna (str "bad")))) /\ (exists u, wresult (x hidden) = Ret (u, Some ErrEmptyDomain))
  /\ exists u, wresult (x good) = Ret (u, None).
Proof. cbv zeta. repeat split; try (eexists; vm_compute; reflexivity); vm_compute; reflexivity. Qed.

(** When New falls back because Update failed, the line says that there was no error. *)
Theorem C100_reason_refuted : exists n d tr d' m' r,
  work_runs disk_step (new_log ex_to_ascii ex_built_in n) d ex_memory tr d' m' r
  /\ (forall data, ~ downloaded (plain tr) data) /\ In (fallback_line NilError) (log_of tr).
Proof.
  exists (mkListParams (str "/x") false), (ex_disk (log_files (Absent true))), (wtrace (log_new ex_net (Absent true))),
    (wdisk (log_new ex_net (Absent true))), (wmemory (log_new ex_net (Absent true))), (wresult (log_new ex_net (Absent true))).
  split; [apply wexec_runs|]. split; [|vm_compute; auto].
  intros data (e & I & D). vm_compute in I. repeat (destruct I as [<-|I]; [discriminate D|]). destruct I.
Qed.
(** Update may log that the list was updated and fail: if the file that was written cannot be
    read. *)
Theorem C100_updated_refuted : exists d m tr d' m',
  work_runs disk_step (update_log ex_to_ascii ex_built_in 0) d m tr d' m' (Ret (Some (ReadFailed (default_path d))))
  /\ In updated_line (log_of tr) /\ trie_in m' 0 = trie_in m 0.
Proof.
  pose (x := log_update odd_net (Regular [] 0 false true)).
  exists (ex_disk (log_files (Regular [] 0 false true))), (ex_memory1 (str "/tmp/public_suffix_list.dat")), (wtrace x), (wdisk x), (wmemory x).
  split; [|split; vm_compute; auto].
  replace (Ret (Some (ReadFailed (default_path (ex_disk (log_files (Regular [] 0 false true))))))) with (wresult x) by (vm_compute; reflexivity).
  apply wexec_runs.
Qed.
(** Update may fail without a line in the log: if what was downloaded is no list. *)
Theorem C100_silent_refuted : exists d m tr d' m',
  work_runs disk_step (update_log ex_to_ascii ex_built_in 0) d m tr d' m' (Ret (Some NoSource)) /\ log_of tr = []
  /\ exists body, downloaded (plain tr) body.
Proof.
  pose (x := log_update (fun _ => Response 200 (str "<html>") true) (Regular [] 0 true true)).
  exists (ex_disk (log_files (Regular [] 0 true true))), (ex_memory1 (str "/tmp/public_suffix_list.dat")), (wtrace x), (wdisk x), (wmemory x).
  split; [|split; [vm_compute; reflexivity|]].
  - replace (Ret (Some NoSource)) with (wresult x) by (vm_compute; reflexivity). apply wexec_runs.
  - exists (str "<html>"). eexists. split; [vm_compute; right; right; left; reflexivity|reflexivity].
Qed.

Print Assumptions C99_new_same.
Print Assumptions C99_update_same.
Print Assumptions C99_new.
Print Assumptions C99_update.
Print Assumptions C99_unique.
Print Assumptions C100_update.
Print Assumptions C100_new.
Print Assumptions C100_new_lines.
Print Assumptions C100_update_unique.
Print Assumptions C100_new_unique.
Print Assumptions C100_extract.
Print Assumptions C100_reason_refuted.
Print Assumptions C100_updated_refuted.
Print Assumptions C100_silent_refuted.
