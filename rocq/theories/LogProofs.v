(** LogProofs.v - proofs about handles and the log. *)

From Verif Require Import Base BaseFacts Chars Str Net Trie Extract Psl ListSpec ListFacts World Update UpdateSpec WorldFacts
  Calls Logs LogSpec.
From Coq Require Import ZifyBool ZifyNat ZifyN.

(** ** The programs of the other models *)

Fixpoint mirrors {A B : Type} (g : A -> B) (p : work A) (q : prog B) : Prop :=
  match p with
  | WDone a => q = Done (same_result g a)
  | WSys o k => exists k', q = Sys o k' /\ forall x, mirrors g (k x) (k' x)
  | WMem o k => exists k', q = Mem o k' /\ forall x, mirrors g (k x) (k' x)
  | WClose _ k => mirrors g k q
  | WLog _ k => mirrors g k q
  end.

Lemma mirrors_ret : forall A B (g : A -> B) a, mirrors g (wret a) (ret (g a)).
Proof. reflexivity. Qed.
Lemma mirrors_bind : forall A B A' B' (g : A -> B) (h : A' -> B') (p : work A) q k k',
  mirrors g p q -> (forall a, mirrors h (k a) (k' (g a))) -> mirrors h (wbind p k) (pbind q k').
Proof.
  intros A B A' B' g h. induction p as [o|R o c IH|R o c IH|x c IH|l c IH]; intros q k k' M H; cbn [mirrors] in M.
  - subst q. destruct o; cbn [same_result wbind pbind]; [apply H|reflexivity|reflexivity].
  - destruct M as (c' & -> & M). cbn [wbind pbind mirrors]. eexists. split; [reflexivity|]. intros x. apply IH; auto.
  - destruct M as (c' & -> & M). cbn [wbind pbind mirrors]. eexists. split; [reflexivity|]. intros x. apply IH; auto.
  - cbn [wbind mirrors]. apply IH; auto.
  - cbn [wbind mirrors]. apply IH; auto.
Qed.
Lemma mirrors_id : forall A A' B' (h : A' -> B') (p : work A) q k k',
  mirrors (fun a => a) p q -> (forall a, mirrors h (k a) (k' a)) -> mirrors h (wbind p k) (pbind q k').
Proof. intros A A' B' h p q k k' M H. apply (mirrors_bind A A A' B' (fun a => a) h); auto. Qed.
Lemma mirrors_deferred : forall A B (g : A -> B) x (p : work A) q, mirrors g p q -> mirrors g (deferred x p) q.
Proof.
  intros A B g x. induction p as [o|R o c IH|R o c IH|y c IH|l c IH]; intros q M; cbn [mirrors deferred] in *; auto;
    destruct M as (c' & -> & M); exists c'; auto.
Qed.
Lemma same_id : forall A (r : outcome A), same_result (fun a => a) r = r.
Proof. intros A [a| |]; reflexivity. Qed.
Lemma mirrors_done : forall A (r : outcome A), mirrors (fun a => a) (WDone r) (Done r).
Proof. intros A r. cbn [mirrors]. rewrite same_id. reflexivity. Qed.
Lemma mirrors_lifted : forall A (p : prog A), mirrors (fun a => a) (lifted p) p.
Proof.
  intros A. induction p as [o|R o c IH|R o c IH]; cbn [lifted]; [apply mirrors_done| |]; cbn [mirrors]; eauto.
Qed.
Lemma mirrors_sys : forall R (o : sys R), mirrors (fun a => a) (wsys o) (sys_do o).
Proof. intros R o. cbn [wsys sys_do mirrors]. eexists. split; [reflexivity|]. reflexivity. Qed.
Lemma mirrors_mem : forall R (o : mem_op R), mirrors (fun a => a) (wmem o) (mem_do o).
Proof. intros R o. cbn [wmem mem_do mirrors]. eexists. split; [reflexivity|]. reflexivity. Qed.
(** A log line in front. *)
Lemma mirrors_log : forall A B (g : A -> B) line k q, mirrors g (k tt) q -> mirrors g (wbind (log_println line) k) q.
Proof. intros. exact H. Qed.

Section Env.
Variable E : Type.
Variable step : forall R : Type, sys R -> E -> R -> E -> Prop.

Lemma mirrors_runs : forall A B (g : A -> B) (p : work A) q, mirrors g p q ->
  forall e m tr e' m' r, work_runs step p e m tr e' m' r -> runs step q e m (plain tr) e' m' (same_result g r).
Proof.
  intros A B g. induction p as [o|R o c IH|R o c IH|x c IH|l c IH]; intros q M e m tr e' m' r H; cbn [mirrors work_runs] in *.
  - destruct H as (-> & -> & -> & ->). subst q. cbn [runs]. auto.
  - destruct M as (c' & -> & M). destruct H as (x & e1 & tr1 & S & -> & H). cbn [runs].
    exists x, e1, (plain tr1). split; [exact S|]. split; [reflexivity|]. eapply IH; [apply M|exact H].
  - destruct M as (c' & -> & M). cbn [runs]. destruct (mem_step o m) as [x m1]. eapply IH; [apply M|exact H].
  - destruct H as (tr1 & -> & H). exact (IH q M _ _ _ _ _ _ H).
  - destruct H as (tr1 & -> & H). exact (IH q M _ _ _ _ _ _ H).
Qed.
Lemma mirrors_back : forall A B (g : A -> B) (p : work A) q, mirrors g p q ->
  forall e m tr e' m' r, runs step q e m tr e' m' r ->
  exists tr' r', work_runs step p e m tr' e' m' r' /\ plain tr' = tr /\ same_result g r' = r.
Proof.
  intros A B g. induction p as [o|R o c IH|R o c IH|x c IH|l c IH]; intros q M e m tr e' m' r H; cbn [mirrors work_runs] in *.
  - subst q. destruct H as (-> & -> & -> & ->). exists [], o. auto 10.
  - destruct M as (c' & -> & M). destruct H as (x & e1 & tr1 & S & -> & H).
    apply (IH x _ (M x)) in H as (tr' & r' & H & <- & <-). exists (Did (Event o x) :: tr'), r'.
    split; [|auto]. exists x, e1, tr'. auto.
  - destruct M as (c' & -> & M). cbn [runs] in H. destruct (mem_step o m) as [x m1]. apply (IH x _ (M x)) in H. exact H.
  - apply (IH _ M) in H as (tr' & r' & H & <- & <-). exists (WasClosed x :: tr'), r'. split; [exists tr'; auto|]. auto.
  - apply (IH _ M) in H as (tr' & r' & H & <- & <-). exists (Logged l :: tr'), r'. split; [exists tr'; auto|]. auto.
Qed.
End Env.

(** ** The functions *)

Section Functions.
Variable to_ascii : bytes -> option bytes.
Variable hardcoded : bytes.

Lemma process_line_mirrors : forall line psl private,
  mirrors (fun a => a) (process_line_log to_ascii line psl private) (ret (process_line to_ascii line psl private)).
Proof.
  intros line psl private. unfold process_line_log, process_line.
  destruct ((len (trim_space line) =? 0)%Z || has_prefix (trim_space line) (str "//")); [reflexivity|].
  destruct (to_ascii (trim_space line)); reflexivity.
Qed.
Lemma process_lines_mirrors : forall lines psl private,
  mirrors (fun a => a) (process_lines_log to_ascii lines psl private) (ret (process_lines to_ascii lines psl private)).
Proof.
  induction lines as [|line rest IH]; intros psl private; cbn [process_lines_log process_lines]; [reflexivity|].
  pose proof (process_line_mirrors line psl private) as M. destruct (process_line to_ascii line psl private) as [psl' private'].
  apply (mirrors_id _ _ _ _ _ _ _ (fun x => ret (process_lines to_ascii rest (fst x) (snd x))) M).
  intros [a b]. apply IH.
Qed.
Lemma parse_list_mirrors : forall text, mirrors (fun a => a) (parse_list_log to_ascii text) (ret (parse_list to_ascii text)).
Proof. intros text. apply process_lines_mirrors. Qed.

Definition pair_io {A : Type} (x : A * option failure) : A * option io_err := (fst x, option_map io_of (snd x)).

Lemma get_list_mirrors : forall path,
  mirrors pair_io (get_public_suffix_list_log to_ascii path) (get_public_suffix_list to_ascii path).
Proof.
  intros path. unfold get_public_suffix_list_log, get_public_suffix_list.
  apply mirrors_id; [apply mirrors_sys|]. intros [c|].
  - apply (mirrors_id _ _ _ _ _ _ _ (fun psl => ret (psl, None)) (parse_list_mirrors c)). reflexivity.
  - reflexivity.
Qed.
Lemma get_hardcoded_mirrors :
  mirrors pair_io (get_hardcoded_public_suffix_list_log to_ascii hardcoded) (get_hardcoded_public_suffix_list to_ascii hardcoded).
Proof. apply (mirrors_id _ _ _ _ _ _ _ (fun psl => ret (psl, None)) (parse_list_mirrors hardcoded)). reflexivity. Qed.

Lemma trie_construct_mirrors : forall private path,
  mirrors pair_io (trie_construct_log to_ascii hardcoded private path) (trie_construct to_ascii hardcoded private path).
Proof.
  intros private path. unfold trie_construct_log, trie_construct. apply mirrors_id; [apply mirrors_mem|]. intros a.
  eapply mirrors_bind with (g := pair_io); [destruct (negb (bytes_eqb path [])); [apply get_list_mirrors|apply get_hardcoded_mirrors]|].
  intros [lists [e|]]; cbn [pair_io fst snd option_map]; [reflexivity|].
  apply mirrors_id; [apply mirrors_lifted|]. intros _. apply mirrors_id; [apply mirrors_mem|]. intros _. reflexivity.
Qed.
Lemma new_hardcoded_mirrors : forall err n,
  mirrors pair_io (new_hardcoded_psl_log to_ascii hardcoded err n) (new_hardcoded_psl to_ascii hardcoded n).
Proof.
  intros err n. unfold new_hardcoded_psl_log, new_hardcoded_psl. apply mirrors_log.
  eapply mirrors_bind with (g := pair_io); [apply trie_construct_mirrors|]. intros [a e]; cbn [pair_io fst snd].
  apply mirrors_id; [apply mirrors_mem|]. intros f. reflexivity.
Qed.
Lemma download_mirrors : forall url, mirrors pair_io (download_file_log url) (download_file url).
Proof.
  intros url. unfold download_file_log, download_file. apply mirrors_id; [apply mirrors_sys|]. intros [|status body complete].
  - reflexivity.
  - apply mirrors_deferred. destruct (status =? 200)%Z; [destruct complete|]; reflexivity.
Qed.
Lemma update_file_mirrors : forall file sources,
  mirrors (option_map io_of) (update_file_log file sources) (update_file file sources).
Proof.
  intros file. induction sources as [|s rest IH]; cbn [update_file_log update_file]; [reflexivity|].
  eapply mirrors_bind with (g := pair_io); [apply download_mirrors|]. intros [body [e|]]; cbn [pair_io fst snd option_map].
  { apply mirrors_log. exact IH. }
  destruct (negb (valid_psl_delimiters body)); [exact IH|].
  apply mirrors_id; [apply mirrors_sys|]. intros sought. destruct (negb sought); [apply mirrors_log; exact IH|].
  apply mirrors_id; [apply mirrors_sys|]. intros wrote. destruct (negb wrote); [apply mirrors_log; exact IH|]. reflexivity.
Qed.
Lemma update_mirrors : forall f, mirrors (option_map io_of) (update_log to_ascii hardcoded f) (update to_ascii hardcoded f).
Proof.
  intros f. unfold update_log, update. apply mirrors_id; [apply mirrors_sys|]. intros temp.
  apply mirrors_id; [apply mirrors_mem|]. intros x. destruct (negb _); [reflexivity|].
  apply mirrors_id; [apply mirrors_sys|]. intros [file|]; [|reflexivity].
  apply mirrors_deferred. eapply mirrors_bind with (g := option_map io_of); [apply update_file_mirrors|].
  intros [e|]; cbn [option_map]; [reflexivity|].
  apply mirrors_id; [apply mirrors_mem|]. intros y.
  eapply mirrors_bind with (g := pair_io); [apply trie_construct_mirrors|]. intros [a [e|]]; cbn [pair_io fst snd option_map]; [reflexivity|].
  apply mirrors_id; [apply mirrors_mem|]. intros _. apply mirrors_id; [apply mirrors_mem|]. intros _. reflexivity.
Qed.
Lemma new_from_cache_mirrors : forall n f path,
  mirrors pair_io (new_from_cache_log to_ascii hardcoded n f path) (new_from_cache to_ascii hardcoded n f path).
Proof.
  intros n f path. unfold new_from_cache_log, new_from_cache.
  eapply mirrors_bind with (g := pair_io); [apply trie_construct_mirrors|]. intros [a [e|]]; cbn [pair_io fst snd option_map].
  - apply new_hardcoded_mirrors.
  - apply mirrors_id; [apply mirrors_mem|]. intros _. reflexivity.
Qed.
Lemma new_mirrors : forall n, mirrors pair_io (new_log to_ascii hardcoded n) (new to_ascii hardcoded n).
Proof.
  intros n. unfold new_log, new. apply mirrors_id; [apply mirrors_mem|]. intros a.
  apply mirrors_id; [apply mirrors_mem|]. intros f. apply mirrors_id; [apply mirrors_lifted|]. intros [valid age].
  destruct (negb valid); [|apply new_from_cache_mirrors].
  apply mirrors_id; [apply mirrors_sys|]. intros temp. apply mirrors_id; [apply mirrors_sys|]. intros opened.
  destruct (negb opened); [apply new_hardcoded_mirrors|]. apply mirrors_deferred.
  apply mirrors_id; [apply mirrors_mem|]. intros _. apply mirrors_id; [apply mirrors_lifted|]. intros [valid' age'].
  destruct (negb valid' || (age' >? psl_max_age)%Z); [|apply new_from_cache_mirrors].
  eapply mirrors_bind with (g := option_map io_of); [apply update_mirrors|]. intros [e|]; cbn [option_map].
  - apply new_hardcoded_mirrors.
  - reflexivity.
Qed.
End Functions.

Lemma done_bind : forall A B (o : outcome A) (k : A -> outcome B), Done (bind o k) = pbind (Done o) (fun a => Done (k a)).
Proof. intros A B [a| |] k; reflexivity. Qed.
Lemma convert_mirrors : forall ext puny netloc,
  mirrors (fun a => a) (convert_host_log ext puny netloc) (ret (convert_host ext puny netloc)).
Proof.
  intros ext puny netloc. unfold convert_host_log, convert_host, format_as_punycode.
  destruct (query_unescape netloc); [reflexivity|]. destruct puny.
  - destruct (idna_to_puny ext b); reflexivity.
  - destruct (idna_to_unicode_err ext b); reflexivity.
Qed.
Lemma extract_front_mirrors : forall ext p, mirrors (fun a => a) (extract_front_log ext p) (Done (extract_front ext p)).
Proof.
  intros ext p. unfold extract_front_log, extract_front.
  rewrite done_bind. apply mirrors_id; [apply mirrors_done|]. intros netloc.
  rewrite done_bind. apply mirrors_id; [apply mirrors_done|]. intros [u netloc1].
  rewrite done_bind. apply mirrors_id; [apply mirrors_done|]. intros at_idx.
  rewrite done_bind. apply mirrors_id; [apply mirrors_done|]. intros [u1 netloc2].
  destruct (scan_host netloc2 0 (len netloc2) (-1) (-1)) as [e|[[opening closing] host_end]]; [reflexivity|].
  rewrite done_bind. apply mirrors_id; [apply mirrors_done|]. intros [u2 [e|]]; [reflexivity|].
  rewrite done_bind. apply mirrors_id; [apply mirrors_done|]. intros [after_host netloc3].
  rewrite done_bind. apply mirrors_id; [apply mirrors_done|]. intros [u3 [e|]]; [reflexivity|].
  assert (M : mirrors (fun a => a) (r <<~ convert_host_log ext (p_to_punycode p) netloc3 ;;
      match r with inl e => wret (inl (u3, Some e)) | inr host => wret (inr (u3, host)) end)
    (Done match convert_host ext (p_to_punycode p) netloc3 with inl e => Ret (inl (u3, Some e)) | inr host => Ret (inr (u3, host)) end)).
  { apply (mirrors_id _ _ _ _ _ _ _ (fun r => Done match r with inl e => Ret (inl (u3, Some e)) | inr host => Ret (inr (u3, host)) end)
      (convert_mirrors ext (p_to_punycode p) netloc3)). intros [e|host]; reflexivity. }
  destruct (r_host_type u3); [exact M|exact M|exact M|reflexivity].
Qed.
Lemma extract_mirrors : forall ext f p, mirrors (fun a => a) (extract_log ext f p) (extract_prog ext f p).
Proof.
  intros ext f p. unfold extract_log, extract_prog. apply mirrors_id; [apply extract_front_mirrors|].
  intros [r|[u host]]; [reflexivity|]. apply mirrors_id; [apply mirrors_mem|]. intros x. apply mirrors_lifted.
Qed.

(** ** Handles *)

(** Whatever happens, the program can go on, ends with [after] open, and never has more than
    [most] handles open. *)
Fixpoint closes {A : Type} (most : nat) (p : work A) (hs after : list handle) : Prop :=
  (length hs <= most)%nat /\
  match p with
  | WDone _ => hs = after
  | WSys o k => (forall x, incl (needs (Event o x)) hs) /\ forall x, closes most (k x) (opens (Event o x) ++ hs) after
  | WMem o k => forall x, closes most (k x) hs after
  | WClose h k => exists hs', hs = h :: hs' /\ closes most k hs' after
  | WLog _ k => closes most k hs after
  end.

Lemma closes_now : forall A most (p : work A) hs after, closes most p hs after -> (length hs <= most)%nat.
Proof. intros A most p hs after H. destruct p; apply H. Qed.
Lemma closes_bind : forall A B most (p : work A) (k : A -> work B) hs after, closes most p hs after ->
  (forall a, closes most (k a) after after) -> closes most (wbind p k) hs after.
Proof.
  intros A B most. induction p as [o|R o c IH|R o c IH|x c IH|l c IH]; intros k hs after H K; cbn [closes wbind] in *.
  - destruct H as (L & ->). destruct o; [apply K| |]; cbn [closes]; auto.
  - destruct H as (L & N & H). split; [exact L|]. split; [exact N|]. intros x. apply IH; auto.
  - destruct H as (L & H). split; [exact L|]. intros x. apply IH; auto.
  - destruct H as (L & hs' & -> & H). split; [exact L|]. exists hs'. split; [reflexivity|]. apply IH; auto.
  - destruct H as (L & H). split; [exact L|]. apply IH; auto.
Qed.
Lemma closes_deferred : forall A most h (p : work A) hs after, closes most p hs (h :: after) -> closes most (deferred h p) hs after.
Proof.
  intros A most h. induction p as [o|R o c IH|R o c IH|x c IH|l c IH]; intros hs after H; cbn [closes deferred] in *.
  - destruct H as (L & ->). split; [exact L|]. exists after. split; [reflexivity|]. cbn [closes length] in *. split; [lia|reflexivity].
  - destruct H as (L & N & H). split; [exact L|]. split; [exact N|]. intros x. apply IH; auto.
  - destruct H as (L & H). split; [exact L|]. intros x. apply IH; auto.
  - destruct H as (L & hs' & -> & H). split; [exact L|]. exists hs'. split; [reflexivity|]. apply IH; auto.
  - destruct H as (L & H). split; [exact L|]. apply IH; auto.
Qed.
Lemma closes_done : forall A most (o : outcome A) hs, (length hs <= most)%nat -> closes most (WDone o) hs hs.
Proof. intros. cbn [closes]. auto. Qed.
Lemma closes_mem : forall R most (o : mem_op R) hs, (length hs <= most)%nat -> closes most (wmem o) hs hs.
Proof. intros. cbn [wmem wret closes]. auto. Qed.
Lemma closes_log : forall most line hs, (length hs <= most)%nat -> closes most (log_println line) hs hs.
Proof. intros. cbn [log_println wret closes]. auto. Qed.
(** Operations that open nothing. *)
Lemma closes_sys : forall R most (o : sys R) hs, (length hs <= most)%nat -> (forall x, opens (Event o x) = []) ->
  (forall x, incl (needs (Event o x)) hs) -> closes most (wsys o) hs hs.
Proof. intros R most o hs L O N. cbn [wsys wret closes]. split; [exact L|]. split; [exact N|]. intros x. rewrite O. auto. Qed.
(** Operations that open something. *)
Lemma closes_open : forall R A most (o : sys R) (k : R -> work A) hs after, (length hs <= most)%nat -> (forall x, needs (Event o x) = []) ->
  (forall x, closes most (k x) (opens (Event o x) ++ hs) after) -> closes most (wbind (wsys o) k) hs after.
Proof.
  intros R A most o k hs after L N H. cbn [wsys wret wbind closes]. split; [exact L|]. split; [|exact H].
  intros x. rewrite N. intros y [].
Qed.
(** Programs that open nothing and need nothing. *)
Fixpoint modest_prog {A : Type} (p : prog A) : Prop :=
  match p with
  | Done _ => True
  | Sys o k => forall x, opens (Event o x) = [] /\ needs (Event o x) = [] /\ modest_prog (k x)
  | Mem _ k => forall x, modest_prog (k x)
  end.
Lemma closes_lifted : forall A most (p : prog A) hs, modest_prog p -> (length hs <= most)%nat -> closes most (lifted p) hs hs.
Proof.
  intros A most. induction p as [o|R o c IH|R o c IH]; intros hs M L; cbn [modest_prog lifted closes] in *; [auto| |].
  - split; [exact L|]. split; [intros x; destruct (M x) as (_ & -> & _); intros y []|].
    intros x. destruct (M x) as (-> & _ & X). apply IH; auto.
  - split; [exact L|]. intros x. apply IH; auto.
Qed.
Lemma modest_bind : forall A B (p : prog A) (k : A -> prog B), modest_prog p -> (forall a, modest_prog (k a)) -> modest_prog (pbind p k).
Proof.
  intros A B. induction p as [o|R o c IH|R o c IH]; intros k M K; cbn [modest_prog pbind] in *.
  - destruct o; [apply K|exact I|exact I].
  - intros x. destruct (M x) as (O & N & X). split; [exact O|]. split; [exact N|]. apply IH; auto.
  - intros x. apply IH; auto.
Qed.

Section Handles.
Variable to_ascii : bytes -> option bytes.
Variable hardcoded : bytes.
Variable most : nat.

Lemma insert_modest : forall l a, modest_prog (insert_suffixes a l).
Proof.
  induction l as [|s l IH]; intros a; cbn [insert_suffixes]; [exact I|].
  apply modest_bind; [exact I|]. intros sp. apply modest_bind; [intros x; exact I|]. intros _. apply IH.
Qed.
Lemma check_modest : forall path, modest_prog (check_cache_file path).
Proof.
  intros path. unfold check_cache_file. apply modest_bind; [cbn; auto|]. intros abs. apply modest_bind; [cbn; auto|]. intros stat.
  apply modest_bind; [destruct stat as [[d t]|]; cbn; auto|]. intros age. apply modest_bind; [cbn; auto|]. intros c. exact I.
Qed.
Lemma process_line_closes : forall line psl private hs, (length hs <= most)%nat ->
  closes most (process_line_log to_ascii line psl private) hs hs.
Proof.
  intros line psl private hs L. unfold process_line_log.
  destruct ((len (trim_space line) =? 0)%Z || has_prefix (trim_space line) (str "//")); [apply closes_done; exact L|].
  destruct (to_ascii (trim_space line)); [apply closes_done; exact L|].
  apply closes_bind; [apply closes_log; exact L|]. intros _. apply closes_done. exact L.
Qed.
Lemma parse_closes : forall text hs, (length hs <= most)%nat -> closes most (parse_list_log to_ascii text) hs hs.
Proof.
  intros text hs L. unfold parse_list_log. generalize (split_byte text 10) no_suffixes false.
  induction l as [|line l IH]; intros psl private; cbn [process_lines_log]; [apply closes_done; exact L|].
  apply closes_bind; [apply process_line_closes; exact L|]. intros [a b]. apply IH.
Qed.
Lemma trie_closes : forall private path hs, (length hs <= most)%nat -> closes most (trie_construct_log to_ascii hardcoded private path) hs hs.
Proof.
  intros private path hs L. unfold trie_construct_log. apply closes_bind; [apply closes_mem; exact L|]. intros a.
  apply closes_bind.
  - destruct (negb (bytes_eqb path [])).
    + unfold get_public_suffix_list_log. apply closes_bind; [apply closes_sys; [exact L|reflexivity|intros x y []]|]. intros [c|].
      * apply closes_bind; [apply parse_closes; exact L|]. intros psl. apply closes_done. exact L.
      * apply closes_bind; [apply closes_log; exact L|]. intros _. apply closes_done. exact L.
    + unfold get_hardcoded_public_suffix_list_log.
      apply closes_bind; [apply parse_closes; exact L|]. intros psl. apply closes_done. exact L.
  - intros [lists [e|]].
    + apply closes_bind; [apply closes_log; exact L|]. intros _. apply closes_done. exact L.
    + apply closes_bind; [apply closes_lifted; [apply insert_modest|exact L]|]. intros _.
      apply closes_bind; [apply closes_mem; exact L|]. intros _. apply closes_done. exact L.
Qed.
Lemma new_hardcoded_closes : forall err n hs, (length hs <= most)%nat -> closes most (new_hardcoded_psl_log to_ascii hardcoded err n) hs hs.
Proof.
  intros err n hs L. unfold new_hardcoded_psl_log. apply closes_bind; [apply closes_log; exact L|]. intros _.
  apply closes_bind; [apply trie_closes; exact L|]. intros [a e]. apply closes_bind; [apply closes_mem; exact L|]. intros f.
  apply closes_done. exact L.
Qed.
Lemma download_closes : forall url hs, (S (length hs) <= most)%nat -> closes most (download_file_log url) hs hs.
Proof.
  intros url hs L. unfold download_file_log. apply closes_open; [lia|reflexivity|]. intros [|status body complete]; cbn [opens app].
  - apply closes_done. lia.
  - apply closes_deferred. destruct (status =? 200)%Z; apply closes_done; cbn [length]; lia.
Qed.
Lemma update_file_closes : forall file sources hs, In (File file) hs -> (S (length hs) <= most)%nat -> closes most (update_file_log file sources) hs hs.
Proof.
  intros file sources hs I L. assert (L' : (length hs <= most)%nat) by lia.
  induction sources as [|s rest IH]; cbn [update_file_log]; [apply closes_done; exact L'|].
  apply closes_bind; [apply download_closes; exact L|]. intros [body [e|]].
  { apply closes_bind; [apply closes_log; exact L'|]. intros _. exact IH. }
  destruct (negb (valid_psl_delimiters body)); [exact IH|].
  assert (N : incl [File file] hs) by (intros y [<-|[]]; exact I).
  apply closes_bind; [apply closes_sys; [exact L'|reflexivity|intros x; exact N]|]. intros sought.
  destruct (negb sought); [apply closes_bind; [apply closes_log; exact L'|]; intros _; exact IH|].
  apply closes_bind; [apply closes_sys; [exact L'|reflexivity|intros x; exact N]|]. intros wrote.
  destruct (negb wrote); [apply closes_bind; [apply closes_log; exact L'|]; intros _; exact IH|].
  apply closes_bind; [apply closes_log; exact L'|]. intros _. apply closes_done. exact L'.
Qed.
Lemma update_closes : forall f hs, (S (S (length hs)) <= most)%nat -> closes most (update_log to_ascii hardcoded f) hs hs.
Proof.
  intros f hs L. assert (L' : (length hs <= most)%nat) by lia. unfold update_log.
  apply closes_bind; [apply closes_sys; [exact L'|reflexivity|intros x y []]|]. intros temp.
  apply closes_bind; [apply closes_mem; exact L'|]. intros x. destruct (negb _); [apply closes_done; exact L'|].
  apply closes_open; [exact L'|reflexivity|]. intros [file|]; cbn [opens app]; [|apply closes_done; exact L'].
  apply closes_deferred. assert (L2 : (length (File file :: hs) <= most)%nat) by (cbn [length]; lia).
  apply closes_bind; [apply update_file_closes; [left; reflexivity|cbn [length]; lia]|].
  intros [e|]; [apply closes_done; exact L2|].
  apply closes_bind; [apply closes_mem; exact L2|]. intros y. apply closes_bind; [apply trie_closes; exact L2|].
  intros [a [e|]]; [apply closes_done; exact L2|].
  apply closes_bind; [apply closes_mem; exact L2|]. intros _. apply closes_bind; [apply closes_mem; exact L2|]. intros _.
  apply closes_done. exact L2.
Qed.
Lemma new_from_cache_closes : forall n f path hs, (length hs <= most)%nat -> closes most (new_from_cache_log to_ascii hardcoded n f path) hs hs.
Proof.
  intros n f path hs L. unfold new_from_cache_log. apply closes_bind; [apply trie_closes; exact L|]. intros [a [e|]].
  - apply new_hardcoded_closes. exact L.
  - apply closes_bind; [apply closes_mem; exact L|]. intros _. apply closes_done. exact L.
Qed.
Lemma new_closes : forall n hs, (S (S (S (length hs))) <= most)%nat -> closes most (new_log to_ascii hardcoded n) hs hs.
Proof.
  intros n hs L. assert (L' : (length hs <= most)%nat) by lia. unfold new_log.
  apply closes_bind; [apply closes_mem; exact L'|]. intros a. apply closes_bind; [apply closes_mem; exact L'|]. intros f.
  apply closes_bind; [apply closes_lifted; [apply check_modest|exact L']|]. intros [valid age].
  destruct (negb valid); [|apply new_from_cache_closes; exact L'].
  apply closes_bind; [apply closes_sys; [exact L'|reflexivity|intros x y []]|]. intros temp.
  apply closes_open; [exact L'|reflexivity|]. intros [|]; cbn [opens app negb]; [|apply new_hardcoded_closes; exact L'].
  apply closes_deferred. assert (L2 : (length (Folder :: hs) <= most)%nat) by (cbn [length]; lia).
  apply closes_bind; [apply closes_mem; exact L2|]. intros _.
  apply closes_bind; [apply closes_lifted; [apply check_modest|exact L2]|]. intros [valid' age'].
  destruct (negb valid' || (age' >? psl_max_age)%Z); [|apply new_from_cache_closes; exact L2].
  apply closes_bind; [apply update_closes; cbn [length]; lia|]. intros [e|]; [apply new_hardcoded_closes; exact L2|].
  apply closes_done. exact L2.
Qed.
End Handles.

Section HeldEnv.
Variable E : Type.
Variable step : forall R : Type, sys R -> E -> R -> E -> Prop.

Lemma closes_held : forall A most (p : work A) hs after, closes most p hs after ->
  forall e m tr e' m' r before, work_runs step p e m tr e' m' r -> held before hs ->
  held (before ++ tr) after /\
  forall tr1 tr2, tr = tr1 ++ tr2 -> exists hs1, held (before ++ tr1) hs1 /\ (length hs1 <= most)%nat.
Proof.
  intros A most.
  assert (Cons : forall w tr after before hs1, (length hs1 <= most)%nat -> held before hs1 ->
     (held ((before ++ [w]) ++ tr) after /\
      forall tr1 tr2, tr = tr1 ++ tr2 -> exists hs1, held ((before ++ [w]) ++ tr1) hs1 /\ (length hs1 <= most)%nat) ->
     held (before ++ w :: tr) after /\
     forall tr1 tr2, w :: tr = tr1 ++ tr2 -> exists hs1, held (before ++ tr1) hs1 /\ (length hs1 <= most)%nat).
  { intros w tr after before hs1 L Hb (H1 & H2). rewrite <- app_assoc in H1. split; [exact H1|].
    intros [|w' tr1] tr2 Eq.
    - rewrite app_nil_r. exists hs1. auto.
    - cbn [app] in Eq. injection Eq as <- Eq. destruct (H2 tr1 tr2 Eq) as (hs2 & H & L2). rewrite <- app_assoc in H. exists hs2. auto. }
  induction p as [o|R o c IH|R o c IH|x c IH|l c IH]; intros hs after C e m tr e' m' r before H Hb; cbn [closes work_runs] in *.
  - destruct H as (-> & -> & -> & ->). destruct C as (L & ->). rewrite app_nil_r. split; [exact Hb|].
    intros tr1 tr2 Eq. symmetry in Eq. apply app_eq_nil in Eq as (-> & _). rewrite app_nil_r. exists after. auto.
  - destruct H as (x & e1 & tr1 & S & -> & H). destruct C as (L & N & C).
    apply (Cons _ _ _ _ hs L Hb). eapply IH; [apply C|exact H|]. apply held_did; [exact Hb|apply N].
  - destruct C as (L & C). destruct (mem_step o m) as [x m1]. eapply IH; [apply C|exact H|exact Hb].
  - destruct H as (tr1 & -> & H). destruct C as (L & hs' & -> & C).
    apply (Cons _ _ _ _ _ L Hb). eapply IH; [apply C|exact H|]. apply held_closed. exact Hb.
  - destruct H as (tr1 & -> & H). destruct C as (L & C).
    apply (Cons _ _ _ _ _ L Hb). eapply IH; [apply C|exact H|]. apply held_logged. exact Hb.
Qed.

Lemma c99_new : forall to_ascii hardcoded n e m tr e' m' r, work_runs step (new_log to_ascii hardcoded n) e m tr e' m' r ->
  held tr [] /\ forall tr1 tr2, tr = tr1 ++ tr2 -> exists hs, held tr1 hs /\ (length hs <= 3)%nat.
Proof.
  intros to_ascii hardcoded n e m tr e' m' r H.
  exact (closes_held _ 3 _ [] [] (new_closes to_ascii hardcoded 3 n [] (le_n 3)) _ _ _ _ _ _ [] H held_none).
Qed.
Lemma c99_update : forall to_ascii hardcoded f e m tr e' m' r, work_runs step (update_log to_ascii hardcoded f) e m tr e' m' r ->
  held tr [] /\ forall tr1 tr2, tr = tr1 ++ tr2 -> exists hs, held tr1 hs /\ (length hs <= 2)%nat.
Proof.
  intros to_ascii hardcoded f e m tr e' m' r H.
  exact (closes_held _ 2 _ [] [] (update_closes to_ascii hardcoded 2 f [] (le_n 2)) _ _ _ _ _ _ [] H held_none).
Qed.
End HeldEnv.

(** At most one list of handles is open. *)
Lemma snoc_cases : forall A (l : list A) a l' a', l ++ [a] = l' ++ [a'] -> l = l' /\ a = a'.
Proof. intros. apply app_inj_tail. assumption. Qed.
Lemma held_unique : forall tr hs, held tr hs -> forall hs', held tr hs' -> hs = hs'.
Proof.
  intros tr hs H. induction H as [|tr hs e H IH N|tr hs h H IH|tr hs line H IH]; intros hs' K.
  - remember [] as t eqn:T. destruct K; [reflexivity| | |]; destruct tr; discriminate T.
  - remember (tr ++ [Did e]) as t eqn:T. destruct K as [|tr' hs' e' K N'|tr' hs' h' K|tr' hs' l' K]; [destruct tr; discriminate T| | |];
      apply snoc_cases in T as (-> & X); try discriminate X. injection X as ->. rewrite (IH _ K). reflexivity.
  - remember (tr ++ [WasClosed h]) as t eqn:T. destruct K as [|tr' hs' e' K N'|tr' hs' h' K|tr' hs' l' K]; [destruct tr; discriminate T| | |];
      apply snoc_cases in T as (-> & X); try discriminate X. injection X as ->. apply IH in K. injection K as ->. reflexivity.
  - remember (tr ++ [Logged line]) as t eqn:T. destruct K as [|tr' hs' e' K N'|tr' hs' h' K|tr' hs' l' K]; [destruct tr; discriminate T| | |];
      apply snoc_cases in T as (-> & X); try discriminate X. injection X as ->. apply IH. exact K.
Qed.
