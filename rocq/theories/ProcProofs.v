(** ProcProofs.v - several processes and one cache file: proofs of C98. *)

From Verif Require Import Base BaseFacts Chars Str StrFacts Trie Extract Psl ListSpec ListFacts World Update UpdateSpec WorldFacts
  UpdateProofs DiskProofs NewSpec NewProofs ExactDisk CrashProofs Calls CallProofs Procs ProcSpec.
From Coq Require Import ZifyBool ZifyNat ZifyN.
Local Open Scope nat_scope.

(** ** Lists of bytes *)

Lemma nth_skip : forall A n i (l : list A), nth_error (skipn n l) i = nth_error l (n + i).
Proof.
  intros A. induction n as [|n IH]; intros i [|x l]; cbn [skipn plus nth_error]; auto. destruct i; reflexivity.
Qed.
Lemma nth_first : forall A n i (l : list A) x, nth_error (firstn n l) i = Some x -> i < n /\ nth_error l i = Some x.
Proof.
  intros A. induction n as [|n IH]; intros i [|y l] x H; cbn [firstn] in H; destruct i as [|i]; cbn [nth_error] in *; try discriminate.
  - split; [lia|exact H].
  - apply IH in H. split; [lia|apply H].
Qed.
Lemma nth_app : forall A i (a b : list A) x, nth_error (a ++ b) i = Some x ->
  (i < length a /\ nth_error a i = Some x) \/ (length a <= i /\ nth_error b (i - length a) = Some x).
Proof.
  intros A i a b x H. destruct (Nat.lt_ge_cases i (length a)) as [L|L].
  - rewrite nth_error_app1 in H by exact L. auto.
  - rewrite nth_error_app2 in H by exact L. auto.
Qed.
Lemma skip_skip : forall A a b (l : list A), skipn a (skipn b l) = skipn (b + a) l.
Proof.
  intros A a. induction b as [|b IH]; intros l; [reflexivity|]. destruct l as [|x l]; [apply skipn_nil|]. apply IH.
Qed.

Lemma first_add : forall A a b (l : list A), firstn (a + b) l = firstn a l ++ firstn b (skipn a l).
Proof.
  intros A. induction a as [|a IH]; intros b [|x l]; cbn [plus firstn skipn app]; rewrite ?firstn_nil; try reflexivity.
  f_equal. apply IH.
Qed.

(** [cover] bytes of [old] are covered. *)
Definition covered (lists : bytes -> Prop) (old text : bytes) (cover : nat) : Prop :=
  exists top, length top = cover /\ text = top ++ skipn cover old /\ forall i b, nth_error top i = Some b -> from_list lists i b.

Lemma covered_length : forall lists old text cover, covered lists old text cover -> length text = Nat.max cover (length old).
Proof. intros lists old text cover (top & L & -> & _). rewrite app_length, skipn_length. lia. Qed.

Lemma covered_mono : forall (lists lists' : bytes -> Prop) old text cover, (forall b, lists b -> lists' b) ->
  covered lists old text cover -> covered lists' old text cover.
Proof.
  intros lists lists' old text cover M (top & L & E & H). exists top. split; [exact L|]. split; [exact E|].
  intros i b N. destruct (H i b N) as (body & B & C). exists body. auto.
Qed.

(** A piece of a list is written where the pieces before it end. *)
Lemma covered_piece : forall (lists : bytes -> Prop) old text cover body j j', covered lists old text cover -> lists body ->
  j <= cover -> j <= j' <= length body ->
  covered lists old (overwrite text j (firstn (j' - j) (skipn j body))) (Nat.max cover j').
Proof.
  intros lists old text cover body j j' (top & L & -> & H) Lb J Jb.
  assert (Lp : length (firstn (j' - j) (skipn j body)) = j' - j) by (rewrite firstn_length, skipn_length; lia).
  exists (firstn j top ++ firstn (j' - j) (skipn j body) ++ skipn j' top).
  split; [rewrite !app_length, Lp, firstn_length, skipn_length; lia|]. split.
  - unfold overwrite. rewrite Lp. replace (j - length (top ++ skipn cover old)) with 0 by (rewrite app_length, L; lia).
    cbn [repeat]. rewrite app_nil_r, <- app_assoc, firstn_app. replace (j - length top) with 0 by lia.
    cbn [firstn]. rewrite app_nil_r. f_equal. rewrite <- app_assoc. f_equal. rewrite skipn_app, skip_skip, L.
    replace (j + (j' - j)) with j' by lia. replace (cover + (j' - cover)) with (Nat.max cover j') by lia. reflexivity.
  - intros i b N. apply nth_app in N as [(_ & N)|(G & N)]; [apply nth_first in N as (_ & N); auto|].
    assert (Lj : length (firstn j top) = j) by (rewrite firstn_length; lia). rewrite Lj in *.
    apply nth_app in N as [(_ & N)|(G' & N)].
    + apply nth_first in N as (I & N). rewrite nth_skip in N. exists body. split; [exact Lb|]. rewrite <- N. f_equal. lia.
    + rewrite Lp in *. rewrite nth_skip in N. apply H. rewrite <- N. f_equal. lia.
Qed.

(** ** Each process runs as in Calls.v *)

Lemma process_pool : forall to_ascii hardcoded ext d r d' r' ev, process_step to_ascii hardcoded ext d r d' r' ev ->
  r_trace r' = r_trace r ++ ev /\ (pool_of r' = pool_of r \/ pool_step to_ascii hardcoded ext (pool_of r) (pool_of r')).
Proof.
  intros to_ascii hardcoded ext d r d' r' ev H.
  destruct H; cbn [r_trace]; (split; [rewrite ?app_nil_r; reflexivity|]); unfold pool_of;
    cbn [r_memory r_known r_tasks r_count r_trace]; rewrite ?map_app; cbn [map k_thread].
  - right. apply starts. assumption.
  - right. rewrite <- (app_nil_r tr) at 2. apply works. cbn [advance]. auto.
  - right. apply works. cbn [advance]. eauto.
  - left. reflexivity.
  - right. apply works. cbn [advance]. eauto.
  - left. reflexivity.
  - right. apply works. cbn [advance]. eauto.
  - right. apply works. cbn [advance]. eauto.
  - right. apply returns.
Qed.

Lemma first_process_pool : pool_of first_process = first_pool.
Proof. reflexivity. Qed.

Section Machine.
Variable to_ascii : bytes -> option bytes.
Variable hardcoded : bytes.
Variable ext : idna.
Notation process_step := (process_step to_ascii hardcoded ext).
Notation machine_step := (machine_step to_ascii hardcoded ext).
Notation machine_steps := (machine_steps to_ascii hardcoded ext).
Notation pool_steps := (pool_steps to_ascii hardcoded ext).

Lemma machine_trans : forall s1 s2 s3, machine_steps s1 s2 -> machine_steps s2 s3 -> machine_steps s1 s3.
Proof. intros s1 s2 s3 A B. induction B as [s|s2 s3 s4 B IH S]; [exact A|].
  apply (machine_goes_on _ _ _ _ _ _ (IH A) S). Qed.

Lemma machine_pools : forall d s, machine_steps (first_machine d) s ->
  forall r, In r (y_processes s) -> pool_steps first_pool (pool_of r) /\ incl (r_trace r) (y_events s).
Proof.
  intros d s H. remember (first_machine d) as s0 eqn:E. induction H as [s|s1 s2 s3 H IH S]; intros r I.
  { subst s. destruct I. }
  specialize (IH E). destruct S as [d2 rs ev|d2 d' rs1 q q' rs2 ev ev' P|d2 rs1 q rs2 ev]; cbn [y_processes y_events] in *.
  - apply in_app_or in I as [I|[<-|[]]]; [auto|]. split; [apply steps_none|]. intros e [].
  - assert (G : forall r, In r (rs1 ++ rs2) -> pool_steps first_pool (pool_of r) /\ incl (r_trace r) (ev ++ ev')).
    { intros r' I'. destruct (IH r') as (A & B); [apply in_app_or in I'; apply in_or_app; cbn [In]; tauto|].
      split; [exact A|]. apply incl_appl. exact B. }
    apply in_app_or in I as [I|[<-|I]]; [apply G, in_or_app; auto| |apply G, in_or_app; auto].
    destruct (IH q) as (A & B); [apply in_or_app; cbn [In]; auto|].
    destruct (process_pool _ _ _ _ _ _ _ _ P) as (T & St). split.
    + destruct St as [->|St]; [exact A|]. eapply steps_more; eauto.
    + rewrite T. apply incl_app; [apply incl_appl; exact B|apply incl_appr, incl_refl].
  - apply IH. apply in_app_or in I. apply in_or_app. cbn [In]. tauto.
Qed.

(** ** What a call does to files

    [tidy temp L st p]: program [p] opens no other file than the default cache file for
    writing, writes only directly after going to the start of the file it has opened, and only
    lists in [L] or downloaded later, with markers.  [st]: the file opened, and whether the
    last thing was going to its start. *)
Fixpoint tidy {A : Type} (temp : bytes) (L : bytes -> Prop) (own : option nat) (start : bool) (p : prog A) : Prop :=
  match p with
  | Done _ => True
  | Mem o k => forall x, tidy temp L own start (k x)
  | @Sys _ R o k =>
    match o in sys R return (R -> (bytes -> Prop) -> option nat -> bool -> Prop) -> Prop with
    | TempDir => fun K => K temp L own start
    | OpenWrite path => fun K => path = temp ++ str "public_suffix_list.dat" /\ K None L own start /\ forall fd, K (Some fd) L (Some fd) false
    | SeekStart fd => fun K => own = Some fd /\ K true L own true /\ K false L own start
    | Write fd data => fun K => own = Some fd /\ start = true /\ L data /\ has_markers data /\ forall x, K x L own false
    | HttpGet _ => fun K => forall x, K x (fun body => L body \/ x = Response 200 body true) own start
    | _ => fun K => forall x, K x L own start
    end (fun x L own start => tidy temp L own start (k x))
  end.

Lemma tidy_mono : forall A temp (p : prog A) (L L' : bytes -> Prop) own start, (forall b, L b -> L' b) ->
  tidy temp L own start p -> tidy temp L' own start p.
Proof.
  intros A temp. induction p as [a|R o k IH|R o k IH]; intros L L' own start I H; cbn [tidy] in *; [exact H| |intros x; eapply IH; eauto].
  destruct o; cbn beta iota in *; try (intros x; eapply IH; eauto; fail).
  - eapply IH; eauto.
  - destruct H as (P & H1 & H2). split; [exact P|]. split; [eapply IH; eauto|]. intros f. eapply IH; eauto.
  - destruct H as (P & H1 & H2). split; [exact P|]. split; eapply IH; eauto.
  - destruct H as (P & Q & H1 & H2 & H3). repeat (split; [solve [auto]|]). intros x. eapply IH; eauto.
  - intros x. eapply IH; [|apply H]. intros b [X|X]; auto.
Qed.

Lemma tidy_bind : forall A B temp (p : prog A) (k : A -> prog B) (L : bytes -> Prop) own start,
  tidy temp L own start p ->
  (forall a (L' : bytes -> Prop) own' start', (forall b, L b -> L' b) -> tidy temp L' own' start' (k a)) ->
  tidy temp L own start (pbind p k).
Proof.
  intros A B temp. induction p as [a|R o c IH|R o c IH]; intros k L own start H K; cbn [pbind tidy] in *.
  - destruct a; [apply K; auto|exact I|exact I].
  - destruct o; cbn beta iota in *; try (intros x; apply IH; [apply H|exact K]; fail).
    + apply IH; [apply H|exact K].
    + destruct H as (P & H1 & H2). split; [exact P|]. split; [apply IH; auto|]. intros f. apply IH; auto.
    + destruct H as (P & H1 & H2). split; [exact P|]. split; apply IH; auto.
    + destruct H as (P & Q & H1 & H2 & H3). repeat (split; [solve [auto]|]). intros x. apply IH; auto.
    + intros x. apply IH; [apply H|]. intros a L' own' start' J. apply K. auto.
  - intros x. apply IH; auto.
Qed.

Lemma tidy_insert : forall temp l a L own start, tidy temp L own start (insert_suffixes a l).
Proof.
  intros temp. induction l as [|s l IH]; intros a L own start; cbn [insert_suffixes]; [exact I|].
  apply tidy_bind; [exact I|]. intros sp L1 o1 s1 J1. cbn [pbind mem_do ret tidy]. intros x. apply IH.
Qed.

Lemma tidy_construct : forall temp private path L own start, tidy temp L own start (trie_construct to_ascii hardcoded private path).
Proof.
  intros temp private path L own start. unfold trie_construct. cbn [pbind mem_do ret tidy]. intros a.
  apply tidy_bind.
  - destruct (negb _); [|exact I]. unfold get_public_suffix_list. cbn [pbind sys_do ret tidy]. intros [c|]; exact I.
  - intros (lists, e) L1 o1 s1 J1. destruct e as [e|]; [exact I|].
    apply tidy_bind; [apply tidy_insert|]. intros u L2 o2 s2 J2. cbn [pbind mem_do ret tidy]. auto.
Qed.

Lemma tidy_update_file : forall temp fd sources L start, tidy temp L (Some fd) start (update_file fd sources).
Proof.
  intros temp fd. induction sources as [|s rest IH]; intros L start; cbn [update_file]; [exact I|].
  unfold download_file. cbn [pbind sys_do ret tidy]. intros resp.
  destruct resp as [|status body complete]; [apply IH|]. destruct (Z.eqb_spec status 200) as [->|]; [|apply IH].
  destruct complete; [|apply IH]. cbn [pbind ret]. destruct (valid_psl_delimiters body) eqn:D; cbn [negb]; [|apply IH].
  cbn [pbind sys_do ret tidy]. split; [reflexivity|]. split; [|cbn [negb]; apply IH].
  cbn [negb pbind sys_do ret tidy]. split; [reflexivity|]. split; [reflexivity|]. split; [right; reflexivity|].
  split; [apply delimiters_iff; exact D|]. intros []; cbn [negb]; [exact I|apply IH].
Qed.

Lemma tidy_update : forall temp f L own start, tidy temp L own start (update to_ascii hardcoded f).
Proof.
  intros temp f L own start. unfold update. cbn [pbind sys_do mem_do ret tidy]. intros x.
  destruct (negb _); [exact I|]. cbn [pbind sys_do ret tidy]. split; [reflexivity|]. split; [exact I|]. intros fd.
  apply tidy_bind; [apply tidy_update_file|]. intros e L1 o1 s1 J1. destruct e; [exact I|]. cbn [pbind mem_do ret tidy]. intros y.
  apply tidy_bind; [apply tidy_construct|]. intros (a, e) L2 o2 s2 J2. destruct e; [exact I|]. cbn [pbind mem_do ret tidy]. auto.
Qed.

Lemma tidy_hardcoded : forall temp n L own start, tidy temp L own start (new_hardcoded_psl to_ascii hardcoded n).
Proof.
  intros temp n L own start. unfold new_hardcoded_psl. apply tidy_bind; [apply tidy_construct|].
  intros (a, e) L2 o2 s2 J2. cbn [pbind mem_do ret tidy]. auto.
Qed.

Lemma tidy_cache : forall temp n f path L own start, tidy temp L own start (new_from_cache to_ascii hardcoded n f path).
Proof.
  intros temp n f path L own start. unfold new_from_cache. apply tidy_bind; [apply tidy_construct|].
  intros (a, e) L2 o2 s2 J2. destruct e; [apply tidy_hardcoded|]. cbn [pbind mem_do ret tidy]. auto.
Qed.

Lemma tidy_check : forall temp path L own start, tidy temp L own start (check_cache_file path).
Proof.
  intros temp path L own start. unfold check_cache_file. cbn [pbind sys_do ret tidy]. intros abs st.
  apply tidy_bind; [destruct st as [[]|]; cbn [pbind sys_do ret tidy]; auto|]. intros age L2 o2 s2 J2. cbn [pbind sys_do ret tidy]. auto.
Qed.

Lemma tidy_new : forall temp n L own start, tidy temp L own start (new to_ascii hardcoded n).
Proof.
  intros temp n L own start. unfold new. cbn [pbind mem_do ret tidy]. intros a f.
  apply tidy_bind; [apply tidy_check|]. intros (v, g) L1 o1 s1 J1. destruct (negb v); [|apply tidy_cache].
  cbn [pbind sys_do ret tidy]. intros op. destruct (negb op); [apply tidy_hardcoded|]. cbn [pbind mem_do ret tidy]. intros _.
  apply tidy_bind; [apply tidy_check|]. intros (v2, g2) L2 o2 s2 J2. destruct (_ || _)%bool; [|apply tidy_cache].
  apply tidy_bind; [apply tidy_update|]. intros e L3 o3 s3 J3. destruct e; [apply tidy_hardcoded|exact I].
Qed.

Lemma tidy_suffix : forall temp fuel netloc a path hs hl i j k L own start,
  tidy temp L own start (suffix_loop_prog fuel netloc a path hs hl i j k).
Proof.
  intros temp. induction fuel as [|fuel IH]; intros netloc a path hs hl i j k L own start; cbn [suffix_loop_prog]; [exact I|].
  apply tidy_bind; [exact I|]. intros head L1 o1 s1 J1. apply tidy_bind; [exact I|]. intros (label, end_) L2 o2 s2 J2.
  destruct (_ && _)%bool; [destruct (negb hl); [apply IH|exact I]|]. cbn [pbind mem_do ret tidy].
  intros [st|]; cbn [pbind mem_do ret tidy]; [auto|]. intros [[ve vh]|]; [|exact I]. destruct (_ && _)%bool; destruct (_ || _)%bool; auto.
  all: exact I.
Qed.

Lemma tidy_program : forall temp c L, tidy temp L None false (program to_ascii hardcoded ext c).
Proof.
  intros temp [n|f|f p] L; cbn [program]; (apply tidy_bind; [|intros; exact I]).
  - apply tidy_new.
  - apply tidy_update.
  - unfold extract_prog. apply tidy_bind; [exact I|]. intros [r|(u, host)] L1 o1 s1 J1; [exact I|].
    cbn [pbind mem_do ret tidy]. intros x. unfold extract_host_prog. apply tidy_bind; [apply tidy_suffix|].
    intros [e|w] L2 o2 s2 J2; [exact I|]. apply tidy_bind; [exact I|]. intros v4 L3 o3 s3 J3.
    destruct v4; [|exact I]. apply tidy_bind; intros; exact I.
Qed.

(** ** The state of the machine *)

Section Invariant.
Variable d0 : disk.
Variable old : bytes.
Hypothesis Start : initial_text d0 (default_path d0) old.
Let n0 := d_name d0 (default_path d0).

Definition writing {A : Type} (p : prog A) : option bytes :=
  match p with Sys o _ => match o with Write _ data => Some data | _ => None end | _ => None end.
Definition read_path {A : Type} (p : prog A) : option bytes :=
  match p with Sys o _ => match o with ReadFile path => Some path | _ => None end | _ => None end.

(** What a read of a file has got so far. *)
Definition reading (ev : list event) (path g : bytes) : Prop :=
  (d_name d0 path = n0 -> forall i b, nth_error g i = Some b -> nth_error old i = Some b \/ from_list (offered ev) i b)
  /\ (d_name d0 path <> n0 -> forall text mt rd wr, at_path d0 path = Regular text mt rd wr -> g = firstn (length g) text).
Definition is_file (e : entry) : Prop := match e with Regular _ _ _ _ => True | _ => False end.

Record task_ok (d : disk) (ev : list event) (cover : nat) (t : task) (gh : option nat * bool) : Prop := {
  ok_tidy : tidy (d_temp d0) (downloaded ev) (fst gh) (snd gh) (t_rest (k_thread t));
  ok_own : forall fd, fst gh = Some fd -> fst (d_fd d fd) = n0 /\ fd < d_next_fd d /\ is_file (d_entry d n0);
  ok_start : forall fd, fst gh = Some fd -> snd gh = true -> snd (d_fd d fd) = k_done t /\ k_done t <= cover;
  ok_done : writing (t_rest (k_thread t)) = None -> k_done t = 0;
  ok_reading : match read_path (t_rest (k_thread t)) with Some path => reading ev path (k_got t) | None => k_got t = [] end }.

Definition text_of (e : entry) (text : bytes) : Prop :=
  match e with Regular t _ _ _ => text = t | Absent _ => text = [] | Directory _ _ => False end.
Record disk_inv (d : disk) (ev : list event) (cover : nat) : Prop := {
  inv_temp : d_temp d = d_temp d0;
  inv_abs : d_abs d = d_abs d0;
  inv_name : d_name d = d_name d0;
  inv_others : forall n, n <> n0 -> d_entry d n = d_entry d0 n;
  inv_text : exists text, text_of (d_entry d n0) text /\ covered (offered ev) old text cover }.

Lemma offered_mono : forall ev ev' body, incl ev ev' -> offered ev body -> offered ev' body.
Proof. intros ev ev' body I ((e & H & D) & M). split; [exists e; auto|exact M]. Qed.
Lemma downloaded_mono : forall ev ev' body, incl ev ev' -> downloaded ev body -> downloaded ev' body.
Proof. intros ev ev' body I (e & H & D). exists e. auto. Qed.
Lemma from_mono : forall ev ev' i b, incl ev ev' -> from_list (offered ev) i b -> from_list (offered ev') i b.
Proof. intros ev ev' i b I (body & H & D). exists body. eauto using offered_mono. Qed.
Lemma reading_mono : forall ev ev' path g, incl ev ev' -> reading ev path g -> reading ev' path g.
Proof.
  intros ev ev' path g I (A & B). split; [|exact B]. intros E i b N. destruct (A E i b N) as [X|X]; [auto|].
  right. eapply from_mono; eauto.
Qed.

Lemma task_frame : forall d ev cover d' ev' cover' t gh, task_ok d ev cover t gh -> incl ev ev' -> cover <= cover' ->
  d_next_fd d <= d_next_fd d' -> (is_file (d_entry d n0) -> is_file (d_entry d' n0)) ->
  (forall fd, fst gh = Some fd -> d_fd d' fd = d_fd d fd) -> task_ok d' ev' cover' t gh.
Proof.
  intros d ev cover d' ev' cover' t gh [A B C D E] I Cv Nx Fi F. constructor.
  - eapply tidy_mono; [|exact A]. intros b. apply downloaded_mono, I.
  - intros fd G. rewrite (F fd G). destruct (B fd G) as (X & Y & Z). split; [exact X|]. split; [lia|auto].
  - intros fd G S. rewrite (F fd G). destruct (C fd G S). split; [assumption|lia].
  - exact D.
  - destruct (read_path _); [eapply reading_mono; eauto|exact E].
Qed.

Lemma disk_frame : forall d ev cover ev', disk_inv d ev cover -> incl ev ev' -> disk_inv d ev' cover.
Proof.
  intros d ev cover ev' [A B C D (text & E & F)] I. constructor; auto. exists text. split; [exact E|].
  eapply covered_mono; [|exact F]. intros b. apply offered_mono, I.
Qed.

Lemma reading_nil : forall ev path, reading ev path [].
Proof. intros ev path. split; [intros _ [] b X; discriminate|reflexivity]. Qed.

(** A task between two operations on files. *)
Lemma fresh_task : forall d ev cover th gh, tidy (d_temp d0) (downloaded ev) (fst gh) (snd gh) (t_rest th) ->
  (forall fd, fst gh = Some fd -> fst (d_fd d fd) = n0 /\ fd < d_next_fd d /\ is_file (d_entry d n0)) ->
  (forall fd, fst gh = Some fd -> snd gh = true -> snd (d_fd d fd) = 0) -> task_ok d ev cover (mkTask th 0 []) gh.
Proof.
  intros d ev cover th gh A B C. constructor; cbn [k_thread k_done k_got]; auto.
  - intros fd G S. split; [auto|lia].
  - destruct (read_path _); [apply reading_nil|reflexivity].
Qed.

(** What one task does leaves the others and the disk in order. *)
Definition moves (d : disk) (ev : list event) (t : task) (d' : disk) (ev' : list event) (t' : task) : Prop :=
  incl ev ev' /\
  forall gh cover, task_ok d ev cover t gh -> disk_inv d ev cover -> exists gh' cover',
    task_ok d' ev' cover' t' gh' /\ disk_inv d' ev' cover' /\ cover <= cover' /\ d_next_fd d <= d_next_fd d'
    /\ (is_file (d_entry d n0) -> is_file (d_entry d' n0))
    /\ (forall fd, fst gh <> Some fd -> fd < d_next_fd d -> d_fd d' fd = d_fd d fd)
    /\ (fst gh' = fst gh \/ (fst gh' = Some (d_next_fd d) /\ d_next_fd d' = S (d_next_fd d))).

Lemma moves_still : forall d ev ev' t t', incl ev ev' ->
  (forall gh cover, task_ok d ev cover t gh -> disk_inv d ev cover -> exists gh', task_ok d ev' cover t' gh' /\ fst gh' = fst gh) ->
  moves d ev t d ev' t'.
Proof.
  intros d ev ev' t t' I H. split; [exact I|]. intros gh cover T D. destruct (H gh cover T D) as (gh' & T' & E).
  exists gh', cover. split; [exact T'|]. split; [eapply disk_frame; eauto|]. auto 10.
Qed.

Lemma downloaded_more : forall ev ev' body, downloaded ev body -> downloaded (ev ++ ev') body.
Proof. intros ev ev' body. apply downloaded_mono, incl_appl, incl_refl. Qed.

Lemma moves_asks : forall d d' ev i c R (o : sys R) k j g x, at_once o -> disk_step R o d x d' ->
  moves d ev (mkTask (mkThread i c (Sys o k)) j g) d' (ev ++ [Event o x]) (mkTask (mkThread i c (k x)) j g).
Proof.
  intros d d' ev i c R o k j g x Ao St.
  assert (I : incl ev (ev ++ [Event o x])) by (apply incl_appl, incl_refl).
  assert (Quiet : d' = d -> (forall own start, tidy (d_temp d0) (downloaded ev) own start (Sys o k) -> (o = o -> x = x) ->
      d_temp d = d_temp d0 -> tidy (d_temp d0) (downloaded (ev ++ [Event o x])) own start (k x)) ->
      moves d ev (mkTask (mkThread i c (Sys o k)) j g) d' (ev ++ [Event o x]) (mkTask (mkThread i c (k x)) j g)).
  { intros -> T. apply moves_still; [exact I|]. intros gh cover [A B C D E] Di. cbn [k_thread k_done k_got t_rest] in *.
    exists gh. split; [|reflexivity].
    assert (J : j = 0) by (apply D; destruct o; try contradiction; reflexivity).
    assert (G : g = []) by (destruct o; try contradiction; exact E).
    subst j g. apply fresh_task; cbn [t_rest]; [apply T; auto; apply Di|exact B|]. intros fd F Sg. apply C; auto. }
  destruct o; try contradiction; cbn [disk_step] in St.
  - destruct St as (-> & ->). apply Quiet; [reflexivity|]. intros own start T _ Tp. cbn [tidy] in T. rewrite Tp.
    eapply tidy_mono; [|exact T]. intros b. apply downloaded_more.
  - destruct St as (_ & ->). apply Quiet; [reflexivity|]. intros own start T _ Tp. cbn [tidy] in T.
    eapply tidy_mono; [|apply T]. intros b. apply downloaded_more.
  - destruct St as (-> & _). apply Quiet; [reflexivity|]. intros own start T _ Tp. cbn [tidy] in T.
    eapply tidy_mono; [|apply T]. intros b. apply downloaded_more.
  - (* Now *)
    destruct St as (_ & ->). split; [exact I|]. intros gh cover [A B C D E] Di. cbn [k_thread k_done k_got t_rest] in *.
    assert (J : j = 0) by (apply D; reflexivity). cbn [read_path] in E. subst j g.
    exists gh, cover. split; [|split; [|cbn; auto 10]].
    + apply fresh_task; cbn [t_rest]; [|exact B|intros fd F Sg; apply C; auto].
      cbn [tidy] in A. eapply tidy_mono; [|apply A]. intros b. apply downloaded_more.
    + apply disk_frame with (ev := ev); [|exact I]. destruct Di as [? ? ? ? ?]. constructor; auto.
  - destruct St as (-> & _). apply Quiet; [reflexivity|]. intros own start T _ Tp. cbn [tidy] in T.
    eapply tidy_mono; [|apply T]. intros b. apply downloaded_more.
  - (* OpenWrite *)
    split; [exact I|]. intros gh cover [A B C D E] Di. cbn [k_thread k_done k_got t_rest] in *.
    assert (J : j = 0) by (apply D; reflexivity). cbn [read_path] in E. subst j g.
    cbn [tidy] in A. destruct A as (P & A0 & A1).
    assert (Pn : d_name d path = n0) by (rewrite (inv_name _ _ _ Di), P; reflexivity).
    unfold at_path in St. rewrite Pn in St.
    assert (Fail : x = None -> d' = d -> exists gh' cover',
      task_ok d' (ev ++ [Event (OpenWrite path) x]) cover' (mkTask (mkThread i c (k x)) 0 []) gh' /\
      disk_inv d' (ev ++ [Event (OpenWrite path) x]) cover' /\ cover <= cover' /\ d_next_fd d <= d_next_fd d'
      /\ (is_file (d_entry d n0) -> is_file (d_entry d' n0))
      /\ (forall fd, fst gh <> Some fd -> fd < d_next_fd d -> d_fd d' fd = d_fd d fd)
      /\ (fst gh' = fst gh \/ (fst gh' = Some (d_next_fd d) /\ d_next_fd d' = S (d_next_fd d)))).
    { intros -> ->. exists gh, cover. split; [|split; [|auto 10]].
      - apply fresh_task; cbn [t_rest]; [|exact B|intros fd F Sg; apply C; auto].
        eapply tidy_mono; [|apply A0]. intros b. apply downloaded_more.
      - eapply disk_frame; eauto. }
    assert (Succ : forall d1, x = Some (d_next_fd d) -> d' = with_new_fd d1 (n0, 0) -> d_fd d1 = d_fd d -> d_next_fd d1 = d_next_fd d ->
      is_file (d_entry d1 n0) -> disk_inv d1 ev cover -> exists gh' cover',
      task_ok d' (ev ++ [Event (OpenWrite path) x]) cover' (mkTask (mkThread i c (k x)) 0 []) gh' /\
      disk_inv d' (ev ++ [Event (OpenWrite path) x]) cover' /\ cover <= cover' /\ d_next_fd d <= d_next_fd d'
      /\ (is_file (d_entry d n0) -> is_file (d_entry d' n0))
      /\ (forall fd, fst gh <> Some fd -> fd < d_next_fd d -> d_fd d' fd = d_fd d fd)
      /\ (fst gh' = fst gh \/ (fst gh' = Some (d_next_fd d) /\ d_next_fd d' = S (d_next_fd d)))).
    { intros d1 -> -> Fd Nx Fi Di1. exists (Some (d_next_fd d), false), cover. split; [|split; [|]].
      - apply fresh_task; cbn [t_rest fst snd]; [|intros fd X; injection X as <-|discriminate].
        + eapply tidy_mono; [|apply A1]. intros b. apply downloaded_more.
        + cbn. rewrite Nx, upd_same. cbn [fst]. auto.
      - apply disk_frame with (ev := ev); [|exact I]. destruct Di1 as [? ? ? ? ?]. constructor; auto.
      - cbn. rewrite Nx. split; [lia|]. split; [lia|]. split; [auto|]. split; [|auto].
        intros fd _ L. unfold upd. destruct (Nat.eqb_spec fd (d_next_fd d)); [lia|]. rewrite Fd. reflexivity. }
    destruct (d_entry d n0) as [[]|t b|txt mt rd []] eqn:En.
    + destruct St as (rd & -> & ->). eapply Succ; [reflexivity|reflexivity|reflexivity|reflexivity| |].
      * cbn. unfold upd_entry. rewrite N.eqb_refl. exact Logic.I.
      * destruct Di as [T1 T2 T3 T4 T5]. constructor; auto.
        -- intros n Hn. cbn. unfold upd_entry. apply N.eqb_neq in Hn as Hn'. rewrite Hn'. apply T4. exact Hn.
        -- destruct T5 as (text & X & Y). rewrite En in X. cbn [text_of] in X. subst text. exists [].
           split; [|exact Y]. cbn. unfold upd_entry. rewrite N.eqb_refl. reflexivity.
    + destruct St. apply Fail; assumption.
    + destruct St. apply Fail; assumption.
    + destruct St as (-> & ->). eapply Succ; [reflexivity|reflexivity|reflexivity|reflexivity| |exact Di].
      rewrite En. exact Logic.I.
    + destruct St. apply Fail; assumption.
  - (* SeekStart *)
    split; [exact I|]. intros gh cover [A B C D E] Di. cbn [k_thread k_done k_got t_rest] in *.
    assert (J : j = 0) by (apply D; reflexivity). cbn [read_path] in E. subst j g.
    cbn [tidy] in A. destruct A as (P & A1 & A0). destruct (B fd P) as (B1 & B2 & B3).
    destruct St as [(-> & ->)|(-> & ->)].
    + exists (fst gh, true), cover. split; [|split; [|]].
      * apply fresh_task; cbn [t_rest fst snd].
        -- eapply tidy_mono; [|apply A1]. intros b. apply downloaded_more.
        -- intros fd' X. rewrite P in X. injection X as <-. cbn. rewrite upd_same. cbn [fst]. auto.
        -- intros fd' X _. rewrite P in X. injection X as <-. cbn. rewrite upd_same. reflexivity.
      * apply disk_frame with (ev := ev); [|exact I]. destruct Di as [? ? ? ? ?]. constructor; auto.
      * cbn. split; [lia|]. split; [lia|]. split; [auto|]. split; [|auto]. intros fd' X _. unfold upd.
        destruct (Nat.eqb_spec fd' fd) as [->|]; [contradiction|reflexivity].
    + exists gh, cover. split; [|split; [eapply disk_frame; eauto|auto 10]].
      apply fresh_task; cbn [t_rest]; [|exact B|intros fd' F Sg; apply C; auto].
      eapply tidy_mono; [|apply A0]. intros b. apply downloaded_more.
  - (* HttpGet *)
    apply Quiet; [exact St|]. intros own start T _ Tp. cbn [tidy] in T.
    eapply tidy_mono; [|apply (T x)]. intros b [X|X]; [apply downloaded_more, X|].
    exists (Event (HttpGet url) x). split; [apply in_or_app; right; left; reflexivity|]. cbn [download_of]. rewrite X. reflexivity.
Qed.

Lemma moves_computes : forall d ev i c R (o : mem_op R) k j g x,
  moves d ev (mkTask (mkThread i c (Mem o k)) j g) d ev (mkTask (mkThread i c (k x)) j g).
Proof.
  intros d ev i c R o k j g x. apply moves_still; [apply incl_refl|]. intros gh cover [A B C D E] Di.
  cbn [k_thread k_done k_got t_rest] in *. assert (J : j = 0) by (apply D; reflexivity). cbn [read_path] in E. subst j g.
  exists gh. split; [|reflexivity]. apply fresh_task; cbn [t_rest]; [apply A|exact B|]. intros fd F Sg. apply C; auto.
Qed.

Lemma moves_writes_some : forall d ev i c fd data k j j' g, j <= j' <= length data ->
  moves d ev (mkTask (mkThread i c (Sys (Write fd data) k)) j g)
        (written d fd (firstn (j' - j) (skipn j data))) ev (mkTask (mkThread i c (Sys (Write fd data) k)) j' g).
Proof.
  intros d ev i c fd data k j j' g Hj. split; [apply incl_refl|]. intros gh cover [A B C D E] Di.
  cbn [k_thread k_done k_got t_rest] in *. pose proof A as A'. cbn [tidy] in A. destruct A as (Ow & Sg & Ld & Mk & _).
  destruct (B fd Ow) as (B1 & B2 & B3). destruct (C fd Ow Sg) as (C1 & C2).
  exists gh, (Nat.max cover j').
  unfold written. destruct (d_fd d fd) as [n off] eqn:F. cbn [fst snd] in B1, C1. subst n off.
  destruct (d_entry d n0) as [b|t b|txt mt rd wr] eqn:En; [contradiction|contradiction|].
  assert (Lp : length (firstn (j' - j) (skipn j data)) = j' - j) by (rewrite firstn_length, skipn_length; lia).
  split; [|split; [|split; [|split; [|split; [|split]]]]].
  - constructor; cbn [k_thread k_done k_got t_rest].
    + exact A'.
    + intros fd' X. rewrite Ow in X. injection X as <-. cbn. rewrite upd_same. cbn [fst]. unfold upd_entry. rewrite N.eqb_refl.
      cbn [is_file]. auto.
    + intros fd' X _. rewrite Ow in X. injection X as <-. cbn. rewrite upd_same. cbn [snd]. rewrite Lp. lia.
    + discriminate.
    + exact E.
  - destruct Di as [T1 T2 T3 T4 (text & T5 & T6)]. constructor; auto.
    + intros n Hn. cbn. unfold upd_entry. apply N.eqb_neq in Hn as Hn'. rewrite Hn'. auto.
    + exists (overwrite txt j (firstn (j' - j) (skipn j data))). split; [cbn; unfold upd_entry; rewrite N.eqb_refl; reflexivity|].
      rewrite En in T5. cbn [text_of] in T5. subst text. apply covered_piece; [exact T6|split; assumption|exact C2|exact Hj].
  - lia.
  - cbn. lia.
  - intros _. cbn. unfold upd_entry. rewrite N.eqb_refl. exact I.
  - intros fd' X _. cbn. unfold upd. destruct (Nat.eqb_spec fd' fd) as [->|]; [contradiction|reflexivity].
  - auto.
Qed.

Lemma moves_writes_end : forall d ev i c fd data k j g ok,
  moves d ev (mkTask (mkThread i c (Sys (Write fd data) k)) j g) d (ev ++ [Event (Write fd data) ok])
        (mkTask (mkThread i c (k ok)) 0 g).
Proof.
  intros d ev i c fd data k j g ok. apply moves_still; [apply incl_appl, incl_refl|]. intros gh cover [A B C D E] Di.
  cbn [k_thread k_done k_got t_rest] in *. cbn [read_path] in E. subst g. cbn [tidy] in A. destruct A as (_ & _ & _ & _ & A).
  exists (fst gh, false). split; [|reflexivity]. apply fresh_task; cbn [t_rest fst snd]; [|exact B|discriminate].
  eapply tidy_mono; [|apply A]. intros b. apply downloaded_more.
Qed.

Lemma text_patches : forall ev text cover i b, covered (offered ev) old text cover -> nth_error text i = Some b ->
  nth_error old i = Some b \/ from_list (offered ev) i b.
Proof.
  intros ev text cover i b (top & L & -> & H) N. apply nth_app in N as [(_ & N)|(G & N)]; [auto|].
  left. rewrite nth_skip in N. rewrite <- N. f_equal. lia.
Qed.

Lemma moves_reads_some : forall d ev i c path k j g len' text mt wr, at_path d path = Regular text mt true wr ->
  moves d ev (mkTask (mkThread i c (Sys (ReadFile path) k)) j g) d ev
        (mkTask (mkThread i c (Sys (ReadFile path) k)) j (g ++ firstn len' (skipn (length g) text))).
Proof.
  intros d ev i c path k j g len' text mt wr P. apply moves_still; [apply incl_refl|]. intros gh cover [A B C D E] Di.
  cbn [k_thread k_done k_got t_rest] in *. exists gh. split; [|reflexivity]. constructor; cbn [k_thread k_done k_got t_rest]; auto.
  cbn [read_path] in *. destruct E as (E1 & E2). unfold at_path in P. rewrite (inv_name _ _ _ Di) in P. split.
  - intros N i' b X. apply nth_app in X as [(_ & X)|(G & X)]; [auto|]. apply nth_first in X as (_ & X). rewrite nth_skip in X.
    replace (length g + (i' - length g)) with i' in X by lia.
    destruct (inv_text _ _ _ Di) as (text' & T & Cv). rewrite N in P. rewrite P in T. cbn [text_of] in T. subst text'.
    eapply text_patches; eauto.
  - intros N text' mt' rd' wr' Q. unfold at_path in Q. rewrite (inv_others _ _ _ Di _ N) in P. rewrite P in Q. injection Q as <- <- <- <-.
    specialize (E2 N text mt true wr P). rewrite app_length.
    assert (X : firstn len' (skipn (length g) text) = firstn (length (firstn len' (skipn (length g) text))) (skipn (length g) text)).
    { rewrite firstn_length. destruct (Nat.le_ge_cases len' (length (skipn (length g) text))) as [L|L].
      - rewrite Nat.min_l by exact L. reflexivity.
      - rewrite Nat.min_r by exact L. rewrite firstn_all. apply firstn_all2. exact L. }
    rewrite first_add, <- E2, <- X. reflexivity.
Qed.

Lemma moves_read : forall d ev i c path k j g (x : option bytes),
  moves d ev (mkTask (mkThread i c (Sys (ReadFile path) k)) j g) d (ev ++ [Event (ReadFile path) x])
        (mkTask (mkThread i c (k x)) j []).
Proof.
  intros d ev i c path k j g x. apply moves_still; [apply incl_appl, incl_refl|]. intros gh cover [A B C D E] Di.
  cbn [k_thread k_done k_got t_rest] in *. assert (J : j = 0) by (apply D; reflexivity). subst j.
  exists gh. split; [|reflexivity]. apply fresh_task; cbn [t_rest]; [|exact B|intros fd F Sg; apply C; auto].
  cbn [tidy] in A. eapply tidy_mono; [|apply A]. intros b. apply downloaded_more.
Qed.

(** What has been read. *)
Definition read_ok (ev : list event) (path text : bytes) : Prop :=
  (d_name d0 path = n0 -> patchwork (offered ev) old text)
  /\ (d_name d0 path <> n0 -> exists mt wr, at_path d0 path = Regular text mt true wr).

Lemma read_ok_mono : forall ev ev' path text, incl ev ev' -> read_ok ev path text -> read_ok ev' path text.
Proof.
  intros ev ev' path text I (A & B). split; [|exact B]. intros N. destruct (A N) as (L & H). split; [exact L|].
  intros i b X. destruct (H i b X); [auto|]. right. eapply from_mono; eauto.
Qed.

Lemma reads_end_ok : forall d ev cover t gh path g text mt wr, task_ok d ev cover t gh -> disk_inv d ev cover ->
  read_path (t_rest (k_thread t)) = Some path -> k_got t = g -> at_path d path = Regular text mt true wr -> length text <= length g ->
  read_ok ev path g.
Proof.
  intros d ev cover t gh path g text mt wr T Di R <- P L. pose proof (ok_reading _ _ _ _ _ T) as E. rewrite R in E.
  destruct E as (E1 & E2). unfold at_path in P. rewrite (inv_name _ _ _ Di) in P. split.
  - intros N. split; [|auto]. destruct (inv_text _ _ _ Di) as (text' & X & Cv). rewrite N in P. rewrite P in X. cbn [text_of] in X.
    subst text'. apply covered_length in Cv. lia.
  - intros N. rewrite (inv_others _ _ _ Di _ N) in P. exists mt, wr. unfold at_path. rewrite P. f_equal.
    rewrite (E2 N text mt true wr P). symmetry. apply firstn_all2. exact L.
Qed.

(** All tasks of all processes. *)
Definition owns (gh : option nat * bool) : list nat := match fst gh with Some fd => [fd] | None => [] end.
Definition all_ok (d : disk) (ev : list event) (l : list task) : Prop :=
  exists cover ghs, Forall2 (task_ok d ev cover) l ghs /\ NoDup (flat_map owns ghs) /\ disk_inv d ev cover
    /\ forall path text, was_read ev path text -> read_ok ev path text.

Lemma all_app : forall A B (R : A -> B -> Prop) l1 l2 m, Forall2 R (l1 ++ l2) m ->
  exists m1 m2, m = m1 ++ m2 /\ Forall2 R l1 m1 /\ Forall2 R l2 m2.
Proof. intros A B R l1 l2 m H. apply Forall2_app_inv_l in H as (m1 & m2 & H1 & H2 & ->). eauto. Qed.

Lemma replaced : forall d ev l1 t l2 d' ev' t', all_ok d ev (l1 ++ t :: l2) -> moves d ev t d' ev' t' ->
  (forall cover gh path text, task_ok d ev cover t gh -> disk_inv d ev cover -> was_read ev' path text ->
     was_read ev path text \/ read_ok ev path text) -> all_ok d' ev' (l1 ++ t' :: l2).
Proof.
  intros d ev l1 t l2 d' ev' t' (cover & ghs & F & Nd & Di & Rd) (I & M) R.
  apply all_app in F as (g1 & g2 & -> & F1 & F2). inversion F2 as [|? gh ? g3 T F3]; subst.
  destruct (M gh cover T Di) as (gh' & cover' & T' & Di' & Cv & Nx & Fi & Fd & Ow).
  assert (Others : forall l g, Forall2 (task_ok d ev cover) l g -> (forall fd, In fd (flat_map owns g) -> fst gh <> Some fd) ->
    Forall2 (task_ok d' ev' cover') l g).
  { intros l g H D. induction H as [|t1 g1' l' g' H1 H2 IH]; [constructor|]. constructor.
    - apply task_frame with (d := d) (ev := ev) (cover := cover); auto. intros fd E.
      apply Fd; [|apply (ok_own _ _ _ _ _ H1 fd E)]. apply D. cbn [flat_map]. apply in_or_app. left. unfold owns. rewrite E. left. reflexivity.
    - apply IH. intros fd J. apply D. cbn [flat_map]. apply in_or_app. auto. }
  assert (Known : forall l g fd, Forall2 (task_ok d ev cover) l g -> In fd (flat_map owns g) -> fd < d_next_fd d).
  { intros l g fd H. induction H as [|t1 g1' l' g' H1 H2 IH]; [intros []|]. cbn [flat_map]. intros J. apply in_app_or in J as [J|J]; [|auto].
    unfold owns in J. destruct (fst g1') as [fd'|] eqn:E; [|destruct J]. destruct J as [->|[]]. apply (ok_own _ _ _ _ _ H1 fd E). }
  assert (Apart : forall fd, In fd (flat_map owns g1) \/ In fd (flat_map owns g3) -> fst gh <> Some fd).
  { intros fd J E. rewrite flat_map_app in Nd. cbn [flat_map] in Nd. unfold owns at 2 in Nd. rewrite E in Nd. cbn [app] in Nd.
    apply NoDup_remove_2 in Nd. apply Nd. apply in_or_app. exact J. }
  exists cover', (g1 ++ gh' :: g3). split; [|split; [|split; [exact Di'|]]].
  - apply Forall2_app; [apply Others; [exact F1|intros; apply Apart; auto]|]. constructor; [exact T'|].
    apply Others; [exact F3|intros; apply Apart; auto].
  - rewrite flat_map_app in *. cbn [flat_map] in *. destruct Ow as [Ow|(Ow & _)].
    + unfold owns at 2. rewrite Ow. exact Nd.
    + unfold owns at 2. rewrite Ow. cbn [app]. apply NoDup_Add with (a := d_next_fd d) (l := flat_map owns g1 ++ flat_map owns g3); [apply Add_app|].
      split.
      * unfold owns at 2 in Nd. destruct (fst gh) as [fd|]; [apply NoDup_remove_1 in Nd|]; exact Nd.
      * intros J. apply in_app_or in J as [J|J]; [apply (Known _ _ _ F1) in J|apply (Known _ _ _ F3) in J]; lia.
  - intros path text W. destruct (R cover gh path text T Di W) as [X|X].
    + eapply read_ok_mono; eauto.
    + eapply read_ok_mono; eauto.
Qed.

Lemma nodup_middle : forall (a b c : list nat), NoDup (a ++ b ++ c) -> NoDup (a ++ c).
Proof. intros a b c. induction b as [|x b IH]; intros H; [exact H|]. apply IH. apply (NoDup_remove_1 a (b ++ c) x). exact H. Qed.

Lemma removed : forall d ev l1 l l2, all_ok d ev (l1 ++ l ++ l2) -> all_ok d ev (l1 ++ l2).
Proof.
  intros d ev l1 l l2 (cover & ghs & F & Nd & Di & Rd). apply all_app in F as (g1 & g2 & -> & F1 & F2).
  apply all_app in F2 as (g & g3 & -> & F2 & F3). exists cover, (g1 ++ g3). split; [apply Forall2_app; assumption|]. split; [|auto].
  rewrite !flat_map_app in *. apply nodup_middle in Nd. exact Nd.
Qed.

Lemma added : forall d ev l1 l2 n c, all_ok d ev (l1 ++ l2) ->
  all_ok d ev (l1 ++ mkTask (mkThread n c (program to_ascii hardcoded ext c)) 0 [] :: l2).
Proof.
  intros d ev l1 l2 n c (cover & ghs & F & Nd & Di & Rd). apply all_app in F as (g1 & g2 & -> & F1 & F2).
  exists cover, (g1 ++ (None, false) :: g2). split; [|split; [|auto]].
  - apply Forall2_app; [exact F1|]. constructor; [|exact F2]. apply fresh_task; cbn [t_rest fst snd]; [apply tidy_program|discriminate|discriminate].
  - rewrite flat_map_app in *. exact Nd.
Qed.

Lemma was_read_snoc : forall ev e path text, was_read (ev ++ [e]) path text -> was_read ev path text \/ read_of e = Some (path, text).
Proof. intros ev e path text (e' & J & E). apply in_app_or in J as [J|[<-|[]]]; [left; exists e'; auto|auto]. Qed.

Lemma process_ok : forall d r d' r' ev ev' l1 l2, process_step d r d' r' ev' -> all_ok d ev (l1 ++ r_tasks r ++ l2) ->
  all_ok d' (ev ++ ev') (l1 ++ r_tasks r' ++ l2).
Proof.
  intros d r d' r' ev ev' l1 l2 P H.
  assert (Keep : forall ks1 (t : task) ks2, l1 ++ (ks1 ++ t :: ks2) ++ l2 = (l1 ++ ks1) ++ t :: (ks2 ++ l2)).
  { intros ks1 t ks2. rewrite <- !app_assoc. reflexivity. }
  destruct P; cbn [r_tasks] in *; rewrite ?Keep in *.
  - rewrite app_nil_r. rewrite app_assoc in H. rewrite <- (app_nil_l l2) in H. apply added with (n := n) (c := c) in H.
    cbn [app] in H. exact H.
  - rewrite app_nil_r. eapply replaced; [exact H|apply moves_computes|auto].
  - eapply replaced; [exact H|apply moves_asks; assumption|]. intros cover gh path text _ _ W. apply was_read_snoc in W as [W|W]; [auto|].
    destruct o; try discriminate W; contradiction.
  - rewrite app_nil_r. eapply replaced; [exact H|apply moves_writes_some; assumption|auto].
  - eapply replaced; [exact H|apply moves_writes_end|]. intros cover gh path text _ _ W. apply was_read_snoc in W as [W|W]; [auto|discriminate].
  - rewrite app_nil_r. eapply replaced; [exact H|eapply moves_reads_some; eassumption|auto].
  - eapply replaced; [exact H|apply moves_read|]. intros cover gh path' text' T D W. apply was_read_snoc in W as [W|W]; [auto|].
    injection W as <- <-. right. eapply reads_end_ok; eauto.
  - eapply replaced; [exact H|apply moves_read|]. intros cover gh path' text' T D W. apply was_read_snoc in W as [W|W]; [auto|discriminate].
  - rewrite app_nil_r. replace ((l1 ++ ks1) ++ mkTask (mkThread i c (Done r)) j g :: ks2 ++ l2)
      with ((l1 ++ ks1) ++ [mkTask (mkThread i c (Done r)) j g] ++ (ks2 ++ l2)) in H by reflexivity.
    apply removed in H. rewrite <- !app_assoc in *. exact H.
Qed.

Lemma machine_ok : forall s, machine_steps (first_machine d0) s -> all_ok (y_disk s) (y_events s) (flat_map r_tasks (y_processes s)).
Proof.
  intros s H. remember (first_machine d0) as s0 eqn:E. induction H as [s|s1 s2 s3 H IH S].
  { subst s. cbn [first_machine y_disk y_processes y_events flat_map]. exists 0, []. split; [constructor|]. split; [constructor|]. split.
    - constructor; auto. exists old. split; [|exists []; repeat split; intros [] b X; discriminate].
      destruct Start as [(mt & rd & wr & X)|((b & X) & ->)]; unfold at_path in X; fold n0 in X; rewrite X; reflexivity.
    - intros path text (e & [] & _). }
  specialize (IH E). destruct S as [d2 rs ev|d2 d' rs1 q q' rs2 ev ev' P|d2 rs1 q rs2 ev]; cbn [y_disk y_processes y_events] in *;
    rewrite ?flat_map_app in *; cbn [flat_map] in *.
  - cbn [first_process r_tasks]. rewrite !app_nil_r. exact IH.
  - eapply process_ok; eauto.
  - apply removed in IH. exact IH.
Qed.
End Invariant.

Lemma c98_file : forall d old s text, initial_text d (default_path d) old -> machine_steps (first_machine d) s ->
  initial_text (y_disk s) (default_path d) text -> overlaid (offered (y_events s)) old text.
Proof.
  intros d old s text I H T. destruct (machine_ok d old I s H) as (cover & ghs & _ & _ & Di & _).
  destruct (inv_text _ _ _ _ _ Di) as (text' & X & (top & L & E & F)).
  assert (text' = text).
  { destruct T as [(mt & rd & wr & T)|((b & T) & ->)]; unfold at_path in T; rewrite (inv_name _ _ _ _ _ Di) in T; rewrite T in X; exact X. }
  subst text'. exists top. rewrite L. auto.
Qed.

Lemma c98_others : forall d old s, initial_text d (default_path d) old -> machine_steps (first_machine d) s ->
  d_temp (y_disk s) = d_temp d /\ d_name (y_disk s) = d_name d /\
  forall path, d_name d path <> d_name d (default_path d) -> at_path (y_disk s) path = at_path d path.
Proof.
  intros d old s I H. destruct (machine_ok d old I s H) as (cover & ghs & _ & _ & [A B C D E] & _). split; [exact A|]. split; [exact C|].
  intros path N. unfold at_path. rewrite C. apply D. exact N.
Qed.

Lemma c98_read : forall d old s path text, initial_text d (default_path d) old -> machine_steps (first_machine d) s ->
  was_read (y_events s) path text ->
  if N.eqb (d_name d path) (d_name d (default_path d)) then patchwork (offered (y_events s)) old text
  else exists mt wr, at_path d path = Regular text mt true wr.
Proof.
  intros d old s path text I H W. destruct (machine_ok d old I s H) as (cover & ghs & _ & _ & _ & R).
  destruct (R path text W) as (A & B). destruct (N.eqb_spec (d_name d path) (d_name d (default_path d))); auto.
Qed.
End Machine.
