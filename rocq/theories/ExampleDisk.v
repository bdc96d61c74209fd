(** ExampleDisk.v - a concrete disk and network for the examples beside the theorems. *)

From Verif Require Import Base BaseFacts Chars Str Trie Extract Psl ListSpec ListFacts World Update UpdateSpec WorldFacts
  ExampleBase.
Local Open Scope N_scope.

(** One possible behaviour of the disk: nothing fails, time stands still, the network is the
    function [net]. *)
Definition disk_answer (net : bytes -> response) (R : Type) (o : sys R) (d : disk) : R * disk :=
  match o in sys R return R * disk with
  | TempDir => (d_temp d, d)
  | Abs p => (d_abs d p, d)
  | Stat p => (match at_path d p with
               | Absent _ => None
               | Directory t _ => Some (true, t)
               | Regular _ t _ _ => Some (false, t)
               end, d)
  | Now => (d_now d, with_now d (d_now d))
  | ReadFile p => (match at_path d p with Regular c _ true _ => Some c | _ => None end, d)
  | OpenDir p => (match at_path d p with Absent _ => false | Directory _ b => b | Regular _ _ rd _ => rd end, d)
  | OpenWrite p =>
      match at_path d p with
      | Absent true => (Some (d_next_fd d),
          with_new_fd (with_entry d (d_name d p) (Regular [] (d_now d) true true)) (d_name d p, 0%nat))
      | Regular _ _ _ true => (Some (d_next_fd d), with_new_fd d (d_name d p, 0%nat))
      | _ => (None, d)
      end
  | SeekStart fd => (true, with_fd d fd (fst (d_fd d fd), 0%nat))
  | Write fd data => (true, written d fd data)
  | HttpGet url => (net url, d)
  end.

Lemma disk_answer_step : forall net R (o : sys R) d,
  disk_step R o d (fst (disk_answer net R o d)) (snd (disk_answer net R o d)).
Proof.
  intros net R o d. destruct o; cbn [disk_answer disk_step fst snd]; auto.
  - split; [apply Z.le_refl|reflexivity].
  - destruct (at_path d path) as [[]|t b|c t rd []]; cbn [fst snd]; eauto.
Qed.

(** Running a program with these answers. *)
Fixpoint exec (net : bytes -> response) {A : Type} (p : prog A) (d : disk) (m : memory)
  : list event * disk * memory * outcome A :=
  match p with
  | Done a => ([], d, m, a)
  | Sys o k =>
    let '(x, d1) := disk_answer net _ o d in
    let '(tr, d2, m2, r) := exec net (k x) d1 m in (Event o x :: tr, d2, m2, r)
  | Mem o k => let '(x, m1) := mem_step o m in exec net (k x) d m1
  end.
Definition ex_trace {A} (x : list event * disk * memory * outcome A) := fst (fst (fst x)).
Definition ex_disk_of {A} (x : list event * disk * memory * outcome A) := snd (fst (fst x)).
Definition ex_memory_of {A} (x : list event * disk * memory * outcome A) := snd (fst x).
Definition ex_result {A} (x : list event * disk * memory * outcome A) := snd x.

Lemma exec_runs : forall net A (p : prog A) d m,
  runs disk_step p d m (ex_trace (exec net p d m)) (ex_disk_of (exec net p d m)) (ex_memory_of (exec net p d m))
       (ex_result (exec net p d m)).
Proof.
  intros net A. unfold ex_trace, ex_disk_of, ex_memory_of, ex_result.
  induction p as [o|R o c IH|R o c IH]; intros d m; cbn [exec runs].
  - auto.
  - pose proof (disk_answer_step net R o d) as S. destruct (disk_answer net R o d) as [x d1]. cbn [fst snd] in S.
    specialize (IH x d1 m). destruct (exec net (c x) d1 m) as [[[tr d2] m2] r]. cbn [fst snd] in *.
    exists x, d1, tr. auto.
  - destruct (mem_step o m) as [x m1]. apply IH.
Qed.

(** The disk when the first write is interrupted after [k] bytes. *)
Fixpoint crash (net : bytes -> response) (k : nat) {A : Type} (p : prog A) (d : disk) (m : memory) : disk :=
  match p with
  | Done _ => d
  | @Sys _ R o c =>
    match o in sys R return (R -> prog A) -> R * disk -> disk with
    | Write fd data => fun c _ => if (k <=? length data)%nat then written d fd (firstn k data) else d
    | _ => fun c x => crash net k (c (fst x)) (snd x) m
    end c (disk_answer net R o d)
  | Mem o c => let '(x, m1) := mem_step o m in crash net k (c x) d m1
  end.

Lemma crash_reaches : forall net k A (p : prog A) d m, reaches disk_step disk_during p d m (crash net k p d m).
Proof.
  intros net k A. induction p as [o|R o c IH|R o c IH]; intros d m.
  - left. reflexivity.
  - pose proof (disk_answer_step net R o d) as S. cbn [crash reaches].
    destruct o; try (right; right; do 2 eexists; split; [exact S|]; apply IH).
    destruct (Nat.leb_spec k (length data)) as [L|L]; [|left; reflexivity]. right. left. exists k. auto.
  - cbn [crash reaches]. destruct (mem_step o m) as [x m1]. right. apply IH.
Qed.

(** A disk with the given files, in which paths are what they look like. *)
Definition ex_name (files : list (bytes * entry)) : bytes -> N :=
  fun p =>
    (fix find (l : list (bytes * entry)) (i : N) := match l with
      | [] => 0
      | (q, _) :: rest => if bytes_eqb q p then i else find rest (i + 1)
      end) files 1.
Definition ex_entry (files : list (bytes * entry)) (n : N) : entry :=
  match n with 0 => Absent false | _ => snd (nth (N.to_nat (n - 1)) files ([], Absent false)) end.
Definition ex_disk (files : list (bytes * entry)) : disk :=
  mkDisk (str "/tmp/") (fun p => match p with [] => Some (str "/") | _ => Some p end)
    (fun p => match p with [] => 0 | _ => ex_name files p end) (ex_entry files) (fun _ => (0, 0%nat)) 0 1000000000000000000.

Lemma ex_disk_ok : forall files, (forall text mt rd wr, at_path (ex_disk files) (str "/") <> Regular text mt rd wr) ->
  disk_ok (ex_disk files).
Proof.
  intros files H. split; [|split].
  - intros p q Hp E. destruct p; [contradiction|]. injection E as <-. reflexivity.
  - reflexivity.
  - intros q text mt rd wr E. injection E as <-. apply H.
Qed.

(** A memory without extractors, and one with one extractor. *)
Definition ex_memory : memory := mkMemory (fun _ => empty_trie) 0 (fun _ => mkExtractor [] 0 false) 0.
Definition ex_memory1 (path : bytes) : memory :=
  mkMemory (fun _ => ex_trie) 1 (fun _ => mkExtractor path 0 false) 1.

(** List files. *)
Definition nl : bytes := [10].
Definition ex_list (public private : bytes) : bytes :=
  public ++ nl ++ str "// ===BEGIN ICANN DOMAINS===" ++ nl ++ str "// ===END ICANN DOMAINS===" ++ nl
  ++ str "// ===BEGIN PRIVATE DOMAINS===" ++ nl ++ private ++ nl ++ str "// ===END PRIVATE DOMAINS===" ++ nl.

(** An IDNA library that rejects words containing a question mark and encodes one word. *)
Definition ex_to_ascii (s : bytes) : option bytes :=
  if memN 63 s then None else if bytes_eqb s (str "ee") then Some (str "xn--ee") else Some s.

Definition ex_built_in : bytes := ex_list (str "builtin") (str "hidden").
Definition ex_net (url : bytes) : response := NoResponse.
Definition ex_new (n : list_params) (files : list (bytes * entry)) (net : bytes -> response) :=
  exec net (new ex_to_ascii ex_built_in n) (ex_disk files) ex_memory.

Lemma serves_b : forall to_ascii m f private text rules,
  (if private : bool then s_all (parse_list to_ascii text) else s_public (parse_list to_ascii text)) = rules ->
  build_trie rules = Ret (trie_in m f) -> serves to_ascii m f private text.
Proof. intros. exists rules. split; [apply used_rules_iff; assumption|assumption]. Qed.
Lemma markers_b : forall text, valid_psl_delimiters text = true -> has_markers text.
Proof. intros text. apply delimiters_iff. Qed.
Lemma no_markers_b : forall text, valid_psl_delimiters text = false -> ~ has_markers text.
Proof. intros text H X. apply delimiters_iff in X. congruence. Qed.
Lemma trimmed_b : forall s t, trim_space s = t -> trimmed white_space s t.
Proof. intros s t. apply trim_space_iff. Qed.
Lemma has_lines_b : forall s ls, split_byte s 10 = ls -> has_lines s ls.
Proof. intros s ls. apply has_lines_iff. Qed.
