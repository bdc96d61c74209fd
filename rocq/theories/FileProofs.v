(** FileProofs.v - proofs about the contents of list files, and about the age of the cache. *)

From Verif Require Import Base BaseFacts Chars Str StrFacts Trie Extract Psl ListSpec ListFacts World Update UpdateSpec WorldFacts
  NewFacts UpdateProofs DiskProofs DiskProofs2.
From Coq Require Import ZifyBool ZifyNat ZifyN.

Lemma c31 : forall to_ascii text public private all,
  parse_list to_ascii text = mkSuffixes public private all <->
  list_rules to_ascii text public private /\ all = public ++ private.
Proof.
  intros to_ascii text public private all. rewrite list_rules_iff. split.
  - intros H. destruct (parse_list_spec to_ascii text) as (L & A). rewrite H in *. cbn [s_public s_private s_all] in *.
    subst all. auto.
  - intros (H & ->). exact H.
Qed.

(** The trie made from a file. *)
Lemma construct_disk : forall to_ascii hardcoded private path d m tr d' m' r text mt wr,
  runs disk_step (trie_construct to_ascii hardcoded private path) d m tr d' m' r -> path <> [] ->
  at_path d path = Regular text mt true wr ->
  r = Ret (m_next_trie m, None) /\ build_trie (if private then s_all (parse_list to_ascii text) else s_public (parse_list to_ascii text))
    = Ret (m_trie m' (m_next_trie m)).
Proof.
  intros to_ascii hardcoded private path d m tr d' m' r text mt wr H Hp L.
  apply trie_construct_runs in H as (_ & _ & _ & _ & [(P & _)|(_ & x & (-> & ->) & -> & H)]); [contradiction|].
  rewrite L in H. destruct H as (-> & rules & U & B). split; [reflexivity|]. apply used_rules_iff in U. rewrite U. exact B.
Qed.

Lemma process_public_lines : forall to_ascii before marker after psl pr, opens marker = true ->
  s_public (process_lines to_ascii (before ++ marker :: after) psl pr) = s_public (process_lines to_ascii before psl pr).
Proof.
  intros to_ascii. induction before as [|l before IH]; intros marker after psl pr M; cbn [app process_lines].
  - rewrite process_line_eq, M. cbn [orb]. cbv zeta. rewrite process_private. cbn [s_public]. apply app_nil_r.
  - destruct (process_line to_ascii l psl pr) as [psl' pr']. apply IH. exact M.
Qed.

Lemma c32_public : forall to_ascii text1 text2 before marker after1 after2,
  has_lines text1 (before ++ marker :: after1) -> has_lines text2 (before ++ marker :: after2) -> opens_private marker ->
  s_public (parse_list to_ascii text1) = s_public (parse_list to_ascii text2).
Proof.
  intros to_ascii text1 text2 before marker after1 after2 H1 H2 M. apply opens_iff in M.
  apply has_lines_iff in H1. apply has_lines_iff in H2. unfold parse_list. rewrite H1, H2.
  rewrite !process_public_lines by exact M. reflexivity.
Qed.

Lemma c33_parse : forall to_ascii text1 text2 before line after,
  has_lines text1 (before ++ after) -> has_lines text2 (before ++ line :: after) -> ignored_line line -> ~ opens_private line ->
  parse_list to_ascii text2 = parse_list to_ascii text1.
Proof.
  intros to_ascii text1 text2 before line after H1 H2 I N. rewrite opens_iff in N. apply not_true_is_false in N.
  apply has_lines_iff in H1. apply has_lines_iff in H2. unfold parse_list. rewrite H1, H2.
  assert (R : rules_of_line to_ascii line = []) by (apply rules_of_line_iff; constructor; exact I).
  generalize no_suffixes as psl. generalize false as pr. clear H1 H2. induction before as [|l before IH]; intros pr psl; cbn [app process_lines].
  - rewrite process_line_eq, N, R. cbn [orb]. cbv zeta. destruct psl as [p1 p2 p3]. cbn [s_public s_private s_all].
    replace (if pr then [] else @nil bytes) with (@nil bytes) by (destruct pr; reflexivity). rewrite !app_nil_r. reflexivity.
  - destruct (process_line to_ascii l psl pr) as [psl' pr']. apply IH.
Qed.

Section Tries.
Variable to_ascii : bytes -> option bytes.
Variable hardcoded : bytes.

Lemma c32 : forall text1 text2 before marker after1 after2 path1 d1 m1 tr1 d1' m1' a1 mt1 wr1 path2 d2 m2 tr2 d2' m2' a2 mt2 wr2,
  has_lines text1 (before ++ marker :: after1) -> has_lines text2 (before ++ marker :: after2) -> opens_private marker ->
  path1 <> [] -> at_path d1 path1 = Regular text1 mt1 true wr1 ->
  runs disk_step (trie_construct to_ascii hardcoded false path1) d1 m1 tr1 d1' m1' (Ret (a1, None)) ->
  path2 <> [] -> at_path d2 path2 = Regular text2 mt2 true wr2 ->
  runs disk_step (trie_construct to_ascii hardcoded false path2) d2 m2 tr2 d2' m2' (Ret (a2, None)) ->
  forall ext p, extract ext (m_trie m1' a1) p = extract ext (m_trie m2' a2) p.
Proof.
  intros * L1 L2 M P1 A1 R1 P2 A2 R2 ext p.
  destruct (construct_disk _ _ _ _ _ _ _ _ _ _ _ _ _ R1 P1 A1) as (X1 & B1).
  destruct (construct_disk _ _ _ _ _ _ _ _ _ _ _ _ _ R2 P2 A2) as (X2 & B2).
  injection X1 as ->. injection X2 as ->. rewrite (c32_public _ _ _ _ _ _ _ L1 L2 M), B2 in B1.
  injection B1 as ->. reflexivity.
Qed.

Lemma c33 : forall private text1 text2 before line after path1 d1 m1 tr1 d1' m1' a1 mt1 wr1 path2 d2 m2 tr2 d2' m2' a2 mt2 wr2,
  has_lines text1 (before ++ after) -> has_lines text2 (before ++ line :: after) -> ignored_line line -> ~ opens_private line ->
  path1 <> [] -> at_path d1 path1 = Regular text1 mt1 true wr1 ->
  runs disk_step (trie_construct to_ascii hardcoded private path1) d1 m1 tr1 d1' m1' (Ret (a1, None)) ->
  path2 <> [] -> at_path d2 path2 = Regular text2 mt2 true wr2 ->
  runs disk_step (trie_construct to_ascii hardcoded private path2) d2 m2 tr2 d2' m2' (Ret (a2, None)) ->
  forall ext p, extract ext (m_trie m1' a1) p = extract ext (m_trie m2' a2) p.
Proof.
  intros * L1 L2 I N P1 A1 R1 P2 A2 R2 ext p.
  destruct (construct_disk _ _ _ _ _ _ _ _ _ _ _ _ _ R1 P1 A1) as (X1 & B1).
  destruct (construct_disk _ _ _ _ _ _ _ _ _ _ _ _ _ R2 P2 A2) as (X2 & B2).
  injection X1 as ->. injection X2 as ->. rewrite (c33_parse _ _ _ _ _ _ L1 L2 I N), B1 in B2.
  injection B2 as ->. reflexivity.
Qed.

(** ** The age of the cache *)

Lemma c37 : forall n p d m tr d' m' r, disk_ok d -> trimmed white_space (lp_path n) p -> no_list_at d p ->
  unpadded (default_path d) -> runs disk_step (new to_ascii hardcoded n) d m tr d' m' r ->
  exists t, (d_now d <= t <= d_now d')%Z /\
    (downloads tr <-> can_open d (d_temp d) /\ can_write d (default_path d)
       /\ ~ exists text mtime, list_at d (default_path d) text mtime /\ (t - mtime <= 72 * 3600 * 1000000000)%Z).
Proof.
  intros n p d m tr d' m' r Ok T N U H.
  destruct (new_disk _ _ _ _ _ _ _ _ _ _ Ok T U H) as [(text & mt & _ & _ & _ & _ & L & _)|(_ & t & Ht & f & _ & D)];
    [exfalso; exact (N _ _ L)|].
  exists t. split; [exact Ht|]. destruct D as [(O & _ & ND & _)|[(_ & text & mt & L & A & _ & _ & ND & _)|(O & St & Dl & _)]].
  - split; [intros X; contradiction|]. intros (X & _). contradiction.
  - split; [intros X; contradiction|]. intros (_ & _ & X). exfalso. apply X. exists text, mt. split; [exact L|exact A].
  - rewrite Dl. split; [intros W; auto|]. intros (_ & W & _). exact W.
Qed.

Lemma c37_fresh : forall n p d m tr d' m' r text mtime, disk_ok d -> trimmed white_space (lp_path n) p -> no_list_at d p ->
  unpadded (default_path d) -> can_open d (d_temp d) ->
  runs disk_step (new to_ascii hardcoded n) d m tr d' m' r ->
  list_at d (default_path d) text mtime -> (d_now d' - mtime <= 72 * 3600 * 1000000000)%Z ->
  exists f, r = Ret (f, None) /\ serves to_ascii m' f (lp_private n) text /\ ~ downloads tr /\ d_entry d' = d_entry d.
Proof.
  intros n p d m tr d' m' r text mtime Ok T N U Co H L A.
  destruct (new_disk _ _ _ _ _ _ _ _ _ _ Ok T U H) as [(text' & mt & _ & _ & _ & _ & L' & _)|(_ & t & Ht & f & -> & D)];
    [exfalso; exact (N _ _ L')|].
  exists f. split; [reflexivity|]. destruct D as [(O & _)|[(_ & text' & mt & L' & _ & Sv & _ & ND & En)|(_ & St & _)]].
  - contradiction.
  - destruct L as (_ & _ & w & L). destruct L' as (_ & _ & w' & L'). rewrite L in L'. injection L' as -> -> ->. auto.
  - exfalso. apply St. exists text, mtime. split; [exact L|]. unfold psl_max_age. lia.
Qed.
End Tries.

(** ** The sources of Update *)

Lemma c42_update : forall E (step : forall R : Type, sys R -> E -> R -> E -> Prop) to_ascii hardcoded f e m tr e' m' r,
  runs step (update to_ascii hardcoded f) e m tr e' m' r -> exists temp tr1, tr = Event TempDir temp :: tr1 /\
  let path := temp ++ str "public_suffix_list.dat" in
  let source1 := str "https://publicsuffix.org/list/public_suffix_list.dat" in
  let source2 := str "https://raw.githubusercontent.com/publicsuffix/list/master/public_suffix_list.dat" in
  (x_path (m_extractor m f) <> path /\ tr1 = [] /\ r = Ret (Some ErrNoOp))
  \/ (x_path (m_extractor m f) = path /\
      ((tr1 = [Event (OpenWrite path) None] /\ r = Ret (Some ErrOpenCache))
       \/ exists fd,
         (exists t1 t2, attempt fd source1 t1 false /\ attempt fd source2 t2 false
            /\ tr1 = Event (OpenWrite path) (Some fd) :: t1 ++ t2 /\ r = Ret (Some ErrNoSource))
         \/ (exists ts text, (attempt fd source1 ts true
                             \/ exists t1 t2, ts = t1 ++ t2 /\ attempt fd source1 t1 false /\ attempt fd source2 t2 true)
            /\ tr1 = Event (OpenWrite path) (Some fd) :: ts ++ [Event (ReadFile path) text]
            /\ r = Ret (match text with Some _ => None | None => Some ErrReadList end)))).
Proof.
  intros E step to_ascii hardcoded f e m tr e' m' r H.
  apply update_runs in H as (temp & e1 & tr1 & _ & -> & H). exists temp, tr1. split; [reflexivity|].
  intros path source1 source2. change (temp ++ default_psl_file_name) with path in H.
  destruct H as [(N & -> & -> & _)|(P & file & e2 & tr2 & _ & -> & H)]; [left; auto|]. right. split; [exact P|].
  destruct H as [(-> & -> & -> & _)|(fd & tr3 & tr4 & e3 & u & -> & -> & Hu & H)]; [left; auto|]. right. exists fd.
  apply update_file_runs in Hu as (_ & [(X & before & s & after & trs & trl & Es & F & A & ->)|(X & trs & F & ->)]); injection X as ->.
  - right. destruct H as [(er & X & _)|(_ & x & _ & -> & _ & _ & _ & H)]; [discriminate|].
    exists (concat trs ++ trl), x. split; [|split; [reflexivity|destruct x; apply H]].
    unfold public_suffix_list_sources in Es. fold source1 source2 in Es. destruct before as [|s1 [|s2 before]]; cbn [app] in Es.
    + injection Es as <- _. inversion F; subst. left. exact A.
    + injection Es as <- <- _. inversion F as [|? t1 ? ts A1 F1]; subst. inversion F1; subst. right. exists t1, trl.
      cbn [concat]. rewrite app_nil_r. auto.
    + injection Es as _ _ X. destruct before; discriminate.
  - left. destruct H as [(er & X & -> & -> & _)|(X & _)]; [|discriminate]. injection X as <-.
    unfold public_suffix_list_sources in F. inversion F as [|? t1 ? ts A1 F1]; subst. inversion F1 as [|? t2 ? ts2 A2 F2]; subst.
    inversion F2; subst. exists t1, t2. cbn [concat]. rewrite !app_nil_r. auto.
Qed.
