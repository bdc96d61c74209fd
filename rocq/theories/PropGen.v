(** PropGen.v - data/gen.go, which writes fallback.go: C64.

    [gen_main get created timestamp room] is the text the program leaves in fallback.go if [get]
    are the answers of the network, [created] tells whether the file can be created, [timestamp]
    is the printed time and [room] the number of bytes that can be written.  [go_file source value]:
    the Go file declares hardcodedPSL to be [value]. *)

From Verif Require Import Base BaseFacts Utf8 Chars Str StrFacts Net Trie Extract Psl World Update UpdateSpec UpdateProofs EndProofs
  Builtin BuiltinSpec BuiltinProofs ExampleBase Gen GenSpec GenProofs ListSpec ListFacts.
Local Open Scope N_scope.

(** C64: a text without back quotes is built in as it is, but for carriage returns. *)
Theorem C64_generated : forall get created timestamp room status body, get gen_url = Response status body true -> created = true ->
  (length (psl_template timestamp gen_url body) <= room)%nat -> go_text timestamp -> ~ In 10 timestamp ->
  go_text body -> ~ In 96 body ->
  exists file, gen_main get created timestamp room = Some file /\ go_file file (without_cr body).
Proof. exact c64_generated. Qed.
(** If the program leaves a Go file at all, it is this one, however much could be written. *)
Theorem C64_only : forall get created timestamp room file value, gen_main get created timestamp room = Some file ->
  ~ In 10 timestamp -> go_file file value ->
  exists status body, get gen_url = Response status body true /\ (~ In 96 body -> value = without_cr body).
Proof. exact c64_only. Qed.
(** The old file is left alone iff the download fails or the file cannot be created. *)
Theorem C64_kept : forall get created timestamp room,
  gen_main get created timestamp room = None <->
  created = false \/ forall status body, get (str "https://publicsuffix.org/list/public_suffix_list.dat") <> Response status body true.
Proof. exact c64_kept. Qed.
Theorem C64_unique : forall source value value', go_file source value -> go_file source value' -> value = value'.
Proof. exact go_file_unique. Qed.
(** Carriage returns at the ends of lines do not matter for the rules. *)
Theorem C64_rules : forall to_ascii text private rules, cr_at_ends text ->
  (used_rules to_ascii (without_cr text) private rules <-> used_rules to_ascii text private rules).
Proof. exact c64_rules. Qed.
(** From the download to the extractor: New without readable files then uses the rules of the
    downloaded text. *)
Theorem C64_offline : forall get created timestamp room file value status body
    E (step : forall R : Type, sys R -> E -> R -> E -> Prop) to_ascii n e m tr e' m1 r,
  gen_main get created timestamp room = Some file -> ~ In 10 timestamp -> go_file file value ->
  get gen_url = Response status body true -> ~ In 96 body -> cr_at_ends body ->
  memory_ok m -> runs step (new to_ascii value n) e m tr e' m1 r -> (forall path text, ~ was_read tr path text) ->
  exists f rules t, r = Ret (f, None) /\ used_rules to_ascii body (lp_private n) rules /\ build_trie rules = Ret t
    /\ forall ext p, extract ext (trie_in m1 f) p = extract ext t p.
Proof.
  intros get created ts room file value status body E step to_ascii n e m tr e' m1 r G N F Get Q C Ok R Nr.
  destruct (c64_only _ _ _ _ _ _ G N F) as (status' & body' & Get' & V). rewrite Get in Get'. injection Get' as <- <-.
  specialize (V Q). subst value.
  destruct (c59 _ _ _ _ _ _ _ _ _ _ _ Ok R Nr) as (f & rules & t & -> & Us & B & K).
  exists f, rules, t. split; [reflexivity|]. split; [apply (c64_rules _ _ _ _ C); exact Us|]. split; [exact B|].
  intros ext p. apply K. constructor.
Qed.

Definition go_b (s : bytes) : bool :=
  let rs := map snd (range_str s) in
  forallb (fun r => ((r <? 55296) || ((57343 <? r) && (r <=? 1114111))) && negb (r =? 0) && negb (r =? 65279)) rs
  && bytes_eqb s (encode_all rs).
Lemma go_b_ok : forall s, go_b s = true -> go_text s.
Proof.
  intros s H. unfold go_b in H. cbv zeta in H. apply andb_true_iff in H as [H E]. rewrite forallb_forall in H.
  exists (map snd (range_str s)). split; [|apply bytes_eqb_eq; exact E]. apply Forall_forall. intros r Hr. specialize (H r Hr).
  apply andb_true_iff in H as [H H3]. apply andb_true_iff in H as [H1 H2].
  apply negb_true_iff, N.eqb_neq in H2. apply negb_true_iff, N.eqb_neq in H3. split; [|auto].
  apply orb_true_iff in H1 as [H1|H1]; [left; apply N.ltb_lt; exact H1|].
  apply andb_true_iff in H1 as [H1 H4]. right. split; [apply N.ltb_lt; exact H1|apply N.leb_le; exact H4].
Qed.
Lemma absent_b : forall c s, forallb (fun b => negb (b =? c)) s = true -> ~ In c s.
Proof. intros c s H I. rewrite forallb_forall in H. specialize (H _ I). rewrite N.eqb_refl in H. discriminate. Qed.
Definition ex_time : bytes := str "2025-01-23 05:26:30.738569141 +0800 +08 m=+0.045607241".
(** The text of the built-in list, downloaded, gives the built-in list, whose source is then
    fallback.go. *)
Example C64_example : go_text hardcoded_psl /\ ~ In 96 hardcoded_psl /\ go_text ex_time /\ ~ In 10 ex_time
  /\ without_cr hardcoded_psl = hardcoded_psl /\ cr_at_ends hardcoded_psl
  /\ (length (psl_template ex_time gen_url hardcoded_psl) <= N.to_nat 1000000)%nat.
Proof.
  assert (Q : ~ In 96 hardcoded_psl) by (apply absent_b; vm_compute; reflexivity).
  assert (R : ~ In 13 hardcoded_psl) by (apply absent_b; vm_compute; reflexivity).
  assert (T : go_text hardcoded_psl) by (apply go_b_ok; vm_compute; reflexivity).
  split; [exact T|]. split; [exact Q|].
  split; [apply go_b_ok; vm_compute; reflexivity|]. split; [apply absent_b; vm_compute; reflexivity|].
  split; [|split].
  - rewrite <- (without_crs hardcoded_psl 0) at 2 by exact R. cbn [repeat]. rewrite app_nil_r. reflexivity.
  - intros lines line L Hl. exists line, 0%nat. cbn [repeat]. rewrite app_nil_r. split; [reflexivity|].
    intros I. apply R. destruct L as (_ & _ & ->). revert Hl. clear - I. induction lines as [|l rest IH]; intros Hl; [destruct Hl|].
    destruct rest as [|l' rest]; [destruct Hl as [->|[]]; exact I|].
    change (joined (l :: l' :: rest)) with (l ++ [10] ++ joined (l' :: rest)). apply in_or_app.
    destruct Hl as [->|Hl]; [left; exact I|right; right; apply IH; exact Hl].
  - assert (X : (N.of_nat (length (psl_template ex_time gen_url hardcoded_psl)) <=? 1000000) = true) by (vm_compute; reflexivity).
    apply N.leb_le in X. revert X. generalize (length (psl_template ex_time gen_url hardcoded_psl)). generalize 1000000. intros a b X. lia.
Qed.
(** With carriage returns. *)
Example C64_example_cr : cr_at_ends (str "com" ++ [13; 10] ++ str "uk" ++ [13]) /\ ~ cr_at_ends (str "co" ++ [13] ++ str "m").
Proof.
  split.
  - intros lines line L Hl. apply has_lines_iff in L. subst lines. vm_compute in Hl. destruct Hl as [<-|[<-|[]]].
    + exists (str "com"), 1%nat. split; [reflexivity|]. apply absent_b. reflexivity.
    + exists (str "uk"), 1%nat. split; [reflexivity|]. apply absent_b. reflexivity.
  - intros C. destruct (C [str "co" ++ [13] ++ str "m"] (str "co" ++ [13] ++ str "m")) as (l & n & E & N).
    + apply has_lines_iff. vm_compute. reflexivity.
    + left. reflexivity.
    + destruct n as [|n]; [rewrite app_nil_r in E; apply N; rewrite <- E; right; right; left; reflexivity|].
      cbn [repeat] in E. rewrite repeat_cons in E. apply (f_equal (fun x => last x 0)) in E.
      rewrite (app_assoc l), last_last in E. discriminate.
Qed.
(** The status of the answer and the section markers are not checked: an error page is built in
    as the list. *)
Theorem C64_refuted_status : exists get body file, get gen_url = Response 404 body true
  /\ gen_main get true ex_time 1000 = Some file /\ go_file file body /\ ~ has_markers body.
Proof.
  pose (body := str "<h1>Not Found</h1>"). pose (get := fun _ : bytes => Response 404 body true).
  destruct (c64_generated get true ex_time 1000 404 body) as (file & G & F); try reflexivity.
  - vm_compute. repeat constructor.
  - apply go_b_ok. vm_compute. reflexivity.
  - apply absent_b. vm_compute. reflexivity.
  - apply go_b_ok. vm_compute. reflexivity.
  - apply absent_b. vm_compute. reflexivity.
  - exists get, body, file. split; [reflexivity|]. split; [exact G|]. split; [exact F|].
    intros M. apply delimiters_iff in M. vm_compute in M. discriminate.
Qed.
(** A back quote anywhere in the list leaves a file that is no Go, in place of the old one. *)
Theorem C64_quote : forall get timestamp room status body, get gen_url = Response status body true -> In 96 body ->
  ~ In 10 timestamp -> (length (psl_template timestamp gen_url body) <= room)%nat ->
  exists file, gen_main get true timestamp room = Some file /\ forall value, ~ go_file file value.
Proof. exact c64_quote. Qed.
Example C64_example_quote : In 96 (str "// `com`") /\ ~ In 10 ex_time
  /\ (length (psl_template ex_time gen_url (str "// `com`")) <= 1000)%nat.
Proof. split; [right; right; right; left; reflexivity|]. split; [apply absent_b; vm_compute; reflexivity|vm_compute; repeat constructor]. Qed.

Print Assumptions C64_generated.
Print Assumptions C64_only.
Print Assumptions C64_kept.
Print Assumptions C64_unique.
Print Assumptions C64_rules.
Print Assumptions C64_offline.
Print Assumptions C64_refuted_status.
Print Assumptions C64_quote.
