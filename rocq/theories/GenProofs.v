(** GenProofs.v - data/gen.go: C64. *)

From Coq Require Import ZifyBool ZifyNat ZifyN.
From Verif Require Import Base BaseFacts Utf8 Chars Utf8Facts Str StrFacts World Psl Gen GenSpec ListSpec ListFacts.
Local Open Scope N_scope.

Definition opening : bytes := str "const hardcodedPSL string = " ++ str "`".

Lemma feeds_cons : forall l lines, with_feeds (l :: lines) = l ++ [10] ++ with_feeds lines.
Proof. intros l lines. unfold with_feeds. cbn [map concat]. rewrite <- app_assoc. reflexivity. Qed.

Lemma cut_at : forall c (a b x y : bytes), ~ In c a -> ~ In c b -> a ++ c :: x = b ++ c :: y -> a = b /\ x = y.
Proof.
  intros c. induction a as [|p a IH]; intros [|q b] x y A B E; cbn [app] in E.
  - injection E as ->. auto.
  - injection E as -> _. exfalso. apply B. left. reflexivity.
  - injection E as -> _. exfalso. apply A. left. reflexivity.
  - injection E as -> E. destruct (IH b x y) as (-> & ->); auto; intros I; [apply A|apply B]; right; exact I.
Qed.

(** The first lines of two files that agree. *)
Lemma header : forall lines lines' x y, Forall blank_or_comment lines -> Forall blank_or_comment lines' ->
  with_feeds lines ++ opening ++ x = with_feeds lines' ++ opening ++ y -> lines = lines' /\ x = y.
Proof.
  intros lines lines' x y H. revert lines'.
  assert (No : forall l rest z, blank_or_comment l -> opening ++ z <> with_feeds (l :: rest) ++ opening ++ y /\ opening ++ z <> with_feeds (l :: rest) ++ opening ++ x).
  { intros l rest z ([->|(t & ->)] & _); rewrite feeds_cons; split; intros E; discriminate E. }
  induction H as [|l lines Hl H IH]; intros lines' H' E.
  - destruct H' as [|l' lines' Hl' H'].
    + change (with_feeds []) with (@nil N) in E. cbn [app] in E. apply app_inv_head in E. auto.
    + exfalso. destruct (No l' lines' x Hl') as (N & _). apply N. exact E.
  - destruct H' as [|l' lines' Hl' H'].
    + exfalso. destruct (No l lines y Hl) as (_ & N). apply N. symmetry. exact E.
    + rewrite !feeds_cons in E. rewrite <- !app_assoc in E. cbn [app] in E.
      apply cut_at in E as (-> & E); [|apply Hl|apply Hl'].
      destruct (IH lines' H' E) as (-> & ->). auto.
Qed.

Definition gen_lines (timestamp : bytes) : list bytes :=
  [[]; str "// Code generated by go generate; DO NOT EDIT."; str "// This file was generated by robots at";
   str "// " ++ timestamp; str "// using data from"; str "// " ++ gen_url; []].
Lemma gen_lines_ok : forall timestamp, ~ In 10 timestamp -> Forall blank_or_comment (gen_lines timestamp).
Proof.
  intros ts N. assert (C : forall s, (exists r, s = str "//" ++ r) -> ~ In 10 s -> blank_or_comment s).
  { intros s (r & ->) I. split; [right; exists r; reflexivity|exact I]. }
  assert (F : forall s : bytes, existsb (N.eqb 10) s = false -> ~ In 10 s).
  { intros s H I. assert (X : existsb (N.eqb 10) s = true); [|congruence]. apply existsb_exists. exists 10. split; [exact I|reflexivity]. }
  unfold gen_lines. repeat apply Forall_cons; try apply Forall_nil; try (split; [left; reflexivity|intros []]); apply C;
    try (eexists; reflexivity); try (apply F; vm_compute; reflexivity).
  intros I. apply in_app_or in I as [I|I]; [|exact (N I)]. revert I. apply F. vm_compute. reflexivity.
Qed.
Lemma template_form : forall timestamp content,
  psl_template timestamp gen_url content
  = str "package fasttld" ++ [10] ++ with_feeds (gen_lines timestamp) ++ opening ++ content ++ str "`" ++ [10].
Proof.
  intros ts content. unfold gen_lines. rewrite !feeds_cons. change (with_feeds []) with (@nil N). unfold psl_template, opening.
  rewrite <- !app_assoc. reflexivity.
Qed.

Lemma go_text_app : forall a b, go_text a -> go_text b -> go_text (a ++ b).
Proof.
  intros a b (ra & A & ->) (rb & B & ->). exists (ra ++ rb). split; [apply Forall_app; auto|].
  unfold encode_all. rewrite flat_map_app. reflexivity.
Qed.
Lemma go_text_ascii : forall s, forallb (fun b => (0 <? b) && (b <? 128)) s = true -> go_text s.
Proof.
  intros s H. rewrite forallb_forall in H. exists s. split.
  - apply Forall_forall. intros r Hr. specialize (H r Hr). unfold valid_rune, rune in *. lia.
  - induction s as [|b s IH]; [reflexivity|]. unfold encode_all in *. cbn [flat_map].
    rewrite <- IH by (intros x Hx; apply H; right; exact Hx).
    unfold encode. specialize (H b (or_introl eq_refl)). replace (b <? 128) with true by lia. reflexivity.
Qed.

Lemma c64_generated : forall get created timestamp room status body, get gen_url = Response status body true -> created = true ->
  (length (psl_template timestamp gen_url body) <= room)%nat -> go_text timestamp -> ~ In 10 timestamp ->
  go_text body -> ~ In 96 body ->
  exists file, gen_main get created timestamp room = Some file /\ go_file file (without_cr body).
Proof.
  intros get created ts room status body G -> R T N B Q. unfold gen_main. rewrite G.
  rewrite firstn_all2 by exact R. eexists. split; [reflexivity|]. split.
  - unfold psl_template. repeat apply go_text_app; try exact T; try exact B; apply go_text_ascii; vm_compute; reflexivity.
  - exists (gen_lines ts), body. split; [apply gen_lines_ok; exact N|]. split; [exact Q|]. split; [reflexivity|].
    rewrite template_form. unfold opening. rewrite <- !app_assoc. reflexivity.
Qed.
Lemma c64_only : forall get created timestamp room file value, gen_main get created timestamp room = Some file ->
  ~ In 10 timestamp -> go_file file value ->
  exists status body, get gen_url = Response status body true /\ (~ In 96 body -> value = without_cr body).
Proof.
  intros get created ts room file value G N (_ & lines & raw & L & Q & -> & E). unfold gen_main in G.
  destruct (get gen_url) as [|status body complete]; [discriminate|]. destruct complete; [|discriminate].
  destruct created; [|discriminate]. exists status, body. split; [reflexivity|]. intros Qb.
  assert (F : exists tail, file ++ tail = psl_template ts gen_url body).
  { exists (skipn room (psl_template ts gen_url body)). injection G as <-. apply firstn_skipn. }
  destruct F as (tail & F). rewrite template_form, E, <- !app_assoc in F. apply app_inv_head in F. apply app_inv_head in F.
  change (with_feeds lines ++ opening ++ (raw ++ str "`" ++ [10] ++ tail)
    = with_feeds (gen_lines ts) ++ opening ++ (body ++ str "`" ++ [10])) in F.
  apply header in F as (_ & F); [|exact L|apply gen_lines_ok; exact N].
  change (raw ++ 96 :: ([10] ++ tail) = body ++ 96 :: [10]) in F. apply cut_at in F as (-> & _); auto.
Qed.
Lemma go_file_unique : forall source value value', go_file source value -> go_file source value' -> value = value'.
Proof.
  intros source value value' (_ & lines & raw & L & Q & -> & E) (_ & lines' & raw' & L' & Q' & -> & E').
  rewrite E in E'. apply app_inv_head in E'. apply app_inv_head in E'.
  change (with_feeds lines ++ opening ++ (raw ++ str "`" ++ [10])
    = with_feeds lines' ++ opening ++ (raw' ++ str "`" ++ [10])) in E'.
  apply header in E' as (_ & E'); auto.
  change (raw ++ 96 :: [10] = raw' ++ 96 :: [10]) in E'. apply cut_at in E' as (-> & _); auto.
Qed.
(** A quote inside the text: what follows is no Go. *)
Lemma c64_quote : forall get timestamp room status body, get gen_url = Response status body true -> In 96 body ->
  ~ In 10 timestamp -> (length (psl_template timestamp gen_url body) <= room)%nat ->
  exists file, gen_main get true timestamp room = Some file /\ forall value, ~ go_file file value.
Proof.
  intros get ts room status body G I N R. unfold gen_main. rewrite G, firstn_all2 by exact R. eexists. split; [reflexivity|].
  intros value (_ & lines & raw & L & Q & _ & E). rewrite template_form in E. apply app_inv_head in E. apply app_inv_head in E.
  change (with_feeds (gen_lines ts) ++ opening ++ (body ++ str "`" ++ [10]) = with_feeds lines ++ opening ++ (raw ++ str "`" ++ [10])) in E.
  apply header in E as (_ & E); [|apply gen_lines_ok; exact N|exact L].
  apply in_split in I as (a & b & ->). assert (X : length ((a ++ 96 :: b) ++ str "`" ++ [10]) = length (raw ++ str "`" ++ [10])) by (rewrite E; reflexivity).
  rewrite !app_length in X. cbn [length] in X.
  assert (Y : a ++ 96 :: b = raw).
  { apply (app_inv_tail (str "`" ++ [10])). exact E. }
  apply Q. rewrite <- Y. apply in_or_app. right. left. reflexivity.
Qed.

(** ** Carriage returns *)

Lemma star_app : forall chars a b, star chars a -> star chars b -> star chars (a ++ b).
Proof. intros chars a b A B. induction A as [|r w Hr A IH]; [exact B|]. rewrite <- app_assoc. apply star_cons; assumption. Qed.
Lemma trim_crs : forall l n, trim_space (l ++ repeat 13 n) = trim_space l.
Proof.
  intros l n. apply trim_space_iff. destruct (trim_space_spec l) as (a & b & E & A & B & M1 & M2).
  exists a, (b ++ repeat 13 n). split; [rewrite E at 1; rewrite <- !app_assoc; reflexivity|]. split; [exact A|].
  split; [|auto]. apply star_app; [exact B|]. induction n as [|n IH]; [constructor|]. cbn [repeat].
  apply (star_cons white_space 13 (repeat 13 n)); [right; right; right; right; left; reflexivity|exact IH].
Qed.
Lemma without_crs : forall l n, ~ In 13 l -> without_cr (l ++ repeat 13 n) = l.
Proof.
  intros l n N. unfold without_cr. rewrite filter_app.
  assert (A : filter (fun b => negb (b =? 13)) (repeat 13 n) = []) by (induction n as [|n IH]; [reflexivity|exact IH]).
  rewrite A, app_nil_r. induction l as [|b l IH]; [reflexivity|]. cbn [filter].
  destruct (N.eqb_spec b 13) as [->|H]; [exfalso; apply N; left; reflexivity|]. cbn [negb]. f_equal. apply IH.
  intros I. apply N. right. exact I.
Qed.
Lemma split_without : forall s, split_byte (without_cr s) 10 = map without_cr (split_byte s 10).
Proof.
  induction s as [|b s IH]; [reflexivity|]. unfold without_cr in *. cbn [filter split_byte].
  pose proof (split_byte_nonempty s 10) as Ne.
  destruct (N.eqb_spec b 13) as [->|H].
  - change (13 =? 10) with false. cbn [negb]. rewrite IH. destruct (split_byte s 10) as [|p ps]; [contradiction|]. reflexivity.
  - cbn [negb split_byte]. destruct (N.eqb_spec b 10) as [->|T].
    + rewrite IH. reflexivity.
    + rewrite IH. destruct (split_byte s 10) as [|p ps]; [contradiction|]. cbn [map filter].
      destruct (N.eqb_spec b 13) as [|_]; [contradiction|]. reflexivity.
Qed.
Lemma c64_rules : forall to_ascii text private rules, cr_at_ends text ->
  (used_rules to_ascii (without_cr text) private rules <-> used_rules to_ascii text private rules).
Proof.
  intros to_ascii text private rules C. rewrite !used_rules_iff.
  assert (P : parse_list to_ascii (without_cr text) = parse_list to_ascii text); [|rewrite P; tauto].
  unfold parse_list. rewrite split_without.
  assert (L : forall line, In line (split_byte text 10) -> trim_space (without_cr line) = trim_space line).
  { intros line Hl. destruct (C _ _ (split_lines text) Hl) as (l & n & -> & N). rewrite without_crs by exact N. symmetry. apply trim_crs. }
  revert L. generalize (split_byte text 10). generalize no_suffixes false. intros psl pr lines. revert psl pr.
  induction lines as [|l lines IH]; intros psl pr L; [reflexivity|]. cbn [map process_lines].
  assert (X : process_line to_ascii (without_cr l) psl pr = process_line to_ascii l psl pr).
  { unfold process_line. rewrite (L l (or_introl eq_refl)). reflexivity. }
  rewrite X. destruct (process_line to_ascii l psl pr) as [psl' pr']. apply IH. intros x Hx. apply L. right. exact Hx.
Qed.

Lemma c64_kept : forall get created timestamp room,
  gen_main get created timestamp room = None <->
  created = false \/ forall status body, get (str "https://publicsuffix.org/list/public_suffix_list.dat") <> Response status body true.
Proof.
  intros get created timestamp room. unfold gen_main. change (str "https://publicsuffix.org/list/public_suffix_list.dat") with gen_url.
  destruct (get gen_url) as [|status body [|]].
  - split; [right; discriminate|reflexivity].
  - destruct created; split; try discriminate; auto. intros [X|X]; [discriminate|]. destruct (X status body eq_refl).
  - split; [right; discriminate|reflexivity].
Qed.
