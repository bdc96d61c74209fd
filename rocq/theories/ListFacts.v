(** ListFacts.v - the parser of Public Suffix List files meets its specification. *)

From Verif Require Import Base BaseFacts Utf8 Utf8Facts Chars Str StrFacts Trie Psl ListSpec.
From Coq Require Import ZifyBool ZifyNat ZifyN.
Local Open Scope N_scope.

(** ** strings.TrimSpace *)

Lemma space_white : space_runes = white_space.
Proof. reflexivity. Qed.

Lemma white_good : good_set white_space.
Proof.
  assert (X : forallb (fun c => (c <? 55296) && negb (c =? rune_error)) white_space = true) by (vm_compute; reflexivity).
  rewrite forallb_forall in X. apply Forall_forall. intros c H. specialize (X c H). unfold valid_rune. lia.
Qed.

Lemma is_space_in : forall r, is_space r = exists_in white_space r.
Proof. intros r. unfold is_space. rewrite space_white. reflexivity. Qed.

Lemma trim_left_space_spec : forall fuel s, (length s <= fuel)%nat ->
  trimmed_left white_space s (trim_left_space fuel s).
Proof.
  induction fuel as [|f IH]; intros s H.
  - destruct s; [|cbn in H; lia]. exists []. split; [reflexivity|]. split; [constructor|].
    apply not_starts_nil. exact white_good.
  - destruct s as [|b s0]; [exists []; split; [reflexivity|]; split; [constructor|]; apply not_starts_nil; exact white_good|].
    cbn [trim_left_space]. set (s := b :: s0) in *. destruct (decode_rune s) as [r n] eqn:D. rewrite is_space_in.
    destruct (exists_in white_space r) eqn:X.
    + destruct (decode_first_in white_space white_good s r n ltac:(discriminate) D X) as (q & E & -> & Hin).
      rewrite E at 2. rewrite skipn_app, skipn_all, Nat.sub_diag. cbn [app skipn].
      assert (L : (length q <= f)%nat).
      { apply (f_equal (@length N)) in E. rewrite app_length in E.
        assert (V : valid_rune r) by (apply (in_valid white_space white_good); exact Hin).
        pose proof (encode_length r V). unfold s in *. cbn [length] in *. lia. }
      destruct (IH q L) as (l & El & Hl & Hs). exists (encode r ++ l). rewrite <- app_assoc, <- El.
      split; [exact E|]. split; [constructor; assumption|exact Hs].
    + exists []. split; [reflexivity|]. split; [constructor|]. eapply decode_first_notin; eauto using white_good.
Qed.

Lemma trim_right_space_spec : forall fuel s, (length s <= fuel)%nat ->
  trimmed_right white_space s (trim_right_space fuel s).
Proof.
  induction fuel as [|f IH]; intros s H.
  - destruct s; [|cbn in H; lia]. exists []. split; [reflexivity|]. split; [constructor|].
    apply not_ends_nil. exact white_good.
  - destruct s as [|b s0]; [exists []; split; [reflexivity|]; split; [constructor|]; apply not_ends_nil; exact white_good|].
    cbn [trim_right_space]. set (s := b :: s0) in *. destruct (decode_last s) as [r n] eqn:D. rewrite is_space_in.
    destruct (exists_in white_space r) eqn:X.
    + destruct (decode_last_in white_space white_good s r n ltac:(discriminate) D X) as (p & E & -> & Hin).
      rewrite E. rewrite app_length, Nat.add_sub, firstn_app, firstn_all, Nat.sub_diag. cbn [firstn]. rewrite app_nil_r.
      assert (L : (length p <= f)%nat).
      { apply (f_equal (@length N)) in E. rewrite app_length in E.
        assert (V : valid_rune r) by (apply (in_valid white_space white_good); exact Hin).
        pose proof (encode_length r V). unfold s in *. cbn [length] in *. lia. }
      destruct (IH p L) as (l & El & Hl & Hs). exists (l ++ encode r). rewrite app_assoc, <- El.
      split; [reflexivity|]. split; [|exact Hs]. apply star_app; [exact Hl|]. apply star_single. exact Hin.
    + exists []. rewrite app_nil_r. split; [reflexivity|]. split; [constructor|]. eapply decode_last_notin; eauto using white_good.
Qed.

Lemma trim_space_spec : forall s, trimmed white_space s (trim_space s).
Proof.
  intros s. unfold trim_space.
  destruct (trim_left_space_spec (length s) s (le_n _)) as (l & El & Hl & Hs).
  set (t := trim_left_space (length s) s) in *.
  destruct (trim_right_space_spec (length t) t (le_n _)) as (r & Er & Hr & He).
  exists l, r. rewrite <- Er. repeat split; auto. intros X. apply Hs. rewrite Er. apply starts_app. exact X.
Qed.

Lemma trim_space_iff : forall s m, trimmed white_space s m <-> trim_space s = m.
Proof.
  intros s m. split.
  - intros H. eapply trimmed_unique; eauto using white_good. apply trim_space_spec.
  - intros <-. apply trim_space_spec.
Qed.

(** ** Lines *)

Lemma joined_cons : forall l ls, ls <> [] -> joined (l :: ls) = l ++ [10] ++ joined ls.
Proof. intros l [|l' ls] H; [contradiction|reflexivity]. Qed.

Lemma split_byte_nonempty : forall s c, split_byte s c <> [].
Proof.
  induction s as [|x s IH]; intros c; cbn [split_byte]; [discriminate|].
  destruct (x =? c); [discriminate|]. destruct (split_byte s c); discriminate.
Qed.

Lemma split_lines : forall s, has_lines s (split_byte s 10).
Proof.
  intros s. split; [apply split_byte_nonempty|].
  induction s as [|x s [IH E]]; cbn [split_byte].
  - split; [|reflexivity]. constructor; [intros []|constructor].
  - pose proof (split_byte_nonempty s 10) as Hne. destruct (N.eqb_spec x 10) as [->|Hx].
    + split; [constructor; [intros []|exact IH]|]. rewrite joined_cons by exact Hne. cbn [app]. rewrite <- E. reflexivity.
    + destruct (split_byte s 10) as [|p ps]; [contradiction|]. inversion IH as [|? ? Hp Hps]; subst. split.
      * constructor; [|exact Hps]. intros [H|H]; [apply Hx; exact H|apply Hp; exact H].
      * destruct ps as [|p' ps]; reflexivity.
Qed.

Lemma split_joined : forall ls, ls <> [] -> Forall (fun l => ~ In 10 l) ls -> split_byte (joined ls) 10 = ls.
Proof.
  assert (A : forall l rest, ~ In 10 l -> split_byte (l ++ 10 :: rest) 10 = l :: split_byte rest 10).
  { induction l as [|x l IH]; intros rest H; cbn [app split_byte].
    - reflexivity.
    - destruct (N.eqb_spec x 10) as [->|]; [exfalso; apply H; left; reflexivity|].
      rewrite IH by (intros X; apply H; right; exact X). reflexivity. }
  assert (B : forall l, ~ In 10 l -> split_byte l 10 = [l]).
  { induction l as [|x l IH]; intros H; cbn [split_byte]; [reflexivity|].
    destruct (N.eqb_spec x 10) as [->|]; [exfalso; apply H; left; reflexivity|].
    rewrite IH by (intros X; apply H; right; exact X). reflexivity. }
  induction ls as [|l ls IH]; intros Hne H; [contradiction|]. inversion H as [|? ? Hl Hls]; subst.
  destruct ls as [|l' ls]; [apply B; exact Hl|]. rewrite joined_cons by discriminate. cbn [app].
  rewrite A by exact Hl. f_equal. apply IH; [discriminate|exact Hls].
Qed.

Lemma has_lines_iff : forall s ls, has_lines s ls <-> split_byte s 10 = ls.
Proof.
  intros s ls. split.
  - intros (Hne & H & ->). apply split_joined; assumption.
  - intros <-. apply split_lines.
Qed.

(** ** Rules *)

Lemma has_prefix_iff : forall p s, has_prefix s p = true <-> starts_with s p.
Proof.
  induction p as [|a p IH]; intros s.
  - split; [intros _; exists s; reflexivity|]. intros _. destruct s; reflexivity.
  - destruct s as [|b s]; cbn [has_prefix].
    + split; [discriminate|]. intros (q & E). discriminate.
    + rewrite andb_true_iff, IH, N.eqb_eq. split.
      * intros (-> & q & ->). exists q. reflexivity.
      * intros (q & E). cbn [app] in E. injection E as -> ->. split; [reflexivity|]. exists q. reflexivity.
Qed.

Lemma ignored_iff : forall t, (len t =? 0)%Z || has_prefix t (str "//") = true <-> ignored_text t.
Proof.
  intros t. rewrite orb_true_iff, has_prefix_iff, Z.eqb_eq, len_zero. reflexivity.
Qed.

Section Rules.
Variable to_ascii : bytes -> option bytes.

(** The rules of a line, computed. *)
Definition rules_of_line (line : bytes) : list bytes :=
  let t := trim_space line in
  if (len t =? 0)%Z || has_prefix t (str "//") then []
  else match to_ascii t with
       | None => []
       | Some a => if negb (bytes_eqb a t) then [a; t] else [a]
       end.

Lemma rules_of_line_iff : forall line rs, line_rules to_ascii line rs <-> rules_of_line line = rs.
Proof.
  intros line rs. unfold rules_of_line. split.
  - intros [(t & Ht & Hi)|t Ht Hi Ha|t Ht Hi Ha|t a Ht Hi Ha Hn]; apply trim_space_iff in Ht; rewrite Ht;
      rewrite <- ignored_iff in Hi.
    + rewrite Hi. reflexivity.
    + apply not_true_is_false in Hi. rewrite Hi, Ha. reflexivity.
    + apply not_true_is_false in Hi. rewrite Hi, Ha, bytes_eqb_refl. reflexivity.
    + apply not_true_is_false in Hi. rewrite Hi, Ha. apply bytes_eqb_neq in Hn. rewrite Hn. reflexivity.
  - intros <-. pose proof (trim_space_spec line) as T. destruct (_ || _) eqn:I.
    + apply ignored_iff in I. apply line_ignored. exists (trim_space line). auto.
    + assert (Hi : ~ ignored_text (trim_space line)) by (rewrite <- ignored_iff; congruence).
      destruct (to_ascii (trim_space line)) as [a|] eqn:A; [|eapply line_rejected; eauto].
      destruct (bytes_eqb a (trim_space line)) eqn:B; cbn [negb].
      * apply bytes_eqb_eq in B. subst a. apply line_ascii; assumption.
      * apply bytes_eqb_neq in B. eapply line_unicode; eauto.
Qed.

Lemma lines_rules_iff : forall lines rs, lines_rules to_ascii lines rs <-> flat_map rules_of_line lines = rs.
Proof.
  intros lines rs. split.
  - intros (rss & H & ->). induction H as [|l r ls rss H _ IH]; [reflexivity|]. cbn [flat_map concat].
    apply rules_of_line_iff in H. rewrite H, IH. reflexivity.
  - intros <-. exists (map rules_of_line lines). split; [|apply flat_map_concat_map].
    induction lines as [|l ls IH]; constructor; [|exact IH]. apply rules_of_line_iff. reflexivity.
Qed.

Definition opens (line : bytes) : bool := bytes_eqb private_marker (trim_space line).

Lemma opens_iff : forall line, opens_private line <-> opens line = true.
Proof.
  intros line. unfold opens_private, opens. rewrite trim_space_iff, bytes_eqb_eq. unfold private_marker.
  split; intros H; rewrite H; reflexivity.
Qed.

Lemma opens_none : forall line, opens line = true -> rules_of_line line = [].
Proof.
  intros line H. unfold opens in H. apply bytes_eqb_eq in H. unfold rules_of_line. rewrite <- H. reflexivity.
Qed.

Lemma process_line_eq : forall line psl pr,
  process_line to_ascii line psl pr =
  let pr' := opens line || pr in
  (mkSuffixes (s_public psl ++ if pr' then [] else rules_of_line line)
              (s_private psl ++ if pr' then rules_of_line line else [])
              (s_all psl ++ rules_of_line line), pr').
Proof.
  intros line [pub priv all] pr. unfold process_line, rules_of_line.
  replace (if bytes_eqb private_marker (trim_space line) then true else pr) with (opens line || pr)
    by (unfold opens; destruct (bytes_eqb private_marker (trim_space line)); reflexivity).
  cbn zeta. cbn [s_public s_private s_all].
  destruct (opens line || pr); destruct (_ || _); cbn [app]; rewrite ?app_nil_r; try reflexivity;
    destruct (to_ascii (trim_space line)); rewrite ?app_nil_r; try reflexivity;
    destruct (negb _); rewrite <- ?app_assoc, ?app_nil_r; reflexivity.
Qed.

Lemma process_private : forall lines psl,
  process_lines to_ascii lines psl true =
  mkSuffixes (s_public psl) (s_private psl ++ flat_map rules_of_line lines) (s_all psl ++ flat_map rules_of_line lines).
Proof.
  induction lines as [|l ls IH]; intros psl; cbn [process_lines flat_map].
  - destruct psl as [p1 p2 p3]. cbn [s_public s_private s_all]. rewrite !app_nil_r. reflexivity.
  - rewrite process_line_eq. rewrite orb_true_r. cbn zeta beta iota. rewrite IH. cbn [s_public s_private s_all].
    rewrite app_nil_r, <- !app_assoc. reflexivity.
Qed.

Lemma process_public : forall lines psl, forallb (fun l => negb (opens l)) lines = true ->
  process_lines to_ascii lines psl false =
  mkSuffixes (s_public psl ++ flat_map rules_of_line lines) (s_private psl) (s_all psl ++ flat_map rules_of_line lines).
Proof.
  induction lines as [|l ls IH]; intros psl H; cbn [process_lines flat_map].
  - destruct psl as [p1 p2 p3]. cbn [s_public s_private s_all]. rewrite !app_nil_r. reflexivity.
  - cbn [forallb] in H. apply andb_true_iff in H as [Ho H]. apply negb_true_iff in Ho.
    rewrite process_line_eq, Ho. cbn [orb]. cbn zeta beta iota. rewrite IH by exact H. cbn [s_public s_private s_all].
    rewrite app_nil_r, <- !app_assoc. reflexivity.
Qed.

Lemma process_app : forall before after psl, forallb (fun l => negb (opens l)) before = true ->
  process_lines to_ascii (before ++ after) psl false =
  process_lines to_ascii after (process_lines to_ascii before psl false) false.
Proof.
  induction before as [|l ls IH]; intros after psl H; cbn [process_lines app]; [reflexivity|].
  cbn [forallb] in H. apply andb_true_iff in H as [Ho H]. apply negb_true_iff in Ho.
  rewrite process_line_eq, Ho. cbn [orb]. cbn zeta beta iota. apply IH. exact H.
Qed.

Lemma process_sections : forall before marker after, forallb (fun l => negb (opens l)) before = true ->
  opens marker = true ->
  process_lines to_ascii (before ++ marker :: after) no_suffixes false =
  mkSuffixes (flat_map rules_of_line before) (flat_map rules_of_line after)
             (flat_map rules_of_line before ++ flat_map rules_of_line after).
Proof.
  intros before marker after H M. rewrite process_app by exact H. rewrite (process_public before) by exact H. cbn [process_lines].
  rewrite process_line_eq, M. cbn [orb]. cbn zeta beta iota. rewrite process_private, (opens_none _ M).
  cbn [s_public s_private s_all no_suffixes app]. rewrite !app_nil_r. reflexivity.
Qed.

Lemma first_marker : forall lines, forallb (fun l => negb (opens l)) lines = true
  \/ exists before marker after, lines = before ++ marker :: after
     /\ forallb (fun l => negb (opens l)) before = true /\ opens marker = true.
Proof.
  induction lines as [|l ls IH]; [left; reflexivity|]. cbn [forallb]. destruct (opens l) eqn:O.
  - right. exists [], l, ls. auto.
  - destruct IH as [H|(b & m & a & -> & H & M)]; [left; exact H|]. right. exists (l :: b), m, a.
    cbn [forallb app]. rewrite O, H. auto.
Qed.

Lemma not_opens_forall : forall lines, Forall (fun l => ~ opens_private l) lines <-> forallb (fun l => negb (opens l)) lines = true.
Proof.
  intros lines. rewrite forallb_forall, Forall_forall. split; intros H l Hl; specialize (H l Hl).
  - rewrite opens_iff in H. apply negb_true_iff. apply not_true_is_false. exact H.
  - rewrite opens_iff. apply negb_true_iff in H. congruence.
Qed.

Lemma parse_list_spec : forall text,
  list_rules to_ascii text (s_public (parse_list to_ascii text)) (s_private (parse_list to_ascii text))
  /\ s_all (parse_list to_ascii text) = s_public (parse_list to_ascii text) ++ s_private (parse_list to_ascii text).
Proof.
  intros text. unfold parse_list. pose proof (split_lines text) as L.
  destruct (first_marker (split_byte text 10)) as [H|(b & m & a & E & H & M)].
  - rewrite process_public by exact H. cbn [s_public s_private s_all no_suffixes app].
    rewrite app_nil_r. split; [|reflexivity]. exists (split_byte text 10). split; [exact L|]. left.
    split; [apply not_opens_forall; exact H|]. split; [apply lines_rules_iff; reflexivity|reflexivity].
  - rewrite E. rewrite process_sections by assumption. cbn [s_public s_private s_all]. split; [|reflexivity].
    exists (split_byte text 10). split; [exact L|]. right. exists b, m, a. split; [exact E|].
    split; [apply not_opens_forall; exact H|]. split; [apply opens_iff; exact M|].
    split; apply lines_rules_iff; reflexivity.
Qed.

Lemma list_rules_unique : forall text pub priv pub' priv', list_rules to_ascii text pub priv ->
  list_rules to_ascii text pub' priv' -> pub = pub' /\ priv = priv'.
Proof.
  assert (A : forall text pub priv, list_rules to_ascii text pub priv ->
    pub = s_public (parse_list to_ascii text) /\ priv = s_private (parse_list to_ascii text)).
  { intros text pub priv (lines & L & H). apply has_lines_iff in L. unfold parse_list. rewrite L.
    destruct H as [(H & R & ->)|(b & m & a & -> & H & M & Rb & Ra)].
    - apply not_opens_forall in H. apply lines_rules_iff in R. rewrite process_public by exact H.
      cbn [s_public s_private no_suffixes app]. auto.
    - apply not_opens_forall in H. apply opens_iff in M. apply lines_rules_iff in Rb. apply lines_rules_iff in Ra.
      rewrite process_sections by assumption. cbn [s_public s_private]. auto. }
  intros text pub priv pub' priv' H H'. apply A in H as [-> ->]. apply A in H' as [-> ->]. auto.
Qed.

Lemma list_rules_iff : forall text pub priv, list_rules to_ascii text pub priv <->
  parse_list to_ascii text = mkSuffixes pub priv (pub ++ priv).
Proof.
  intros text pub priv. destruct (parse_list_spec text) as [P A]. split.
  - intros H. destruct (list_rules_unique _ _ _ _ _ H P) as [-> ->]. rewrite <- A. destruct (parse_list to_ascii text). reflexivity.
  - intros E. rewrite E in P. exact P.
Qed.

Lemma used_rules_iff : forall text priv rules, used_rules to_ascii text priv rules <->
  (if priv then s_all (parse_list to_ascii text) else s_public (parse_list to_ascii text)) = rules.
Proof.
  intros text priv rules. destruct (parse_list_spec text) as [P A]. split.
  - intros (pub & pr & L & ->). destruct (list_rules_unique _ _ _ _ _ L P) as [-> ->]. rewrite A. reflexivity.
  - intros <-. do 2 eexists. split; [exact P|]. rewrite A. reflexivity.
Qed.
End Rules.

(** ** Section markers *)

Lemma contains_sub_iff : forall s p, contains_sub s p = true <-> has_text s p.
Proof.
  induction s as [|x s IH]; intros p; cbn [contains_sub].
  - rewrite orb_false_r, has_prefix_iff. split.
    + intros (q & E). exists [], q. exact E.
    + intros (a & b & E). symmetry in E. apply app_eq_nil in E as [-> E]. exists b. symmetry. exact E.
  - rewrite orb_true_iff, has_prefix_iff, IH. split.
    + intros [(q & E)|(a & b & ->)]; [exists [], q; exact E|]. exists (x :: a), b. reflexivity.
    + intros (a & b & E). destruct a as [|y a].
      * left. exists b. exact E.
      * right. cbn [app] in E. injection E as -> E. exists a, b. exact E.
Qed.

Lemma delimiters_iff : forall s, valid_psl_delimiters s = true <-> has_markers s.
Proof.
  intros s. unfold valid_psl_delimiters, has_markers. rewrite !andb_true_iff, !contains_sub_iff. tauto.
Qed.
