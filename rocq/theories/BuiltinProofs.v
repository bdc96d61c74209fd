(** BuiltinProofs.v - the rules of the built-in list and where they are not regular. *)

From Verif Require Import Base BaseFacts Utf8 Utf8Facts Chars Str StrFacts Net Trie Extract Psl Host HostFacts
  Walk WalkFacts Addr NetFacts Parse ParseFacts UrlSpec UrlFacts ExtractFacts OutcomeFacts Rfc UrlProofs CharProofs
  RuleSpec TrieFacts RuleProofs PslProofs ListSpec ListFacts HostProofs VariantProofs GapProofs Survey Builtin BuiltinSpec.
From Coq Require Import ZifyBool ZifyNat ZifyN.
Local Open Scope N_scope.

(** ** The rules, computed without idna.ToASCII *)

Definition ascii_b (l : bytes) : bool := forallb (fun b => b <? 128) l.
Definition ignored_b (l : bytes) : bool := (len l =? 0)%Z || has_prefix l (str "//").
Fixpoint assoc (table : list (bytes * bytes)) (l : bytes) : option bytes :=
  match table with
  | [] => None
  | (u, a) :: table' => if bytes_eqb u l then Some a else assoc table' l
  end.
Definition line_of (l : bytes) : list bytes :=
  if ignored_b l then [] else if ascii_b l then [l] else match assoc unicode_rules l with Some a => [a; l] | None => [] end.
Definition marker_b (l : bytes) : bool := bytes_eqb private_marker l.
Fixpoint cut (lines : list bytes) : list bytes * list bytes :=
  match lines with
  | [] => ([], [])
  | l :: rest => if marker_b l then ([], rest) else let '(a, b) := cut rest in (l :: a, b)
  end.
Definition builtin_public : list bytes := flat_map line_of (fst (cut builtin_lines)).
Definition builtin_private : list bytes := flat_map line_of (snd (cut builtin_lines)).
Definition builtin_rules (private : bool) : list bytes :=
  if private then builtin_public ++ builtin_private else builtin_public.

(** Lines without surrounding white space, quickly. *)
Definition inner_b (b : N) : bool := (b <? 128) && negb (is_space b).
Definition trimmed_b (l : bytes) : bool :=
  match l with
  | [] => true
  | b :: _ => if inner_b b && inner_b (last l 0) then true else bytes_eqb (trim_space l) l
  end.
Lemma trimmed_b_ok : forall l, trimmed_b l = true -> trim_space l = l.
Proof.
  intros [|b l] H; [reflexivity|]. unfold trimmed_b in H. destruct (inner_b b && inner_b (last (b :: l) 0)) eqn:I; [|apply bytes_eqb_eq; exact H].
  clear H. apply andb_true_iff in I as [Hf Hl]. unfold inner_b in Hf, Hl. apply andb_true_iff in Hf as [Hf1 Hf2]. apply andb_true_iff in Hl as [Hl1 Hl2].
  apply negb_true_iff in Hf2. apply negb_true_iff in Hl2.
  assert (L : trim_left_space (length (b :: l)) (b :: l) = b :: l).
  { cbn [length trim_left_space]. replace (decode_rune (b :: l)) with (b, 1%nat) by (unfold decode_rune; rewrite Hf1; reflexivity).
    rewrite Hf2. reflexivity. }
  unfold trim_space. rewrite L. cbv zeta. cbn [length trim_right_space]. unfold decode_last. cbn [length].
  assert (X : nth (length l) (b :: l) 0 = last (b :: l) 0) by (symmetry; rewrite last_nth; cbn [length]; f_equal; lia).
  rewrite X, Hl1, Hl2. reflexivity.
Qed.

Definition line_ok (l : bytes) : bool :=
  trimmed_b l && forallb (fun b => negb (b =? 10)) l
  && (if ignored_b l then true else if ascii_b l then true
      else match assoc unicode_rules l with Some a => negb (bytes_eqb a l) | None => false end).
Lemma lines_ok : forallb line_ok builtin_lines && existsb marker_b builtin_lines = true.
Proof. vm_compute. reflexivity. Qed.

Lemma assoc_in : forall table l a, assoc table l = Some a -> In (l, a) table.
Proof.
  induction table as [|(u, v) table IH]; intros l a H; cbn [assoc] in H; [discriminate|].
  destruct (bytes_eqb u l) eqn:E; [|right; auto]. apply bytes_eqb_eq in E. injection H as <-. subst u. left. reflexivity.
Qed.

Lemma line_rules_of : forall to_ascii l, idna_on_builtin to_ascii -> In l builtin_lines ->
  rules_of_line to_ascii l = line_of l /\ opens l = marker_b l /\ ~ In 10 l.
Proof.
  intros to_ascii l (A & U) Hl. pose proof lines_ok as K. apply andb_true_iff in K as [K _]. rewrite forallb_forall in K.
  specialize (K l Hl). unfold line_ok in K. apply andb_true_iff in K as [K K3]. apply andb_true_iff in K as [K1 K2].
  apply trimmed_b_ok in K1. split; [|split].
  - unfold rules_of_line, line_of. rewrite K1. fold (ignored_b l). destruct (ignored_b l); [reflexivity|].
    destruct (ascii_b l) eqn:I.
    + rewrite A; [|exact Hl|]. { rewrite bytes_eqb_refl. reflexivity. }
      unfold ascii_b in I. rewrite forallb_forall in I. rewrite Forall_forall. intros b Hb. apply N.ltb_lt. auto.
    + destruct (assoc unicode_rules l) as [a|] eqn:E; [|discriminate].
      apply assoc_in in E. rewrite Forall_forall in U. specialize (U _ E). cbn [fst snd] in U. rewrite U, K3. reflexivity.
  - unfold opens, marker_b. rewrite K1. reflexivity.
  - intros I. rewrite forallb_forall in K2. specialize (K2 _ I). discriminate.
Qed.

Lemma cut_spec : forall lines, existsb marker_b lines = true -> exists marker,
  lines = fst (cut lines) ++ marker :: snd (cut lines) /\ marker_b marker = true
  /\ forallb (fun l => negb (marker_b l)) (fst (cut lines)) = true.
Proof.
  induction lines as [|l rest IH]; intros H; cbn [existsb] in H; [discriminate|]. cbn [cut]. destruct (marker_b l) eqn:M.
  - exists l. cbn [fst snd app forallb]. auto.
  - cbn [orb] in H. destruct (IH H) as (marker & E & Hm & Hn). destruct (cut rest) as [a b]. cbn [fst snd] in *.
    exists marker. cbn [app forallb]. rewrite M, Hn. rewrite <- E. auto.
Qed.

Lemma flat_map_ext_in' : forall (f g : bytes -> list bytes) l, (forall x, In x l -> f x = g x) -> flat_map f l = flat_map g l.
Proof.
  intros f g l H. induction l as [|x l IH]; [reflexivity|]. cbn [flat_map]. rewrite H by (left; reflexivity).
  rewrite IH; [reflexivity|]. intros y Hy. apply H. right. exact Hy.
Qed.

Lemma text_joined : forall lines, text_of lines = joined lines.
Proof.
  induction lines as [|l rest IH]; [reflexivity|]. destruct rest as [|l' rest]; [reflexivity|].
  change (text_of (l :: l' :: rest)) with (l ++ 10 :: text_of (l' :: rest)). rewrite IH. reflexivity.
Qed.

Lemma builtin_parse : forall to_ascii, idna_on_builtin to_ascii ->
  parse_list to_ascii hardcoded_psl = mkSuffixes builtin_public builtin_private (builtin_public ++ builtin_private).
Proof.
  intros to_ascii H. pose proof lines_ok as K. apply andb_true_iff in K as [_ K].
  destruct (cut_spec _ K) as (marker & E & M & N).
  pose proof (fun l => line_rules_of to_ascii l H) as L.
  unfold builtin_public, builtin_private, hardcoded_psl. revert K E N M L. generalize (cut builtin_lines).
  generalize builtin_lines. intros lines [before after]. cbn [fst snd]. intros K E N M L.
  assert (Sp : split_byte (text_of lines) 10 = lines).
  { rewrite text_joined. apply split_joined.
    - intros X. rewrite X in K. discriminate.
    - apply Forall_forall. intros l Hl. apply L. exact Hl. }
  unfold parse_list. rewrite Sp, E.
  rewrite process_sections.
  - rewrite (flat_map_ext_in' _ line_of before), (flat_map_ext_in' _ line_of after); [reflexivity|..];
      intros l Hl; apply L; rewrite E; apply in_or_app; [right; right; exact Hl|left; exact Hl].
  - rewrite forallb_forall in *. intros l Hl. destruct (L l) as (_ & -> & _); [rewrite E; apply in_or_app; left; exact Hl|]. auto.
  - destruct (L marker) as (_ & -> & _); [rewrite E; apply in_or_app; right; left; reflexivity|]. exact M.
Qed.

Lemma builtin_used : forall to_ascii private rules, idna_on_builtin to_ascii -> used_rules to_ascii hardcoded_psl private rules ->
  rules = builtin_rules private.
Proof.
  intros to_ascii private rules H U. apply used_rules_iff in U. pose proof (builtin_parse to_ascii H) as P.
  revert P. unfold builtin_rules. generalize builtin_public builtin_private. intros a b P. rewrite P in U. symmetry. exact U.
Qed.

(** ** Where they are not regular *)

Definition survey_ok (private : bool) : bool :=
  let s := surveyed (builtin_rules private) in
  same_set (v_gaps s) (map rule_path (builtin_gaps private)) && same_set (v_hidden s) (map rule_path (builtin_hidden private))
  && v_exceptions s && v_top s.
Lemma survey_all : forall private, survey_ok private = true.
Proof. intros [|]; vm_compute; reflexivity. Qed.

Lemma builtin_surveyed : forall private,
  (forall p, gap (builtin_rules private) p <-> In p (map rule_path (builtin_gaps private)))
  /\ (forall p, hidden (builtin_rules private) p <-> In p (map rule_path (builtin_hidden private)))
  /\ exceptions_ok (builtin_rules private) /\ known (builtin_rules private) [str "*"] = false.
Proof.
  intros private. pose proof (survey_all private) as S. unfold survey_ok in S. cbv zeta in S.
  apply andb_true_iff in S as [S S4]. apply andb_true_iff in S as [S S3]. apply andb_true_iff in S as [S1 S2].
  split; [|split; [|split]].
  - intros p. rewrite <- surveyed_gaps. apply same_set_iff. exact S1.
  - intros p. rewrite <- surveyed_hidden. apply same_set_iff. exact S2.
  - apply surveyed_exceptions. exact S3.
  - apply surveyed_top. exact S4.
Qed.

(** ** The property *)

Lemma labels_text_snoc : forall a l0 s0 l s, labels_text (a ++ [(l0, s0); (l, s)]) = l ++ s0 ++ labels_text (a ++ [(l0, s0)]).
Proof.
  intros a l0 s0 l s. change [(l0, s0); (l, s)] with ([(l0, s0)] ++ [(l, s)]). rewrite app_assoc, !labels_text_host.
  rewrite (host_mid a l0 s0 [] l). reflexivity.
Qed.

Lemma labels_text_more : forall first zs segs h n m, labelled h first zs segs -> (n < m <= length segs)%nat ->
  (length (labels_text (firstn n segs)) < length (labels_text (firstn m segs)))%nat.
Proof.
  intros first zs segs h n m L. assert (X : forall k, (k < length segs)%nat ->
    (length (labels_text (firstn k segs)) < length (labels_text (firstn (S k) segs)))%nat).
  { intros k Hk. destruct L as (_ & W & _ & N). apply well_split_app in W as [_ W]. destruct k as [|k].
    - destruct segs as [|[l s] segs]; [cbn [length] in Hk; lia|]. cbn [firstn labels_text length fst] in *.
      destruct l; [contradiction|cbn [length]; lia].
    - assert (E : forall k, (k < length segs)%nat -> firstn (S k) segs = firstn k segs ++ [nth k segs ([], [])]).
      { clear. induction segs as [|g segs IH]; intros k Hk; [cbn [length] in Hk; lia|]. destruct k as [|k]; [reflexivity|].
        cbn [firstn app nth]. f_equal. apply IH. cbn [length] in Hk. lia. }
      rewrite (E (S k)) by exact Hk. rewrite (E k) by lia.
      destruct (nth k segs ([], [])) as [l0 s0] eqn:E0. destruct (nth (S k) segs ([], [])) as [l s]. rewrite <- app_assoc.
      cbn [app]. rewrite labels_text_snoc, !app_length.
      assert (I : In (l0, s0) segs) by (rewrite <- E0; apply nth_In; lia).
      rewrite Forall_forall in W. destruct (W _ I) as [_ Hs]. cbn [snd] in Hs. apply sep_text_nonempty in Hs.
      destruct s0 as [|c s0]; [contradiction|]. cbn [length].
      assert (Y : forall x y z, (x < y + (S z + x))%nat) by (intros; lia). apply Y. }
  intros [H1 H2]. induction m as [|m IH]; [lia|]. destruct (Nat.eq_dec n m) as [->|D]; [apply X; lia|].
  eapply Nat.lt_trans; [apply IH; lia|]. apply X. lia.
Qed.

Lemma c53_gaps : forall to_ascii private rules path, idna_on_builtin to_ascii -> used_rules to_ascii hardcoded_psl private rules ->
  (gap rules path <-> In path (map rule_path (builtin_gaps private)))
  /\ (hidden rules path <-> In path (map rule_path (builtin_hidden private)))
  /\ exceptions_ok rules /\ known rules [str "*"] = false.
Proof.
  intros to_ascii private rules path H U. rewrite (builtin_used _ _ _ H U).
  destruct (builtin_surveyed private) as (A & B & C & D). split; [apply A|]. split; [apply B|]. auto.
Qed.

(** Gaps of one label, and the last labels of hidden names. *)
Lemma short_gaps : forall private l, In [l] (map rule_path (builtin_gaps private)) -> l = str "za".
Proof.
  intros private l H. assert (X : forallb (fun g => negb (Nat.eqb (length g) 1) || same (hd [] g) (str "za"))
    (map rule_path (builtin_gaps private)) = true) by (destruct private; vm_compute; reflexivity).
  rewrite forallb_forall in X. specialize (X _ H). cbn [length Nat.eqb negb orb hd] in X. apply same_eq. exact X.
Qed.
Definition plain_b (l : bytes) : bool :=
  forallb (fun b => negb (b =? 37) && negb (b =? 43)) l && negb (same l (str "*")) && negb (is_exc l).
Lemma plain_b_ok : forall l, plain_b l = true -> plain_label l.
Proof.
  intros l H. unfold plain_b in H. apply andb_true_iff in H as [H H3]. apply andb_true_iff in H as [H1 H2].
  rewrite forallb_forall in H1. apply negb_true_iff in H2. apply negb_true_iff in H3. split; [|split; [|split]].
  - intros I. specialize (H1 _ I). discriminate.
  - intros I. specialize (H1 _ I). discriminate.
  - intros ->. discriminate.
  - intros k ->. discriminate.
Qed.
Lemma hidden_plain : forall private path k, In (path ++ [k]) (map rule_path (builtin_hidden private)) -> plain_label k.
Proof.
  intros private path k H. apply plain_b_ok.
  assert (X : forallb (fun g => plain_b (last g [])) (map rule_path (builtin_hidden private)) = true) by (destruct private; vm_compute; reflexivity).
  rewrite forallb_forall in X. specialize (X _ H). cbv beta in X. rewrite last_last in X. exact X.
Qed.

Lemma c53 : forall to_ascii ext private rules t p r scheme user raw h port path first zs segs,
  idna_on_builtin to_ascii -> used_rules to_ascii hardcoded_psl private rules -> build_trie rules = Ret t ->
  extract ext t p = Ret (r, None) -> r_host_type r = HHostName ->
  url_parts ext p scheme user raw h port path -> labelled h first zs segs -> Forall plain_label (labels first segs) ->
  nth 0 (labels first segs) [] <> str "za" ->
  (forall name rest, In name (builtin_hidden private) -> labels first segs <> rule_path name ++ rest) ->
  ((exists n, psl_suffix rules (labels first segs) n /\ r_suffix r = labels_text (firstn n segs)
       /\ r_domain r = nth n (labels first segs) [])
   <-> ~ stops_in_gap rules (labels first segs)).
Proof.
  intros to_ascii ext private rules t p r sc us raw h po pa first zs segs Id Us B H T U L P Z Hn.
  pose proof (fun q => c53_gaps _ _ _ q Id Us) as G. destruct (G []) as (_ & _ & Ex & Top).
  assert (Gt : forall l more, labels first segs = l :: more -> ~ gap rules [l]).
  { intros l more E Hg. apply G in Hg. apply short_gaps in Hg. apply Z. rewrite E. exact Hg. }
  assert (Hh : forall q k, hidden rules (q ++ [k]) -> plain_label k /\ forall rest, labels first segs <> q ++ k :: rest).
  { intros q k Hq. apply G in Hq. split; [eapply hidden_plain; exact Hq|]. intros rest E.
    apply in_map_iff in Hq as (name & En & In_). apply (Hn name rest In_). rewrite En, E, <- app_assoc. reflexivity. }
  split.
  - intros (n & Pn & E & _) (q & l & more & El & Hg & Hk).
    destruct (extract_gap _ _ _ _ _ _ _ _ _ _ _ _ _ _ q l more B H T U L P El Hg Hk Top Ex Gt) as (S1 & _ & S3).
    { intros q0 k0 H0. apply (Hh q0 k0 H0). }
    specialize (S3 n Pn). rewrite E in S1. apply (f_equal (@length N)) in S1.
    assert (length q <= length segs)%nat.
    { apply (f_equal (@length bytes)) in El. rewrite labels_length, app_length in El. cbn [length] in El. lia. }
    pose proof (labels_text_more first zs segs h n (length q) L) as X. lia.
  - intros Hs. destruct (c22 _ _ _ _ _ _ _ _ _ _ _ _ _ _ B H T U L P) as (n & Pn & _ & E & D).
    + apply regular_unless; assumption.
    + exists n. auto.
Qed.

Lemma c53_at_gap : forall to_ascii ext private rules t p r scheme user raw h port path first zs segs name l more,
  idna_on_builtin to_ascii -> used_rules to_ascii hardcoded_psl private rules -> build_trie rules = Ret t ->
  extract ext t p = Ret (r, None) -> r_host_type r = HHostName ->
  url_parts ext p scheme user raw h port path -> labelled h first zs segs -> Forall plain_label (labels first segs) ->
  nth 0 (labels first segs) [] <> str "za" ->
  (forall name rest, In name (builtin_hidden private) -> labels first segs <> rule_path name ++ rest) ->
  In name (builtin_gaps private) -> labels first segs = rule_path name ++ l :: more -> known rules (rule_path name ++ [l]) = false ->
  r_suffix r = labels_text (firstn (length (rule_path name)) segs) /\ r_domain r = l
  /\ forall n, psl_suffix rules (labels first segs) n -> (n < length (rule_path name))%nat.
Proof.
  intros to_ascii ext private rules t p r sc us raw h po pa first zs segs name l more Id Us B H T U L P Z Hn Hg El Kl.
  pose proof (fun q => c53_gaps _ _ _ q Id Us) as G. destruct (G []) as (_ & _ & Ex & Top).
  destruct (extract_gap _ _ _ _ _ _ _ _ _ _ _ _ _ _ (rule_path name) l more B H T U L P El) as (S1 & S2 & S3); auto.
  - apply G. apply in_map. exact Hg.
  - intros l0 more0 E Hl. apply G in Hl. apply short_gaps in Hl. apply Z. rewrite E. exact Hl.
  - intros q k Hq rest E. apply G in Hq. apply in_map_iff in Hq as (name' & En & In_). apply (Hn name' rest In_).
    rewrite En, E, <- app_assoc. reflexivity.
  - split; [exact S1|]. split; [|exact S3]. rewrite S2, El. apply nth_middle.
Qed.

(** ** Hosts under "za", the only TLD of a rule that is not a rule itself *)

Definition za : bytes := str "za".
Lemma za_rules : forall private rule, In rule (builtin_rules private) -> hd [] (rule_path rule) = za ->
  exists x, rule_path rule = [za; x] /\ plain_label x.
Proof.
  intros private rule Hr Hd.
  assert (X : forallb (fun rule => match rule_path rule with
      | [k; x] => negb (same k za) || plain_b x
      | k :: _ => negb (same k za)
      | [] => true end) (builtin_rules private) = true) by (destruct private; vm_compute; reflexivity).
  rewrite forallb_forall in X. specialize (X rule Hr). cbv beta in X. destruct (rule_path rule) as [|k [|x [|y rest]]]; cbn [hd] in Hd.
  - discriminate Hd.
  - subst k. discriminate X.
  - subst k. exists x. split; [reflexivity|]. apply plain_b_ok. exact X.
  - subst k. discriminate X.
Qed.

Lemma c53_za : forall to_ascii ext private rules t p r scheme user raw h port path first zs segs,
  idna_on_builtin to_ascii -> used_rules to_ascii hardcoded_psl private rules -> build_trie rules = Ret t ->
  extract ext t p = Ret (r, None) -> r_host_type r = HHostName ->
  url_parts ext p scheme user raw h port path -> labelled h first zs segs -> Forall plain_label (labels first segs) ->
  nth 0 (labels first segs) [] = za ->
  (psl_suffix rules (labels first segs) 2 /\ r_suffix r = nth 1 (labels first segs) []
     /\ r_domain r = nth 2 (labels first segs) [])
  \/ (psl_suffix rules (labels first segs) 0 /\ r_suffix r = [] /\ r_domain r = za).
Proof.
  intros to_ascii ext private rules t p r sc us raw h po pa first zs segs Id Us B H T U L P Z.
  destruct (c53_gaps _ _ _ [za] Id Us) as (G & _ & Ex & Top).
  assert (Gz : gap rules [za]).
  { apply G. apply in_map_iff. exists za. split; [reflexivity|].
    assert (X : existsb (same za) (builtin_gaps private) = true) by (destruct private; vm_compute; reflexivity).
    apply existsb_exists in X as (x & Hx & E). apply same_eq in E. subst x. exact Hx. }
  destruct Gz as (_ & Kz & Rz & Wz).
  assert (Zr : forall rule, In rule rules -> hd [] (rule_path rule) = za -> exists x, rule_path rule = [za; x] /\ plain_label x).
  { intros rule Hr. rewrite (builtin_used _ _ _ Id Us) in Hr. apply (za_rules private rule Hr). }
  assert (Kq : forall k q, known rules (za :: k :: q) = true -> q = [] /\ is_rule rules [za; k] = true).
  { intros k q K. apply known_iff in K as (rule & b & Hr & E). destruct (Zr rule Hr) as (x & Ex' & _); [rewrite E; reflexivity|].
    rewrite Ex' in E. injection E as <- E. destruct q as [|y q]; [|discriminate]. split; [reflexivity|].
    apply is_rule_iff. eauto. }
  destruct (labels first segs) as [|l0 more] eqn:El; [discriminate Z|]. cbn [nth] in Z. subst l0.
  assert (NoEx : forall rule, In rule rules -> ~ exception_matches (rule_path rule) (za :: more)).
  { intros rule Hr (above & k & top & rest & E & Et & F). destruct above as [|a above].
    - inversion F; subst. cbn [app] in E, Et. injection Et as <- _.
      assert (K : known rules ([] ++ [str "!" ++ za]) = true) by (apply (known_rule _ rule _ []); [exact Hr|exact E]).
      apply (Ex [] za) in K. cbn [app] in K. congruence.
    - inversion F as [|a' l' p' t' M F']; subst. cbn [app] in E, Et. injection Et as <- Et. destruct M as [->| ->].
      + assert (K : known rules [str "*"] = true) by (apply (known_rule _ rule _ (above ++ [str "!" ++ k])); [exact Hr|exact E]). congruence.
      + destruct (Zr rule Hr) as (x & E' & Px); [rewrite E; reflexivity|]. rewrite E' in E. injection E as E.
        destruct above as [|a above]; [|destruct above; discriminate]. cbn [app] in E. injection E as ->.
        destruct Px as (_ & _ & _ & Px). exact (Px k eq_refl). }
  assert (Mt : forall rule, In rule rules -> rule_matches (rule_path rule) (za :: more) ->
            exists l rest, more = l :: rest /\ rule_path rule = [za; l] /\ ~ is_exception (rule_path rule)).
  { intros rule Hr (top & rest & Et & F). destruct (rule_path rule) as [|a q] eqn:E; [apply rule_path_nonempty in E; contradiction|].
    inversion F as [|a' l' p' t' M F']; subst. cbn [app] in Et. injection Et as <- Et. destruct M as [->| ->].
    - assert (K : known rules [str "*"] = true) by (apply (known_rule _ rule _ q); [exact Hr|exact E]). congruence.
    - destruct (Zr rule Hr) as (x & E' & Px); [rewrite E; reflexivity|]. rewrite E in E'. injection E' as ->.
      inversion F' as [|x' l p' t'' M F'']; subst. inversion F''; subst. cbn [app].
      destruct Px as (_ & _ & Px & Px'). destruct M as [M|M]; [contradiction|]. subst x. exists l, rest.
      split; [reflexivity|]. split; [reflexivity|]. intros (above & k & X). destruct above as [|b [|b' above]]; try discriminate.
      + cbn [app] in X. injection X as _ X. exact (Px' k X).
      + destruct above; discriminate. }
  destruct (c21_at _ _ _ _ _ _ _ _ _ _ _ _ _ _ B H T U L) as (sub & Rep & _). unfold reported in Rep. rewrite El in Rep.
  assert (Pz : decoded za = za) by reflexivity.
  cbn [walk app] in Rep. rewrite Top, Pz, Kz in Rep. unfold is_suffix in Rep at 1. rewrite Rz in Rep. cbn [app] in Wz. rewrite Wz in Rep.
  cbn [orb] in Rep. destruct more as [|l more].
  { cbn [walk] in Rep. right. destruct Rep as (A & C & _). split; [|auto]. right. split; [exact NoEx|]. right. split; [reflexivity|].
    intros rule Hr _ M. destruct (Mt rule Hr M) as (l & rest & X & _). discriminate X. }
  assert (Pl : plain_label l) by (inversion P as [|? ? _ P']; inversion P'; assumption).
  cbn [walk app] in Rep. rewrite Wz, (decoded_plain l) in Rep by apply Pl.
  destruct (known rules [za; l]) eqn:Kl.
  - left. destruct (Kq l [] Kl) as (_ & Rl). unfold is_suffix in Rep at 1. rewrite Rl in Rep. cbn [orb] in Rep.
    assert (Wk : walk rules [za; l] more = (None, 0%nat)).
    { destruct more as [|y more]; [reflexivity|]. cbn [walk app].
      assert (N1 : forall k, known rules [za; l; k] = false).
      { intros k. destruct (known rules [za; l; k]) eqn:K; [|reflexivity]. destruct (Kq l [k] K) as (X & _). discriminate. }
      rewrite !N1. reflexivity. }
    rewrite Wk in Rep. cbn [option_map] in Rep. destruct Rep as (Hn & A & C & _). rewrite A, C.
    split; [|split].
    + right. split; [exact NoEx|]. left. apply is_rule_iff in Rl as (rule & Hr & E). exists rule. split; [exact Hr|].
      assert (M : rule_matches (rule_path rule) (za :: l :: more)).
      { exists [za; l], more. split; [reflexivity|]. rewrite E. constructor; [right; reflexivity|]. constructor; [right; reflexivity|constructor]. }
      destruct (Mt rule Hr M) as (_ & _ & _ & _ & Ne). split; [exact Ne|]. split; [exact M|]. rewrite E. split; [reflexivity|].
      intros rule' Hr' _ M'. destruct (Mt rule' Hr' M') as (l' & _ & _ & -> & _). cbn [length]. lia.
    + destruct segs as [|g0 [|[l1 s1] segs]]; [cbn [length] in Hn; lia|cbn [length] in Hn; lia|].
      destruct g0 as [l0 s0]. unfold labels in El. cbn [map fst app] in El. injection El as _ <- _. reflexivity.
    + reflexivity.
  - right. destruct Rep as (A & C & _). split; [|auto]. right. split; [exact NoEx|]. right. split; [reflexivity|].
    intros rule Hr _ M. destruct (Mt rule Hr M) as (l' & rest & X & E & _). injection X as <- _.
    assert (K : known rules [za; l] = true) by (apply (known_rule _ rule _ []); [exact Hr|exact E]). congruence.
Qed.

(** ** Hosts below a name beside a wildcard *)

Fixpoint drop_prefix (p q : list bytes) : option (list bytes) :=
  match p, q with
  | [], _ => Some q
  | x :: p', y :: q' => if same x y then drop_prefix p' q' else None
  | _ :: _, [] => None
  end.
Lemma drop_prefix_app : forall p q : list bytes, drop_prefix p (p ++ q) = Some q.
Proof. induction p as [|x p IH]; intros q; [reflexivity|]. cbn [app drop_prefix]. rewrite same_refl. apply IH. Qed.

Definition hidden_ok (rules : list bytes) (name : bytes) : bool :=
  let path := rule_path name in
  let above := removelast path in
  let k := last path [] in
  if (length above =? 0)%nat then false else
  if negb (is_suffix rules (firstn 1 above)) then false else
  if existsb (fun i => known rules (firstn i above ++ [str "*"])) (seq 0 (length above)) then false else
  if known rules (above ++ [str "!" ++ k]) then false else
  if known rules (above ++ [str "*"]) then
  if is_rule rules (above ++ [k; str "*"]) then
  forallb (fun rule => match drop_prefix above (rule_path rule) with
    | Some (x :: y :: q) =>
      if same x (str "*") then false else
      if same x k then match q with [] => same y (str "*") || is_exc y | _ => false end else true
    | _ => true
    end) rules else false else false.
Lemma hidden_all : forall private, forallb (hidden_ok (builtin_rules private)) (builtin_hidden private) = true.
Proof. intros [|]; vm_compute; reflexivity. Qed.

Lemma c53_hidden : forall to_ascii ext private rules t p r scheme user raw h port path first zs segs name rest,
  idna_on_builtin to_ascii -> used_rules to_ascii hardcoded_psl private rules -> build_trie rules = Ret t ->
  extract ext t p = Ret (r, None) -> r_host_type r = HHostName ->
  url_parts ext p scheme user raw h port path -> labelled h first zs segs -> Forall plain_label (labels first segs) ->
  In name (builtin_hidden private) -> labels first segs = rule_path name ++ rest -> exists l more, rest = l :: more /\
  r_suffix r = labels_text (firstn (length (rule_path name)) segs) /\ r_domain r = l
  /\ forall n, psl_suffix rules (labels first segs) n <->
       n = if known rules (rule_path name ++ [str "!" ++ l]) then length (rule_path name) else S (length (rule_path name)).
Proof.
  intros to_ascii ext private rules t p r sc us raw h po pa first zs segs name tail Id Us B H T U L P Hn El.
  destruct (c53_gaps _ _ _ [] Id Us) as (_ & _ & Ex & Top).
  pose proof (hidden_all private) as A. rewrite forallb_forall in A. specialize (A name Hn).
  pose proof (builtin_used _ _ _ Id Us) as Ur. revert A Ur. generalize (builtin_rules private). intros R A Ur. subst R.
  unfold hidden_ok in A. cbv zeta in A.
  assert (Pn : rule_path name = removelast (rule_path name) ++ [last (rule_path name) []]).
  { apply app_removelast_last. apply rule_path_nonempty. }
  revert A Pn. generalize (removelast (rule_path name)) (last (rule_path name) []). intros above k A Pn.
  destruct (length above =? 0)%nat eqn:A0; [discriminate|].
  destruct (is_suffix rules (firstn 1 above)) eqn:A1; [|discriminate]. cbn [negb] in A.
  destruct (existsb _ (seq 0 (length above))) eqn:A2; [discriminate|].
  destruct (known rules (above ++ [str "!" ++ k])) eqn:A3; [discriminate|].
  destruct (known rules (above ++ [str "*"])) eqn:A4; [|discriminate].
  destruct (is_rule rules (above ++ [k; str "*"])) eqn:A5; [|discriminate].
  rewrite forallb_forall in A.
  rewrite Pn, <- app_assoc in El. cbn [app] in El.
  assert (W0 : forall q x y, above = q ++ x :: y -> known rules (q ++ [str "*"]) = false).
  { intros q x y E. destruct (known rules (q ++ [str "*"])) eqn:K; [|reflexivity]. exfalso.
    assert (Z : existsb (fun i => known rules (firstn i above ++ [str "*"])) (seq 0 (length above)) = true); [|congruence].
    apply existsb_exists. exists (length q). split.
    - apply in_seq. rewrite E, app_length. cbn [length]. lia.
    - rewrite E, firstn_app, Nat.sub_diag, firstn_all, firstn_O, app_nil_r. exact K. }
  assert (R1 : forall rule q, In rule rules -> rule_path rule = above ++ str "*" :: q -> q = []).
  { intros rule q Hr E. specialize (A rule Hr). cbv beta in A. rewrite E, drop_prefix_app in A.
    destruct q; [reflexivity|]. rewrite same_refl in A. discriminate. }
  assert (R2 : forall rule x q, In rule rules -> rule_path rule = above ++ k :: x :: q ->
      q = [] /\ (x = str "*" \/ exists y, x = str "!" ++ y)).
  { intros rule x q Hr E. specialize (A rule Hr). cbv beta in A. rewrite E, drop_prefix_app in A.
    destruct (same k (str "*")); [discriminate|]. rewrite same_refl in A. destruct q; [|discriminate].
    split; [reflexivity|]. apply orb_true_iff in A as [A|A]; [left; apply same_eq; exact A|right].
    destruct x as [|c x]; [discriminate|]. cbn in A. apply N.eqb_eq in A. subst c. exists x. reflexivity. }
  pose proof P as P'. rewrite El in P'.
  destruct (hidden_walk rules above k tail W0 A4 A3 (proj1 (proj1 (Forall_app _ _ _) P')) [] above eq_refl) as (e & Hw).
  destruct (c21_at _ _ _ _ _ _ _ _ _ _ _ _ _ _ B H T U L) as (sub & Rep & _). unfold reported in Rep. rewrite El, Hw in Rep.
  assert (e = Some 0%nat) as ->.
  { destruct above as [|a above]; [discriminate|]. cbn [app walk] in Hw. rewrite Top in Hw.
    assert (Pa : plain_label a) by (inversion P'; assumption). rewrite decoded_plain in Hw by apply Pa.
    cbn [firstn] in A1. assert (Ka : known rules [a] = true).
    { apply (known_prefix _ _ (above ++ [str "*"])). exact A4. }
    rewrite Ka, A1 in Hw. destruct (walk rules [a] _) as [e' n']. injection Hw as <- _. reflexivity. }
  rewrite Nat.sub_0_r in Rep. cbn [skipn] in Rep. destruct Rep as (S0 & S1 & S2 & _).
  destruct tail as [|l more].
  { exfalso. apply (f_equal (@length bytes)) in El. rewrite labels_length, app_length in El. cbn [length] in El. lia. }
  exists l, more. split; [reflexivity|].
  assert (Lp : length (rule_path name) = S (length above)) by (rewrite Pn, app_length; cbn [length]; lia).
  rewrite Lp. split; [exact S1|]. split.
  - rewrite S2, app_nth2 by lia. replace (S (length above) - length above)%nat with 1%nat by lia. reflexivity.
  - intros n. rewrite El, Pn, <- app_assoc. cbn [app].
    exact (hidden_psl rules above k l more W0 A4 A3 R1 R2 A5 Ex P' n).
Qed.

(** ** What holds without further conditions with the built-in list *)

Lemma builtin_tld : forall to_ascii private rules tld, idna_on_builtin to_ascii -> used_rules to_ascii hardcoded_psl private rules ->
  decoded tld <> za -> tld_is_suffix rules tld.
Proof.
  intros to_ascii private rules tld Id Us N K. apply not_false_is_true. intros S. apply N.
  destruct (c53_gaps _ _ _ [decoded tld] Id Us) as (G & _). apply (short_gaps private). apply G.
  unfold is_suffix in S. apply orb_false_iff in S as [S1 S2]. split; [discriminate|]. auto.
Qed.

Lemma builtin_numeric : forall to_ascii private rules, idna_on_builtin to_ascii -> used_rules to_ascii hardcoded_psl private rules ->
  no_numeric_tld rules.
Proof.
  intros to_ascii private rules Id Us d k (N & D & _).
  destruct (known rules [d; k]) eqn:K; [|reflexivity]. exfalso. apply known_iff in K as (rule & rest & Hr & E).
  rewrite (builtin_used _ _ _ Id Us) in Hr.
  assert (X : forallb (fun rule => match hd [] (rule_path rule) with b :: _ => negb ((48 <=? b) && (b <=? 57)) | [] => true end)
    (builtin_rules private) = true) by (destruct private; vm_compute; reflexivity).
  rewrite forallb_forall in X. specialize (X rule Hr). cbv beta in X. rewrite E in X. cbn [app hd] in X.
  destruct d as [|b d]; [contradiction|]. inversion D as [|? ? Db]; subst. unfold is_digit in Db. lia.
Qed.

Lemma c55_ipv4 : forall to_ascii ext private rules t p r, idna_on_builtin to_ascii ->
  used_rules to_ascii hardcoded_psl private rules -> build_trie rules = Ret t ->
  extract ext t p = Ret (r, None) -> r_host_type r = HIPv4 ->
  ipv4_address (r_domain r) /\ r_registered_domain r = r_domain r /\ r_sub_domain r = [] /\ r_suffix r = []
  /\ exists scheme user raw h port path w, url_parts ext p scheme user raw h port path /\ port_accepted port
       /\ h = r_domain r ++ w /\ seps w
       /\ r_scheme r = scheme /\ r_user_info r = user_of user /\ r_port r = port_of port /\ r_path r = path.
Proof. intros to_ascii ext private rules t p r Id Us B. exact (c14_partial ext rules t p r B (builtin_numeric _ _ _ Id Us)). Qed.

Lemma c55_lossless : forall to_ascii ext private rules t p r, idna_on_builtin to_ascii ->
  used_rules to_ascii hardcoded_psl private rules -> build_trie rules = Ret t ->
  extract ext t p = Ret (r, None) -> p_to_punycode p = false -> p_ignore_sub_domains p = false ->
  (forall tld, host_tld ext p tld -> decoded tld <> za) -> assembled p r.
Proof.
  intros to_ascii ext private rules t p r Id Us B H A C N.
  refine (c06_partial ext rules t p r B H A C (builtin_numeric _ _ _ Id Us) _).
  intros tld Ht. exact (builtin_tld _ _ _ _ Id Us (N tld Ht)).
Qed.

Lemma c55_characters : forall to_ascii ext private rules t p r c, idna_on_builtin to_ascii ->
  used_rules to_ascii hardcoded_psl private rules -> build_trie rules = Ret t ->
  extract ext t p = Ret (r, None) -> r_host_type r = HHostName ->
  (forall tld, host_tld ext p tld -> decoded tld <> za) ->
  In c forbidden -> c <> 888 -> c <> 8299 -> c <> 10868 ->
  ~ has_char c (r_domain r) /\ ~ has_char c (r_sub_domain r).
Proof.
  intros to_ascii ext private rules t p r c Id Us B H T N. apply (c19_tld ext rules t p r c B H T).
  intros tld Ht. exact (builtin_tld _ _ _ _ Id Us (N tld Ht)).
Qed.

Lemma c55_labels : forall to_ascii ext private rules t p r, idna_on_builtin to_ascii ->
  used_rules to_ascii hardcoded_psl private rules -> build_trie rules = Ret t ->
  extract ext t p = Ret (r, None) -> r_host_type r = HHostName ->
  (forall tld, host_tld ext p tld -> decoded tld <> za) ->
  exists scheme user raw h port path, url_parts ext p scheme user raw h port path
    /\ ((forall x y, h <> x ++ [239; 189; 161] ++ y) -> no_empty_label h).
Proof.
  intros to_ascii ext private rules t p r Id Us B H T N. apply (c20_tld ext rules t p r B H T).
  intros tld Ht. exact (builtin_tld _ _ _ _ Id Us (N tld Ht)).
Qed.

Lemma host_tld_unique : forall ext p tld tld', host_tld ext p tld -> host_tld ext p tld' -> tld = tld'.
Proof.
  intros ext p tld tld' (sc & us & raw & h & po & pa & first & zs & segs & U & L & ->)
    (sc' & us' & raw' & h' & po' & pa' & first' & zs' & segs' & U' & L' & ->).
  destruct (parts_unique _ _ _ _ _ _ _ _ _ _ _ _ _ _ U U') as (_ & _ & _ & <- & _ & _).
  destruct (stripped_unique _ _ _ _ _ _ _ L L') as (<- & <- & <-). reflexivity.
Qed.
