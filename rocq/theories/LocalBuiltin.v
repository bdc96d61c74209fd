(** LocalBuiltin.v - what the private section of a list changes: proofs of C94. *)

From Verif Require Import Base BaseFacts Chars Str StrFacts Trie Extract Psl Host UrlSpec RuleSpec TrieFacts RuleProofs VariantProofs ListSpec ListFacts
  Builtin BuiltinSpec BuiltinProofs DivergeSpec DivergeProofs DivergeBuiltin LocalSpec LocalProofs.
From Coq Require Import ZifyBool ZifyNat ZifyN.

Lemma public_incl : forall to_ascii text public all, used_rules to_ascii text false public -> used_rules to_ascii text true all ->
  incl public all.
Proof.
  intros to_ascii text public all U U'. apply used_rules_iff in U. destruct U' as (pub & pr & L & ->).
  assert (X : used_rules to_ascii text false pub) by (exists pub, pr; auto). apply used_rules_iff in X. cbv iota in *.
  assert (E : public = pub) by congruence. subst. apply incl_appl, incl_refl.
Qed.

Lemma c94_text : forall to_ascii ext text public all t t' p r, used_rules to_ascii text false public -> used_rules to_ascii text true all ->
  build_trie public = Ret t -> build_trie all = Ret t' ->
  (forall rule part labs, In rule all -> ~ In rule public -> new_part public rule part -> host_labels ext p labs -> ~ concerned part labs) ->
  r_host_type r <> HIPv4 \/ no_numeric_tld all ->
  (extract ext t' p = Ret (r, None) <-> extract ext t p = Ret (r, None)).
Proof.
  intros to_ascii ext text public all t t' p r U U' B B' C T. apply (c93_more_rules ext public all); auto. eapply public_incl; eauto.
Qed.

(** Wildcards stand for the leftmost labels of rules. *)
Definition star_first_b (rules : list bytes) : bool :=
  forallb (fun rule => negb (existsb (same (str "*")) (removelast (rule_path rule)))) rules.

Lemma star_first_at : forall rules rule above q, star_first_b rules = true -> In rule rules -> rule_path rule = above ++ str "*" :: q -> q = [].
Proof.
  intros rules rule above q H Hi E. unfold star_first_b in H. rewrite forallb_forall in H. specialize (H rule Hi). cbv beta in H.
  apply negb_true_iff in H. destruct q as [|x q]; [reflexivity|]. exfalso. rewrite <- not_true_iff_false in H. apply H.
  rewrite E. rewrite removelast_app by discriminate. rewrite existsb_app. change (removelast (str "*" :: x :: q)) with (str "*" :: removelast (x :: q)).
  cbn [existsb]. rewrite same_refl. cbn [orb]. apply orb_true_r.
Qed.

Lemma matches_more : forall base labs, rule_matches base labs -> labs = base \/ (exists k, In k base /\ k = str "*") \/ rule_matches (base ++ [str "*"]) labs.
Proof.
  intros base labs (top & rest & -> & F). destruct rest as [|l rest].
  - rewrite app_nil_r. induction F as [|k l base top M F IH]; [auto|]. destruct M as [->| ->].
    + right. left. exists (str "*"). split; [left|]; reflexivity.
    + destruct IH as [->|[(k & Hk & ->)|(top' & rest & E & F')]]; [auto|right; left; exists (str "*"); split; [right; exact Hk|reflexivity]|].
      exfalso. apply Forall2_length in F, F'. rewrite E, !app_length in F. rewrite app_length in F'. cbn [length] in F'. lia.
  - right. right. exists (top ++ [l]), rest. split; [rewrite <- app_assoc; reflexivity|].
    apply Forall2_app; [exact F|]. constructor; [left; reflexivity|constructor].
Qed.

Lemma c94_formed : forall ext rules rules' t t' p r, build_trie rules = Ret t -> build_trie rules' = Ret t' -> incl rules rules' ->
  well_formed_b rules' = true -> star_first_b rules' = true ->
  (forall rule labs, In rule rules' -> ~ In rule rules -> host_labels ext p labs ->
     ~ concerned (rule_path rule) labs /\ forall base, rule_path rule = base ++ [str "*"] -> map decoded labs <> base) ->
  (forall stem labs, gap rules' stem -> known rules stem = false -> host_labels ext p labs -> ~ rule_matches stem (map decoded labs)) ->
  r_host_type r <> HIPv4 \/ no_numeric_tld rules' ->
  (extract ext t' p = Ret (r, None) <-> extract ext t p = Ret (r, None)).
Proof.
  intros ext rules rules' t t' p r B B' I W S A G T. apply (c94_lists ext rules rules'); auto.
  - intros rule labs Hi Hn L. apply (A rule labs Hi Hn L).
  - intros base labs K D L C.
    assert (Kb : known rules' base = true) by (destruct D as [D|D]; [apply D|eapply known_prefix; exact D]).
    apply known_iff in Kb as (rule0 & q0 & Hi0 & E0).
    assert (M : rule_matches base (map decoded labs)).
    { destruct C as [C|[(above & l & top & rest & Eb & _)|(x & Eb & _)]]; [exact C| |]; exfalso.
      - assert (Q : forall rule q, In rule rules' -> rule_path rule = base ++ q -> q = []).
        { intros rule q Hi E. rewrite Eb, <- app_assoc in E. cbn [app] in E.
          destruct (well_formed_at _ _ _ _ _ W Hi E) as (_ & X). destruct (X l eq_refl) as (X1 & _). exact X1. }
        destruct D as [(_ & _ & D & _)|D].
        + pose proof (Q rule0 q0 Hi0 E0) as ->. apply not_true_iff_false in D. apply D. apply is_rule_iff.
          exists rule0. rewrite app_nil_r in E0. auto.
        + apply known_iff in D as (rule & q & Hi & E). rewrite <- app_assoc in E. pose proof (Q _ _ Hi E). discriminate.
      - assert (Q : forall rule q, In rule rules' -> rule_path rule = base ++ q -> q = []).
        { intros rule q Hi E. rewrite Eb in E. change ([x; str "*"] ++ q) with ([x] ++ str "*" :: q) in E.
          exact (star_first_at _ _ _ _ S Hi E). }
        destruct D as [(_ & _ & D & _)|D].
        + pose proof (Q rule0 q0 Hi0 E0) as ->. apply not_true_iff_false in D. apply D. apply is_rule_iff.
          exists rule0. rewrite app_nil_r in E0. auto.
        + apply known_iff in D as (rule & q & Hi & E). rewrite <- app_assoc in E. pose proof (Q _ _ Hi E). discriminate. }
    destruct D as [D|D]; [exact (G base labs D K L M)|].
    apply known_iff in D as (rule & q & Hi & E). rewrite <- app_assoc in E. pose proof (star_first_at _ _ _ _ S Hi E) as ->.
    assert (Hn : ~ In rule rules).
    { intros X. apply not_true_iff_false in K. apply K. apply known_iff. exists rule, [str "*"]. auto. }
    destruct (A rule labs Hi Hn L) as (A1 & A2). destruct (matches_more _ _ M) as [X|[(k & Hk & ->)|X]].
    + exact (A2 base E X).
    + apply in_split in Hk as (a & b & Eb). rewrite Eb, <- app_assoc in E. cbn [app] in E. pose proof (star_first_at _ _ _ _ S Hi E) as X.
      destruct b; discriminate.
    + apply A1. left. rewrite E. exact X.
Qed.

Lemma builtin_star : star_first_b (builtin_rules true) = true.
Proof. vm_compute. reflexivity. Qed.

Lemma c94_builtin : forall to_ascii ext public all t t' p r, idna_on_builtin to_ascii ->
  used_rules to_ascii hardcoded_psl false public -> used_rules to_ascii hardcoded_psl true all ->
  build_trie public = Ret t -> build_trie all = Ret t' ->
  (forall rule labs, In rule all -> ~ In rule public -> host_labels ext p labs ->
     ~ concerned (rule_path rule) labs /\ forall base, rule_path rule = base ++ [str "*"] -> map decoded labs <> base) ->
  (forall stem labs, In stem private_gaps -> host_labels ext p labs -> ~ rule_matches (rule_path stem) (map decoded labs)) ->
  (extract ext t' p = Ret (r, None) <-> extract ext t p = Ret (r, None)).
Proof.
  intros to_ascii ext public all t t' p r Id U U' B B' A G.
  assert (Nn : no_numeric_tld all) by (eapply builtin_numeric; eauto).
  assert (W : well_formed_b all = true).
  { pose proof (builtin_well_formed true) as X. pose proof (builtin_used _ _ _ Id U') as Y. revert X Y. generalize (builtin_rules true).
    intros R X ->. exact X. }
  assert (S : star_first_b all = true).
  { pose proof builtin_star as X. pose proof (builtin_used _ _ _ Id U') as Y. revert X Y. generalize (builtin_rules true).
    intros R X ->. exact X. }
  apply (c94_formed ext public all); auto; [eapply public_incl; eauto|].
  intros stem labs D K L. destruct (c53_gaps _ _ _ stem Id U') as (C & _). apply C in D. unfold builtin_gaps in D.
  rewrite map_app in D. apply in_app_iff in D as [D|D].
  - exfalso. destruct (c53_gaps _ _ _ stem Id U) as (C' & _). assert (X : gap public stem) by (apply C'; exact D).
    destruct X as (_ & X & _). congruence.
  - apply in_map_iff in D as (s & <- & D). apply (G s); auto.
Qed.
