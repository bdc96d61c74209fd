(** ExampleBase.v - a concrete suffix list and IDNA library for the examples beside the
    theorems, and tactics that discharge their hypotheses. *)

From Verif Require Import Base BaseFacts Utf8 Chars Str StrFacts Net Trie Extract Host Addr NetFacts Parse ParseFacts
  UrlSpec UrlFacts ExtractFacts Rfc.
Local Open Scope N_scope.

(** An IDNA library that accepts everything and converts nothing. *)
Definition ex_idna : idna := mkIdna (fun _ => None) (fun s => Some s).
(** The trie of a rule list. *)
Definition trie_of (rules : list bytes) : trie :=
  match build_trie rules with Ret t => t | _ => empty_trie end.
Definition ex_rules : list bytes := [str "com"; str "uk"; str "co.uk"; str "*.ck"; str "!www.ck"].
Definition ex_trie : trie := trie_of ex_rules.
Definition ex_params (url : String.string) : url_params := mkParams (str url) false false.

Lemma plain_host_b : forall h,
  forallb (fun b => negb (is_path_char b || is_bracket b || (b =? 58))) h = true -> plain_host h.
Proof.
  intros h H. rewrite forallb_forall in H. apply Forall_forall. intros b Hb. specialize (H b Hb).
  apply negb_true_iff in H. apply orb_false_iff in H as [H C]. apply orb_false_iff in H as [A B].
  split; [rewrite <- path_char_iff; congruence|]. split; [rewrite <- bracket_iff; congruence|].
  apply N.eqb_neq. exact C.
Qed.

Lemma no_path_char_b : forall h, forallb (fun b => negb (is_path_char b)) h = true -> no_path_char h.
Proof.
  intros h H. rewrite forallb_forall in H. apply Forall_forall. intros b Hb. specialize (H b Hb).
  apply negb_true_iff in H. rewrite <- path_char_iff. congruence.
Qed.

Lemma ipv6_b : forall s, is_ipv6 s = Ret true -> ipv6_literal s.
Proof. intros s H. destruct (is_ipv6_spec s) as (b & E & I). apply I. congruence. Qed.
Lemma ipv4_b : forall s, is_ipv4 s = Ret true -> ipv4_text s.
Proof. intros s H. destruct (is_ipv4_spec s) as (b & E & I). apply I. congruence. Qed.

Ltac ex_front := apply front_iff; eexists; split; vm_compute; reflexivity.
Ltac ex_plain := apply plain_host_b; vm_compute; reflexivity.
Ltac ex_after :=
  split; [first [exact I | apply path_char_iff; reflexivity]
         | first [reflexivity | split; [reflexivity|apply no_path_char_b; reflexivity]]].
Ltac ex_port := first [exact I | apply port_ok_iff; vm_compute; reflexivity].
Ltac ex_parts := eexists; split; [ex_front|]; split; [ex_plain|]; split; [ex_after|apply converted_iff; vm_compute; reflexivity].
