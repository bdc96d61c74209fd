(** PropDiverge.v - where Extract departs from the algorithm of publicsuffix.org: C82. *)

From Verif Require Import Base BaseFacts Chars Str Trie Extract Psl Host UrlSpec RuleSpec ListSpec Builtin BuiltinSpec
  TrieFacts RuleProofs DivergeSpec DivergeProofs DivergeBuiltin ExampleBase PropUrl PropRules.
From Coq Require Import Lia.

(** C82: on a list of well-formed rules the components are those of the algorithm exactly for
    the hosts that are in none of the three situations. *)
Theorem C82_exact : forall ext rules t p r scheme user raw h port path first zs segs, well_formed rules -> build_trie rules = Ret t ->
  extract ext t p = Ret (r, None) -> r_host_type r = HHostName -> p_ignore_sub_domains p = false ->
  url_parts ext p scheme user raw h port path -> labelled h first zs segs -> Forall plain_label (labels first segs) ->
  (as_published rules first segs r <-> ~ diverges rules (labels first segs)).
Proof. exact c82. Qed.
(** A check for being well formed, and the built-in list. *)
Theorem C82_well_formed : forall rules, well_formed_b rules = true -> well_formed rules.
Proof. exact well_formed_sound. Qed.
Theorem C82_builtin : forall to_ascii private rules, idna_on_builtin to_ascii -> used_rules to_ascii hardcoded_psl private rules ->
  well_formed rules.
Proof. exact c82_builtin. Qed.

(** One list with hosts in all situations. *)
Definition ex_odd : list bytes := [str "co.za"; str "no"; str "nes.akershus.no"; str "*.ck"; str "!www.ck"; str "a.b.ck"].
Ltac ex_rule := vm_compute; reflexivity.
Example C82_example_right : well_formed_b ex_odd = true
  /\ (exists r, extract ex_idna (trie_of ex_odd) (ex_params "x.y.c.ck") = Ret (r, None) /\ r_host_type r = HHostName
      /\ r_suffix r = str "c.ck" /\ r_domain r = str "y" /\ r_sub_domain r = str "x")
  /\ url_parts ex_idna (ex_params "x.y.c.ck") [] None (str "x.y.c.ck") (str "x.y.c.ck") None []
  /\ labelled (str "x.y.c.ck") (str "x") [] [(str "ck", str "."); (str "c", str "."); (str "y", str ".")]
  /\ Forall plain_label (labels (str "x") [(str "ck", str "."); (str "c", str "."); (str "y", str ".")]).
Proof.
  split; [vm_compute; reflexivity|]. split; [eexists; split; [vm_compute; reflexivity|]; repeat split|].
  split; [ex_parts|]. split; [ex_labelled|]. unfold labels. cbn [map fst app]. ex_plain_labels.
Qed.
Example C82_example_tld : (exists r, extract ex_idna (trie_of ex_odd) (ex_params "x.co.za") = Ret (r, None)
     /\ r_suffix r = str "co" /\ r_domain r = str "x")
  /\ tld_missing ex_odd [str "za"; str "co"; str "x"].
Proof.
  split; [eexists; split; [vm_compute; reflexivity|]; repeat split|]. split.
  - exists (str "za"), [str "co"; str "x"]. split; [reflexivity|]. split; ex_rule.
  - exists [str "za"; str "co"]. split; [ex_rule|]. right. split.
    + intros (a & x & E). apply (f_equal (fun l => last l [])) in E. rewrite last_last in E. discriminate.
    + exists [str "za"; str "co"], [str "x"]. split; [reflexivity|]. repeat (constructor; [right; reflexivity|]). constructor.
Qed.
Example C82_example_dead : (exists r, extract ex_idna (trie_of ex_odd) (ex_params "x.akershus.no") = Ret (r, None)
     /\ r_suffix r = str "akershus.no" /\ r_domain r = str "x")
  /\ dead_end ex_odd [str "no"; str "akershus"; str "x"].
Proof.
  split; [eexists; split; [vm_compute; reflexivity|]; repeat split|]. split.
  - exists (str "no"), [str "akershus"; str "x"]. split; [reflexivity|ex_rule].
  - exists [str "no"; str "akershus"], (str "x"), []. split; [reflexivity|]. split; [|split; [|ex_rule]].
    + intros q x y E. destruct q as [|q1 [|q2 q]].
      * ex_rule.
      * injection E as <- _. ex_rule.
      * apply (f_equal (@length _)) in E. cbn [length app] in E. rewrite app_length in E. cbn [length] in E. lia.
    + split; [discriminate|]. repeat split; ex_rule.
Qed.
Example C82_example_over : (exists r, extract ex_idna (trie_of ex_odd) (ex_params "x.a.b.ck") = Ret (r, None)
     /\ r_suffix r = str "b.ck" /\ r_domain r = str "a")
  /\ passed_over ex_odd [str "ck"; str "b"; str "a"; str "x"].
Proof.
  split; [eexists; split; [vm_compute; reflexivity|]; repeat split|].
  exists [str "ck"], (str "b"), [str "a"; str "x"]. split; [reflexivity|]. split; [|split; [ex_rule|split; [ex_rule|split]]].
  - intros q x y E. destruct q as [|q1 q].
    + ex_rule.
    + apply (f_equal (@length _)) in E. cbn [length app] in E. rewrite app_length in E. cbn [length] in E. lia.
  - exists [str "ck"; str "b"; str "a"]. split; [|vm_compute; lia]. split; [ex_rule|]. right. split.
    + intros (a & x & E). apply (f_equal (fun l => last l [])) in E. rewrite last_last in E. discriminate.
    + exists [str "ck"; str "b"; str "a"], [str "x"]. split; [reflexivity|]. repeat (constructor; [right; reflexivity|]). constructor.
  - intros (path & R & (a & k & top & rest & -> & _) & L). apply is_rule_iff in R as (rule & Hr & E).
    rewrite <- E in L. apply (f_equal (fun l => last l [])) in E. rewrite last_last in E.
    repeat (destruct Hr as [<-|Hr]; [vm_compute in E, L; discriminate|]). destruct Hr.
Qed.

(** An exception, a rule of three labels and no rule at all: as published. *)
Ltac no_match :=
  let top := fresh in let rest := fresh in let E := fresh in let F := fresh in
  intros (top & rest & E & F); vm_compute in F; vm_compute in E;
  repeat match goal with
  | F : Forall2 _ (_ :: _) _ |- _ => inversion F; clear F; subst
  | F : Forall2 _ [] _ |- _ => inversion F; clear F; subst
  | F : _ = _ \/ _ = _ |- _ => destruct F as [F|F]; try discriminate F; subst
  end; try discriminate.
Ltac no_exception :=
  let E := fresh in intros (?above & ?k & E); apply (f_equal (fun l => last l [])) in E; rewrite last_last in E; vm_compute in E; discriminate E.
Ltac no_exception_match :=
  let E := fresh in let E' := fresh in let F := fresh in
  intros (above & k & top & rest & E & E' & F);
  first [ (let L := fresh in pose proof E as L; apply (f_equal (fun l => last l [])) in L; rewrite last_last in L; vm_compute in L; discriminate L) | idtac ].
Definition www : list seg := [(str "ck", str "."); (str "www", str ".")].
Example C82_example_exception : exists r, extract ex_idna (trie_of ex_odd) (ex_params "x.www.ck") = Ret (r, None)
  /\ r_host_type r = HHostName /\ as_published ex_odd (str "x") www r /\ r_suffix r = str "ck" /\ r_domain r = str "www".
Proof.
  eexists. split; [vm_compute; reflexivity|]. split; [reflexivity|]. split; [|split; reflexivity].
  exists 1%nat. split; [|repeat split; vm_compute; lia]. left. exists (str "!www.ck"). split; [cbn [ex_odd In]; tauto|].
  split; [|reflexivity]. exists [str "ck"], (str "www"), [str "ck"], [str "x"].
  split; [reflexivity|]. split; [reflexivity|]. constructor; [right; reflexivity|constructor].
Qed.
Definition nes : list seg := [(str "no", str "."); (str "akershus", str "."); (str "nes", str "."); (str "y", str ".")].
Example C82_example_long : exists r, extract ex_idna (trie_of ex_odd) (ex_params "x.y.nes.akershus.no") = Ret (r, None)
  /\ r_host_type r = HHostName /\ as_published ex_odd (str "x") nes r /\ r_suffix r = str "nes.akershus.no" /\ r_domain r = str "y".
Proof.
  eexists. split; [vm_compute; reflexivity|]. split; [reflexivity|]. split; [|split; reflexivity].
  exists 3%nat. split; [|repeat split; vm_compute; lia]. right. split.
  - intros rule Hr. repeat (destruct Hr as [<-|Hr]; [no_exception_match|]); [|destruct Hr].
    change ([str "ck"; str "!www"] = above ++ [str "!" ++ k]) in H.
    destruct above as [|a [|b above]]; [discriminate H| |apply (f_equal (@length _)) in H; cbn [app length] in H; rewrite app_length in H; cbn [length] in H; lia].
    apply (f_equal (fun l => hd [] l)) in H. cbn [app hd] in H. subst a. inversion H1 as [|x y l l' M N]; subst. destruct M as [M|M]; [discriminate M|]. subst y. discriminate H0.
  - left. exists (str "nes.akershus.no"). split; [cbn [ex_odd In]; tauto|]. split; [no_exception|]. split; [|split; [reflexivity|]].
    + exists [str "no"; str "akershus"; str "nes"], [str "y"; str "x"]. split; [reflexivity|].
      repeat (constructor; [right; reflexivity|]). constructor.
    + intros rule Hr _ _. repeat (destruct Hr as [<-|Hr]; [vm_compute; lia|]). destruct Hr.
Qed.
Definition foo : list seg := [(str "foo", str ".")].
Example C82_example_unknown : exists r, extract ex_idna (trie_of ex_odd) (ex_params "x.foo") = Ret (r, None)
  /\ r_host_type r = HHostName /\ as_published ex_odd (str "x") foo r /\ r_suffix r = [] /\ r_domain r = str "foo".
Proof.
  eexists. split; [vm_compute; reflexivity|]. split; [reflexivity|]. split; [|split; reflexivity].
  exists 0%nat. split; [|repeat split; vm_compute; lia]. right. split.
  - intros rule Hr. repeat (destruct Hr as [<-|Hr]; [no_exception_match|]); [|destruct Hr].
    change ([str "ck"; str "!www"] = above ++ [str "!" ++ k]) in H.
    destruct above as [|a [|b above]]; [discriminate H| |apply (f_equal (@length _)) in H; cbn [app length] in H; rewrite app_length in H; cbn [length] in H; lia].
    apply (f_equal (fun l => hd [] l)) in H. cbn [app hd] in H. subst a. inversion H1 as [|x y l l' M N]; subst. destruct M as [M|M]; [discriminate M|]. subst y. discriminate H0.
  - right. split; [reflexivity|]. intros rule Hr _. repeat (destruct Hr as [<-|Hr]; [no_match|]). destruct Hr.
Qed.

Print Assumptions C82_exact.
Print Assumptions C82_well_formed.
Print Assumptions C82_builtin.
