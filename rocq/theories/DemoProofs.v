(** DemoProofs.v - what examples/demo.go prints. *)

From Verif Require Import Base BaseFacts Str Trie Extract Psl ListSpec World Update Calls UpdateSpec WorldFacts UpdateProofs NewFacts CallFacts
  UrlProofs Print Builtin BuiltinSpec BuiltinProofs PrintSpec PrintProofs Demo DemoSpec.

Section Demo.
Variable E : Type.
Variable step : forall R : Type, sys R -> E -> R -> E -> Prop.
Variable to_ascii : bytes -> option bytes.
Variable hardcoded : bytes.
Variable ext : idna.
Variable quote : bytes -> bytes.

Lemma read_more : forall tr1 tr2 tr3 path text, was_read tr2 path text -> was_read (tr1 ++ tr2 ++ tr3) path text.
Proof. intros tr1 tr2 tr3 path text (e & I1 & H). exists e. split; [|exact H]. apply in_or_app. right. apply in_or_app. left. exact I1. Qed.
Lemma list_more : forall tr1 tr2 tr3 private t, of_list to_ascii hardcoded tr2 private t -> of_list to_ascii hardcoded (tr1 ++ tr2 ++ tr3) private t.
Proof.
  intros tr1 tr2 tr3 private t (text & rules & H & U & B). exists text, rules. split; [|split; assumption]. destruct H as [->|(path & H)]; [left; reflexivity|].
  right. exists path. apply read_more. exact H.
Qed.
Lemma new_list : forall n e m tr e' m' r, runs step (new to_ascii hardcoded n) e m tr e' m' r ->
  exists f, r = Ret (f, None) /\ of_list to_ascii hardcoded tr (lp_private n) (trie_in m' f).
Proof.
  intros n e m tr e' m' r H. apply c34 in H as (f & -> & _ & H). exists f. split; [reflexivity|]. destruct H as [((rules & U & B) & _)|(text & R & rules & U & B)].
  - exists hardcoded, rules. auto.
  - exists text, rules. eauto 6.
Qed.
(** Sections leave everything as it is. *)
Lemma run_section : forall B f name p (k : list piece -> prog B) e m tr e' m' o,
  runs step (pbind (demo_section ext f (str name) p) k) e m tr e' m' o ->
  exists output, section ext (trie_in m f) name p output /\ runs step (k output) e m tr e' m' o.
Proof.
  intros B f name p k e m tr e' m' o H. apply runs_bind in H as (tr1 & e1 & m1 & o1 & H & K). unfold demo_section in H.
  apply runs_bind in H as (tr2 & e2 & m2 & o2 & H & L). apply c43_read_only in H as (-> & -> & -> & ->).
  destruct (c01 ext (trie_in m f) p) as (r & er & X). rewrite X in L. destruct L as (tr3 & -> & L). cbn [ret runs] in L. destruct L as (-> & -> & -> & ->).
  destruct K as (tr4 & -> & K). cbn [app]. eexists. split; [|exact K]. exists r, er. eexists. split; [exact X|]. split; [apply c46|reflexivity].
Qed.
Lemma run_new : forall B private (k : nat -> prog B) e m tr e' m' o, runs step (pbind (demo_new to_ascii hardcoded private) k) e m tr e' m' o ->
  exists tr1 tr2 e1 m1 f, tr = tr1 ++ tr2 /\ of_list to_ascii hardcoded tr1 private (trie_in m1 f) /\ runs step (k f) e1 m1 tr2 e' m' o.
Proof.
  intros B private k e m tr e' m' o H. apply runs_bind in H as (tr1 & e1 & m1 & o1 & H & K). unfold demo_new in H.
  apply runs_bind in H as (tr2 & e2 & m2 & o2 & H & L). apply new_list in H as (f & -> & O). destruct L as (tr3 & -> & L). cbn [ret runs] in L. destruct L as (-> & -> & -> & ->).
  destruct K as (tr4 & -> & K). rewrite app_nil_r. exists tr2, tr4, e2, m2, f. auto.
Qed.

Lemma c105 : forall e m tr e' m' o, runs step (demo to_ascii hardcoded ext quote) e m tr e' m' o ->
  exists t1 t2 t3 t4 o1 o2 o3 o4 o5 o6 o7 o8 o9 o10,
    of_list to_ascii hardcoded tr false t1 /\ of_list to_ascii hardcoded tr false t2
    /\ of_list to_ascii hardcoded tr true t3 /\ of_list to_ascii hardcoded tr false t4
    /\ section ext t1 "Hostname" (demo_url "https://user@a.subdomain.example.a%63.uk:5000/a/b?id=42") o1
    /\ section ext t1 "IPv4 Address" (demo_url "https://127.0.0.1:5000") o2
    /\ section ext t1 "IPv6 Address" (demo_url "https://[aBcD:ef01:2345:6789:aBcD:ef01:2345:6789]:5000") o3
    /\ section ext t1 "Internationalised label separators" (demo_url "https://brb.i。am．going｡to．be。a｡fk") o4
    /\ section ext t2 "Exclude Private Domains" (demo_url "https://google.blogspot.com") o5
    /\ section ext t3 "Include Private Domains" (demo_url "https://google.blogspot.com") o6
    /\ section ext t4 "Ignore Subdomains" (mkParams (str "https://maps.google.com") true false) o7
    /\ section ext t4 "No Punycode" (demo_url "https://hello.世界.com") o8
    /\ section ext t4 "Punycode" (mkParams (str "https://hello.世界.com") false true) o9
    /\ error_section ext t4 (err_message quote) "Parsing errors" (demo_url "https://example!.com") o10
    /\ o = Ret (Some (o1 ++ o2 ++ o3 ++ o4 ++ o5 ++ o6 ++ o7 ++ o8 ++ o9 ++ o10)).
Proof.
  intros e m tr e' m' o H. unfold demo in H. apply runs_bind in H as (tr1 & e1 & m1 & r1 & H1 & H). apply new_list in H1 as (f1 & -> & L1).
  destruct H as (tr2 & -> & H). apply run_section in H as (o1 & S1 & H). apply run_section in H as (o2 & S2 & H). apply run_section in H as (o3 & S3 & H).
  apply run_section in H as (o4 & S4 & H). apply runs_bind in H as (tr3 & e3 & m3 & r3 & H3 & H). destruct (update_returns _ _ _ _ _ _ _ _ _ _ _ H3) as (u & ->).
  destruct H as (tr4 & -> & H). apply run_new in H as (tr5 & tr6 & e5 & m5 & f5 & -> & L5 & H). apply run_section in H as (o5 & S5 & H).
  apply run_new in H as (tr7 & tr8 & e7 & m7 & f7 & -> & L7 & H). apply run_section in H as (o6 & S6 & H).
  apply run_new in H as (tr9 & tr10 & e9 & m9 & f9 & -> & L9 & H). apply run_section in H as (o7 & S7 & H).
  apply run_section in H as (o8 & S8 & H). apply run_section in H as (o9 & S9 & H).
  apply runs_bind in H as (tr11 & e11 & m11 & r11 & H11 & H). apply c43_read_only in H11 as (-> & -> & -> & ->).
  change (mkParams (str "https://example!.com") false false) with (demo_url "https://example!.com") in H.
  destruct (c01 ext (trie_in m9 f9) (demo_url "https://example!.com")) as (r & er & X). rewrite X in H. destruct H as (tr12 & -> & H).
  cbv zeta in H. cbn [ret runs] in H. destruct H as (-> & -> & -> & ->).
  exists (trie_in m1 f1), (trie_in m5 f5), (trie_in m7 f7), (trie_in m9 f9), o1, o2, o3, o4, o5, o6, o7, o8, o9. eexists.
  split; [apply (list_more [] tr1); exact L1|].
  split; [rewrite app_assoc; apply (list_more (tr1 ++ tr3) tr5); exact L5|].
  split; [rewrite (app_assoc tr3), app_assoc; apply (list_more (tr1 ++ tr3 ++ tr5) tr7); exact L7|].
  split; [rewrite (app_assoc tr5), (app_assoc tr3), app_assoc; apply (list_more (tr1 ++ tr3 ++ tr5 ++ tr7) tr9); exact L9|].
  do 9 (split; [eassumption|]). split; [|reflexivity].
  exists r, er. eexists. split; [exact X|]. split; [apply c46|reflexivity].
Qed.
End Demo.

(** ** With the built-in list *)

Lemma shows_plain : forall url r n l1 l2, shows url r n l1 -> shows url r n l2 -> plain l1 = plain l2.
Proof.
  intros url r n l1 l2 (name1 & c1 & N1 & _ & _ & ->) (name2 & c2 & N2 & _ & _ & ->).
  assert (name1 = name2) as ->.
  { unfold host_type_name in *. destruct N1 as [(H1 & ->)|[(H1 & ->)|[(H1 & ->)|(H1 & ->)]]]; destruct N2 as [(H2 & ->)|[(H2 & ->)|[(H2 & ->)|(H2 & ->)]]]; try reflexivity; lia. }
  unfold plain. rewrite !flat_map_app, !map_app. reflexivity.
Qed.
Lemma plain_app : forall l1 l2, plain (l1 ++ l2) = plain l1 ++ plain l2.
Proof. intros l1 l2. unfold plain. rewrite map_app. apply concat_app. Qed.
Definition table_of (p : url_params) (r : result) : bytes := plain (print_res (p_url p) r (host_type_number (r_host_type r))).
Lemma section_plain : forall ext t name p output r e, section ext t name p output -> extract ext t p = Ret (r, e) ->
  plain output = str name ++ [10%N] ++ table_of p r.
Proof.
  intros ext t name p output r e (r' & e' & table & X & S & ->) X'. assert (Q := eq_trans (eq_sym X) X'). injection Q as -> ->. rewrite plain_app.
  rewrite (shows_plain _ _ _ _ _ S (c46 _ _ _)). unfold plain at 1, title. cbn [map concat snd]. rewrite app_nil_r, <- app_assoc. reflexivity.
Qed.
Lemma error_section_plain : forall ext t message name p output r e, error_section ext t message name p output -> extract ext t p = Ret (r, Some e) ->
  plain output = str name ++ [10%N] ++ str "The following line should be an error message" ++ [10%N] ++ str "Error: " ++ message e ++ [10%N] ++ table_of p r.
Proof.
  intros ext t message name p output r e (r' & e' & table & X & S & ->) X'. assert (Q := eq_trans (eq_sym X) X'). injection Q as -> ->. rewrite !plain_app.
  rewrite (shows_plain _ _ _ _ _ S (c46 _ _ _)). unfold plain at 1 2 3, title, error_line. cbn [map concat snd]. rewrite !app_nil_r, <- !app_assoc. reflexivity.
Qed.

(** Extract behind the conversion of the host. *)
Definition behind (t : trie) (p : url_params) (front : (result * option err) + (result * bytes)) : outcome (result * option err) :=
  match front with
  | inl r => Ret r
  | inr (u, host) => extract_host t u host (p_ignore_sub_domains p)
  end.
Lemma extract_behind : forall ext t p front x, extract_front ext p = Ret front -> behind t p front = x -> extract ext t p = x.
Proof. intros ext t p front x F <-. rewrite extract_split, F. destruct front as [r|[u host]]; reflexivity. Qed.
Definition head (scheme user port path : String.string) : result := mkResult (str scheme) (str user) [] [] [] [] (str port) (str path) HNone.

Section BuiltIn.
Variable ext : idna.
Hypothesis I : demo_idna ext.
Lemma plain_convert : forall raw unescaped, query_unescape raw = inr unescaped -> idna_to_unicode_err ext unescaped = None -> convert_host ext false raw = inr raw.
Proof. intros raw unescaped E H. unfold convert_host. rewrite E, H. reflexivity. Qed.
Lemma puny_convert : convert_host ext true (str "hello.世界.com") = inr (str "hello.xn--rhqv96g.com").
Proof using I.
  unfold convert_host. change (query_unescape (str "hello.世界.com")) with (@inr bytes bytes (str "hello.世界.com")). cbv iota. unfold format_as_punycode.
  rewrite (proj2 I). vm_compute. reflexivity.
Qed.
Lemma front1 : extract_front ext (demo_url "https://user@a.subdomain.example.a%63.uk:5000/a/b?id=42") = Ret (inr (head "https://" "user" "5000" "/a/b?id=42", str "a.subdomain.example.a%63.uk")).
Proof using I.
  assert (C : convert_host ext false (str "a.subdomain.example.a%63.uk") = inr (str "a.subdomain.example.a%63.uk")).
  { apply (plain_convert _ (str "a.subdomain.example.ac.uk")); [vm_compute; reflexivity|]. apply (proj1 I). cbn [In]. tauto. }
  revert C. cbv -[convert_host]. intros ->. reflexivity.
Qed.
Lemma front2 : extract_front ext (demo_url "https://127.0.0.1:5000") = Ret (inr (head "https://" "" "5000" "", str "127.0.0.1")).
Proof using I.
  assert (C : convert_host ext false (str "127.0.0.1") = inr (str "127.0.0.1")).
  { apply (plain_convert _ (str "127.0.0.1")); [vm_compute; reflexivity|]. apply (proj1 I). cbn [In]. tauto. }
  revert C. cbv -[convert_host]. intros ->. reflexivity.
Qed.
Lemma front4 : extract_front ext (demo_url "https://brb.i。am．going｡to．be。a｡fk") = Ret (inr (head "https://" "" "" "", str "brb.i。am．going｡to．be。a｡fk")).
Proof using I.
  assert (C : convert_host ext false (str "brb.i。am．going｡to．be。a｡fk") = inr (str "brb.i。am．going｡to．be。a｡fk")).
  { apply (plain_convert _ (str "brb.i。am．going｡to．be。a｡fk")); [vm_compute; reflexivity|]. apply (proj1 I). cbn [In]. tauto. }
  revert C. cbv -[convert_host]. intros ->. reflexivity.
Qed.
Lemma front5 : extract_front ext (demo_url "https://google.blogspot.com") = Ret (inr (head "https://" "" "" "", str "google.blogspot.com")).
Proof using I.
  assert (C : convert_host ext false (str "google.blogspot.com") = inr (str "google.blogspot.com")).
  { apply (plain_convert _ (str "google.blogspot.com")); [vm_compute; reflexivity|]. apply (proj1 I). cbn [In]. tauto. }
  revert C. cbv -[convert_host]. intros ->. reflexivity.
Qed.
Lemma front7 : extract_front ext (mkParams (str "https://maps.google.com") true false) = Ret (inr (head "https://" "" "" "", str "maps.google.com")).
Proof using I.
  assert (C : convert_host ext false (str "maps.google.com") = inr (str "maps.google.com")).
  { apply (plain_convert _ (str "maps.google.com")); [vm_compute; reflexivity|]. apply (proj1 I). cbn [In]. tauto. }
  revert C. cbv -[convert_host]. intros ->. reflexivity.
Qed.
Lemma front8 : extract_front ext (demo_url "https://hello.世界.com") = Ret (inr (head "https://" "" "" "", str "hello.世界.com")).
Proof using I.
  assert (C : convert_host ext false (str "hello.世界.com") = inr (str "hello.世界.com")).
  { apply (plain_convert _ (str "hello.世界.com")); [vm_compute; reflexivity|]. apply (proj1 I). cbn [In]. tauto. }
  revert C. cbv -[convert_host]. intros ->. reflexivity.
Qed.
Lemma front9 : extract_front ext (mkParams (str "https://hello.世界.com") false true) = Ret (inr (head "https://" "" "" "", str "hello.xn--rhqv96g.com")).
Proof using I.
  pose proof puny_convert as C.
  revert C. cbv -[convert_host]. intros ->. reflexivity.
Qed.
Lemma front10 : extract_front ext (demo_url "https://example!.com") = Ret (inr (head "https://" "" "" "", str "example!.com")).
Proof using I.
  assert (C : convert_host ext false (str "example!.com") = inr (str "example!.com")).
  { apply (plain_convert _ (str "example!.com")); [vm_compute; reflexivity|]. apply (proj1 I). cbn [In]. tauto. }
  revert C. cbv -[convert_host]. intros ->. reflexivity.
Qed.
Lemma front3 : extract_front ext (demo_url "https://[aBcD:ef01:2345:6789:aBcD:ef01:2345:6789]:5000")
  = Ret (inl (mkResult (str "https://") [] [] (str "aBcD:ef01:2345:6789:aBcD:ef01:2345:6789") [] (str "aBcD:ef01:2345:6789:aBcD:ef01:2345:6789") (str "5000") [] HIPv6, None)).
Proof. vm_compute. reflexivity. Qed.
End BuiltIn.
