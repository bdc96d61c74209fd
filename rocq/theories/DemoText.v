(** DemoText.v - the output of examples/demo.go with the built-in list. *)

From Verif Require Import Base BaseFacts Str Trie Extract Psl ListSpec World Update Calls UpdateSpec Print Builtin BuiltinSpec BuiltinProofs PrintSpec
  Demo DemoSpec DemoProofs.

Definition fronts : list (url_params * (result * bytes)) :=
  [(demo_url "https://user@a.subdomain.example.a%63.uk:5000/a/b?id=42", (head "https://" "user" "5000" "/a/b?id=42", str "a.subdomain.example.a%63.uk"));
   (demo_url "https://127.0.0.1:5000", (head "https://" "" "5000" "", str "127.0.0.1"));
   (demo_url "https://brb.i。am．going｡to．be。a｡fk", (head "https://" "" "" "", str "brb.i。am．going｡to．be。a｡fk"));
   (demo_url "https://google.blogspot.com", (head "https://" "" "" "", str "google.blogspot.com"));
   (mkParams (str "https://maps.google.com") true false, (head "https://" "" "" "", str "maps.google.com"));
   (demo_url "https://hello.世界.com", (head "https://" "" "" "", str "hello.世界.com"));
   (mkParams (str "https://hello.世界.com") false true, (head "https://" "" "" "", str "hello.xn--rhqv96g.com"));
   (demo_url "https://example!.com", (head "https://" "" "" "", str "example!.com"))].
Definition behind_all (t : trie) : list (outcome (result * option err)) := map (fun x => behind t (fst x) (inr (snd x))) fronts.

Definition res1 := mkResult (str "https://") (str "user") (str "a.subdomain") (str "example") (str "a%63.uk") (str "example.a%63.uk") (str "5000") (str "/a/b?id=42") HHostName.
Definition res2 := mkResult (str "https://") [] [] (str "127.0.0.1") [] (str "127.0.0.1") (str "5000") [] HIPv4.
Definition res3 := mkResult (str "https://") [] [] (str "aBcD:ef01:2345:6789:aBcD:ef01:2345:6789") [] (str "aBcD:ef01:2345:6789:aBcD:ef01:2345:6789") (str "5000") [] HIPv6.
Definition res4 := mkResult (str "https://") [] (str "brb.i。am．going｡to") (str "be") (str "a｡fk") (str "be。a｡fk") [] [] HHostName.
Definition res5 := mkResult (str "https://") [] (str "google") (str "blogspot") (str "com") (str "blogspot.com") [] [] HHostName.
Definition res6 := mkResult (str "https://") [] [] (str "google") (str "blogspot.com") (str "google.blogspot.com") [] [] HHostName.
Definition res7 := mkResult (str "https://") [] [] (str "google") (str "com") (str "google.com") [] [] HHostName.
Definition res8 := mkResult (str "https://") [] (str "hello") (str "世界") (str "com") (str "世界.com") [] [] HHostName.
Definition res9 := mkResult (str "https://") [] (str "hello") (str "xn--rhqv96g") (str "com") (str "xn--rhqv96g.com") [] [] HHostName.
Definition res10 := mkResult (str "https://") [] [] [] [] [] [] [] HNone.

Lemma public_behind : forall t, build_trie (builtin_rules false) = Ret t ->
  behind_all t = [Ret (res1, None); Ret (res2, None); Ret (res4, None); Ret (res5, None); Ret (res7, None); Ret (res8, None); Ret (res9, None); Ret (res10, Some ErrInvalidChars)].
Proof.
  assert (H : match build_trie (builtin_rules false) with Ret t => behind_all t | _ => [] end
    = [Ret (res1, None); Ret (res2, None); Ret (res4, None); Ret (res5, None); Ret (res7, None); Ret (res8, None); Ret (res9, None); Ret (res10, Some ErrInvalidChars)])
    by (vm_compute; reflexivity).
  intros t B. rewrite B in H. exact H.
Qed.
Lemma private_behind : forall t, build_trie (builtin_rules true) = Ret t ->
  behind t (demo_url "https://google.blogspot.com") (inr (head "https://" "" "" "", str "google.blogspot.com")) = Ret (res6, None).
Proof.
  assert (H : match build_trie (builtin_rules true) with
              | Ret t => behind t (demo_url "https://google.blogspot.com") (inr (head "https://" "" "" "", str "google.blogspot.com"))
              | _ => Panic end = Ret (res6, None)) by (vm_compute; reflexivity).
  intros t B. rewrite B in H. exact H.
Qed.
Lemma list_builtin : forall to_ascii tr private t, idna_on_builtin to_ascii -> (forall path text, ~ was_read tr path text) ->
  of_list to_ascii hardcoded_psl tr private t -> build_trie (builtin_rules private) = Ret t.
Proof.
  intros to_ascii tr private t Id N (text & rules & H & U & B). destruct H as [->|(path & H)]; [|destruct (N _ _ H)].
  apply builtin_used in U; [|exact Id]. rewrite <- U. exact B.
Qed.

Lemma eight : forall A (a1 a2 a3 a4 a5 a6 a7 a8 b1 b2 b3 b4 b5 b6 b7 b8 : A), [a1; a2; a3; a4; a5; a6; a7; a8] = [b1; b2; b3; b4; b5; b6; b7; b8] ->
  a1 = b1 /\ a2 = b2 /\ a3 = b3 /\ a4 = b4 /\ a5 = b5 /\ a6 = b6 /\ a7 = b7 /\ a8 = b8.
Proof. intros A a1 a2 a3 a4 a5 a6 a7 a8 b1 b2 b3 b4 b5 b6 b7 b8 H. injection H. repeat split; assumption. Qed.

Lemma c105_text : forall E (step : forall R : Type, sys R -> E -> R -> E -> Prop) to_ascii ext quote e m tr e' m' o,
  idna_on_builtin to_ascii -> demo_idna ext ->
  runs step (demo to_ascii hardcoded_psl ext quote) e m tr e' m' o -> (forall path text, ~ was_read tr path text) ->
  exists output, o = Ret (Some output) /\ plain output = demo_text.
Proof.
  intros E step to_ascii ext quote e m tr e' m' o Id Ie H N.
  apply c105 in H as (t1 & t2 & t3 & t4 & o1 & o2 & o3 & o4 & o5 & o6 & o7 & o8 & o9 & o10 & L1 & L2 & L3 & L4 & S1 & S2 & S3 & S4 & S5 & S6 & S7 & S8 & S9 & S10 & ->).
  apply (list_builtin _ _ _ _ Id N) in L1, L2, L3, L4. apply public_behind in L1, L2, L4. apply private_behind in L3.
  unfold behind_all, fronts in L1, L2, L4. cbn [map fst snd] in L1, L2, L4.
  apply eight in L1 as (A1 & A2 & A4 & _). apply eight in L2 as (_ & _ & _ & A5 & _). apply eight in L4 as (_ & _ & _ & _ & A7 & A8 & A9 & A10).
  apply (section_plain _ _ _ _ _ _ _) with (2 := extract_behind _ _ _ _ _ (front1 ext Ie) A1) in S1.
  apply (section_plain _ _ _ _ _ _ _) with (2 := extract_behind _ _ _ _ _ (front2 ext Ie) A2) in S2.
  apply (section_plain _ _ _ _ _ _ _) with (2 := extract_behind _ _ _ _ (Ret (res3, None)) (front3 ext) eq_refl) in S3.
  apply (section_plain _ _ _ _ _ _ _) with (2 := extract_behind _ _ _ _ _ (front4 ext Ie) A4) in S4.
  apply (section_plain _ _ _ _ _ _ _) with (2 := extract_behind _ _ _ _ _ (front5 ext Ie) A5) in S5.
  apply (section_plain _ _ _ _ _ _ _) with (2 := extract_behind _ _ _ _ _ (front5 ext Ie) L3) in S6.
  apply (section_plain _ _ _ _ _ _ _) with (2 := extract_behind _ _ _ _ _ (front7 ext Ie) A7) in S7.
  apply (section_plain _ _ _ _ _ _ _) with (2 := extract_behind _ _ _ _ _ (front8 ext Ie) A8) in S8.
  apply (section_plain _ _ _ _ _ _ _) with (2 := extract_behind _ _ _ _ _ (front9 ext Ie) A9) in S9.
  apply (error_section_plain _ _ _ _ _ _ _ _) with (2 := extract_behind _ _ _ _ _ (front10 ext Ie) A10) in S10.
  eexists. split; [reflexivity|]. rewrite !plain_app, S1, S2, S3, S4, S5, S6, S7, S8, S9, S10. vm_compute. reflexivity.
Qed.
