(** PropTable.v - property C104: the hash tables of the trie. *)

From Verif Require Import Base BaseFacts Trie Extract Psl World Update Calls Table TableSpec TableTries TableLimit ExampleBase.
Local Open Scope N_scope.

(** Whatever the hash function does, a table holds what was assigned last to each of its keys, if
    there are no more than 65535 of them. *)
Theorem C104_map : forall V (hash : bytes -> N) (keys : list bytes) (l : list (bytes * V)),
  N.of_nat (length keys) <= 65535 -> (forall k v, In (k, v) l -> In k keys) ->
  exists m, set_all hash zero_table l = Ret m
    /\ (forall k v, assigned l k v -> table_get hash m k = Ret (Some v, true))
    /\ (forall k, ~ In k (map fst l) -> table_get hash m k = Ret (None, false))
    /\ NoDup (map fst (table_scan m))
    /\ (forall k w, In (k, w) (table_scan m) <-> exists v, w = Some v /\ assigned l k v)
    /\ table_len m = N.of_nat (length (table_scan m)).
Proof. exact c104_map. Qed.

(** Whatever the hash function does, the tables of no more than 65535 rules give the answers of
    the trie that all other properties are about. *)
Theorem C104_build : forall (hash : bytes -> N) rules, N.of_nat (length rules) <= 65535 ->
  exists h t, build_tables hash rules = Ret h /\ build_trie rules = Ret t
    /\ forall ext p, extract_tables hash ext h p = extract ext t p.
Proof. exact c104_build. Qed.

(** With one rule more it depends on the hash function: New may crash. *)
Theorem C104_limit_refuted : exists (hash : bytes -> N) rules, N.of_nat (length rules) = 65536
  /\ build_tables hash rules = Panic /\ exists t, build_trie rules = Ret t.
Proof.
  exists same, (row_rules 65536). split; [|split; [exact c104_limit|exact c104_limit_trie]].
  unfold row_rules. rewrite map_length, seq_length. apply N2Nat.id.
Qed.

(** The table is a struct.  A Get that sees its fields as they were at different times, as it may
    if nothing orders the accesses, may run outside of the buckets, or for ever: it is essential
    for C102 that a map is seen as a whole. *)
Definition by_length (key : bytes) : N := N.of_nat (length key).
Definition torn_keys (n : nat) : list (bytes * unit) := map (fun i => (repeat 97 i, tt)) (seq 8 n).
Lemma torn_for_ever : forall fuel (b : entry unit) bs h key, e_dib b <> 0 -> e_hash b <> h -> get_loop fuel 0 (b :: bs) h key 0 = OutOfFuel.
Proof.
  intros fuel b bs h key B H. induction fuel as [|fuel IH]; [reflexivity|]. cbn [get_loop bucket N.to_nat nth_error bind].
  apply N.eqb_neq in B, H. rewrite B, H. cbn [andb]. rewrite N.land_0_r. exact IH.
Qed.
Theorem C102_torn_refuted : exists (hash : bytes -> N) (l1 l2 l3 : list (bytes * unit)) m1 m2 m3 key,
  set_all hash zero_table l1 = Ret m1 /\ set_all hash zero_table (l1 ++ l2) = Ret m2 /\ set_all hash zero_table ((l1 ++ l2) ++ l3) = Ret m3
  /\ (forall m, In m [m1; m2; m3] -> exists x, table_get hash m key = Ret x)
  /\ torn_get hash (S (length (t_buckets m2))) m3 m2 key = Panic
  /\ forall fuel, torn_get hash fuel m1 m2 key = OutOfFuel.
Proof.
  exists by_length, [], (torn_keys 1), (map (fun i => (repeat 98 i, tt)) (seq 8 8)).
  eexists. eexists. eexists. exists (repeat 98 9).
  split; [vm_compute; reflexivity|]. split; [vm_compute; reflexivity|]. split; [vm_compute; reflexivity|].
  split; [intros m [<-|[<-|[<-|[]]]]; eexists; vm_compute; reflexivity|]. split; [vm_compute; reflexivity|].
  intros fuel. unfold torn_get. cbn [t_mask t_buckets]. apply torn_for_ever; vm_compute; discriminate.
Qed.

(** ** Examples *)

(** Three buckets are asked for by all keys; the tables grow to 32 buckets. *)
Definition ex_hash (key : bytes) : N := (N.of_nat (length key) * 5) mod 3.
Definition ex_keys : list bytes := map (fun i => [97 + i mod 7; 97 + i / 7]) [0; 1; 2; 3; 4; 5; 6; 7; 8; 9; 10; 11; 12; 13; 14; 15; 16; 17; 18; 19].
Definition ex_sets : list (bytes * N) := map (fun k => (k, 1)) ex_keys ++ map (fun k => (k, 2)) (firstn 5 ex_keys) ++ [(str "abc", 3)].
Example C104_map_example :
  N.of_nat (length (str "abc" :: ex_keys)) <= 65535 /\ (forall k v, In (k, v) ex_sets -> In k (str "abc" :: ex_keys))
  /\ exists m, set_all ex_hash zero_table ex_sets = Ret m
     /\ length (t_buckets m) = 32%nat /\ table_len m = 21
     /\ table_get ex_hash m (str "ba") = Ret (Some 2, true) /\ table_get ex_hash m (str "ab") = Ret (Some 1, true)
     /\ table_get ex_hash m (str "abc") = Ret (Some 3, true) /\ table_get ex_hash m (str "zz") = Ret (None, false)
     /\ length (filter (fun b => 20 <=? e_dib b) (t_buckets m)) = 1%nat.
Proof.
  split; [discriminate|]. split.
  - assert (A : forallb (fun x => existsb (bytes_eqb (fst x)) (str "abc" :: ex_keys)) ex_sets = true) by (vm_compute; reflexivity).
    intros k v I1. apply (proj1 (forallb_forall _ _) A) in I1. apply existsb_exists in I1 as (k' & I1 & E). apply bytes_eqb_eq in E. cbn [fst] in E.
    subst k'. exact I1.
  - eexists. split; [vm_compute; reflexivity|]. vm_compute. repeat split.
Qed.
Definition table_rules : list bytes := ex_rules ++ map (fun k => k ++ str ".uk") ex_keys ++ [str "com"; str "a.b.com"; str "*.jp"].
Example C104_build_example :
  N.of_nat (length table_rules) <= 65535
  /\ exists h, build_tables ex_hash table_rules = Ret h
     /\ (let ask url := match extract_tables ex_hash ex_idna h (ex_params url) with Ret (r, None) => Some (r_suffix r, r_domain r) | _ => None end in
         ask "https://a.b.cc.uk/x"%string = Some (str "cc.uk", str "b") /\ ask "x.a.b.com"%string = Some (str "a.b.com", str "x")
         /\ ask "x.www.ck"%string = Some (str "ck", str "www") /\ ask "x.y.z.jp"%string = Some (str "z.jp", str "y")).
Proof. split; [discriminate|]. eexists. split; [vm_compute; reflexivity|]. vm_compute. repeat split. Qed.

Print Assumptions C102_torn_refuted.
Print Assumptions C104_map.
Print Assumptions C104_build.
Print Assumptions C104_limit_refuted.
