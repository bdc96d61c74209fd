(** SizeProofs.v - the trie has one node for each known end of a rule. *)

From Verif Require Import Base BaseFacts Str Trie RuleSpec TrieFacts Psl StrFacts ListSpec ListFacts SizeSpec.
From Coq Require Import ZifyBool ZifyNat ZifyN Permutation.
Local Open Scope nat_scope.

Fixpoint paths (t : trie) : list (list bytes) :=
  match t with
  | Node _ m => [] :: (fix all (m : list (bytes * trie)) := match m with [] => [] | (k, v) :: m' => map (cons k) (paths v) ++ all m' end) m
  end.
Definition below (m : list (bytes * trie)) : list (list bytes) := flat_map (fun kv => map (cons (fst kv)) (paths (snd kv))) m.
Definition nodes_below (m : list (bytes * trie)) : nat := list_sum (map (fun kv => nodes (snd kv)) m).

Lemma paths_node : forall e m, paths (Node e m) = [] :: below m.
Proof. intros e m. cbn [paths]. f_equal. unfold below. induction m as [|[k v] m IH]; cbn [flat_map fst snd]; [reflexivity|]. f_equal. exact IH. Qed.
Lemma nodes_node : forall e m, nodes (Node e m) = S (nodes_below m).
Proof. intros e m. cbn [nodes]. f_equal. unfold nodes_below. induction m as [|[k v] m IH]; [reflexivity|]. cbn [map list_sum fold_right snd]. f_equal. exact IH. Qed.

Section Ind.
  Variable P : trie -> Prop.
  Hypothesis step : forall e m, Forall (fun kv => P (snd kv)) m -> P (Node e m).
  Fixpoint trie_rec2 (t : trie) : P t :=
    match t with
    | Node e m => step e m ((fix all m : Forall (fun kv => P (snd kv)) m := match m with [] => Forall_nil _ | kv :: m' => Forall_cons kv (let '(k, v) as kv := kv return P (snd kv) in trie_rec2 v) (all m') end) m)
    end.
End Ind.

Lemma nodes_paths : forall t, nodes t = length (paths t).
Proof.
  apply trie_rec2. intros e m H. rewrite nodes_node, paths_node. cbn [length]. f_equal. unfold nodes_below, below.
  induction H as [|[k v] m Hv H IH]; [reflexivity|]. cbn [map flat_map list_sum fold_right fst snd] in *. rewrite app_length, map_length, <- Hv. f_equal. exact IH.
Qed.

(** No key twice. *)
Inductive wf : trie -> Prop := wf_node : forall e m, NoDup (map fst m) -> Forall (fun kv => wf (snd kv)) m -> wf (Node e m).

Lemma wf_empty : wf empty_trie.
Proof. constructor; constructor. Qed.
Lemma wf_set_end : forall t, wf t -> wf (set_end t).
Proof. intros t [e m N F]. cbn [set_end]. constructor; assumption. Qed.
Lemma get_in : forall m k v, get m k = Some v -> In (k, v) m.
Proof.
  induction m as [|[k0 v0] m IH]; intros k v H; cbn [get] in H; [discriminate|]. destruct (bytes_eqb k0 k) eqn:E.
  - apply bytes_eqb_eq in E. subst k0. injection H as ->. left. reflexivity.
  - right. apply IH. exact H.
Qed.
Lemma in_get : forall m k v, NoDup (map fst m) -> In (k, v) m -> get m k = Some v.
Proof.
  induction m as [|[k0 v0] m IH]; intros k v N H; [destruct H|]. cbn [map fst] in N. inversion N as [|? ? N1 N2]; subst. cbn [get].
  destruct (bytes_eqb k0 k) eqn:E.
  - apply bytes_eqb_eq in E. subst k0. destruct H as [H|H]; [injection H as ->; reflexivity|]. exfalso. apply N1. apply (in_map fst) in H. exact H.
  - destruct H as [H|H]; [injection H as -> ->; rewrite bytes_eqb_refl in E; discriminate|]. apply IH; assumption.
Qed.
Lemma put_keys : forall m k v x, In x (map fst (put m k v)) <-> x = k \/ In x (map fst m).
Proof.
  induction m as [|[k0 v0] m IH]; intros k v x; cbn [put map fst In]; [intuition congruence|].
  destruct (bytes_eqb k0 k) eqn:E; cbn [map fst In].
  - apply bytes_eqb_eq in E. subst k0. intuition congruence.
  - rewrite IH. intuition congruence.
Qed.
Lemma put_nodup : forall m k v, NoDup (map fst m) -> NoDup (map fst (put m k v)).
Proof.
  induction m as [|[k0 v0] m IH]; intros k v N; cbn [put map fst]; [constructor; [intros []|constructor]|].
  cbn [map fst] in N. inversion N as [|? ? N1 N2]; subst. destruct (bytes_eqb k0 k) eqn:E; cbn [map fst]; [exact N|].
  constructor; [|apply IH; exact N2]. rewrite put_keys. intros [->|H]; [rewrite bytes_eqb_refl in E; discriminate|contradiction].
Qed.
Lemma put_forall : forall (P : bytes * trie -> Prop) m k v, Forall P m -> (forall k, P (k, v)) -> Forall P (put m k v).
Proof.
  intros P m k v F H. induction F as [|[k0 v0] m F0 F IH]; cbn [put]; [constructor; [apply H|constructor]|]. destruct (bytes_eqb k0 k); constructor; auto.
Qed.
Lemma wf_nested : forall keys t, wf t -> wf (nested_dict t keys).
Proof.
  induction keys as [|k keys IH]; intros t W; cbn [nested_dict]; [apply wf_set_end; exact W|]. destruct W as [e m N F]. cbn [end_of matches_of]. constructor; [apply put_nodup; exact N|].
  apply put_forall; [exact F|]. intros k'. cbn [snd]. apply IH. unfold child. cbn [matches_of]. destruct (get m k) as [v|] eqn:E; [|apply wf_empty].
  apply get_in in E. rewrite Forall_forall in F. apply F in E. exact E.
Qed.
Lemma wf_insert : forall rules t t', wf t -> insert_all t rules = Ret t' -> wf t'.
Proof.
  induction rules as [|rule rules IH]; intros t t' W H; cbn [insert_all] in H; [injection H as <-; exact W|]. rewrite reverse_spec in H. cbn [bind] in H.
  apply IH in H; [exact H|]. apply wf_nested. exact W.
Qed.
Lemma wf_mark : forall t, wf t -> wf (mark_wildcard_tlds t).
Proof.
  intros t [e m N F]. unfold mark_wildcard_tlds. cbn [end_of matches_of]. constructor.
  - rewrite map_map. erewrite map_ext; [exact N|]. intros [k v]. reflexivity.
  - rewrite Forall_map. eapply Forall_impl; [|exact F]. intros [k v] W. cbn [snd] in *. destruct (child v (str "*")); [apply wf_set_end|]; exact W.
Qed.
Lemma wf_build : forall rules t, build_trie rules = Ret t -> wf t.
Proof.
  intros rules t H. unfold build_trie in H. destruct (insert_all empty_trie rules) as [t'| |] eqn:E; try discriminate H. injection H as <-.
  apply wf_mark. eapply wf_insert; [apply wf_empty|exact E].
Qed.

Lemma in_below : forall m p, In p (below m) <-> exists k v q, In (k, v) m /\ In q (paths v) /\ p = k :: q.
Proof.
  intros m p. unfold below. rewrite in_flat_map. split.
  - intros ([k v] & I & H). apply in_map_iff in H. destruct H as (q & <- & H). exists k, v, q. auto.
  - intros (k & v & q & I & H & ->). exists (k, v). split; [exact I|]. apply in_map. exact H.
Qed.
Lemma in_paths : forall p t, wf t -> (In p (paths t) <-> has t p = true).
Proof.
  induction p as [|k p IH]; intros t W; destruct W as [e m N F]; rewrite paths_node.
  - split; [reflexivity|left; reflexivity].
  - rewrite has_cons. unfold child. cbn [matches_of In]. rewrite in_below. rewrite Forall_forall in F. split.
    + intros [H|(k' & v & q & I & H & E)]; [discriminate|]. injection E as <- <-. rewrite (in_get _ _ _ N I). apply IH; [apply F in I; exact I|exact H].
    + destruct (get m k) as [v|] eqn:E; [|discriminate]. intros H. right. apply get_in in E. exists k, v, p. split; [exact E|]. split; [|reflexivity]. apply IH; [apply F in E; exact E|exact H].
Qed.
Lemma nodup_paths : forall t, wf t -> NoDup (paths t).
Proof.
  apply (trie_rec2 (fun t => wf t -> NoDup (paths t))). intros e m H W. rewrite paths_node. inversion W as [? ? N F]; subst. clear W. constructor.
  - rewrite in_below. intros (k & v & q & _ & _ & E). discriminate E.
  - unfold below. revert N F. induction H as [|[k v] m Hv H IH]; intros N F; [constructor|]. cbn [flat_map map fst snd] in *. inversion N as [|? ? N1 N2]; subst. inversion F as [|? ? F1 F2]; subst. cbn [snd] in *.
    assert (A : forall (l1 l2 : list (list bytes)), NoDup l1 -> NoDup l2 -> (forall x, In x l1 -> ~ In x l2) -> NoDup (l1 ++ l2)).
    { induction l1 as [|x l1 IH1]; intros l2 D1 D2 D; cbn [app]; [exact D2|]. inversion D1; subst. constructor; [|apply IH1; auto; intros y Hy; apply D; right; exact Hy].
      rewrite in_app_iff. intros [Hx|Hx]; [contradiction|]. apply (D x); [left; reflexivity|exact Hx]. }
    apply A; [|apply IH; assumption|].
    + apply FinFun.Injective_map_NoDup; [|apply Hv; exact F1]. intros a b E. injection E as ->. reflexivity.
    + intros x Hx Hy. apply in_map_iff in Hx. destruct Hx as (q & <- & _). apply in_below in Hy. destruct Hy as (k' & v' & q' & I & _ & E). injection E as <- _.
      apply N1. apply (in_map fst) in I. exact I.
Qed.

Lemma c111_nodes : forall rules t l, build_trie rules = Ret t -> NoDup l ->
  (forall p, In p l <-> p = [] \/ leads_to rules p) -> nodes t = length l.
Proof.
  intros rules t l H N L. rewrite nodes_paths. apply Permutation_length. apply NoDup_Permutation; [apply nodup_paths; eapply wf_build; exact H|exact N|].
  intros p. rewrite L, in_paths by (eapply wf_build; exact H). apply build_trie_represents in H. destruct H as [H _].
  destruct p as [|k p]; [split; [left; reflexivity|reflexivity]|]. rewrite H by discriminate. rewrite known_iff. unfold leads_to. split; [right; assumption|]. intros [E|E]; [discriminate|exact E].
Qed.

Lemma nodes_nested : forall keys t, nodes (nested_dict t keys) <= nodes t + length keys.
Proof.
  induction keys as [|k keys IH]; intros t; cbn [nested_dict].
  - destruct t as [e m]. cbn [set_end length]. rewrite !nodes_node. lia.
  - destruct t as [e m]. cbn [end_of matches_of length]. rewrite !nodes_node. unfold child. cbn [matches_of].
    assert (P : forall v, nodes_below (put m k v) + match get m k with Some w => nodes w | None => 0 end = nodes_below m + nodes v).
    { intros v. unfold nodes_below. clear IH. induction m as [|[k0 v0] m IHm]; cbn [put get]; [cbn [map list_sum fold_right snd]; lia|].
      destruct (bytes_eqb k0 k); cbn [map list_sum fold_right snd] in *; [lia|]. unfold list_sum in *. lia. }
    specialize (P (nested_dict match get m k with Some w => w | None => empty_trie end keys)). destruct (get m k) as [w|].
    + specialize (IH w). lia.
    + specialize (IH empty_trie). change (nodes empty_trie) with 1 in IH. lia.
Qed.
Lemma nodes_insert : forall rules t t', insert_all t rules = Ret t' -> nodes t' <= nodes t + labels_in rules.
Proof.
  induction rules as [|rule rules IH]; intros t t' H; cbn [insert_all] in H; [injection H as <-; lia|]. rewrite reverse_spec, <- rule_path_split in H. cbn [bind] in H.
  apply IH in H. pose proof (nodes_nested (rule_path rule) t). unfold labels_in in *. cbn [map list_sum fold_right]. unfold list_sum in *. lia.
Qed.
Lemma nodes_mark : forall t, nodes (mark_wildcard_tlds t) = nodes t.
Proof.
  intros [e m]. unfold mark_wildcard_tlds. cbn [end_of matches_of]. rewrite !nodes_node. f_equal. unfold nodes_below. rewrite map_map. f_equal. apply map_ext. intros [k v]. cbn [snd].
  destruct (child v (str "*")); [|reflexivity]. destruct v as [e' m']. cbn [set_end]. rewrite !nodes_node. reflexivity.
Qed.
Lemma c111_labels : forall rules t, build_trie rules = Ret t -> nodes t <= 1 + labels_in rules.
Proof.
  intros rules t H. unfold build_trie in H. destruct (insert_all empty_trie rules) as [t'| |] eqn:E; try discriminate H. injection H as <-. rewrite nodes_mark.
  apply nodes_insert in E. exact E.
Qed.

Lemma split_count : forall s c, length (split_byte s c) <= 1 + length s.
Proof.
  induction s as [|x s IH]; intros c; cbn [split_byte length]; [lia|]. specialize (IH c). destruct (x =? c)%N; cbn [length]; [lia|].
  destruct (split_byte s c); cbn [length] in *; lia.
Qed.
Lemma split_total : forall s c, list_sum (map (@length N) (split_byte s c)) <= length s.
Proof.
  induction s as [|x s IH]; intros c; cbn [split_byte]; [cbn; lia|]. specialize (IH c). unfold list_sum in *. destruct (x =? c)%N; cbn [map fold_right length]; [lia|].
  destruct (split_byte s c); cbn [map fold_right length] in *; lia.
Qed.
Lemma rule_labels : forall r, length (rule_path r) <= 1 + length r.
Proof. intros r. rewrite rule_path_split, rev_length. apply split_count. Qed.
Lemma labels_app : forall a b, labels_in (a ++ b) = labels_in a + labels_in b.
Proof. intros a b. unfold labels_in. rewrite map_app. apply list_sum_app. Qed.
Lemma labels_one : forall r, labels_in [r] <= 1 + length r.
Proof. intros r. pose proof (rule_labels r). unfold labels_in. cbn [map list_sum fold_right]. lia. Qed.

Lemma line_size : forall to_ascii k raw psl pr psl' pr', (forall l a, to_ascii l = Some a -> length a <= k * length l) ->
  process_line to_ascii raw psl pr = (psl', pr') ->
  labels_in (s_public psl') <= labels_in (s_public psl) + (k + 3) * length raw
  /\ labels_in (s_all psl') <= labels_in (s_all psl) + (k + 3) * length raw.
Proof.
  intros to_ascii k raw psl pr psl' pr' K H. unfold process_line in H. cbv zeta in H.
  assert (T : length (trim_space raw) <= length raw).
  { destruct (trim_space_spec raw) as (l & r & E & _). rewrite E at 2. rewrite !app_length. lia. }
  set (line := trim_space raw) in *. clearbody line. destruct ((len line =? 0)%Z || has_prefix line (str "//")) eqn:E0; [injection H as <- <-; split; lia|].
  assert (L1 : 1 <= length line) by (unfold len in E0; lia).
  destruct (to_ascii line) as [a|] eqn:E; [|injection H as <- <-; split; lia]. apply K in E.
  assert (A : forall l, labels_in (if negb (bytes_eqb a line) then (l ++ [a]) ++ [line] else l ++ [a]) <= labels_in l + (k + 3) * length raw).
  { intros l. pose proof (labels_one a). pose proof (labels_one line). pose proof (Nat.mul_le_mono_l _ _ k T). rewrite Nat.mul_add_distr_r. destruct (negb _); rewrite !labels_app; unfold bytes in *; lia. }
  destruct (if bytes_eqb private_marker line then true else pr); injection H as <- <-; cbn [s_public s_all]; split; try apply A; lia.
Qed.
Lemma lines_size : forall to_ascii k lines psl pr, (forall l a, to_ascii l = Some a -> length a <= k * length l) ->
  labels_in (s_public (process_lines to_ascii lines psl pr)) <= labels_in (s_public psl) + (k + 3) * list_sum (map (@length N) lines)
  /\ labels_in (s_all (process_lines to_ascii lines psl pr)) <= labels_in (s_all psl) + (k + 3) * list_sum (map (@length N) lines).
Proof.
  intros to_ascii k lines. induction lines as [|line lines IH]; intros psl pr K; cbn [process_lines]; [split; lia|].
  destruct (process_line to_ascii line psl pr) as [psl' pr'] eqn:E. apply (line_size _ k) in E; [|exact K]. specialize (IH psl' pr' K).
  unfold list_sum in *. cbn [map fold_right]. split; nia.
Qed.
Lemma c111_file : forall to_ascii k contents private t, (forall l a, to_ascii l = Some a -> length a <= k * length l) ->
  build_trie (if private : bool then s_all (parse_list to_ascii contents) else s_public (parse_list to_ascii contents)) = Ret t ->
  nodes t <= 1 + (k + 3) * length contents.
Proof.
  intros to_ascii k contents private t K H. apply c111_labels in H. unfold parse_list in H.
  destruct (lines_size to_ascii k (split_byte contents 10) no_suffixes false K) as [A B]. pose proof (split_total contents 10).
  change (labels_in (s_public no_suffixes)) with 0 in A. change (labels_in (s_all no_suffixes)) with 0 in B. destruct private; nia.
Qed.
