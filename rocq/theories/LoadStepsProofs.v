(** LoadStepsProofs.v - building the trie of a list takes linear time. *)

From Verif Require Import Base BaseFacts Str Trie RuleSpec TrieFacts Psl SizeSpec SizeProofs LoadSteps ListSpec ListFacts.
From Coq Require Import ZifyBool ZifyNat ZifyN.
Local Open Scope nat_scope.

Definition total (l : list bytes) : nat := list_sum (map (@length N) l).
(** The bytes of a list of rules, with one more for each. *)
Definition weight (rules : list bytes) : nat := total rules + length rules.

Lemma total_cons : forall x l, total (x :: l) = length x + total l.
Proof. reflexivity. Qed.
Lemma total_app : forall a b, total (a ++ b) = total a + total b.
Proof. intros a b. unfold total. rewrite map_app. apply list_sum_app. Qed.
Lemma weight_app : forall a b, weight (a ++ b) = weight a + weight b.
Proof. intros a b. unfold weight. rewrite total_app, app_length. lia. Qed.
Lemma total_rev : forall l, total (rev l) = total l.
Proof. induction l as [|x l IH]; [reflexivity|]. cbn [rev]. rewrite total_app, IH, !total_cons. change (total []) with 0. lia. Qed.

Lemma nested_c : forall keys t, exists n, nested_dict_c t keys = (nested_dict t keys, n) /\ n <= 3 * (total keys + length keys).
Proof.
  induction keys as [|k keys IH]; intros t; cbn [nested_dict_c nested_dict]; [exists 0; split; [reflexivity|lia]|].
  rewrite total_cons. cbn [length]. destruct (child t k) as [s|].
  - destruct (IH s) as (n & E & L). rewrite E. eexists. split; [reflexivity|]. lia.
  - destruct (IH empty_trie) as (n & E & L). rewrite E. eexists. split; [reflexivity|]. lia.
Qed.
Lemma insert_c : forall rules t, exists t' n, insert_all_c t rules = Ret (t', n) /\ insert_all t rules = Ret t' /\ n <= 9 * weight rules.
Proof.
  induction rules as [|rule rules IH]; intros t; cbn [insert_all_c insert_all]; [exists t, 0; repeat split; lia|].
  rewrite reverse_spec. cbn [bind]. destruct (nested_c (rev (split_byte rule 46)) t) as (n & E & L). rewrite E.
  destruct (IH (nested_dict t (rev (split_byte rule 46)))) as (t' & n' & E1 & E2 & L'). rewrite E1. cbn [bind]. eexists. eexists. split; [reflexivity|]. split; [exact E2|].
  rewrite total_rev in L. rewrite rev_length in *. pose proof (split_total rule 46) as T. pose proof (split_count rule 46) as C. unfold total in L.
  pose proof (Nat.div2_div (length (split_byte rule 46))). pose proof (Nat.div_le_upper_bound (length (split_byte rule 46)) 2 (1 + length rule)).
  unfold weight, total in *. cbn [map list_sum fold_right length] in *. unfold list_sum, bytes in *. lia.
Qed.
Lemma top_nodes : forall t, length (matches_of t) <= nodes t.
Proof.
  intros [e m]. cbn [matches_of]. rewrite nodes_node. unfold nodes_below. induction m as [|[k v] m IH]; [cbn [length]; lia|].
  cbn [map list_sum fold_right length snd] in *. destruct v as [e' m']. rewrite nodes_node. unfold list_sum in *. lia.
Qed.
Lemma labels_weight : forall rules, labels_in rules <= weight rules.
Proof.
  induction rules as [|r rules IH]; [unfold labels_in; cbn; lia|]. pose proof (rule_labels r). unfold labels_in, weight, total in *. cbn [map list_sum fold_right length] in *. unfold list_sum, bytes in *. lia.
Qed.
Lemma build_c : forall rules, exists t n, build_trie_c rules = Ret (t, n) /\ build_trie rules = Ret t /\ n <= 11 * weight rules + 2.
Proof.
  intros rules. unfold build_trie_c, build_trie. destruct (insert_c rules empty_trie) as (t & n & E1 & E2 & L). rewrite E1, E2. cbn [bind]. eexists. eexists. split; [reflexivity|]. split; [reflexivity|].
  pose proof (top_nodes t). pose proof (nodes_insert _ _ _ E2) as B. change (nodes empty_trie) with 1 in B. pose proof (labels_weight rules). lia.
Qed.

Lemma line_c : forall to_ascii k raw psl pr, (forall l a, to_ascii l = Some a -> length a <= k * length l) ->
  exists psl' pr' n, process_line_c to_ascii raw psl pr = (psl', pr', n) /\ process_line to_ascii raw psl pr = (psl', pr') /\ n <= 4 * length raw + 6
  /\ weight (s_public psl') <= weight (s_public psl) + (k + 3) * length raw /\ weight (s_all psl') <= weight (s_all psl) + (k + 3) * length raw.
Proof.
  intros to_ascii k raw psl pr K. unfold process_line_c. cbv zeta.
  assert (T : length (trim_space raw) <= length raw).
  { destruct (trim_space_spec raw) as (l & r & E & _). rewrite E at 2. rewrite !app_length. lia. }
  destruct (process_line to_ascii raw psl pr) as [psl' pr'] eqn:H. eexists. eexists. eexists. split; [reflexivity|]. split; [reflexivity|]. split.
  { destruct (_ || _); [|destruct (to_ascii (trim_space raw))]; unfold bytes in *; lia. }
  unfold process_line in H. cbv zeta in H. set (line := trim_space raw) in *. clearbody line.
  destruct ((len line =? 0)%Z || has_prefix line (str "//")) eqn:E0; [injection H as <- <-; split; lia|].
  assert (L1 : 1 <= length line) by (unfold len in E0; lia).
  destruct (to_ascii line) as [a|] eqn:E; [|injection H as <- <-; split; lia]. apply K in E.
  assert (A : forall l, weight (if negb (bytes_eqb a line) then (l ++ [a]) ++ [line] else l ++ [a]) <= weight l + (k + 3) * length raw).
  { intros l. pose proof (Nat.mul_le_mono_l _ _ k T). rewrite Nat.mul_add_distr_r.
    assert (O : forall x : list N, weight [x] = 1 + length x) by (intros x; unfold weight, total; cbn [map list_sum fold_right length]; lia).
    pose proof (O a). pose proof (O line). destruct (negb _); rewrite !weight_app; unfold bytes in *; lia. }
  destruct (if bytes_eqb private_marker line then true else pr); injection H as <- <-; cbn [s_public s_all]; split; try apply A; lia.
Qed.
Lemma lines_c : forall to_ascii k lines psl pr, (forall l a, to_ascii l = Some a -> length a <= k * length l) ->
  exists psl' n, process_lines_c to_ascii lines psl pr = (psl', n) /\ process_lines to_ascii lines psl pr = psl' /\ n <= 4 * total lines + 7 * length lines
  /\ weight (s_public psl') <= weight (s_public psl) + (k + 3) * total lines /\ weight (s_all psl') <= weight (s_all psl) + (k + 3) * total lines.
Proof.
  intros to_ascii k lines. induction lines as [|line lines IH]; intros psl pr K; cbn [process_lines process_lines_c]; [exists psl, 0; repeat split; lia|].
  destruct (line_c to_ascii k line psl pr K) as (psl1 & pr1 & n1 & E1 & F1 & L1 & P1 & A1). rewrite E1, F1.
  destruct (IH psl1 pr1 K) as (psl2 & n2 & E2 & F2 & L2 & P2 & A2). rewrite E2. exists psl2, (1 + n1 + n2). rewrite total_cons. cbn [length].
  split; [reflexivity|]. split; [exact F2|]. repeat split; nia.
Qed.
Lemma c112_load : forall to_ascii k contents private, (forall l a, to_ascii l = Some a -> length a <= k * length l) ->
  exists t n, load_c to_ascii contents private = Ret (t, n)
  /\ build_trie (if private : bool then s_all (parse_list to_ascii contents) else s_public (parse_list to_ascii contents)) = Ret t
  /\ n <= (11 * k + 46) * length contents + 9.
Proof.
  intros to_ascii k contents private K. unfold load_c, parse_list.
  destruct (lines_c to_ascii k (split_byte contents 10) no_suffixes false K) as (psl & n & E & F & L & P & A). rewrite E, F.
  destruct (build_c (if private then s_all psl else s_public psl)) as (t & n' & B1 & B2 & B3). rewrite B1. cbn [bind]. eexists. eexists. split; [reflexivity|]. split; [exact B2|].
  pose proof (split_total contents 10) as T. pose proof (split_count contents 10) as C. fold (total (split_byte contents 10)) in T.
  change (weight (s_public no_suffixes)) with 0 in P. change (weight (s_all no_suffixes)) with 0 in A.
  assert (W : weight (if private then s_all psl else s_public psl) <= (k + 3) * length contents) by (destruct private; nia).
  nia.
Qed.
