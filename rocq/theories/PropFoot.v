(** PropFoot.v - what New and Update touch, and what Extract costs: C79 and C80. *)

From Verif Require Import Base BaseFacts Chars Str Trie Extract Host RuleSpec UrlSpec Psl ListSpec ListFacts World Update UpdateSpec NewSpec
  Calls FootSpec FootProofs CostSpec CostProofs ExampleBase ExampleDisk PropPsl PropUrl PropRules.

(** C79: whatever the environment does. *)
Theorem C79_update : forall to_ascii hardcoded E (step : forall R : Type, sys R -> E -> R -> E -> Prop) f e m tr e' m' r,
  runs step (update to_ascii hardcoded f) e m tr e' m' r -> modest cache_path tr.
Proof. exact c79_update. Qed.
Theorem C79_new : forall to_ascii hardcoded E (step : forall R : Type, sys R -> E -> R -> E -> Prop) n e m tr e' m' r,
  runs step (new to_ascii hardcoded n) e m tr e' m' r -> modest (new_reads (lp_path n)) tr.
Proof. exact c79_new. Qed.
(** The first source is bad; the second is asked, and the body written to the cache. *)
Example C79_example :
  let x := ex_new (mkListParams (str "/x") false) [(str "/tmp/", Directory 0 true); (str "/tmp/public_suffix_list.dat", Absent true)] ex_mirror in
  runs disk_step (new ex_to_ascii ex_built_in (mkListParams (str "/x") false))
    (ex_disk [(str "/tmp/", Directory 0 true); (str "/tmp/public_suffix_list.dat", Absent true)]) ex_memory
    (ex_trace x) (ex_disk_of x) (ex_memory_of x) (ex_result x)
  /\ asked (ex_trace x) = the_sources /\ flat_map open_of (ex_trace x) = [(str "/tmp/public_suffix_list.dat", Some 0%nat)]
  /\ wrote (ex_trace x) custom true.
Proof.
  split; [apply exec_runs|]. split; [vm_compute; reflexivity|]. split; [vm_compute; reflexivity|].
  exists (Event (Write 0 custom) true). split; [|reflexivity]. apply (nth_error_In _ 13). vm_compute. reflexivity.
Qed.

(** C80: at most two look-ups for every label of the host ... *)
Theorem C80_labels : forall ext f p m scheme user raw h port path first zs segs,
  url_parts ext p scheme user raw h port path -> labelled h first zs segs ->
  length (looks (extract_prog ext f p) m) <= 2 * S (length segs).
Proof. exact c80_labels. Qed.
(** ... and, for any URL, at most two for every label of the longest rule. *)
Theorem C80_rules : forall ext f p m rules d, build_trie rules = Ret (trie_in m f) ->
  Forall (fun rule => length (rule_path rule) <= d) rules ->
  length (looks (extract_prog ext f p) m) <= 2 * Nat.max 1 d.
Proof. exact c80_rules. Qed.
Definition ex_memory_rules (rules : list bytes) : memory :=
  mkMemory (fun _ => trie_of rules) 1 (fun _ => mkExtractor [] 0 false) 1.
(** Both bounds are reached. *)
Example C80_example : let rules := map str ["uk"; "co.uk"; "a.co.uk"]%string in let m := ex_memory_rules rules in
  build_trie rules = Ret (trie_in m 0)
  /\ Forall (fun rule => length (rule_path rule) <= 3) rules
  /\ url_parts ex_idna (ex_params "x@a.co.uk..") [] (Some (str "x")) (str "a.co.uk..") (str "a.co.uk..") None []
  /\ labelled (str "a.co.uk..") (str "a") [(str "", str "."); (str "", str ".")] [(str "uk", str "."); (str "co", str ".")]
  /\ looks (extract_prog ex_idna 0 (ex_params "x@a.co.uk..")) m
     = [(0, map str ["*"]); (0, map str ["uk"]); (0, map str ["uk"; "*"]); (0, map str ["uk"; "co"]);
        (0, map str ["uk"; "co"; "*"]); (0, map str ["uk"; "co"; "a"])]%string
  /\ length (looks (extract_prog ex_idna 0 (ex_params "z.y.x.b.a.co.uk")) m) = 6
  /\ looks (extract_prog ex_idna 0 (ex_params "[::1]")) m = [].
Proof.
  split; [vm_compute; reflexivity|]. split; [repeat (apply Forall_cons; [vm_compute; lia|]); apply Forall_nil|].
  split; [ex_parts|]. split; [ex_labelled|]. repeat split; vm_compute; reflexivity.
Qed.

Print Assumptions C79_update.
Print Assumptions C79_new.
Print Assumptions C80_labels.
Print Assumptions C80_rules.
