(** WeakSpec.v - when calls keep out of each other's way. *)

From Verif Require Import Base Extract World Calls RaceSpec Heap Weak.

(** Two calls on the same extractor, one of them Update. *)
Definition conflict (c1 c2 : call) : Prop :=
  exists f, call_on f c1 /\ call_on f c2 /\ (c1 = CallUpdate f \/ c2 = CallUpdate f).
(** No two such calls are running. *)
Definition orderly (running : list call) : Prop := ForallOrdPairs (fun c1 c2 => ~ conflict c1 c2) running.

(** The objects an operation looks at. *)
Definition reads {R : Type} (o : heap_op R) (l : location) : Prop :=
  match o with
  | On a o => match o with
              | NewNode => False
              | Get i _ | Put i _ _ | Scan i | Len i | ReadEnd i | SetEnd i => l = NodeAt a i
              end
  | GetExtractor f => l = PathAt f \/ l = TrieAt f
  | _ => False
  end.

(** Executions in which this is so at every moment. *)
Section Orderly.
Variable to_ascii : bytes -> option bytes.
Variable hardcoded : bytes.
Variable ext : idna.
Inductive orderly_steps : wpool -> wpool -> Prop :=
| orderly_none : forall q, orderly_steps q q
| orderly_more : forall q1 q2 q3, orderly_steps q1 q2 -> wpool_step to_ascii hardcoded ext q2 q3 ->
    orderly (map wt_call (wp_threads q3)) -> orderly_steps q1 q3.
Inductive orderly_hsteps : hpool -> hpool -> Prop :=
| orderly_hnone : forall q, orderly_hsteps q q
| orderly_hmore : forall q1 q2 q3, orderly_hsteps q1 q2 -> hpool_step to_ascii hardcoded ext q2 q3 ->
    orderly (map ht_call (hp_threads q3)) -> orderly_hsteps q1 q3.
End Orderly.

(** Executions with any calls at any time, but in which no Update of an extractor is running
    together with an Extract of it whose number is in [T]. *)
Definition undisturbed (T : nat -> bool) (running : list wthread) : Prop :=
  forall t1 t2 f p, In t1 running -> In t2 running -> T (wt_number t1) = true -> wt_call t1 = CallExtract f p ->
  wt_call t2 <> CallUpdate f.
Section Careful.
Variable to_ascii : bytes -> option bytes.
Variable hardcoded : bytes.
Variable ext : idna.
Inductive careful_steps (T : nat -> bool) : wpool -> wpool -> Prop :=
| careful_none : forall q, careful_steps T q q
| careful_more : forall q1 q2 q3, careful_steps T q1 q2 -> wpool_step to_ascii hardcoded ext q2 q3 ->
    undisturbed T (wp_threads q3) -> careful_steps T q1 q3.
End Careful.

(** The same calls are running and have the same left to do, with the same events and
    extractors; the extractors and nodes are as they were last written. *)
Definition without_view (th : wthread) : hthread := mkHThread (wt_number th) (wt_call th) (wt_rest th).
Record same_state (q : wpool) (hq : hpool) : Prop := {
  state_threads : map without_view (wp_threads q) = hp_threads hq;
  state_known : wp_known q = hp_known hq;
  state_count : wp_count q = hp_count hq;
  state_trace : wp_trace q = hp_trace hq;
  state_nodes : forall a i, as_node (latest (w_cell (wp_weak q) (NodeAt a i))) = g_node (h_region (hp_heap hq) a) i;
  state_extractors : forall f,
    mkExtractor (as_path (latest (w_cell (wp_weak q) (PathAt f)))) (as_trie (latest (w_cell (wp_weak q) (TrieAt f)))) (w_private (wp_weak q) f)
    = h_extractor (hp_heap hq) f }.

(** The same, but of Extracts only those with numbers in [T] need have the same left to do. *)
Definition settled (T : nat -> bool) (i : nat) (c : call) : bool :=
  T i || match c with CallExtract _ _ => false | _ => true end.
Definition same_call (T : nat -> bool) (th : wthread) (ht : hthread) : Prop :=
  wt_number th = ht_number ht /\ wt_call th = ht_call ht
  /\ (settled T (wt_number th) (wt_call th) = true -> wt_rest th = ht_rest ht).
Record same_writes (T : nat -> bool) (q : wpool) (hq : hpool) : Prop := {
  writes_threads : Forall2 (same_call T) (wp_threads q) (hp_threads hq);
  writes_known : wp_known q = hp_known hq;
  writes_count : wp_count q = hp_count hq;
  writes_trace : wp_trace q = hp_trace hq;
  writes_nodes : forall a i, as_node (latest (w_cell (wp_weak q) (NodeAt a i))) = g_node (h_region (hp_heap hq) a) i;
  writes_extractors : forall f,
    mkExtractor (as_path (latest (w_cell (wp_weak q) (PathAt f)))) (as_trie (latest (w_cell (wp_weak q) (TrieAt f)))) (w_private (wp_weak q) f)
    = h_extractor (hp_heap hq) f }.

(** The nodes of a trie as they were last written. *)
Definition last_written (w : weak) (a : nat) : region := mkRegion (fun i => as_node (latest (w_cell w (NodeAt a i)))) (w_count w a).
