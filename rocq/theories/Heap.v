(** Heap.v - the tries as they are in the memory: nodes that point to each other, and the code
    that builds and reads them pointer by pointer.

    World.v has one value per trie, and operations that insert a rule or read the node at a path
    at once.  Here nestedDict, the marking of wildcards and the loop of Extract do what the Go
    code does: one access to a node after the other, between which other goroutines can run. *)

From Verif Require Import Base Utf8 Str Net Trie Extract Psl World Update Calls.
From Coq Require Import Permutation.
Local Open Scope Z_scope.

(** fasttld.go:76-79.  Nodes have names: the number of the trie for which the node was allocated
    and a number within it, 0 for the root.  Names of new nodes are new.  nestedDict is called
    with the root of a trie and stores only pointers to nodes it has just allocated, so that a
    child has the same first number as its parent, and maps need to hold only the second. *)
Record hnode := mkNode { n_end : bool; n_matches : list (bytes * nat) }.
Record region := mkRegion { g_node : nat -> hnode; g_count : nat }.
Record heap := mkHeap {
  h_region : nat -> region; h_next : nat;
  h_extractor : nat -> extractor; h_next_extractor : nat }.

(** hashmap.Map.Get and hashmap.Map.Set *)
Fixpoint hget (m : list (bytes * nat)) (key : bytes) : option nat :=
  match m with
  | [] => None
  | (k, v) :: m' => if bytes_eqb k key then Some v else hget m' key
  end.
Fixpoint hput (m : list (bytes * nat)) (key : bytes) (v : nat) : list (bytes * nat) :=
  match m with
  | [] => [(key, v)]
  | (k, w) :: m' => if bytes_eqb k key then (k, v) :: m' else (k, w) :: hput m' key v
  end.

(** Accesses to the nodes of one trie. *)
Inductive region_op : Type -> Type :=
| NewNode : region_op nat                                    (* &trie{matches: m} in nestedDict *)
| Get (i : nat) (key : bytes) : region_op (option nat)       (* i.matches.Get(key) *)
| Put (i : nat) (key : bytes) (j : nat) : region_op unit     (* i.matches.Set(key, j) *)
| Scan (i : nat) : region_op (list (bytes * nat))            (* i.matches.Scan *)
| Len (i : nat) : region_op Z                                (* i.matches.Len() *)
| ReadEnd (i : nat) : region_op bool                         (* i.end *)
| SetEnd (i : nat) : region_op unit.                         (* i.end = true *)
Inductive heap_op : Type -> Type :=
| On {R : Type} (a : nat) (o : region_op R) : heap_op R
| NewRoot : heap_op nat                                      (* &trie{...} in trieConstruct and New *)
| MakeExtractor (x : extractor) : heap_op nat
| GetExtractor (f : nat) : heap_op extractor
| PutPath (f : nat) (path : bytes) : heap_op unit
| PutTrie (f : nat) (a : nat) : heap_op unit.

Definition set_node (g : region) (i : nat) (n : hnode) : region := mkRegion (upd (g_node g) i n) (g_count g).
(** The order in which Scan visits the entries is not specified. *)
Definition region_step {R : Type} (o : region_op R) (g : region) (x : R) (g' : region) : Prop :=
  match o in region_op R return R -> Prop with
  | NewNode => fun x => x = g_count g /\ g' = mkRegion (upd (g_node g) (g_count g) (mkNode false [])) (S (g_count g))
  | Get i key => fun x => x = hget (n_matches (g_node g i)) key /\ g' = g
  | Put i key j => fun _ => g' = set_node g i (mkNode (n_end (g_node g i)) (hput (n_matches (g_node g i)) key j))
  | Scan i => fun x => Permutation x (n_matches (g_node g i)) /\ g' = g
  | Len i => fun x => x = len (n_matches (g_node g i)) /\ g' = g
  | ReadEnd i => fun x => x = n_end (g_node g i) /\ g' = g
  | SetEnd i => fun _ => g' = set_node g i (mkNode true (n_matches (g_node g i)))
  end x.

Definition set_region (h : heap) (a : nat) (g : region) : heap :=
  mkHeap (upd (h_region h) a g) (h_next h) (h_extractor h) (h_next_extractor h).
Definition put_extractor (h : heap) (f : nat) (x : extractor) : heap :=
  mkHeap (h_region h) (h_next h) (upd (h_extractor h) f x) (h_next_extractor h).
Definition new_region : region := mkRegion (fun _ => mkNode false []) 1.
Definition heap_step {R : Type} (o : heap_op R) (h : heap) (x : R) (h' : heap) : Prop :=
  match o in heap_op R return R -> Prop with
  | On a o => fun x => exists g', region_step o (h_region h a) x g' /\ h' = set_region h a g'
  | NewRoot => fun x => x = h_next h /\
      h' = mkHeap (upd (h_region h) (h_next h) new_region) (S (h_next h)) (h_extractor h) (h_next_extractor h)
  | MakeExtractor v => fun x => x = h_next_extractor h /\
      h' = mkHeap (h_region h) (h_next h) (upd (h_extractor h) (h_next_extractor h) v) (S (h_next_extractor h))
  | GetExtractor f => fun x => x = h_extractor h f /\ h' = h
  | PutPath f path => fun _ =>
      h' = put_extractor h f (mkExtractor path (x_trie (h_extractor h f)) (x_private (h_extractor h f)))
  | PutTrie f a => fun _ =>
      h' = put_extractor h f (mkExtractor (x_path (h_extractor h f)) a (x_private (h_extractor h f)))
  end x.

Inductive hprog (A : Type) : Type :=
| HDone (a : outcome A)
| HSys {R : Type} (o : sys R) (k : R -> hprog A)
| HHeap {R : Type} (o : heap_op R) (k : R -> hprog A).
Arguments HDone {A} a.
Arguments HSys {A R} o k.
Arguments HHeap {A R} o k.

Fixpoint hbind {A B : Type} (p : hprog A) (k : A -> hprog B) : hprog B :=
  match p with
  | HDone (Ret a) => k a
  | HDone Panic => HDone Panic
  | HDone OutOfFuel => HDone OutOfFuel
  | HSys o c => HSys o (fun r => hbind (c r) k)
  | HHeap o c => HHeap o (fun r => hbind (c r) k)
  end.
Definition hret {A : Type} (a : A) : hprog A := HDone (Ret a).
Definition on {R : Type} (a : nat) (o : region_op R) : hprog R := HHeap (On a o) hret.
Notation "x <== m ;; k" := (hbind m (fun x => k)) (at level 61, m at next level, right associativity).
Notation "' p <== m ;; k" := (hbind m (fun p => k)) (at level 61, p pattern, m at next level, right associativity).

(** fasttld.go:85-96 nestedDict; [i] is dic. *)
Fixpoint nested_heap (a i : nat) (keys : list bytes) : hprog unit :=
  match keys with
  | [] => on a (SetEnd i)
  | key :: keys' =>
    found <== on a (Get i key) ;;
    _ <== match found with
          | Some _ => hret tt
          | None => j <== on a NewNode ;; on a (Put i key j)
          end ;;
    found <== on a (Get i key) ;;
    match found with
    | Some j => nested_heap a j keys'
    | None => HDone Panic           (* dic is nil *)
    end
  end.

(** fasttld.go:131-136 *)
Fixpoint mark_entries (a : nat) (entries : list (bytes * nat)) : hprog unit :=
  match entries with
  | [] => hret tt
  | (_, j) :: rest =>
    star <== on a (Get j (str "*")) ;;
    _ <== match star with Some _ => on a (SetEnd j) | None => hret tt end ;;
    mark_entries a rest
  end.
Definition mark_heap (a : nat) : hprog unit :=
  entries <== on a (Scan 0) ;;
  mark_entries a entries.

(** New and Update: the programs of Update.v with the code above in place of the operations on
    whole tries.  They read no nodes otherwise. *)
Fixpoint on_heap {A : Type} (p : prog A) : hprog A :=
  match p with
  | Done r => HDone r
  | Sys o k => HSys o (fun x => on_heap (k x))
  | Mem o k =>
    match o in mem_op R return (R -> hprog A) -> hprog A with
    | NewTrie => fun k => HHeap NewRoot k
    | Insert a keys => fun k => hbind (nested_heap a 0 keys) k
    | MarkWildcards a => fun k => hbind (mark_heap a) k
    | NewExtractor x => fun k => HHeap (MakeExtractor x) k
    | ReadExtractor f => fun k => HHeap (GetExtractor f) k
    | StorePath f path => fun k => HHeap (PutPath f path) k
    | StoreTrie f a => fun k => HHeap (PutTrie f a) k
    | ReadNode _ _ => fun _ => HDone Panic
    end (fun x => on_heap (k x))
  end.

(** fasttld.go:288-338, as [Extract.suffix_loop]; [i] is node. *)
Fixpoint suffix_loop_heap (fuel : nat) (netloc : bytes) (a i : nat)
         (has_suffix has_labels : bool) (sep_idx suffix_start suffix_end : Z) : hprog (err + walk) :=
  match fuel with
  | O => HDone OutOfFuel
  | S f =>
    let previous_sep := sep_idx in
    head <== HDone (slice netloc 0 sep_idx) ;;
    let sep_idx := last_index_any head label_separators_rune_set in
    '(label, end_) <== HDone
      (if negb (sep_idx =? -1)
       then x <- index netloc sep_idx ;;
            l <- slice netloc (sep_idx + sep_size x) previous_sep ;; Ret (l, false)
       else l <- slice netloc 0 previous_sep ;; Ret (l, true)) ;;
    if negb (sep_idx =? -1) && (len label =? 0) then
      if negb has_labels
      then suffix_loop_heap f netloc a i has_suffix has_labels sep_idx suffix_start sep_idx
      else hret (inl ErrConsecutiveSeparators)
    else
      let has_labels := has_labels || negb (sep_idx =? -1) in
      star <== on a (Get i (str "*")) ;;
      match star with
      | Some _ =>
        exception <== on a (Get i (str "!" ++ label)) ;;
        let sep_idx := match exception with Some _ => previous_sep | None => sep_idx end in
        hret (inr (mkWalk has_suffix sep_idx suffix_start suffix_end previous_sep))
      | None =>
        let label := match query_unescape label with inr l => l | inl _ => [] end in
        val <== on a (Get i label) ;;
        match val with
        | Some val =>
          let suffix_start := sep_idx in
          '(suffix_end, has_suffix) <==
            (if negb has_suffix
             then val_end <== on a (ReadEnd val) ;;
                  hret (if val_end : bool then (previous_sep, true) else (suffix_end, has_suffix))
             else hret (suffix_end, has_suffix)) ;;
          size <== on a (Len val) ;;
          if (size =? 0) || end_
          then hret (inr (mkWalk has_suffix sep_idx suffix_start suffix_end previous_sep))
          else suffix_loop_heap f netloc a val has_suffix has_labels sep_idx suffix_start suffix_end
        | None =>
          let sep_idx := if negb (previous_sep =? len netloc) then previous_sep else sep_idx in
          hret (inr (mkWalk has_suffix sep_idx suffix_start suffix_end previous_sep))
        end
      end
  end.

(** fasttld.go:277-399, as [Extract.extract_host]; [a] is f.tldTrie. *)
Definition extract_host_heap (a : nat) (u : result) (netloc : bytes) (ignore : bool)
  : hprog (result * option err) :=
  m <== suffix_loop_heap (S (length netloc)) netloc a 0 false false
                         (len netloc) (len netloc) (len netloc) ;;
  match m with
  | inl e => hret (u, Some e)
  | inr w =>
    v4 <== HDone (ipv4_host netloc) ;;
    if v4 : bool then
      dom <== HDone (slice netloc 0 (w_previous_sep w)) ;;
      hret (with_host_type (with_registered_domain (with_domain u dom) dom) HIPv4, None)
    else HDone (host_components u netloc ignore w)
  end.

(** fasttld.go:142-400 Extract *)
Definition extract_heap (ext : idna) (f : nat) (p : url_params) : hprog (result * option err) :=
  front <== HDone (extract_front ext p) ;;
  match front with
  | inl r => hret r
  | inr (u, host) =>
    x <== HHeap (GetExtractor f) hret ;;
    extract_host_heap (x_trie x) u host (p_ignore_sub_domains p)
  end.

(** ** Goroutines, as in Calls.v *)

Section Pool.
Variable to_ascii : bytes -> option bytes.
Variable hardcoded : bytes.
Variable ext : idna.

Definition heap_program (c : call) : hprog answer :=
  match c with
  | CallNew n => on_heap (r <~ new to_ascii hardcoded n ;; ret (FromNew r))
  | CallUpdate f => on_heap (r <~ update to_ascii hardcoded f ;; ret (FromUpdate r))
  | CallExtract f p => r <== extract_heap ext f p ;; hret (FromExtract r)
  end.

Record hthread := mkHThread { ht_number : nat; ht_call : call; ht_rest : hprog answer }.
Record hpool := mkHPool { hp_heap : heap; hp_known : list nat; hp_threads : list hthread; hp_count : nat;
                          hp_trace : list event }.

Definition heap_advance (h : heap) (p : hprog answer) (tr : list event) (h' : heap) (p' : hprog answer) : Prop :=
  match p with
  | HDone _ => False
  | HSys o k => h' = h /\ exists x, tr = [Event o x] /\ p' = k x
  | HHeap o k => tr = [] /\ exists x, heap_step o h x h' /\ p' = k x
  end.

Inductive hpool_step : hpool -> hpool -> Prop :=
| hstarts : forall h known ts n tr c, may_call known c ->
    hpool_step (mkHPool h known ts n tr) (mkHPool h known (ts ++ [mkHThread n c (heap_program c)]) (S n) tr)
| hworks : forall h known ts1 i c p ts2 n tr tr' h' p', heap_advance h p tr' h' p' ->
    hpool_step (mkHPool h known (ts1 ++ mkHThread i c p :: ts2) n tr)
               (mkHPool h' known (ts1 ++ mkHThread i c p' :: ts2) n (tr ++ tr'))
| hreturns : forall h known ts1 i c r ts2 n tr,
    hpool_step (mkHPool h known (ts1 ++ mkHThread i c (HDone r) :: ts2) n tr)
               (mkHPool h (returned r ++ known) (ts1 ++ ts2) n tr).

Inductive hpool_steps : hpool -> hpool -> Prop :=
| hsteps_none : forall q, hpool_steps q q
| hsteps_more : forall q1 q2 q3, hpool_steps q1 q2 -> hpool_step q2 q3 -> hpool_steps q1 q3.

Definition first_hpool : hpool :=
  mkHPool (mkHeap (fun _ => new_region) 0 (fun _ => mkExtractor [] 0 false) 0) [] [] 0 [].
End Pool.
