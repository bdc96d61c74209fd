(** Table.v - the hash tables of the trie: hashmap.Map of github.com/tidwall/hashmap v1.8.1
    (go.mod:15), as used in fasttld.go:76-139 and 286-338.

    In Trie.v and Heap.v the map of a node is an association list.  Here it is the open-addressing
    table of the library, with its 16-bit distances.  The library is not part of /repo; New, Set,
    Get, Len, Scan and resize are written down from knowledge of its file map.go.  The hash
    function (xxh3.HashString(key) >> 16, 48 bits wide) is a parameter. *)

From Verif Require Import Base Str Net Trie Extract Psl World Update Calls.

(** [e_hash] and [e_dib] are the two parts of hdib; [e_dib], one more than the distance from the
    bucket the hash asks for, has 16 bits, and is 0 in an unused bucket.  A value is a pointer,
    [None] is nil. *)
Record entry (V : Type) := mkEntry { e_hash : N; e_dib : N; e_value : option V; e_key : bytes }.
Arguments mkEntry {V}.
Arguments e_hash {V}.
Arguments e_dib {V}.
Arguments e_value {V}.
Arguments e_key {V}.
(** cap and shrinkAt are used by Delete only, which the package does not call. *)
Record table (V : Type) := mkTable { t_length : N; t_mask : N; t_grow_at : N; t_buckets : list (entry V) }.
Arguments mkTable {V}.
Arguments t_length {V}.
Arguments t_mask {V}.
Arguments t_grow_at {V}.
Arguments t_buckets {V}.

Section Table.
Context {V : Type}.
Variable hash : bytes -> N.

Definition unused : entry V := mkEntry 0 0 None [].
(** The zero value of Map (fasttld.go:89, 102). *)
Definition zero_table : table V := mkTable 0 0 0 [].
(** makeHDIB, setDIB *)
Definition max_dib : N := 65535.
Definition make_entry (h dib : N) (value : option V) (key : bytes) : entry V := mkEntry h (N.land dib max_dib) value key.
Definition set_dib (e : entry V) (dib : N) : entry V := mkEntry (e_hash e) (N.land dib max_dib) (e_value e) (e_key e).
Definition set_value (e : entry V) (value : option V) : entry V := mkEntry (e_hash e) (e_dib e) value (e_key e).

(** m.buckets[i] *)
Definition bucket (bs : list (entry V)) (i : N) : outcome (entry V) :=
  match nth_error bs (N.to_nat i) with Some b => Ret b | None => Panic end.
Fixpoint put_bucket (bs : list (entry V)) (i : nat) (e : entry V) : list (entry V) :=
  match bs, i with
  | [], _ => []
  | _ :: bs', O => e :: bs'
  | b :: bs', S i' => b :: put_bucket bs' i' e
  end.

(** New; float64(len) * 0.85 is 17 * len / 20 up to its fraction, since the length is a power of
    two, at least 8. *)
Fixpoint size_loop (fuel : nat) (sz cap : N) : outcome N :=
  if (sz <? cap)%N then
    match fuel with
    | O => OutOfFuel
    | S f => size_loop f (sz * 2) cap
    end
  else Ret sz.
Definition new_table (cap : N) : outcome (table V) :=
  sz <- size_loop (S (N.to_nat (N.log2 cap))) 8 cap ;;
  Ret (mkTable 0 (sz - 1) (sz * 17 / 20) (repeat unused (N.to_nat sz))).

(** set; the flag says that m.length++ was done. *)
Fixpoint set_loop (fuel : nat) (mask : N) (bs : list (entry V)) (e : entry V) (i : N) : outcome (list (entry V) * bool) :=
  match fuel with
  | O => OutOfFuel
  | S f =>
    b <- bucket bs i ;;
    if (e_dib b =? 0)%N then Ret (put_bucket bs (N.to_nat i) e, true)
    else if (e_hash e =? e_hash b)%N && bytes_eqb (e_key e) (e_key b) then
      Ret (put_bucket bs (N.to_nat i) (set_value b (e_value e)), false)
    else
      let '(e, bs) := if (e_dib b <? e_dib e)%N then (b, put_bucket bs (N.to_nat i) e) else (e, bs) in
      set_loop f mask bs (set_dib e (e_dib e + 1)) (N.land (i + 1) mask)
  end.
Definition set_entry (m : table V) (h : N) (key : bytes) (value : option V) : outcome (table V) :=
  let e := make_entry h 1 value key in
  '(bs, longer) <- set_loop (S (length (t_buckets m))) (t_mask m) (t_buckets m) e (N.land (e_hash e) (t_mask m)) ;;
  Ret (mkTable (if longer : bool then t_length m + 1 else t_length m) (t_mask m) (t_grow_at m) bs).

(** resize *)
Fixpoint move_all (bs : list (entry V)) (m : table V) : outcome (table V) :=
  match bs with
  | [] => Ret m
  | b :: bs' =>
    m <- (if (0 <? e_dib b)%N then set_entry m (e_hash b) (e_key b) (e_value b) else Ret m) ;;
    move_all bs' m
  end.
Definition resize (m : table V) (cap : N) : outcome (table V) :=
  n <- new_table cap ;;
  move_all (t_buckets m) n.

(** Set *)
Definition table_set (m : table V) (key : bytes) (value : option V) : outcome (table V) :=
  m <- (if (length (t_buckets m) =? 0)%nat then new_table 0 else Ret m) ;;
  m <- (if (t_grow_at m <=? t_length m)%N then resize m (N.of_nat (length (t_buckets m)) * 2) else Ret m) ;;
  set_entry m (hash key) key value.

(** Get *)
Fixpoint get_loop (fuel : nat) (mask : N) (bs : list (entry V)) (h : N) (key : bytes) (i : N) : outcome (option V * bool) :=
  match fuel with
  | O => OutOfFuel
  | S f =>
    b <- bucket bs i ;;
    if (e_dib b =? 0)%N then Ret (None, false)
    else if (e_hash b =? h)%N && bytes_eqb (e_key b) key then Ret (e_value b, true)
    else get_loop f mask bs h key (N.land (i + 1) mask)
  end.
Definition table_get (m : table V) (key : bytes) : outcome (option V * bool) :=
  if (length (t_buckets m) =? 0)%nat then Ret (None, false)
  else get_loop (S (length (t_buckets m))) (t_mask m) (t_buckets m) (hash key) key (N.land (hash key) (t_mask m)).

(** Get while another goroutine writes the map, if the field mask is seen as in [mask_of] and the
    field buckets as in [buckets_of]. *)
Definition torn_get (fuel : nat) (mask_of buckets_of : table V) (key : bytes) : outcome (option V * bool) :=
  if (length (t_buckets buckets_of) =? 0)%nat then Ret (None, false)
  else get_loop fuel (t_mask mask_of) (t_buckets buckets_of) (hash key) key (N.land (hash key) (t_mask mask_of)).

(** Len *)
Definition table_len (m : table V) : N := t_length m.
(** Scan: the keys and values that are visited. *)
Definition table_scan (m : table V) : list (bytes * option V) :=
  map (fun b => (e_key b, e_value b)) (filter (fun b => (0 <? e_dib b)%N) (t_buckets m)).

(** An assignment to what the values point to: [f] gives the new contents for a key. *)
Definition table_assign (m : table V) (f : bytes -> V -> V) : table V :=
  mkTable (t_length m) (t_mask m) (t_grow_at m)
    (map (fun b => set_value b (match e_value b with Some v => Some (f (e_key b) v) | None => None end)) (t_buckets m)).
End Table.

(** ** The trie *)

Section Tries.
Variable hash : bytes -> N.

(** fasttld.go:76-79 *)
Inductive ttrie : Type :=
| TNode (end_ : bool) (matches : table ttrie).
Definition t_end (t : ttrie) : bool := let 'TNode e _ := t in e.
Definition t_matches (t : ttrie) : table ttrie := let 'TNode _ m := t in m.

(** fasttld.go:85-96 nestedDict.  Pointers form a tree (C95), so that assignments below a node are
    assignments to what the entry for the key points to. *)
Fixpoint nested_tables (dic : ttrie) (keys : list bytes) : outcome ttrie :=
  match keys with
  | [] => Ret (TNode true (t_matches dic))
  | key :: keys' =>
    '(_, ok) <- table_get hash (t_matches dic) key ;;
    m <- (if negb ok then table_set hash (t_matches dic) key (Some (TNode false zero_table)) else Ret (t_matches dic)) ;;
    '(sub, _) <- table_get hash m key ;;
    match sub with
    | None => Panic               (* dic is nil *)
    | Some sub =>
      sub <- nested_tables sub keys' ;;
      Ret (TNode (t_end dic) (table_assign m (fun k old => if bytes_eqb k key then sub else old)))
    end
  end.

(** fasttld.go:131-136; the visited values are looked at one after the other. *)
Fixpoint check_all (l : list (bytes * option ttrie)) : outcome unit :=
  match l with
  | [] => Ret tt
  | (_, None) :: _ => Panic
  | (_, Some v) :: l' => _ <- table_get hash (t_matches v) (str "*") ;; check_all l'
  end.
Definition mark_one (v : ttrie) : ttrie :=
  match table_get hash (t_matches v) (str "*") with
  | Ret (_, true) => TNode true (t_matches v)
  | _ => v
  end.
Definition mark_tables (t : ttrie) : outcome ttrie :=
  _ <- check_all (table_scan (t_matches t)) ;;
  Ret (TNode (t_end t) (table_assign (t_matches t) (fun _ v => mark_one v))).

(** fasttld.go:125-129 *)
Fixpoint insert_tables (t : ttrie) (suffix_list : list bytes) : outcome ttrie :=
  match suffix_list with
  | [] => Ret t
  | suffix :: rest =>
    sp <- reverse (split_byte suffix 46) ;;
    t <- nested_tables t sp ;;
    insert_tables t rest
  end.
Definition build_tables (suffix_list : list bytes) : outcome ttrie :=
  t <- insert_tables (TNode false zero_table) suffix_list ;;
  mark_tables t.

Local Open Scope Z_scope.
(** fasttld.go:288-338, as [Extract.suffix_loop]. *)
Fixpoint suffix_loop_tables (fuel : nat) (netloc : bytes) (node : ttrie)
         (has_suffix has_labels : bool) (sep_idx suffix_start suffix_end : Z) : outcome (err + walk) :=
  match fuel with
  | O => OutOfFuel
  | S f =>
    let previous_sep := sep_idx in
    head <- slice netloc 0 sep_idx ;;
    let sep_idx := last_index_any head label_separators_rune_set in
    '(label, end_) <-
      (if negb (sep_idx =? -1)
       then x <- index netloc sep_idx ;;
            l <- slice netloc (sep_idx + sep_size x) previous_sep ;; Ret (l, false)
       else l <- slice netloc 0 previous_sep ;; Ret (l, true)) ;;
    if negb (sep_idx =? -1) && (len label =? 0) then
      if negb has_labels
      then suffix_loop_tables f netloc node has_suffix has_labels sep_idx suffix_start sep_idx
      else Ret (inl ErrConsecutiveSeparators)
    else
      let has_labels := has_labels || negb (sep_idx =? -1) in
      '(_, star) <- table_get hash (t_matches node) (str "*") ;;
      if star : bool then
        '(_, exception) <- table_get hash (t_matches node) (str "!" ++ label) ;;
        let sep_idx := if exception : bool then previous_sep else sep_idx in
        Ret (inr (mkWalk has_suffix sep_idx suffix_start suffix_end previous_sep))
      else
        let label := match query_unescape label with inr l => l | inl _ => [] end in
        '(val, ok) <- table_get hash (t_matches node) label ;;
        if ok : bool then
          match val with
          | None => Panic         (* val is nil *)
          | Some val =>
            let suffix_start := sep_idx in
            let '(suffix_end, has_suffix) :=
              if negb has_suffix && t_end val then (previous_sep, true)
              else (suffix_end, has_suffix) in
            if (table_len (t_matches val) =? 0)%N || end_
            then Ret (inr (mkWalk has_suffix sep_idx suffix_start suffix_end previous_sep))
            else suffix_loop_tables f netloc val has_suffix has_labels sep_idx suffix_start suffix_end
          end
        else
          let sep_idx := if negb (previous_sep =? len netloc) then previous_sep else sep_idx in
          Ret (inr (mkWalk has_suffix sep_idx suffix_start suffix_end previous_sep))
  end.

(** fasttld.go:277-399 *)
Definition extract_host_tables (tld_trie : ttrie) (u : result) (netloc : bytes) (ignore : bool)
  : outcome (result * option err) :=
  m <- suffix_loop_tables (S (length netloc)) netloc tld_trie false false
                          (len netloc) (len netloc) (len netloc) ;;
  match m with
  | inl e => Ret (u, Some e)
  | inr w =>
    v4 <- ipv4_host netloc ;;
    if v4 : bool then
      dom <- slice netloc 0 (w_previous_sep w) ;;
      Ret (with_host_type (with_registered_domain (with_domain u dom) dom) HIPv4, None)
    else host_components u netloc ignore w
  end.

(** fasttld.go:142-400 Extract *)
Definition extract_tables (ext : idna) (tld_trie : ttrie) (p : url_params) : outcome (result * option err) :=
  front <- extract_front ext p ;;
  match front with
  | inl r => Ret r
  | inr (u, host) => extract_host_tables tld_trie u host (p_ignore_sub_domains p)
  end.
End Tries.
