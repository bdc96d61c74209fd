(** Calls.v - Extract as a program that reads the memory, and goroutines that call New, Update
    and Extract at the same time.

    Extract.v models Extract as a function of the trie.  Here the same code reads the trie node
    by node, so that other goroutines can run in between. *)

From Verif Require Import Base Utf8 Str Net Trie Extract World Update.
Local Open Scope Z_scope.

(** fasttld.go:142-275: Extract up to the point where it looks at the extractor.  Either the
    result is known, or the components so far and the host are passed on.  The text is that of
    [Extract.extract]. *)
Definition extract_front (ext : idna) (p : url_params)
  : outcome ((result * option err) + (result * bytes)) :=
  let u := empty_result in
  (* 145-150 *)
  netloc <- fast_trim (p_url p) whitespace_rune_set TrimBoth ;;
  let scheme_end := get_scheme_end_index netloc in
  '(u, netloc) <-
    (if negb (scheme_end =? -1)
     then a <- slice netloc 0 scheme_end ;; b <- slice netloc scheme_end (len netloc) ;;
          Ret (with_scheme u a, b)
     else Ret (u, netloc)) ;;
  (* 152-156 *)
  at_idx <- index_last_byte_before netloc 64 invalid_user_info_chars_set ;;
  '(u, netloc) <-
    (if negb (at_idx =? -1)
     then a <- slice netloc 0 at_idx ;; b <- slice netloc (at_idx + 1) (len netloc) ;;
          Ret (with_user_info u a, b)
     else Ret (u, netloc)) ;;
  (* 158-199 *)
  match scan_host netloc 0 (len netloc) (-1) (-1) with
  | inl e => Ret (inl (u, Some e))
  | inr (opening, closing, host_end) =>
    (* 201-205 *)
    let host_end := if closing =? len netloc - 1 then -1
                    else if negb (closing =? -1) then closing + 1 else host_end in
    (* 207-224 *)
    '(u, e) <-
      (if closing >? opening then
         inner <- slice netloc 1 closing ;;
         v6 <- is_ipv6 inner ;;
         if negb v6 then Ret (u, Some ErrInvalidIPv6)
         else
           trailing_ok <- (if negb (host_end =? -1)
                           then a <- slice netloc host_end (len netloc) ;;
                                Ret (index_any_ascii a end_of_host_delimiters_set =? 0)
                           else Ret true) ;;
           if negb trailing_ok then Ret (u, Some ErrTrailingAfterIPv6)
           else Ret (with_registered_domain (with_domain (with_host_type u HIPv6) inner) inner,
                     None)
       else Ret (u, None)) ;;
    match e with
    | Some e => Ret (inl (u, Some e))
    | None =>
      (* 226-231 *)
      '(after_host, netloc) <-
        (if negb (host_end =? -1)
         then a <- slice netloc host_end (len netloc) ;; b <- slice netloc 0 host_end ;; Ret (a, b)
         else Ret ([], netloc)) ;;
      (* 233-255 *)
      '(u, e) <- port_path u after_host ;;
      match e with
      | Some e => Ret (inl (u, Some e))
      | None =>
        match r_host_type u with
        | HIPv6 => Ret (inl (u, None))
        | _ =>
          match convert_host ext (p_to_punycode p) netloc with
          | inl e => Ret (inl (u, Some e))
          | inr host => Ret (inr (u, host))
          end
        end
      end
    end
  end.

(** fasttld.go:288-338, as [Extract.suffix_loop]; the current node is the one below root [a]
    that the labels [path] lead to. *)
Fixpoint suffix_loop_prog (fuel : nat) (netloc : bytes) (a : nat) (path : list bytes)
         (has_suffix has_labels : bool) (sep_idx suffix_start suffix_end : Z) : prog (err + walk) :=
  match fuel with
  | O => Done OutOfFuel
  | S f =>
    let previous_sep := sep_idx in
    head <~ Done (slice netloc 0 sep_idx) ;;
    let sep_idx := last_index_any head label_separators_rune_set in
    '(label, end_) <~ Done
      (if negb (sep_idx =? -1)
       then x <- index netloc sep_idx ;;
            l <- slice netloc (sep_idx + sep_size x) previous_sep ;; Ret (l, false)
       else l <- slice netloc 0 previous_sep ;; Ret (l, true)) ;;
    if negb (sep_idx =? -1) && (len label =? 0) then
      if negb has_labels
      then suffix_loop_prog f netloc a path has_suffix has_labels sep_idx suffix_start sep_idx
      else ret (inl ErrConsecutiveSeparators)
    else
      let has_labels := has_labels || negb (sep_idx =? -1) in
      star <~ mem_do (ReadNode a (path ++ [str "*"])) ;;
      match star with
      | Some _ =>
        exception <~ mem_do (ReadNode a (path ++ [str "!" ++ label])) ;;
        let sep_idx := match exception with Some _ => previous_sep | None => sep_idx end in
        ret (inr (mkWalk has_suffix sep_idx suffix_start suffix_end previous_sep))
      | None =>
        let label := match query_unescape label with inr l => l | inl _ => [] end in
        val <~ mem_do (ReadNode a (path ++ [label])) ;;
        match val with
        | Some (val_end, val_has_matches) =>
          let suffix_start := sep_idx in
          let '(suffix_end, has_suffix) :=
            if negb has_suffix && val_end then (previous_sep, true)
            else (suffix_end, has_suffix) in
          if negb val_has_matches || end_
          then ret (inr (mkWalk has_suffix sep_idx suffix_start suffix_end previous_sep))
          else suffix_loop_prog f netloc a (path ++ [label]) has_suffix has_labels sep_idx suffix_start suffix_end
        | None =>
          let sep_idx := if negb (previous_sep =? len netloc) then previous_sep else sep_idx in
          ret (inr (mkWalk has_suffix sep_idx suffix_start suffix_end previous_sep))
        end
      end
  end.

(** fasttld.go:277-399, as [Extract.extract_host]; [a] is f.tldTrie. *)
Definition extract_host_prog (a : nat) (u : result) (netloc : bytes) (ignore : bool)
  : prog (result * option err) :=
  m <~ suffix_loop_prog (S (length netloc)) netloc a [] false false
                        (len netloc) (len netloc) (len netloc) ;;
  match m with
  | inl e => ret (u, Some e)
  | inr w =>
    v4 <~ Done (ipv4_host netloc) ;;
    if v4 : bool then
      dom <~ Done (slice netloc 0 (w_previous_sep w)) ;;
      ret (with_host_type (with_registered_domain (with_domain u dom) dom) HIPv4, None)
    else Done (host_components u netloc ignore w)
  end.

(** fasttld.go:142-400 Extract *)
Definition extract_prog (ext : idna) (f : nat) (p : url_params) : prog (result * option err) :=
  front <~ Done (extract_front ext p) ;;
  match front with
  | inl r => ret r
  | inr (u, host) =>
    x <~ mem_do (ReadExtractor f) ;;
    extract_host_prog (x_trie x) u host (p_ignore_sub_domains p)
  end.

(** ** Goroutines *)

Inductive call :=
| CallNew (n : list_params)
| CallUpdate (f : nat)
| CallExtract (f : nat) (p : url_params).
Inductive answer :=
| FromNew (r : nat * option io_err)
| FromUpdate (r : option io_err)
| FromExtract (r : result * option err).

Section Pool.
Variable to_ascii : bytes -> option bytes.
Variable hardcoded : bytes.
Variable ext : idna.

Definition program (c : call) : prog answer :=
  match c with
  | CallNew n => r <~ new to_ascii hardcoded n ;; ret (FromNew r)
  | CallUpdate f => r <~ update to_ascii hardcoded f ;; ret (FromUpdate r)
  | CallExtract f p => r <~ extract_prog ext f p ;; ret (FromExtract r)
  end.

(** A call may use an extractor that a call of New has returned before. *)
Definition may_call (known : list nat) (c : call) : Prop :=
  match c with
  | CallNew _ => True
  | CallUpdate f | CallExtract f _ => In f known
  end.
Definition returned (r : outcome answer) : list nat :=
  match r with Ret (FromNew (f, None)) => [f] | _ => [] end.

(** Running calls have numbers.  [p_trace]: the operations on file system, network and clock
    so far, with the answers. *)
Record thread := mkThread { t_number : nat; t_call : call; t_rest : prog answer }.
Record pool := mkPool { p_memory : memory; p_known : list nat; p_threads : list thread; p_count : nat;
                        p_trace : list event }.

(** One operation of a program.  The environment is free to answer anything. *)
Definition advance (m : memory) (p : prog answer) (tr : list event) (m' : memory) (p' : prog answer) : Prop :=
  match p with
  | Done _ => False
  | Sys o k => m' = m /\ exists x, tr = [Event o x] /\ p' = k x
  | Mem o k => tr = [] /\ m' = snd (mem_step o m) /\ p' = k (fst (mem_step o m))
  end.

(** The operations of the goroutines happen in some order, each seeing the memory the previous
    one left (sequential consistency). *)
Inductive pool_step : pool -> pool -> Prop :=
| starts : forall m known ts n tr c, may_call known c ->
    pool_step (mkPool m known ts n tr) (mkPool m known (ts ++ [mkThread n c (program c)]) (S n) tr)
| works : forall m known ts1 i c p ts2 n tr tr' m' p', advance m p tr' m' p' ->
    pool_step (mkPool m known (ts1 ++ mkThread i c p :: ts2) n tr)
              (mkPool m' known (ts1 ++ mkThread i c p' :: ts2) n (tr ++ tr'))
| returns : forall m known ts1 i c r ts2 n tr,
    pool_step (mkPool m known (ts1 ++ mkThread i c (Done r) :: ts2) n tr)
              (mkPool m (returned r ++ known) (ts1 ++ ts2) n tr).

Inductive pool_steps : pool -> pool -> Prop :=
| steps_none : forall q, pool_steps q q
| steps_more : forall q1 q2 q3, pool_steps q1 q2 -> pool_step q2 q3 -> pool_steps q1 q3.

(** The same while no Update of extractor [f] is running. *)
Inductive quiet_steps (f : nat) : pool -> pool -> Prop :=
| quiet_none : forall q, quiet_steps f q q
| quiet_more : forall q1 q2 q3, quiet_steps f q1 q2 -> pool_step q2 q3 ->
    (forall th, In th (p_threads q2) -> t_call th <> CallUpdate f) -> quiet_steps f q1 q3.

(** The state of a program that has not used the package yet. *)
Definition first_pool : pool :=
  mkPool (mkMemory (fun _ => empty_trie) 0 (fun _ => mkExtractor [] 0 false) 0) [] [] 0 [].
End Pool.
