(** SeenSpec.v - what can be seen of calls that run pointer by pointer, on ordered memory (Heap.v)
    and on memory that orders nothing by itself (Weak.v). *)

From Verif Require Import Base Extract World Calls LinSpec Heap Weak WeakSpec.

Section Seen.
Variable to_ascii : bytes -> option bytes.
Variable hardcoded : bytes.
Variable ext : idna.

(** The executions of Heap.v with what can be seen of them, as in LinSpec.v. *)
Inductive hseen : hpool -> list moment -> Prop :=
| hseen_first : hseen first_hpool []
| hseen_begins : forall h known ts n tr l c, hseen (mkHPool h known ts n tr) l -> may_call known c ->
    hseen (mkHPool h known (ts ++ [mkHThread n c (heap_program to_ascii hardcoded ext c)]) (S n) tr) (l ++ [Begins n c])
| hseen_asks : forall h known ts1 i c p ts2 n tr tr' h' p' l,
    hseen (mkHPool h known (ts1 ++ mkHThread i c p :: ts2) n tr) l -> heap_advance h p tr' h' p' ->
    hseen (mkHPool h' known (ts1 ++ mkHThread i c p' :: ts2) n (tr ++ tr')) (l ++ map (Asks i) tr')
| hseen_ends : forall h known ts1 i c r ts2 n tr l,
    hseen (mkHPool h known (ts1 ++ mkHThread i c (HDone r) :: ts2) n tr) l ->
    hseen (mkHPool h (returned r ++ known) (ts1 ++ ts2) n tr) (l ++ [Ends i r]).

(** The executions of Weak.v in which the running calls are as [ok] says after every step. *)
Inductive wseen (ok : list wthread -> Prop) : wpool -> list moment -> Prop :=
| wseen_first : wseen ok first_wpool []
| wseen_begins : forall w known ts n tr d l c, wseen ok (mkWPool w known ts n tr d) l -> may_call known c ->
    let ts' := ts ++ [mkWThread n c (heap_program to_ascii hardcoded ext c) d] in
    ok ts' -> wseen ok (mkWPool w known ts' (S n) tr d) (l ++ [Begins n c])
| wseen_asks : forall w known ts1 i c p v ts2 n tr d tr' w' v' p' l,
    wseen ok (mkWPool w known (ts1 ++ mkWThread i c p v :: ts2) n tr d) l -> weak_advance w v p tr' w' v' p' ->
    ok (ts1 ++ mkWThread i c p' v' :: ts2) ->
    wseen ok (mkWPool w' known (ts1 ++ mkWThread i c p' v' :: ts2) n (tr ++ tr') d) (l ++ map (Asks i) tr')
| wseen_ends : forall w known ts1 i c r v ts2 n tr d l,
    wseen ok (mkWPool w known (ts1 ++ mkWThread i c (HDone r) v :: ts2) n tr d) l -> ok (ts1 ++ ts2) ->
    wseen ok (mkWPool w (returned r ++ known) (ts1 ++ ts2) n tr (join d v)) (l ++ [Ends i r]).
End Seen.
(** Any calls may be running. *)
Definition any_calls (ts : list wthread) : Prop := True.

(** The same was seen, but for the answers of Extracts whose numbers are not in [T]. *)
Definition same_moment (T : nat -> bool) (l : list moment) (a b : moment) : Prop :=
  a = b \/ exists i f p r1 r2, a = Ends i r1 /\ b = Ends i r2 /\ T i = false
           /\ In (Begins i (CallExtract f p)) l.
Definition same_moments (T : nat -> bool) (l l' : list moment) : Prop := Forall2 (same_moment T l) l l'.

(** The calls that have begun and not ended, with their numbers. *)
Definition running_after (rs : list (nat * call)) (m : moment) : list (nat * call) :=
  match m with
  | Begins i c => rs ++ [(i, c)]
  | Asks _ _ => rs
  | Ends i _ => filter (fun x => negb (Nat.eqb (fst x) i)) rs
  end.
Definition running_calls (l : list moment) : list (nat * call) := fold_left running_after l [].
(** No Update of an extractor overlaps an Extract of it whose number is in [T]. *)
Definition calm (T : nat -> bool) (l : list moment) : Prop :=
  forall l1 l2 i f p j, l = l1 ++ l2 -> T i = true ->
  In (i, CallExtract f p) (running_calls l1) -> ~ In (j, CallUpdate f) (running_calls l1).
