(** LibSpec.v - the whole library as an abstract machine.  Its state are the files and, for every
    extractor, the path, the flag and the text of its list; there are no tries and no memory. *)

From Verif Require Import Base Chars Extract World Update Calls ListSpec UpdateSpec NewSpec ErrSpec.

Record view := mkView { v_path : bytes; v_private : bool; v_text : bytes }.
Definition no_views (f : nat) : option view := None.
Definition with_view (views : nat -> option view) (f : nat) (v : view) : nat -> option view :=
  fun g => if Nat.eqb g f then Some v else views g.

Section Machine.
Variable to_ascii : bytes -> option bytes.
Variable hardcoded : bytes.
Variable ext : idna.

Definition view_of (private : bool) (x : list_used) : view :=
  match x with
  | BuiltIn => mkView [] private hardcoded
  | ListFile path text => mkView path private text
  end.

(** The error of Update after a refresh of the cache file, if any. *)
Definition update_error (d d' : disk) (y : refresh) (e : option io_err) : Prop :=
  match y with
  | Closed => e = Some ErrOpenCache
  | NotOffered => e = Some ErrNoSource
  | NewText text => (readable d' (default_path d) text /\ e = None)
                    \/ ((forall text, ~ readable d' (default_path d) text) /\ e = Some ErrReadList)
  end.
Definition after_update (views : nat -> option view) (f : nat) (v : view) (y : refresh) (e : option io_err) : nat -> option view :=
  match y, e with
  | NewText text, None => with_view views f (mkView (v_path v) (v_private v) text)
  | _, _ => views
  end.

(** Calls and their answers, with what becomes of files and extractors. *)
Inductive machine : disk -> (nat -> option view) -> call -> answer -> disk -> (nat -> option view) -> Prop :=
| machine_new : forall d views net d' n f x y urls, views f = None -> uses d d' (lp_path n) net x y urls ->
    match y with None => d_entry d' = d_entry d | Some y => files_after d d' y end ->
    machine d views (CallNew n) (FromNew (f, None)) d' (with_view views f (view_of (lp_private n) x))
| machine_no_update : forall d views f v, views f = Some v -> v_path v <> default_path d ->
    machine d views (CallUpdate f) (FromUpdate (Some ErrNoOp)) d views
| machine_update : forall d views net d' f v y urls e, views f = Some v -> v_path v = default_path d ->
    refreshes d net y urls -> files_after d d' y -> update_error d d' y e ->
    machine d views (CallUpdate f) (FromUpdate e) d' (after_update views f v y e)
| machine_extract : forall d views f v rules p r e, views f = Some v ->
    used_rules to_ascii (v_text v) (v_private v) rules -> extracts ext rules p r e ->
    machine d views (CallExtract f p) (FromExtract (r, e)) d views.

(** Histories of the machine.  Between the calls anything may happen to the files. *)
Inductive machine_history : list (call * answer) -> disk -> (nat -> option view) -> Prop :=
| mh_start : forall d, machine_history [] d no_views
| mh_change : forall l d views d', machine_history l d views -> machine_history l d' views
| mh_call : forall l d views c a d' views', machine_history l d views -> machine d views c a d' views' ->
    machine_history (l ++ [(c, a)]) d' views'.

(** Histories of the library: sequences of calls in which seeking and writing succeed, and the
    network has one answer for each URL during a call. *)
Inductive history (m0 : memory) : list (call * answer) -> disk -> memory -> list nat -> Prop :=
| h_start : forall d, history m0 [] d m0 []
| h_change : forall l d m known d', history m0 l d m known -> history m0 l d' m known
| h_call : forall l d m known c net tr d' m' a, history m0 l d m known -> may_call known c ->
    disk_ok d -> unpadded (default_path d) ->
    runs disk_step (program to_ascii hardcoded ext c) d m tr d' m' (Ret a) -> smooth net tr ->
    history m0 (l ++ [(c, a)]) d' m' (returned (Ret a) ++ known).
End Machine.
