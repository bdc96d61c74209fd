(** LinSpec.v - calls running at the same time, as seen from outside, and a machine in which every
    call takes effect at one moment.  As in LibSpec.v, an extractor of the machine is a path, a
    flag and the text of a list; there are no tries and no memory.  What a call asks of the file
    system, the network and the clock, and what it makes of the answers, is described
    completely. *)

From Verif Require Import Base Chars Extract World Update Calls ListSpec UpdateSpec NewSpec ErrSpec LibSpec.
Local Open Scope Z_scope.

(** ** What can be seen *)

(** Call number [i] begins; asks something of the environment and is answered; ends. *)
Inductive moment :=
| Begins (i : nat) (c : call)
| Asks (i : nat) (e : event)
| Ends (i : nat) (o : outcome answer).

(** The executions of Calls.v with what can be seen of them.  Operations on the memory cannot be
    seen. *)
Inductive seen (to_ascii : bytes -> option bytes) (hardcoded : bytes) (ext : idna) : pool -> list moment -> Prop :=
| seen_first : seen to_ascii hardcoded ext first_pool []
| seen_begins : forall m known ts n tr l c, seen to_ascii hardcoded ext (mkPool m known ts n tr) l -> may_call known c ->
    seen to_ascii hardcoded ext (mkPool m known (ts ++ [mkThread n c (program to_ascii hardcoded ext c)]) (S n) tr)
         (l ++ [Begins n c])
| seen_asks : forall m known ts1 i c p ts2 n tr tr' m' p' l,
    seen to_ascii hardcoded ext (mkPool m known (ts1 ++ mkThread i c p :: ts2) n tr) l -> advance m p tr' m' p' ->
    seen to_ascii hardcoded ext (mkPool m' known (ts1 ++ mkThread i c p' :: ts2) n (tr ++ tr')) (l ++ map (Asks i) tr')
| seen_ends : forall m known ts1 i c r ts2 n tr l,
    seen to_ascii hardcoded ext (mkPool m known (ts1 ++ mkThread i c (Done r) :: ts2) n tr) l ->
    seen to_ascii hardcoded ext (mkPool m (returned r ++ known) (ts1 ++ ts2) n tr) (l ++ [Ends i r]).

(** ** What the calls ask *)

(** The sources are tried one after the other until the list of one is installed. *)
Inductive attempts (file : nat) : list bytes -> list event -> bool -> Prop :=
| attempts_end : attempts file [] [] false
| attempts_next : forall s rest tr tr' ok, attempt file s tr false -> attempts file rest tr' ok ->
    attempts file (s :: rest) (tr ++ tr') ok
| attempts_done : forall s rest tr, attempt file s tr true -> attempts file (s :: rest) tr true.

(** Update of an extractor with path [own]: what it asks, and the error or the text it reads. *)
Inductive update_asks (own : bytes) : list event -> io_err + bytes -> Prop :=
| asks_other : forall temp, temp ++ str "public_suffix_list.dat" <> own ->
    update_asks own [Event TempDir temp] (inl ErrNoOp)
| asks_closed : forall temp, temp ++ str "public_suffix_list.dat" = own ->
    update_asks own [Event TempDir temp; Event (OpenWrite own) None] (inl ErrOpenCache)
| asks_no_source : forall temp file tr, temp ++ str "public_suffix_list.dat" = own ->
    attempts file the_sources tr false ->
    update_asks own (Event TempDir temp :: Event (OpenWrite own) (Some file) :: tr) (inl ErrNoSource)
| asks_unreadable : forall temp file tr, temp ++ str "public_suffix_list.dat" = own ->
    attempts file the_sources tr true ->
    update_asks own (Event TempDir temp :: Event (OpenWrite own) (Some file) :: tr ++ [Event (ReadFile own) None]) (inl ErrReadList)
| asks_text : forall temp file tr text, temp ++ str "public_suffix_list.dat" = own ->
    attempts file the_sources tr true ->
    update_asks own (Event TempDir temp :: Event (OpenWrite own) (Some file) :: tr ++ [Event (ReadFile own) (Some text)]) (inr text).

(** Looking for a list file at a path: the age of the file, if it is one. *)
Inductive looks (path : bytes) : list event -> option Z -> Prop :=
| looks_list : forall p q mtime now text, trimmed white_space path p -> has_markers text ->
    looks path [Event (Abs p) (Some q); Event (Stat q) (Some (false, mtime)); Event Now now; Event (ReadFile q) (Some text)]
          (Some (now - mtime))
| looks_absent : forall p abs q c, trimmed white_space path p -> q = match abs with Some q => q | None => [] end ->
    looks path [Event (Abs p) abs; Event (Stat q) None; Event (ReadFile q) c] None
| looks_other : forall p abs q dir mtime now c, trimmed white_space path p -> q = match abs with Some q => q | None => [] end ->
    abs = None \/ dir = true \/ (forall text, c = Some text -> ~ has_markers text) ->
    looks path [Event (Abs p) abs; Event (Stat q) (Some (dir, mtime)); Event Now now; Event (ReadFile q) c] None.

(** New with a path: what it asks, and the list it uses. *)
Inductive new_asks (given : bytes) : list event -> list_used -> Prop :=
| asks_nothing : forall tr age, looks given tr (Some age) -> given = [] -> new_asks given tr BuiltIn
| asks_given : forall tr age c, looks given tr (Some age) -> given <> [] ->
    new_asks given (tr ++ [Event (ReadFile given) c]) (match c with Some text => ListFile given text | None => BuiltIn end)
| asks_folder : forall tr temp, looks given tr None -> new_asks given (tr ++ [Event TempDir temp; Event (OpenDir temp) false]) BuiltIn
| asks_cache : forall tr temp path tr' age c, looks given tr None -> path = temp ++ str "public_suffix_list.dat" ->
    looks path tr' (Some age) -> age <= 72 * 3600 * 1000000000 ->
    new_asks given (tr ++ [Event TempDir temp; Event (OpenDir temp) true] ++ tr' ++ [Event (ReadFile path) c])
             (match c with Some text => ListFile path text | None => BuiltIn end)
| asks_update : forall tr temp path tr' old tr'' u, looks given tr None -> path = temp ++ str "public_suffix_list.dat" ->
    looks path tr' old -> (forall age, old = Some age -> 72 * 3600 * 1000000000 < age) ->
    update_asks path tr'' u ->
    new_asks given (tr ++ [Event TempDir temp; Event (OpenDir temp) true] ++ tr' ++ tr'')
             (match u with inr text => ListFile path text | inl _ => BuiltIn end).

(** ** The machine *)

Section Atomic.
Variable to_ascii : bytes -> option bytes.
Variable hardcoded : bytes.
Variable ext : idna.

(** The effect of a call that has been answered [tr], all at once. *)
Inductive effect (views : nat -> option view) : call -> list event -> answer -> (nat -> option view) -> Prop :=
| effect_new : forall n tr f x, views f = None -> new_asks (lp_path n) tr x ->
    effect views (CallNew n) tr (FromNew (f, None)) (with_view views f (view_of hardcoded (lp_private n) x))
| effect_failed : forall f v tr e, views f = Some v -> update_asks (v_path v) tr (inl e) ->
    effect views (CallUpdate f) tr (FromUpdate (Some e)) views
| effect_updated : forall f v tr text, views f = Some v -> update_asks (v_path v) tr (inr text) ->
    effect views (CallUpdate f) tr (FromUpdate None) (with_view views f (mkView (v_path v) (v_private v) text))
| effect_extract : forall f v rules p r e, views f = Some v -> used_rules to_ascii (v_text v) (v_private v) rules ->
    extracts ext rules p r e -> effect views (CallExtract f p) [] (FromExtract (r, e)) views.

(** A running call: what it has been answered, and its own answer from the moment on at which it
    takes effect. *)
Record running := mkRunning { g_call : call; g_asked : list event; g_answer : option answer }.
Definition no_calls (i : nat) : option running := None.

(** [atomic views known calls l]: the machine may show [l] and have these extractors, have
    returned [known] and be running [calls]. *)
Inductive atomic : (nat -> option view) -> list nat -> (nat -> option running) -> list moment -> Prop :=
| atomic_first : atomic no_views [] no_calls []
| atomic_begins : forall views known calls l i c, atomic views known calls l -> calls i = None -> may_call known c ->
    atomic views known (upd calls i (Some (mkRunning c [] None))) (l ++ [Begins i c])
| atomic_asks : forall views known calls l i c tr e, atomic views known calls l -> calls i = Some (mkRunning c tr None) ->
    atomic views known (upd calls i (Some (mkRunning c (tr ++ [e]) None))) (l ++ [Asks i e])
| atomic_effect : forall views known calls l i c tr a views', atomic views known calls l ->
    calls i = Some (mkRunning c tr None) -> effect views c tr a views' ->
    atomic views' known (upd calls i (Some (mkRunning c tr (Some a)))) l
| atomic_ends : forall views known calls l i c tr a, atomic views known calls l ->
    calls i = Some (mkRunning c tr (Some a)) ->
    atomic views (returned (Ret a) ++ known) (upd calls i None) (l ++ [Ends i (Ret a)]).
End Atomic.
