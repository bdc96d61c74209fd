(** Procs.v - several processes that use the package on one machine.

    Calls.v lets the environment answer anything.  Here the environment is the disk of World.v,
    shared by processes that start, run and are killed at any time, each with goroutines that
    call New, Update and Extract.  Reading and writing a file are not atomic: both proceed
    piece by piece, and anything may happen between two pieces. *)

From Verif Require Import Base Str Extract World Update Calls.

(** A running call; how many bytes of the write it is in are written; what the read it is in
    has got so far. *)
Record task := mkTask { k_thread : thread; k_done : nat; k_got : bytes }.
Record process := mkProcess { r_memory : memory; r_known : list nat; r_tasks : list task; r_count : nat;
                              r_trace : list event }.

(** What the process itself sees of its state: that of Calls.v. *)
Definition pool_of (r : process) : pool :=
  mkPool (r_memory r) (r_known r) (map k_thread (r_tasks r)) (r_count r) (r_trace r).
(** A process that has not used the package yet. *)
Definition first_process : process :=
  mkProcess (p_memory first_pool) (p_known first_pool) [] (p_count first_pool) (p_trace first_pool).

Section Procs.
Variable to_ascii : bytes -> option bytes.
Variable hardcoded : bytes.
Variable ext : idna.

(** Operations that happen at once. *)
Definition at_once {R : Type} (o : sys R) : Prop :=
  match o with ReadFile _ | Write _ _ => False | _ => True end.

(** A step of one process on the shared disk.  It may add to the history of events.
    - A call begins; a call works on the memory; a call returns (as in Calls.v).
    - An operation that happens at once does what [disk_step] says.
    - psl.go:157 file.Write: the bytes after those written so far are written, at the offset of
      the file handle; the write ends well only if all bytes are written, and may fail any time.
    - psl.go:74,184 os.ReadFile: bytes are read from where reading has got to; reading ends well
      only at the end of the file, and may fail any time. *)
Inductive process_step : disk -> process -> disk -> process -> list event -> Prop :=
| begins : forall d m known ks n tr c, may_call known c ->
    process_step d (mkProcess m known ks n tr)
                 d (mkProcess m known (ks ++ [mkTask (mkThread n c (program to_ascii hardcoded ext c)) 0 []]) (S n) tr) []
| computes : forall d m known ks1 i c R (o : mem_op R) k j g ks2 n tr,
    process_step d (mkProcess m known (ks1 ++ mkTask (mkThread i c (Mem o k)) j g :: ks2) n tr)
                 d (mkProcess (snd (mem_step o m)) known
                      (ks1 ++ mkTask (mkThread i c (k (fst (mem_step o m)))) j g :: ks2) n tr) []
| asks : forall d d' m known ks1 i c R (o : sys R) k j g ks2 n tr x, at_once o -> disk_step R o d x d' ->
    process_step d (mkProcess m known (ks1 ++ mkTask (mkThread i c (Sys o k)) j g :: ks2) n tr)
                 d' (mkProcess m known (ks1 ++ mkTask (mkThread i c (k x)) j g :: ks2) n (tr ++ [Event o x]))
                 [Event o x]
| writes_some : forall d m known ks1 i c fd data k j j' g ks2 n tr, (j <= j' <= length data)%nat ->
    process_step d (mkProcess m known (ks1 ++ mkTask (mkThread i c (Sys (Write fd data) k)) j g :: ks2) n tr)
                 (written d fd (firstn (j' - j) (skipn j data)))
                 (mkProcess m known (ks1 ++ mkTask (mkThread i c (Sys (Write fd data) k)) j' g :: ks2) n tr) []
| writes_end : forall d m known ks1 i c fd data k j g ks2 n tr ok, (ok = true -> j = length data) ->
    process_step d (mkProcess m known (ks1 ++ mkTask (mkThread i c (Sys (Write fd data) k)) j g :: ks2) n tr)
                 d (mkProcess m known (ks1 ++ mkTask (mkThread i c (k ok)) 0 g :: ks2) n
                      (tr ++ [Event (Write fd data) ok])) [Event (Write fd data) ok]
| reads_some : forall d m known ks1 i c path k j g len' text mtime wr ks2 n tr,
    at_path d path = Regular text mtime true wr ->
    process_step d (mkProcess m known (ks1 ++ mkTask (mkThread i c (Sys (ReadFile path) k)) j g :: ks2) n tr)
                 d (mkProcess m known (ks1 ++ mkTask (mkThread i c (Sys (ReadFile path) k)) j
                                               (g ++ firstn len' (skipn (length g) text)) :: ks2) n tr) []
| reads_end : forall d m known ks1 i c path k j g ks2 n tr text mtime wr,
    at_path d path = Regular text mtime true wr -> (length text <= length g)%nat ->
    process_step d (mkProcess m known (ks1 ++ mkTask (mkThread i c (Sys (ReadFile path) k)) j g :: ks2) n tr)
                 d (mkProcess m known (ks1 ++ mkTask (mkThread i c (k (Some g))) j [] :: ks2) n
                      (tr ++ [Event (ReadFile path) (Some g)])) [Event (ReadFile path) (Some g)]
| reads_fail : forall d m known ks1 i c path k j g ks2 n tr,
    process_step d (mkProcess m known (ks1 ++ mkTask (mkThread i c (Sys (ReadFile path) k)) j g :: ks2) n tr)
                 d (mkProcess m known (ks1 ++ mkTask (mkThread i c (k None)) j [] :: ks2) n
                      (tr ++ [Event (ReadFile path) None])) [Event (ReadFile path) None]
| gives_back : forall d m known ks1 i c r j g ks2 n tr,
    process_step d (mkProcess m known (ks1 ++ mkTask (mkThread i c (Done r)) j g :: ks2) n tr)
                 d (mkProcess m (returned r ++ known) (ks1 ++ ks2) n tr) [].

(** The disk, the processes that are running, and all events so far, also those of processes
    that are gone. *)
Record machine := mkMachine { y_disk : disk; y_processes : list process; y_events : list event }.

(** Processes are started, run and disappear at any time. *)
Inductive machine_step : machine -> machine -> Prop :=
| is_started : forall d rs ev, machine_step (mkMachine d rs ev) (mkMachine d (rs ++ [first_process]) ev)
| runs_on : forall d d' rs1 r r' rs2 ev ev', process_step d r d' r' ev' ->
    machine_step (mkMachine d (rs1 ++ r :: rs2) ev) (mkMachine d' (rs1 ++ r' :: rs2) (ev ++ ev'))
| is_gone : forall d rs1 r rs2 ev, machine_step (mkMachine d (rs1 ++ r :: rs2) ev) (mkMachine d (rs1 ++ rs2) ev).

Inductive machine_steps : machine -> machine -> Prop :=
| machine_rests : forall s, machine_steps s s
| machine_goes_on : forall s1 s2 s3, machine_steps s1 s2 -> machine_step s2 s3 -> machine_steps s1 s3.

(** A machine on which nothing has used the package. *)
Definition first_machine (d : disk) : machine := mkMachine d [] [].
End Procs.
