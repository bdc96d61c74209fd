(** Host.v - the decomposition of a host in labels and label separators, used to specify
    what Extract does with a host.  Nothing here is used by the model. *)

From Verif Require Import Base Utf8.
Local Open Scope N_scope.

(** The four label separators (RFC 3490): U+002E, U+3002, U+FF0E and U+FF61. *)
Definition is_sep_text (s : bytes) : Prop :=
  s = [46] \/ s = [227; 128; 130] \/ s = [239; 188; 142] \/ s = [239; 189; 161].

(** A host is its leftmost label and, TLD first, the other labels, each with the separator
    to its left. *)
Definition seg : Type := bytes * bytes.   (* label, separator on its left *)

Fixpoint host (first : bytes) (segs : list seg) : bytes :=
  match segs with
  | [] => first
  | (label, sep) :: segs' => host first segs' ++ sep ++ label
  end.

(** The labels, TLD first. *)
Definition labels (first : bytes) (segs : list seg) : list bytes := map fst segs ++ [first].

(** Length of the separator at the start of [s], 0 if there is none. *)
Definition sep_at (s : bytes) : nat :=
  if has_prefix s [46] then 1
  else if has_prefix s [227; 128; 130] || has_prefix s [239; 188; 142] || has_prefix s [239; 189; 161]
  then 3 else 0.

(** Reading a host from the left: the first label, and the other labels left to right, each
    with the separator to its left; [skip] bytes of a separator are still to be passed. *)
Fixpoint split_from (s : bytes) (skip : nat) : bytes * list seg :=
  match s with
  | [] => ([], [])
  | b :: t =>
    match skip with
    | S k => split_from t k
    | O =>
      match sep_at s with
      | O => let '(l, r) := split_from t 0 in (b :: l, r)
      | S k => let '(l, r) := split_from t k in ([], (l, firstn (S k) s) :: r)
      end
    end
  end.
Definition split_host (h : bytes) : bytes * list seg :=
  let '(first, segs) := split_from h 0 in (first, rev segs).

(** [s] contains no label separator. *)
Definition no_sep (s : bytes) : Prop :=
  forall p sep q, is_sep_text sep -> s <> p ++ sep ++ q.

(** A decomposition with real separators and labels. *)
Definition well_split (first : bytes) (segs : list seg) : Prop :=
  no_sep first /\ Forall (fun g => no_sep (fst g) /\ is_sep_text (snd g)) segs.
