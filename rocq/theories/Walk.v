(** Walk.v - index-free form of what Extract does with a host, on the list of its labels.
    WalkFacts.v proves that the model of Extract computes this. *)

From Verif Require Import Base Utf8 Str Net Trie Extract Host.

(** Where the suffix loop stops.  All numbers count labels from the right (not counting
    trailing empty ones). *)
Record counts := mkCounts {
  c_has : bool;     (* a label path marked as suffix was met *)
  c_end : nat;      (* labels to the right of the first such label *)
  c_sep : nat;      (* labels to the right of the domain *)
  c_start : nat;    (* labels matched literally *)
  c_prev : nat }.   (* labels to the right of the last label looked at *)

Definition is_nil {A : Type} (l : list A) : bool := match l with [] => true | _ => false end.

(** url.QueryUnescape with its error ignored, as in fasttld.go:319 *)
Definition unescaped (label : bytes) : bytes :=
  match query_unescape label with inr l => l | inl _ => [] end.

Fixpoint cwalk (node : trie) (hs : bool) (j start prev : nat) (labs : list bytes) : option counts :=
  match labs with
  | [] => None
  | label :: more =>
    if is_nil label && negb (is_nil more) then None
    else
      match child node (str "*") with
      | Some _ =>
        Some (mkCounts hs j (match child node (str "!" ++ label) with Some _ => prev | None => S prev end)
                       start prev)
      | None =>
        match child node (unescaped label) with
        | Some val =>
          let hs' := hs || end_of val in
          let j' := if negb hs && end_of val then prev else j in
          if is_nil (matches_of val) || is_nil more
          then Some (mkCounts hs' j' (S prev) (S prev) prev)
          else cwalk val hs' j' (S prev) (S prev) more
        | None => Some (mkCounts hs j prev start prev)
        end
      end
  end.

(** Trailing empty labels, and the rest. *)
Fixpoint strip_empty (segs : list seg) : list seg * list seg :=
  match segs with
  | ([], sep) :: segs' => let '(a, b) := strip_empty segs' in (([], sep) :: a, b)
  | _ => ([], segs)
  end.

(** The text of some consecutive labels without the separator on their left. *)
Fixpoint join (segs : list seg) : bytes :=
  match segs with
  | [] => []
  | [(l, _)] => l
  | (l, s) :: segs' => join segs' ++ s ++ l
  end.

Definition label_at (first : bytes) (segs : list seg) (i : nat) : bytes :=
  nth i (labels first segs) [].
Definition sep_text_at (segs : list seg) (i : nat) : bytes := snd (nth i segs ([], [])).

(** The host name components for a host with trailing empty labels [zs]. *)
Definition components (u : result) (first : bytes) (zs segs : list seg) (ignore : bool) (c : counts)
  : result * option err :=
  let text i := host first (skipn i segs) in
  let whole := c_sep c =? S (length segs) in
  let checked := if c_has c
                 then if whole then host first (zs ++ segs) else text (c_start c)
                 else text (c_prev c) in
  if has_invalid_chars checked then (u, Some ErrInvalidChars)
  else
    let sub i := if ignore then [] else if i <=? length segs then text i else [] in
    let u :=
      if c_has c then
        if whole then with_suffix u (text (c_end c))
        else
          let sfx := join (firstn (c_sep c - c_end c) (skipn (c_end c) segs)) in
          let dom := label_at first segs (c_sep c) in
          with_sub_domain
            (with_registered_domain (with_domain (with_suffix u sfx) dom)
                                    (dom ++ sep_text_at segs (c_sep c - 1) ++ sfx))
            (sub (S (c_sep c)))
      else
        with_sub_domain (with_domain u (label_at first segs 0)) (sub 1) in
    if is_nil (r_domain u) then (u, Some ErrEmptyDomain)
    else (with_host_type u HHostName, None).

Definition host_outcome (t : trie) (u : result) (h : bytes) (ignore : bool) (v4 : bool)
  : result * option err :=
  let '(first, segs) := split_host h in
  let '(zs, segs) := strip_empty segs in
  match cwalk t false 0 0 0 (labels first segs) with
  | None => (u, Some ErrConsecutiveSeparators)
  | Some c =>
    if v4 then
      let dom := host first (skipn (c_prev c) segs) in
      (with_host_type (with_registered_domain (with_domain u dom) dom) HIPv4, None)
    else components u first zs segs ignore c
  end.
