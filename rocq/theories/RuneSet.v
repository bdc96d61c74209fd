(** RuneSet.v - the sets of runes of the package: intset.Rune of github.com/karlseguin/intset
    (go.mod:11), as used by makeRuneSet (strings.go:69-89) and by all that look into these sets.

    In Str.v such a set is a list with membership.  Here it is the structure of the library:
    buckets of increasing runes, one for every value of some of the bits of a rune.  The library
    is not part of /repo; NewRune, Set, Exists and index are written down from knowledge of it.
    The number of runes a bucket is made for is a parameter; a full bucket is copied to a larger
    one, so that it limits nothing. *)

From Verif Require Import Base Utf8 Str.
Local Open Scope N_scope.

Record intset := mkIntset { i_mask : N; i_length : N; i_buckets : list (list rune) }.

(** upTwo: all bits below the highest one of v - 1 are set, then 1 is added. *)
Definition up_two (v : N) : N :=
  let v := v - 1 in
  let v := N.lor v (N.shiftr v 1) in
  let v := N.lor v (N.shiftr v 2) in
  let v := N.lor v (N.shiftr v 4) in
  let v := N.lor v (N.shiftr v 8) in
  let v := N.lor v (N.shiftr v 16) in
  v + 1.

(** NewRune *)
Definition new_rune (bucket_size size : N) : intset :=
  let size := if size <? bucket_size then bucket_size * 2 else size in
  let count := up_two (size / bucket_size) in
  mkIntset (count - 1) 0 (repeat [] (N.to_nat count)).

(** s.buckets[index] *)
Definition bucket_at (s : intset) (value : rune) : outcome (list rune) :=
  match nth_error (i_buckets s) (N.to_nat (N.land value (i_mask s))) with Some b => Ret b | None => Panic end.

(** index: where the value is or belongs in the bucket. *)
Fixpoint index_in (value : rune) (bucket : list rune) (i : nat) : nat * bool :=
  match bucket with
  | [] => (i, false)
  | v :: rest =>
    if v =? value then (i, true)
    else if value <? v then (i, false)
    else index_in value rest (S i)
  end.

Fixpoint put_at_index {A : Type} (l : list A) (i : nat) (x : A) : list A :=
  match l, i with
  | [], _ => []
  | _ :: l', O => x :: l'
  | y :: l', S i' => y :: put_at_index l' i' x
  end.

(** Set *)
Definition iset_set (s : intset) (value : rune) : outcome intset :=
  bucket <- bucket_at s value ;;
  let '(position, found) := index_in value bucket 0 in
  if found : bool then Ret s
  else
    let bucket := firstn position bucket ++ value :: skipn position bucket in
    Ret (mkIntset (i_mask s) (i_length s + 1) (put_at_index (i_buckets s) (N.to_nat (N.land value (i_mask s))) bucket)).

(** Exists *)
Definition iset_exists (s : intset) (value : rune) : outcome bool :=
  bucket <- bucket_at s value ;;
  Ret (snd (index_in value bucket 0)).

(** strings.go:76-89 makeRuneSet *)
Fixpoint biggest_rune (l : list (Z * rune)) (biggest : rune) : rune :=
  match l with
  | [] => biggest
  | (idx, r) :: l' => biggest_rune l' (if (idx =? 0)%Z || (biggest <? r) then r else biggest)
  end.
Fixpoint set_runes (l : list (Z * rune)) (iset : intset) : outcome intset :=
  match l with
  | [] => Ret iset
  | (_, r) :: l' => iset <- iset_set iset r ;; set_runes l' iset
  end.
Definition make_intset (bucket_size : N) (s : bytes) : outcome intset :=
  let biggest := biggest_rune (range_str s) 0 in
  set_runes (range_str s) (new_rune bucket_size biggest).
