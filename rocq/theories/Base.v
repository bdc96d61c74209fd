(** Base.v - Go values and the parts of the Go standard library used by go-fasttld.

    Go strings and byte slices are modelled as [list N] (one element per byte), Go
    [int] as [Z] (64-bit overflow cannot occur in the modelled code: indices are
    bounded by string lengths and the digit loops stop at 0xFFFFFF), runes as [N]. *)

From Coq Require Export Ascii String.
From Coq Require Export List NArith ZArith Lia Bool.
Export ListNotations.

Definition bytes : Type := list N.
Definition rune : Type := N.

(** Byte string literal. *)
Definition str (s : string) : bytes := map N_of_ascii (list_ascii_of_string s).

(** Result of running Go code: a value, a run time panic, or (an artefact of the
    model, excluded by the theorems) an exhausted loop counter. *)
Inductive outcome (A : Type) : Type :=
| Ret (a : A)
| Panic
| OutOfFuel.
Arguments Ret {A} a.
Arguments Panic {A}.
Arguments OutOfFuel {A}.

Definition bind {A B : Type} (m : outcome A) (k : A -> outcome B) : outcome B :=
  match m with
  | Ret a => k a
  | Panic => Panic
  | OutOfFuel => OutOfFuel
  end.

Notation "x <- m ;; k" := (bind m (fun x => k))
  (at level 61, m at next level, right associativity).
Notation "' p <- m ;; k" := (bind m (fun p => k))
  (at level 61, p pattern, m at next level, right associativity).

(** Go built-in [len(s)]. *)
Definition len {A : Type} (s : list A) : Z := Z.of_nat (length s).

(** Go slice expression [s[a:b]]; panics unless 0 <= a <= b <= len(s). *)
Definition slice {A : Type} (s : list A) (a b : Z) : outcome (list A) :=
  if ((0 <=? a) && (a <=? b) && (b <=? len s))%Z
  then Ret (firstn (Z.to_nat (b - a)) (skipn (Z.to_nat a) s))
  else Panic.

(** Go index expression [s[i]]; panics unless 0 <= i < len(s). *)
Definition index {A : Type} (s : list A) (i : Z) : outcome A :=
  if ((0 <=? i) && (i <? len s))%Z
  then match nth_error s (Z.to_nat i) with Some x => Ret x | None => Panic end
  else Panic.

(** String equality (Go [==] on strings). *)
Fixpoint bytes_eqb (s t : bytes) : bool :=
  match s, t with
  | [], [] => true
  | a :: s', b :: t' => (a =? b)%N && bytes_eqb s' t'
  | _, _ => false
  end.

Definition memN (x : N) (l : list N) : bool := existsb (N.eqb x) l.

(** strings.HasPrefix *)
Fixpoint has_prefix (s p : bytes) : bool :=
  match p, s with
  | [], _ => true
  | a :: p', b :: s' => (a =? b)%N && has_prefix s' p'
  | _, [] => false
  end.

(** bytes.Contains *)
Fixpoint contains_sub (s p : bytes) : bool :=
  has_prefix s p || match s with [] => false | _ :: s' => contains_sub s' p end.

(** strings.LastIndexByte *)
Fixpoint last_index_byte_from (s : bytes) (c : N) (i : Z) (best : Z) : Z :=
  match s with
  | [] => best
  | x :: s' => last_index_byte_from s' c (i + 1)%Z (if (x =? c)%N then i else best)
  end.
Definition last_index_byte (s : bytes) (c : N) : Z := last_index_byte_from s c 0 (-1).

(** strings.Split with a one byte separator: at least one piece is returned. *)
Fixpoint split_byte (s : bytes) (c : N) : list bytes :=
  match s with
  | [] => [[]]
  | x :: s' =>
    if (x =? c)%N then [] :: split_byte s' c
    else match split_byte s' c with
         | [] => [[x]]
         | p :: ps => (x :: p) :: ps
         end
  end.

Definition is_digit (b : N) : bool := ((48 <=? b) && (b <=? 57))%N.

(** strconv.Atoi on a 64-bit platform: optional sign, one or more decimal digits, value
    in the int64 range.  [None] is any error (ErrSyntax or ErrRange). *)
Fixpoint digits_value (s : bytes) (acc : Z) : option Z :=
  match s with
  | [] => Some acc
  | b :: s' =>
    if is_digit b then digits_value s' (acc * 10 + (Z.of_N b - 48))%Z else None
  end.

Definition atoi (s : bytes) : option Z :=
  let '(neg, body) :=
    match s with
    | 45%N :: t => (true, t)
    | 43%N :: t => (false, t)
    | _ => (false, s)
    end in
  match body with
  | [] => None
  | _ =>
    match digits_value body 0 with
    | None => None
    | Some v =>
      let v' := if neg : bool then (- v)%Z else v in
      if ((- 2 ^ 63 <=? v') && (v' <? 2 ^ 63))%Z then Some v' else None
    end
  end.

(** net/url: ishex, unhex *)
Definition is_hex (b : N) : bool :=
  (is_digit b || ((97 <=? b) && (b <=? 102)) || ((65 <=? b) && (b <=? 70)))%N.
Definition unhex (b : N) : N :=
  (if is_digit b then b - 48
   else if (97 <=? b) && (b <=? 102) then b - 97 + 10
   else b - 65 + 10)%N.

(** net/url.QueryUnescape: '%XY' becomes a byte, '+' a space.  [inl e] is
    url.EscapeError: the offending escape, i.e. the rest of the input from the '%' cut to
    at most three bytes. *)
Fixpoint query_unescape (s : bytes) : bytes + bytes :=
  match s with
  | [] => inr []
  | 37%N :: t =>
    match t with
    | a :: c :: t' =>
      if is_hex a && is_hex c
      then match query_unescape t' with
           | inr u => inr ((16 * unhex a + unhex c)%N :: u)
           | inl e => inl e
           end
      else inl (firstn 3 s)
    | _ => inl (firstn 3 s)
    end
  | 43%N :: t => match query_unescape t with inr u => inr (32%N :: u) | inl e => inl e end
  | x :: t => match query_unescape t with inr u => inr (x :: u) | inl e => inl e end
  end.
