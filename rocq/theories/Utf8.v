(** Utf8.v - model of Go's unicode/utf8 decoding (used implicitly by [range] over a
    string and explicitly by strings.go and net.go). *)

From Verif Require Import Base.
Local Open Scope N_scope.

Definition rune_error : rune := 65533. (* U+FFFD *)

Definition in_range (b lo hi : N) : bool := (lo <=? b) && (b <=? hi).
(** continuation byte *)
Definition is_cont (b : N) : bool := in_range b 128 191.
(** utf8.RuneStart: b&0xC0 != 0x80 *)
Definition rune_start (b : N) : bool := negb (is_cont b).

(** utf8.DecodeRuneInString: decoded rune and its width; (RuneError, 1) for an invalid
    encoding and (RuneError, 0) for the empty string. The table driven accept ranges of
    the Go implementation are written out per first byte. *)
Definition second_lo (b0 : N) : N :=
  if b0 =? 224 then 160 else if b0 =? 240 then 144 else 128.
Definition second_hi (b0 : N) : N :=
  if b0 =? 237 then 159 else if b0 =? 244 then 143 else 191.

Definition decode_rune (s : bytes) : rune * nat :=
  match s with
  | [] => (rune_error, 0%nat)
  | b0 :: t =>
    if b0 <? 128 then (b0, 1%nat)
    else if in_range b0 194 223 then
      match t with
      | b1 :: _ =>
        if is_cont b1 then ((b0 - 192) * 64 + (b1 - 128), 2%nat) else (rune_error, 1%nat)
      | _ => (rune_error, 1%nat)
      end
    else if in_range b0 224 239 then
      match t with
      | b1 :: b2 :: _ =>
        if in_range b1 (second_lo b0) (second_hi b0) && is_cont b2
        then ((b0 - 224) * 4096 + (b1 - 128) * 64 + (b2 - 128), 3%nat)
        else (rune_error, 1%nat)
      | _ => (rune_error, 1%nat)
      end
    else if in_range b0 240 244 then
      match t with
      | b1 :: b2 :: b3 :: _ =>
        if in_range b1 (second_lo b0) (second_hi b0) && is_cont b2 && is_cont b3
        then ((b0 - 240) * 262144 + (b1 - 128) * 4096 + (b2 - 128) * 64 + (b3 - 128), 4%nat)
        else (rune_error, 1%nat)
      | _ => (rune_error, 1%nat)
      end
    else (rune_error, 1%nat)
  end.

(** utf8.DecodeLastRuneInString: the loop [for start--; start >= lim; start--] that looks
    for the start of the last rune at most UTFMax = 4 bytes back. *)
Fixpoint find_start (s : bytes) (start lim : Z) (fuel : nat) : Z :=
  match fuel with
  | O => start
  | S f =>
    if (start <? lim)%Z then start
    else if rune_start (nth (Z.to_nat start) s 0) then start
    else find_start s (start - 1)%Z lim f
  end.

Definition decode_last (s : bytes) : rune * nat :=
  match length s with
  | O => (rune_error, 0%nat)
  | S k =>
    let b := nth k s 0 in
    if b <? 128 then (b, 1%nat)
    else
      let e := len s in
      (* the loop body runs at most 3 times *)
      let start := Z.max 0 (find_start s (e - 2)%Z (Z.max (e - 4) 0) 4) in
      let '(r, size) := decode_rune (skipn (Z.to_nat start) s) in
      if (start + Z.of_nat size =? e)%Z then (r, size) else (rune_error, 1%nat)
  end.

(** Go [for idx, c := range s]: the list of (byte index, rune) pairs.  [skip] counts the
    bytes of the current rune that are still to be passed over. *)
Fixpoint range_from (s : bytes) (skip : nat) (idx : Z) : list (Z * rune) :=
  match s with
  | [] => []
  | _ :: t =>
    match skip with
    | S k => range_from t k (idx + 1)%Z
    | O =>
      let '(r, n) := decode_rune s in
      (idx, r) :: range_from t (n - 1) (idx + 1)%Z
    end
  end.
Definition range_str (s : bytes) : list (Z * rune) := range_from s 0 0.

(** UTF-8 encoding of a code point (used to write Go string constants given by code
    points, e.g. "。"). *)
Definition encode (r : rune) : bytes :=
  if r <? 128 then [r]
  else if r <? 2048 then [192 + r / 64; 128 + r mod 64]
  else if r <? 65536 then [224 + r / 4096; 128 + (r / 64) mod 64; 128 + r mod 64]
  else [240 + r / 262144; 128 + (r / 4096) mod 64; 128 + (r / 64) mod 64; 128 + r mod 64].

Definition encode_all (rs : list rune) : bytes := flat_map encode rs.
