(** Net.v - model of net.go. *)

From Verif Require Import Base Utf8 Str.
Local Open Scope Z_scope.

(** net.go:6-13 *)
Definition ipv4_len : Z := 4.
Definition ipv6_len : Z := 16.
Definition len_diff : Z := ipv6_len - ipv4_len.
Definition big : Z := 16777215.

(** net.go:17-29 dtoi: number, characters consumed, success. *)
Fixpoint dtoi_loop (s : bytes) (n i : Z) : Z * Z * bool :=
  let fin := if i =? 0 then (0, 0, false) else (n, i, true) in
  match s with
  | b :: t =>
    if is_digit b then
      let n' := n * 10 + (Z.of_N b - 48) in
      if n' >=? big then (big, i, false) else dtoi_loop t n' (i + 1)
    else fin
  | [] => fin
  end.
Definition dtoi (s : bytes) : Z * Z * bool := dtoi_loop s 0 0.

(** net.go:33-56 xtoi *)
Definition hex_value (b : N) : option Z :=
  if is_digit b then Some (Z.of_N b - 48)
  else if ((97 <=? b) && (b <=? 102))%N then Some (Z.of_N b - 97 + 10)
  else if ((65 <=? b) && (b <=? 70))%N then Some (Z.of_N b - 65 + 10)
  else None.
Fixpoint xtoi_loop (s : bytes) (n i : Z) : Z * Z * bool :=
  let fin := if i =? 0 then (0, i, false) else (n, i, true) in
  match s with
  | b :: t =>
    match hex_value b with
    | Some d =>
      let n' := n * 16 + d in
      if n' >=? big then (0, i, false) else xtoi_loop t n' (i + 1)
    | None => fin
    end
  | [] => fin
  end.
Definition xtoi (s : bytes) : Z * Z * bool := xtoi_loop s 0 0.

(** net.go:63-85: [count] iterations are left, [first] says whether i = 0. *)
Fixpoint ipv4_loop (count : nat) (first : bool) (s : bytes) : outcome bool :=
  match count with
  | O => Ret (len s =? 0)
  | S k =>
    if len s =? 0 then Ret false
    else
      let after_sep :=
        if first then Ret (Some s)
        else let '(r, size) := decode_rune s in
             if exists_in label_separators_rune_set r
             then t <- slice s (Z.of_nat size) (len s) ;; Ret (Some t)
             else Ret None in
      m <- after_sep ;;
      match m with
      | None => Ret false
      | Some s =>
        let '(n, c, ok) := dtoi s in
        if negb ok || (n >? 255) then Ret false
        else
          (* c > 1 && s[0] == '0' *)
          lead <- (if c >? 1 then x <- index s 0 ;; Ret (x =? 48)%N else Ret false) ;;
          if lead then Ret false
          else t <- slice s c (len s) ;; ipv4_loop k false t
      end
  end.

(** net.go:61-86 isIPv4 *)
Definition is_ipv4 (s : bytes) : outcome bool :=
  t <- fast_trim s label_separators_rune_set TrimRight ;;
  ipv4_loop (Z.to_nat ipv4_len) true t.

(** net.go:105-156, the loop of isIPv6. [None] is [return false]; [Some (s, i, ellipsis)] is
    the state after the loop.  i grows by at least 2 per iteration, so 8 iterations are
    enough. *)
Fixpoint ipv6_loop (fuel : nat) (s : bytes) (i ellipsis : Z) : outcome (option (bytes * Z * Z)) :=
  if i <? ipv6_len then
    match fuel with
    | O => OutOfFuel
    | S f =>
      let '(n, c, ok) := xtoi s in
      if negb ok || (n >? 65535) then Ret None
      else
        sep_follows <- (if c <? len s
                        then t <- slice s c (len s) ;;
                             Ret (exists_in label_separators_rune_set (fst (decode_rune t)))
                        else Ret false) ;;
        if sep_follows then
          if (ellipsis <? 0) && negb (i =? len_diff) then Ret None
          else if i >? len_diff then Ret None
          else v4 <- is_ipv4 s ;;
               if negb v4 then Ret None
               else Ret (Some ([], i + ipv4_len, ellipsis))
        else
          let i := i + 2 in
          s <- slice s c (len s) ;;
          if len s =? 0 then Ret (Some (s, i, ellipsis))
          else
            x <- index s 0 ;;
            if negb (x =? 58)%N || (len s =? 1) then Ret None
            else
              s <- slice s 1 (len s) ;;
              x <- index s 0 ;;
              if (x =? 58)%N then
                if ellipsis >=? 0 then Ret None
                else
                  let ellipsis := i in
                  s <- slice s 1 (len s) ;;
                  if len s =? 0 then Ret (Some (s, i, ellipsis))
                  else ipv6_loop f s i ellipsis
              else ipv6_loop f s i ellipsis
    end
  else Ret (Some (s, i, ellipsis)).

(** net.go:90-173 isIPv6 *)
Definition is_ipv6 (s : bytes) : outcome bool :=
  (* leading ellipsis: len(s) >= 2 && s[0] == ':' && s[1] == ':' *)
  '(s, ellipsis, only) <-
    (if len s >=? 2 then
       x <- index s 0 ;; y <- index s 1 ;;
       if ((x =? 58) && (y =? 58))%N then
         t <- slice s 2 (len s) ;; Ret (t, 0, len t =? 0)
       else Ret (s, -1, false)
     else Ret (s, -1, false)) ;;
  if (only : bool) then Ret true
  else
    m <- ipv6_loop 8 s 0 ellipsis ;;
    match m with
    | None => Ret false
    | Some (s, i, ellipsis) =>
      if negb (len s =? 0) then Ret false
      else if i <? ipv6_len then Ret (negb (ellipsis <? 0))
      else Ret (negb (ellipsis >=? 0))
    end.
