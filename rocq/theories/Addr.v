(** Addr.v - grammars of IPv4 addresses and IPv6 literals, written from RFC 6943/RFC 4291 and
    the doc comments in net.go.  Nothing here is used by the model. *)

From Verif Require Import Base Host.

(** ** IPv4 *)

Definition all_digits (d : bytes) : Prop := Forall (fun b => is_digit b = true) d.
(** The number written by decimal digits, most significant first. *)
Definition decimal (d : bytes) : Z := fold_left (fun a b => a * 10 + (Z.of_N b - 48))%Z d 0%Z.

(** A decimal number 0..255 without superfluous leading zero. *)
Definition octet (d : bytes) : Prop :=
  d <> [] /\ all_digits d /\ (decimal d <= 255)%Z
  /\ (d = [48%N] \/ exists b t, d = b :: t /\ b <> 48%N).

(** Four octets separated by label separators. *)
Definition ipv4_address (s : bytes) : Prop :=
  exists a s1 b s2 c s3 d,
    s = a ++ s1 ++ b ++ s2 ++ c ++ s3 ++ d
    /\ octet a /\ octet b /\ octet c /\ octet d
    /\ is_sep_text s1 /\ is_sep_text s2 /\ is_sep_text s3.

(** Any number of label separators. *)
Inductive seps : bytes -> Prop :=
| seps_nil : seps []
| seps_cons : forall s w, is_sep_text s -> seps w -> seps (s ++ w).

(** What the library takes for an IPv4 host: trailing label separators are ignored. *)
Definition ipv4_text (s : bytes) : Prop :=
  exists a w, s = a ++ w /\ ipv4_address a /\ seps w.

(** ** IPv6 *)

Definition all_hex (d : bytes) : Prop := Forall (fun b => is_hex b = true) d.
Definition hexadecimal (d : bytes) : Z := fold_left (fun a b => a * 16 + Z.of_N (unhex b))%Z d 0%Z.

(** A hexadecimal number 0..FFFF. *)
Definition group (g : bytes) : Prop := g <> [] /\ all_hex g /\ (hexadecimal g <= 65535)%Z.

(** [groups n s]: s is n >= 1 groups separated by ':'. *)
Inductive groups : nat -> bytes -> Prop :=
| groups_one : forall g, group g -> groups 1 g
| groups_more : forall g n s, group g -> groups n s -> groups (S n) (g ++ [58%N] ++ s).

(** [pieces n s]: s stands for n >= 1 groups, the last two possibly written as IPv4. *)
Inductive pieces : nat -> bytes -> Prop :=
| pieces_group : forall g, group g -> pieces 1 g
| pieces_ipv4 : forall a, ipv4_text a -> pieces 2 a
| pieces_more : forall g n s, group g -> pieces n s -> pieces (S n) (g ++ [58%N] ++ s).

(** Eight groups, or fewer with one '::' standing for the (at least one) missing ones. *)
Definition ipv6_literal (s : bytes) : Prop :=
  pieces 8 s
  \/ exists n a m b, s = a ++ [58; 58]%N ++ b /\ n + m <= 7
       /\ ((n = 0 /\ a = []) \/ groups n a) /\ ((m = 0 /\ b = []) \/ pieces m b).
