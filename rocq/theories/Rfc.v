(** Rfc.v - specification of RFC 4291 literals and of forbidden host name characters.  Nothing
    here is used by the model. *)

From Verif Require Import Base Utf8 Chars Host Addr.
Local Open Scope N_scope.

(** ** RFC 4291, section 2.2 *)

(** One to four hexadecimal digits. *)
Definition rfc_group (g : bytes) : Prop := g <> [] /\ all_hex g /\ (length g <= 4)%nat.
(** Dotted decimal. *)
Definition rfc_ipv4 (s : bytes) : Prop :=
  exists a b c d, s = a ++ str "." ++ b ++ str "." ++ c ++ str "." ++ d
    /\ octet a /\ octet b /\ octet c /\ octet d.

Inductive rfc_groups : nat -> bytes -> Prop :=
| rfc_groups_one : forall g, rfc_group g -> rfc_groups 1 g
| rfc_groups_more : forall g n s, rfc_group g -> rfc_groups n s -> rfc_groups (S n) (g ++ str ":" ++ s).
Inductive rfc_pieces : nat -> bytes -> Prop :=
| rfc_pieces_group : forall g, rfc_group g -> rfc_pieces 1 g
| rfc_pieces_ipv4 : forall a, rfc_ipv4 a -> rfc_pieces 2 a
| rfc_pieces_more : forall g n s, rfc_group g -> rfc_pieces n s -> rfc_pieces (S n) (g ++ str ":" ++ s).
Definition rfc_literal (s : bytes) : Prop :=
  rfc_pieces 8 s
  \/ exists n a m b, s = a ++ str "::" ++ b /\ (n + m <= 7)%nat
       /\ ((n = 0%nat /\ a = []) \/ rfc_groups n a) /\ ((m = 0%nat /\ b = []) \/ rfc_pieces m b).

(** Five hexadecimal digits in a row. *)
Definition long_group (s : bytes) : Prop :=
  exists p g q, s = p ++ g ++ q /\ all_hex g /\ length g = 5%nat.
Definition ascii (s : bytes) : Prop := Forall (fun b => b < 128) s.

(** ** Host names *)

(** The characters the library documents as not allowed in host names: whitespace, all
    ASCII punctuation but % - . and some others. *)
Definition forbidden : list rune :=
  [0;1;2;3;4;5;6;7;8;9;10;11;12;13;14;15;16;17;18;19;20;21;22;23;24;25;26;27;28;29;30;31;
   32;133;134;160;5760;8203;8204;8205;65279;
   33;34;35;36;38;39;40;41;42;43;44;47;58;59;60;61;62;63;64;91;92;93;94;95;96;123;124;125;126;
   888;1216;1757;6158;8229;8238;8299;8579;10868;12272;64976;65285;65295;65306;65530].

(** [s] contains the character [c]. *)
Definition has_char (c : rune) (s : bytes) : Prop := exists p q, s = p ++ encode c ++ q.

(** No separator at the start, and consecutive separators only at the end. *)
Definition no_empty_label (h : bytes) : Prop :=
  (forall s q, is_sep_text s -> h <> s ++ q)
  /\ (forall p s1 s2 q, is_sep_text s1 -> is_sep_text s2 -> h = p ++ s1 ++ s2 ++ q -> seps q).
