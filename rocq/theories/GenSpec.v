(** GenSpec.v - what a Go file with a string constant means, as far as fallback.go is concerned.
    Nothing here is used by the model. *)

From Verif Require Import Base Utf8 Chars ListSpec.
Local Open Scope N_scope.

(** Go source text: characters in UTF-8, without NUL and byte order marks. *)
Definition go_text (s : bytes) : Prop :=
  exists rs, Forall (fun r => valid_rune r /\ r <> 0 /\ r <> 65279) rs /\ s = encode_all rs.
(** Carriage returns are dropped from raw string literals. *)
Definition without_cr (s : bytes) : bytes := filter (fun b => negb (b =? 13)) s.
Definition blank_or_comment (l : bytes) : Prop := (l = [] \/ starts_with l (str "//")) /\ ~ In 10 l.
Definition with_feeds (lines : list bytes) : bytes := concat (map (fun l => l ++ [10]) lines).
(** A file of the package that declares, after some comments, hardcodedPSL to be [value]. *)
Definition go_file (source value : bytes) : Prop :=
  go_text source /\
  exists lines raw, Forall blank_or_comment lines /\ ~ In 96 raw /\ value = without_cr raw
    /\ source = str "package fasttld" ++ [10] ++ with_feeds lines
                ++ str "const hardcodedPSL string = " ++ str "`" ++ raw ++ str "`" ++ [10].

(** Carriage returns only at the ends of lines. *)
Definition cr_at_ends (text : bytes) : Prop :=
  forall lines line, has_lines text lines -> In line lines -> exists l n, line = l ++ repeat 13 n /\ ~ In 13 l.
