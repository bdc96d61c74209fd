(** IdnaSpec.v - internationalised labels, lists and hosts.  Nothing here is used by the model. *)

From Verif Require Import Base Utf8 Chars ListSpec Host RuleSpec Trie Extract Idna.
Local Open Scope N_scope.

Definition all_ascii (s : bytes) : Prop := Forall (fun c => c < 128) s.
(** A label in its Unicode form: characters in UTF-8, at most 1024 if some are not in ASCII, and
    not an ASCII compatible encoding. *)
Definition unicode_label (l : bytes) : Prop :=
  exists rs, Forall valid_rune rs /\ (all_ascii l \/ (length rs <= 1024)%nat) /\ l = encode_all rs
    /\ ~ starts_with l (str "xn--").
(** A rule all of whose labels are in Unicode form. *)
Definition unicode_rule (rule : bytes) : Prop := Forall unicode_label (rule_path rule).
(** If it is an exception, then for an ASCII label. *)
Definition plain_exceptions (rule : bytes) : Prop :=
  forall k, In (str "!" ++ k) (rule_path rule) -> all_ascii k /\ unicode_label k.
(** Every rule of a list file is like this. *)
Definition unicode_list (text : bytes) : Prop :=
  forall lines line rule, has_lines text lines -> In line lines -> trimmed white_space line rule -> ~ ignored_text rule ->
    unicode_rule rule /\ plain_exceptions rule.

(** A host whose label separators are dots, without percent escapes and plus signs. *)
Definition dotted (h : bytes) : Prop :=
  (forall p sep q, is_sep_text sep -> h = p ++ sep ++ q -> sep = str ".") /\ ~ In 37 h /\ ~ In 43 h.

(** The IDNA library of Extract rejects the hosts that the model of the library rejects. *)
Definition rejects_like (strict : bool) (ext : idna) : Prop :=
  forall s, idna_to_unicode_err ext s = None <-> go_to_unicode_err strict s = None.

(** Labels that differ at most in the case of Punycode digits, the letters after "xn--" and the
    last hyphen that follows. *)
Definition same_letter (a b : N) : Prop := a = b \/ (65 <= a <= 90 /\ b = a + 32) \/ (65 <= b <= 90 /\ a = b + 32).
Definition same_digits (l l' : bytes) : Prop :=
  l = l' \/ exists u v v', ~ In 45 v /\ Forall2 same_letter v v' /\
    ((l = str "xn--" ++ v /\ l' = str "xn--" ++ v')
     \/ (l = str "xn--" ++ u ++ str "-" ++ v /\ l' = str "xn--" ++ u ++ str "-" ++ v')).
