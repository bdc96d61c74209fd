(** ExactSpec.v - for which inputs exactly the properties that do not always hold do hold.
    Nothing here is used by the model. *)

From Verif Require Import Base Utf8 Chars Host Addr Extract Rfc UrlSpec RuleSpec ErrSpec.
Local Open Scope N_scope.

(** A scheme that is no scheme: neither a colon nor a slash at the start. *)
Definition odd_scheme (s : bytes) : Prop := s <> [] /\ ~ In 58 s /\ starts_with (fun b => ~ slash b) s.
(** A name followed directly by slashes. *)
Definition name_slashes (s : bytes) : Prop :=
  exists c name sl, s = c :: name ++ sl /\ letter c /\ Forall scheme_name_char name /\ Forall slash sl /\ (2 <= length sl)%nat.

(** Labels at the right end of the host [h] are missing in the result: those of an IPv4 address
    that were taken for the beginning of a rule, and those right of the first label that
    completes a suffix. *)
Definition dropped (rules : list bytes) (h : bytes) (labs : list bytes) : Prop :=
  (ipv4_text h /\ looked_at rules labs 1)
  \/ (~ ipv4_text h /\ exists k n, walk rules [] labs = (Some (S k), n)).

(** U+FF61, the separator that is taken for a letter. *)
Definition half_sep : bytes := [239; 189; 161].
