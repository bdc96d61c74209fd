(** LocalSpec.v - which hosts a rule concerns: terms of C93 and C94. *)

From Verif Require Import Base Host UrlSpec Extract RuleSpec.

(** What a rule adds to a list: the shortest of its beginnings (from the TLD) that begins no
    rule of the list; the whole rule if there is none. *)
Definition new_part (rules : list bytes) (rule : bytes) (p : list bytes) : Prop :=
  p <> [] /\ (exists rest, rule_path rule = p ++ rest) /\ (p = rule_path rule \/ known rules p = false)
  /\ forall q x, p = q ++ [x] -> q = [] \/ known rules q = true.

(** A rule, or the beginning of one, matches the labels of a host, which may be
    percent-encoded; a wildcard below a TLD also concerns the TLD itself. *)
Definition concerned (p labs : list bytes) : Prop :=
  rule_matches p (map decoded labs)
  \/ (exists above l top rest, p = above ++ [str "!" ++ l] /\ labs = top ++ l :: rest
     /\ Forall2 label_matches above (map decoded top))
  \/ exists t, p = [t; str "*"] /\ map decoded labs = [t].

(** The labels of the host of a URL, TLD first. *)
Definition host_labels (ext : idna) (p : url_params) (labs : list bytes) : Prop :=
  exists scheme user raw h port path first zs segs, url_parts ext p scheme user raw h port path
    /\ labelled h first zs segs /\ labs = labels first segs.
