(** SplitSpec.v - when two spellings of the labels of a host are divided in the same way. *)

From Verif Require Import Base Chars Host Extract UrlSpec RuleSpec DivergeSpec.

(** Labels [k] to [n-1] are the suffix, label [n] is the domain, the others the subdomain
    (TLD first, from 0). *)
Definition divided (first : bytes) (segs : list seg) (r : result) (k n : nat) : Prop :=
  (k <= n <= length segs)%nat /\ r_suffix r = labels_text (firstn (n - k) (skipn k segs))
  /\ r_domain r = nth n (labels first segs) []
  /\ r_sub_domain r = (if (S n <=? length segs)%nat then host first (skipn (S n) segs) else []).
Definition same_division (first : bytes) (segs : list seg) (r : result) (first' : bytes) (segs' : list seg) (r' : result) : Prop :=
  exists k n, divided first segs r k n /\ divided first' segs' r' k n.

(** The label beside the first wildcard is named by an exception in one of the spellings only. *)
Definition escape_matters (rules labs labs' : list bytes) : Prop :=
  exists above l more above' l' more', labs = above ++ l :: more /\ labs' = above' ++ l' :: more' /\ length above = length above'
    /\ no_wildcard_along rules (map decoded above) /\ known rules (map decoded above ++ [str "*"]) = true
    /\ known rules (map decoded above ++ [str "!" ++ l]) <> known rules (map decoded above ++ [str "!" ++ l']).

(** ASCII letters in lower case. *)
Definition lower_byte (b : N) : N := if ((65 <=? b) && (b <=? 90))%N then (b + 32)%N else b.
Definition lower (s : bytes) : bytes := map lower_byte s.
(** The first label with an upper-case letter would, without it, be part of a rule or named by an
    exception. *)
Definition case_matters (rules labs : list bytes) : Prop :=
  exists above l more, labs = above ++ l :: more /\ Forall (fun k => lower k = k) above /\ lower l <> l
    /\ no_wildcard_along rules above
    /\ (if known rules (above ++ [str "*"]) then known rules (above ++ [str "!" ++ lower l]) else known rules (above ++ [lower l])) = true.

(** ** The published algorithm and escaped hosts *)

(** The components are those at the labels that the algorithm gives for the decoded host. *)
Definition as_published_decoded (rules : list bytes) (first : bytes) (segs : list seg) (r : result) : Prop :=
  exists n, psl_suffix rules (map decoded (labels first segs)) n /\ (n <= length segs)%nat
    /\ r_suffix r = labels_text (firstn n segs) /\ r_domain r = nth n (labels first segs) []
    /\ r_sub_domain r = (if (S n <=? length segs)%nat then host first (skipn (S n) segs) else []).
(** The label beside the first wildcard is named by an exception as it is spelled, but not when
    decoded; or the other way round, unless another exception makes up for it. *)
Definition misspelt (rules labs : list bytes) : Prop :=
  exists above l more, labs = above ++ l :: more
    /\ no_wildcard_along rules (map decoded above) /\ known rules (map decoded above ++ [str "*"]) = true
    /\ ((known rules (map decoded above ++ [str "!" ++ l]) = true /\ known rules (map decoded above ++ [str "!" ++ decoded l]) = false)
        \/ (known rules (map decoded above ++ [str "!" ++ l]) = false /\ known rules (map decoded above ++ [str "!" ++ decoded l]) = true
            /\ ~ exists path, is_rule rules path = true /\ exception_matches path (map decoded labs)
                   /\ length path = S (S (length above)))).
