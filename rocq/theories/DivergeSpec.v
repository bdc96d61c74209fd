(** DivergeSpec.v - for which hosts Extract departs from the algorithm of publicsuffix.org. *)

From Verif Require Import Base Chars Host Extract UrlSpec RuleSpec.

(** Rules as on publicsuffix.org: no rule "*"; where a rule has a wildcard, the rule up to it
    is in the list; exceptions are beside a wildcard and end there. *)
Record well_formed (rules : list bytes) : Prop := {
  wf_top : known rules [str "*"] = false;
  wf_wild : forall rule above q, In rule rules -> rule_path rule = above ++ str "*" :: q ->
    is_rule rules (above ++ [str "*"]) = true;
  wf_exc : forall rule above k q, In rule rules -> rule_path rule = above ++ (str "!" ++ k) :: q ->
    q = [] /\ is_rule rules (above ++ [str "*"]) = true }.

(** A rule matches a host; exceptions match with their "!" removed. *)
Definition matching (rules labs path : list bytes) : Prop :=
  is_rule rules path = true
  /\ (exception_matches path labs \/ (~ is_exception path /\ rule_matches path labs)).

(** No rule has a wildcard beside a label of [path]. *)
Definition no_wildcard_along (rules path : list bytes) : Prop :=
  forall q x y, path = q ++ x :: y -> known rules (q ++ [str "*"]) = false.

(** (1) The TLD of the host is not a suffix, but a longer rule ends in it. *)
Definition tld_missing (rules labs : list bytes) : Prop :=
  (exists l more, labs = l :: more /\ known rules [l] = true /\ is_suffix rules [l] = false)
  /\ exists path, matching rules labs path.
(** (2) The labels of the host that begin a rule are no rule themselves. *)
Definition dead_end (rules labs : list bytes) : Prop :=
  (exists l more, labs = l :: more /\ is_suffix rules [l] = true)
  /\ exists path l more, labs = path ++ l :: more /\ no_wildcard_along rules path /\ gap rules path
     /\ known rules (path ++ [l]) = false.
(** (3) A longer rule that matches is passed over at a wildcard. *)
Definition passed_over (rules labs : list bytes) : Prop :=
  exists above l more, labs = above ++ l :: more /\ no_wildcard_along rules above
    /\ known rules (above ++ [str "*"]) = true /\ known rules (above ++ [str "!" ++ l]) = false
    /\ (exists path, matching rules labs path /\ (S (length above) < length path)%nat)
    /\ ~ exists path, is_rule rules path = true /\ exception_matches path labs /\ length path = S (S (length above)).
Definition diverges (rules labs : list bytes) : Prop :=
  tld_missing rules labs \/ dead_end rules labs \/ passed_over rules labs.

(** The components are those that the algorithm gives. *)
Definition as_published (rules : list bytes) (first : bytes) (segs : list seg) (r : result) : Prop :=
  exists n, psl_suffix rules (labels first segs) n /\ (n <= length segs)%nat
    /\ r_suffix r = labels_text (firstn n segs) /\ r_domain r = nth n (labels first segs) []
    /\ r_sub_domain r = (if (S n <=? length segs)%nat then host first (skipn (S n) segs) else []).

(** A check of rule lists. *)
Definition well_formed_b (rules : list bytes) : bool :=
  negb (known rules [str "*"]) &&
  forallb (fun rule =>
    let path := rule_path rule in
    forallb (fun n =>
      match skipn n path with
      | [] => true
      | k :: q =>
        if same k (str "*") then is_rule rules (firstn n path ++ [str "*"])
        else match k with
             | b :: _ => if (b =? 33)%N then match q with [] => is_rule rules (firstn n path ++ [str "*"]) | _ => false end else true
             | [] => true
             end
      end) (seq 0 (length path))) rules.
