(** RuleSpec.v - specification of suffix rules and of what they mean for a host.  Nothing
    here is used by the model. *)

From Verif Require Import Base Utf8 Chars Host Addr Extract UrlSpec.
Local Open Scope N_scope.

(** ** Rules *)

(** The labels of a rule, TLD first. *)
Fixpoint path_from (done : list bytes) (cur rule : bytes) : list bytes :=
  match rule with
  | [] => cur :: done
  | b :: rule' => if b =? 46 then path_from (cur :: done) [] rule' else path_from done (cur ++ [b]) rule'
  end.
Definition rule_path (rule : bytes) : list bytes := path_from [] [] rule.

Fixpoint same (s t : bytes) : bool :=
  match s, t with
  | [], [] => true
  | a :: s', b :: t' => (a =? b) && same s' t'
  | _, _ => false
  end.
(** [path] is a prefix of / equal to [ls]. *)
Fixpoint begins (path ls : list bytes) : bool :=
  match path, ls with
  | [], _ => true
  | k :: path', l :: ls' => same k l && begins path' ls'
  | _, [] => false
  end.
Fixpoint same_path (path ls : list bytes) : bool :=
  match path, ls with
  | [], [] => true
  | k :: path', l :: ls' => same k l && same_path path' ls'
  | _, _ => false
  end.

(** Some rule starts (from the TLD) with [path] / is [path]. *)
Definition known (rules : list bytes) (path : list bytes) : bool :=
  existsb (fun rule => begins path (rule_path rule)) rules.
Definition is_rule (rules : list bytes) (path : list bytes) : bool :=
  existsb (fun rule => same_path path (rule_path rule)) rules.
(** What counts as a suffix: a rule, or a TLD with a wildcard directly below it. *)
Definition is_suffix (rules : list bytes) (path : list bytes) : bool :=
  is_rule rules path
  || match path with [k] => known rules [k; str "*"] | _ => false end.

(** ** Labels of a host *)

(** Percent decoding of a label; empty if it is malformed. *)
Fixpoint pct (s : bytes) : option bytes :=
  match s with
  | [] => Some []
  | b :: s' =>
    if b =? 37 then
      match s' with
      | x :: y :: s'' => if is_hex x && is_hex y then option_map (cons (16 * unhex x + unhex y)) (pct s'') else None
      | _ => None
      end
    else option_map (cons (if b =? 43 then 32 else b)) (pct s')
  end.
Definition decoded (label : bytes) : bytes := match pct label with Some d => d | None => [] end.

(** [h] is, TLD first, the labels [segs] with the separators to their left and the leftmost
    label [first]; [zs] are the trailing separators. *)
Definition labelled (h first : bytes) (zs segs : list seg) : Prop :=
  h = host first (zs ++ segs) /\ well_split first (zs ++ segs) /\ Forall (fun g => fst g = []) zs
  /\ match segs with [] => True | g :: _ => fst g <> [] end.

(** The text of consecutive labels without the separator on their left. *)
Fixpoint labels_text (segs : list seg) : bytes :=
  match segs with
  | [] => []
  | [(l, _)] => l
  | (l, s) :: segs' => labels_text segs' ++ s ++ l
  end.

(** ** The walk over the labels *)

(** Labels are consumed from the right as long as they are the beginning of a rule.  Where a
    wildcard is possible, one more label is consumed unless an exception names it.  Returns
    the number of labels to the right of the first one that completes a suffix, and the number
    of labels consumed. *)
Fixpoint walk (rules : list bytes) (path : list bytes) (labs : list bytes) : option nat * nat :=
  match labs with
  | [] => (None, 0%nat)
  | label :: more =>
    if known rules (path ++ [str "*"]) then
      (None, if known rules (path ++ [str "!" ++ label]) then 0%nat else 1%nat)
    else
      let path' := path ++ [decoded label] in
      if known rules path' then
        let '(e, n) := walk rules path' more in
        (if is_suffix rules path' then Some 0%nat else option_map S e, S n)
      else (None, 0%nat)
  end.

(** The components: with [k] and [n] as above the suffix is made of the labels [k] to [n-1],
    the domain is label [n], what is to its left is the subdomain. *)
Definition reported (rules : list bytes) (first : bytes) (segs : list seg) (sub dom sfx : bytes) : Prop :=
  let below n := if (n <=? length segs)%nat then host first (skipn n segs) else [] in
  match walk rules [] (labels first segs) with
  | (Some k, n) => (k < n <= length segs)%nat /\ sfx = labels_text (firstn (n - k) (skipn k segs))
                   /\ dom = nth n (labels first segs) [] /\ sub = below (S n)
  | (None, _) => sfx = [] /\ dom = nth 0 (labels first segs) [] /\ sub = below 1%nat
  end.

(** ** Conditions on rule lists *)

(** The TLD of a host, if it is the TLD of some rule, is itself a suffix. *)
Definition tld_is_suffix (rules : list bytes) (tld : bytes) : Prop :=
  known rules [decoded tld] = true -> is_suffix rules [decoded tld] = true.
(** This holds for every host. *)
Definition tld_closed (rules : list bytes) : Prop :=
  forall l, known rules [l] = true -> is_suffix rules [l] = true.

(** The last label of the host of a URL. *)
Definition host_tld (ext : idna) (p : url_params) (tld : bytes) : Prop :=
  exists scheme user raw h port path first zs segs, url_parts ext p scheme user raw h port path
    /\ labelled h first zs segs /\ tld = nth 0 (labels first segs) [].

(** No rule with at least two labels ends in a number that can be the last octet of an IPv4
    address. *)
Definition no_numeric_tld (rules : list bytes) : Prop :=
  forall d k, octet d -> known rules [d; k] = false.

(** A label of letters, digits and inner hyphens. *)
Definition ldh (l : bytes) : Prop :=
  Forall (fun b => letter b \/ digit b \/ b = 45) l /\ hd 45 l <> 45 /\ last l 45 <> 45.

(** Two texts made of the same labels with possibly different separators. *)
Definition same_but_seps (a b : bytes) : Prop :=
  exists first segs segs', a = host first segs /\ b = host first segs'
    /\ map fst segs = map fst segs' /\ well_split first segs /\ well_split first segs'.

(** The text that was in the URL for a result. *)
Definition port_text (port : option bytes) : bytes := match port with Some p => str ":" ++ p | None => [] end.
Definition host_form (r : result) (text : bytes) : Prop :=
  match r_host_type r with
  | HIPv6 => text = str "[" ++ r_domain r ++ str "]"
  | HIPv4 => exists w, text = r_domain r ++ w /\ seps w
  | HHostName => exists dot1 dot2 w,
      text = r_sub_domain r ++ dot1 ++ r_domain r ++ dot2 ++ r_suffix r ++ w
      /\ (is_sep_text dot1 \/ (dot1 = [] /\ r_sub_domain r = []))
      /\ ((r_suffix r <> [] /\ is_sep_text dot2) \/ (r_suffix r = [] /\ dot2 = []))
      /\ seps w
  | HNone => False
  end.
Definition assembled (p : url_params) (r : result) : Prop :=
  exists user text port, trimmed ws_chars (p_url p) (r_scheme r ++ user_at user ++ text ++ port_text port ++ r_path r)
    /\ r_user_info r = user_of user /\ r_port r = port_of port /\ host_form r text.

(** Labels that mean the same after percent decoding. *)
Definition same_decoding (l l' : bytes) : Prop := forall d, percent_decoded l d <-> percent_decoded l' d.

(** ** The algorithm of publicsuffix.org *)

(** A label of a rule matches a label of a domain. *)
Definition label_matches (k l : bytes) : Prop := k = str "*" \/ k = l.
(** A normal rule of [n] labels matches a domain (labels TLD first). *)
Definition rule_matches (path labs : list bytes) : Prop :=
  exists top rest, labs = top ++ rest /\ Forall2 label_matches path top.
(** The last element of the path of an exception rule starts with '!', which is not part of
    the label. *)
Definition exception_matches (path labs : list bytes) : Prop :=
  exists above k top rest, path = above ++ [str "!" ++ k] /\ labs = top ++ k :: rest
    /\ Forall2 label_matches above top.
Definition is_exception (path : list bytes) : Prop := exists above k, path = above ++ [str "!" ++ k].

(** The public suffix of a domain has [n] labels, 0 if there is none: "If more than one rule
    matches, the prevailing rule is the one which is an exception rule.  If there is no
    matching exception rule, the prevailing rule is the one with the most labels.  If the
    prevailing rule is an exception rule, modify it by removing the leftmost label."  The
    default rule "*" is not applied, as documented for the library. *)
Definition psl_suffix (rules : list bytes) (labs : list bytes) (n : nat) : Prop :=
  (exists rule, In rule rules /\ exception_matches (rule_path rule) labs /\ length (rule_path rule) = S n)
  \/ ((forall rule, In rule rules -> ~ exception_matches (rule_path rule) labs)
      /\ ((exists rule, In rule rules /\ ~ is_exception (rule_path rule)
             /\ rule_matches (rule_path rule) labs /\ length (rule_path rule) = n
             /\ forall rule', In rule' rules -> ~ is_exception (rule_path rule') ->
                  rule_matches (rule_path rule') labs -> (length (rule_path rule') <= n)%nat)
          \/ (n = 0%nat /\ forall rule, In rule rules -> ~ is_exception (rule_path rule) ->
                ~ rule_matches (rule_path rule) labs))).

(** The labels of the host are not special in rules. *)
Definition plain_label (l : bytes) : Prop :=
  ~ In 37 l /\ ~ In 43 l /\ l <> str "*" /\ forall k, l <> str "!" ++ k.

(** The rule list is regular along the labels of a host. *)
Record regular (rules : list bytes) (labs : list bytes) : Prop := {
  (** there is no rule "*" *)
  reg_top : known rules [str "*"] = false;
  (** the TLD is a suffix, or no rule ends with it *)
  reg_tld : forall l more, labs = l :: more -> known rules [l] = true -> is_suffix rules [l] = true;
  (** labels beginning a rule, but no longer so with the next label, are a rule *)
  reg_dead : forall path l more, labs = path ++ l :: more -> path <> [] ->
    known rules path = true -> known rules (path ++ [l]) = false ->
    known rules (path ++ [str "*"]) = false -> is_rule rules path = true;
  (** rules that go on with the wildcard, with the label beside it or with its exception end
      there *)
  reg_wild : forall path l rest k q rule, labs = path ++ l :: rest -> known rules (path ++ [str "*"]) = true ->
    In rule rules -> rule_path rule = path ++ k :: q -> k = str "*" \/ k = l \/ k = str "!" ++ l -> q = [];
  (** exceptions are beside a wildcard *)
  reg_exc : forall path l rest, labs = path ++ l :: rest -> known rules (path ++ [str "!" ++ l]) = true ->
    known rules (path ++ [str "*"]) = true }.

(** A check that a rule list is regular along the labels of every host. *)
Definition regular_list (rules : list bytes) : bool :=
  negb (known rules [str "*"]) &&
  forallb (fun rule =>
    let path := rule_path rule in
    is_suffix rules (firstn 1 path) &&
    forallb (fun n =>
      let above := firstn n path in
      let wild := known rules (above ++ [str "*"]) in
      ((n =? 0)%nat || is_rule rules above || wild) &&
      match skipn n path with
      | [] => true
      | k :: q =>
        let exc := match k with b :: _ => b =? 33 | [] => false end in
        (if wild then match q with [] => same k (str "*") || exc | _ => false end else negb exc)
      end) (seq 0 (S (length path)))) rules.

(** ** Where a rule list is not regular *)

(** Labels that begin a rule (from the TLD) without being a rule or being followed by a
    wildcard. *)
Definition gap (rules : list bytes) (path : list bytes) : Prop :=
  path <> [] /\ known rules path = true /\ is_rule rules path = false /\ known rules (path ++ [str "*"]) = false.
(** The labels of a host that begin a rule end at a gap. *)
Definition stops_in_gap (rules : list bytes) (labs : list bytes) : Prop :=
  exists path l more, labs = path ++ l :: more /\ gap rules path /\ known rules (path ++ [l]) = false.
(** Rules go on below a label that is beside a wildcard, or below the wildcard itself. *)
Definition hidden (rules : list bytes) (path : list bytes) : Prop :=
  exists above k x, path = above ++ [k] /\ known rules (above ++ [str "*"]) = true /\ known rules (path ++ [x]) = true.
(** Exceptions are beside wildcards. *)
Definition exceptions_ok (rules : list bytes) : Prop :=
  forall above k, known rules (above ++ [str "!" ++ k]) = true -> known rules (above ++ [str "*"]) = true.

(** A rule that can matter for hosts with a TLD. *)
Definition concerns (tld rule : bytes) : Prop :=
  exists k rest, rule_path rule = k :: rest /\ (k = decoded tld \/ k = str "*" \/ k = str "!" ++ tld).
