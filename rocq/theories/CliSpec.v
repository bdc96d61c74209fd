(** CliSpec.v - how command lines are meant to be read. *)

From Verif Require Import Base Print Cli.
Local Open Scope N_scope.

(** The options of the extract command: name and letter. *)
Definition options : list (variable * bytes * bytes) :=
  [(IncludePrivateSuffix, str "private-suffix", str "p"); (IgnoreSubDomains, str "ignore-subdomains", str "i");
   (ToPunyCode, str "to-punycode", str "t"); (HelpWanted, str "help", str "h")].
Definition truths : list bytes := [str "1"; str "t"; str "T"; str "true"; str "TRUE"; str "True"].
Definition falsehoods : list bytes := [str "0"; str "f"; str "F"; str "false"; str "FALSE"; str "False"].
Inductive means : bytes -> bool -> Prop :=
| means_true : forall s, In s truths -> means s true
| means_false : forall s, In s falsehoods -> means s false.

(** Letters of options one after the other, the last possibly with a value.  Letters that are
    followed by "test." are read without what follows. *)
Inductive letters : bytes -> list (variable * bool) -> Prop :=
| letters_none : letters [] []
| letters_more : forall v name c s l, In (v, name, c) options -> letters s l -> letters (c ++ s) ((v, true) :: l)
| letters_value : forall v name c s b, In (v, name, c) options -> means s b -> letters (c ++ str "=" ++ s) [(v, b)]
| letters_test : forall s, letters (str "test." ++ s) [].

(** An argument that sets options. *)
Inductive spells : bytes -> list (variable * bool) -> Prop :=
| spells_name : forall v name c, In (v, name, c) options -> spells (str "--" ++ name) [(v, true)]
| spells_value : forall v name c s b, In (v, name, c) options -> means s b -> spells (str "--" ++ name ++ str "=" ++ s) [(v, b)]
| spells_letters : forall s l, s <> [] -> letters s l -> spells (str "-" ++ s) l.

(** Other arguments begin with another character than '-', or are empty or "-". *)
Definition word (s : bytes) : Prop := s = str "-" \/ forall t, s <> str "-" ++ t.

(** [reads args l words]: the arguments set the options in [l], in this order, and contain the
    words [words]; after "--" there are only words. *)
Inductive reads : list bytes -> list (variable * bool) -> list bytes -> Prop :=
| reads_none : reads [] [] []
| reads_end : forall args, reads (str "--" :: args) [] args
| reads_option : forall s l args l' words, spells s l -> reads args l' words -> reads (s :: args) (l ++ l') words
| reads_word : forall s args l words, word s -> reads args l words -> reads (s :: args) l (s :: words).

(** An option is on iff the last argument that sets it says so. *)
Definition is_on (l : list (variable * bool)) (v : variable) (b : bool) : Prop :=
  (exists l1 l2, l = l1 ++ (v, b) :: l2 /\ forall b', ~ In (v, b') l2) \/ b = false /\ forall b', ~ In (v, b') l.

Definition extract_name (s : bytes) : Prop := s = str "extract" \/ s = str "ext".

(** What may stand before the name of the command: arguments that begin with '-' or are empty;
    but those of the form -x or --name, without "=", hide the argument that follows. *)
Definition hides (s : bytes) : Prop :=
  (exists c, s = str "-" ++ [c] \/ exists t, s = str "--" ++ c :: t) /\ s <> str "--" /\ ~ In 61 s.
Inductive before_command : list bytes -> Prop :=
| before_none : before_command []
| before_hidden : forall s t args, hides s -> before_command args -> before_command (s :: t :: args)
| before_alone : forall s args, s = [] \/ (exists t, s = str "-" ++ t) -> ~ hides s -> s <> str "--" ->
    before_command args -> before_command (s :: args).
