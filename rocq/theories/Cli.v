(** Cli.v - model of the command line: cmd/main.go, cmd/fasttld/root.go and the flags of
    cmd/fasttld/extract.go.

    The arguments are interpreted by github.com/spf13/cobra v1.10.2 and github.com/spf13/pflag
    v1.0.10 (go.mod:14, 24), whose code is not part of the repository; the parts that matter for
    these two commands are modelled here by their definitions, which the comments name.  All
    flags are boolean, so that no flag takes the next argument as its value. *)

From Verif Require Import Base Str Net Trie Extract World Update Calls Print.
Local Open Scope N_scope.

(** The variables that flags set: extract.go:11; cobra's help and version flags. *)
Inductive variable := IncludePrivateSuffix | IgnoreSubDomains | ToPunyCode | HelpWanted | VersionWanted.
Definition variable_eqb (v w : variable) : bool :=
  match v, w with
  | IncludePrivateSuffix, IncludePrivateSuffix | IgnoreSubDomains, IgnoreSubDomains | ToPunyCode, ToPunyCode
  | HelpWanted, HelpWanted | VersionWanted, VersionWanted => true
  | _, _ => false
  end.

(** pflag.Flag, with Name, Shorthand and Value; FlagSet.Lookup and FlagSet.ShorthandLookup *)
Record flag := mkFlag { f_name : bytes; f_short : N; f_variable : variable }.
Definition lookup (flags : list flag) (name : bytes) : option flag :=
  find (fun f => bytes_eqb (f_name f) name) flags.
Definition shorthand_lookup (flags : list flag) (c : N) : option flag := find (fun f => f_short f =? c) flags.

(** The values of the variables: the assignments made so far, the last one first.  All are
    false in the beginning. *)
Definition values := list (variable * bool).
Definition get_bool (vals : values) (v : variable) : bool :=
  match find (fun a => variable_eqb (fst a) v) vals with Some (_, b) => b | None => false end.

(** strconv.ParseBool *)
Definition parse_bool (s : bytes) : option bool :=
  if existsb (bytes_eqb s) [str "1"; str "t"; str "T"; str "true"; str "TRUE"; str "True"] then Some true
  else if existsb (bytes_eqb s) [str "0"; str "f"; str "F"; str "false"; str "FALSE"; str "False"] then Some false
  else None.

Inductive cli_err :=
| UnknownCommand (name : bytes)
| BadFlagSyntax (arg : bytes)
| UnknownFlag (name : bytes)
| UnknownShorthand (c : N)
| InvalidValue (name value : bytes)
| WrongNumberOfArgs (n : Z).

(** FlagSet.Set of a boolean flag *)
Definition set_flag (vals : values) (f : flag) (value : bytes) : cli_err + values :=
  match parse_bool value with
  | Some b => inr ((f_variable f, b) :: vals)
  | None => inl (InvalidValue (f_name f) value)
  end.
(** Flag.NoOptDefVal of a boolean flag *)
Definition no_opt_def_val : bytes := str "true".

(** strings.SplitN(s, "=", 2) *)
Fixpoint split_equals (s : bytes) : bytes * option bytes :=
  match s with
  | [] => ([], None)
  | c :: s' => if c =? 61 then ([], Some s') else let '(a, b) := split_equals s' in (c :: a, b)
  end.

(** FlagSet.parseLongArg; [name] is what follows "--".  The flag "help" is always defined here. *)
Definition parse_long (flags : list flag) (name : bytes) (vals : values) : cli_err + values :=
  if (len name =? 0)%Z || has_prefix name (str "-") || has_prefix name (str "=")
  then inl (BadFlagSyntax (str "--" ++ name))
  else
    let '(name, value) := split_equals name in
    match lookup flags name with
    | None => inl (UnknownFlag name)
    | Some f => set_flag vals f (match value with Some v => v | None => no_opt_def_val end)
    end.

(** FlagSet.parseShortArg with FlagSet.parseSingleShortArg; [s] is what follows "-". *)
Fixpoint parse_short (flags : list flag) (s : bytes) (vals : values) : cli_err + values :=
  match s with
  | [] => inr vals
  | c :: s' =>
    if has_prefix s (str "test.") then inr vals             (* isGotestShorthandFlag *)
    else match shorthand_lookup flags c with
         | None => inl (UnknownShorthand c)
         | Some f =>
           if (2 <? len s)%Z && has_prefix s' (str "=") then set_flag vals f (skipn 1 s')
           else match set_flag vals f no_opt_def_val with
                | inl e => inl e
                | inr vals => parse_short flags s' vals
                end
         end
  end.

(** FlagSet.parseArgs with interspersed arguments; the result is the values and FlagSet.Args. *)
Fixpoint parse_args (flags : list flag) (args : list bytes) (vals : values) : cli_err + (values * list bytes) :=
  match args with
  | [] => inr (vals, [])
  | s :: args =>
    if (len s =? 0)%Z || negb (has_prefix s (str "-")) || (len s =? 1)%Z then
      match parse_args flags args vals with
      | inl e => inl e
      | inr (vals, rest) => inr (vals, s :: rest)
      end
    else if has_prefix s (str "--") then
      if (len s =? 2)%Z then inr (vals, args)
      else match parse_long flags (skipn 2 s) vals with
           | inl e => inl e
           | inr vals => parse_args flags args vals
           end
    else match parse_short flags (skipn 1 s) vals with
         | inl e => inl e
         | inr vals => parse_args flags args vals
         end
  end.

(** The condition of stripFlags and argsMinusFirstX (cobra, command.go) for an argument that is
    followed by a value, with hasNoOptDefVal and shortHasNoOptDefVal *)
Definition takes_value (flags : list flag) (s : bytes) : bool :=
  has_prefix s (str "--") && negb (memN 61 s)
    && match lookup flags (skipn 2 s) with Some _ => false | None => true end
  || has_prefix s (str "-") && negb (memN 61 s) && (len s =? 2)%Z
    && match nth_error s 1 with
       | Some c => match shorthand_lookup flags c with Some _ => false | None => true end
       | None => true
       end.
(** stripFlags *)
Fixpoint strip_flags (flags : list flag) (args : list bytes) : list bytes :=
  match args with
  | [] => []
  | s :: args =>
    if bytes_eqb s (str "--") then []
    else if takes_value flags s then
      match args with
      | [] | [_] => []
      | _ :: args => strip_flags flags args
      end
    else if negb (len s =? 0)%Z && negb (has_prefix s (str "-")) then s :: strip_flags flags args
    else strip_flags flags args
  end.
(** argsMinusFirstX *)
Fixpoint args_minus_first (flags : list flag) (args : list bytes) (x : bytes) : list bytes :=
  match args with
  | [] => []
  | s :: args' =>
    if bytes_eqb s (str "--") then args
    else if takes_value flags s then
      match args' with
      | [] => args
      | v :: args' => s :: v :: args_minus_first flags args' x
      end
    else if negb (has_prefix s (str "-")) && bytes_eqb s x then args'
    else s :: args_minus_first flags args' x
  end.

(** The commands: root.go:12-18, extract.go:13-16, 43, and those that cobra adds (InitDefaultHelpCmd,
    InitDefaultCompletionCmd, initCompleteCmd). *)
Inductive command := Root | ExtractCommand | HelpCommand | CompletionCommand | CompleteCommand.
Definition subcommands : list (command * list bytes) :=
  [(ExtractCommand, [str "extract"; str "ext"]); (HelpCommand, [str "help"]);
   (CompletionCommand, [str "completion"]); (CompleteCommand, [str "__complete"; str "__completeNoDesc"])].
(** Command.findNext at the root command *)
Definition find_next (next : bytes) : option command :=
  match find (fun c => existsb (bytes_eqb next) (snd c)) subcommands with Some (c, _) => Some c | None => None end.

(** Command.Find with legacyArgs at the root command, which has no flags at that time.  The
    extract command has no commands below it. *)
Definition find_command (args : list bytes) : cli_err + (command * list bytes) :=
  match strip_flags [] args with
  | [] => inr (Root, args)
  | next :: _ =>
    match find_next next with
    | Some c => inr (c, args_minus_first [] args next)
    | None => inl (UnknownCommand next)
    end
  end.

(** What the program is going to do: run the function of the extract command (extract.go:25-36)
    or of the root command (root.go:17), or what cobra does on its own. *)
Inductive decision :=
| RunExtract (include_private_suffix ignore_sub_domains to_punycode : bool) (arg : bytes)
| RunRoot
| ShowHelp (c : command)
| ShowVersion
| AnotherCommand (c : command) (args : list bytes)
| Fails (e : cli_err).

(** Command.InitDefaultHelpFlag and Command.InitDefaultVersionFlag *)
Definition help_flag : flag := mkFlag (str "help") 104 HelpWanted.
Definition version_flag : flag := mkFlag (str "version") 118 VersionWanted.
(** extract.go:40-42 *)
Definition extract_flags : list flag :=
  [mkFlag (str "private-suffix") 112 IncludePrivateSuffix;
   mkFlag (str "ignore-subdomains") 105 IgnoreSubDomains;
   mkFlag (str "to-punycode") 116 ToPunyCode].

(** Command.execute of the extract command; extract.go:24 cobra.ExactArgs(1) *)
Definition execute_extract (args : list bytes) : decision :=
  match parse_args (extract_flags ++ [help_flag]) args [] with
  | inl e => Fails e
  | inr (vals, rest) =>
    if get_bool vals HelpWanted then ShowHelp ExtractCommand
    else match rest with
         | [url] => RunExtract (get_bool vals IncludePrivateSuffix) (get_bool vals IgnoreSubDomains)
                               (get_bool vals ToPunyCode) url
         | _ => Fails (WrongNumberOfArgs (len rest))
         end
  end.
(** Command.execute of the root command; [version] is the variable of root.go:10, which the
    linker may set. *)
Definition execute_root (version : bytes) (args : list bytes) : decision :=
  let versioned := negb (len version =? 0)%Z in
  match parse_args (help_flag :: if versioned then [version_flag] else []) args [] with
  | inl e => Fails e
  | inr (vals, _) =>
    if get_bool vals HelpWanted then ShowHelp Root
    else if versioned && get_bool vals VersionWanted then ShowVersion
    else RunRoot
  end.
(** Command.ExecuteC; [args] is os.Args[1:]. *)
Definition decide (version : bytes) (args : list bytes) : decision :=
  match find_command args with
  | inl e => Fails e
  | inr (Root, args) => execute_root version args
  | inr (ExtractCommand, args) => execute_extract args
  | inr (c, args) => AnotherCommand c args
  end.

(** How the program ends: with an exit status and what it printed with fatih/color on the
    standard output, or with a text of cobra and status 0. *)
Inductive main_result := Exit (status : Z) (output : list piece) | CobraText (d : decision).

(** main.go:6-8, root.go:21-26, log.Fatal in extract.go:28 *)
Definition cmd_main (to_ascii : bytes -> option bytes) (hardcoded : bytes) (ext : idna) (quote : bytes -> bytes)
    (version : bytes) (args : list bytes) : prog main_result :=
  match decide version args with
  | RunExtract private ignore puny url =>
    r <~ extract_command to_ascii hardcoded ext quote private ignore puny url ;;
    ret (match r with Fatal _ => Exit 1 [] | Printed output => Exit 0 output end)
  | RunRoot => ret (Exit 0 [])
  | Fails _ => ret (Exit 1 [])
  | d => ret (CobraText d)
  end.
