(** ListSpec.v - what the text of a Public Suffix List file means.  Nothing here is used by
    the model. *)

From Verif Require Import Base Utf8 Chars.
Local Open Scope N_scope.

(** The characters with the Unicode property White_Space. *)
Definition white_space : list rune :=
  [9; 10; 11; 12; 13] ++ [32; 133; 160; 5760] ++
  [8192; 8193; 8194; 8195; 8196; 8197; 8198; 8199; 8200; 8201; 8202] ++
  [8232; 8233; 8239; 8287; 12288].

(** The lines of a text: pieces without line feeds that, joined by line feeds, are the text. *)
Fixpoint joined (lines : list bytes) : bytes :=
  match lines with
  | [] => []
  | [l] => l
  | l :: rest => l ++ [10] ++ joined rest
  end.
Definition has_lines (text : bytes) (lines : list bytes) : Prop :=
  lines <> [] /\ Forall (fun l => ~ In 10 l) lines /\ text = joined lines.

(** Blank lines and comments, and the line that opens the private section.  Surrounding white
    space does not matter. *)
Definition starts_with (text prefix : bytes) : Prop := exists rest, text = prefix ++ rest.
Definition ignored_text (text : bytes) : Prop := text = [] \/ starts_with text (str "//").
Definition opens_private (line : bytes) : Prop :=
  trimmed white_space line (str "// ===BEGIN PRIVATE DOMAINS===").
Definition ignored_line (line : bytes) : Prop := exists text, trimmed white_space line text /\ ignored_text text.

(** The rules a line contributes: none if it is ignored or has no ASCII form, else the ASCII
    form, and the text itself if it differs. *)
Inductive line_rules (to_ascii : bytes -> option bytes) (line : bytes) : list bytes -> Prop :=
| line_ignored : ignored_line line -> line_rules to_ascii line []
| line_rejected : forall text, trimmed white_space line text -> ~ ignored_text text ->
    to_ascii text = None -> line_rules to_ascii line []
| line_ascii : forall text, trimmed white_space line text -> ~ ignored_text text ->
    to_ascii text = Some text -> line_rules to_ascii line [text]
| line_unicode : forall text ascii, trimmed white_space line text -> ~ ignored_text text ->
    to_ascii text = Some ascii -> ascii <> text -> line_rules to_ascii line [ascii; text].

(** The rules of a sequence of lines. *)
Definition lines_rules (to_ascii : bytes -> option bytes) (lines rules : list bytes) : Prop :=
  exists rss, Forall2 (line_rules to_ascii) lines rss /\ rules = concat rss.

(** The public and the private rules of a file. *)
Definition list_rules (to_ascii : bytes -> option bytes) (text : bytes) (public private : list bytes) : Prop :=
  exists lines, has_lines text lines /\
    ((Forall (fun l => ~ opens_private l) lines /\ lines_rules to_ascii lines public /\ private = [])
     \/ exists before marker after, lines = before ++ marker :: after
        /\ Forall (fun l => ~ opens_private l) before /\ opens_private marker
        /\ lines_rules to_ascii before public /\ lines_rules to_ascii after private).

(** The rules an extractor uses. *)
Definition used_rules (to_ascii : bytes -> option bytes) (text : bytes) (include_private : bool)
           (rules : list bytes) : Prop :=
  exists public private, list_rules to_ascii text public private
    /\ rules = if include_private then public ++ private else public.

(** A text contains the four section markers. *)
Definition has_text (text part : bytes) : Prop := exists before after, text = before ++ part ++ after.
Definition has_markers (text : bytes) : Prop :=
  has_text text (str "// ===BEGIN ICANN DOMAINS===") /\ has_text text (str "// ===END ICANN DOMAINS===") /\
  has_text text (str "// ===BEGIN PRIVATE DOMAINS===") /\ has_text text (str "// ===END PRIVATE DOMAINS===").
