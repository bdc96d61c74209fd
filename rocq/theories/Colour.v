(** Colour.v - what github.com/fatih/color v1.19.0 (go.mod:8) writes for PrintRes (print.go) and
    the commands that use it.

    Print.v says with which attributes each text is printed.  Here the pieces are written as bytes:
    with escape sequences, or without them if NoColor is set (NO_COLOR or TERM=dumb in the
    environment, or the output is no terminal).  The library is not part of /repo; Print, Println,
    format, unformat and sequence are written down from knowledge of it. *)

From Verif Require Import Base Print.
Local Open Scope N_scope.

(** The numbers of the attributes, as strconv.Itoa writes them. *)
Definition attribute_text (a : attribute) : bytes :=
  match a with
  | FgHiYellow => str "93" | FgHiBlack => str "90" | FgHiWhite => str "97"
  | FgHiBlue => str "94" | FgHiRed => str "91" | Bold => str "1"
  end.
(** unformat: ResetBold for Bold (mapResetAttributes), Reset for colours *)
Definition reset_text (a : attribute) : bytes := match a with Bold => str "22" | _ => str "0" end.

(** strings.Join(l, ";") *)
Fixpoint join_semicolon (l : list bytes) : bytes :=
  match l with
  | [] => []
  | [x] => x
  | x :: l' => x ++ str ";" ++ join_semicolon l'
  end.
Definition escape_with (params : bytes) : bytes := 27 :: str "[" ++ params ++ str "m".

(** Color.Print writes format(), the text and the sequence for Reset.  Color.Println wraps the
    text, without the line feed, in format() and unformat(), and writes a line feed.  The pieces
    of Println in Print.v end in this line feed; Print is used for labels only, which do not. *)
Definition write_piece (no_color : bool) (p : piece) : bytes :=
  let '(attrs, text) := p in
  if no_color then text
  else
    let format := escape_with (join_semicolon (map attribute_text attrs)) in
    let unformat := escape_with (join_semicolon (map reset_text attrs)) in
    match rev text with
    | 10 :: line => format ++ rev line ++ unformat ++ [10]
    | _ => format ++ text ++ escape_with (str "0")
    end.
Definition write_pieces (no_color : bool) (l : list piece) : bytes := flat_map (write_piece no_color) l.
