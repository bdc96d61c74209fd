(** ColourSpec.v - a terminal, for property C109.

    It shows bytes, each in the style that is on, and obeys the sequences ESC [ n ; n ; ... m that
    set the style (ECMA-48, SGR): 0 turns everything off, 1 and 22 turn bold on and off, 90 to 97
    choose a colour.  A missing number is 0. *)

From Verif Require Import Base Extract PrintSpec.
Local Open Scope N_scope.

Record style := mkStyle { colour : option N; bold : bool }.
Definition default_style : style := mkStyle None false.
Definition obey (s : style) (n : N) : style :=
  if n =? 0 then default_style
  else if n =? 1 then mkStyle (colour s) true
  else if n =? 22 then mkStyle (colour s) false
  else if (90 <=? n) && (n <=? 97) then mkStyle (Some n) (bold s)
  else s.

Inductive mode := Text | Escape | Numbers (l : list N) (n : N).
Fixpoint screen (s : bytes) (m : mode) (st : style) : list (style * N) * style :=
  match s with
  | [] => ([], st)
  | c :: s' =>
    match m with
    | Text => if c =? 27 then screen s' Escape st else let '(l, st') := screen s' Text st in ((st, c) :: l, st')
    | Escape => if c =? 91 then screen s' (Numbers [] 0) st else screen s' Text st
    | Numbers l n =>
      if is_digit c then screen s' (Numbers l (10 * n + (c - 48))) st
      else if c =? 59 then screen s' (Numbers (l ++ [n]) 0) st
      else if c =? 109 then screen s' Text (fold_left obey (l ++ [n]) st)
      else screen s' Text st
    end
  end.
(** What is to be seen of a text in one style. *)
Definition in_style (st : style) (s : bytes) : list (style * N) := map (fun c => (st, c)) s.

(** A line of the table: the heading in some style, the value in bright white, and a line feed. *)
Definition bright_white : style := mkStyle (Some 97) false.
Definition seen_line (heading_style : style) (name value : bytes) : list (style * N) :=
  in_style heading_style (heading name) ++ in_style bright_white value ++ in_style default_style [10].
(** Headings of components are yellow and bold, grey if there is no such component. *)
Definition component_line (nv : bytes * bytes) : list (style * N) :=
  seen_line (match snd nv with [] => mkStyle (Some 90) false | _ => mkStyle (Some 93) true end) (fst nv) (snd nv).
Definition component_lines (url : bytes) (r : result) : list (style * N) :=
  flat_map component_line [(str "url", url); (str "scheme", r_scheme r); (str "userinfo", r_user_info r); (str "subdomain", r_sub_domain r);
    (str "domain", r_domain r); (str "suffix", r_suffix r); (str "registered domain", r_registered_domain r); (str "port", r_port r); (str "path", r_path r)].
(** Texts without the character that begins escape sequences. *)
Definition no_escape (s : bytes) : Prop := ~ In 27 s.
Definition no_escapes (url : bytes) (r : result) : Prop :=
  Forall no_escape [url; r_scheme r; r_user_info r; r_sub_domain r; r_domain r; r_suffix r; r_registered_domain r; r_port r; r_path r].
