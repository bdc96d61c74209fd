(** PrintSpec.v - what the printed output should look like. *)

From Verif Require Import Base Extract Print.
Local Open Scope N_scope.

(** The text as seen without colours. *)
Definition plain (l : list piece) : bytes := concat (map snd l).

(** A table with a heading column of width 17, aligned to the right, and a value column. *)
Definition heading (name : bytes) : bytes := repeat 32 (17 - length name) ++ name ++ [58; 32].
Record row := mkRow { row_name : bytes; row_highlight : list attribute; row_value : bytes }.
Definition row_pieces (w : row) : list piece :=
  [(row_highlight w, heading (row_name w)); ([FgHiWhite], row_value w ++ [10])].

(** The heading of a component is yellow if there is one, else grey. *)
Definition component (name : String.string) (value : bytes) : row :=
  mkRow (str name) (match value with [] => [FgHiBlack] | _ => [FgHiYellow; Bold] end) value.

(** The names of host types 1, 2 and 3. *)
Definition host_type_name (n : Z) (name : bytes) : Prop :=
  n = 1%Z /\ name = str "hostname" \/ n = 2%Z /\ name = str "ipv4 address" \/ n = 3%Z /\ name = str "ipv6 address"
  \/ ~ (1 <= n <= 3)%Z /\ name = [].

Definition components (url : bytes) (r : result) : list row :=
  [component "url" url; component "scheme" (r_scheme r); component "userinfo" (r_user_info r);
   component "subdomain" (r_sub_domain r); component "domain" (r_domain r); component "suffix" (r_suffix r);
   component "registered domain" (r_registered_domain r); component "port" (r_port r); component "path" (r_path r)].

(** [shows url r n l]: [l] is the table of the url, the components of [r] and host type [n],
    followed by an empty line. *)
Definition shows (url : bytes) (r : result) (n : Z) (l : list piece) : Prop :=
  exists name colours, host_type_name n name
    /\ (n = 0%Z -> colours = [FgHiBlack]) /\ (n <> 0%Z -> colours = [FgHiBlue; Bold])
    /\ l = flat_map row_pieces (components url r ++ [mkRow (str "host type") colours name]) ++ [([], [10])].

Definition one_line (s : bytes) : Prop := ~ In 10 s.
Definition one_lines (url : bytes) (r : result) : Prop :=
  Forall one_line [url; r_scheme r; r_user_info r; r_sub_domain r; r_domain r; r_suffix r; r_registered_domain r; r_port r; r_path r].

(** The line in front of it if Extract failed. *)
Definition error_line (message : bytes) : list piece := [([FgHiRed; Bold], str "Error: "); ([FgHiWhite], message ++ [10])].
