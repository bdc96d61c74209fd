(** WideSpec.v - decimal numbers, for property C108. *)

From Verif Require Import Base.
Local Open Scope Z_scope.

(** The number with the given digits, the highest first. *)
Definition decimal (ds : list Z) : Z := fold_left (fun n d => 10 * n + d) ds 0.
(** The text of digits. *)
Definition digits_text (ds : list Z) : bytes := map (fun d => Z.to_N (48 + d)) ds.
(** The text is a number: an optional sign and at least one digit. *)
Inductive numeral : bytes -> Z -> Prop :=
| Plain ds : ds <> [] -> Forall (fun d => 0 <= d <= 9) ds -> numeral (digits_text ds) (decimal ds)
| Plus ds : ds <> [] -> Forall (fun d => 0 <= d <= 9) ds -> numeral (str "+" ++ digits_text ds) (decimal ds)
| Minus ds : ds <> [] -> Forall (fun d => 0 <= d <= 9) ds -> numeral (str "-" ++ digits_text ds) (- decimal ds).
