(** OrderSpec.v - whose list a call of Extract uses, in terms of what can be seen of the calls. *)

From Verif Require Import Base Chars Extract World Update Calls ListSpec UpdateSpec NewSpec ErrSpec LibSpec LinSpec.

(** What call [i] has been answered, and which of two moments comes first. *)
Definition asked (i : nat) (l : list moment) : list event :=
  flat_map (fun x => match x with Asks k e => if Nat.eqb k i then [e] else [] | _ => [] end) l.
Definition before (l : list moment) (a b : moment) : Prop := exists x y z, l = x ++ a :: y ++ b :: z.

(** Call [w] of New returned [f]; [v] is what New makes of the answers. *)
Definition made (hardcoded : bytes) (l : list moment) (f w : nat) (v : view) : Prop :=
  exists n x, In (Begins w (CallNew n)) l /\ In (Ends w (Ret (FromNew (f, None)))) l
    /\ new_asks (lp_path n) (asked w l) x /\ v = view_of hardcoded (lp_private n) x.
(** Extractor [f] as call [w] left it: New, or an Update that has read a text. *)
Definition left_by (hardcoded : bytes) (l : list moment) (f w : nat) (v : view) : Prop :=
  made hardcoded l f w v
  \/ exists w0 v0 text, made hardcoded l f w0 v0 /\ In (Begins w (CallUpdate f)) l
       /\ update_asks (v_path v0) (asked w l) (inr text) /\ v = mkView (v_path v0) (v_private v0) text.
