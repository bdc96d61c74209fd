(** RelSpec.v - comparing the outcomes of two calls. *)

From Verif Require Import Base Extract.

(** Two results say the same about the host (fasttld.go:118-120 ExtractResult). *)
Definition same_host (r r' : result) : Prop :=
  r_sub_domain r' = r_sub_domain r /\ r_domain r' = r_domain r /\ r_suffix r' = r_suffix r
  /\ r_registered_domain r' = r_registered_domain r /\ r_host_type r' = r_host_type r.
