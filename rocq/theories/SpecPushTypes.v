(** Specification for the flow algorithms over the built-in integer types. *)
From Verif Require Import Base ModelAlgebra.

(** The types in which the difference of a capacity and a flow is computed as if flows could be negative: the
    signed types, and the unsigned types that are not promoted to [int]. *)
Definition holds_negatives (t : ctype) : Prop :=
  (exists w, t = CInt true w) \/ t = CInt false W32 \/ t = CInt false W64.
